(** * Model of [msgpack.unpackb], as called in data/gkyl_reader.py 187

    The library (version 1, with its default options: texts are decoded strictly, the
    keys of a map must be texts or bytes) is external; it is modelled after the format.
    The code of an extension must be from 0 to 127 (the library's ExtType). Texts
    and bytes are kept as strings of bytes; floating-point numbers as their bytes, most
    significant first. Simplified: timestamps (extensions with code -1) are refused, and
    the limit on the depth of nested objects (1024) is left out. *)
From Coq Require Import String Ascii List ZArith Bool.
From Verif Require Import Prelude Extract_Model.
Import ListNotations.
Open Scope string_scope. Open Scope list_scope. Open Scope Z_scope.

(** A key: whether it is bytes rather than text, and its bytes.
    Part of the unpacking called in data/gkyl_reader.py 187. *)
Definition mkey : Type := bool * string.

Inductive mval :=
| MNil | MBool (b : bool) | MInt (z : Z) | MF32 (w : list Z) | MF64 (w : list Z)
| MStr (s : string) | MBin (s : string) | MExt (code : Z) (s : string)
| MArr (l : list mval) | MMap (d : list (mkey * mval)).

(** Bytes as a string; data/gkyl_reader.py 187. *)
Definition text (w : list Z) : string := string_of_list_ascii (List.map (fun b => ascii_of_nat (Z.to_nat b)) w).

(** The next [n] bytes. Part of the unpacking called in data/gkyl_reader.py 187. *)
Definition cut (n : Z) (l : list Z) : option (list Z * list Z) :=
  if n <=? Z.of_nat (length l) then Some (firstn (Z.to_nat n) l, skipn (Z.to_nat n) l) else None.

Definition obind {A B} (o : option A) (k : A -> option B) : option B := match o with Some a => k a | None => None end.

(** An unsigned or signed number of [n] bytes, most significant first.
    Part of the unpacking called in data/gkyl_reader.py 187. *)
Definition be_val (w : list Z) : Z := fold_left (fun a b => 256 * a + b) w 0.
Definition unsigned (n : Z) (l : list Z) : option (Z * list Z) := obind (cut n l) (fun p => Some (be_val (fst p), snd p)).
Definition to_signed (n v : Z) : Z := if v <? 2 ^ (8 * n - 1) then v else v - 2 ^ (8 * n).
Definition signed (n : Z) (l : list Z) : option (Z * list Z) := obind (unsigned n l) (fun p => Some (to_signed n (fst p), snd p)).

(** What the first bytes of an object say. Part of the unpacking called in data/gkyl_reader.py 187. *)
Inductive kind := HVal (v : mval) | HStr (n : Z) | HBin (n : Z) | HExt (n code : Z) | HArr (n : Z) | HMap (n : Z).

Definition sized (n : Z) (k : Z -> kind) (l : list Z) : option (kind * list Z) := obind (unsigned n l) (fun p => Some (k (fst p), snd p)).
(** The head of an extension; data/gkyl_reader.py 187. *)
Definition coded (n : Z) (l : list Z) : option (kind * list Z) := obind (signed 1 l) (fun p => Some (HExt n (fst p), snd p)).

(** The first byte of an object and its length bytes, by the format; data/gkyl_reader.py 187. *)
Definition head (l : list Z) : option (kind * list Z) :=
  match l with
  | [] => None
  | b :: r =>
      if b <? 128 then Some (HVal (MInt b), r)
      else if b <? 144 then Some (HMap (b - 128), r)
      else if b <? 160 then Some (HArr (b - 144), r)
      else if b <? 192 then Some (HStr (b - 160), r)
      else if 224 <=? b then Some (HVal (MInt (b - 256)), r)
      else if b =? 192 then Some (HVal MNil, r)
      else if b =? 194 then Some (HVal (MBool false), r)
      else if b =? 195 then Some (HVal (MBool true), r)
      else if b =? 196 then sized 1 HBin r
      else if b =? 197 then sized 2 HBin r
      else if b =? 198 then sized 4 HBin r
      else if b =? 199 then obind (unsigned 1 r) (fun p => coded (fst p) (snd p))
      else if b =? 200 then obind (unsigned 2 r) (fun p => coded (fst p) (snd p))
      else if b =? 201 then obind (unsigned 4 r) (fun p => coded (fst p) (snd p))
      else if b =? 202 then obind (cut 4 r) (fun p => Some (HVal (MF32 (fst p)), snd p))
      else if b =? 203 then obind (cut 8 r) (fun p => Some (HVal (MF64 (fst p)), snd p))
      else if b =? 204 then sized 1 (fun v => HVal (MInt v)) r
      else if b =? 205 then sized 2 (fun v => HVal (MInt v)) r
      else if b =? 206 then sized 4 (fun v => HVal (MInt v)) r
      else if b =? 207 then sized 8 (fun v => HVal (MInt v)) r
      else if b =? 208 then obind (signed 1 r) (fun p => Some (HVal (MInt (fst p)), snd p))
      else if b =? 209 then obind (signed 2 r) (fun p => Some (HVal (MInt (fst p)), snd p))
      else if b =? 210 then obind (signed 4 r) (fun p => Some (HVal (MInt (fst p)), snd p))
      else if b =? 211 then obind (signed 8 r) (fun p => Some (HVal (MInt (fst p)), snd p))
      else if b =? 212 then coded 1 r
      else if b =? 213 then coded 2 r
      else if b =? 214 then coded 4 r
      else if b =? 215 then coded 8 r
      else if b =? 216 then coded 16 r
      else if b =? 217 then sized 1 HStr r
      else if b =? 218 then sized 2 HStr r
      else if b =? 219 then sized 4 HStr r
      else if b =? 220 then sized 2 HArr r
      else if b =? 221 then sized 4 HArr r
      else if b =? 222 then sized 2 HMap r
      else if b =? 223 then sized 4 HMap r
      else None (* 193 is never used *)
  end.

(** [n] objects in a row. Part of the unpacking called in data/gkyl_reader.py 187. *)
Fixpoint items {A} (p : list Z -> option (A * list Z)) (n : nat) (l : list Z) : option (list A * list Z) :=
  match n with
  | O => Some ([], l)
  | S n' => obind (p l) (fun x => obind (items p n' (snd x)) (fun y => Some (fst x :: fst y, snd y)))
  end.

Definition key_of (v : mval) : option mkey :=
  match v with MStr s => Some (false, s) | MBin s => Some (true, s) | _ => None end.

(** One entry of a map; data/gkyl_reader.py 187. *)
Definition pair (p : list Z -> option (mval * list Z)) (l : list Z) : option ((mkey * mval) * list Z) :=
  obind (p l) (fun x => obind (key_of (fst x)) (fun k => obind (p (snd x)) (fun y => Some ((k, fst y), snd y)))).

(** [d[k] = v]: a key that is there keeps its place.
    Part of the unpacking called in data/gkyl_reader.py 187. *)
Definition key_eqb (a b : mkey) : bool := Bool.eqb (fst a) (fst b) && String.eqb (snd a) (snd b).
Fixpoint put (k : mkey) (v : mval) (d : list (mkey * mval)) : list (mkey * mval) :=
  match d with
  | [] => [(k, v)]
  | kv :: d' => if key_eqb (fst kv) k then (k, v) :: d' else kv :: put k v d'
  end.

(** One object and what follows it; an object takes at least one byte, so [fuel] bounds
    the depth. Part of the unpacking called in data/gkyl_reader.py 187. *)
Fixpoint parse (fuel : nat) (l : list Z) : option (mval * list Z) :=
  match fuel with
  | O => None
  | S fuel' =>
      obind (head l) (fun hr =>
        let r := snd hr in
        match fst hr with
        | HVal v => Some (v, r)
        | HStr n => obind (cut n r) (fun p => match utf8_decode (fst p) with Ok _ => Some (MStr (text (fst p)), snd p) | Err _ => None end)
        | HBin n => obind (cut n r) (fun p => Some (MBin (text (fst p)), snd p))
        | HExt n c => obind (cut n r) (fun p => if c <? 0 then None else Some (MExt c (text (fst p)), snd p))
        | HArr n => if Z.of_nat (length r) <? n then None
                    else obind (items (parse fuel') (Z.to_nat n) r) (fun p => Some (MArr (fst p), snd p))
        | HMap n => if Z.of_nat (length r) <? n then None
                    else obind (items (pair (parse fuel')) (Z.to_nat n) r)
                           (fun p => Some (MMap (fold_left (fun d kv => put (fst kv) (snd kv) d) (fst p) []), snd p))
        end)
  end.

(** [mp.unpackb(bytes)]: the whole of the bytes must be one object; everything else is a
    ValueError. data/gkyl_reader.py 187. *)
Definition unpackb (l : list Z) : option mval :=
  match parse (S (length l)) l with Some (v, []) => Some v | _ => None end.

(** data/gkyl_reader.py 187-188 in the shape used by [Gkyl_Model]: the entries of the
    dictionary, if it is one. Entries whose key is bytes are left out: they are stored in
    the context too (line 196), but no name refers to them. *)
Definition text_entries (d : list (mkey * mval)) : list (string * mval) :=
  List.map (fun kv => (snd (fst kv), snd kv)) (filter (fun kv => negb (fst (fst kv))) d).
Definition unpack (l : list Z) : option (option (list (string * mval))) :=
  match unpackb l with
  | None => None
  | Some (MMap d) => Some (Some (text_entries d))
  | Some _ => Some None
  end.
