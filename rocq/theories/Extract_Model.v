(** * Model of the extractinput and pr commands (commands/extractinput.py, commands/pr.py)

    A Python text is the list of its code points, bytes are the list of their values. *)
From Coq Require Import String List ZArith QArith Bool Lia.
From Verif Require Import Prelude NdArray GData_Model DataSpace_Model.
Import ListNotations.
Open Scope Z_scope.
Open Scope list_scope.

(** ** Python's UTF-8 codec, strict *)

(** One character; UnicodeEncodeError, a ValueError, for surrogates. commands/extractinput.py 18. *)
Definition utf8_char (c : Z) : res (list Z) :=
  if c <? 128 then Ok [c]
  else if c <? 2048 then Ok [192 + c / 64; 128 + c mod 64]
  else if (55296 <=? c) && (c <=? 57343) then Err ValueError
  else if c <? 65536 then Ok [224 + c / 4096; 128 + c / 64 mod 64; 128 + c mod 64]
  else Ok [240 + c / 262144; 128 + c / 4096 mod 64; 128 + c / 64 mod 64; 128 + c mod 64].

(** [text.encode("utf-8")] *)
Fixpoint utf8_encode (t : list Z) : res (list Z) :=
  match t with
  | [] => Ok []
  | c :: t' => let* b := utf8_char c in let* bs := utf8_encode t' in Ok (b ++ bs)
  end.

Definition cont (b : Z) : bool := (128 <=? b) && (b <? 192).

(** [bytes.decode("utf-8")]: UnicodeDecodeError, a ValueError, for anything that is not the
    shortest form of a character. *)
Fixpoint utf8_decode (l : list Z) : res (list Z) :=
  match l with
  | [] => Ok []
  | a :: l1 =>
      if a <? 128 then let* t := utf8_decode l1 in Ok (a :: t)
      else if a <? 192 then Err ValueError
      else match l1 with
      | [] => Err ValueError
      | b :: l2 =>
          if negb (cont b) then Err ValueError
          else if a <? 224 then
            let v := (a - 192) * 64 + (b - 128) in
            if 128 <=? v then let* t := utf8_decode l2 in Ok (v :: t) else Err ValueError
          else match l2 with
          | [] => Err ValueError
          | c :: l3 =>
              if negb (cont c) then Err ValueError
              else if a <? 240 then
                let v := (a - 224) * 4096 + (b - 128) * 64 + (c - 128) in
                if (2048 <=? v) && negb ((55296 <=? v) && (v <=? 57343)) then let* t := utf8_decode l3 in Ok (v :: t) else Err ValueError
              else match l3 with
              | [] => Err ValueError
              | d :: l4 =>
                  if negb (cont d) then Err ValueError
                  else
                    let v := (a - 240) * 262144 + (b - 128) * 4096 + (c - 128) * 64 + (d - 128) in
                    if (a <? 248) && (65536 <=? v) && (v <=? 1114111) then let* t := utf8_decode l4 in Ok (v :: t) else Err ValueError
              end
          end
      end
  end.

(** ** [base64.decodebytes], which is [binascii.a2b_base64] without strict mode *)

(** The table of the C code: the 6 bits of a character. *)
Definition sextet (c : Z) : option Z :=
  if (65 <=? c) && (c <=? 90) then Some (c - 65)
  else if (97 <=? c) && (c <=? 122) then Some (c - 71)
  else if (48 <=? c) && (c <=? 57) then Some (c + 4)
  else if c =? 43 then Some 62
  else if c =? 47 then Some 63
  else None.

(** State: position in the group of four, number of "=" seen since the last data
    character, bits left over. Characters outside the alphabet are skipped; enough "="
    end the data; binascii.Error is a ValueError. base64.decodebytes, commands/extractinput.py 18. *)
Fixpoint a2b (q pads left : Z) (l : list Z) : res (list Z) :=
  match l with
  | [] => if q =? 0 then Ok [] else Err ValueError
  | c :: l' =>
      if c =? 61 then
        if 2 <=? q then if 4 <=? q + (pads + 1) then Ok [] else a2b q (pads + 1) left l'
        else a2b q pads left l'
      else match sextet c with
      | None => a2b q pads left l'
      | Some v =>
          if q =? 0 then a2b 1 0 v l'
          else if q =? 1 then let* r := a2b 2 0 (v mod 16) l' in Ok (left * 4 + v / 16 :: r)
          else if q =? 2 then let* r := a2b 3 0 (v mod 4) l' in Ok (left * 16 + v / 4 :: r)
          else let* r := a2b 0 0 0 l' in Ok (left * 64 + v :: r)
      end
  end.
Definition decodebytes (l : list Z) : res (list Z) := a2b 0 0 0 l.

(** ** Commands that print something for each active dataset *)
Section Echo.
  Context {X T : Type} (f : dset X -> res (list T)).

  (** One turn of the loops of commands/extractinput.py 15-23 and commands/pr.py 16-25. *)
  Definition echo_body (_ : nat) (r : ref) (st : dspace X * list T) : res (dspace X * list T) :=
    match lookup (fst st) r with
    | None => Err KeyError (* unreachable *)
    | Some x => let* o := f x in Ok (fst st, snd st ++ o)
    end.

  (** The loops of commands/extractinput.py 15-23 and commands/pr.py 16-25. *)
  Definition echo_all (use : option string) (ds : dspace X) : res (list T) :=
    let* st := iterate (fun st : dspace X * list T => fst st) echo_body true use false SelNone (ds, []) in
    Ok (snd st).
End Echo.

(** extractinput.py 14-21 *)
Inductive line := Text (t : list Z) | NoInput.

Section Extract.
  (** gdata.py 185-187: opening the file with ADIOS2 and reading its attribute "inputfile",
      a list of texts; any exception (also that of a missing ADIOS2, lines 181-183) is an
      error. *)
  Context (read_attribute : string -> res (list (list Z))).

  Definition get_input_file (file : string) : res (list Z) :=
    let* l := read_attribute file in
    match l with [] => Err IndexError | t :: _ => Ok t end.

  (** commands/extractinput.py 16-22. *)
  Definition extract_one (file : string) : res (list line) :=
    let* enc := get_input_file file in
    match enc with
    | [] => Ok [NoInput]
    | _ => let* b := utf8_encode enc in
           let* d := decodebytes b in
           let* t := utf8_decode d in
           Ok [Text t]
    end.

  (** commands/extractinput.py 10-24. *)
  Definition extractinput {X} (use : option string) (ds : dspace X) : res (list line) :=
    echo_all (fun d => extract_one (ds_file d)) use ds.
End Extract.

(** ** pr.py 14-25: the arrays that are printed; how numpy writes them is not modelled.
    Without a grid the loop of line 20 is over [None]; [None] has no [squeeze]. *)
Definition squeezed {A} (a : nda A) : nda A := mk_nda (List.filter (fun n => negb (Nat.eqb n 1)) (shape a)) (flat a).

Definition pr_one {A} (grid : bool) (d : gdata A) : res (list (garr + nda A)) :=
  if grid
  then match g_grid d with None => Err TypeError | Some gs => Ok (List.map inl gs) end
  else match g_vals d with None => Err AttributeError | Some v => Ok [inr (squeezed v)] end.

(** commands/pr.py 12-27. *)
Definition pr {A} (grid : bool) (use : option string) (ds : dspace (gdata A)) : res (list (garr + nda A)) :=
  echo_all (fun d => pr_one grid (ds_data d)) use ds.
