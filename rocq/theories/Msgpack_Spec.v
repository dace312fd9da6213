(** * The MessagePack format, and dictionaries written as sequences of pairs

    Stated without reference to the decoder. *)
From Coq Require Import String Ascii List ZArith.
From Verif Require Import Prelude Extract_Props Msgpack_Model.
Import ListNotations.
Open Scope list_scope. Open Scope Z_scope.

Definition codes (s : string) : list Z := List.map (fun c => Z.of_nat (nat_of_ascii c)) (list_ascii_of_string s).

(** [n] bytes of a number, most significant first. *)
Definition be (n : nat) (z : Z) : list Z := List.map (fun i => (z / 256 ^ Z.of_nat i) mod 256) (rev (seq 0 n)).

(** Sizes 1, 2, 4, 8 bytes are numbered 0, 1, 2, 3. *)
Definition sizeof (i : nat) : nat := (2 ^ i)%nat.
Definition top (i : nat) : Z := 2 ^ (8 * Z.of_nat (sizeof i)).

Inductive plain : list Z -> mval -> Prop :=
| sc_fix z : 0 <= z <= 127 -> plain [z] (MInt z)
| sc_neg z : -32 <= z < 0 -> plain [256 + z] (MInt z)
| sc_nil : plain [192] MNil
| sc_false : plain [194] (MBool false)
| sc_true : plain [195] (MBool true)
| sc_f32 w : length w = 4%nat -> plain (202 :: w) (MF32 w)
| sc_f64 w : length w = 8%nat -> plain (203 :: w) (MF64 w)
| sc_uint i z : (i <= 3)%nat -> 0 <= z < top i -> plain (204 + Z.of_nat i :: be (sizeof i) z) (MInt z)
| sc_int i z : (i <= 3)%nat -> - (top i / 2) <= z < top i / 2 -> plain (208 + Z.of_nat i :: be (sizeof i) (z mod top i)) (MInt z).

(** A length of 1, 2 or 4 bytes after a first byte; the short forms hold it in one byte. *)
Inductive lengthed (first : Z) (least : nat) (n : Z) : list Z -> Prop :=
| lengthed_ i : (least <= i <= 2)%nat -> 0 <= n < top i -> lengthed first least n (first + Z.of_nat (i - least) :: be (sizeof i) n).

Inductive str_head (n : Z) : list Z -> Prop :=
| str_fix : 0 <= n <= 31 -> str_head n [160 + n]
| str_len h : lengthed 217 0 n h -> str_head n h.
Inductive ext_head (n code : Z) : list Z -> Prop :=
| ext_fix i : (i <= 4)%nat -> n = Z.of_nat (sizeof i) -> ext_head n code [212 + Z.of_nat i; code]
| ext_len h : lengthed 199 0 n h -> ext_head n code (h ++ [code]).
Inductive arr_head (n : Z) : list Z -> Prop :=
| arr_fix : 0 <= n <= 15 -> arr_head n [144 + n]
| arr_len h : lengthed 220 1 n h -> arr_head n h.
Inductive map_head (n : Z) : list Z -> Prop :=
| map_fix : 0 <= n <= 15 -> map_head n [128 + n]
| map_len h : lengthed 222 1 n h -> map_head n h.

(** The dictionary obtained by assigning the pairs in order: its keys come in the order
    in which they first appear, each with the value of the last pair with that key. *)
Definition key_dec : forall a b : mkey, {a = b} + {a <> b}.
Proof. decide equality; [apply string_dec|apply Bool.bool_dec]. Defined.
Fixpoint firsts (ks : list mkey) : list mkey :=
  match ks with
  | [] => []
  | k :: r => k :: filter (fun k' => if key_dec k' k then false else true) (firsts r)
  end.
Definition is_dict (ps d : list (mkey * mval)) : Prop :=
  List.map fst d = firsts (List.map fst ps) /\
  forall k v, In (k, v) d -> exists a b, ps = a ++ (k, v) :: b /\ ~ In k (List.map fst b).

Definition key_val (k : mkey) : mval := if fst k then MBin (snd k) else MStr (snd k).

Inductive encodes : mval -> list Z -> Prop :=
| enc_scalar v b : plain b v -> encodes v b
| enc_str s h t : str_head (Z.of_nat (String.length s)) h -> utf8 t (codes s) -> encodes (MStr s) (h ++ codes s)
| enc_bin s h : lengthed 196 0 (Z.of_nat (String.length s)) h -> encodes (MBin s) (h ++ codes s)
| enc_ext c s h : 0 <= c <= 127 -> ext_head (Z.of_nat (String.length s)) c h -> encodes (MExt c s) (h ++ codes s)
| enc_arr vs h b : arr_head (Z.of_nat (length vs)) h -> encodes_seq vs b -> encodes (MArr vs) (h ++ b)
| enc_map ps d h b : map_head (Z.of_nat (length ps)) h -> encodes_pairs ps b -> is_dict ps d -> encodes (MMap d) (h ++ b)
with encodes_seq : list mval -> list Z -> Prop :=
| encs_nil : encodes_seq [] []
| encs_cons v vs b bs : encodes v b -> encodes_seq vs bs -> encodes_seq (v :: vs) (b ++ bs)
with encodes_pairs : list (mkey * mval) -> list Z -> Prop :=
| encp_nil : encodes_pairs [] []
| encp_cons k v ps kb b bs : encodes (key_val k) kb -> encodes v b -> encodes_pairs ps bs -> encodes_pairs ((k, v) :: ps) (kb ++ b ++ bs).

Scheme encodes_mut := Induction for encodes Sort Prop
with encodes_seq_mut := Induction for encodes_seq Sort Prop
with encodes_pairs_mut := Induction for encodes_pairs Sort Prop.
Combined Scheme encodes_ind3 from encodes_mut, encodes_seq_mut, encodes_pairs_mut.
