(** * Files of a run, and when they are taken to be *)
From Coq Require Import String Ascii List Arith ZArith Bool Lia Reals Permutation Sorted.
From Verif Require Import Prelude NdArray Gkyl_Spec Msgpack_Model Dg_Poly Dg_Sem Show_Spec Amount_Spec.
Import ListNotations.
Open Scope string_scope. Open Scope list_scope. Open Scope nat_scope.

(** One file: the type and width of its numbers, its metadata as bytes and as a
    dictionary, its field, and its bytes. *)
Record frame := mk_frame { fr_rt : Z; fr_meta : list Z; fr_dict : list (mkey * mval); fr_field : field; fr_file : list Z }.

Section Stamps.
  Context (word : list Z -> R).

  (** A number, and what counts as nothing. *)
  Inductive number : mval -> R -> Prop :=
  | number_int z : number (MInt z) (IZR z)
  | number_single w : number (MF32 w) (word w)
  | number_double w : number (MF64 w) (word w).
  Definition nothing (v : mval) : Prop := v = MNil \/ number v 0%R.

  Definition entry (d : list (mkey * mval)) (k : string) (v : mval) : Prop := In ((false, k), v) d.

  (** When the [i]-th file is taken to be: its time, unless that is 0; then the
      number of its frame, unless that is 0; then [i]. *)
  Inductive stamped (i : nat) (d : list (mkey * mval)) : R -> Prop :=
  | stamped_time v t : entry d "time" v -> number v t -> t <> 0%R -> stamped i d t
  | stamped_frame v v' t : entry d "time" v -> nothing v -> entry d "frame" v' -> number v' t -> t <> 0%R -> stamped i d t
  | stamped_place v v' : entry d "time" v -> nothing v -> entry d "frame" v' -> nothing v' -> stamped i d (INR i).

  (** No time, or a time that counts as nothing and no frame. *)
  Definition unstamped (d : list (mkey * mval)) : Prop :=
    (forall v, ~ entry d "time" v) \/
    exists v, entry d "time" v /\ nothing v /\ forall v', ~ entry d "frame" v'.
End Stamps.

(** [order] lists the positions in [ts] so that their values do not decrease. *)
Definition ordered (ts : list R) (order : list nat) : Prop :=
  Permutation order (seq 0 (length ts)) /\ StronglySorted Rle (List.map (fun k => nth k ts 0%R) order).

(** The sum over equal parts of the domain, [parts] along each axis, of the value
    of field [c] at the centre times the volume of a part. *)
Definition midpoint_sum (dec : list Z -> R) (fd : field) (fs : list pexp) (parts : list nat) (c : nat) (r : R) : Prop :=
  exists f, (forall q, in_range parts q ->
      field_value dec fd fs c (List.map (fun a => middle dec fd a (nth a parts 0) (nth a q 0)) (seq 0 (length (fd_cells fd)))) (f q)) /\
    r = (part_volume dec fd parts * sum_over parts f)%R.
