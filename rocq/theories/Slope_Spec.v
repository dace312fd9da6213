(** * The slope of the field a file describes

    Stated with [field_value] of [Show_Spec], that is, from the bytes of the file. *)
From Coq Require Import String Ascii List Arith ZArith Reals.
From Coquelicot Require Import Coquelicot.
From Verif Require Import Prelude Gkyl_Spec Dg_Poly DgCmd_Model Show_Spec.
Import ListNotations.
Open Scope string_scope. Open Scope R_scope.

(** Near the point [xs] field [c] has values all along axis [k], and [v] is their
    derivative there with respect to the coordinate. *)
Definition field_slope (dec : list Z -> R) (fd : field) (fs : list pexp) (c k : nat) (xs : list R) (v : R) : Prop :=
  exists (F : R -> R) (e : R), 0 < e /\
    (forall t, Rabs (t - nth k xs 0) < e -> field_value dec fd fs c (set_nth k t xs) (F t)) /\
    is_derive F (nth k xs 0) v.

(** The axes along which the field is differentiated: the one asked for, where
    negative numbers count from the last, or all. *)
Inductive directions (dim : nat) : option Z -> list nat -> Prop :=
| dir_from_first k : (k < dim)%nat -> directions dim (Some (Z.of_nat k)) [k]
| dir_from_last k : (k < dim)%nat -> directions dim (Some (Z.of_nat k - Z.of_nat dim)%Z) [k]
| dir_all : directions dim None (seq 0 dim).

(** The modal families [differentiate] can be asked for. *)
Definition takes (o : dgopts) : Prop := o_basis o = None \/ o_basis o = Some "ms" \/ o_basis o = Some "mo".
