(** * The integral of the expansions over a domain *)
From Coq Require Import List Arith Reals.
From Verif Require Import Prelude NdArray Dg_Poly Dg_Sem Dg_Gram Amount_Spec FGrid_Spec FNum_Spec.
Import ListNotations.
Open Scope R_scope.

(** The bounds of cell [i] of equal cells from [lo] to [up], and a coordinate of it in [-1, 1]. *)
Definition bounds_of (lo up : nat -> R) (cells i : list nat) : list (R * R) :=
  List.map (fun a => (FGrid_Spec.edge (lo a) (up a) (nth a cells 0%nat) (nth a i 0%nat), FGrid_Spec.edge (lo a) (up a) (nth a cells 0%nat) (S (nth a i 0%nat))))
           (seq 0 (length cells)).
Definition local (b : R * R) (t : R) : R := (2 * t - fst b - snd b) / (snd b - fst b).

(** Riemann integral of field [c] over all cells. *)
Definition integral_of (vals : nda R) (fs : list pexp) (lo up : nat -> R) (cells : list nat) (c : nat) : R :=
  sum_over cells (fun i => box (bounds_of lo up cells i) (fun xs => expansion (field_coefs vals (length fs) c i) fs (map2 local (bounds_of lo up cells i) xs))).
