(** * What grids of doubles are compared with *)
From Coq Require Import List ZArith Reals.
From Flocq Require Import Core.
From Verif Require Import Float_Props.
Import ListNotations.
Open Scope R_scope.

(** Half the distance from 1 to the next double. *)
Definition unit_ : R := bpow radix2 (-53).

(** Edge [i] of [n] equal cells, in exact arithmetic. *)
Definition edge (lo up : R) (n i : nat) : R := lo + INR i * ((up - lo) / INR n).

(** The error allowed to a node: a few units in the last place of the width and of the bounds. *)
Definition slack (lo up : R) : R := unit_ * (4 * (up - lo) + Rmax (Rabs lo) (Rabs up)).

(** Bounds that are doubles, in order; cells that are not too many and not tiny. *)
Definition spaced (lo up : R) (n : nat) : Prop :=
  format lo /\ format up /\ (1 <= n)%nat /\ (Z.of_nat n <= 2 ^ 50)%Z /\ bpow radix2 (-1021) <= (up - lo) / INR n.

Definition ascending (l : list R) : Prop := forall i j x y, (i <= j)%nat -> nth_error l i = Some x -> nth_error l j = Some y -> x <= y.
Definition strictly_ascending (l : list R) : Prop := forall i j x y, (i < j)%nat -> nth_error l i = Some x -> nth_error l j = Some y -> x < y.
(** The list holds the edges of [n] cells from [lo] to [up] with an error of at most [e]. *)
Definition edges_near (lo up : R) (n : nat) (e : R) (l : list R) : Prop :=
  length l = S n /\ forall i x, nth_error l i = Some x -> lo <= x <= up /\ Rabs (x - edge lo up n i) <= e.
