(** * How far rounding may take an integral *)
From Coq Require Import List Arith Reals.
From Flocq Require Import Core.
From Verif Require Import Prelude NdArray Tools_Arr Calc_Spec Float_Model.
Import ListNotations.
Open Scope R_scope.

(** One rounding, and half of the smallest double. *)
Definition u : R := bpow radix2 (-53).
Definition tiny : R := bpow radix2 (-1075).

(** The roundings of an integral over the axes: one for each value and one for the widths or the mean. *)
Definition roundings (sh : list nat) (axes : list nat) : nat := fold_right (fun a s => nth a sh 0 + 1 + s)%nat 0%nat axes.

(** The length of an axis plus its number of values, multiplied over the axes. *)
Definition extent (g : list R) (n : nat) : R := rsum (List.map (width g n) (seq 0 n)).
Definition room (grid : list (list R)) (sh : list nat) (axes : list nat) : R :=
  fold_right (fun a p => (extent (nth a grid []) (nth a sh 0%nat) + INR (nth a sh 0%nat)) * p) 1 axes.

(** Coordinates that never decrease. *)
Definition ascending (g : list R) : Prop := forall k, (S k < length g)%nat -> nth k g 0 <= nth (S k) g 0.
