(** * What integration and differentiation on a grid should give *)
From Coq Require Import List Arith Bool Reals.
From Verif Require Import Prelude NdArray Tools_Arr.
Import ListNotations.
Open Scope list_scope.
Open Scope nat_scope.

(** Width belonging to value [k] of [n] on the coordinates [g]: cells between
    edges ([n+1] coordinates), points ([n] coordinates; the last one repeats
    the width before it), or an axis of one coordinate, where the values are
    averaged. *)
Definition width (g : list R) (n k : nat) : R :=
  if length g <=? 1 then (/ INR n)%R
  else if S k <? length g then (nth (S k) g 0 - nth k g 0)%R
  else (nth k g 0 - nth (k - 1) g 0)%R.

(** An axis that can be integrated. *)
Definition fits (g : list R) (n : nat) : Prop :=
  (length g = 1 /\ 0 < n) \/ (2 <= length g /\ (length g = n \/ length g = S n)).

(** Weighted sum over the listed axes; the entries of [idx] there are ignored. *)
Fixpoint total (grid : list (list R)) (sh : list nat) (axes : list nat) (f : list nat -> R) (idx : list nat) : R :=
  match axes with
  | [] => f idx
  | a :: r =>
      rsum (List.map (fun k => width (nth a grid []) (nth a sh 0%nat) k * total grid sh r f (set_nth a k idx))%R
                     (seq 0 (nth a sh 0)))
  end.

(** Shape and grid with the axes collapsed. *)
Definition collapse_shape (axes : list nat) (sh : list nat) : list nat :=
  fold_right (fun a s => set_nth a 1 s) sh axes.
Definition collapse_grid (mid : list R -> R) (axes : list nat) (grid : list (list R)) : list (list R) :=
  fold_right (fun a g => set_nth a [mid (nth a grid [])] g) grid axes.
Definition mean (g : list R) : R := (rsum g / INR (length g))%R.

(** Middle of the [k]th cell. *)
Definition centre (g : list R) (k : nat) : R := ((nth k g 0 + nth (S k) g 0) / 2)%R.

Definition increasing (g : list R) : Prop := forall k, S k < length g -> (nth k g 0 < nth (S k) g 0)%R.

(** Slope at [t] of the parabola through three points (Lagrange). *)
Definition parabola_slope (x0 x1 x2 y0 y1 y2 t : R) : R :=
  (y0 * (2 * t - x1 - x2) / ((x0 - x1) * (x0 - x2)) +
   y1 * (2 * t - x0 - x2) / ((x1 - x0) * (x1 - x2)) +
   y2 * (2 * t - x0 - x1) / ((x2 - x0) * (x2 - x1)))%R.

(** First of the three neighbours used at position [i] of [n]. *)
Definition near (n i : nat) : nat := if i =? 0 then 0 else if i =? n - 1 then n - 3 else i - 1.

(** Slope at the [i]th of [n] points of the parabola through its neighbours. *)
Definition slope (x : nat -> R) (n : nat) (y : nat -> R) (i : nat) : R :=
  let j := near n i in
  parabola_slope (x j) (x (j + 1)) (x (j + 2)) (y j) (y (j + 1)) (y (j + 2)) (x i).

(** Derivative along axis [a] of values given in the cells of a grid. *)
Definition partial_d (grid : list (list R)) (cells : list nat) (a : nat) (f : list nat -> R) (x : list nat) : R :=
  slope (centre (nth a grid [])) (nth a cells 0) (fun k => f (set_nth a k x)) (nth a x 0).

(** A grid of cells with increasing edges and at least three cells per axis. *)
Definition cell_grid (grid : list (list R)) (cells : list nat) : Prop :=
  length grid = length cells /\
  forall a, a < length cells -> length (nth a grid []) = S (nth a cells 0) /\ 3 <= nth a cells 0 /\ increasing (nth a grid []).
