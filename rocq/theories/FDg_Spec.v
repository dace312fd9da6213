(** * What interpolated values of doubles are compared with *)
From Coq Require Import List Arith ZArith Reals.
From Flocq Require Import Core.
From Verif Require Import Prelude Dg_Poly Dg_Sem Dg_Gram FInt_Spec.
Import ListNotations.
Open Scope R_scope.

(** The terms of the expansion, each without its sign. *)
Fixpoint magnitude (q : list R) (fs : list pexp) (x : list R) : R :=
  match q, fs with
  | a :: q, f :: fs => Rabs a * Rabs (evalR f x) + magnitude q fs x
  | _, _ => 0
  end.

(** Five roundings: how far a computed interpolation point may be from its place. *)
Definition near_point (p x : list R) : Prop := List.Forall2 (fun a b => Rabs (a - b) <= 5 * u /\ Rabs b <= 1) p x.

(** Functions evaluated with an error of at most [delta] in the cell, also when the point is a little off. *)
Definition accurate (ev : pexp -> list R -> R) (fs : list pexp) (delta : R) : Prop :=
  forall f p x, In f fs -> near_point p x -> Rabs (ev f p - evalR f x) <= delta.
