(** * The exact number an integral of doubles is compared with *)
From Coq Require Import List Arith ZArith Reals.
From Verif Require Import Prelude NdArray Dg_Poly Dg_Sem Dg_Gram Dg_Props5 FDg_Spec FInt_Spec.
Import ListNotations.
Open Scope R_scope.

(** Part [q] of the refined mesh is part [part_of] of cell [cell_of]. *)
Definition cell_of (ns q : list nat) : list nat := map2 (fun n a => (a / n)%nat) ns q.
Definition part_of (ns q : list nat) : list nat := map2 (fun n a => (a mod n)%nat) ns q.

(** Coefficients of field [c] in cell [i]: [n] consecutive components. *)
Definition field_coefs (vals : nda R) (n c : nat) (i : list nat) : list R :=
  List.map (fun m => match get vals (i ++ [(c * n + m)%nat]) with Some x => x | None => 0 end) (seq 0 n).

Section Spec.
  Context (vals : nda R) (fs : list pexp) (ns : list nat) (delta : R).
  (** The field at the centre of part [q], its terms without signs, and the error allowed there (C131). *)
  Definition at_part (c : nat) (q : list nat) : R := expansion (field_coefs vals (length fs) c (cell_of ns q)) fs (centres ns (part_of ns q)).
  Definition error_at (c : nat) (q : list nat) : R :=
    ((1 + u) ^ length fs - 1) * magnitude (field_coefs vals (length fs) c (cell_of ns q)) fs (centres ns (part_of ns q))
    + (1 + u) ^ length fs * (delta * abs_sum (field_coefs vals (length fs) c (cell_of ns q)) + INR (length fs) * tiny).
End Spec.

(** Equal parts: the volume of one of them, and the room for halves of the smallest double. *)
Definition volume (lo up : nat -> R) (fine : list nat) : R :=
  fold_right Rmult 1 (List.map (fun a => (up a - lo a) / INR (nth a fine 0%nat)) (seq 0 (length fine))).
Definition rooms (lo up : nat -> R) (fine : list nat) : R :=
  fold_right (fun a p => ((up a - lo a) + INR (nth a fine 0%nat)) * p) 1 (seq 0 (length fine)).
(** One rounding per part along every axis and one more per axis. *)
Definition steps (fine : list nat) : nat := fold_right (fun n s => (n + 1 + s)%nat) 0%nat fine.
