(** * The amount of a field in a file: its integral over the domain

    Stated with Riemann integrals from the field of [Show_Spec]. *)
From Coq Require Import String Ascii List Arith ZArith Bool Lia Reals.
From Coquelicot Require Import Coquelicot.
From Verif Require Import Prelude NdArray Gkyl_Spec Dg_Poly Dg_Sem Dg_Gram Show_Spec.
Import ListNotations.
Open Scope list_scope. Open Scope nat_scope.

(** Sum over all indices below the given sizes. *)
Fixpoint sum_over (sizes : list nat) (g : list nat -> R) : R :=
  match sizes with
  | [] => g []
  | n :: sizes' => fold_right Rplus 0%R (List.map (fun k => sum_over sizes' (fun q => g (k :: q))) (seq 0 n))
  end.

(** Iterated integral over a box, given by its bounds along each axis. *)
Fixpoint box (bounds : list (R * R)) (f : list R -> R) : R :=
  match bounds with
  | [] => f []
  | (a, b) :: bounds' => RInt (fun t => box bounds' (fun xs => f (t :: xs))) a b
  end.

Section Amount.
  Context (dec : list Z -> R) (fd : field) (fs : list pexp).

  (** The bounds of cell [i]. *)
  Definition cell_bounds (i : list nat) : list (R * R) :=
    List.map (fun d => (edge dec fd d (cells_along fd d) (nth d i 0), edge dec fd d (cells_along fd d) (S (nth d i 0))))
             (seq 0 (length (fd_cells fd))).

  (** The integral of field [c] over the domain: that over all cells. *)
  Definition amount (c : nat) : R :=
    sum_over (fd_cells fd) (fun i => box (cell_bounds i) (fun xs => expansion (coefficients dec fd fs c i) fs (reference dec fd i xs))).

  (** Length of the domain along axis [d] over the number of parts, multiplied
      over all axes: the volume of one of the equal parts. *)
  Definition part_volume (parts : list nat) : R :=
    fold_right Rmult 1%R (List.map (fun d => ((high dec fd d - low dec fd d) / INR (nth d parts 0%nat))%R) (seq 0 (length (fd_cells fd)))).
End Amount.
