(** * Interpolating and integrating in double precision *)
From Coq Require Import List Arith ZArith Reals.
From Verif Require Import Prelude NdArray Calc_Model Dg_Poly Dg_Model FGrid_Model FInt_Model.
Import ListNotations.

(** commands/interpolate.py 49-75, then commands/integrate.py 20-30: [GInterpModal.interpolate]
    (data/dg.py 442-515) and tools.integrate (tools/calculus.py 13-91), in doubles.  The
    coordinate arrays are one-dimensional (no mapping). *)
Definition number (dec : nat -> list Z -> R) (dot : list R -> list R -> R) (ev : pexp -> list R -> R) (root : nat -> nat -> nat)
    (idot : nat -> list nat -> list R -> list R -> R) (isum : nat -> list nat -> list R -> R)
    (d : dgdata (F := R)) (g : ginterp) (comps : list nat) (axes : axis_arg) : res (list (list R) * nda R) :=
  let* r := modal_interpolate (dnum dec) dot ev root d g comps in
  fintegrate idot isum (gi_dims g) axes (List.map (fun a => flat a) (fst r), snd r).
