(** * [pgkyl file interpolate integrate AXES]

    The pieces are those of [Show_Model] (reading and interpolating a file) and
    [Calc_Model] (tools/calculus.py). *)
From Coq Require Import String Ascii List Arith ZArith Bool Lia Reals.
From Verif Require Import Prelude NdArray Dg_Sem Dg_Model DgCmd_Model Dg_Props5 Tools_Arr Calc_Model Show_Model.
Import ListNotations.
Open Scope list_scope. Open Scope nat_scope.

(** commands/interpolate.py 49-76, then commands/integrate.py 22-31 without a
    tag: tools.integrate (tools/calculus.py 13-91) of the grid and the values of
    the dataset; [text] is the argument AXIS (16).  The coordinate arrays are
    one-dimensional here (no mapping). *)
Definition interpolate_integrate (dec : nat -> list Z -> R) (root : nat -> nat -> nat) (stored : nat -> nat -> res (list (list R)))
    (f : list Z) (io : dgopts) (text : string) : res (list (list R) * nda R) :=
  let* x := open_file dec f in
  let* y := interpolate_data rops rdot evalR root stored io x in
  integrate (dd_dims (i_data y)) (AxStr text) (List.map (fun a => flat a) (dd_grid (i_data y)), dd_values (i_data y)).
