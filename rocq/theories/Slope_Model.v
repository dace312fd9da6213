(** * [pgkyl FILE differentiate plot]: from a file to the plot of derivatives

    The pieces are those of [Show_Model] and [DgCmd_Model]. *)
From Coq Require Import String Ascii List Arith ZArith Bool Lia Reals.
From Verif Require Import Prelude NdArray Gkyl_Model Msgpack_Model Dg_Model DgCmd_Model Dg_Sem Dg_Props5 Tools_Arr Calc_Model Draw_Model Show_Model.
Import ListNotations.
Open Scope string_scope. Open Scope list_scope. Open Scope nat_scope.

Section Slope.
  Context (dec : nat -> list Z -> R) (root : nat -> nat -> nat).

  (** commands/differentiate.py 9: the choices of --basis_type; others are refused
      when the command line is read, before a file is opened. *)
  Definition basis_choice (b : option string) : res unit :=
    match b with
    | None => Ok tt
    | Some s => if String.eqb s "ms" || String.eqb s "ns" || String.eqb s "mo" then Ok tt else Err ClickFail
    end.

  (** commands/differentiate.py 43-66 for a file just opened (data/gdata.py 80-138). *)
  Definition differentiate_file (f : list Z) (io : dgopts) : res (idata (F := R)) :=
    let* _ := basis_choice (o_basis io) in
    let* x := open_file dec f in differentiate_data rops rdot evalR root io x.

  (** Then output/plot.py 138-481. *)
  Definition differentiate_plot (f : list Z) (io : dgopts) (o : dopts) : res (list (list call) * list nat) :=
    let* y := differentiate_file f io in plot_data o (to_draw y).
End Slope.
