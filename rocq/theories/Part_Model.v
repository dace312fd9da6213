(** * [pgkyl FILE --z0 … --comp … interpolate plot]: interpolating a part of a file

    The pieces are those of [Show_Model] and [Amount_Model]; the file is opened
    with the cut strings of the options --z0 … --z5, --component. *)
From Coq Require Import String Ascii List Arith ZArith Bool Lia Reals.
From Verif Require Import Prelude NdArray Gkyl_Model Msgpack_Model Dg_Model DgCmd_Model Dg_Sem Dg_Props5 Tools_Arr Calc_Model Draw_Model Show_Model.
Import ListNotations.
Open Scope list_scope. Open Scope nat_scope.

Section Part.
  Context (dec : nat -> list Z -> R) (root : nat -> nat -> nat) (stored : nat -> nat -> res (list (list R))).

  (** data/gdata.py 80-138 and data/gkyl_reader.py 121-150, 461-559: [GData(file,
      z0=…, …, comp=…)]; [ps] are the seven cut strings. *)
  Definition open_part (f : list Z) (ps : list string) : res (idata (F := R)) :=
    if is_compatible f then
      let* g := load (rnum dec) unpack (MBool true) f (Some ps) [] in
      Ok (file_data g)
    else Err NameError.

  (** commands/interpolate.py 49-76 *)
  Definition interpolate_part (f : list Z) (ps : list string) (io : dgopts) : res (idata (F := R)) :=
    let* x := open_part f ps in interpolate_data rops rdot evalR root stored io x.

  (** The same for the whole file. *)
  Definition interpolate_file (f : list Z) (io : dgopts) : res (idata (F := R)) :=
    let* x := open_file dec f in interpolate_data rops rdot evalR root stored io x.

  (** output/plot.py 138-481 *)
  Definition part_plot (f : list Z) (ps : list string) (io : dgopts) (o : dopts) : res (list (list call) * list nat) :=
    let* y := interpolate_part f ps io in plot_data o (to_draw y).
End Part.
