(** * From a [.gkyl] file to a picture: [pgkyl file interpolate plot], and the
    poloidal flux of [pgkyl gk_nodes]

    The pieces are those of other models: the reader is [Gkyl_Model.load] (with
    the metadata of [Msgpack_Model]), interpolation is [Dg_Model] and
    [DgCmd_Model], drawing is [Draw_Model] and [Nodes_Model].  Here they are put
    together over the real numbers; [dec] turns the stored bytes into numbers. *)
From Coq Require Import String Ascii List Arith ZArith Bool Lia Reals.
From Verif Require Import Prelude NdArray Gkyl_Model Msgpack_Model Dg_Poly Dg_TabI Dg_TabD Dg_Model DgCmd_Model
  Dg_Sem Dg_Props5 Tools_Arr Draw_Model Nodes_Model.
Import ListNotations.
Open Scope string_scope. Open Scope list_scope. Open Scope nat_scope.

(** The numbers of [Gkyl_Model] are reals. For the readers of data/gkyl_reader.py 225-228, 324. *)
Definition rnum (dec : nat -> list Z -> R) : fops R :=
  mk_fops R dec 0%R Rplus Rminus Rmult Rdiv IZR.

(** ** What interpolation finds in [ctx] *)

(** ctx["basis_type"], read at commands/interpolate.py 50 and data/dg.py 414-415.
    A basis that is not a text counts as an empty text; the code fails on it
    later, with other exceptions. *)
Definition ctx_basis (ctx : list (string * mval)) : option string :=
  match aget "basis_type" ctx with
  | None => None
  | Some (MStr s) => Some s
  | Some _ => Some ""
  end.
(** ctx.get("poly_order"), data/dg.py 396-397.  An order that is not a natural
    number counts as missing (not modelled). *)
Definition ctx_order (ctx : list (string * mval)) : option nat :=
  match aget "poly_order" ctx with
  | Some (MInt z) => if (0 <=? z)%Z then Some (Z.to_nat z) else None
  | _ => None
  end.
(** The truth of ctx["is_modal"], commands/interpolate.py 57.  Floats and
    extensions count as true. *)
Definition ctx_modal (ctx : list (string * mval)) : option bool :=
  match aget "is_modal" ctx with
  | None => None
  | Some MNil => Some false
  | Some (MBool b) => Some b
  | Some (MInt z) => Some (negb (z =? 0)%Z)
  | Some (MStr s) => Some (negb (String.eqb s ""))
  | Some (MArr []) | Some (MMap []) => Some false
  | Some _ => Some true
  end.

Section Show.
  Context (dec : nat -> list Z -> R) (root : nat -> nat -> nat)
          (stored : nat -> nat -> res (list (list R))).

  (** data/gdata.py 80-138 and data/gkyl_reader.py 553-555: the dataset that
      interpolation sees after loading without mapping files.  The numbers of
      configuration and velocity dimensions are used with mapped grids only. *)
  Definition file_data (g : loaded (F := R) (M := mval)) : idata (F := R) :=
    mk_idata (mk_dgdata (l_data g) (List.map line_nda (l_grid g)) "uniform" (ctx_basis (l_ctx g)) (ctx_order (l_ctx g)) 0 0)
             (ctx_modal (l_ctx g)).

  (** data/gdata.py 80-138: [GData(file)] with the bytes of the file, which the ADIOS,
      HDF5 and FLASH readers are taken not to accept. *)
  Definition open_file (f : list Z) : res (idata (F := R)) :=
    if is_compatible f then
      let* g := load (rnum dec) unpack (MBool true) f None [] in
      Ok (file_data g)
    else Err NameError.

  (** output/plot.py 140-163 with data/gdata.py 191-203 and 279-292: the dataset
      as it is drawn; [push] has set ctx["cells"] to the shape of the values. *)
  Definition to_draw (x : idata (F := R)) : pd :=
    mk_pd (dd_grid (i_data x)) (removelast (shape (dd_values (i_data x)))) (dd_values (i_data x)).

  (** [pgkyl file interpolate plot]: commands/interpolate.py 49-76, then
      output/plot.py 138-481. *)
  Definition interpolate_plot (f : list Z) (io : dgopts) (o : dopts) : res (list (list call) * list nat) :=
    let* x := open_file f in
    let* y := interpolate_data rops rdot evalR root stored io x in
    plot_data o (to_draw y).

  (** utils/gk_utils.py 58-73, [read_interp_gfile], as commands/gk_nodes.py 262
      calls it: order 2, basis "mt", component 0.  [files] are the bytes of the
      files there are; a missing file is one that no reader accepts (data/gdata.py
      130-132, data/gkyl_reader.py 162-163). *)
  Definition read_flux (files : string -> option (list Z)) (name : string) : res (list (list R) * nda R) :=
    match files name with
    | None => Err NameError
    | Some f =>
        let* x := open_file f in
        let* g := modal_init (i_data x) (Some 2) (Some "mt") None in
        let* (gr, v) := modal_interpolate rops rdot evalR root (i_data x) g [0] in
        Ok (List.map (fun a => flat (squeeze_all a)) gr, squeeze_all v)
    end.

  (** commands/gk_nodes.py 251-321 with the file. *)
  Definition draw_flux (files : string -> option (list Z)) (o : nodes_options) (f : string) : res (list artist * list nodes_data) :=
    draw_psi (read_flux files) o f.
End Show.
