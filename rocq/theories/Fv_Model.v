(** * [GInterpModal.interpolateGrid] (data/dg.py 517-539) and the option --fv of
    [load] (commands/load.py 134-150): the mapped grid of finite-volume data.

    Data are those of [Dg_Model]; the bounds that [set_grid] stores are added. *)
From Coq Require Import String Ascii List Arith ZArith Bool Lia.
From Verif Require Import Prelude NdArray Gkyl_Model Dg_Poly Dg_TabI Dg_TabD Dg_Model.
Import ListNotations.
Open Scope string_scope.
Open Scope list_scope.
Open Scope nat_scope.

Section Fv.
  Context {F : Type} (fo : fops F) (dot : list F -> list F -> F) (ev : pexp -> list F -> F)
          (* [min] and [max] of numpy on the entries of an array *)
          (amin amax : list F -> res F).

  (** dg.py 517-533.  The interpolation matrix of a mapped grid has one point
      more than [num_interp] in each direction (computeInterpolationMatrices.py
      12-18), [_interpOnMesh] is told [num_interp].  For velocity maps the
      variable [grid] is not assigned. *)
  Definition interpolate_grid (d : dgdata (F := F)) (g : ginterp) : res (list (nda F)) :=
    let nd := gi_dims g in
    if String.eqb (dd_grid_type d) "c2p" then
      match nth_error (dd_grid d) 0 with
      | None => Err IndexError
      | Some q0 =>
          let* bp := get_basis_p nd (last (shape q0) 0) in
          match bp with
          | None => Err NameError
          | Some (b, p) =>
              let* cm := create_interp_matrix fo ev nd p b (gi_interp g) true true in
              mapM (fun k => match nth_error (dd_grid d) k with
                             | None => Err IndexError
                             | Some q => interp_on_mesh fo dot cm q (gi_interp g) (gi_basis g) true
                             end) (seq 0 nd)
          end
      end
    else if String.eqb (dd_grid_type d) "c2p_vel" then Err UnboundLocalError
    else
      let* gr := make_1d_grids fo (repeat (gi_interp g) nd) (dd_grid d) nd (Some (dd_grid_type d)) in
      Ok (List.map line_nda gr).

  (** A dataset with the bounds in its metadata. data/gdata.py 262-270. *)
  Record fvdata := mk_fvdata { v_data : dgdata (F := F); v_lower : list F; v_upper : list F }.

  (** gdata.py 262-270, [set_grid]: values and the other metadata stay. *)
  Definition set_grid (d : dgdata (F := F)) (g : list (nda F)) : res fvdata :=
    let* bs := mapM (fun k => match nth_error g k with
                              | None => Err IndexError
                              | Some a => let* lo := amin (flat a) in let* up := amax (flat a) in Ok (lo, up)
                              end) (seq 0 (dd_dims d)) in
    Ok (mk_fvdata (mk_dgdata (dd_values d) g (dd_grid_type d) (dd_basis d) (dd_poly d) (dd_ncdim d) (dd_nvdim d))
                  (List.map fst bs) (List.map snd bs)).

  (** load.py 141-144; dg.py 535-536. *)
  Definition fv_grid (x : fvdata) : res fvdata :=
    let* g := modal_init (v_data x) (Some 0) (Some "ms") None in
    let* gr := interpolate_grid (v_data x) g in
    set_grid (v_data x) gr.

  (** load.py 136-148: one dataset; [UnboundLocalError] is a [NameError]. *)
  Definition load_one (fv : bool) (opened : res fvdata) : res fvdata :=
    match (let* x := opened in if fv then fv_grid x else Ok x) with
    | Err NameError => Err ClickFail
    | Err UnboundLocalError => Err ClickFail
    | r => r
    end.

  (** load.py 134-150: the datasets in order, the first failure ends the command. *)
  Definition load_all (open : string * string -> res fvdata) (fv : bool) (pairs : list (string * string))
    : res (list fvdata) := mapM (fun p => load_one fv (open p)) pairs.
End Fv.
