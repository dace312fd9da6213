(** * Model of commands/gk_distf.py: loading a distribution function

    Arrays hold real numbers; interpolation is that of Dg_Model.v. [read f m] is
    [GData(f, mapc2p_vel_name=m)]: the values, grid and metadata of a file. The frames to
    load are chosen by [frames_of] in Gk_Model.v. *)
From Coq Require Import String List ZArith Bool Reals.
From Verif Require Import Prelude NdArray Gkyl_Model Dg_Poly Dg_Model Dg_Sem Dg_Props5 Tools_Arr Gk_Model.
Import ListNotations.
Open Scope string_scope.
Open Scope list_scope.
Open Scope nat_scope.

(** [np.squeeze(a)]. commands/gk_distf.py 122-123. *)
Definition squeeze (a : nda R) : nda R := mk_nda (List.filter (fun n => negb (Nat.eqb n 1)) (shape a)) (flat a).

(** [a.reshape(a.shape + (1,) * k)]; the tuple is empty for negative [k]. *)
Definition trailing (k : nat) (a : nda R) : nda R := mk_nda (shape a ++ repeat 1 k) (flat a).

(** Lines 40-46, [_extract_values_along_dimension]. *)
Definition extract_values_along_dimension (v : nda R) (axis cdim : nat) : res (list R) :=
  mapM (fun i => match get v (set_nth axis i (repeat 0 cdim) ++ [axis]) with Some x => Ok x | None => Err IndexError end)
       (seq 0 (nth axis (shape v) 0)).

(** The dataset returned: tag, grid, values and [ctx["grid_type"]]. commands/gk_distf.py 148-150. *)
Record distf := mk_distf { o_tag : string; o_grid : list (nda R); o_values : nda R; o_grid_type : string }.

Section Load.
  Context (read : string -> option string -> res (dgdata (F := R))) (root : nat -> nat -> nat).

  (** [GInterpModal(d, 1, basis, interp).interpolate(comps)] *)
  Definition interpolate1 (d : dgdata (F := R)) (basis : string) (interp : option nat) (comps : list nat) : res (list (nda R) * nda R) :=
    let* g := modal_init d (Some 1) (Some basis) interp in
    modal_interpolate rops rdot evalR root d g comps.

  (** Lines 49-61, [_apply_mc2nu_grid]. *)
  Definition apply_mc2nu_grid (grid : list (nda R)) (file : string) (interp : option nat) : res (list (nda R)) :=
    let* d := read file None in
    let cdim := dd_dims d in
    let* (_, v) := interpolate1 d "ms" interp (seq 0 cdim) in
    fold_left (fun acc a =>
      let* g := acc in
      let* c := extract_values_along_dimension v a cdim in
      let* e := cell_centered_to_nodal c in
      if a <? length g then Ok (set_nth a (line_nda e) g) else Err IndexError) (seq 0 cdim) (Ok grid).

  (** Lines 77-84: the file names that may be given. *)
  Record distf_files := mk_files {
    fl_jf : option string; fl_mapc2p_vel : option string; fl_jacobvel : option string;
    fl_mc2nu : option string; fl_mapc2p : option string; fl_jacobtot_inv : option string }.

  Definition or_default (o : option string) (s : string) : string := match o with Some f => f | None => s end.

  (** Lines 74-150, [load_gk_distf]. *)
  Definition load_gk_distf (name species : string) (frame : Z) (tag suffix : string)
      (use_c2p_vel use_mc2nu use_mapc2p : bool) (block : option Z) (interp : option nat) (fl : distf_files) : res distf :=
    let prefix := block_name name block in
    let jf_file := or_default (fl_jf fl) (jf_name name species suffix block frame) in
    let mapc2p_vel_file := or_default (fl_mapc2p_vel fl) (prefix ++ "-" ++ species ++ "_mapc2p_vel.gkyl") in
    let jacobvel_file := or_default (fl_jacobvel fl) (prefix ++ "-" ++ species ++ "_jacobvel.gkyl") in
    let mc2nu_file := or_default (fl_mc2nu fl) (prefix ++ "-mc2nu_pos_deflated.gkyl") in
    let mapc2p_file := or_default (fl_mapc2p fl) (prefix ++ "-mapc2p_deflated.gkyl") in
    let jacobtot_inv_file := or_default (fl_jacobtot_inv fl) (prefix ++ "-jacobtot_inv.gkyl") in
    let* jf := read jf_file (if use_c2p_vel then Some mapc2p_vel_file else None) in
    let* jv := read jacobvel_file None in
    let* jt := read jacobtot_inv_file None in
    let* q := rb Rdiv (dd_values jf) (dd_values jv) in
    let d := mk_dgdata q (dd_grid jf) (dd_grid_type jf) (dd_basis jf) (dd_poly jf) (dd_ncdim jf) (dd_nvdim jf) in
    let* (grid, f) := interpolate1 d "gkhyb" interp [0] in
    let* (_, j) := interpolate1 jt "ms" interp [0] in
    let f := squeeze f in
    let j := squeeze j in
    let* p := rb Rmult f (trailing (length (shape f) - length (shape j)) j) in
    let p := new_axis p in
    if use_mc2nu then
      let* grid := apply_mc2nu_grid grid mc2nu_file interp in
      Ok (mk_distf tag grid p (if use_c2p_vel then "c2p_vel + mc2nu" else "mc2nu"))
    else if use_mapc2p then
      let* grid := apply_mc2nu_grid grid mapc2p_file interp in
      Ok (mk_distf tag grid p (if use_c2p_vel then "c2p_vel + mapc2p" else "mapc2p"))
    else Ok (mk_distf tag grid p (dd_grid_type jf)).

  (** Lines 221-245: one dataset per frame, in order; without ranges of frames, labels or
      the data space. *)
  Definition load_frames (name species : string) (frames : list Z) (tag suffix : string)
      (c2p_vel mc2nu mapc2p : option string) (block : option Z) (interp : option nat) (jf jacobvel jacobtot_inv : option string) : res (list distf) :=
    let (uv, fv) := resolve_optional_file_option c2p_vel in
    let (un, fn) := resolve_optional_file_option mc2nu in
    let (up, fp) := resolve_optional_file_option mapc2p in
    mapM (fun frame => load_gk_distf name species frame tag suffix uv un up block interp (mk_files jf fv jacobvel fn fp jacobtot_inv)) frames.
End Load.
