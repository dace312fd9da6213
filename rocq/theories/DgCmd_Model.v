(** * Model of commands/interpolate.py and commands/differentiate.py: what they
    do to one dataset.  The loop over the datasets, the overwriting and the
    [--tag] option are [DataSpace_Model.command]. *)
From Coq Require Import String Ascii List Arith ZArith Bool Lia.
From Verif Require Import Prelude NdArray Gkyl_Model Dg_Poly Dg_TabI Dg_TabD Dg_Model.
Import ListNotations.
Open Scope string_scope.
Open Scope list_scope.
Open Scope nat_scope.

Section DgCmd.
  Context {F : Type} (fo : fops F) (dot : list F -> list F -> F) (ev : pexp -> list F -> F)
          (root : nat -> nat -> nat)
          (* the matrix stored for a dimension and an order in
             xformMatricesNodalSerendipity.h5, dg.py 94-114 *)
          (stored : nat -> nat -> res (list (list F))).

  (** A dataset and the truth value of its [ctx["is_modal"]], [None] without that
      key.  The readers store True with a basis (gkyl_reader.py 192-194,
      gkyl_adios_reader.py 153-160) and nothing otherwise.  [dd_basis] is [None]
      without the key "basis_type" (no reader stores a None under it). *)
  Record idata := mk_idata { i_data : dgdata (F := F); i_modal : option bool }.

  (** The options --basis_type, --poly_order, --interp and --read (negative
      numbers are not modelled); --direction for differentiate.
      commands/interpolate.py 8-23, commands/differentiate.py 8-18. *)
  Record dgopts := mk_dgopts {
    o_basis : option string; o_poly : option nat; o_interp : option nat; o_read : option bool;
    o_dir : option Z
  }.

  (** interpolate.py 25-46, differentiate.py 25-41: [basis_type] and [is_modal]. *)
  Definition opt_basis (b : option string) : option (string * bool) :=
    match b with
    | Some b =>
        if String.eqb b "ms" then Some ("serendipity", true)
        else if String.eqb b "ns" then Some ("serendipity", false)
        else if String.eqb b "mo" then Some ("maximal-order", true)
        else if String.eqb b "mt" then Some ("tensor", true)
        else if String.eqb b "gkhyb" then Some ("gkhybrid", true)
        else if String.eqb b "pkpmhyb" then Some ("hybrid", true)
        else None
    | None => None
    end.

  (** gdata.py [push]: the metadata in [ctx] stay. data/gdata.py 289-292. *)
  Definition push (d : dgdata (F := F)) (g : list (nda F)) (v : nda F) : dgdata (F := F) :=
    mk_dgdata v g (dd_grid_type d) (dd_basis d) (dd_poly d) (dd_ncdim d) (dd_nvdim d).

  (** [GInterpNodal] as the commands use it (dg.py 280-331): the order comes
      from the option only.  A missing basis has no [lower]; a missing order
      makes the number of nodes an array, whose use fails with a TypeError. *)
  Definition nodal_object (d : dgdata (F := F)) (o : dgopts) : res (nat * string * nat) :=
    match opt_basis (o_basis o) with
    | None => Err AttributeError
    | Some (b, _) =>
        match o_poly o with
        | None => Err TypeError
        | Some p => let* nn := get_num_nodes (dd_dims d) p b in Ok (p, b, nn)
        end
    end.

  (** dg.py 78-114 for nodal data. *)
  Definition nodal_matrix (dim p : nat) (b : string) (o : dgopts) : res (list (list F)) :=
    match o_interp o, o_read o with
    | Some n, None => create_interp_matrix fo ev dim p b n false false
    | _, _ => if String.eqb b "serendipity" then stored dim p else Err NameError
    end.

  Definition no_basis (d : dgdata (F := F)) (o : dgopts) : bool :=
    match o_basis o, dd_basis d with None, None => true | _, _ => false end.
  (** [is_modal or dat.ctx["is_modal"]]. commands/interpolate.py 57, commands/differentiate.py 51. *)
  Definition use_modal (x : idata) (o : dgopts) : res bool :=
    match opt_basis (o_basis o) with
    | Some (_, true) => Ok true
    | _ => match i_modal x with Some b => Ok b | None => Err KeyError end
    end.

  (** interpolate.py 49-76.  [GInterpModal] takes [periodic] where the command
      passes [--read], so that the option is not seen (dg.py 391).  Without a
      basis the test [dat.ctx["basis_type"] is None] of line 50 raises before the
      message of line 51 can be given. *)
  Definition interpolate_data (o : dgopts) (x : idata) : res idata :=
    let d := i_data x in
    if no_basis d o then Err KeyError
    else
    let* m := use_modal x o in
    if m then
      let* g := modal_init d (o_poly o) (o_basis o) (o_interp o) in
      let* r := modal_interpolate fo dot ev root d g (seq 0 (dd_ncomps d / gi_nodes g)) in
      Ok (mk_idata (push d (fst r) (snd r)) (i_modal x))
    else
      let* nb := nodal_object d o in
      match nb with
      | (p, b, nn) =>
          let* cmat := nodal_matrix (dd_dims d) p b o in
          match seq 0 (dd_ncomps d / nn) with
          | [] => Err IndexError
          | comps =>
              match o_interp o with
              | None => Err TypeError
              | Some n =>
                  let* v := stack_fields fo (fun c => let* q := raw_nodal (dd_values d) nn c in
                                                   interp_on_mesh fo dot cmat q n b false) comps in
                  let* gr := make_1d_grids fo (repeat (root (dd_dims d) (length cmat)) (dd_dims d))
                               (dd_grid d) (dd_dims d) None in
                  Ok (mk_idata (push d (List.map line_nda gr) v) (i_modal x))
              end
          end
      end.

  (** differentiate.py 43-66: [differentiate] is called with its default
      component 0.  For nodal data --read is not modelled. *)
  Definition differentiate_data (o : dgopts) (x : idata) : res idata :=
    let d := i_data x in
    if no_basis d o then Err KeyError
    else
    let* m := use_modal x o in
    if m then
      let* g := modal_init d (o_poly o) (o_basis o) (o_interp o) in
      let* r := modal_differentiate fo dot ev root d g (o_dir o) 0 in
      Ok (mk_idata (push d (List.map line_nda (fst r)) (snd r)) (i_modal x))
    else
      let* nb := nodal_object d o in
      match nb with
      | (p, b, nn) =>
          let* r := nodal_differentiate fo dot ev root d p b (o_interp o) (o_dir o) 0 in
          Ok (mk_idata (push d (List.map line_nda (fst r)) (snd r)) (i_modal x))
      end.
End DgCmd.
