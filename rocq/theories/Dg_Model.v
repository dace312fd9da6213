(** * Discontinuous Galerkin interpolation (data/dg.py and the matrix builders).

    Numbers are an abstract type [F] with the operations of [fops]; the
    following are parameters of every definition:
    - [dot], the inner product computed by [np.tensordot] (its summation order
      is not fixed by numpy);
    - [ev], evaluation of a SymPy expression at a point
      ([functionVector[k].subs(x, ..)] converted to a float);
    - [root d r], the value of [int(round(r ** (1.0 / d)))].

    Not modelled: reading pre-computed matrices from HDF5 files
    ([_loadInterpMatrix] with [read] given or no [interp]), floating-point
    rounding, negative interpolation counts (numpy.zeros raises). *)
From Coq Require Import String Ascii List Arith ZArith Bool Lia.
From Verif Require Import Prelude NdArray Gkyl_Model Dg_Poly Dg_TabI Dg_TabD.
Import ListNotations.
Open Scope string_scope.
Open Scope list_scope.
Open Scope nat_scope.

(** ** Basis sizes *)

(** dg.py 12-18 *)
Definition num_nodes_serendipity : list (list nat) :=
  [[1; 2; 3; 4; 5]; [1; 4; 8; 12; 17]; [1; 8; 20; 32; 50]; [1; 16; 48; 80; 136];
   [1; 32; 112; 192; 352]; [1; 64; 256; 448; 880]].
(** dg.py 20-26 *)
Definition num_nodes_maximal : list (list nat) :=
  [[2; 3; 4; 5]; [3; 6; 10; 15]; [4; 10; 20; 35]; [5; 15; 35; 70]; [6; 21; 56; 126];
   [7; 28; 84; 210]].
(** dg.py 28-34 *)
Definition num_nodes_tensor : list (list nat) :=
  [[2; 3; 4; 5]; [4; 9; 16; 25]; [8; 27; 64; 125]; [16; 81; 256; 625];
   [32; 343; 1024; 3125]; [64; 729; 4096; 15625]].
(** dg.py 36-37 *)
Definition num_nodes_gkhybrid : list nat := [1; 6; 12; 24; 48].
Definition num_nodes_hybrid : list nat := [1; 6; 12; 24; 48].

(** numpy indexing of one axis: negative positions count from the end. Used in data/dg.py 57-65. *)
Definition np_at {A} (l : list A) (i : Z) : res A :=
  let* k := norm_index (length l) i in
  match nth_error l k with Some a => Ok a | None => Err IndexError end.

(** [str.lower] on ASCII text. Used in data/dg.py 56-64. *)
Definition lower_ascii (c : ascii) : ascii :=
  let n := nat_of_ascii c in
  if (65 <=? n) && (n <=? 90) then ascii_of_nat (n + 32) else c.
Fixpoint lower (s : string) : string :=
  match s with EmptyString => EmptyString | String c s' => String (lower_ascii c) (lower s') end.

(** dg.py 55-75, [_getnum_nodes] *)
Definition get_num_nodes (dim order : nat) (basis : string) : res nat :=
  let row := (Z.of_nat dim - 1)%Z in
  let b := lower basis in
  if String.eqb b "serendipity" then
    let* r := np_at num_nodes_serendipity row in np_at r (Z.of_nat order)
  else if String.eqb b "maximal-order" then
    let* r := np_at num_nodes_maximal row in np_at r (Z.of_nat order - 1)
  else if String.eqb b "tensor" then
    let* r := np_at num_nodes_tensor row in np_at r (Z.of_nat order - 1)
  else if String.eqb b "gkhybrid" then np_at num_nodes_gkhybrid row
  else if String.eqb b "hybrid" then np_at num_nodes_hybrid row
  else Err NameError.

(** Positions of [x] in a list ([np.argwhere(row == x)]). data/dg.py 42, 47. *)
Fixpoint positions (x : nat) (l : list nat) (k : nat) : list nat :=
  match l with
  | [] => []
  | y :: l' => if Nat.eqb x y then k :: positions x l' (S k) else positions x l' (S k)
  end.

(** dg.py 40-52, [_get_basis_p].  [if idx:] is false for an empty array and for
    the position 0, and raises for an array of two or more positions (no row of
    the tables has repeated entries). *)
Definition truthy_pos (l : list nat) : res (option nat) :=
  match l with
  | [] => Ok None
  | [O] => Ok None
  | [S k] => Ok (Some (S k))
  | _ => Err ValueError
  end.

Definition get_basis_p (dim ncomp : nat) : res (option (string * nat)) :=
  let row := (Z.of_nat dim - 1)%Z in
  let* rs := np_at num_nodes_serendipity row in
  let* s := truthy_pos (positions ncomp rs 0) in
  let r1 := match s with Some k => Some ("serendipity", k) | None => None end in
  let* rt := np_at num_nodes_tensor row in
  let* t := truthy_pos (positions ncomp rt 0) in
  Ok (match t with Some k => Some ("tensor", S k) | None => r1 end).

(** ** Strided assignment *)

(** Positions selected by [slice(start, stop, step)] on an axis of length [len]. data/dg.py 199-204. *)
Definition strided (len start stop step : nat) : list nat :=
  List.map (fun j => start + j * step) (seq 0 ((Nat.min stop len + (step - 1) - start) / step)).

Fixpoint index_of (x : nat) (l : list nat) : option nat :=
  match l with
  | [] => None
  | y :: l' => if Nat.eqb x y then Some 0 else option_map S (index_of x l')
  end.

(** The position in the selected block of an index of the whole array.
    For the assignment of data/dg.py 206. *)
Fixpoint locate (sels : list (list nat)) (idx : list nat) : option (list nat) :=
  match sels, idx with
  | [], [] => Some []
  | s :: sels', i :: idx' =>
      match index_of i s, locate sels' idx' with
      | Some k, Some ks => Some (k :: ks)
      | _, _ => None
      end
  | _, _ => None
  end.

Definition list_nat_eqb (a b : list nat) : bool := if list_eq_dec Nat.eq_dec a b then true else false.

(** [np.unravel_index(n, ns, order="F")]. data/dg.py 196. *)
Fixpoint unravel_f (ns : list nat) (r : nat) : list nat :=
  match ns with
  | [] => []
  | n :: ns' => (r mod n) :: unravel_f ns' (r / n)
  end.

Section Dg.
  Context {F : Type} (fo : fops F) (dot : list F -> list F -> F) (ev : pexp -> list F -> F)
          (root : nat -> nat -> nat).

  (** Reading an array; positions outside do not occur (data/dg.py 169-251). *)
  Definition getz (a : nda F) (idx : list nat) : F :=
    match get a idx with Some v => v | None => fzero fo end.

  (** [a[sels] = t].  Broadcasting of axes of length one is not modelled. data/dg.py 206. *)
  Definition assign (a : nda F) (sels : list (list nat)) (t : nda F) : res (nda F) :=
    if list_nat_eqb (List.map (@length nat) sels) (shape t) then
      Ok (tabulate (shape a) (fun idx =>
            match locate sels idx with Some j => getz t j | None => getz a idx end))
    else Err ValueError.

  (** ** Interpolation matrices.
      Whole numbers as floats, data/computeInterpolationMatrices.py 12-49. *)

  Definition fnat (n : nat) : F := fofZ fo (Z.of_nat n).
  (** The constant -1 of data/computeInterpolationMatrices.py. *)
  Definition fm1 : F := fofZ fo (-1).

  (** computeInterpolationMatrices.py 12-18 and 41-49: point [i] of [n]. *)
  Definition interp_point (c2p : bool) (n i : nat) : F :=
    if c2p then fadd fo fm1 (fdiv fo (fmul fo (fnat i) (fnat 2)) (fnat (n - 1)))
    else fadd fo (fdiv fo (fmul fo fm1 (fsub fo (fnat n) (fnat 1))) (fnat n))
                 (fdiv fo (fmul fo (fnat i) (fnat 2)) (fnat n)).

  (** computeInterpolationMatrices.py 22-38: number of points in direction [d];
      the one-dimensional branch uses the common list whatever the basis. *)
  Definition points_in (dim : nat) (basis : string) (n d : nat) : nat :=
    if Nat.eqb dim 1 then n
    else if String.eqb basis "gkhybrid" then
      if ((Nat.eqb dim 2 || Nat.eqb dim 3) && Nat.eqb d 1) || (Nat.eqb dim 4 && Nat.eqb d 2)
         || (Nat.eqb dim 5 && Nat.eqb d 3)
      then S n else n
    else if String.eqb basis "hybrid" then (if Nat.eqb d (dim - 1) then S n else n)
    else n.

  Definition point_counts (dim : nat) (basis : string) (n : nat) : list nat :=
    List.map (points_in dim basis n) (seq 0 dim).

  (** The matrix filled by the nested loops, e.g. computeInterpolationMatrices.py
      216-221: row [j + i * n] holds the functions at [(points[j], points[i])],
      the first coordinate varying fastest. *)
  Definition rows_of (c2p : bool) (ns : list nat) (fs : list pexp) : list (list F) :=
    List.map (fun r => List.map (fun f => ev f (map2 (interp_point c2p) ns (unravel_f ns r))) fs)
             (seq 0 (prod ns)).

  (** computeInterpolationMatrices.py 7-8969, [createInterpMatrix] *)
  Definition create_interp_matrix (dim order : nat) (basis : string) (interp : nat)
      (modal c2p : bool) : res (list (list F)) :=
    let n := if c2p then S interp else interp in
    if c2p && Nat.eqb n 1 then Err ZeroDivisionError
    else
      let* fs := interp_functions dim order modal basis in
      Ok (rows_of c2p (point_counts dim basis n) fs).

  (** computeDerivativeMatrices.py 7-7905, [createDerivativeMatrix]: the slice
      [[:, :, d]] of the result. *)
  Definition create_deriv_matrix (dim order : nat) (basis : string) (interp : nat)
      (modal : bool) (d : nat) : res (list (list F)) :=
    let* fs := deriv_functions dim order modal basis in
    Ok (rows_of false (repeat interp dim) (List.map (pdiff d) fs)).

  (** ** Evaluation on the mesh *)

  (** dg.py 177-178 *)
  Definition vpardir (nd : nat) : nat :=
    if Nat.eqb nd 2 || Nat.eqb nd 3 then 1
    else if Nat.eqb nd 4 then 2 else if Nat.eqb nd 5 then 3 else 99.

  (** dg.py 174-183 *)
  Definition mesh_counts (nd n : nat) (basis : string) : res (list nat) :=
    let base := repeat (Nat.max n 2) nd in
    let* b1 := if String.eqb basis "gkhybrid" then
                 if vpardir nd <? nd then Ok (set_nth (vpardir nd) (S n) base) else Err IndexError
               else Ok base in
    if String.eqb basis "hybrid" then
      match nd with
      | O => Err IndexError
      | S k => Ok (set_nth k (S n) b1)
      end
    else Ok b1.

  Definition coeffs (q : nda F) (nnodes : nat) (i : list nat) : list F :=
    List.map (fun m => getz q (i ++ [m])) (seq 0 nnodes).

  (** dg.py 190-194: [np.tensordot(cMat[n, :], qIn, axes=1)] *)
  Definition row_values (cmat : list (list F)) (q : nda F) (r : nat) : res (nda F) :=
    match nth_error cmat r with
    | None => Err IndexError
    | Some row =>
        let nn := last (shape q) 0 in
        if Nat.eqb (length row) nn then
          Ok (tabulate (removelast (shape q)) (fun i => dot row (coeffs q nn i)))
        else Err ValueError
    end.

  (** dg.py 196-205 *)
  Definition mesh_sels (c2p : bool) (cells ns ks osh : list nat) : list (list nat) :=
    List.map (fun p => match p with (c, n, k, l) =>
        if c2p then strided l k (c * (n - 1) + k) (n - 1) else strided l k (c * n) n end)
      (combine (combine (combine cells ns) ks) osh).

  Definition mesh_shape (c2p : bool) (cells ns : list nat) : list nat :=
    map2 (fun c n => if c2p then c * (n - 1) + 1 else c * n) cells ns.

  (** The body of the loop of data/dg.py 192-207. *)
  Definition mesh_step (c2p : bool) (cmat : list (list F)) (q : nda F) (ns : list nat)
      (acc : res (nda F)) (r : nat) : res (nda F) :=
    let* a := acc in
    let* t := row_values cmat q r in
    assign a (mesh_sels c2p (removelast (shape q)) ns (unravel_f ns r) (shape a)) t.

  (** dg.py 169-208, [_interpOnMesh] *)
  Definition interp_on_mesh (cmat : list (list F)) (q : nda F) (n : nat) (basis : string)
      (c2p : bool) : res (nda F) :=
    let cells := removelast (shape q) in
    let* ns := mesh_counts (length cells) n basis in
    if Nat.eqb (length cells) 0 then Err TypeError
    else
      let zeros := tabulate (mesh_shape c2p cells ns) (fun _ => fzero fo) in
      fold_left (mesh_step c2p cmat q ns) (seq 0 (prod ns)) (Ok zeros).

  (** ** Grids *)

  (** dg.py 129-150, [_makeMesh] (called without [xlo], [xup]) *)
  Definition make_mesh (n : nat) (xc : list F) (gtype : option string) : res (list F) :=
    match xc with
    | [] => Err ValueError
    | x0 :: _ =>
        let nx := length xc - 1 in
        let at_ := fun i => nth i xc (fzero fo) in
        match gtype with
        | None => Ok (linspace fo x0 (last xc (fzero fo)) (n * nx))
        | Some g =>
            if String.eqb g "uniform" then Ok (linspace fo x0 (last xc (fzero fo)) (n * nx))
            else if String.eqb g "mapped" then
              match nx with
              | O => Err IndexError
              | S m =>
                  Ok (flat_map (fun i =>
                        let dx := fdiv fo (fsub fo (at_ (S i)) (at_ i)) (fnat n) in
                        List.map (fun j => fadd fo (at_ i) (fmul fo (fnat j) dx)) (seq 0 n))
                      (seq 0 nx)
                      ++ [fadd fo (at_ m) (fmul fo (fnat n)
                            (fdiv fo (fsub fo (at_ (S m)) (at_ m)) (fnat n)))])
              end
            else Ok (repeat (fzero fo) (n * nx + 1))
        end
    end.

  (** [Xc[d][tuple(currSlices)]], dg.py 160-163: axis [nd - 1 - d], zero elsewhere. *)
  Definition axis_line (nd d : nat) (g : nda F) : list F :=
    List.map (fun i => getz g (set_nth (nd - 1 - d) i (repeat 0 nd)))
             (seq 0 (nth (nd - 1 - d) (shape g) 0)).

  (** dg.py 153-166, [_make1Dgrids] *)
  Definition make_1d_grids (ns : list nat) (xc : list (nda F)) (nd : nat) (gtype : option string)
      : res (list (list F)) :=
    let one := fun (mapped : bool) d =>
      match nth_error ns d, nth_error xc d with
      | Some n, Some g =>
          make_mesh n (if mapped then axis_line nd d g else flat g)
                    (if mapped then gtype else None)
      | _, _ => Err IndexError
      end in
    match gtype with
    | None => mapM (one false) (seq 0 nd)
    | Some g => if String.eqb g "uniform" then mapM (one false) (seq 0 nd)
                else if String.eqb g "mapped" then mapM (one true) (seq 0 nd)
                else Ok []
    end.

  (** ** Component extraction *)

  (** dg.py 243-251, [_getRawModal]: [q[..., lo:up]] *)
  Definition raw_modal (q : nda F) (nnodes c : nat) : nda F :=
    let sh := removelast (shape q) in
    let nc := last (shape q) 0 in
    take (List.map (seq 0) sh ++ [seq (c * nnodes) (Nat.min (c * nnodes + nnodes) nc - c * nnodes)]) q.

  (** dg.py 232-241, [_getRawNodal]; [numEqns] is the quotient
      [num_comps / num_nodes], not rounded, and [int] truncates. *)
  Definition raw_nodal (q : nda F) (nnodes c : nat) : res (nda F) :=
    let sh := removelast (shape q) in
    let nc := last (shape q) 0 in
    let* ks := mapM (fun n => let k := c + n * nc / nnodes in
                              if k <? nc then Ok k else Err IndexError) (seq 0 nnodes) in
    Ok (take (List.map (seq 0) sh ++ [ks]) q).

  (** [np.append(values, v[..., np.newaxis], axis=-1)] *)
  Definition append_comp (vals v : nda F) : res (nda F) :=
    let nc := last (shape vals) 0 in
    if list_nat_eqb (removelast (shape vals)) (shape v) then
      Ok (tabulate (shape v ++ [S nc]) (fun idx =>
            if last idx 0 <? nc then getz vals idx else getz v (removelast idx)))
    else Err ValueError.

  Definition new_axis (v : nda F) : nda F := mk_nda (shape v ++ [1]) (flat v).

  (** dg.py 303-311 and 452-460: the fields of the tuple [comp] one after the other. *)
  Definition stack_fields (field : nat -> res (nda F)) (comps : list nat) : res (nda F) :=
    match comps with
    | [] => Err IndexError
    | c0 :: cs =>
        let* v0 := field c0 in
        fold_left (fun acc c => let* vals := acc in let* v := field c in append_comp vals v)
                  cs (Ok (new_axis v0))
    end.

  (** ** Interpolation objects. What data/dg.py 224-230 and 390-440 read from a dataset. *)

  Record dgdata := mk_dgdata {
    dd_values : nda F;
    dd_grid : list (nda F);
    dd_grid_type : string;
    dd_basis : option string;     (* ctx["basis_type"] *)
    dd_poly : option nat;         (* ctx["poly_order"] *)
    dd_ncdim : nat;               (* ctx["num_cdim"] *)
    dd_nvdim : nat                (* ctx["num_vdim"] *)
  }.

  (** data/gdata.py 220-230 for loaded data. *)
  Definition dd_dims (d : dgdata) : nat := length (removelast (shape (dd_values d))).
  (** data/gdata.py 208-218 for loaded data. *)
  Definition dd_ncomps (d : dgdata) : nat := last (shape (dd_values d)) 0.

  (** The fields set by data/dg.py 280-291 and 390-440. *)
  Record ginterp := mk_ginterp {
    gi_dims : nat; gi_poly : nat; gi_basis : string; gi_interp : nat; gi_nodes : nat
  }.

  (** dg.py 401-412: names accepted on the command line. *)
  Definition modal_basis_name (b : string) : res string :=
    if String.eqb b "ms" then Ok "serendipity"
    else if String.eqb b "mo" then Ok "maximal-order"
    else if String.eqb b "mt" then Ok "tensor"
    else if String.eqb b "gkhyb" then Ok "gkhybrid"
    else if String.eqb b "pkpmhyb" then Ok "hybrid"
    else Err AttributeError.

  (** dg.py 390-440, [GInterpModal.__init__] *)
  Definition modal_init (d : dgdata) (poly : option nat) (basis : option string)
      (interp : option nat) : res ginterp :=
    let nd := dd_dims d in
    let* p := match poly with
              | Some p => Ok p
              | None => match dd_poly d with Some (S p) => Ok (S p) | _ => Err ValueError end
              end in
    let from_ctx := match dd_basis d with
                    | Some b => if String.eqb b "" then Err ValueError else Ok b
                    | None => Err ValueError
                    end in
    let* b := match basis with
              | Some b => if String.eqb b "" then from_ctx else modal_basis_name b
              | None => from_ctx
              end in
    let b' := if Nat.eqb nd 1 && String.eqb b "hybrid" then "serendipity" else b in
    let n := match interp with Some (S k) => S k | _ => S p end in
    let* nn := get_num_nodes nd p b' in
    Ok (mk_ginterp nd p b' n nn).

  (** The fields of a modal object, dg.py 447-460. *)
  Definition modal_values (d : dgdata) (g : ginterp) (comps : list nat) : res (nda F) :=
    let* cmat := create_interp_matrix (gi_dims g) (gi_poly g) (gi_basis g) (gi_interp g) true false in
    stack_fields (fun c => interp_on_mesh cmat (raw_modal (dd_values d) (gi_nodes g) c)
                             (gi_interp g) (gi_basis g) false) comps.

  (** dg.py 482-493: points per cell of the output grid. *)
  Definition grid_counts (g : ginterp) (rows : nat) : res (list nat) :=
    let nd := gi_dims g in
    let base := repeat (gi_interp g) nd in
    if String.eqb (gi_basis g) "gkhybrid" then
      if vpardir nd <? nd then Ok (set_nth (vpardir nd) (S (gi_interp g)) base) else Err IndexError
    else if String.eqb (gi_basis g) "hybrid" then
      match nd with O => Err IndexError | S k => Ok (set_nth k (S (gi_interp g)) base) end
    else Ok (repeat (root nd rows) nd).

  Definition line_nda (l : list F) : nda F := mk_nda [length l] l.

  (** dg.py 471-509: the grid returned with interpolated values.  For a "c2p"
      grid each coordinate is itself an expansion in the basis recognised from
      the number of components of the first; for "c2p_vel" the velocity
      coordinates are, in the basis recognised from the last. *)
  Definition modal_grid (d : dgdata) (g : ginterp) : res (list (nda F)) :=
    let nd := gi_dims g in
    let c2p_axis := fun dim (q0 q : nda F) n =>
      let* bp := get_basis_p dim (last (shape q0) 0) in
      match bp with
      | None => Err NameError
      | Some (b, p) =>
          let* cm := create_interp_matrix dim p b n true true in
          interp_on_mesh cm q (S n) b true
      end in
    if String.eqb (dd_grid_type d) "c2p" then
      mapM (fun k => match nth_error (dd_grid d) 0, nth_error (dd_grid d) k with
                     | Some q0, Some q => c2p_axis nd q0 q (gi_interp g)
                     | _, _ => Err IndexError
                     end) (seq 0 nd)
    else
      let* cmat := create_interp_matrix nd (gi_poly g) (gi_basis g) (gi_interp g) true false in
      let* ns := grid_counts g (length cmat) in
      let* gr := make_1d_grids ns (dd_grid d) nd None in
      let gr := List.map line_nda gr in
      if String.eqb (dd_grid_type d) "c2p_vel" then
        fold_left (fun acc v =>
          let* cur := acc in
          let k := dd_ncdim d + v in
          match nth_error (dd_grid d) k, nth_error ns k with
          | Some q, Some n =>
              let* line := c2p_axis 1 (last (dd_grid d) q) q n in
              Ok (set_nth k line cur)
          | _, _ => Err IndexError
          end) (seq 0 (dd_nvdim d)) (Ok gr)
      else Ok gr.

  (** dg.py 442-515, [GInterpModal.interpolate] (tuple of components). *)
  Definition modal_interpolate (d : dgdata) (g : ginterp) (comps : list nat)
      : res (list (nda F) * nda F) :=
    let* v := modal_values d g comps in
    let* gr := modal_grid d g in
    Ok (gr, v).

  (** dg.py 280-291, [GInterpNodal.__init__] *)
  Definition nodal_init (d : dgdata) (poly : nat) (basis : string) : res (nat * string * nat) :=
    let b := if String.eqb basis "ns" then "serendipity" else basis in
    let* nn := get_num_nodes (dd_dims d) poly b in
    Ok (dd_dims d, b, nn).

  (** dg.py 293-331, [GInterpNodal.interpolate]; without an interpolation count
      [max(None, 2)] raises. *)
  Definition nodal_interpolate (d : dgdata) (poly : nat) (basis : string) (interp : option nat)
      (comps : list nat) : res (list (list F) * nda F) :=
    let* o := nodal_init d poly basis in
    match o with
    | (nd, b, nn) =>
        match interp with
        | None => Err TypeError
        | Some n =>
            let* cmat := create_interp_matrix nd poly b n false false in
            let* v := stack_fields (fun c => let* q := raw_nodal (dd_values d) nn c in
                                             interp_on_mesh cmat q n b false) comps in
            let* gr := make_1d_grids (repeat (root nd (length cmat)) nd) (dd_grid d) nd None in
            Ok (gr, v)
        end
    end.

  (** ** Differentiation. data/dg.py 345, 351 and the same in 541-570. *)

  Definition cell_width (d : dgdata) (k : nat) : res F :=
    match nth_error (dd_grid d) k with
    | Some g => match flat g with
                | a :: b :: _ => Ok (fsub fo b a)
                | _ => Err IndexError
                end
    | None => Err IndexError
    end.

  (** dg.py 546-563: values of [GInterpModal.differentiate]. *)
  Definition modal_diff_values (d : dgdata) (g : ginterp) (direction : option Z) (c : nat)
      : res (nda F) :=
    let nd := gi_dims g in
    let q := raw_modal (dd_values d) (gi_nodes g) c in
    let part := fun k =>
      let* cm := create_deriv_matrix nd (gi_poly g) (gi_basis g) (gi_interp g) true k in
      interp_on_mesh cm q (gi_interp g) (gi_basis g) false in
    match direction with
    | Some z =>
        let* k := norm_index nd z in
        let* v := part k in
        let* w := cell_width d k in
        Ok (new_axis (map_nda (fun a => fdiv fo (fmul fo a (fnat 2)) w) v))
    | None =>
        let* v0 := part 0 in
        let* w0 := cell_width d 0 in
        fold_left (fun acc k =>
            let* vals := acc in
            let* v := part k in
            let* w := cell_width d k in
            append_comp vals (map_nda (fun a => fmul fo a (fdiv fo (fnat 2) w)) v))
          (seq 1 (nd - 1)) (Ok (new_axis (map_nda (fun a => fdiv fo a w0) v0)))
    end.

  (** dg.py 565-571 *)
  Definition modal_differentiate (d : dgdata) (g : ginterp) (direction : option Z) (c : nat)
      : res (list (list F) * nda F) :=
    let* v := modal_diff_values d g direction c in
    let* cm := create_deriv_matrix (gi_dims g) (gi_poly g) (gi_basis g) (gi_interp g) true 0 in
    let* gr := make_1d_grids (repeat (root (gi_dims g) (length cm)) (gi_dims g)) (dd_grid d)
                 (gi_dims g) (Some (dd_grid_type d)) in
    Ok (gr, v).

  (** dg.py 333-361, [GInterpNodal.differentiate]; without a direction
      [np.zeros(q.shape, num_dims)] raises. *)
  Definition nodal_differentiate (d : dgdata) (poly : nat) (basis : string) (interp : option nat)
      (direction : option Z) (c : nat) : res (list (list F) * nda F) :=
    let* o := nodal_init d poly basis in
    match o with
    | (nd, b, nn) =>
        let* q := raw_nodal (dd_values d) nn c in
        match direction, interp with
        | Some z, Some n =>
            let* k := norm_index nd z in
            let* cm := create_deriv_matrix nd poly b n false k in
            let* v := interp_on_mesh cm q n b false in
            let* w := cell_width d k in
            let* gr := make_1d_grids (repeat (root nd (length cm)) nd) (dd_grid d) nd None in
            Ok (gr, new_axis (map_nda (fun a => fdiv fo (fmul fo a (fnat 2)) w) v))
        | _, _ => Err TypeError
        end
    end.

End Dg.
