(** * Model of index parsing and selection
    (data/idx_parser.py and data/select.py). *)
From Coq Require Import String Ascii List ZArith QArith Bool Lia.
From Verif Require Import Prelude NdArray GData_Model.
Import ListNotations.
Open Scope list_scope.

(** Argument of a selection: [int], [float] or [str]. data/idx_parser.py 41 and data/select.py 13-16. *)
Inductive ival := VInt (z : Z) | VFloat (q : Q) | VStr (s : string).

(** Result of [idx_parser]. data/idx_parser.py 41-78. *)
Inductive pidx := IInt (z : Z) | ISlice (a b : Z) | ITuple (l : list Z).

(** [np.searchsorted(array, value)] (side left) for a sorted 1-D array: the
    number of leading elements smaller than the value.  numpy bisects; on
    arrays that are not sorted the two may differ. *)
Fixpoint searchsorted (a : list Q) (v : Q) : nat :=
  match a with
  | [] => 0%nat
  | x :: a' => if Qle_bool v x then 0%nat else S (searchsorted a' v)
  end.

(** [len(array)]. data/idx_parser.py 63 and 67. *)
Definition arr_len (a : option garr) : res Z :=
  match a with
  | None => Err TypeError
  | Some g => match shape g with [] => Err TypeError | n :: _ => Ok (Z.of_nat n) end
  end.

(** idx_parser.py 3-14.  A multi-dimensional array makes [np.searchsorted]
    raise [ValueError]. *)
Definition find_nearest_index (a : option garr) (v : Q) : res Z :=
  match a with
  | None => Err TypeError
  | Some g =>
      match shape g with
      | [n] =>
          let idx := searchsorted (flat g) v in
          if (idx =? n)%nat then Ok (Z.of_nat idx - 2)%Z
          else if (0 <? idx)%nat then Ok (Z.of_nat idx - 1)%Z
          else Ok (Z.of_nat idx)
      | _ => Err ValueError
      end
  end.

(** idx_parser.py 17-22. *)
Definition find_cell_index (a : option garr) (v : Q) : res Z :=
  match a with
  | None => Err TypeError
  | Some g =>
      match shape g with
      | [_] => Ok (Z.of_nat (searchsorted (flat g) v))
      | _ => Err ValueError
      end
  end.

Section Parse.
  (** Python's [float(str)]: [None] for strings that do not denote a finite
      number ([ValueError]; "nan" and "inf" are not modelled). *)
  Variable pfloat : string -> option Q.

  (** idx_parser.py 47-51, 30-34. *)
  Definition find_index (nodal : bool) (a : option garr) (v : Q) : res Z :=
    if nodal then find_cell_index a v else find_nearest_index a v.

  (** idx_parser.py 25-38. *)
  Definition string_to_index (s : string) (a : option garr) (nodal : bool) : res Z :=
    if is_digits s then py_int s
    else match pfloat s with
         | None => Err ValueError
         | Some q => find_index nodal a q
         end.

  (** idx_parser.py 57-71: the slice case; [s0], [s1] are the two parts. *)
  Definition parse_slice (s0 s1 : string) (a : option garr) (nodal : bool) : res pidx :=
    let s0' := if String.eqb s0 "" then "0"%string else s0 in
    let* s1' := (if String.eqb s1 "" then let* n := arr_len a in Ok (show_Z n) else Ok s1) in
    let* s1'' := match py_int s1' with
                 | Ok k => if (k <? 0)%Z
                           then let* n := arr_len a in Ok (show_Z (n + k + 1))
                           else Ok s1'
                 | Err _ => Ok s1'    (* except ValueError: pass *)
                 end in
    let* i0 := string_to_index s0' a nodal in
    let* i1 := string_to_index s1'' a nodal in
    Ok (ISlice i0 i1).

  (** idx_parser.py 41-78. *)
  Definition idx_parser (v : ival) (a : option garr) (nodal : bool) : res pidx :=
    match v with
    | VInt z => Ok (IInt z)
    | VFloat q => let* i := find_index nodal a q in Ok (IInt i)
    | VStr s =>
        let parts := split_on "," s in
        if (1 <? length parts)%nat then
          let* l := mapM (fun p => string_to_index p a nodal) parts in Ok (ITuple l)
        else
          match split_on ":" s with
          | [s0; s1] => parse_slice s0 s1 a nodal
          | _ => let* i := string_to_index s a nodal in Ok (IInt i)
          end
    end.

  (** select.py 41-75, one pass of the loop for a dimension with a cut: the
      slices applied to the values and to the coordinate array. *)
  Definition axis_slices (z : ival) (gd : garr) (len_grid vlen : nat)
    : res ((Z * Z) * (Z * Z)) :=
    let is_matching := (vlen =? len_grid)%nat in
    let* idx := idx_parser z (Some gd) is_matching in
    match idx with
    | IInt i => Ok ((i, i + 1), if is_matching then (i, i + 1) else (i, i + 2))%Z
    | ISlice a b => Ok ((a, b), if is_matching then (a, b) else (a, b + 1))%Z
    | ITuple _ => Err TypeError
    end.

  (** [l[d]]. data/select.py 51-56. *)
  Definition nth_res {B} (l : list B) (d : nat) : res B :=
    match nth_error l d with Some b => Ok b | None => Err IndexError end.

  (** [a[tuple(slices)]] with one slice per leading axis; the remaining axes
      are kept whole. data/select.py 82 and 85. *)
  Definition slice_array {B} (sl : list (Z * Z)) (a : nda B) : res (nda B) :=
    if (length (shape a) <? length sl)%nat then Err IndexError
    else
      let sels := map2 (fun n s => slice2 n (fst s) (snd s)) (shape a) sl in
      Ok (take (sels ++ List.map (seq 0) (skipn (length sl) (shape a))) a).

  (** select.py 78-91: selection of components, given the slices
      of the coordinate axes.  A single integer drops the axis; the dummy axis
      is put back when the number of axes equals [num_dims]. *)
  Definition select_values {B} (vs : list (Z * Z)) (comp : option ival) (nd : nat) (v : nda B)
    : res (nda B) :=
    match nth_error (shape v) nd with
    | None => Err IndexError   (* values.shape[num_dims], select.py 35 *)
    | Some nc =>
        let axes := map2 (fun n s => slice2 n (fst s) (snd s)) (shape v) vs in
        let rest := List.map (seq 0) (skipn (S nd) (shape v)) in
        let fin (ks : list nat) (drop : bool) :=
          let out := take (axes ++ ks :: rest) v in
          let sh := if drop then (List.map (@length nat) axes ++ List.map (@length nat) rest)
                    else shape out in
          let sh' := if (length sh =? nd)%nat then sh ++ [1%nat] else sh in
          Ok (mk_nda sh' (flat out)) in
        match comp with
        | None => fin (slice2 nc 0 (Z.of_nat nc)) false
        | Some c =>
            let* i := idx_parser c None false in
            match i with
            | IInt k => let* j := norm_index nc k in fin [j] true
            | ISlice a b => fin (slice2 nc a b) false
            | ITuple l => let* js := mapM (norm_index nc) l in fin js false
            end
        end
    end.

  (** select.py 12-96.  [zs] are the arguments [z0 .. z5] (missing ones are
      [None]).  Returns grid, values and the dataset after the call. *)
  Definition select {A} (d : gdata A) (zs : list (option ival)) (comp : option ival)
      (overwrite : bool) : res (list garr * nda A * gdata A) :=
    match g_grid d with
    | None => Err TypeError            (* list(None) *)
    | Some grid =>
    match g_vals d with
    | None => Err AttributeError       (* values.shape of None *)
    | Some v =>
        let nd := get_num_dims d in
        let* _ := get_bounds d in
        if (length (shape v) <=? nd)%nat then Err IndexError   (* line 35 *)
        else
        match grid with
        | [] => Err IndexError         (* grid[0] *)
        | g0 :: _ =>
            let uniform := (length (shape g0) =? 1)%nat in
            let* sl := mapM (fun k =>
                match nth_error zs k with
                | Some (Some z) =>
                    let* gd := nth_res grid k in
                    let* vlen := nth_res (shape v) k in
                    let* len_grid := nth_res (shape gd) (if uniform then 0%nat else k) in
                    let* s := axis_slices z gd len_grid vlen in
                    Ok (fst s, Some (snd s))
                | _ =>
                    let* vlen := nth_res (shape v) k in
                    if uniform then Ok ((0, Z.of_nat vlen)%Z, None)
                    else let* gd := nth_res grid k in
                         let* n := nth_res (shape gd) k in
                         Ok ((0, Z.of_nat vlen)%Z, Some (0, Z.of_nat n)%Z)
                end) (seq 0 nd) in
            let* vout := select_values (List.map fst sl) comp nd v in
            let* gout :=
              (if uniform then
                 mapM (fun k =>
                    let* gd := nth_res grid k in
                    match nth_error sl k with
                    | Some (_, Some s) => slice_array [s] gd
                    | _ => Ok gd
                    end) (seq 0 (length grid))
               else
                 mapM (fun k =>
                    let* gd := nth_res grid k in
                    if (k <? nd)%nat then
                      slice_array (List.map (fun s => match snd s with Some g => g | None => (0, 0)%Z end) sl) gd
                    else Ok gd) (seq 0 (length grid))) in
            if overwrite then
              match push d gout vout with
              | (d', None) => Ok (gout, vout, d')
              | (_, Some e) => Err e
              end
            else Ok (gout, vout, d)
        end
    end
    end.
End Parse.
