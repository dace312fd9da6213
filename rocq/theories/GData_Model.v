(** * Model of the array/metadata part of [GData] (data/gdata.py).

    Coordinates are rationals: every finite double is a rational and the code
    modelled here only compares and copies coordinates, so this is exact.  NaN
    and infinities are not modelled.  Values are elements of an arbitrary type.
    Only the metadata keys "cells", "num_comps", "lower", "upper" of the
    dictionary [ctx] are kept; the others are never read by the functions
    below.  *)
From Coq Require Import String List ZArith QArith Bool Lia.
From Verif Require Import Prelude NdArray.
Import ListNotations.
Open Scope list_scope.

(** A coordinate array: 1-D for uniform grids, n-D for mapped ones. *)
Definition garr := nda Q.

(** data/gdata.py 80-103: the attributes [_grid], [_values], and four keys of
    [ctx]; [None] means the attribute is [None] / the key is missing. *)
Record gdata (A : Type) := mk_gdata {
  g_grid : option (list garr);
  g_vals : option (nda A);
  c_cells : option (list nat);
  c_ncomps : option nat;
  c_lower : option (list Q);
  c_upper : option (list Q)
}.
Arguments mk_gdata {A}.
Arguments g_grid {A}. Arguments g_vals {A}. Arguments c_cells {A}.
Arguments c_ncomps {A}. Arguments c_lower {A}. Arguments c_upper {A}.

(** [GData()] without a file and without [ctx] (gdata.py 80-84). *)
Definition empty_gdata {A} : gdata A := mk_gdata None None None None None None.

(** [a.min()], [a.max()] of numpy: [ValueError] on an empty array. data/gdata.py 248-249, 267-268. *)
Definition qmin (a b : Q) : Q := if Qle_bool a b then a else b.
Definition qmax (a b : Q) : Q := if Qle_bool a b then b else a.
Definition arr_min (a : garr) : res Q :=
  match flat a with [] => Err ValueError | x :: l => Ok (fold_left qmin l x) end.
Definition arr_max (a : garr) : res Q :=
  match flat a with [] => Err ValueError | x :: l => Ok (fold_left qmax l x) end.

Section GD.
  Context {A : Type}.
  Implicit Type d : gdata A.

  (** [values.shape[:-1]] *)
  Definition shape_init (v : nda A) : list nat := removelast (shape v).

  (** [values.shape[-1]] *)
  Definition shape_last (v : nda A) : res nat :=
    match rev (shape v) with [] => Err IndexError | n :: _ => Ok n end.

  (** gdata.py 191-203.  Without cells and values the code returns the integer
      0 instead of an array; modelled as [None]. *)
  Definition get_num_cells d : option (list nat) :=
    match c_cells d with
    | Some c => Some c
    | None => match g_vals d with Some v => Some (shape_init v) | None => None end
    end.

  (** gdata.py 208-215: note the test is on truth, so a stored 0 is ignored. *)
  Definition get_num_comps d : res nat :=
    match c_ncomps d with
    | Some (S n) => Ok (S n)
    | _ => match g_vals d with Some v => shape_last v | None => Ok 0%nat end
    end.

  (** gdata.py 220-236 with [squeeze=False]. *)
  Definition get_num_dims d : nat :=
    match c_cells d with
    | Some c => length c
    | None => match g_vals d with Some v => (length (shape v) - 1)%nat | None => 0%nat end
    end.

  (** gdata.py 228-235: the loop over [range(num_dims)] (bound fixed before the
      loop) that lowers [num_dims] for each dimension with one cell. *)
  Definition squeeze_loop (cells : list nat) (nd : nat) : nat :=
    fold_left (fun acc c => if (c =? 1)%nat then (acc - 1)%nat else acc) (firstn nd cells) nd.

  (** gdata.py 220-236 with [squeeze=True]. *)
  Definition get_num_dims_squeezed d : nat :=
    match get_num_cells d with
    | Some c => squeeze_loop c (get_num_dims d)
    | None => 0%nat
    end.

  (** Minimum and maximum of the first [nd] coordinate arrays
      (gdata.py 245-251 and 264-268). *)
  Definition grid_bound1 (g : list garr) (k : nat) : res (Q * Q) :=
    match nth_error g k with
    | None => Err IndexError
    | Some a => let* lo := arr_min a in let* up := arr_max a in Ok (lo, up)
    end.
  Definition grid_bounds (g : list garr) (nd : nat) : res (list Q * list Q) :=
    let* bs := mapM (grid_bound1 g) (seq 0 nd) in
    Ok (List.map fst bs, List.map snd bs).

  (** gdata.py 241-254. *)
  Definition get_bounds d : res (option (list Q * list Q)) :=
    match c_lower d, c_upper d with
    | Some lo, Some up => Ok (Some (lo, up))
    | _, _ =>
        match g_grid d with
        | None => Ok None
        | Some g =>
            match g_vals d with
            | None => Err AttributeError
            | Some v => let* b := grid_bounds g (length (shape v) - 1) in Ok (Some b)
            end
        end
    end.

  (** gdata.py 280-285.  The new object state is returned together with the
      exception, if one is raised: attributes assigned before the exception
      keep their new value. *)
  Definition set_values d (v : nda A) : gdata A * option exn :=
    let d1 := mk_gdata (g_grid d) (Some v) (c_cells d) (c_ncomps d) (c_lower d) (c_upper d) in
    let same_cells := match c_cells d with
                      | Some c => if list_eq_dec Nat.eq_dec (shape_init v) c then true else false
                      | None => false end in
    let d2 := if same_cells then d1
              else mk_gdata (g_grid d1) (g_vals d1) (Some (shape_init v)) (c_ncomps d1)
                            (c_lower d1) (c_upper d1) in
    match shape_last v with
    | Err e => (d2, Some e)
    | Ok n =>
        let same := match c_ncomps d2 with Some m => (n =? m)%nat | None => false end in
        (if same then d2
         else mk_gdata (g_grid d2) (g_vals d2) (c_cells d2) (Some n) (c_lower d2) (c_upper d2),
         None)
    end.

  (** gdata.py 262-270. *)
  Definition set_grid d (g : list garr) : gdata A * option exn :=
    let d1 := mk_gdata (Some g) (g_vals d) (c_cells d) (c_ncomps d) (c_lower d) (c_upper d) in
    match grid_bounds g (get_num_dims d1) with
    | Err e => (d1, Some e)
    | Ok (lo, up) =>
        (mk_gdata (g_grid d1) (g_vals d1) (c_cells d1) (c_ncomps d1) (Some lo) (Some up), None)
    end.

  (** gdata.py 289-292. *)
  Definition push d (g : list garr) (v : nda A) : gdata A * option exn :=
    match set_values d v with
    | (d1, Some e) => (d1, Some e)
    | (d1, None) => set_grid d1 g
    end.
End GD.
