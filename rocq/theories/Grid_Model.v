(** * Model of the grid command (commands/grid.py). *)
From Coq Require Import String List ZArith QArith Bool Lia.
From Verif Require Import Prelude NdArray GData_Model.
Import ListNotations.
Open Scope list_scope.

(** numpy: in an assignment to an array of [n] axes, leading axes of length 1 of
    a longer array are dropped. *)
Fixpoint drop_ones (n : nat) (s : list nat) : list nat :=
  match s with
  | a :: s' => if (n <? length s)%nat && (a =? 1)%nat then drop_ones n s' else s
  | [] => []
  end.

(** numpy: an axis of length 1 or of the right length can be assigned. *)
Definition fits (s sh : list nat) : bool :=
  (length s =? length sh)%nat && forallb (fun p => (fst p =? snd p)%nat || (fst p =? 1)%nat) (combine s sh).

(** [values[..., d] = t], the nodes having shape [sh]: the new contents. commands/grid.py 33, 37, 41. *)
Definition assign (sh : list nat) (t : nda Q) : res (list nat -> Q) :=
  let s := drop_ones (length sh) (shape t) in
  let s' := List.repeat 1%nat (length sh - length s) ++ s in
  if fits s' sh
  then Ok (fun idx =>
    match get (mk_nda s' (flat t)) (map2 (fun n i => if (n =? 1)%nat then 0%nat else i) s' idx) with
    | Some x => x | None => 0%Q end)
  else Err ValueError.

(** grid.py 28-30 and 32-44: an array of zeros with one component per dimension; the
    [d]-th of the arrays is assigned to component [d]. *)
Definition fill (sh : list nat) (nd : nat) (ts : list (nda Q)) : res (nda Q) :=
  let* cs := mapM (fun p : nat * nda Q => if (fst p <? nd)%nat then assign sh (snd p) else Err IndexError)
               (combine (seq 0 (length ts)) ts) in
  Ok (tabulate (sh ++ [nd]) (fun idx =>
    match nth_error cs (last idx 0%nat) with Some c => c (removelast idx) | None => 0%Q end)).

(** [np.meshgrid] of all coordinate arrays with "ij" indexing: arrays are flattened. commands/grid.py 35. *)
Definition meshgrid (gs : list garr) : list (nda Q) :=
  let lens := List.map (fun a => length (flat a)) gs in
  List.map (fun p : nat * garr => tabulate lens (fun idx => nth (nth (fst p) idx 0%nat) (flat (snd p)) 0%Q))
    (combine (seq 0 (length gs)) gs).

(** [np.arange(n)]. commands/grid.py 25. *)
Definition arange (n : nat) : garr := mk_nda [n] (List.map (fun i => inject_Z (Z.of_nat i)) (seq 0 n)).

(** grid.py 20-44: the new grid and the values. Without cells line 24 iterates over
    the integer 0; with no dimension at all line 29 appends to an array of floats, which is
    no shape; a dataset without grid cannot be subscripted. *)
Definition grid_values (d : gdata Q) : res (list garr * nda Q) :=
  match get_num_cells d with
  | None => Err TypeError
  | Some [] => Err TypeError
  | Some cells =>
      let nd := get_num_dims d in
      let sh := List.map S cells in
      match g_grid d with
      | None => Err TypeError
      | Some [] => Err IndexError
      | Some (g0 :: gs) =>
          let* v :=
            if (nd =? 1)%nat then fill sh nd [g0]
            else if (length (shape g0) =? 1)%nat then fill sh nd (meshgrid (g0 :: gs))
            else fill sh nd (g0 :: gs) in
          Ok (List.map (fun nc => arange (nc + 2)) cells, v)
      end
  end.

(** grid.py 46-53; gdata.py 83-89: a new object has a copy of the metadata and no
    arrays. *)
Definition grid_cmd (tagged : bool) (d : gdata Q) : res (gdata Q) :=
  let* (g, v) := grid_values d in
  let out := if tagged then mk_gdata None None (c_cells d) (c_ncomps d) (c_lower d) (c_upper d) else d in
  match push out g v with (d', None) => Ok d' | (_, Some e) => Err e end.
