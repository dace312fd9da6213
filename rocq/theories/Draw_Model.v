(** * What output/plot.py draws

    src/postgkyl/output/plot.py: the part of [plot] that turns a dataset into
    calls of Matplotlib (lines 138-208 and 338-481), with [_get_nodal_grid]
    (lines 28-57).  Figures, axes and the panel of each component are in
    Plot_Model.  Numbers are exact reals.  Matplotlib is not modelled beyond the
    shapes each of its drawing functions accepts (the [takes_] functions below).
    Colours, fonts, contour levels, legends and ticks are left out. *)
From Coq Require Import String Ascii List Arith ZArith Bool Lia Reals Lra.
From Verif Require Import Prelude NdArray Ev_Model Tools_Arr.
Import ListNotations.
Open Scope list_scope.
Open Scope nat_scope.

(** ** numpy *)

Notation arr := (nda R).

(** [np.delete(l, idx)] and the successive [l.pop(i)] of plot.py 180-182; [k] is
    the position of the first element of [l]. *)
Fixpoint drop_at {A} (k : nat) (idx : list nat) (l : list A) : list A :=
  match l with
  | [] => []
  | a :: l' => if existsb (Nat.eqb k) idx then drop_at (S k) idx l' else a :: drop_at (S k) idx l'
  end.

(** [np.squeeze(v, tuple(idx))]. output/plot.py 187. *)
Definition squeeze_axes (idx : list nat) (v : arr) : res arr :=
  if forallb (fun k => match nth_error (shape v) k with Some n => n =? 1 | None => false end) idx
  then Ok (mk_nda (drop_at 0 idx (shape v)) (flat v))
  else Err ValueError.

(** [np.mean(a, axis=i)]. output/plot.py 193. *)
Definition mean_axis (i : nat) (a : arr) : res arr :=
  match nth_error (shape a) i with
  | None => Err ValueError (* numpy.AxisError, which is a ValueError *)
  | Some n =>
      Ok (tabulate (firstn i (shape a) ++ skipn (S i) (shape a))
            (fun idx => rsum (List.map (fun k => val a (firstn i idx ++ k :: skipn i idx)) (seq 0 n)) / INR n)%R)
  end.

(** [range(n)[s::st]]. output/plot.py 382-389. *)
Definition strided (s st n : nat) : list nat :=
  filter (fun k => (s <=? k) && ((k - s) mod st =? 0)) (seq 0 n).

(** [np.abs(z).max()]. output/plot.py 463. *)
Definition absmax (z : arr) : res R :=
  match flat z with
  | [] => Err ValueError
  | v :: l => Ok (fold_left (fun m w => Rmax m (Rabs w)) l (Rabs v))
  end.

(** A Python loop over [l] with state [s] that stops at the first exception.
    Used for output/plot.py 338-481. *)
Fixpoint loop {A S} (f : S -> A -> res S) (l : list A) (s : S) : res S :=
  match l with
  | [] => Ok s
  | a :: l' => let* s := f s a in loop f l' s
  end.

(** ** The data to draw (plot.py 138-198) *)

(** Grid arrays, number of cells along each dimension, values with the
    components along the last axis. output/plot.py 140-164. *)
Record pd := mk_pd { p_grid : list arr; p_cells : list nat; p_vals : arr }.

(** plot.py 161 with gdata.py 228-236, [get_num_dims(squeeze=True)]: the
    dimensions that have not exactly one cell. *)
Definition live_dims (cells : list nat) : nat := length (filter (fun n => negb (n =? 1)) cells).

(** plot.py 143-159, a [(grid, values)] pair: [cells] is the number of grid
    points, whether they are the edges or the centres of the cells. *)
Definition of_tuple (grid : list arr) (values : arr) : res (nat * pd) :=
  let* nd := if length grid =? length (shape values)
             then Ok (length (shape (squeeze_all values)))
             else let* v := comp 0 values in Ok (length (shape (squeeze_all v))) in
  let* cells := mapM (fun dg => let '(d, g) := dg in
                  match shape g with
                  | [] => Err TypeError (* len of an unsized object *)
                  | [n] => if n =? 0 then Err ValueError (* np.min of nothing *) else Ok n
                  | a :: b :: _ => if a * b =? 0 then Err ValueError
                                   else if d <? a then Ok b else Err IndexError
                  end) (combine (seq 0 (length grid)) grid) in
  Ok (nd, mk_pd grid cells values).

(** The positions of the dimensions of at most one cell (plot.py 172-176). *)
Definition collapsed (n : nat) (cells : list nat) : res (list nat) :=
  let* bs := mapM (fun k => match nth_error cells k with Some c => Ok (k, c <=? 1) | None => Err IndexError end) (seq 0 n) in
  Ok (List.map fst (filter snd bs)).

(** plot.py 169-198.  Also returned: which of the axis labels z_0 to z_5 remain.
    A coordinate array with several axes is averaged over the collapsed ones. *)
Definition squeeze_data (nd : nat) (d : pd) : res (pd * list nat) :=
  if length (p_grid d) <=? nd then Ok (d, seq 0 6)
  else
    let* idx := collapsed (length (p_grid d)) (p_cells d) in
    let grid := List.map squeeze_all (p_grid d) in
    match idx with
    | [] => Ok (mk_pd grid (p_cells d) (p_vals d), seq 0 6)
    | _ =>
        let grid := drop_at 0 idx grid in
        if existsb (fun i => 6 <=? i) idx then Err IndexError
        else
          let* vals := squeeze_axes idx (p_vals d) in
          let* grid :=
            match grid with
            | [] => Err IndexError
            | g :: _ =>
                if 1 <? length (shape g)
                then if length grid <? nd then Err IndexError
                     else let* means := mapM (fun g => loop (fun a i => mean_axis i a) (rev idx) g) (firstn nd grid) in
                          Ok (means ++ skipn nd grid)
                else Ok grid
            end in
          Ok (mk_pd grid (drop_at 0 idx (p_cells d)) vals, drop_at 0 idx (seq 0 6))
    end.

(** ** _get_nodal_grid (plot.py 28-57) *)

(** [0.5 * (g[:-1] + g[1:])]: along the first axis, whatever the others. *)
Definition mid_first (g : arr) : arr :=
  tabulate (match shape g with [] => [] | a :: sh => pred a :: sh end)
    (fun idx => match idx with
                | i :: x => (/ 2 * (val g (i :: x) + val g (S i :: x)))%R
                | [] => 0%R
                end).

(** [0.5 * (g[:-1, :-1] + g[1:, 1:])] *)
Definition mid_corner (g : arr) : res arr :=
  match shape g with
  | a :: b :: sh =>
      Ok (tabulate (pred a :: pred b :: sh)
            (fun idx => match idx with
                        | i :: j :: x => (/ 2 * (val g (i :: j :: x) + val g (S i :: S j :: x)))%R
                        | _ => 0%R
                        end))
  | _ => Err IndexError
  end.

Definition nodal_axis (nd d : nat) (g : arr) (n : nat) : res arr :=
  match shape g with
  | [m] => if m =? n then Ok g else if m =? S n then Ok (mid_first g) else Err ValueError
  | sh => match nth_error sh d with
          | None => Err IndexError
          | Some m => if m =? n then Ok g
                      else if m =? S n then (if nd =? 1 then Ok (mid_first g) else mid_corner g)
                      else Err ValueError
          end
  end.

(** output/plot.py 28-57. *)
Definition nodal_grid (grid : list arr) (cells : list nat) : res (list arr) :=
  if length grid =? length cells
  then mapM (fun t => let '(d, (g, n)) := t in nodal_axis (length grid) d g n)
         (combine (seq 0 (length grid)) (combine grid cells))
  else Err ValueError.

(** ** What is handed to Matplotlib. output/plot.py 346, 372, 390, 406, 434, 479. *)

Inductive call : Type :=
| Curve (x y : arr)                (* Axes.plot *)
| Contours (x y z : arr)           (* Axes.contour *)
| Arrows (x y u v : arr)           (* Axes.quiver *)
| Streams (x y u v : arr) (colour : option arr)         (* Axes.streamplot *)
| Mesh (x y z : arr) (vmin vmax : option R) (extend : option string). (* Axes.pcolormesh and its colour bar *)

(** Axes.plot: both have the same first dimension (a number counts as one
    point). Used at output/plot.py 346, 434. *)
Definition takes_curve (x y : arr) : bool := hd 1 (shape x) =? hd 1 (shape y).

(** Axes.contour: 1-D coordinates as long as the columns and rows of [z], or
    2-D ones of its shape; [z] is at least 2 by 2. *)
Definition takes_contour (x y z : arr) : bool :=
  match shape z with
  | [m; n] =>
      (2 <=? m) && (2 <=? n) &&
      match shape x, shape y with
      | [nx], [ny] => (nx =? n) && (ny =? m)
      | [a; b], [a'; b'] => (a =? m) && (b =? n) && (a' =? m) && (b' =? n)
      | _, _ => false
      end
  | _ => false
  end.

(** Axes.quiver: 1-D coordinates as above, or as many points as arrows; the
    arrays are flattened. *)
Definition takes_arrows (x y u v : arr) : bool :=
  (prod (shape u) =? prod (shape v)) &&
  match shape x, shape y, shape u with
  | [nx], [ny], [m; n] => (nx =? n) && (ny =? m)
  | _, _, _ => (prod (shape x) =? prod (shape y)) && (prod (shape x) =? prod (shape u))
  end.

(** Axes.streamplot: 1-D coordinates (a 2-D [x] must have equal rows, which the
    untransposed coordinates of a mapped grid have not; spacing not checked
    here). *)
Definition takes_stream (x y u v : arr) : bool :=
  match shape x, shape y, shape u, shape v with
  | [nx], [ny], [m; n], [m'; n'] => (nx =? n) && (ny =? m) && (nx =? n') && (ny =? m')
  | _, _, _, _ => false
  end.

(** Axes.pcolormesh with [shading="auto"]: as many points as values, or one more
    along each axis. Used at output/plot.py 479. *)
Definition takes_mesh (x y z : arr) : bool :=
  match shape x, shape y, shape z with
  | [nx], [ny], [m; n] => ((nx =? n) && (ny =? m)) || ((nx =? S n) && (ny =? S m))
  | [a; b], [a'; b'], [m; n] =>
      (a =? a') && (b =? b') && (((a =? m) && (b =? n)) || ((a =? S m) && (b =? S n)))
  | _, _, _ => false
  end.

Record dopts := mk_dopts {
  o_contour : bool; o_quiver : bool; o_stream : bool; o_lineouts : option Z; o_diverging : bool;
  o_coloured : bool; (* a colour was given *)
  o_xshift : R; o_xscale : R; o_yshift : R; o_yscale : R; o_zshift : R; o_zscale : R;
  o_zmin : option R; o_zmax : option R
}.

(** [(a + shift)*scale]. output/plot.py 344-345, 369-371, 451-453. *)
Definition affine (shift scale : R) (a : arr) : arr := rmap (fun v => ((v + shift) * scale)%R) a.

Definition tr (a : arr) : arr := transpose 0%R a.

(** [l[k]] of a Python list, 0 <= k *)
Definition item {A} (l : list A) (k : nat) : res A :=
  match nth_error l k with Some a => Ok a | None => Err IndexError end.

(** [a[k]] of a 1-D array as a number; of a 2-D one it is a row, which
    [colors.Normalize] refuses. *)
Definition scalar_at (a : arr) (first : bool) : res R :=
  match shape a with
  | [n] => if n =? 0 then Err IndexError else Ok (val a [if first then 0 else pred n])
  | _ => Err ValueError
  end.

Section Draw.
  Context (o : dopts) (nd : nat) (d : pd).

  Let sx := affine (o_xshift o) (o_xscale o).
  Let sy := affine (o_yshift o) (o_yscale o).
  Let sz := affine (o_zshift o) (o_zscale o).

  (** plot.py 343-346 *)
  Definition draw_curve (c : nat) : res (list call) :=
    let* ng := nodal_grid (p_grid d) (p_cells d) in
    let* g := item ng 0 in
    let* v := comp c (p_vals d) in
    if takes_curve (sx g) (sy v) then Ok [Curve (sx g) (sy v)] else Err ValueError.

  (** plot.py 368-372 *)
  Definition draw_contour (c : nat) : res (list call) :=
    let* ng := nodal_grid (p_grid d) (p_cells d) in
    let* g := item ng 0 in
    let* h := item ng 1 in
    let* v := comp c (p_vals d) in
    if takes_contour (sx g) (sy h) (sz (tr v)) then Ok [Contours (sx g) (sy h) (sz (tr v))] else Err TypeError.

  (** plot.py 378-390; the coordinates are 1-D or 2-D *)
  Definition draw_quiver (c : nat) : res (list call) :=
    let* g := item (p_grid d) 0 in
    let* h := item (p_grid d) 1 in
    let skip := Nat.max (hd 0 (shape g)) (hd 0 (shape h)) / 15 in
    let skip2 := skip / 2 in
    let* ng := nodal_grid (p_grid d) (p_cells d) in
    let* g := item ng 0 in
    let* h := item ng 1 in
    if skip =? 0 then Err ValueError (* slice step cannot be zero *)
    else
      let every a := take (List.map (strided skip2 skip) (shape a)) a in
      match shape (p_vals d) with
      | [m; n; k] =>
          let w := take [strided skip2 skip m; strided skip2 skip n; seq 0 k] (p_vals d) in
          let* u := comp (2 * c) w in
          let* v := comp (2 * c + 1) w in
          if takes_arrows (sx (every g)) (sy (every h)) (sz (tr u)) (sz (tr v))
          then Ok [Arrows (sx (every g)) (sy (every h)) (sz (tr u)) (sz (tr v))] else Err ValueError
      | _ => Err IndexError
      end.

  (** plot.py 393-407 *)
  Definition draw_stream (c : nat) : res (list call) :=
    let* u := comp (2 * c) (p_vals d) in
    let* v := comp (2 * c + 1) (p_vals d) in
    let* size := rb (fun a b => sqrt (a * a + b * b)) u v in
    let* ng := nodal_grid (p_grid d) (p_cells d) in
    let* g := item ng 0 in
    let* h := item ng 1 in
    if takes_stream (sx g) (sy h) (sz (tr u)) (sz (tr v))
    then Ok [Streams (sx g) (sy h) (sz (tr u)) (sz (tr v)) (if o_coloured o then None else Some (tr size))]
    else Err ValueError.

  (** plot.py 410-439; [l] is the value of [lineouts] *)
  Definition draw_lineouts (l : Z) (c : nat) : res (list call) :=
    let along0 := (l =? 0)%Z in
    let* lines := item (shape (p_vals d)) (if along0 then 1 else 0) in
    let* ng := nodal_grid (p_grid d) (p_cells d) in
    let* g := item ng (if along0 then 0 else 1) in
    let* h := item ng (if along0 then 1 else 0) in
    let* _ := match shape h with 0 :: _ | [] => Err IndexError | _ => Ok tt end in
    let* v := comp c (p_vals d) in
    let* curves :=
      mapM (fun k =>
        if lines =? 1 then Err ZeroDivisionError
        else
          let y := tabulate (if along0 then firstn 1 (shape v) ++ skipn 2 (shape v) else skipn 1 (shape v))
                     (fun idx => val v (if along0 then firstn 1 idx ++ k :: skipn 1 idx else k :: idx)) in
          if takes_curve (sx g) (sy y) then Ok (Curve (sx g) (sy y)) else Err ValueError) (seq 0 lines) in
    let* _ := scalar_at h true in
    let* _ := scalar_at h false in
    Ok curves.

  (** plot.py 444-481 without [logz]; [lim] holds zmin and zmax, which
      [diverging] overwrites for the following components too *)
  Definition draw_mesh (lim : option R * option R) (c : nat) : res (list call * (option R * option R)) :=
    let '(zmin, zmax) := lim in
    let extend := match zmin, zmax with
                  | Some _, Some _ => Some "both"%string
                  | None, Some _ => Some "max"%string
                  | Some _, None => Some "min"%string
                  | None, None => None
                  end in
    let* g := item (p_grid d) 0 in
    let* h := item (p_grid d) 1 in
    let* v := comp c (p_vals d) in
    let z := sz (tr v) in
    let* n := item (shape z) 1 in
    let* m := item (shape z) 0 in
    let* gh :=
      if (hd 0 (shape g) =? n) || (hd 0 (shape h) =? m)
      then let* ng := nodal_grid (p_grid d) (p_cells d) in
           let* g := item ng 0 in let* h := item ng 1 in Ok (g, h)
      else Ok (g, h) in
    let '(g, h) := gh in
    let '(x, y) := if 1 <? length (shape g) then (tr (sx g), tr (sy h)) else (sx g, sy h) in
    let* lim := if o_diverging o then let* a := absmax z in Ok (Some (- a)%R, Some a) else Ok (zmin, zmax) in
    let '(zmin, zmax) := lim in
    if takes_mesh x y z then Ok ([Mesh x y z zmin zmax extend], (zmin, zmax)) else Err TypeError.

  (** One turn of the loop (plot.py 338-488). *)
  Definition draw_comp (lim : option R * option R) (c : nat) : res (list call * (option R * option R)) :=
    let keep r := let* calls := r in Ok (calls, lim) in
    match nd with
    | 1 => keep (draw_curve c)
    | 2 => if o_contour o then keep (draw_contour c)
           else if o_quiver o then keep (draw_quiver c)
           else if o_stream o then keep (draw_stream c)
           else match o_lineouts o with
                | Some l => keep (draw_lineouts l c)
                | None => draw_mesh lim c
                end
    | _ => Err ValueError
    end.

  (** plot.py 200-203 *)
  Definition comps_drawn : res nat :=
    match shape (p_vals d) with
    | [] => Err IndexError
    | sh => Ok (last sh 0 / (if o_stream o || o_quiver o then 2 else 1))
    end.

  Definition draw_all : res (list (list call)) :=
    let* n := comps_drawn in
    let* out := loop (fun st c =>
                  let '(acc, lim) := st in
                  let* r := draw_comp lim c in
                  Ok (acc ++ [fst r], snd r)) (seq 0 n) ([], (o_zmin o, o_zmax o)) in
    Ok (fst out).
End Draw.

(** plot.py 160-208 and 338-481 for a GData: the calls made for each component,
    and the axis labels left. *)
Definition plot_data (o : dopts) (d : pd) : res (list (list call) * list nat) :=
  let nd := live_dims (p_cells d) in
  if 2 <? nd then Err ValueError
  else
    let* dl := squeeze_data nd d in
    let* calls := draw_all o nd (fst dl) in
    Ok (calls, snd dl).

(** The same for a [(grid, values)] pair. output/plot.py 143-159. *)
Definition plot_pair (o : dopts) (grid : list arr) (values : arr) : res (list (list call) * list nat) :=
  let* p := of_tuple grid values in
  let '(nd, d) := p in
  if 2 <? nd then Err ValueError
  else
    let* dl := squeeze_data nd d in
    let* calls := draw_all o nd (fst dl) in
    Ok (calls, snd dl).
