(** * Model of the figure layout of output/plot.py and of commands/plot.py.

    A figure is the list of its axes as given by [fig.axes]: panels and, after
    them in the order of their creation, the axes of colour bars
    ([pgkyl_colorbar], output/plot.py 21-25, adds one next to a panel).  What
    is drawn inside an axes object is not modelled here; labels, styles and
    limits are left out. *)
From Coq Require Import List ZArith Bool Lia.
From Verif Require Import Prelude.
Import ListNotations.
Open Scope Z_scope.

Inductive axes := Panel (i : nat) | Bar (i : nat).
(** [fig.axes], output/plot.py 258-259. *)
Definition figure := list axes.

(** [int(np.ceil(a/b))]; a/b raises an error for b = 0. *)
Definition ceil_div (a b : Z) : res Z :=
  if b =? 0 then Err ZeroDivisionError else Ok (- ((- a) / b)).

(** [np.floor(np.sqrt(n))] and [np.ceil(np.sqrt(n))]. output/plot.py 280-290. *)
Definition floor_sqrt (n : Z) : Z := Z.sqrt n.
(** output/plot.py 280-290. *)
Definition ceil_sqrt (n : Z) : Z := if Z.sqrt n * Z.sqrt n =? n then Z.sqrt n else Z.sqrt n + 1.

(** output/plot.py 272-291: rows and columns for [n] components. *)
Definition layout (rows cols : option Z) (n : Z) : res (Z * Z) :=
  match rows, cols with
  | Some r, _ => let* c := ceil_div n r in Ok (r, c)
  | None, Some c => let* r := ceil_div n c in Ok (r, c)
  | None, None =>
      if floor_sqrt n =? ceil_sqrt n then Ok (floor_sqrt n, floor_sqrt n)
      else if n <=? ceil_sqrt n * floor_sqrt n then Ok (floor_sqrt n, ceil_sqrt n)
      else Ok (ceil_sqrt n, ceil_sqrt n)
  end.

Record popts := {
  p_squeeze : bool;             (* all components into one panel *)
  p_num_axes : option Z;        (* panels for all datasets together *)
  p_start : nat;                (* first panel to use *)
  p_rows : option Z;
  p_cols : option Z;
  p_pairs : bool;               (* quiver or streamline *)
  p_bar : bool                  (* a colour bar is drawn *)
}.

(** Lines 199-206: the components (or pairs of them) and the number of panels. *)
Definition idx_comps (o : popts) (ncomps : nat) : nat :=
  if p_pairs o then Nat.div ncomps 2 else ncomps.
Definition num_comps (o : popts) (ncomps : nat) : Z :=
  match p_num_axes o with
  | None | Some 0 => Z.of_nat (idx_comps o ncomps)
  | Some k => k
  end.

(** Lines 258-301: the axes and those switched off.  [plt.subplots] needs a
    positive number of rows and columns. *)
Definition make_axes (o : popts) (fig : figure) (n : Z) : res (figure * list nat) :=
  match fig with
  | _ :: _ => if negb (p_squeeze o) && (Z.of_nat (length fig) <? n) then Err ValueError else Ok (fig, [])
  | [] =>
      if p_squeeze o then Ok ([Panel 0], [])
      else
        let* (r, c) := layout (p_rows o) (p_cols o) n in
        if (r <? 1) || (c <? 1) then Err ValueError
        else let k := Z.to_nat (r * c) in
             Ok (map Panel (seq 0 k), seq (Z.to_nat n) (k - Z.to_nat n))
  end.

(** What is drawn where: axes and components of the values. output/plot.py 337-339. *)
Record draw := { d_axes : axes; d_comps : list nat }.

(** The components that drawing number [comp] uses (lines 338-386). *)
Definition comps_of (o : popts) (comp : nat) : list nat :=
  if p_pairs o then [2 * comp; 2 * comp + 1]%nat else [comp].

(** Lines 336-489: the loop over the components.  [ax] is the list [fig.axes]
    as it was before the loop ([fig.axes] makes a new list each time), so the
    colour bars drawn in the loop are not in it. *)
Fixpoint draw_loop (o : popts) (ax : figure) (k comp : nat) (fig : figure) : res (figure * list draw) :=
  match k with
  | O => Ok (fig, [])
  | S k' =>
      let i := if p_squeeze o then O else (comp + p_start o)%nat in
      match nth_error ax i with
      | None => Err IndexError
      | Some a =>
          let fig' := if p_bar o then fig ++ [Bar i] else fig in
          let* (fig'', ds) := draw_loop o ax k' (S comp) fig' in
          Ok (fig'', {| d_axes := a; d_comps := comps_of o comp |} :: ds)
      end
  end.

(** One call of [plot] for a dataset with [ncomps] components. output/plot.py 200-526. *)
Definition plot (o : popts) (fig : figure) (ncomps : nat) : res (figure * list nat * list draw) :=
  let* (fig, off) := make_axes o fig (num_comps o ncomps) in
  let* (fig, ds) := draw_loop o fig (idx_comps o ncomps) 0 fig in
  Ok (fig, off, ds).

(** commands/plot.py 133-143 and 240-268 with [--subplots]: all datasets go to
    the same figure, each starting after the panels of those before. *)
Definition with_start (o : popts) (n : Z) (start : nat) : popts :=
  {| p_squeeze := p_squeeze o; p_num_axes := Some n; p_start := start;
     p_rows := p_rows o; p_cols := p_cols o; p_pairs := p_pairs o; p_bar := p_bar o |}.

Fixpoint subplots_loop (o : popts) (n : Z) (start : nat) (fig : figure) (sets : list nat) : res (figure * list (list draw)) :=
  match sets with
  | [] => Ok (fig, [])
  | k :: sets' =>
      let* (fig, _, ds) := plot (with_start o n start) fig k in
      let* (fig, dss) := subplots_loop o n (start + k) fig sets' in
      Ok (fig, ds :: dss)
  end.

(** [sets] holds the number of components of each dataset. commands/plot.py 134-144 and 247-251. *)
Definition subplots (o : popts) (sets : list nat) : res (figure * list (list draw)) :=
  subplots_loop o (Z.of_nat (fold_right Nat.add 0%nat sets)) 0 [] sets.
