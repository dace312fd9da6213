(** * Model of the common range of several datasets: commands/plot.py 174-203
    and [globalrange] of commands/animate.py 59-86.

    Values are exact rationals without NaN, so [np.nanmin] and [np.nanmax] are
    minimum and maximum. *)
From Coq Require Import String Ascii List Arith ZArith QArith Qminmax Qround Bool.
From Verif Require Import Prelude Sort.
Import ListNotations.
Open Scope list_scope.

(** [np.nanmin(val)], [np.nanmax(val)]; of no values they raise ValueError. commands/plot.py 180-187. *)
Definition least (l : list Q) : res Q :=
  match l with [] => Err ValueError | x :: l' => Ok (fold_left (fun a b => if Qle_bool a b then a else b) l' x) end.
(** commands/plot.py 180-187. *)
Definition largest (l : list Q) : res Q :=
  match l with [] => Err ValueError | x :: l' => Ok (fold_left (fun a b => if Qle_bool b a then a else b) l' x) end.

(** [vmin > x] and [vmax < x], where [None] is the initial inf or -inf. commands/plot.py 180-181. *)
Definition lower_of (v : option Q) (x : Q) : option Q :=
  match v with None => Some x | Some a => if negb (Qle_bool a x) then Some x else v end.
(** commands/plot.py 183-184. *)
Definition upper_of (v : option Q) (x : Q) : option Q :=
  match v with None => Some x | Some a => if negb (Qle_bool x a) then Some x else v end.

(** Running extremes and the list [v_extrema]. commands/plot.py 175-188. *)
Record ext := mk_ext { e_min : option Q; e_max : option Q; e_all : list Q }.

(** plot.py 178-188, animate.py 70-77: one dataset with the values [vals],
    already multiplied by the scale. *)
Definition widen (e : ext) (vals : list Q) : res ext :=
  let* a := least vals in
  let* b := largest vals in
  Ok (mk_ext (lower_of (e_min e) a) (upper_of (e_max e) b) (e_all e ++ [a; b])).

Fixpoint extents (e : ext) (sets : list (list Q)) : res ext :=
  match sets with
  | [] => Ok e
  | v :: sets' => let* e' := widen e v in extents e' sets'
  end.

(** [np.percentile(s, q)] of a sorted array: linear interpolation between the
    neighbours of position (n - 1) q / 100.  (Of an empty array it raises; the
    kind of exception is not claimed anywhere.) *)
Definition percentile (s : list Q) (q : Q) : res Q :=
  if negb (Qle_bool 0 q && Qle_bool q 100) then Err ValueError
  else
    let n := length s in
    let v := (inject_Z (Z.of_nat (n - 1)) * q / 100)%Q in
    let p := Z.to_nat (Qfloor v) in
    match nth_error s p, nth_error s (Nat.min (S p) (n - 1)) with
    | Some a, Some b => Ok (a + (b - a) * (v - inject_Z (Qfloor v)))%Q
    | _, _ => Err IndexError
    end.

(** [bool(cutoff)]. commands/plot.py 174 and 191. *)
Definition cutoff_of (c : option Q) : option Q :=
  match c with Some c => if Qeq_bool c 0 then None else Some c | None => None end.

(** plot.py 190-195, animate.py 78-86. *)
Definition finish (cutoff : option Q) (e : ext) : res (option Q * option Q) :=
  match cutoff_of cutoff with
  | None => Ok (e_min e, e_max e)
  | Some c =>
      let s := isort Qle_bool (e_all e) in
      let boundary := (100 * (1 - c) / 2)%Q in
      let* hi := percentile s (100 - boundary) in
      let* lo := percentile s boundary in
      Ok (Some lo, Some hi)
  end.

(** plot.py 174-195: the range of the datasets [sets]. *)
Definition plot_range (zscale : Q) (cutoff : option Q) (sets : list (list Q)) : res (option Q * option Q) :=
  let* e := extents (mk_ext None None []) (List.map (List.map (fun v => (v * zscale)%Q)) sets) in
  finish cutoff e.

(** animate.py 59-86: a dataset is given by its number of dimensions and its
    values.  [num_dims] is that of the last dataset; without datasets it is
    not bound. *)
Definition anim_range (yscale zscale : Q) (cutoff : option Q) (sets : list (nat * list Q)) : res (option Q * option Q * nat) :=
  let* e := extents (mk_ext None None [])
              (List.map (fun d => List.map (fun v => (v * (if (fst d =? 1)%nat then yscale else zscale))%Q) (snd d)) sets) in
  let* r := finish cutoff e in
  match sets with
  | [] => Err UnboundLocalError
  | d :: sets' => Ok (r, fst (last sets' d))
  end.
