(** * What a plot has to show, stated without reference to Draw_Model *)
From Coq Require Import List Arith Bool Lia Reals Lra.
From Verif Require Import Prelude NdArray Tools_Arr.
Import ListNotations.
Open Scope list_scope.
Open Scope nat_scope.

(** Multi-indices of [r] entries that are 0 except along one or two axes. *)
Definition cell1 (r a i : nat) : list nat := List.map (fun k => if k =? a then i else 0) (seq 0 r).
Definition cell2 (r a i b j : nat) : list nat :=
  List.map (fun k => if k =? a then i else if k =? b then j else 0) (seq 0 r).

(** Axis [a] has [n >= 2] cells and every other axis has one cell. *)
Definition only_axis (cells : list nat) (a n : nat) : Prop :=
  2 <= n /\ nth_error cells a = Some n /\
  forall k c, k <> a -> nth_error cells k = Some c -> c = 1.
(** The same for two axes. *)
Definition only_axes (cells : list nat) (a n b p : nat) : Prop :=
  a < b /\ 2 <= n /\ 2 <= p /\ nth_error cells a = Some n /\ nth_error cells b = Some p /\
  forall k c, k <> a -> k <> b -> nth_error cells k = Some c -> c = 1.

(** The coordinates of a rectangular grid: along axis [k] the points [X k 0],
    [X k 1], ..., one per cell or, with [edges], one more than cells. *)
Definition points (edges : bool) (n : nat) : nat := if edges then S n else n.
Definition rect_grid (edges : bool) (cells : list nat) (X : nat -> nat -> R) (grid : list (nda R)) : Prop :=
  length grid = length cells /\
  forall k g n, nth_error grid k = Some g -> nth_error cells k = Some n ->
    holds [points edges n] g (fun x => X k (hd 0 x)).
(** Where the [i]-th cell along axis [k] is centred. *)
Definition mid_of (edges : bool) (X : nat -> nat -> R) (k i : nat) : R :=
  if edges then ((X k i + X k (S i)) / 2)%R else X k i.

(** A mapped grid: the [k]-th coordinate of every corner of the cells. *)
Definition mapped_grid (cells : list nat) (X : nat -> list nat -> R) (grid : list (nda R)) : Prop :=
  length grid = length cells /\
  forall k g, nth_error grid k = Some g -> holds (List.map S cells) g (X k).

(** The mean of [X] over the corners 0 and 1 of the axes marked [None], with the
    index along the other axes as given. *)
Fixpoint box_mean (pat : list (option nat)) (X : list nat -> R) : R :=
  match pat with
  | [] => X []
  | Some i :: p => box_mean p (fun x => X (i :: x))
  | None :: p => ((box_mean p (fun x => X (0 :: x)%nat) + box_mean p (fun x => X (1 :: x)%nat)) / 2)%R
  end.
Definition corner2 (r a i b j : nat) : list (option nat) :=
  List.map (fun k => if k =? a then Some i else if k =? b then Some j else None) (seq 0 r).
Definition corner1 (r a i : nat) : list (option nat) :=
  List.map (fun k => if k =? a then Some i else None) (seq 0 r).
