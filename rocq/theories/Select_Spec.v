(** * What a selection is supposed to mean (independent of the code). *)
From Coq Require Import String Ascii List ZArith QArith Bool Lia Sorted.
From Verif Require Import Prelude NdArray GData_Model Select_Model.
Import ListNotations.
Open Scope list_scope.

(** A 1-D coordinate array. *)
Definition line (l : list Q) : garr := mk_nda [length l] l.

(** [g] lists cell edges: one more than cells. *)
Definition edges_of (n : nat) (g : list Q) : Prop := length g = S n.
(** [g] lists points, one per value. *)
Definition points_of (n : nat) (g : list Q) : Prop := length g = n.

(** Increasing coordinates. *)
Definition increasing (g : list Q) : Prop := StronglySorted Qlt g.

(** Cell [i] of the cell edges [g] contains coordinate [x] (cells are half
    open, the lower edge of the domain belongs to the first cell; coordinates
    outside go to the nearest cell). *)
Inductive cell_contains (g : list Q) (x : Q) (i : nat) : Prop :=
| cc_inside lo hi :
    nth_error g i = Some lo -> nth_error g (S i) = Some hi -> lo < x -> x <= hi ->
    cell_contains g x i
| cc_below lo :
    nth_error g 0 = Some lo -> x <= lo -> i = 0%nat -> cell_contains g x i
| cc_above hi :
    nth_error g (S i) = Some hi -> length g = S (S i) -> hi < x -> cell_contains g x i.

(** Point [i] of the points [g] is the first one at or above [x]. *)
Definition first_point_at (g : list Q) (x : Q) (i : nat) : Prop :=
  (exists p, nth_error g i = Some p /\ x <= p) /\
  (forall j p, (j < i)%nat -> nth_error g j = Some p -> p < x).

Local Open Scope string_scope.

Section Spec.
  Variable pfloat : string -> option Q.

  (** The argument [z] asks for the cells [a .. b-1] out of [n] cells with
      coordinates [g]. *)
  Inductive cut_means (g : list Q) (n : nat) : option ival -> nat -> nat -> Prop :=
  | cm_none : cut_means g n None 0 n
  | cm_int k : (k < n)%nat -> cut_means g n (Some (VInt (Z.of_nat k))) k (S k)
  | cm_digits k : (k < n)%nat -> cut_means g n (Some (VStr (show_N (N.of_nat k)))) k (S k)
  | cm_range a b : (a <= b <= n)%nat ->
      cut_means g n (Some (VStr (show_N (N.of_nat a) ++ ":" ++ show_N (N.of_nat b)))) a b
  | cm_from a : (a <= n)%nat ->
      cut_means g n (Some (VStr (show_N (N.of_nat a) ++ ":"))) a n
  | cm_upto b : (b <= n)%nat ->
      cut_means g n (Some (VStr (":" ++ show_N (N.of_nat b)))) 0 b
  | cm_all : cut_means g n (Some (VStr ":")) 0 n
  | cm_coord x i : edges_of n g -> (0 < n)%nat -> increasing g -> cell_contains g x i ->
      cut_means g n (Some (VFloat x)) i (S i)
  | cm_coord_str s x i : edges_of n g -> (0 < n)%nat -> increasing g -> cell_contains g x i ->
      is_digits s = false -> has_char "," s = false -> has_char ":" s = false ->
      pfloat s = Some x ->
      cut_means g n (Some (VStr s)) i (S i)
  | cm_point x i : points_of n g -> increasing g -> first_point_at g x i ->
      cut_means g n (Some (VFloat x)) i (S i)
  | cm_point_str s x i : points_of n g -> increasing g -> first_point_at g x i ->
      is_digits s = false -> has_char "," s = false -> has_char ":" s = false ->
      pfloat s = Some x ->
      cut_means g n (Some (VStr s)) i (S i).

  (** The argument [comp] asks for the components [ks] out of [nc]. *)
  Inductive comp_means (nc : nat) : option ival -> list nat -> Prop :=
  | km_none : comp_means nc None (seq 0 nc)
  | km_int k : (k < nc)%nat -> comp_means nc (Some (VInt (Z.of_nat k))) [k]
  | km_neg k : (0 < k <= nc)%nat -> comp_means nc (Some (VInt (- Z.of_nat k))) [(nc - k)%nat]
  | km_digits k : (k < nc)%nat -> comp_means nc (Some (VStr (show_N (N.of_nat k)))) [k]
  | km_range a b : (a <= b <= nc)%nat ->
      comp_means nc (Some (VStr (show_N (N.of_nat a) ++ ":" ++ show_N (N.of_nat b))))
                 (seq a (b - a))
  | km_upto b : (b <= nc)%nat ->
      comp_means nc (Some (VStr (":" ++ show_N (N.of_nat b)))) (seq 0 b)
  | km_list ks : (1 < length ks)%nat -> (forall k, In k ks -> (k < nc)%nat) ->
      comp_means nc (Some (VStr (join "," (List.map (fun k => show_N (N.of_nat k)) ks)))) ks.
End Spec.

(** A dataset holding values [v] on [cells] cells with [nc] components, over a
    uniform (or at least rectilinear) grid [gs]. *)
Record rect_data {A} (d : gdata A) (gs : list (list Q)) (v : nda A)
       (cells : list nat) (nc : nat) : Prop := {
  rd_grid : g_grid d = Some (List.map line gs);
  rd_vals : g_vals d = Some v;
  rd_cells : c_cells d = Some cells;
  rd_comps : c_ncomps d = Some nc;
  rd_bounds : exists b, get_bounds d = Ok b;
  rd_wf : wf v;
  rd_shape : shape v = (cells ++ [nc])%list;
  rd_dims : cells <> [];
  rd_match : Forall2 (fun n g => edges_of n g \/ points_of n g) cells gs
}.

(** [m] consecutive entries of [g] starting at [a]. *)
Definition stretch {B} (g : list B) (a m : nat) : list B := firstn m (skipn a g).

(** Coordinates that go with the cells [a .. b-1]: their edges, or their
    points. *)
Definition coords_kept (n : nat) (g : list Q) (a b : nat) : list Q :=
  if (length g =? n)%nat then stretch g a (b - a) else stretch g a (S (b - a)).

Local Open Scope list_scope.

(** The cuts [zs] of all dimensions, with their meaning. *)
Definition cuts_mean (pfloat : string -> option Q) (zs : list (option ival)) (gs : list (list Q)) (cells : list nat)
           (cuts : list (nat * nat)) : Prop :=
  length cuts = length cells /\
  forall k g n a b, nth_error gs k = Some g -> nth_error cells k = Some n ->
    nth_error cuts k = Some (a, b) -> cut_means pfloat g n (nth k zs None) a b.

(** The coordinate arrays after a selection. *)
Definition grid_of (cells : list nat) (gs : list (list Q)) (cuts : list (nat * nat)) : list (list Q) :=
  map2 (fun ng ab => coords_kept (fst ng) (snd ng) (fst ab) (snd ab)) (combine cells gs) cuts.

(** Every dimension keeps at least one cell. *)
Definition nonempty_cuts (cuts : list (nat * nat)) : Prop :=
  Forall (fun ab => (fst ab < snd ab)%nat) cuts.

