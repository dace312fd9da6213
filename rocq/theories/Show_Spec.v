(** * The field a file describes, and what a file says about itself

    Stated from the bytes of the file (vocabulary of Gkyl_Spec and Msgpack_Spec)
    without reference to the reader, the interpolation or the plotting. *)
From Coq Require Import String Ascii List Arith ZArith Bool Lia Reals.
From Verif Require Import Prelude NdArray Gkyl_Spec Dg_Poly Dg_Sem Dg_Gram Msgpack_Model Msgpack_Spec DgCmd_Model.
Import ListNotations.
Open Scope string_scope. Open Scope list_scope. Open Scope nat_scope.

(** ** The discontinuous field *)

(** Position in row-major order. *)
Fixpoint row_major (sizes idx : list nat) : nat :=
  match sizes, idx with
  | _ :: sizes', i :: idx' => i * prod sizes' + row_major sizes' idx'
  | _, _ => 0
  end.

Section Field.
  (** Value of the bytes of a number; the file; the functions of the expansion
      on the reference cell, -1 to 1 along each axis. *)
  Context (dec : list Z -> R) (fd : field) (fs : list pexp).

  Definition cells_along (d : nat) : nat := nth d (fd_cells fd) 0.
  Definition low (d : nat) : R := dec (nth d (fd_lower fd) []).
  Definition high (d : nat) : R := dec (nth d (fd_upper fd) []).
  (** The edges of [n] equal parts of the domain along axis [d], and their centres. *)
  Definition edge (d n i : nat) : R := (low d + (high d - low d) * INR i / INR n)%R.
  Definition middle (d n i : nat) : R := (low d + (high d - low d) * (INR i + 1 / 2) / INR n)%R.

  (** The point [xs] lies inside cell [i] of the file. *)
  Definition inside (i : list nat) (xs : list R) : Prop :=
    length xs = length (fd_cells fd) /\ in_range (fd_cells fd) i /\
    forall d, d < length (fd_cells fd) ->
      (edge d (cells_along d) (nth d i 0%nat) < nth d xs 0 < edge d (cells_along d) (S (nth d i 0%nat)))%R.

  (** Coordinates of [xs] in the reference cell: -1 at the lower, 1 at the upper
      edge of cell [i]. *)
  Definition reference (i : list nat) (xs : list R) : list R :=
    List.map (fun d =>
      (2 * (nth d xs 0 - edge d (cells_along d) (nth d i 0%nat))
         / (edge d (cells_along d) (S (nth d i 0%nat)) - edge d (cells_along d) (nth d i 0%nat)) - 1)%R)
      (seq 0 (length (fd_cells fd))).

  (** The coefficients of field [c] in cell [i]. *)
  Definition coefficients (c : nat) (i : list nat) : list R :=
    List.map (fun m => dec (nth (row_major (fd_cells fd ++ [fd_nc fd]) (i ++ [c * length fs + m])) (fd_data fd) []))
             (seq 0 (length fs)).

  (** Field [c] has the value [v] at the point [xs]. *)
  Definition field_value (c : nat) (xs : list R) (v : R) : Prop :=
    exists i, inside i xs /\ v = expansion (coefficients c i) fs (reference i xs).
End Field.

(** ** Metadata *)

(** The block of metadata is empty or encodes this dictionary. *)
Definition described (meta : list Z) (d : list (mkey * mval)) : Prop :=
  (meta = [] /\ d = []) \/ encodes (MMap d) meta.

(** [v] is written once, under one of these names. *)
Definition written (d : list (mkey * mval)) (names : list string) (v : mval) : Prop :=
  exists k, In k names /\ In ((false, k), v) d /\
    forall k' w, In k' names -> In ((false, k'), w) d -> k' = k.

(** The names of the option --basis_type. *)
Definition basis_names : list (string * string) :=
  [("ms", "serendipity"); ("mo", "maximal-order"); ("mt", "tensor"); ("gkhyb", "gkhybrid"); ("pkpmhyb", "hybrid")].

(** The family: that of the option, or else that of the file; in one dimension
    the PKPM hybrid family is the serendipity one. *)
Definition told_family (o : dgopts) (d : list (mkey * mval)) (dim : nat) (b : string) : Prop :=
  exists b0,
    ((exists s, o_basis o = Some s /\ In (s, b0) basis_names) \/
     (o_basis o = None /\ written d ["basisType"; "basis_type"] (MStr b0) /\ b0 <> "" /\
      forall w, ~ In ((false, "is_modal"), w) d)) /\
    ((dim = 1 /\ b0 = "hybrid" /\ b = "serendipity") \/ (~ (dim = 1 /\ b0 = "hybrid") /\ b = b0)).
(** The order: that of the option, or else that of the file. *)
Definition told_order (o : dgopts) (d : list (mkey * mval)) (p : nat) : Prop :=
  1 <= p /\ (o_poly o = Some p \/
             (o_poly o = None /\ written d ["polyOrder"; "poly_order"] (MInt (Z.of_nat p)))).
(** Points per cell: one more than the order unless given. *)
Definition told_points (o : dgopts) (p n : nat) : Prop :=
  (o_interp o = Some n /\ 2 <= n) \/ ((o_interp o = None \/ o_interp o = Some 0) /\ n = S p).
