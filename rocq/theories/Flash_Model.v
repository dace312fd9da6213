(** * Model of data/flash_h5_reader.py.

    Coordinates are exact rationals (the reader computes with floats and takes
    the floor of quotients, so rounding is not covered); the values stored in
    the blocks are opaque.  The third coordinate is not used by the reader.
    Opening the file is not modelled: the four tables are the list of blocks,
    in the order of the last axis of the tables. *)
From Coq Require Import List ZArith QArith Qround Qminmax Bool Lia.
From Verif Require Import Prelude.
Import ListNotations.

Record block (V : Type) := mk_block {
  b_x : Q; b_y : Q;              (* coordinates: the centre *)
  b_sx : Q; b_sy : Q;            (* block size *)
  b_type : Z;                    (* node type: 1 for a leaf *)
  b_val : nat -> nat -> V        (* bdata[i, j, 0, b] *)
}.
Arguments mk_block {V}.
Arguments b_x {V}. Arguments b_y {V}. Arguments b_sx {V}. Arguments b_sy {V}. Arguments b_type {V}. Arguments b_val {V}.

(** [a.min()], [a.max()]; an error for empty arrays. data/flash_h5_reader.py 60-62. *)
Fixpoint qmin (l : list Q) : res Q :=
  match l with
  | [] => Err ValueError
  | [x] => Ok x
  | x :: l' => let* y := qmin l' in Ok (Qmin x y)
  end.
Fixpoint qmax (l : list Q) : res Q :=
  match l with
  | [] => Err ValueError
  | [x] => Ok x
  | x :: l' => let* y := qmax l' in Ok (Qmax x y)
  end.

(** Is [k] one of the indices of [a:b] in an axis of length [n]?. data/flash_h5_reader.py 74-77. *)
Definition clip (n i : Z) : Z := if (i <? 0)%Z then Z.max 0 (i + n) else Z.min i n.
Definition in_slice (n a b k : Z) : bool := ((clip n a <=? k) && (k <? clip n b))%Z.

(** The array of data/flash_h5_reader.py 66. *)
Definition mesh (V : Type) := Z -> Z -> V.

(** Lines 74-77: one assignment. *)
Definition paint {V} (nx ny : Z) (ix iy mx my : Z) (v : nat -> nat -> V) (i j : nat) (m : mesh V) : mesh V :=
  fun k l =>
    if in_slice nx (ix + Z.of_nat i * mx) (ix + (Z.of_nat i + 1) * mx + 1) k &&
       in_slice ny (iy + Z.of_nat j * my) (iy + (Z.of_nat j + 1) * my + 1) l
    then v i j else m k l.

(** Lines 68-80. *)
Definition paint_block {V} (nxb nyb : nat) (nx ny : Z) (lx ly rx ry : Q) (m : mesh V) (b : block V) : mesh V :=
  if (b_type b =? 1)%Z then
    let mx := Qceiling (b_sx b / rx) in
    let my := Qceiling (b_sy b / ry) in
    let ix := Qfloor ((b_x b - b_sx b / 2 - lx) / rx * inject_Z (Z.of_nat nxb)) in
    let iy := Qfloor ((b_y b - b_sy b / 2 - ly) / ry * inject_Z (Z.of_nat nyb)) in
    fold_left (fun m i => fold_left (fun m j => paint nx ny ix iy mx my (b_val b) i j m) (seq 0 nyb) m) (seq 0 nxb) m
  else m.

(** Lines 52-83: number of mesh cells, bounds and values. *)
Record frame (V : Type) := mk_frame { f_nx : Z; f_ny : Z; f_lo : Q * Q; f_hi : Q * Q; f_at : mesh V }.
Arguments mk_frame {V}. Arguments f_nx {V}. Arguments f_ny {V}. Arguments f_lo {V}. Arguments f_hi {V}. Arguments f_at {V}.

(** Block sizes of zero and empty blocks, where the divisions are not numbers,
    are reported as errors; so are bounds in the wrong order, where [np.zeros]
    fails. data/flash_h5_reader.py 52-83. *)
Definition read_frame {V} (zero : V) (nxb nyb : nat) (bs : list (block V)) : res (frame V) :=
  let* rx := qmin (map b_sx bs) in
  let* ry := qmin (map b_sy bs) in
  let* lx := qmin (map (fun b => b_x b - b_sx b / 2) bs) in
  let* ly := qmin (map (fun b => b_y b - b_sy b / 2) bs) in
  let* ux := qmax (map (fun b => b_x b + b_sx b / 2) bs) in
  let* uy := qmax (map (fun b => b_y b + b_sy b / 2) bs) in
  if Qeq_bool rx 0 || Qeq_bool ry 0 || (nxb =? 0)%nat || (nyb =? 0)%nat then Err ValueError
  else
    let nx := Qfloor ((ux - lx) / (rx / inject_Z (Z.of_nat nxb))) in
    let ny := Qfloor ((uy - ly) / (ry / inject_Z (Z.of_nat nyb))) in
    if ((nx <? 0) || (ny <? 0))%Z then Err ValueError
    else Ok (mk_frame nx ny (lx, ly) (ux, uy)
               (fold_left (paint_block nxb nyb nx ny lx ly rx ry) bs (fun _ _ => zero))).

(** Lines 86-91: the grid, [linspace] from the lower to the upper bound. *)
Definition node (lo hi : Q) (n : Z) (k : Z) : Q := lo + inject_Z k * ((hi - lo) / inject_Z n).
