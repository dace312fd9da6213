(** * Rounding to doubles on rational numbers, and the FLASH reader with it

    [qfl] computes the double nearest to a rational number (ties to even); Float_Props
    compares it with Flocq's rounding. Overflow is left out. *)
From Coq Require Import List ZArith QArith Qround Qminmax Bool.
From Verif Require Import Prelude Flash_Model.
Import ListNotations.
Open Scope Z_scope.

(** [2^e] as a rational number. *)
Definition qpow (e : Z) : Q := if e <? 0 then / inject_Z (2 ^ (- e)) else inject_Z (2 ^ e).

(** The exponent [k] with [2^(k-1) <= |q| < 2^k], for [q] other than 0. *)
Definition qmag (q : Q) : Z :=
  let n := Z.abs (Qnum q) in
  let d := Z.pos (Qden q) in
  let k := Z.log2 n - Z.log2 d in
  if (if k <? 0 then d <=? n * 2 ^ (- k) else d * 2 ^ k <=? n) then k + 1 else k.

(** The integer nearest to [q]; of two, the even one.
    IEEE rounding, for the float operations of data/flash_h5_reader.py 60-77. *)
Definition qnear (q : Q) : Z :=
  let f := Qfloor q in
  match (q - inject_Z f ?= 1 # 2)%Q with
  | Lt => f
  | Eq => if Z.even f then f else f + 1
  | Gt => f + 1
  end.

(** The double nearest to [q]. As above, data/flash_h5_reader.py 60-77. *)
Definition qfl (q : Q) : Q :=
  if Qnum q =? 0 then 0%Q
  else let e := Z.max (qmag q - 53) (-1074) in (inject_Z (qnear (q * qpow (- e))) * qpow e)%Q.

(** ** data/flash_h5_reader.py 52-83 with the operation [rnd] after each addition,
    subtraction, multiplication and division *)
Section Rounded.
  Context (rnd : Q -> Q) {V : Type}.
  Open Scope Q_scope.

  Definition left_edge (c s : Q) : Q := rnd (c - rnd (s / 2)).
  (** data/flash_h5_reader.py 62. *)
  Definition right_edge (c s : Q) : Q := rnd (c + rnd (s / 2)).
  (** Lines 70-71. *)
  Definition first_cell (lo r : Q) (nb : nat) (c s : Q) : Z :=
    Qfloor (rnd (rnd (rnd (left_edge c s - lo) / r) * inject_Z (Z.of_nat nb))).
  (** Lines 64-65. *)
  Definition num_cells (lo up r : Q) (nb : nat) : Z := Qfloor (rnd (rnd (up - lo) / rnd (r / inject_Z (Z.of_nat nb)))).

  Definition paint_rounded (nxb nyb : nat) (nx ny : Z) (lx ly rx ry : Q) (m : mesh V) (b : block V) : mesh V :=
    if (b_type b =? 1)%Z then
      let mx := Qceiling (rnd (b_sx b / rx)) in
      let my := Qceiling (rnd (b_sy b / ry)) in
      let ix := first_cell lx rx nxb (b_x b) (b_sx b) in
      let iy := first_cell ly ry nyb (b_y b) (b_sy b) in
      fold_left (fun m i => fold_left (fun m j => paint nx ny ix iy mx my (b_val b) i j m) (seq 0 nyb) m) (seq 0 nxb) m
    else m.

  (** data/flash_h5_reader.py 52-83 with every operation rounded. *)
  Definition read_rounded (zero : V) (nxb nyb : nat) (bs : list (block V)) : res (frame V) :=
    let* rx := qmin (map b_sx bs) in
    let* ry := qmin (map b_sy bs) in
    let* lx := qmin (map (fun b => left_edge (b_x b) (b_sx b)) bs) in
    let* ly := qmin (map (fun b => left_edge (b_y b) (b_sy b)) bs) in
    let* ux := qmax (map (fun b => right_edge (b_x b) (b_sx b)) bs) in
    let* uy := qmax (map (fun b => right_edge (b_y b) (b_sy b)) bs) in
    if Qeq_bool rx 0 || Qeq_bool ry 0 || (nxb =? 0)%nat || (nyb =? 0)%nat then Err ValueError
    else
      let nx := num_cells lx ux rx nxb in
      let ny := num_cells ly uy ry nyb in
      if ((nx <? 0) || (ny <? 0))%Z then Err ValueError
      else Ok (mk_frame nx ny (lx, ly) (ux, uy)
                 (fold_left (paint_rounded nxb nyb nx ny lx ly rx ry) bs (fun _ _ => zero))).
End Rounded.

(** The reader on tables of doubles. data/flash_h5_reader.py 52-83. *)
Definition read_doubles {V} : V -> nat -> nat -> list (block V) -> res (frame V) := read_rounded qfl.
