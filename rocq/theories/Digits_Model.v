(** * Numbers as text: [f"{x:.15e}"] of data/gdata.py 603-608

    Python's format with the type "e": one digit, the point, [p] more digits of the
    correctly rounded number (ties to even) and the exponent with at least two digits.
    The numbers are the rational values of the doubles; the sign of zero, infinities
    and NaN are left out. *)
From Coq Require Import String Ascii List ZArith QArith Qabs Bool.
From Verif Require Import Prelude FloatQ_Model.
Import ListNotations.
Open Scope string_scope. Open Scope Z_scope.

(** The number of decimal digits. For data/gdata.py 603-608. *)
Fixpoint ndigits (fuel : nat) (n : Z) : Z :=
  match fuel with
  | O => 1
  | S f => if n <? 10 then 1 else 1 + ndigits f (n / 10)
  end.
Definition num_digits (n : Z) : Z := ndigits (Z.to_nat (Z.log2 n)) n.

(** [10^e] as a rational number. *)
Definition ten (e : Z) : Q := if e <? 0 then (/ inject_Z (10 ^ (- e)))%Q else inject_Z (10 ^ e).

(** The exponent [e] with [10^e <= |q| < 10^(e+1)], for [q] other than 0. *)
Definition dexp (q : Q) : Z :=
  let n := Z.abs (Qnum q) in
  let d := Z.pos (Qden q) in
  let k := num_digits n - num_digits d in
  if (if k <? 0 then d <=? n * 10 ^ (- k) else d * 10 ^ k <=? n) then k else k - 1.

(** The digits as an integer of [p + 1] digits, and the exponent; 9.99… is carried to 1.00…. *)
Definition mantissa (p : nat) (q : Q) : Z * Z :=
  if Qnum q =? 0 then (0, 0) else
  let e := dexp q in
  let m := qnear (Qabs q * ten (Z.of_nat p - e)) in
  if m =? 10 ^ (Z.of_nat p + 1) then (10 ^ Z.of_nat p, e + 1) else (m, e).

(** The last [k] digits of [m], as characters. *)
Definition digit (d : Z) : ascii := ascii_of_nat (48 + Z.to_nat d).
Fixpoint digits (k : nat) (m : Z) : string :=
  match k with
  | O => ""
  | S k' => String (digit ((m / 10 ^ Z.of_nat k') mod 10)) (digits k' m)
  end.

(** data/gdata.py 603-608: [f"{x:.{p}e}"], for [p] at least 1. *)
Definition fmt_e (p : nat) (q : Q) : string :=
  let (m, e) := mantissa p q in
  (if Qnum q <? 0 then "-" else "") ++ digits 1 (m / 10 ^ Z.of_nat p) ++ "." ++ digits p m
  ++ "e" ++ (if e <? 0 then "-" else "+") ++ digits (Nat.max 2 (Z.to_nat (num_digits (Z.abs e)))) (Z.abs e).
