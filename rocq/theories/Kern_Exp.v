(** * Expressions of the expansion kernels in modalDG/kernels. *)
From Coq Require Import List ZArith Reals.
From Verif Require Import Prelude Dg_Poly Dg_Sem.
Import ListNotations.
Open Scope list_scope.

(** The Python expressions of expand1d.py ... expand6d.py.  [Kn m e] is the
    decimal literal [m * 10^-e] (its exact value: rounding is not modelled),
    [Xv i] the [i]-th coordinate argument, [Co n] the coefficient [f[..., n]],
    [Xo] Python's [^]. *)
Inductive kexp :=
| Kn (m : Z) (e : nat)
| Xv (i : nat)
| Co (n : nat)
| Ng (a : kexp)
| Ad (a b : kexp)
| Su (a b : kexp)
| Mu (a b : kexp)
| Po (a : kexp) (n : nat)
| Xo (a b : kexp).

Definition kexp_of_dec (d : Number.number) : option kexp :=
  match d with
  | Number.Decimal (Decimal.Decimal (Decimal.Pos i) f) =>
      Some (Kn (Z.of_uint (Decimal.app i f)) (Decimal.nb_digits f))
  | _ => None
  end.
Definition dec_of_kexp (e : kexp) : option Number.number := None.
Declare Scope kexp_scope.
Delimit Scope kexp_scope with kexp.
Number Notation kexp kexp_of_dec dec_of_kexp : kexp_scope.
Notation "a + b" := (Ad a b) : kexp_scope.
Notation "a - b" := (Su a b) : kexp_scope.
Notation "a * b" := (Mu a b) : kexp_scope.
Notation "a ** n" := (Po a n%nat) (at level 30, right associativity) : kexp_scope.
Arguments Xv _%nat.
Arguments Co _%nat.

(** Evaluation in one cell (numpy does all cells at once) at the point [x] of
    the reference cell with the coefficients [q], operands from left to right.
    The coordinates are floats, for which [^] is not defined. *)
Fixpoint keval (k : kexp) (x q : list R) : res R :=
  match k with
  | Kn m e => Ok (lit m e)
  | Xv i => Ok (nth i x 0%R)
  | Co n => match nth_error q n with Some a => Ok a | None => Err IndexError end
  | Ng a => let* u := keval a x q in Ok (- u)%R
  | Ad a b => let* u := keval a x q in let* v := keval b x q in Ok (u + v)%R
  | Su a b => let* u := keval a x q in let* v := keval b x q in Ok (u - v)%R
  | Mu a b => let* u := keval a x q in let* v := keval b x q in Ok (u * v)%R
  | Po a n => let* u := keval a x q in Ok (u ^ n)%R
  | Xo a b => let* u := keval a x q in let* v := keval b x q in Err TypeError
  end.
