(** * Polynomial expressions of the DG basis tables. *)
From Coq Require Import List ZArith QArith Lia.
Import ListNotations.
Open Scope list_scope.

(** The SymPy expressions written in computeInterpolationMatrices.py and
    computeDerivativeMatrices.py.  [Nu m e] is the decimal literal [m * 10^-e]
    (its exact value: the rounding of literals to doubles is not modelled),
    [Va i] the [i]-th of the symbols x, y, z, w, v, u. *)
Inductive pexp :=
| Nu (m : Z) (e : nat)
| Va (i : nat)
| Ng (a : pexp)
| Ad (a b : pexp)
| Su (a b : pexp)
| Mu (a b : pexp)
| Di (a b : pexp)
| Po (a : pexp) (n : nat).

(** The notations below let the tables be copied from the Python text. *)
Definition pexp_of_dec (d : Number.number) : option pexp :=
  match d with
  | Number.Decimal (Decimal.Decimal (Decimal.Pos i) f) =>
      Some (Nu (Z.of_uint (Decimal.app i f)) (Decimal.nb_digits f))
  | _ => None
  end.
Definition dec_of_pexp (e : pexp) : option Number.number := None.
Declare Scope pexp_scope.
Delimit Scope pexp_scope with pexp.
Number Notation pexp pexp_of_dec dec_of_pexp : pexp_scope.
Notation "- a" := (Ng a) : pexp_scope.
Notation "a + b" := (Ad a b) : pexp_scope.
Notation "a - b" := (Su a b) : pexp_scope.
Notation "a * b" := (Mu a b) : pexp_scope.
Notation "a / b" := (Di a b) : pexp_scope.
Notation "a ** n" := (Po a n%nat) (at level 30, right associativity) : pexp_scope.

(** Formal derivative with respect to symbol [i]: the rules of SymPy's [diff]
    (computeDerivativeMatrices.py calls it on every basis function).  Only
    quotients by constants occur in the tables; for others the rule would be
    incomplete, see [Dg_Sem.v]. *)
Fixpoint pdiff (i : nat) (e : pexp) : pexp :=
  match e with
  | Nu _ _ => Nu 0 0
  | Va j => if Nat.eqb i j then Nu 1 0 else Nu 0 0
  | Ng a => Ng (pdiff i a)
  | Ad a b => Ad (pdiff i a) (pdiff i b)
  | Su a b => Su (pdiff i a) (pdiff i b)
  | Mu a b => Ad (Mu (pdiff i a) b) (Mu a (pdiff i b))
  | Di a b => Di (pdiff i a) b
  | Po a n => match n with
              | O => Nu 0 0
              | S m => Mu (Mu (Nu (Z.of_nat n) 0) (Po a m)) (pdiff i a)
              end
  end.
