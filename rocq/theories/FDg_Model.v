(** * Evaluating the tabulated functions in double precision *)
From Coq Require Import List Arith ZArith Reals.
From Flocq Require Import Core.
From Verif Require Import Prelude Float_Model Dg_Poly Dg_Sem.
Import ListNotations.
Open Scope R_scope.

(** Rearrangements SymPy makes of an expression when it is built and when numbers are
    substituted in it: order and grouping of sums and products, signs, powers of the
    same expression.  Collecting like terms and multiplying out are not among them.
    data/computeInterpolationMatrices.py 52-8967. *)
Inductive same : pexp -> pexp -> Prop :=
| same_refl a : same a a
| same_sym a b : same a b -> same b a
| same_trans a b c : same a b -> same b c -> same a c
| same_ad a b a' b' : same a a' -> same b b' -> same (Ad a b) (Ad a' b')
| same_mu a b a' b' : same a a' -> same b b' -> same (Mu a b) (Mu a' b')
| same_ng a a' : same a a' -> same (Ng a) (Ng a')
| same_po a a' n : same a a' -> same (Po a n) (Po a' n)
| same_ad_comm a b : same (Ad a b) (Ad b a)
| same_ad_assoc a b c : same (Ad (Ad a b) c) (Ad a (Ad b c))
| same_mu_comm a b : same (Mu a b) (Mu b a)
| same_mu_assoc a b c : same (Mu (Mu a b) c) (Mu a (Mu b c))
| same_su a b : same (Su a b) (Ad a (Ng b))
| same_ng_ng a : same (Ng (Ng a)) a
| same_ng_ad a b : same (Ng (Ad a b)) (Ad (Ng a) (Ng b))
| same_ng_mu a b : same (Ng (Mu a b)) (Mu (Ng a) b)
| same_ng_nu m e : same (Ng (Nu m e)) (Nu (- m) e)
| same_po_one a : same (Po a 1) a
| same_po_add a n m : (1 <= n)%nat -> (1 <= m)%nat -> same (Po a (n + m)) (Mu (Po a n) (Po a m)).

(** [functionVector[j].subs(x, ...).subs(y, ...)] stored in an array of doubles: literals are
    rounded, then every operation, in any arrangement.  The underflow of doubles is included, SymPy's
    numbers do not have it. data/computeInterpolationMatrices.py 58-62 and the like. *)
Inductive evaluates (p : list R) : pexp -> R -> Prop :=
| ev_nu m e : evaluates p (Nu m e) (fl (lit m e))
| ev_va i : evaluates p (Va i) (nth i p 0)
| ev_ng a x : evaluates p a x -> evaluates p (Ng a) (- x)
| ev_ad a b x y : evaluates p a x -> evaluates p b y -> evaluates p (Ad a b) (fl (x + y))
| ev_su a b x y : evaluates p a x -> evaluates p b y -> evaluates p (Su a b) (fl (x - y))
| ev_mu a b x y : evaluates p a x -> evaluates p b y -> evaluates p (Mu a b) (fl (x * y))
| ev_po a n x : (2 <= n)%nat -> evaluates p a x -> evaluates p (Po a n) (fl (x ^ n))
| ev_same a b x : same a b -> evaluates p b x -> evaluates p a x.
