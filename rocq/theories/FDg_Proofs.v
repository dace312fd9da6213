(** * The error of evaluating a polynomial in double precision *)
From Coq Require Import String List Arith ZArith Bool Lia QArith Qreals Reals Lra Psatz.
From Flocq Require Import Core.
From Verif Require Import Prelude PreludeFacts Float_Model Float_Props FInt_Model FInt_Spec FInt_Proofs FInt_Props
  Dg_Poly Dg_TabI Dg_Sem FDg_Spec FDg_Model FDg_Props.
Import ListNotations.
Open Scope list_scope. Open Scope R_scope.

(** Roundings, with three for a variable that is a little off; the value with all signs plus in the
    corner of the cell; no quotients, no tiny numbers. *)
Fixpoint cost (e : pexp) : nat :=
  match e with
  | Nu _ _ => 1
  | Va _ => 3
  | Ng a => cost a
  | Ad a b | Su a b | Mu a b | Di a b => cost a + cost b + 1
  | Po a n => n * cost a + (n - 1)
  end.
Fixpoint weight (e : pexp) : R :=
  match e with
  | Nu m k => Rabs (lit m k)
  | Va _ => 1
  | Ng a => weight a
  | Ad a b | Su a b => weight a + weight b
  | Mu a b => weight a * weight b
  | Di a b => 0
  | Po a n => weight a ^ n
  end.
Fixpoint plain (e : pexp) : Prop :=
  match e with
  | Nu m k => / 8 <= Rabs (lit m k)
  | Va _ => True
  | Ng a => plain a
  | Ad a b | Su a b | Mu a b => plain a /\ plain b
  | Di _ _ => False
  | Po a n => (1 <= n)%nat /\ plain a
  end.

Lemma same_all a b : same a b ->
  (plain a <-> plain b) /\ (plain a -> cost a = cost b) /\ weight a = weight b /\ forall x, evalR a x = evalR b x.
Proof.
  induction 1; cbn [plain cost weight evalR] in *.
  - split; [tauto|]. split; [reflexivity|]. split; [reflexivity|]. intros. reflexivity.
  - destruct IHsame as (A1 & B1 & C1 & D1). split; [tauto|]. split; [intros P; symmetry; apply B1; tauto|]. split; [congruence|]. intros. now rewrite D1.
  - destruct IHsame1 as (A1 & B1 & C1 & D1), IHsame2 as (A2 & B2 & C2 & D2). split; [tauto|]. split; [intros P; rewrite B1, B2; tauto|]. split; [congruence|]. intros. now rewrite D1, D2.
  - destruct IHsame1 as (A1 & B1 & C1 & D1), IHsame2 as (A2 & B2 & C2 & D2). split; [tauto|]. split; [intros (P1 & P2); rewrite B1, B2; auto|]. split; [congruence|]. intros. now rewrite D1, D2.
  - destruct IHsame1 as (A1 & B1 & C1 & D1), IHsame2 as (A2 & B2 & C2 & D2). split; [tauto|]. split; [intros (P1 & P2); rewrite B1, B2; auto|]. split; [congruence|]. intros. now rewrite D1, D2.
  - destruct IHsame as (A1 & B1 & C1 & D1). split; [tauto|]. split; [auto|]. split; [auto|]. intros. now rewrite D1.
  - destruct IHsame as (A1 & B1 & C1 & D1). split; [tauto|]. split; [intros (_ & P); rewrite B1; auto|]. split; [congruence|]. intros. now rewrite D1.
  - split; [tauto|]. split; [lia|]. split; [ring|]. intros. ring.
  - split; [tauto|]. split; [lia|]. split; [ring|]. intros. ring.
  - split; [tauto|]. split; [lia|]. split; [ring|]. intros. ring.
  - split; [tauto|]. split; [lia|]. split; [ring|]. intros. ring.
  - split; [tauto|]. split; [lia|]. split; [ring|]. intros. ring.
  - split; [tauto|]. split; [lia|]. split; [ring|]. intros. ring.
  - split; [tauto|]. split; [lia|]. split; [ring|]. intros. ring.
  - split; [tauto|]. split; [lia|]. split; [ring|]. intros. ring.
  - unfold lit. assert (E : IZR (- m) / 10 ^ e = - (IZR m / 10 ^ e)) by (rewrite opp_IZR; unfold Rdiv; ring). rewrite E, Rabs_Ropp. split; [tauto|]. split; [lia|]. split; [reflexivity|]. intros. reflexivity.
  - split; [intuition lia|]. split; [lia|]. split; [ring|]. intros. ring.
  - split; [intuition lia|]. split; [nia|]. split; [apply pow_add|]. intros. apply pow_add.
Qed.

Lemma weight_pos e : 0 <= weight e.
Proof. induction e; cbn [weight]; try lra; [apply Rabs_pos|nra|now apply pow_le]. Qed.
Lemma weight_ge e : plain e -> (/ 8) ^ cost e <= weight e.
Proof.
  assert (M : forall a b, (a <= b)%nat -> (/ 8) ^ b <= (/ 8) ^ a).
  { intros a b L. replace b with (a + (b - a))%nat by lia. rewrite pow_add. assert (0 <= (/ 8) ^ a) by (apply pow_le; lra).
    assert ((/ 8) ^ (b - a) <= 1) by (rewrite <- (pow1 (b - a)); apply pow_incr; lra). nra. }
  assert (Z : forall n, 0 <= (/ 8) ^ n) by (intros n; apply pow_le; lra).
  induction e; cbn [plain cost weight]; intros P.
  - rewrite pow_1. exact P.
  - cbn. lra.
  - auto.
  - destruct P as (P1 & P2). pose proof (M (cost e1) (cost e1 + cost e2 + 1)%nat ltac:(lia)). pose proof (weight_pos e2). specialize (IHe1 P1). lra.
  - destruct P as (P1 & P2). pose proof (M (cost e1) (cost e1 + cost e2 + 1)%nat ltac:(lia)). pose proof (weight_pos e2). specialize (IHe1 P1). lra.
  - destruct P as (P1 & P2). apply Rle_trans with (1 := M (cost e1 + cost e2)%nat (cost e1 + cost e2 + 1)%nat ltac:(lia)). rewrite pow_add. apply Rmult_le_compat; auto.
  - contradiction.
  - destruct P as (P1 & P2). apply Rle_trans with (1 := M (n * cost e)%nat (n * cost e + (n - 1))%nat ltac:(lia)). rewrite Nat.mul_comm, pow_mult. apply pow_incr. auto.
Qed.
Lemma weight_tiny e : plain e -> (cost e <= 300)%nat -> tiny <= u * weight e.
Proof.
  intros P C. apply Rle_trans with (u * bpow radix2 (-1000)).
  - unfold tiny, u. rewrite <- bpow_plus. apply bpow_le. lia.
  - apply Rmult_le_compat_l; [unfold u; apply bpow_ge_0|]. apply Rle_trans with (2 := weight_ge e P).
    assert (E : forall n, (/ 8) ^ n = bpow radix2 (- (3 * Z.of_nat n))).
    { induction n as [|n IH]; [reflexivity|]. rewrite <- tech_pow_Rmult, IH. replace (- (3 * Z.of_nat (S n)))%Z with (-3 + - (3 * Z.of_nat n))%Z by lia. rewrite bpow_plus. replace (bpow radix2 (-3)) with (/ 8) by (cbn; lra). reflexivity. }
    rewrite E. apply bpow_le. lia.
Qed.
Lemma value_le e x : plain e -> (forall i, Rabs (nth i x 0) <= 1) -> Rabs (evalR e x) <= weight e.
Proof.
  intros P X. induction e; cbn [plain evalR weight] in *.
  - lra.
  - apply X.
  - rewrite Rabs_Ropp. auto.
  - apply Rle_trans with (1 := Rabs_triang _ _). destruct P. apply Rplus_le_compat; auto.
  - apply Rle_trans with (1 := Rabs_triang _ _). rewrite Rabs_Ropp. destruct P. apply Rplus_le_compat; auto.
  - rewrite Rabs_mult. destruct P. apply Rmult_le_compat; auto using Rabs_pos.
  - contradiction.
  - rewrite <- RPow_abs. apply pow_incr. split; [apply Rabs_pos|]. now apply IHe.
Qed.

Definition g2 : R := 1 + 2 * u.
Lemma g2_ge n : 1 <= g2 ^ n.
Proof. apply pow_R1_Rle. unfold g2. pose proof u_pos. lra. Qed.
Lemma g2_mono a b : (a <= b)%nat -> g2 ^ a <= g2 ^ b.
Proof. intros L. apply Rle_pow; [|exact L]. unfold g2. pose proof u_pos. lra. Qed.

(** One rounding after an operation whose exact result is known up to [G]. *)
Lemma step_error y r W G k : 1 <= G -> tiny <= u * W -> Rabs r <= W -> Rabs (y - r) <= (G - 1) * W -> G * g2 <= k -> Rabs (fl y - r) <= (k - 1) * W.
Proof.
  intros HG T Hr Hy Hk. pose proof (fl_error y) as E. pose proof u_pos as U. pose proof (Rabs_pos r). assert (0 <= W) by lra.
  assert (Y : Rabs y <= G * W) by (replace y with (r + (y - r)) by ring; apply Rle_trans with (1 := Rabs_triang _ _); nra).
  replace (fl y - r) with ((fl y - y) + (y - r)) by ring. apply Rle_trans with (1 := Rabs_triang _ _).
  assert (F : Rabs (fl y - y) <= 2 * u * (G * W)).
  { assert (u * W <= u * (G * W)) by (apply Rmult_le_compat_l; [lra|nra]). assert (u * Rabs y <= u * (G * W)) by (apply Rmult_le_compat_l; lra). lra. }
  assert (K : (G * g2 - 1) * W <= (k - 1) * W) by (apply Rmult_le_compat_r; lra). unfold g2 in K. nra.
Qed.

Lemma pow_error x r W G n : 1 <= G -> Rabs r <= W -> Rabs (x - r) <= (G - 1) * W -> Rabs (x ^ n - r ^ n) <= (G ^ n - 1) * W ^ n.
Proof.
  intros HG Hr Hx. assert (W0 : 0 <= W) by (pose proof (Rabs_pos r); lra).
  induction n as [|n IH]; [cbn; rewrite Rminus_diag_eq, Rabs_R0 by reflexivity; lra|]. rewrite <- !tech_pow_Rmult.
  replace (x * x ^ n - r * r ^ n) with (x * (x ^ n - r ^ n) + (x - r) * r ^ n) by ring. apply Rle_trans with (1 := Rabs_triang _ _). rewrite !Rabs_mult.
  assert (X : Rabs x <= G * W) by (replace x with (r + (x - r)) by ring; apply Rle_trans with (1 := Rabs_triang _ _); nra).
  assert (R' : Rabs (r ^ n) <= W ^ n) by (rewrite <- RPow_abs; apply pow_incr; split; [apply Rabs_pos|exact Hr]).
  assert (A : Rabs x * Rabs (x ^ n - r ^ n) <= (G * W) * ((G ^ n - 1) * W ^ n)) by (apply Rmult_le_compat; auto using Rabs_pos).
  assert (B : Rabs (x - r) * Rabs (r ^ n) <= ((G - 1) * W) * W ^ n) by (apply Rmult_le_compat; auto using Rabs_pos).
  replace ((G * G ^ n - 1) * (W * W ^ n)) with (G * W * ((G ^ n - 1) * W ^ n) + (G - 1) * W * W ^ n) by ring. lra.
Qed.

Lemma near_nth p x i : near_point p x -> Rabs (nth i p 0 - nth i x 0) <= 5 * u /\ Rabs (nth i x 0) <= 1.
Proof.
  intros N. revert i. induction N as [|a b p x (A & B) _ IH]; intros [|i]; cbn [nth].
  1,2: rewrite Rminus_diag_eq, Rabs_R0 by reflexivity; pose proof u_pos; lra.
  - now split.
  - apply IH.
Qed.

Lemma evaluates_error p x e v : evaluates p e v -> near_point p x -> plain e -> (cost e <= 300)%nat ->
  Rabs (v - evalR e x) <= (g2 ^ cost e - 1) * weight e.
Proof.
  intros E N. induction E as [m k|i|a y _ IH|a b y z _ IHa _ IHb|a b y z _ IHa _ IHb|a b y z _ IHa _ IHb|a n y Hn _ IH|a b y S _ IH]; intros P C.
  - apply (step_error _ _ _ 1); [lra|exact (weight_tiny (Nu m k) P C)|apply Rle_refl|rewrite Rminus_diag_eq, Rabs_R0 by reflexivity; lra|cbn; lra].
  - cbn [evalR cost weight]. destruct (near_nth p x i N) as (A & _). pose proof u_pos as U. unfold g2.
    replace (((1 + 2 * u) ^ 3 - 1) * 1) with (6 * u + 12 * (u * u) + 8 * (u * u * u)) by ring. assert (0 < u * u) by now apply Rmult_lt_0_compat. assert (0 < u * u * u) by now apply Rmult_lt_0_compat. lra.
  - cbn [evalR cost weight plain] in *. replace (- y - - evalR a x) with (- (y - evalR a x)) by ring. rewrite Rabs_Ropp. auto.
  - pose proof (weight_tiny _ P C) as T. assert (V : Rabs (evalR (Ad a b) x) <= weight (Ad a b)) by (apply value_le; [exact P|intros i; now apply near_nth with (1 := N)]).
    cbn [evalR cost weight plain] in *. destruct P as (Pa & Pb). specialize (IHa Pa ltac:(lia)). specialize (IHb Pb ltac:(lia)).
    apply (step_error _ _ _ (g2 ^ (cost a + cost b))); [apply g2_ge|exact T|exact V| |rewrite (pow_add g2 (cost a + cost b) 1), pow_1; lra].
    replace (y + z - (evalR a x + evalR b x)) with ((y - evalR a x) + (z - evalR b x)) by ring. apply Rle_trans with (1 := Rabs_triang _ _).
    pose proof (g2_mono (cost a) (cost a + cost b) ltac:(lia)). pose proof (g2_mono (cost b) (cost a + cost b) ltac:(lia)). pose proof (weight_pos a). pose proof (weight_pos b). nra.
  - pose proof (weight_tiny _ P C) as T. assert (V : Rabs (evalR (Su a b) x) <= weight (Su a b)) by (apply value_le; [exact P|intros i; now apply near_nth with (1 := N)]).
    cbn [evalR cost weight plain] in *. destruct P as (Pa & Pb). specialize (IHa Pa ltac:(lia)). specialize (IHb Pb ltac:(lia)).
    apply (step_error _ _ _ (g2 ^ (cost a + cost b))); [apply g2_ge|exact T|exact V| |rewrite (pow_add g2 (cost a + cost b) 1), pow_1; lra].
    replace (y - z - (evalR a x - evalR b x)) with ((y - evalR a x) + - (z - evalR b x)) by ring. apply Rle_trans with (1 := Rabs_triang _ _). rewrite Rabs_Ropp.
    pose proof (g2_mono (cost a) (cost a + cost b) ltac:(lia)). pose proof (g2_mono (cost b) (cost a + cost b) ltac:(lia)). pose proof (weight_pos a). pose proof (weight_pos b). nra.
  - pose proof (weight_tiny _ P C) as T. assert (V : Rabs (evalR (Mu a b) x) <= weight (Mu a b)) by (apply value_le; [exact P|intros i; now apply near_nth with (1 := N)]).
    cbn [evalR cost weight plain] in *. destruct P as (Pa & Pb). specialize (IHa Pa ltac:(lia)). specialize (IHb Pb ltac:(lia)).
    apply (step_error _ _ _ (g2 ^ (cost a + cost b))); [apply g2_ge|exact T|exact V| |rewrite (pow_add g2 (cost a + cost b) 1), pow_1; lra].
    assert (Va' : Rabs (evalR a x) <= weight a) by (apply value_le; [exact Pa|intros i; now apply near_nth with (1 := N)]).
    assert (Vb' : Rabs (evalR b x) <= weight b) by (apply value_le; [exact Pb|intros i; now apply near_nth with (1 := N)]).
    rewrite pow_add. pose proof (g2_ge (cost a)). pose proof (g2_ge (cost b)). set (Ga := g2 ^ cost a) in *. set (Gb := g2 ^ cost b) in *.
    set (wa := weight a) in *. set (wb := weight b) in *. set (ra := evalR a x) in *. set (rb := evalR b x) in *.
    replace (y * z - ra * rb) with (y * (z - rb) + (y - ra) * rb) by ring. apply Rle_trans with (1 := Rabs_triang _ _). rewrite !Rabs_mult.
    assert (X : Rabs y <= Ga * wa) by (replace y with (ra + (y - ra)) by ring; apply Rle_trans with (1 := Rabs_triang _ _); lra).
    assert (A : Rabs y * Rabs (z - rb) <= (Ga * wa) * ((Gb - 1) * wb)) by (apply Rmult_le_compat; auto using Rabs_pos).
    assert (B : Rabs (y - ra) * Rabs rb <= ((Ga - 1) * wa) * wb) by (apply Rmult_le_compat; auto using Rabs_pos).
    replace ((Ga * Gb - 1) * (wa * wb)) with (Ga * wa * ((Gb - 1) * wb) + (Ga - 1) * wa * wb) by ring. lra.
  - pose proof (weight_tiny _ P C) as T. assert (V : Rabs (evalR (Po a n) x) <= weight (Po a n)) by (apply value_le; [exact P|intros i; now apply near_nth with (1 := N)]).
    cbn [evalR cost weight plain] in *. destruct P as (_ & Pa). specialize (IH Pa ltac:(nia)).
    assert (Va' : Rabs (evalR a x) <= weight a) by (apply value_le; [exact Pa|intros i; now apply near_nth with (1 := N)]).
    apply (step_error _ _ _ ((g2 ^ cost a) ^ n)); [apply pow_R1_Rle, g2_ge|exact T|exact V|now apply pow_error; [apply g2_ge|..]|].
    rewrite <- pow_mult, Nat.mul_comm, Rmult_comm, tech_pow_Rmult. apply g2_mono. lia.
  - destruct (same_all _ _ S) as (A & B & D & F). rewrite D, (F x), (B P). apply IH; [now apply A|]. rewrite <- (B P). exact C.
Qed.
