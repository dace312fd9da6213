(** * Meaning of the basis expressions: real functions, polynomials, derivatives. *)
From Coq Require Import List Arith ZArith QArith Qreals Reals Lia Lra.
From Verif Require Import Prelude PreludeFacts Dg_Poly.
Import ListNotations.
Open Scope list_scope.
Open Scope R_scope.

(** Value of a decimal literal [m * 10^-e]. *)
Definition lit (m : Z) (e : nat) : R := IZR m / 10 ^ e.

(** Value of an expression at a point. *)
Fixpoint evalR (f : pexp) (x : list R) : R :=
  match f with
  | Nu m e => lit m e
  | Va i => nth i x 0
  | Ng a => - evalR a x
  | Ad a b => evalR a x + evalR b x
  | Su a b => evalR a x - evalR b x
  | Mu a b => evalR a x * evalR b x
  | Di a b => evalR a x / evalR b x
  | Po a n => evalR a x ^ n
  end.

(** ** Polynomials as lists of terms *)

Definition mono (x : list R) (a : list nat) : R := fold_right Rmult 1 (map2 pow x a).

Definition evalP (p : list (R * list nat)) (x : list R) : R :=
  fold_right (fun t s => fst t * mono x (snd t) + s) 0 p.

Definition scaleP (k : R) (p : list (R * list nat)) := List.map (fun t => (k * fst t, snd t)) p.
Definition mulP (p q : list (R * list nat)) : list (R * list nat) :=
  flat_map (fun t => List.map (fun u => (fst t * fst u, map2 Nat.add (snd t) (snd u))) q) p.

Lemma evalP_app p q x : evalP (p ++ q) x = evalP p x + evalP q x.
Proof. unfold evalP. induction p; cbn; [ring|]. rewrite IHp. ring. Qed.

Lemma evalP_scale k p x : evalP (scaleP k p) x = k * evalP p x.
Proof. unfold evalP, scaleP. induction p; cbn; [ring|]. rewrite IHp. ring. Qed.

Lemma mono_add x a b : length a = length x -> length b = length x ->
  mono x (map2 Nat.add a b) = mono x a * mono x b.
Proof.
  revert a b. unfold mono. induction x as [|t x IH]; intros [|i a] [|j b]; cbn; try discriminate; intros; [ring|].
  rewrite IH by lia. rewrite pow_add. ring.
Qed.

Definition dim_ok {C} (d : nat) (p : list (C * list nat)) : Prop := Forall (fun t => length (snd t) = d) p.

Lemma map2_add_length a b : length a = length b -> length (map2 Nat.add a b) = length a.
Proof. intros H. rewrite map2_length. lia. Qed.

Lemma mulP_dim d p q : dim_ok d p -> dim_ok d q -> dim_ok d (mulP p q).
Proof.
  unfold dim_ok, mulP. intros Hp Hq. apply Forall_flat_map. eapply Forall_impl; [|exact Hp].
  intros t Ht. apply Forall_map. eapply Forall_impl; [|exact Hq]. cbn. intros u Hu.
  rewrite map2_add_length; congruence.
Qed.

Lemma evalP_mul d p q x : dim_ok d p -> dim_ok d q -> length x = d ->
  evalP (mulP p q) x = evalP p x * evalP q x.
Proof.
  intros Hp Hq Hx. unfold mulP. induction Hp as [|t p Ht Hp IH]; cbn [flat_map]; [cbn; ring|].
  rewrite evalP_app, IH. cbn [evalP fold_right]. fold (evalP p x).
  replace (evalP (List.map _ q) x) with (fst t * mono x (snd t) * evalP q x); [ring|].
  clear - Ht Hq Hx. induction Hq as [|u q Hu Hq IH]; cbn; [ring|].
  unfold evalP in IH. rewrite <- IH. rewrite mono_add by congruence. ring.
Qed.

(** ** Expanding an expression (rational coefficients) *)

Definition qterm := (Q * list nat)%type.

Definition lit_q (m : Z) (e : nat) : Q := m # Pos.pow 10 (Pos.of_nat e).
(* [Pos.of_nat 0 = 1], so the exponent 0 is treated apart *)
Definition litQ (m : Z) (e : nat) : Q := match e with O => inject_Z m | _ => lit_q m e end.

Definition unit_exp (d i : nat) : list nat := List.map (fun k => if Nat.eqb k i then 1%nat else 0%nat) (seq 0 d).
Definition zero_exp (d : nat) : list nat := repeat 0%nat d.

Definition neg_terms (p : list qterm) : list qterm := List.map (fun t => ((- fst t)%Q, snd t)) p.
Definition mul_terms (p q : list qterm) : list qterm :=
  flat_map (fun t => List.map (fun u => ((fst t * fst u)%Q, map2 Nat.add (snd t) (snd u))) q) p.
Definition div_terms (p : list qterm) (c : Q) : list qterm := List.map (fun t => ((fst t / c)%Q, snd t)) p.

Fixpoint pow_terms (d : nat) (p : list qterm) (n : nat) : list qterm :=
  match n with
  | O => [(1%Q, zero_exp d)]
  | S m => mul_terms p (pow_terms d p m)
  end.

Fixpoint terms (d : nat) (f : pexp) : option (list qterm) :=
  match f with
  | Nu m e => Some [(litQ m e, zero_exp d)]
  | Va i => if (i <? d)%nat then Some [(1%Q, unit_exp d i)] else None
  | Ng a => option_map neg_terms (terms d a)
  | Ad a b => match terms d a, terms d b with Some p, Some q => Some (p ++ q) | _, _ => None end
  | Su a b => match terms d a, terms d b with Some p, Some q => Some (p ++ neg_terms q) | _, _ => None end
  | Mu a b => match terms d a, terms d b with Some p, Some q => Some (mul_terms p q) | _, _ => None end
  | Di a (Nu m e) => match terms d a with
                     | Some p => if Z.eqb m 0 then None else Some (div_terms p (litQ m e))
                     | None => None
                     end
  | Di _ _ => None
  | Po a n => option_map (fun p => pow_terms d p n) (terms d a)
  end.

Definition toR (p : list qterm) : list (R * list nat) := List.map (fun t => (Q2R (fst t), snd t)) p.

Lemma pow_pos_nat e : IZR (Z.pos (Pos.pow 10 (Pos.of_nat (S e)))) = 10 ^ (S e).
Proof.
  rewrite Pos2Z.inj_pow. replace (Z.pos (Pos.of_nat (S e))) with (Z.of_nat (S e)) by lia.
  rewrite <- pow_IZR. reflexivity.
Qed.

Lemma Q2R_lit m e : Q2R (litQ m e) = lit m e.
Proof.
  destruct e as [|e]; unfold litQ, lit.
  - unfold inject_Z, Q2R. cbn. field.
  - unfold lit_q, Q2R. cbn [Qnum Qden]. rewrite pow_pos_nat. reflexivity.
Qed.

Lemma mono_zero x d : mono x (zero_exp d) = 1.
Proof.
  unfold mono, zero_exp. revert d. induction x; intros [|d]; cbn; try reflexivity. rewrite IHx. ring.
Qed.

Lemma mono_unit x i : mono x (unit_exp (length x) i) = if (i <? length x)%nat then nth i x 0 else 1.
Proof.
  unfold mono, unit_exp.
  assert (G : forall s, fold_right Rmult 1 (map2 pow x (List.map (fun k => if Nat.eqb k (s + i) then 1%nat else 0%nat) (seq s (length x))))
            = if (i <? length x)%nat then nth i x 0 else 1).
  { revert i. induction x as [|t x IH]; intros i s; cbn [length seq List.map map2 fold_right]; [reflexivity|].
    destruct i as [|i].
    - rewrite Nat.add_0_r, Nat.eqb_refl. cbn [nth].
      replace (fold_right _ _ _) with 1; [cbn; ring|]. clear IH.
      assert (Z : forall r (y : list R), (s < r)%nat ->
         fold_right Rmult 1 (map2 pow y (List.map (fun k => if Nat.eqb k s then 1%nat else 0%nat) (seq r (length y)))) = 1).
      { intros r y. revert r. induction y as [|u y IHy]; intros r Hr; cbn; [reflexivity|].
        destruct (Nat.eqb_spec r s); [lia|]. rewrite IHy by lia. cbn. ring. }
      symmetry. apply Z. lia.
    - destruct (Nat.eqb_spec s (s + S i)); [lia|].
      replace (s + S i)%nat with (S s + i)%nat by lia. rewrite IH. cbn [nth pow].
      change (S i <? S (length x))%nat with (i <? length x)%nat. ring. }
  exact (G 0%nat).
Qed.

Lemma toR_app p q : toR (p ++ q) = toR p ++ toR q.
Proof. apply map_app. Qed.

Lemma neg_terms_toR p : toR (neg_terms p) = scaleP (-1) (toR p).
Proof.
  unfold toR, neg_terms, scaleP. rewrite !map_map. apply map_ext. intros t. cbn. rewrite Q2R_opp. f_equal. ring.
Qed.

Lemma div_terms_toR p c : ~ (c == 0)%Q -> toR (div_terms p c) = scaleP (/ Q2R c) (toR p).
Proof.
  intros Hc. unfold toR, div_terms, scaleP. rewrite !map_map. apply map_ext. intros t. cbn.
  rewrite Q2R_div by exact Hc. f_equal. unfold Rdiv. ring.
Qed.

Lemma mul_terms_toR p q : toR (mul_terms p q) = mulP (toR p) (toR q).
Proof.
  unfold toR, mul_terms, mulP. induction p as [|t p IH]; cbn; [reflexivity|].
  rewrite map_app, IH. f_equal. rewrite !map_map. apply map_ext. intros u. cbn. rewrite Q2R_mult. reflexivity.
Qed.

Lemma toR_dim d p : dim_ok d p -> dim_ok d (toR p).
Proof. unfold dim_ok, toR. intros H. apply Forall_map. exact H. Qed.

Lemma mul_terms_dim d p q : dim_ok d p -> dim_ok d q -> dim_ok d (mul_terms p q).
Proof.
  unfold dim_ok, mul_terms. intros Hp Hq. apply Forall_flat_map. eapply Forall_impl; [|exact Hp].
  intros t Ht. apply Forall_map. eapply Forall_impl; [|exact Hq]. cbn. intros u Hu.
  rewrite map2_add_length; congruence.
Qed.

Lemma zero_exp_length d : length (zero_exp d) = d.
Proof. apply repeat_length. Qed.

Lemma pow_terms_dim d p n : dim_ok d p -> dim_ok d (pow_terms d p n).
Proof.
  intros H. induction n; cbn [pow_terms].
  - constructor; [apply zero_exp_length|constructor].
  - apply mul_terms_dim; auto.
Qed.

Lemma terms_dim d f : forall p, terms d f = Some p -> dim_ok d p.
Proof.
  induction f; cbn [terms]; intros p H.
  - injection H as <-. constructor; [apply zero_exp_length|constructor].
  - destruct (i <? d)%nat; [|discriminate]. injection H as <-. constructor; [|constructor].
    cbn. unfold unit_exp. rewrite map_length, seq_length. reflexivity.
  - destruct (terms d f); [|discriminate]. injection H as <-. apply Forall_map. apply IHf; auto.
  - destruct (terms d f1), (terms d f2); try discriminate. injection H as <-. apply Forall_app. split; auto.
    + apply IHf1; auto. + apply IHf2; auto.
  - destruct (terms d f1), (terms d f2); try discriminate. injection H as <-. apply Forall_app. split.
    + apply IHf1; auto. + apply Forall_map. apply IHf2; auto.
  - destruct (terms d f1), (terms d f2); try discriminate. injection H as <-. apply mul_terms_dim; auto.
  - destruct f2; try discriminate. destruct (terms d f1) as [p1|]; [|discriminate].
    destruct (Z.eqb m 0); [discriminate|]. injection H as <-. apply Forall_map. apply IHf1; auto.
  - destruct (terms d f); [|discriminate]. injection H as <-. apply pow_terms_dim; auto.
Qed.

(** The expansion has the same value as the expression. *)
Theorem terms_correct d f : forall p x, terms d f = Some p -> length x = d -> evalR f x = evalP (toR p) x.
Proof.
  induction f; cbn [terms]; intros p x H Hx.
  - injection H as <-. cbn. rewrite mono_zero, Q2R_lit. ring.
  - destruct (i <? d)%nat eqn:E; [|discriminate]. injection H as <-. cbn.
    rewrite <- Hx, mono_unit, Hx, E. unfold Q2R. cbn. field.
  - destruct (terms d f) as [p0|]; [|discriminate]. injection H as <-. cbn [evalR].
    rewrite neg_terms_toR, evalP_scale, (IHf p0 x); auto. ring.
  - destruct (terms d f1) as [p1|], (terms d f2) as [p2|]; try discriminate. injection H as <-. cbn [evalR].
    rewrite toR_app, evalP_app. rewrite (IHf1 p1 x), (IHf2 p2 x); auto.
  - destruct (terms d f1) as [p1|], (terms d f2) as [p2|]; try discriminate. injection H as <-. cbn [evalR].
    rewrite toR_app, evalP_app, neg_terms_toR, evalP_scale. rewrite (IHf1 p1 x), (IHf2 p2 x); auto. ring.
  - destruct (terms d f1) as [p1|] eqn:E1, (terms d f2) as [p2|] eqn:E2; try discriminate. injection H as <-. cbn [evalR].
    rewrite mul_terms_toR, (evalP_mul d); auto.
    + rewrite (IHf1 p1 x), (IHf2 p2 x); auto.
    + apply toR_dim. eapply terms_dim; eauto.
    + apply toR_dim. eapply terms_dim; eauto.
  - destruct f2; try discriminate. destruct (terms d f1) as [p1|] eqn:E1; [|discriminate].
    destruct (Z.eqb_spec m 0) as [|Hm]; [discriminate|]. injection H as <-. cbn [evalR].
    rewrite (IHf1 p1 x) by auto. clear - Hm.
    assert (Hq : ~ (litQ m e == 0)%Q).
    { destruct e; unfold litQ, lit_q, inject_Z, Qeq; cbn; lia. }
    rewrite div_terms_toR, evalP_scale, Q2R_lit by exact Hq. unfold Rdiv. ring.
  - destruct (terms d f) as [p0|] eqn:E0; [|discriminate]. injection H as <-. cbn [evalR].
    rewrite (IHf p0 x) by auto. clear IHf.
    induction n as [|n IH]; cbn [pow pow_terms].
    + cbn. rewrite mono_zero. unfold Q2R; cbn. field.
    + rewrite mul_terms_toR, (evalP_mul d); auto.
      * rewrite IH. reflexivity.
      * apply toR_dim. eapply terms_dim; eauto.
      * apply toR_dim. apply pow_terms_dim. eapply terms_dim; eauto.
Qed.

(** ** Integer coefficients over a common denominator *)

Definition zterm := (Z * list nat)%type.

Definition scale_term (s : Z) (t : qterm) : option zterm :=
  let v := (Qnum (fst t) * s)%Z in
  if (v mod Zpos (Qden (fst t)) =? 0)%Z then Some ((v / Zpos (Qden (fst t)))%Z, snd t) else None.

Fixpoint scale_terms (s : Z) (p : list qterm) : option (list zterm) :=
  match p with
  | [] => Some []
  | t :: p' => match scale_term s t, scale_terms s p' with
               | Some z, Some zs => Some (z :: zs) | _, _ => None end
  end.

Definition zterms (s : Z) (d : nat) (f : pexp) : option (list zterm) :=
  match terms d f with Some p => scale_terms s p | None => None end.

Definition zToR (s : Z) (p : list zterm) : list (R * list nat) :=
  List.map (fun t => (IZR (fst t) / IZR s, snd t)) p.

Lemma scale_terms_toR s p z : s <> 0%Z -> scale_terms s p = Some z -> toR p = zToR s z.
Proof.
  intros Hs. revert z. induction p as [|t p IH]; cbn [scale_terms]; intros z H.
  - injection H as <-. reflexivity.
  - destruct (scale_term s t) as [z0|] eqn:E; [|discriminate].
    destruct (scale_terms s p) as [zs|]; [|discriminate]. injection H as <-.
    change (toR (t :: p)) with ((Q2R (fst t), snd t) :: toR p). rewrite (IH zs eq_refl). cbn [zToR List.map]. f_equal.
    unfold scale_term in E. destruct (_ =? 0)%Z eqn:Em; [|discriminate]. injection E as <-. cbn.
    apply Z.eqb_eq in Em. f_equal. unfold Q2R.
    assert (V : (Qnum (fst t) * s = Zpos (Qden (fst t)) * (Qnum (fst t) * s / Zpos (Qden (fst t))))%Z)
      by (apply Z.div_exact; lia).
    apply (f_equal IZR) in V. rewrite !mult_IZR in V.
    assert (IZR (Zpos (Qden (fst t))) <> 0) by (apply not_0_IZR; lia).
    assert (IZR s <> 0) by (apply not_0_IZR; lia).
    apply Rmult_eq_reg_r with (r := IZR (Zpos (Qden (fst t))) * IZR s); [|nra].
    transitivity (IZR (Qnum (fst t)) * IZR s); [field; auto|]. rewrite V. field. auto.
Qed.

Lemma scale_terms_dim d s p z : scale_terms s p = Some z -> dim_ok d p -> dim_ok d z.
Proof.
  revert z. induction p as [|t p IH]; cbn; intros z H Hp.
  - injection H as <-. constructor.
  - inversion_clear Hp as [|? ? Ht Hp']. unfold scale_term in H.
    destruct (_ =? 0)%Z; [|discriminate].
    destruct (scale_terms s p) as [zs|]; [|discriminate]. injection H as <-.
    constructor; [exact Ht|]. apply IH; auto.
Qed.

Theorem zterms_correct s d f z :
  s <> 0%Z -> zterms s d f = Some z ->
  dim_ok d z /\ forall x, length x = d -> evalR f x = evalP (zToR s z) x.
Proof.
  unfold zterms. intros Hs. destruct (terms d f) as [p|] eqn:E; [|discriminate]. intros H. split.
  - eapply scale_terms_dim; eauto. eapply terms_dim; eauto.
  - intros x Hx. rewrite (terms_correct d f p x E Hx). rewrite (scale_terms_toR s p z Hs H). reflexivity.
Qed.
