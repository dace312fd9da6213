(** * C112, C50: rounding on rational numbers; the FLASH reader on doubles *)
From Coq Require Import List ZArith QArith Qround Qminmax Qreals Reals Bool Lia Lra Psatz.
From Flocq Require Import Core.
From Verif Require Import Prelude PreludeFacts Float_Model Float_Props Flash_Model Flash_Props FloatQ_Model.
Import ListNotations.

Lemma Q2R_inject z : Q2R (inject_Z z) = IZR z.
Proof. unfold Q2R, inject_Z. cbn. field. Qed.

Lemma Q2R_qpow e : Q2R (qpow e) = bpow radix2 e.
Proof.
  unfold qpow. destruct (Z.ltb_spec e 0) as [H|H].
  - rewrite Q2R_inv, Q2R_inject.
    + change 2%Z with (radix_val radix2). rewrite IZR_Zpower by lia. rewrite <- bpow_opp. f_equal. lia.
    + intros C. assert (E : inject_Z (2 ^ (- e)) == inject_Z 0) by exact C. rewrite inject_Z_injective in E.
      pose proof (Z.pow_pos_nonneg 2 (- e)). lia.
  - rewrite Q2R_inject. change 2%Z with (radix_val radix2). now rewrite IZR_Zpower.
Qed.

Lemma Qfloor_Zfloor q : Zfloor (Q2R q) = Qfloor q.
Proof.
  apply Zfloor_imp. pose proof (Qfloor_le q) as A. pose proof (Qlt_floor q) as B.
  apply Qle_Rle in A. apply Qlt_Rlt in B. rewrite !Q2R_inject in *. now split.
Qed.

Lemma qnear_spec q : ZnearestE (Q2R q) = qnear q.
Proof.
  unfold ZnearestE, Znearest, qnear. rewrite Qfloor_Zfloor.
  assert (D : (Q2R q - IZR (Qfloor q) = Q2R (q - inject_Z (Qfloor q)))%R) by (rewrite Q2R_minus, Q2R_inject; reflexivity).
  assert (Hf : (/ 2 = Q2R (1 # 2))%R) by (unfold Q2R; cbn; lra).
  rewrite D, Hf.
  assert (Ce : ~ (q == inject_Z (Qfloor q))%Q -> Zceil (Q2R q) = (Qfloor q + 1)%Z).
  { intros N. rewrite Zceil_floor_neq; rewrite Qfloor_Zfloor; [reflexivity|]. intros C. apply N. apply eqR_Qeq. now rewrite Q2R_inject. }
  destruct (Qcompare_spec (q - inject_Z (Qfloor q)) (1 # 2)) as [E|E|E].
  - rewrite Rcompare_Eq by now apply Qeq_eqR. cbn. destruct (Z.even (Qfloor q)); [reflexivity|]. apply Ce. intros C. rewrite C in E at 1.
    unfold Qminus in E. rewrite Qplus_opp_r in E. discriminate.
  - rewrite Rcompare_Lt by now apply Qlt_Rlt. reflexivity.
  - rewrite Rcompare_Gt by now apply Qlt_Rlt. apply Ce. intros C. rewrite C in E at 1.
    unfold Qminus in E. rewrite Qplus_opp_r in E. discriminate.
Qed.

Lemma log2_between n : (0 < n)%Z -> (bpow radix2 (Z.log2 n) <= IZR n < bpow radix2 (Z.log2 n + 1))%R.
Proof.
  intros H. pose proof (Z.log2_spec n H) as S. pose proof (Z.log2_nonneg n) as L.
  rewrite <- !IZR_Zpower by lia. change (radix_val radix2) with 2%Z. split; [apply IZR_le|apply IZR_lt]; lia.
Qed.

Lemma qmag_spec q : Qnum q <> 0%Z -> mag_val radix2 (Q2R q) (mag radix2 (Q2R q)) = qmag q.
Proof.
  intros H. apply mag_unique. unfold qmag, Q2R.
  set (n := Z.abs (Qnum q)). set (d := Z.pos (Qden q)). set (k := (Z.log2 n - Z.log2 d)%Z).
  assert (N : (0 < n)%Z) by (subst n; lia). assert (D : (0 < d)%Z) by (subst d; lia).
  pose proof (log2_between n N) as [N1 N2]. pose proof (log2_between d D) as [D1 D2].
  assert (Dr : (0 < IZR d)%R) by (apply IZR_lt; lia).
  assert (A : Rabs (IZR (Qnum q) * / IZR d) = (IZR n / IZR d)%R).
  { rewrite Rabs_mult, <- abs_IZR. rewrite (Rabs_pos_eq (/ IZR d)); [reflexivity|]. left. now apply Rinv_0_lt_compat. }
  rewrite A.
  assert (Up : (IZR n / IZR d < bpow radix2 (k + 1))%R).
  { apply Rmult_lt_reg_r with (IZR d); [exact Dr|]. unfold Rdiv. rewrite Rmult_assoc, Rinv_l, Rmult_1_r by lra.
    apply Rlt_le_trans with (1 := N2). apply Rle_trans with (bpow radix2 (k + 1) * bpow radix2 (Z.log2 d))%R.
    - rewrite <- bpow_plus. apply bpow_le. subst k. lia.
    - apply Rmult_le_compat_l; [apply bpow_ge_0|exact D1]. }
  assert (Lo : (bpow radix2 (k - 1) <= IZR n / IZR d)%R).
  { apply Rmult_le_reg_r with (IZR d); [exact Dr|]. unfold Rdiv. rewrite Rmult_assoc, Rinv_l, Rmult_1_r by lra.
    apply Rle_trans with (2 := N1). apply Rle_trans with (bpow radix2 (k - 1) * bpow radix2 (Z.log2 d + 1))%R.
    - apply Rmult_le_compat_l; [apply bpow_ge_0|lra].
    - rewrite <- bpow_plus. apply bpow_le. subst k. lia. }
  set (c := if (k <? 0)%Z then (d <=? n * 2 ^ (- k))%Z else (d * 2 ^ k <=? n)%Z).
  assert (C : if c then (bpow radix2 k <= IZR n / IZR d)%R else (IZR n / IZR d < bpow radix2 k)%R).
  { assert (M : (bpow radix2 k * IZR d <= IZR n <-> bpow radix2 k <= IZR n / IZR d)%R).
    { split; intros G.
      - apply Rmult_le_reg_r with (IZR d); [exact Dr|]. unfold Rdiv. rewrite Rmult_assoc, Rinv_l, Rmult_1_r by lra. exact G.
      - apply Rmult_le_compat_r with (r := IZR d) in G; [|lra]. unfold Rdiv in G. rewrite Rmult_assoc, Rinv_l, Rmult_1_r in G by lra. exact G. }
    assert (E : c = true <-> (bpow radix2 k * IZR d <= IZR n)%R).
    { subst c. destruct (Z.ltb_spec k 0) as [K|K].
      - rewrite Z.leb_le. assert (P : (0 < bpow radix2 (- k))%R) by apply bpow_gt_0.
        assert (I : (bpow radix2 k * bpow radix2 (- k) = 1)%R) by (rewrite <- bpow_plus; replace (k + - k)%Z with 0%Z by lia; reflexivity).
        assert (W : IZR (2 ^ (- k)) = bpow radix2 (- k)) by (change 2%Z with (radix_val radix2); apply IZR_Zpower; lia).
        split; intros G.
        + apply IZR_le in G. rewrite mult_IZR, W in G. apply Rmult_le_compat_l with (r := bpow radix2 k) in G; [|apply bpow_ge_0].
          assert (X : (bpow radix2 k * (IZR n * bpow radix2 (- k)) = IZR n * (bpow radix2 k * bpow radix2 (- k)))%R) by ring.
          rewrite X, I in G. lra.
        + apply le_IZR. rewrite mult_IZR, W. apply Rmult_le_compat_r with (r := bpow radix2 (- k)) in G; [|lra].
          assert (X : (bpow radix2 k * IZR d * bpow radix2 (- k) = IZR d * (bpow radix2 k * bpow radix2 (- k)))%R) by ring.
          rewrite X, I in G. lra.
      - rewrite Z.leb_le. assert (W : IZR (2 ^ k) = bpow radix2 k) by (change 2%Z with (radix_val radix2); apply IZR_Zpower; lia).
        split; intros G.
        + apply IZR_le in G. rewrite mult_IZR, W in G. lra.
        + apply le_IZR. rewrite mult_IZR, W. lra. }
    destruct c.
    - apply M, E. reflexivity.
    - apply Rnot_le_lt. intros G. apply M, E in G. discriminate. }
  destruct c; [replace (k + 1 - 1)%Z with k by lia|]; split; assumption.
Qed.

(** [qfl] is the rounding of the binary64 format. *)
Theorem C112_rounding q : Q2R (qfl q) = fl (Q2R q).
Proof.
  unfold qfl. destruct (Z.eqb_spec (Qnum q) 0) as [E|E].
  - assert (Z0 : Q2R q = 0%R) by (unfold Q2R; rewrite E; ring). rewrite Z0. unfold fl. rewrite round_0 by apply valid_rnd_N. unfold Q2R; cbn; ring.
  - rewrite Q2R_mult, Q2R_inject, Q2R_qpow. unfold fl, round, F2R, scaled_mantissa, cexp. cbn [Fnum Fexp].
    rewrite (qmag_spec q E). unfold FLT_exp. set (e := Z.max _ _).
    rewrite <- (Q2R_qpow (- e)), <- Q2R_mult, qnear_spec. reflexivity.
Qed.
Print Assumptions C112_rounding.

(** ** The FLASH reader on doubles (C50) *)

Lemma qfl_comp p q : (p == q)%Q -> (qfl p == qfl q)%Q.
Proof. intros H. apply eqR_Qeq. rewrite !C112_rounding. f_equal. now apply Qeq_eqR. Qed.

Lemma qpow_add a b : (qpow (a + b) == qpow a * qpow b)%Q.
Proof. apply eqR_Qeq. rewrite Q2R_mult, !Q2R_qpow. apply bpow_plus. Qed.

Lemma qpow_nz e : ~ (qpow e == 0)%Q.
Proof.
  intros C. apply Qeq_eqR in C. rewrite Q2R_qpow in C. pose proof (bpow_gt_0 radix2 e) as P. rewrite C in P. unfold Q2R in P; cbn in P. lra.
Qed.

(** [q] is a multiple of [2^e], at most [M] times. *)
Definition dyadic (M e : Z) (q : Q) : Prop := exists m, (Z.abs m <= M)%Z /\ (q == inject_Z m * qpow e)%Q.

Lemma dyadic_comp M e p q : (p == q)%Q -> dyadic M e p -> dyadic M e q.
Proof. intros E (m & B & H). exists m. split; [exact B|]. now rewrite <- E. Qed.
Lemma dyadic_add M N e p q : dyadic M e p -> dyadic N e q -> dyadic (M + N) e (p + q).
Proof.
  intros (m & B & H) (n & C & G). exists (m + n)%Z. split; [lia|]. rewrite H, G, inject_Z_plus. ring.
Qed.
Lemma dyadic_sub M N e p q : dyadic M e p -> dyadic N e q -> dyadic (M + N) e (p - q).
Proof.
  intros (m & B & H) (n & C & G). exists (m - n)%Z. split; [lia|]. rewrite H, G. unfold Z.sub, Qminus. rewrite inject_Z_plus, inject_Z_opp. ring.
Qed.
Lemma dyadic_mul M e k q : dyadic M e q -> dyadic M (e + k) (q * qpow k).
Proof. intros (m & B & H). exists m. split; [exact B|]. rewrite H, qpow_add. ring. Qed.
Lemma dyadic_div M e k q : dyadic M e q -> dyadic M (e - k) (q / qpow k).
Proof.
  intros (m & B & H). exists m. split; [exact B|]. rewrite H.
  assert (E : (qpow e == qpow (e - k) * qpow k)%Q) by (rewrite <- qpow_add; replace (e - k + k)%Z with e by lia; reflexivity).
  rewrite E. field. apply qpow_nz.
Qed.

Lemma dyadic_exact M e q : (M < 2 ^ 53)%Z -> (-1074 <= e)%Z -> dyadic M e q -> (qfl q == q)%Q.
Proof.
  intros Mb E (m & B & H). apply eqR_Qeq. rewrite C112_rounding. unfold fl. apply round_generic; [apply valid_rnd_N|].
  apply generic_format_FLT. exists (Float radix2 m e).
  - apply Qeq_eqR in H. rewrite H, Q2R_mult, Q2R_inject, Q2R_qpow. reflexivity.
  - cbn [Fnum]. change (radix2 ^ 53)%Z with (2 ^ 53)%Z. lia.
  - cbn [Fexp]. exact E.
Qed.

Lemma qmin_comp l l' a : Forall2 Qeq l l' -> qmin l = Ok a -> exists a', qmin l' = Ok a' /\ (a == a')%Q.
Proof.
  intros H. revert a. induction H as [|x y l l' E H IH]; intros a Ha; [discriminate|].
  destruct H as [|x2 y2 l l' E2 H].
  - cbn in Ha |- *. injection Ha as <-. eauto.
  - cbn [qmin] in Ha, IH |- *. apply bind_ok in Ha. destruct Ha as (b & Hb & Ha). destruct (IH b Hb) as (b' & -> & Eb).
    cbn [bind]. injection Ha as <-. eexists. split; [reflexivity|]. now rewrite E, Eb.
Qed.
Lemma qmax_comp l l' a : Forall2 Qeq l l' -> qmax l = Ok a -> exists a', qmax l' = Ok a' /\ (a == a')%Q.
Proof.
  intros H. revert a. induction H as [|x y l l' E H IH]; intros a Ha; [discriminate|].
  destruct H as [|x2 y2 l l' E2 H].
  - cbn in Ha |- *. injection Ha as <-. eauto.
  - cbn [qmax] in Ha, IH |- *. apply bind_ok in Ha. destruct Ha as (b & Hb & Ha). destruct (IH b Hb) as (b' & -> & Eb).
    cbn [bind]. injection Ha as <-. eexists. split; [reflexivity|]. now rewrite E, Eb.
Qed.

(** Numbers of one direction for which the reader's arithmetic is exact: centres and half
    sizes are multiples of [2^e] (at most [2^50] times), the smallest size is a power of two and
    so is the number of cells per block. *)
Definition binary_axis (e : Z) (nb : nat) (l : list (Q * Q)) : Prop :=
  (exists p, nb = 2 ^ p /\ p <= 100)%nat /\ (-900 <= e)%Z /\
  (forall c s, In (c, s) l -> dyadic (2 ^ 50) e c /\ dyadic (2 ^ 50) e (s / 2) /\ (0 < s)%Q) /\
  (exists k c s, In (c, s) l /\ (s == qpow k)%Q /\ forall c' s', In (c', s') l -> (s <= s')%Q).

Lemma qpow_nat p : (inject_Z (Z.of_nat (2 ^ p)) == qpow (Z.of_nat p))%Q.
Proof.
  unfold qpow. destruct (Z.ltb_spec (Z.of_nat p) 0) as [C|_]; [lia|]. rewrite Nat2Z.inj_pow. reflexivity.
Qed.

Lemma dex M e q : dyadic M e q -> (M <? 2 ^ 53)%Z = true -> (-1074 <= e)%Z -> (qfl q == q)%Q.
Proof. intros D L E. apply Z.ltb_lt in L. now apply (dyadic_exact M e). Qed.

Section Axis.
  Context {V : Type} (bx bsz : block V -> Q) (e : Z) (nb : nat) (bs : list (block V)).
  Context (H : binary_axis e nb (map (fun b => (bx b, bsz b)) bs)).

  Lemma axis_dyadic b : In b bs -> dyadic (2 ^ 50) e (bx b) /\ dyadic (2 ^ 50) e (bsz b / 2) /\ (0 < bsz b)%Q.
  Proof.
    intros I. destruct H as (_ & _ & A & _). apply A. apply in_map_iff. exists b. auto.
  Qed.

  Lemma edge_left b : In b bs -> (left_edge qfl (bx b) (bsz b) == bx b - bsz b / 2)%Q /\ dyadic (2 ^ 51) e (bx b - bsz b / 2).
  Proof.
    intros I. destruct (axis_dyadic b I) as (A & B & _). destruct H as (_ & E & _).
    assert (C : dyadic (2 ^ 51) e (bx b - bsz b / 2)) by (change (2 ^ 51)%Z with (2 ^ 50 + 2 ^ 50)%Z; now apply dyadic_sub).
    split; [|exact C]. unfold left_edge. pose proof (dex _ _ _ B eq_refl ltac:(lia)) as X.
    rewrite (qfl_comp _ (bx b - bsz b / 2)) by (now rewrite X). apply (dyadic_exact (2 ^ 51) e); [reflexivity|lia|exact C].
  Qed.
  Lemma edge_right b : In b bs -> (right_edge qfl (bx b) (bsz b) == bx b + bsz b / 2)%Q /\ dyadic (2 ^ 51) e (bx b + bsz b / 2).
  Proof.
    intros I. destruct (axis_dyadic b I) as (A & B & _). destruct H as (_ & E & _).
    assert (C : dyadic (2 ^ 51) e (bx b + bsz b / 2)) by (change (2 ^ 51)%Z with (2 ^ 50 + 2 ^ 50)%Z; now apply dyadic_add).
    split; [|exact C]. unfold right_edge. pose proof (dex _ _ _ B eq_refl ltac:(lia)) as X.
    rewrite (qfl_comp _ (bx b + bsz b / 2)) by (now rewrite X). apply (dyadic_exact (2 ^ 51) e); [reflexivity|lia|exact C].
  Qed.

  Context (r lo up : Q).
  Context (Hr : qmin (map bsz bs) = Ok r).
  Context (Hl : qmin (map (fun b => bx b - bsz b / 2)%Q bs) = Ok lo) (Hu : qmax (map (fun b => bx b + bsz b / 2)%Q bs) = Ok up).

  Lemma lo_dyadic : dyadic (2 ^ 51) e lo.
  Proof.
    apply qmin_spec in Hl. destruct Hl as ((x & Ix & Ex) & _). apply in_map_iff in Ix. destruct Ix as (b & <- & I).
    apply (dyadic_comp _ _ _ _ Ex). now apply edge_left.
  Qed.
  Lemma up_dyadic : dyadic (2 ^ 51) e up.
  Proof.
    apply qmax_spec in Hu. destruct Hu as ((x & Ix & Ex) & _). apply in_map_iff in Ix. destruct Ix as (b & <- & I).
    apply (dyadic_comp _ _ _ _ Ex). now apply edge_right.
  Qed.

  Lemma smallest_power : exists k, (r == qpow k)%Q /\ (e + 1 <= k <= e + 51)%Z.
  Proof.
    destruct H as (_ & _ & A & (k & c & s & I & Es & M)). exists k.
    assert (Er : (r == s)%Q).
    { apply (qmin_unique _ _ _ Hr). apply in_map_iff in I. destruct I as (b & E & I). injection E as E1 E2. split.
      - exists s. split; [|reflexivity]. apply in_map_iff. exists b. auto.
      - intros x Ix. apply in_map_iff in Ix. destruct Ix as (b' & <- & I'). apply (M (bx b')). apply in_map_iff. exists b'. auto. }
    split; [now rewrite Er|]. destruct (A c s I) as (_ & (m & B & E) & P).
    assert (Er2 : (qpow k == inject_Z (2 * m) * qpow e)%Q).
    { rewrite <- Es. rewrite inject_Z_mult. change (inject_Z 2) with 2%Q. rewrite <- Qmult_assoc, <- E. field. }
    apply Qeq_eqR in Er2. rewrite Q2R_mult, Q2R_inject, !Q2R_qpow in Er2.
    assert (Mp : (0 < m)%Z).
    { apply Qeq_eqR in E. apply Qlt_Rlt in P. rewrite Q2R_mult, Q2R_inject, Q2R_qpow in E.
      assert (X : (Q2R (s / 2) = Q2R s / 2)%R) by (unfold Qdiv; rewrite Q2R_mult; unfold Q2R at 2; cbn; lra).
      pose proof (bpow_gt_0 radix2 e) as W. apply lt_IZR. unfold Q2R at 1 in P; cbn in P.
      destruct (Rlt_le_dec 0 (IZR m)) as [G|G]; [exact G|]. exfalso. nra. }
    assert (L1 : (bpow radix2 e < bpow radix2 k)%R).
    { rewrite Er2, mult_IZR. assert (1 <= IZR m)%R by (apply IZR_le; lia). pose proof (bpow_gt_0 radix2 e) as W. nra. }
    assert (L2 : (bpow radix2 k <= bpow radix2 (e + 51))%R).
    { rewrite Er2, bpow_plus, (Rmult_comm (bpow radix2 e)). apply Rmult_le_compat_r; [apply bpow_ge_0|].
      change (bpow radix2 51) with (IZR (2 ^ 51)). apply IZR_le. lia. }
    apply lt_bpow in L1. apply le_bpow in L2. lia.
  Qed.

  Lemma first_exact b lo' : In b bs -> (lo' == lo)%Q ->
    first_cell qfl lo' r nb (bx b) (bsz b) = Qfloor ((bx b - bsz b / 2 - lo) / r * inject_Z (Z.of_nat nb)).
  Proof.
    intros I El. unfold first_cell. apply Qfloor_comp.
    destruct (edge_left b I) as [X Y]. destruct smallest_power as (k & Ek & K). destruct H as ((p & Pn & P) & E & _).
    assert (N : (inject_Z (Z.of_nat nb) == qpow (Z.of_nat p))%Q) by (rewrite Pn; apply qpow_nat).
    assert (D1 : dyadic (2 ^ 52) e (bx b - bsz b / 2 - lo)) by (change (2 ^ 52)%Z with (2 ^ 51 + 2 ^ 51)%Z; apply dyadic_sub; [exact Y|exact lo_dyadic]).
    assert (D2 : dyadic (2 ^ 52) (e - k) ((bx b - bsz b / 2 - lo) / r)).
    { eapply dyadic_comp; [|apply dyadic_div, D1]. now rewrite Ek. }
    assert (D3 : dyadic (2 ^ 52) (e - k + Z.of_nat p) ((bx b - bsz b / 2 - lo) / r * inject_Z (Z.of_nat nb))).
    { eapply dyadic_comp; [|apply dyadic_mul, D2]. now rewrite N. }
    pose proof (dex _ _ _ D1 eq_refl ltac:(lia)) as F1.
    pose proof (dex _ _ _ D2 eq_refl ltac:(lia)) as F2.
    pose proof (dex _ _ _ D3 eq_refl ltac:(lia)) as F3.
    assert (G1 : (qfl (left_edge qfl (bx b) (bsz b) - lo') == bx b - bsz b / 2 - lo)%Q).
    { rewrite (qfl_comp _ (bx b - bsz b / 2 - lo)); [exact F1|]. now rewrite X, El. }
    assert (G2 : (qfl (qfl (left_edge qfl (bx b) (bsz b) - lo') / r) == (bx b - bsz b / 2 - lo) / r)%Q).
    { rewrite (qfl_comp _ ((bx b - bsz b / 2 - lo) / r)); [exact F2|]. now rewrite G1. }
    rewrite (qfl_comp _ ((bx b - bsz b / 2 - lo) / r * inject_Z (Z.of_nat nb))); [exact F3|]. now rewrite G2.
  Qed.

  Lemma cells_exact lo' up' : (lo' == lo)%Q -> (up' == up)%Q ->
    num_cells qfl lo' up' r nb = Qfloor ((up - lo) / (r / inject_Z (Z.of_nat nb))).
  Proof.
    intros El Eu. unfold num_cells. apply Qfloor_comp.
    destruct smallest_power as (k & Ek & K). destruct H as ((p & Pn & P) & E & _).
    assert (N : (inject_Z (Z.of_nat nb) == qpow (Z.of_nat p))%Q) by (rewrite Pn; apply qpow_nat).
    assert (D1 : dyadic (2 ^ 52) e (up - lo)) by (change (2 ^ 52)%Z with (2 ^ 51 + 2 ^ 51)%Z; apply dyadic_sub; [exact up_dyadic|exact lo_dyadic]).
    assert (Ew : (r / inject_Z (Z.of_nat nb) == qpow (k - Z.of_nat p))%Q).
    { rewrite Ek, N. assert (S0 : (qpow k == qpow (k - Z.of_nat p) * qpow (Z.of_nat p))%Q).
      { rewrite <- qpow_add. replace (k - Z.of_nat p + Z.of_nat p)%Z with k by lia. reflexivity. }
      rewrite S0. field. apply qpow_nz. }
    assert (D2 : dyadic 1 (k - Z.of_nat p) (r / inject_Z (Z.of_nat nb))).
    { exists 1%Z. split; [lia|]. rewrite Ew. change (inject_Z 1) with 1%Q. ring. }
    assert (D3 : dyadic (2 ^ 52) (e - (k - Z.of_nat p)) ((up - lo) / (r / inject_Z (Z.of_nat nb)))).
    { eapply dyadic_comp; [|apply dyadic_div, D1]. now rewrite Ew. }
    pose proof (dex _ _ _ D1 eq_refl ltac:(lia)) as F1.
    pose proof (dex _ _ _ D2 eq_refl ltac:(lia)) as F2.
    pose proof (dex _ _ _ D3 eq_refl ltac:(lia)) as F3.
    assert (G1 : (qfl (up' - lo') == up - lo)%Q) by (rewrite (qfl_comp _ (up - lo)); [exact F1|]; now rewrite El, Eu).
    rewrite (qfl_comp _ ((up - lo) / (r / inject_Z (Z.of_nat nb)))); [exact F3|]. now rewrite G1, F2.
  Qed.

  Lemma mult_exact b : In b bs -> Qceiling (qfl (bsz b / r)) = Qceiling (bsz b / r).
  Proof.
    intros I. apply Qceiling_comp. destruct smallest_power as (k & Ek & K). destruct (axis_dyadic b I) as (_ & B & _).
    destruct H as (_ & E & _).
    assert (D : dyadic (2 ^ 50) (e + 1) (bsz b)).
    { eapply dyadic_comp; [|apply (dyadic_mul _ _ 1), B]. change (qpow 1) with (inject_Z (2 ^ 1)). change (inject_Z (2 ^ 1)) with 2%Q. field. }
    apply (dyadic_exact (2 ^ 50) (e + 1 - k)); [reflexivity|lia|]. eapply dyadic_comp; [|apply dyadic_div, D]. now rewrite Ek.
  Qed.
End Axis.

(** For such numbers the reader computes on doubles exactly what C50 is about. *)
Theorem C50_binary {V} (zero : V) ex ey nxb nyb (bs : list (block V)) f :
  binary_axis ex nxb (map (fun b => (b_x b, b_sx b)) bs) -> binary_axis ey nyb (map (fun b => (b_y b, b_sy b)) bs) ->
  read_frame zero nxb nyb bs = Ok f ->
  exists g, read_doubles zero nxb nyb bs = Ok g /\ f_nx g = f_nx f /\ f_ny g = f_ny f /\
    (fst (f_lo g) == fst (f_lo f) /\ snd (f_lo g) == snd (f_lo f) /\ fst (f_hi g) == fst (f_hi f) /\ snd (f_hi g) == snd (f_hi f))%Q /\
    forall k l, f_at g k l = f_at f k l.
Proof.
  intros Hx Hy R. unfold read_frame in R.
  apply bind_ok in R. destruct R as (rx & Rx & R). apply bind_ok in R. destruct R as (ry & Ry & R).
  apply bind_ok in R. destruct R as (lx & Lx & R). apply bind_ok in R. destruct R as (ly & Ly & R).
  apply bind_ok in R. destruct R as (ux & Ux & R). apply bind_ok in R. destruct R as (uy & Uy & R).
  assert (Fm : forall (f g : block V -> Q), (forall b, In b bs -> (g b == f b)%Q) -> Forall2 Qeq (map f bs) (map g bs)).
  { intros f0 g0. clear. induction bs as [|b l IH]; intros Hfg; cbn [map]; constructor.
    - symmetry. apply Hfg. now left.
    - apply IH. intros b' I. apply Hfg. now right. }
  destruct (qmin_comp _ _ _ (Fm _ _ (fun b I => proj1 (edge_left b_x b_sx ex nxb bs Hx b I))) Lx) as (lx' & Lx' & Elx).
  destruct (qmin_comp _ _ _ (Fm _ _ (fun b I => proj1 (edge_left b_y b_sy ey nyb bs Hy b I))) Ly) as (ly' & Ly' & Ely).
  destruct (qmax_comp _ _ _ (Fm _ _ (fun b I => proj1 (edge_right b_x b_sx ex nxb bs Hx b I))) Ux) as (ux' & Ux' & Eux).
  destruct (qmax_comp _ _ _ (Fm _ _ (fun b I => proj1 (edge_right b_y b_sy ey nyb bs Hy b I))) Uy) as (uy' & Uy' & Euy).
  symmetry in Elx, Ely, Eux, Euy.
  unfold read_doubles, read_rounded. rewrite Rx, Ry, Lx', Ly', Ux', Uy'. cbn [bind].
  destruct (_ || _ || _ || _); [discriminate|].
  rewrite (cells_exact b_x b_sx ex nxb bs Hx rx lx ux Rx Lx Ux lx' ux' Elx Eux).
  rewrite (cells_exact b_y b_sy ey nyb bs Hy ry ly uy Ry Ly Uy ly' uy' Ely Euy).
  destruct (_ || _); [discriminate|]. injection R as <-.
  eexists. split; [reflexivity|]. cbn [f_nx f_ny f_lo f_hi f_at fst snd]. split; [reflexivity|]. split; [reflexivity|]. split; [repeat split; assumption|].
  intros k l. match goal with |- ?a k l = ?b k l => enough (X : a = b) by now rewrite X end.
  set (nx := Qfloor _). set (ny := Qfloor _).
  assert (P : forall b m, In b bs -> paint_rounded qfl nxb nyb nx ny lx' ly' rx ry m b = paint_block nxb nyb nx ny lx ly rx ry m b).
  { intros b m I. unfold paint_rounded, paint_block. destruct (b_type b =? 1)%Z; [|reflexivity].
    rewrite (mult_exact b_x b_sx ex nxb bs Hx rx Rx b I), (mult_exact b_y b_sy ey nyb bs Hy ry Ry b I).
    rewrite (first_exact b_x b_sx ex nxb bs Hx rx lx Rx Lx b lx' I Elx), (first_exact b_y b_sy ey nyb bs Hy ry ly Ry Ly b ly' I Ely).
    reflexivity. }
  clear -P. generalize (fun _ _ : Z => zero) as m0. induction bs as [|b l IH]; intros m; [reflexivity|].
  cbn [fold_left]. rewrite (P b m) by now left. apply IH. intros b' m' I. apply P. now right.
Qed.
Print Assumptions C50_binary.

(** From 2^53 on the quotient may be rounded up to the next integer. *)
Theorem C112_quotient_refuted : exists a b q, (0 <= a <= 2 ^ 54 /\ 1 <= b <= 2)%Z /\ int_floor_div a b = Ok q /\ (a < b * q)%Z.
Proof.
  exists (2 ^ 54 - 1)%Z, 2%Z, (2 ^ 53)%Z. split; [lia|]. split; [|lia]. unfold int_floor_div, f_div. change (2 =? 0)%Z with false. cbv iota.
  replace (IZR (2 ^ 54 - 1) / IZR 2)%R with (Q2R (18014398509481983 # 2)) by (unfold Q2R; cbn [Qnum Qden]; reflexivity).
  rewrite <- C112_rounding. assert (E : (qfl (18014398509481983 # 2) == inject_Z (2 ^ 53))%Q) by (vm_compute; reflexivity).
  apply Qeq_eqR in E. rewrite E, Q2R_inject. f_equal. apply Zfloor_IZR.
Qed.

(** [n] square blocks of size [s] side by side, the table in doubles or not. *)
Definition block_row (rnd : Q -> Q) (n : nat) (s : Q) : list (block nat) :=
  map (fun i => mk_block (rnd (inject_Z (2 * Z.of_nat i + 1) * (s / 2)))%Q (1 # 2) (rnd s) 1 1 (fun _ _ => i)) (seq 0 n).

(** Blocks of sizes that are no binary fractions are lost or misplaced: of five blocks of size
    1/5 the first and third are overwritten by their neighbours, of three blocks of size 1/10
    one has no cell of the mesh. Neither happens in exact arithmetic. *)
Theorem C50_rounding_refuted :
  (exists f, read_frame 9%nat 1 1 (block_row (fun q => q) 5 (1 # 5)) = Ok f /\ f_nx f = 5%Z /\
     map (fun k => f_at f k 0%Z) [0; 1; 2; 3; 4]%Z = [0; 1; 2; 3; 4]%nat) /\
  (exists f, read_doubles 9%nat 1 1 (block_row qfl 5 (1 # 5)) = Ok f /\ f_nx f = 5%Z /\
     map (fun k => f_at f k 0%Z) [0; 1; 2; 3; 4]%Z = [1; 1; 3; 3; 4]%nat) /\
  (exists f, read_frame 9%nat 1 1 (block_row (fun q => q) 3 (1 # 10)) = Ok f /\ f_nx f = 3%Z) /\
  (exists f, read_doubles 9%nat 1 1 (block_row qfl 3 (1 # 10)) = Ok f /\ f_nx f = 2%Z).
Proof.
  repeat split; (eexists; split; [vm_compute; reflexivity|]; repeat split; vm_compute; reflexivity).
Qed.

(** Concrete inputs meeting the hypotheses: sizes of 1/4. *)
Example C50_binary_ex :
  binary_axis (-3) 4 (map (fun b => (b_x b, b_sx b)) (block_row qfl 3 (1 # 4))) /\
  binary_axis (-3) 4 (map (fun b => (b_y b, b_sy b)) (block_row qfl 3 (1 # 4))) /\
  exists f, read_frame 9%nat 4 4 (block_row qfl 3 (1 # 4)) = Ok f /\ f_nx f = 12%Z.
Proof.
  split; [|split].
  - split; [exists 2%nat; split; [reflexivity|lia]|]. split; [lia|]. split.
    + intros c s [[= <- <-]|[[= <- <-]|[[= <- <-]|[]]]]; repeat split;
      [exists 1%Z|exists 1%Z|exists 3%Z|exists 1%Z|exists 5%Z|exists 1%Z]; split; (lia || reflexivity).
    + exists (-2)%Z. eexists _, _. split; [left; reflexivity|]. split; [reflexivity|].
      intros c s [[= <- <-]|[[= <- <-]|[[= <- <-]|[]]]]; vm_compute; discriminate.
  - split; [exists 2%nat; split; [reflexivity|lia]|]. split; [lia|]. split.
    + intros c s [[= <- <-]|[[= <- <-]|[[= <- <-]|[]]]]; repeat split;
      [exists 4%Z|exists 4%Z|exists 4%Z|exists 4%Z|exists 4%Z|exists 4%Z]; split; (lia || reflexivity).
    + exists 0%Z. eexists _, _. split; [left; reflexivity|]. split; [reflexivity|].
      intros c s [[= <- <-]|[[= <- <-]|[[= <- <-]|[]]]]; vm_compute; discriminate.
  - eexists. split; [vm_compute; reflexivity|]. vm_compute. reflexivity.
Qed.
Print Assumptions C112_rounding.
Print Assumptions C112_quotient_refuted.
Print Assumptions C50_rounding_refuted.
