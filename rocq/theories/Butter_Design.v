(** * The design of the Butterworth filter and its response *)
From Coq Require Import List Arith ZArith Bool Lia Reals Lra Permutation.
From Coquelicot Require Import Complex.
From Verif Require Import Prelude PreludeFacts Fft_Model Butter_Model Butter_Proofs.
Import ListNotations.
Open Scope list_scope.
Open Scope nat_scope.
Open Scope R_scope.
Open Scope C_scope.

(** ** Complex numbers *)

Lemma conj_plus x y : Cconj (x + y) = Cconj x + Cconj y.
Proof. unfold Cconj, Cplus. apply injective_projections; cbn; ring. Qed.
Lemma conj_mult x y : Cconj (x * y) = Cconj x * Cconj y.
Proof. unfold Cconj, Cmult. apply injective_projections; cbn; ring. Qed.
Lemma conj_minus x y : Cconj (x - y) = Cconj x - Cconj y.
Proof. unfold Cconj, Cminus, Cplus, Copp. apply injective_projections; cbn; ring. Qed.
Lemma conj_inv x : Cconj (/ x) = / Cconj x.
Proof. unfold Cconj, Cinv. apply injective_projections; cbn; replace (- snd x * (- snd x * 1))%R with (snd x * (snd x * 1))%R by ring; unfold Rdiv; ring. Qed.
Lemma conj_R x : Cconj (RtoC x) = RtoC x.
Proof. unfold Cconj, RtoC. apply injective_projections; cbn; ring. Qed.
Lemma conj_cis t : Cconj (cis t) = cis (- t).
Proof. unfold Cconj, cis. cbn. now rewrite cos_neg, sin_neg. Qed.
Lemma cis_plus s t : cis (s + t) = cis s * cis t.
Proof. unfold cis, Cmult. cbn. rewrite cos_plus, sin_plus. f_equal; ring. Qed.
Lemma cis_0 : cis 0 = 1.
Proof. unfold cis, RtoC. now rewrite cos_0, sin_0. Qed.
Lemma cis_opp t : cis t * cis (- t) = 1.
Proof. rewrite <- cis_plus, Rplus_opp_r. exact cis_0. Qed.
Lemma cpow_cis t n : cpow (cis t) n = cis (INR n * t).
Proof. induction n as [|n IH]; [cbn; rewrite Rmult_0_l; now rewrite cis_0|]. cbn [cpow]. rewrite IH, <- cis_plus. f_equal. rewrite S_INR. ring. Qed.
Lemma sum_conj z : z + Cconj z = RtoC (2 * Re z).
Proof. unfold Cconj, Cplus, RtoC, Re. apply injective_projections; cbn; ring. Qed.
Lemma cmod_sq z : (Cmod z * Cmod z = fst z * fst z + snd z * snd z)%R.
Proof. unfold Cmod. rewrite sqrt_sqrt; [ring|]. pose proof (Rle_0_sqr (fst z)). pose proof (Rle_0_sqr (snd z)). unfold Rsqr in *. cbn. lra. Qed.

Lemma polar z : exists t, z = RtoC (Cmod z) * cis t.
Proof.
  destruct (Ceq_dec z 0) as [->|N]. { exists 0%R. rewrite Cmod_0. ring. }
  apply Cmod_gt_0 in N. pose proof (cmod_sq z) as E. destruct z as (x, y). cbn [fst snd] in E. set (m := Cmod (x, y)) in *.
  assert (B : (-1 <= x / m <= 1)%R).
  { assert (x * x <= m * m)%R by nra. assert (- m <= x <= m)%R by (split; nra).
    split; apply (Rmult_le_reg_r m); try lra; unfold Rdiv; rewrite Rmult_assoc, Rinv_l by lra; lra. }
  assert (Q : (1 - Rsqr (x / m) = Rsqr (y / m))%R). { unfold Rsqr. apply (Rmult_eq_reg_r (m * m)); [|nra]. field_simplify; [|lra|lra]. cbn. rewrite <- !Rmult_assoc, !Rmult_1_r. lra. }
  destruct (Rle_dec 0 y) as [P|P].
  - exists (acos (x / m)). unfold cis, Cmult, RtoC. rewrite cos_acos by exact B. rewrite sin_acos by exact B. rewrite Q, sqrt_Rsqr by (apply Rmult_le_pos; [exact P|apply Rlt_le, Rinv_0_lt_compat, N]). cbn. f_equal; field; lra.
  - exists (- acos (x / m))%R. unfold cis, Cmult, RtoC. rewrite cos_neg, sin_neg. rewrite cos_acos by exact B. rewrite sin_acos by exact B.
    rewrite Q, Rsqr_neg. rewrite sqrt_Rsqr by (rewrite Ropp_div || idtac; unfold Rdiv; rewrite <- Ropp_mult_distr_l_reverse; apply Rmult_le_pos; [lra|apply Rlt_le, Rinv_0_lt_compat, N]). cbn. f_equal; field; lra.
Qed.

Lemma ev_real_conj l z : ev (List.map RtoC l) (Cconj z) = Cconj (ev (List.map RtoC l) z).
Proof. induction l as [|c l IH]; cbn [List.map ev]; [now rewrite conj_R|]. now rewrite conj_plus, conj_mult, conj_R, IH. Qed.

(** ** The design *)

Lemma C1_nz : RtoC 1 <> 0.
Proof. intros E. apply (f_equal Re) in E. cbn in E. lra. Qed.

Lemma cprod_cons z l : cprod (z :: l) = z * cprod l.
Proof. reflexivity. Qed.

Section Design.
  Context (W : R) (HW : (0 < W)%R).
  Definition poles : list C := List.map (Cmult (RtoC W)) (prototype 6).
  Definition Q (s : C) : C := cprod (List.map (fun q => s - q) poles).
  Definition pz : list C := List.map (fun q => (4 + q) / (4 - q)) poles.

  Definition ang (m : R) : R := (PI * m / 12)%R.

  Lemma poles_list : poles = List.map (fun m => - (RtoC W * cis (ang m))) [-5; -3; -1; 1; 3; 5]%R.
  Proof using Type.
    unfold poles, prototype, ang. cbn [seq List.map].
    assert (E : forall m : Z, (PI * IZR m / (2 * INR 6) = PI * IZR m / 12)%R). { intros m. replace (2 * INR 6)%R with 12%R by (cbn; ring). reflexivity. }
    rewrite !E. change (2 * Z.of_nat 0 + 1 - Z.of_nat 6)%Z with (-5)%Z. change (2 * Z.of_nat 1 + 1 - Z.of_nat 6)%Z with (-3)%Z. change (2 * Z.of_nat 2 + 1 - Z.of_nat 6)%Z with (-1)%Z. change (2 * Z.of_nat 3 + 1 - Z.of_nat 6)%Z with (1)%Z. change (2 * Z.of_nat 4 + 1 - Z.of_nat 6)%Z with (3)%Z. change (2 * Z.of_nat 5 + 1 - Z.of_nat 6)%Z with (5)%Z.
    do 5 (f_equal; [ring|]). f_equal. ring.
  Qed.

  (** One pair of conjugate poles. *)
  Definition pair (m : R) (s : C) : C := s * s + 2 * RtoC W * RtoC (cos (ang m)) * s + RtoC W * RtoC W.

  Lemma pair_eq m s : (s - - (RtoC W * cis (ang (- m)))) * (s - - (RtoC W * cis (ang m))) = pair m s.
  Proof using Type.
    replace (ang (- m)) with (- ang m)%R by (unfold ang; field). unfold pair.
    replace ((s - - (RtoC W * cis (- ang m))) * (s - - (RtoC W * cis (ang m)))) with (s * s + RtoC W * (cis (ang m) + cis (- ang m)) * s + RtoC W * RtoC W * (cis (ang m) * cis (- ang m))) by ring.
    rewrite cis_opp, <- conj_cis, sum_conj. unfold Re, cis. cbn [fst]. rewrite RtoC_mult. ring.
  Qed.

  Lemma Q_pairs s : Q s = pair 1 s * pair 3 s * pair 5 s.
  Proof using Type.
    unfold Q. rewrite poles_list. rewrite <- !pair_eq.
    replace (- (1))%R with (-1)%R by lra. replace (- (3))%R with (-3)%R by lra. replace (- (5))%R with (-5)%R by lra. cbn [List.map]. rewrite !cprod_cons. unfold cprod. cbn [fold_right]. ring.
  Qed.

  Lemma cos_ang_pos m : (-5 <= m <= 5)%R -> (0 < cos (ang m))%R.
  Proof using Type. intros H. pose proof PI_RGT_0. apply cos_gt_0; unfold ang; nra. Qed.

  Lemma pair_real m t : (-5 <= m <= 5)%R -> (0 < t)%R -> exists v, pair m (RtoC t) = RtoC v /\ (0 < v)%R.
  Proof using HW.
    intros Hm Ht. pose proof (cos_ang_pos m Hm) as Hc. exists (t * t + 2 * W * cos (ang m) * t + W * W)%R. split.
    - unfold pair. now rewrite !RtoC_plus, !RtoC_mult.
    - assert (0 < W * cos (ang m))%R by (apply Rmult_lt_0_compat; assumption). nra.
  Qed.

  Lemma Q4 : exists v, Q 4 = RtoC v /\ (0 < v)%R.
  Proof using HW.
    rewrite Q_pairs. destruct (pair_real 1 4) as (v1 & -> & P1); [lra|lra|]. destruct (pair_real 3 4) as (v3 & -> & P3); [lra|lra|]. destruct (pair_real 5 4) as (v5 & -> & P5); [lra|lra|].
    exists (v1 * v3 * v5)%R. split; [now rewrite !RtoC_mult|]. now repeat apply Rmult_lt_0_compat.
  Qed.

  (** The gain of the analogue filter. *)
  Lemma Q_mod (o : R) : (Cmod (Q (Ci * RtoC o)%C) * Cmod (Q (Ci * RtoC o)%C) = W ^ 12 + o ^ 12)%R.
  Proof using Type.
    rewrite Q_pairs, !Cmod_mult.
    assert (P : forall m c2 : R, (2 * cos (ang m) * cos (ang m) - 1 = c2)%R -> (Cmod (pair m (Ci * RtoC o)%C) * Cmod (pair m (Ci * RtoC o)%C) = W ^ 4 + o ^ 4 + 2 * W ^ 2 * o ^ 2 * c2)%R).
    { intros m c2 <-. rewrite cmod_sq. unfold pair, Ci, RtoC, Cplus, Cmult. cbn. ring. }
    assert (C1 : (2 * cos (ang 1) * cos (ang 1) - 1 = sqrt 3 / 2)%R). { rewrite <- cos_2a_cos. replace (2 * ang 1)%R with (PI / 6)%R by (unfold ang; field). exact cos_PI6. }
    assert (C3 : (2 * cos (ang 3) * cos (ang 3) - 1 = 0)%R). { rewrite <- cos_2a_cos. replace (2 * ang 3)%R with (PI / 2)%R by (unfold ang; field). exact cos_PI2. }
    assert (C5 : (2 * cos (ang 5) * cos (ang 5) - 1 = - (sqrt 3 / 2))%R). { rewrite <- cos_2a_cos. replace (2 * ang 5)%R with (- (PI / 6) + PI)%R by (unfold ang; field). rewrite neg_cos, cos_neg. now rewrite cos_PI6. }
    pose proof (P _ _ C1) as P1. pose proof (P _ _ C3) as P3. pose proof (P _ _ C5) as P5.
    transitivity ((W ^ 4 + o ^ 4 + 2 * W ^ 2 * o ^ 2 * (sqrt 3 / 2)) * (W ^ 4 + o ^ 4 + 2 * W ^ 2 * o ^ 2 * 0) * (W ^ 4 + o ^ 4 + 2 * W ^ 2 * o ^ 2 * (- (sqrt 3 / 2))))%R.
    { rewrite <- P1, <- P3, <- P5. ring. }
    assert (S3 : (sqrt 3 * sqrt 3 = 3)%R) by (apply sqrt_sqrt; lra).
    transitivity ((W ^ 4 + o ^ 4) * ((W ^ 4 + o ^ 4) * (W ^ 4 + o ^ 4) - W ^ 4 * o ^ 4 * (sqrt 3 * sqrt 3)))%R; [field|]. rewrite S3. ring.
  Qed.

  (** The poles of the digital filter. *)
  Lemma pole_form q : In q poles -> exists m, (-5 <= m <= 5)%R /\ q = - (RtoC W * cis (ang m)).
  Proof using Type. rewrite poles_list. intros H. cbn in H. decompose [or] H; try contradiction; subst q; eexists; (split; [|reflexivity]); lra. Qed.

  Lemma pole_left q : In q poles -> (Re q < 0)%R.
  Proof using HW. intros H. destruct (pole_form q H) as (m & Hm & ->). pose proof (cos_ang_pos m Hm). unfold Re, RtoC, cis, Cmult, Copp. cbn. nra. Qed.

  Lemma sub_nz q : In q poles -> 4 - q <> 0.
  Proof using HW. intros H E. pose proof (pole_left q H) as L. apply (f_equal Re) in E. unfold Re, RtoC, Cminus, Cplus, Copp in *. cbn in *. lra. Qed.

  Lemma pz_small : Forall (fun r => (Cmod r < 1)%R) pz.
  Proof using HW.
    apply Forall_forall. intros r Hr. apply in_map_iff in Hr as (q & <- & Hq). pose proof (sub_nz q Hq) as Nz. pose proof (pole_left q Hq) as L.
    rewrite Cmod_div by exact Nz. apply Cmod_gt_0 in Nz. apply (Rmult_lt_reg_r (Cmod (4 - q))); [exact Nz|]. unfold Rdiv. rewrite Rmult_assoc, Rinv_l, Rmult_1_r, Rmult_1_l by lra.
    pose proof (cmod_sq (4 + q)) as A. pose proof (cmod_sq (4 - q)) as B. pose proof (Cmod_ge_0 (4 + q)). unfold Re in L. unfold Cminus, Cplus, Copp, RtoC in *. cbn in *. nra.
  Qed.

  Lemma pz_conj : Permutation (List.map Cconj pz) pz.
  Proof using Type.
    unfold pz. rewrite poles_list, !map_map.
    assert (E : forall m, Cconj ((4 + - (RtoC W * cis (ang m))) / (4 - - (RtoC W * cis (ang m)))) = (4 + - (RtoC W * cis (ang (- m)))) / (4 - - (RtoC W * cis (ang (- m))))).
    { intros m. unfold Cdiv. rewrite conj_mult, conj_inv, conj_plus, conj_minus, conj_R. replace (ang (- m)) with (- ang m)%R by (unfold ang; field). rewrite <- conj_cis.
      replace (Cconj (- (RtoC W * cis (ang m)))) with (- (RtoC W * Cconj (cis (ang m)))) by (unfold Cconj, Copp, Cmult, RtoC; apply injective_projections; cbn; ring). reflexivity. }
    cbn [List.map]. rewrite !E. replace (- (-5))%R with (5)%R by lra. replace (- (-3))%R with (3)%R by lra. replace (- (-1))%R with (1)%R by lra. replace (- (1))%R with (-1)%R by lra. replace (- (3))%R with (-3)%R by lra. replace (- (5))%R with (-5)%R by lra.
    match goal with |- Permutation [?a; ?b; ?c; ?d; ?e; ?f] _ => change (Permutation (rev [f; e; d; c; b; a]) [f; e; d; c; b; a]) end. symmetry. apply Permutation_rev.
  Qed.
End Design.

(** ** The coefficients *)

Section Coefficients.
  Context (W : R) (HW : (0 < W)%R).
  Definition kz : R := (W ^ 6 * Re (RtoC 1 / Q W 4)%C)%R.
  Definition bco : list R := List.map (fun c => kz * Re c)%R (poly (repeat (RtoC (-1)) 6)).
  Definition aco : list R := List.map Re (poly (pz W)).

  Lemma aco_C : List.map RtoC aco = poly (pz W).
  Proof using Type. apply poly_real, pz_conj. Qed.

  Lemma bco_C : List.map RtoC bco = List.map (Cmult (RtoC kz)) (poly (repeat (RtoC (-1)) 6)).
  Proof using Type.
    rewrite <- (poly_real (repeat (RtoC (-1)) 6)); [|cbn [repeat List.map]; rewrite conj_R; apply Permutation_refl].
    unfold bco. rewrite !map_map. apply map_ext. intros c. now rewrite RtoC_mult.
  Qed.

  Lemma aco_length : length aco = 7%nat.
  Proof using Type. unfold aco. rewrite map_length, poly_length. unfold pz, poles, prototype. now rewrite !map_length, seq_length. Qed.
  Lemma bco_length : length bco = 7%nat.
  Proof using Type. unfold bco. rewrite map_length, poly_length. now rewrite repeat_length. Qed.

  Lemma poly_head rs : nth 0 (poly rs) 0 = 1.
  Proof using Type.
    unfold poly. assert (G : forall acc, nth 0 acc (RtoC 0) = 1 -> nth 0 (fold_left conv1 rs acc) (RtoC 0) = 1); [|now apply G].
    induction rs as [|r rs IH]; intros acc H; [exact H|]. cbn [fold_left]. apply IH. rewrite conv1_nth, H. ring.
  Qed.

  Lemma aco_head : nth 0%nat aco 0%R = 1%R.
  Proof using Type.
    pose proof (poly_head (pz W)) as H. unfold aco. destruct (poly (pz W)) as [|c l] eqn:E; [pose proof (poly_length (pz W)) as L; rewrite E in L; discriminate|].
    cbn in *. now rewrite H.
  Qed.

  Lemma kz_Q : exists v, Q W 4 = RtoC v /\ (0 < v)%R /\ (kz * v = W ^ 6)%R.
  Proof using HW.
    destruct (Q4 W HW) as (v & E & P). exists v. split; [exact E|]. split; [exact P|]. unfold kz. rewrite E.
    replace (RtoC 1 / RtoC v) with (RtoC (/ v)) by (rewrite RtoC_inv by lra; unfold Cdiv; ring). cbn [Re fst RtoC]. field. lra.
  Qed.

  Definition lin (z q : C) : C := 4 * (1 - z) - q * (1 + z).

  Lemma ev_a z : ev (List.map RtoC aco) z * Q W 4 = cprod (List.map (lin z) (poles W)).
  Proof using HW.
    rewrite aco_C, ev_poly. unfold pz, Q. rewrite !map_map. pose proof (sub_nz W HW) as N. revert N. generalize (poles W). intros l N.
    induction l as [|q l IH]; [cbn; ring|]. cbn [List.map]. rewrite !cprod_cons. rewrite <- IH by (intros q' Hq'; apply N; right; exact Hq').
    unfold lin. specialize (N q (or_introl eq_refl)). field. exact N.
  Qed.

  Lemma ev_b z : ev (List.map RtoC bco) z = RtoC kz * cpow (1 + z) 6.
  Proof using Type. rewrite bco_C, ev_map, ev_poly. replace (RtoC (-1)) with (- RtoC 1) by (unfold Copp, RtoC; cbn; f_equal; ring). cbn [repeat List.map cprod fold_right cpow]. ring. Qed.

  (** The bilinear transform. *)
  Lemma transfer z : ev (List.map RtoC bco) z * cprod (List.map (lin z) (poles W)) = RtoC (W ^ 6)%R * cpow (1 + z) 6 * ev (List.map RtoC aco) z.
  Proof using HW. destruct kz_Q as (v & E & P & K). rewrite <- K, RtoC_mult, ev_b, <- ev_a, E. ring. Qed.

  Lemma stable z : (Cmod z <= 1)%R -> ev (List.map RtoC aco) z <> 0.
  Proof using HW.
    intros Hz. rewrite aco_C, ev_poly. pose proof (pz_small W HW) as F. induction F as [|r l Hr F IH]; [cbn; intros E; now apply C1_nz|].
    cbn [List.map]. rewrite cprod_cons. apply Cmult_neq_0; [|exact IH]. intros E.
    assert (G : r * z = 1) by (replace (r * z) with (1 - (1 - r * z)) by ring; rewrite E; ring). apply (f_equal Cmod) in G. rewrite Cmod_mult, Cmod_1 in G. pose proof (Cmod_ge_0 r). pose proof (Cmod_ge_0 z). nra.
  Qed.

  Definition gain_of (z : C) : C := ev (List.map RtoC bco) z / ev (List.map RtoC aco) z.

  Lemma half_wave w : cos (w / 2) <> 0%R -> 1 - cis (- w) = Ci * RtoC (tan (w / 2)) * (1 + cis (- w)).
  Proof using Type.
    intros H. rewrite <- conj_cis. set (h := (w / 2)%R) in *. replace w with (2 * h)%R by (unfold h; field). unfold cis. rewrite cos_2a_cos, sin_2a.
    pose proof (sin2_cos2 h) as P. unfold Rsqr in P. assert (S1 : sin h = (tan h * cos h)%R) by (unfold tan; field; exact H). rewrite S1 in *. generalize dependent (tan h). intros t P _. generalize dependent (cos h). intros c _ P.
    unfold Cconj, Ci, RtoC, Cminus, Cplus, Copp, Cmult. cbn [fst snd]. apply injective_projections; cbn [fst snd]; lra.
  Qed.

  Lemma one_plus_nz w : cos (w / 2) <> 0%R -> 1 + cis (- w) <> 0.
  Proof using Type.
    intros H E. apply (f_equal Re) in E. unfold Re, cis, RtoC, Cplus in E. cbn in E. rewrite cos_neg in E. replace w with (2 * (w / 2))%R in E by field. rewrite cos_2a_cos in E. assert (cos (w / 2) * cos (w / 2) = 0)%R by lra. apply Rmult_integral in H0. tauto.
  Qed.

  Lemma lin_wave z t l : 1 - z = Ci * RtoC t * (1 + z) -> cprod (List.map (lin z) l) = cpow (1 + z) (length l) * cprod (List.map (fun q => Ci * RtoC (4 * t)%R - q) l).
  Proof using Type.
    intros E. induction l as [|q l IH]; [cbn; ring|]. cbn [List.map length cpow]. rewrite !cprod_cons, IH. unfold lin. rewrite E, RtoC_mult. ring.
  Qed.

  Lemma gain_eq w : cos (w / 2) <> 0%R -> gain_of (cis (- w)) * Q W (Ci * RtoC (4 * tan (w / 2))%R) = RtoC (W ^ 6)%R.
  Proof using HW.
    intros H. set (z := cis (- w)). pose proof (transfer z) as T. rewrite (lin_wave z (tan (w / 2)) (poles W) (half_wave w H)) in T.
    assert (L : length (poles W) = 6%nat) by (unfold poles, prototype; now rewrite !map_length, seq_length). rewrite L in T.
    assert (N : ev (List.map RtoC aco) z <> 0). { apply stable. unfold z, cis, Cmod. cbn [fst snd]. pose proof (sin2_cos2 (- w)) as P. unfold Rsqr in P. replace (cos (- w) ^ 2 + sin (- w) ^ 2)%R with 1%R by (cbn; lra). rewrite sqrt_1. lra. }
    pose proof (one_plus_nz w H) as N'. fold z in N'. assert (N6 : cpow (1 + z) 6 <> 0) by (cbn [cpow]; repeat apply Cmult_neq_0; try exact N'; exact C1_nz).
    unfold gain_of. fold (Q W (Ci * RtoC (4 * tan (w / 2))%R)) in T. set (q := Q W (Ci * RtoC (4 * tan (w / 2))%R)) in *. set (eb := ev (List.map RtoC bco) z) in *. set (ea := ev (List.map RtoC aco) z) in *. set (c6 := cpow (1 + z) 6) in *.
    replace (eb / ea * q) with ((eb * (c6 * q)) / (ea * c6)) by (field; now split). rewrite T. field. now split.
  Qed.

  Lemma gain_mod w : cos (w / 2) <> 0%R -> Cmod (gain_of (cis (- w))) = (/ sqrt (1 + (4 * tan (w / 2) / W) ^ 12))%R.
  Proof using HW.
    intros H. pose proof (gain_eq w H) as E. apply (f_equal Cmod) in E. rewrite Cmod_mult, Cmod_R in E. pose proof (Q_mod W (4 * tan (w / 2))%R) as M.
    set (q := Cmod (Q W (Ci * RtoC (4 * tan (w / 2))%R))) in *. set (o := (4 * tan (w / 2))%R) in *. set (g := Cmod (gain_of (cis (- w)))) in *.
    assert (P6 : (0 < W ^ 6)%R) by (apply pow_lt, HW). rewrite Rabs_pos_eq in E by lra.
    assert (Po : (0 <= o ^ 12)%R) by (replace (o ^ 12)%R with (Rsqr (o ^ 6))%R by (unfold Rsqr; ring); apply Rle_0_sqr).
    assert (P12 : (0 < W ^ 12)%R) by (apply pow_lt, HW).
    assert (Pq : (0 < q)%R). { assert (0 <= q)%R by apply Cmod_ge_0. destruct (Rle_lt_or_eq_dec 0 q H0) as [G|G]; [exact G|]. rewrite <- G in E. lra. }
    assert (EQ : (1 + (o / W) ^ 12 = (q / W ^ 6) * (q / W ^ 6))%R).
    { apply (Rmult_eq_reg_r (W ^ 12)); [|lra]. transitivity (W ^ 12 + o ^ 12)%R; [field; lra|]. rewrite <- M. field. lra. }
    rewrite EQ, sqrt_square by (apply Rlt_le, Rdiv_lt_0_compat; assumption). replace g with (W ^ 6 / q)%R by (rewrite <- E; field; lra). field. split; lra.
  Qed.

  Lemma gain_0 : gain_of 1 = 1.
  Proof using HW.
    assert (E : gain_of (cis (- 0)) * Q W (Ci * RtoC (4 * tan (0 / 2))%R) = RtoC (W ^ 6)%R). { apply gain_eq. replace (0 / 2)%R with 0%R by field. rewrite cos_0. lra. }
    replace (0 / 2)%R with 0%R in E by field. rewrite Ropp_0, cis_0, tan_0, Rmult_0_r in E. replace (Ci * RtoC 0) with (RtoC 0) in E by ring. rewrite Q_pairs in E. unfold pair in E.
    replace (RtoC (W ^ 6)%R) with (RtoC W * RtoC W * (RtoC W * RtoC W) * (RtoC W * RtoC W)) in E by (rewrite <- !RtoC_mult; f_equal; ring).
    assert (N : RtoC W <> 0) by (intros G; apply (f_equal Re) in G; cbn in G; lra).
    assert (N6 : RtoC W * RtoC W * (RtoC W * RtoC W) * (RtoC W * RtoC W) <> 0) by (repeat apply Cmult_neq_0; exact N).
    match type of E with _ * ?q = ?w => assert (Hq : q = w) by ring; rewrite Hq in E; set (w6 := w) in * end.
    replace (gain_of 1) with (gain_of 1 * w6 / w6) by (field; exact N6). rewrite E. field. exact N6.
  Qed.
End Coefficients.

(** ** The response *)

Lemma del_small (u : nat -> C) M : (0 <= M)%R -> (forall n, (Cmod (u n) <= M)%R) -> forall n, (Cmod (del u n) <= M)%R.
Proof. intros P H [|n]; cbn [del]; [rewrite Cmod_0; exact P|apply H]. Qed.

Lemma app_bounded a : exists K, (0 <= K)%R /\ forall (u : nat -> C) M, (0 <= M)%R -> (forall n, (Cmod (u n) <= M)%R) -> forall n, (Cmod (app a u n) <= K * M)%R.
Proof.
  induction a as [|c a IH]; [exists 0%R; split; [lra|]; intros u M P H n; cbn [app]; rewrite Cmod_0; lra|].
  destruct IH as (K & PK & IH). exists (Cmod c + K)%R. split; [pose proof (Cmod_ge_0 c); lra|]. intros u M P H n. cbn [app].
  eapply Rle_trans; [apply Cmod_triangle|]. rewrite Cmod_mult. specialize (IH (del u) M P (del_small u M P H) n). pose proof (Cmod_ge_0 c). specialize (H n). nra.
Qed.

Lemma tends0_ext (u v : nat -> C) : (forall n, u n = v n) -> tends0 u -> tends0 v.
Proof. intros E H eps P. destruct (H eps P) as (N & G). exists N. intros n L. rewrite <- E. now apply G. Qed.

Lemma tends0_from (u v : nat -> C) k : (forall n, (k <= n)%nat -> u n = v n) -> tends0 u -> tends0 v.
Proof. intros E H eps P. destruct (H eps P) as (N & G). exists (N + k)%nat. intros n L. rewrite <- E by lia. apply G. lia. Qed.

Lemma tends0_zero : tends0 (fun _ => 0).
Proof. intros eps P. exists 0%nat. intros n _. now rewrite Cmod_0. Qed.

Lemma tends0_plus u v : tends0 u -> tends0 v -> tends0 (fun n => u n + v n).
Proof.
  intros H G eps P. destruct (H (eps / 2)%R) as (N & Hu); [lra|]. destruct (G (eps / 2)%R) as (N' & Gu); [lra|]. exists (N + N')%nat. intros n L.
  eapply Rle_lt_trans; [apply Cmod_triangle|]. specialize (Hu n). specialize (Gu n). assert (N <= n)%nat by lia. assert (N' <= n)%nat by lia. specialize (Hu H0). specialize (Gu H1). lra.
Qed.

Lemma tends0_mult c u : tends0 u -> tends0 (fun n => c * u n).
Proof.
  intros H eps P. pose proof (Cmod_ge_0 c) as Pc. destruct (H (eps / (1 + Cmod c))%R) as (N & Hu); [apply Rdiv_lt_0_compat; lra|]. exists N. intros n L. specialize (Hu n L).
  rewrite Cmod_mult. apply (Rmult_lt_compat_r (1 + Cmod c)) in Hu; [|lra]. unfold Rdiv in Hu. rewrite Rmult_assoc, Rinv_l, Rmult_1_r in Hu by lra. pose proof (Cmod_ge_0 (u n)). nra.
Qed.

Lemma tends0_del u : tends0 u -> tends0 (del u).
Proof. intros H eps P. destruct (H eps P) as (N & G). exists (S N). intros [|n] L; [lia|]. cbn [del]. apply G. lia. Qed.

Lemma app_tends0 a : forall u, tends0 u -> tends0 (app a u).
Proof.
  induction a as [|c a IH]; intros u H; [apply tends0_zero|]. apply (tends0_ext (fun n => c * u n + app a (del u) n)); [reflexivity|]. apply tends0_plus; [now apply tends0_mult|]. apply IH, tends0_del, H.
Qed.

Lemma diff_bounded r : (Cmod r < 1)%R -> forall (u : nat -> C) M, (0 <= M)%R -> (forall n, (Cmod (diff r u n) <= M)%R) -> forall n, (Cmod (u n) <= / (1 - Cmod r) * M)%R.
Proof.
  intros Hr u M P H. pose proof (Cmod_ge_0 r) as Pr. assert (I : (0 < / (1 - Cmod r))%R) by (apply Rinv_0_lt_compat; lra). assert (E : (/ (1 - Cmod r) * M = M + Cmod r * (/ (1 - Cmod r) * M))%R) by (field; lra).
  assert (D : forall n, u n = diff r u n + r * del u n) by (intros n; unfold diff; ring).
  induction n as [|n IH]; rewrite D; (eapply Rle_trans; [apply Cmod_triangle|]); rewrite Cmod_mult; cbn [del].
  - specialize (H 0%nat). rewrite Cmod_0. nra.
  - specialize (H (S n)). nra.
Qed.

Lemma diffs_bounded rs : Forall (fun r => (Cmod r < 1)%R) rs -> exists K, (0 <= K)%R /\ forall (u : nat -> C) M, (0 <= M)%R -> (forall n, (Cmod (diffs rs u n) <= M)%R) -> forall n, (Cmod (u n) <= K * M)%R.
Proof.
  induction 1 as [|r rs Hr F IH]; [exists 1%R; split; [lra|]; intros u M P H n; rewrite Rmult_1_l; apply H|].
  destruct IH as (K & PK & IH). assert (I : (0 < / (1 - Cmod r))%R) by (apply Rinv_0_lt_compat; lra).
  exists (/ (1 - Cmod r) * K)%R. split; [nra|]. intros u M P H n.
  replace (/ (1 - Cmod r) * K * M)%R with (K * (/ (1 - Cmod r) * M))%R by ring. apply IH; [nra|]. apply (diff_bounded r Hr _ M P). exact H.
Qed.

Section Response.
  Context (W : R) (HW : (0 < W)%R).
  Notation B := (List.map RtoC (bco W)). Notation A := (List.map RtoC (aco W)).
  Definition resp (x : nat -> R) : nat -> R := out (bco W) (aco W) 6 x.

  Lemma resp_eq x n : app A (fun m => RtoC (resp x m)) n = app B (fun m => RtoC (x m)) n.
  Proof using Type. unfold resp. apply equation; [apply bco_length|apply aco_length|apply aco_head]. Qed.

  Lemma decay u : tends0 (app A u) -> tends0 u.
  Proof using HW.
    intros H. apply (diffs_decay (pz W) (pz_small W HW)). apply (tends0_ext (app A u)); [|exact H]. intros n. now rewrite aco_C, app_poly.
  Qed.

  Lemma resp_bounded : exists K, (0 <= K)%R /\ forall x M, (forall n, (Rabs (x n) <= M)%R) -> forall n, (Rabs (resp x n) <= K * M)%R.
  Proof using HW.
    destruct (app_bounded B) as (K & PK & HB). destruct (diffs_bounded (pz W) (pz_small W HW)) as (K' & PK' & HA). exists (K' * K)%R. split; [nra|]. intros x M H n.
    assert (P : (0 <= M)%R) by (eapply Rle_trans; [apply Rabs_pos|exact (H 0%nat)]).
    rewrite <- Cmod_R, Rmult_assoc. apply (HA (fun m => RtoC (resp x m))); [nra|]. intros m. rewrite <- app_poly, <- aco_C, resp_eq. apply HB; [exact P|]. intros k. rewrite Cmod_R. apply H.
  Qed.

  Lemma const_wave a (c : C) n : (length a <= S n)%nat -> app a (fun _ => c) n = c * ev a 1.
  Proof using Type.
    intros L. rewrite (app_wave 1 1 ltac:(ring) a c _ n L).
    - assert (E : forall k, cpow 1 k = 1) by (induction k as [|k IH]; cbn [cpow]; [reflexivity|rewrite IH; ring]). rewrite E. ring.
    - intros m _ _. assert (E : forall k, cpow 1 k = 1) by (induction k as [|k IH]; cbn [cpow]; [reflexivity|rewrite IH; ring]). rewrite E. ring.
  Qed.

  Lemma ev_nz_1 : ev A 1 <> 0.
  Proof using HW. apply stable; [exact HW|]. rewrite Cmod_1. lra. Qed.

  Lemma ev_1 : ev B 1 = ev A 1.
  Proof using HW. pose proof (gain_0 W HW) as G. unfold gain_of in G. replace (ev B 1) with (ev B 1 / ev A 1 * ev A 1) by (field; exact ev_nz_1). rewrite G. ring. Qed.

  Lemma resp_limit x l : tends0 (fun n => RtoC (x n - l)%R) -> tends0 (fun n => RtoC (resp x n - l)%R).
  Proof using HW.
    intros H. apply decay. apply (app_tends0 B) in H. revert H. apply tends0_from with (k := 6%nat). intros n L.
    assert (E : forall (a : list C) (s : nat -> R), length a = 7%nat -> app a (fun m => RtoC (s m - l)%R) n = app a (fun m => RtoC (s m)) n - RtoC l * ev a 1).
    { intros a s La. rewrite (app_ext a _ (fun m => RtoC (s m) + - RtoC 1 * (fun _ => RtoC l) m)) by (intros m; rewrite RtoC_minus; ring). rewrite app_lin, const_wave by lia. ring. }
    rewrite !E by (rewrite map_length; apply aco_length || apply bco_length). rewrite resp_eq, ev_1. reflexivity.
  Qed.

  Lemma resp_wave (c : C) w x : cos (w / 2) <> 0%R -> (forall n, x n = Re (c * cis (INR n * w))) ->
    tends0 (fun n => RtoC (resp x n - Re (gain_of W (cis (- w)) * (c * cis (INR n * w)))%C)%R).
  Proof using HW.
    intros Hw Hx. apply decay. apply (tends0_from (fun _ => 0) _ 6); [|apply tends0_zero]. intros n L. symmetry.
    set (h := gain_of W (cis (- w))). set (E1 := fun m => c * cpow (cis w) m). set (E2 := fun m => Cconj c * cpow (cis (- w)) m).
    assert (C2 : forall m, Cconj (E1 m) = E2 m). { intros m. unfold E1, E2. rewrite !cpow_cis, conj_mult, conj_cis. f_equal. f_equal. ring. }
    assert (Hh : Cconj h = gain_of W (cis w)). { unfold h, gain_of, Cdiv. rewrite conj_mult, conj_inv, <- !ev_real_conj, conj_cis, Ropp_involutive. reflexivity. }
    assert (Re2 : forall z, RtoC (Re z) = RtoC (/ 2)%R * (z + Cconj z)). { intros z. rewrite sum_conj, <- RtoC_mult. f_equal. field. }
    rewrite (app_ext A _ (fun m => (RtoC (resp x m) + (- (RtoC (/ 2)%R * h)) * E1 m) + (- (RtoC (/ 2)%R * Cconj h)) * E2 m)).
    2:{ intros m. rewrite RtoC_minus, Re2, conj_mult. replace (c * cis (INR m * w)) with (E1 m) by (unfold E1; now rewrite cpow_cis). rewrite C2. ring. }
    rewrite !app_lin, resp_eq.
    rewrite (app_ext B _ (fun m => RtoC (/ 2)%R * E1 m + RtoC (/ 2)%R * E2 m)).
    2:{ intros m. rewrite Hx, Re2. replace (c * cis (INR m * w)) with (E1 m) by (unfold E1; now rewrite cpow_cis). rewrite C2. ring. }
    rewrite app_lin. rewrite (app_ext B (fun m => RtoC (/ 2)%R * E1 m) (fun m => 0 + RtoC (/ 2)%R * E1 m)) by (intros m; ring). rewrite (app_lin B (fun _ => 0) E1), (app_zero B) by reflexivity.
    assert (LA : (length A <= S n)%nat) by (rewrite map_length, aco_length; lia). assert (LB : (length B <= S n)%nat) by (rewrite map_length, bco_length; lia).
    assert (I1 : cis w * cis (- w) = 1) by apply cis_opp. assert (I2 : cis (- w) * cis w = 1) by (rewrite Cmult_comm; exact I1).
    rewrite (app_wave _ _ I1 A c E1 n LA), (app_wave _ _ I2 A (Cconj c) E2 n LA), (app_wave _ _ I1 B c E1 n LB), (app_wave _ _ I2 B (Cconj c) E2 n LB) by reflexivity.
    assert (M1 : forall t, (Cmod (cis t) <= 1)%R). { intros t. unfold cis, Cmod. cbn [fst snd]. pose proof (sin2_cos2 t) as P. unfold Rsqr in P. replace (cos t ^ 2 + sin t ^ 2)%R with 1%R by (cbn; lra). rewrite sqrt_1. lra. }
    pose proof (stable W HW _ (M1 w)) as N1. pose proof (stable W HW _ (M1 (- w)%R)) as N2.
    rewrite Hh. unfold h, gain_of. field. split; assumption.
  Qed.
End Response.
