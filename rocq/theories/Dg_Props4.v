(** * C35: the tabulated modal bases are orthonormal. *)
From Coq Require Import String List Arith ZArith QArith Reals Lia Lra Bool.
From Coquelicot Require Import Coquelicot.
From Verif Require Import Prelude PreludeFacts Dg_Poly Dg_TabI Dg_Spec Dg_Sem Dg_Int Dg_GramTab Dg_Gram.
Import ListNotations.
Open Scope string_scope.
Open Scope list_scope.
Open Scope R_scope.

(** Inner products over the reference cell, to within the rounding of the
    tabulated decimals. *)
Theorem C35_orthonormal :
  forall d p b fs i j f g,
    interp_functions d p true b = Ok fs -> nth_error fs i = Some f -> nth_error fs j = Some g ->
    Rabs (cube d (fun x => evalR f x * evalR g x) - (if Nat.eqb i j then 1 else 0)) <= / 10 ^ 14.
Proof. intros d p b fs i j f g H Hi Hj. destruct (gram d p b fs H) as (_ & G & _). exact (G i j f g Hi Hj). Qed.

(** Projecting an expansion on a basis function gives the coefficient back. *)
Theorem C35_projection :
  forall d p b fs q i f,
    interp_functions d p true b = Ok fs -> length q = length fs -> nth_error fs i = Some f ->
    Rabs (cube d (fun x => evalR f x * expansion q fs x) - nth i q 0) <= / 10 ^ 14 * abs_sum q.
Proof. exact coefficient. Qed.

Lemma eps_pos : 0 < eps.
Proof. unfold eps. apply Rinv_0_lt_compat, pow_lt. lra. Qed.
Lemma eps_small : 1000 * eps < 1 / 2.
Proof.
  unfold eps. apply Rmult_lt_reg_r with (r := 10 ^ 14); [apply pow_lt; lra|].
  rewrite Rmult_assoc, Rinv_l by (apply pow_nonzero; lra). cbn [pow]. lra.
Qed.

Lemma cell_average_first d p b fs :
  interp_functions d p true b = Ok fs ->
  exists f0 c, nth_error fs 0 = Some f0 /\ 0 < c /\ (forall x, length x = d -> evalR f0 x = c) /\
    Rabs (c * c * 2 ^ d - 1) <= eps.
Proof.
  intros H. destruct (gram d p b fs H) as (_ & G & (f0 & c & F0 & C & E) & _). exists f0, c.
  split; [exact F0|]. split; [exact C|]. split; [exact E|].
  specialize (G 0%nat 0%nat f0 f0 F0 F0). rewrite (cube_ext d _ (fun _ => c * c)) in G.
  - rewrite cube_const in G. exact G.
  - intros x Hx. rewrite E by exact Hx. reflexivity.
Qed.

(** The mean over the cell is the first coefficient over 2^(d/2). *)
Theorem C35_mean :
  forall d p b fs q,
    interp_functions d p true b = Ok fs -> length q = length fs ->
    Rabs (cube d (expansion q fs) / 2 ^ d - nth 0 q 0 / sqrt (2 ^ d)) <= 2 * / 10 ^ 14 * abs_sum q.
Proof.
  intros d p b fs q H Hq. fold eps.
  destruct (cell_average_first d p b fs H) as (f0 & c & F0 & C & E & N).
  pose proof (coefficient d p b fs q 0 f0 H Hq F0) as K.
  destruct (gram d p b fs H) as (Hp & _).
  rewrite (cube_ext d _ (fun x => c * expansion q fs x)) in K by (intros x Hx; rewrite E by exact Hx; reflexivity).
  rewrite cube_scal in K by (apply expansion_poly; exact Hp).
  destruct (gram_tables d p b fs H) as (_ & D & _).
  set (I := cube d (expansion q fs)) in *. set (A := abs_sum q) in *.
  assert (A0 : 0 <= A) by apply abs_sum_nonneg.
  assert (Q0 : Rabs (nth 0 q 0) <= A).
  { unfold A. destruct q as [|a q]; cbn [nth]; [rewrite Rabs_R0; apply abs_sum_nonneg|].
    cbn [abs_sum fold_right]. fold (abs_sum q). pose proof (abs_sum_nonneg q). lra. }
  pose proof eps_pos as E0. pose proof eps_small as E1.
  set (T := 2 ^ d) in *.
  assert (T2 : 2 <= T).
  { unfold T. destruct d as [|d]; [lia|]. cbn [pow]. assert (1 <= 2 ^ d) by (apply pow_R1_Rle; lra). lra. }
  set (s := sqrt T). assert (S2 : s * s = T) by (apply sqrt_sqrt; lra).
  assert (S1 : 1 <= s). { unfold s. rewrite <- sqrt_1. apply sqrt_le_1; lra. }
  apply Rabs_le_between in N. destruct N as [N1 N2].
  (* c*T is at least 1 *)
  assert (CS : (c * s) * (c * s) = c * c * T) by (rewrite <- S2; ring).
  assert (Y0 : 0 < c * s) by (apply Rmult_lt_0_compat; lra).
  assert (Y1 : 1 - eps <= (c * s) * (c * s) <= 1 + eps) by lra.
  assert (HALF : forall y, 0 < y -> 1 - eps <= y * y <= 1 + eps -> / 2 <= y /\ - eps <= y - 1 <= eps).
  { intros y P [U V]. assert (/ 2 <= y) by (destruct (Rle_dec (/ 2) y); [assumption|nra]). split; [assumption|split].
    - destruct (Rle_dec (- eps) (y - 1)); [assumption|]. nra.
    - destruct (Rle_dec (y - 1) eps); [assumption|]. nra. }
  destruct (HALF _ Y0 Y1) as [CS1 CS2']. clear HALF.
  assert (CT : 1 / 2 <= c * T) by (rewrite <- S2; nra).
  assert (CS2 : Rabs (c * s - 1) <= eps) by (apply Rabs_le; exact CS2').
  replace (I / T - nth 0 q 0 / s)
    with ((c * I - nth 0 q 0) / (c * T) + nth 0 q 0 * (1 - c * s) * / (c * T))
    by (rewrite <- S2; field; split; lra).
  assert (IV : / (c * T) <= / s * (1 + 2 * eps)).
  { apply Rmult_le_reg_r with (r := c * T * s); [nra|].
    replace (/ (c * T) * (c * T * s)) with s by (field; lra).
    replace (/ s * (1 + 2 * eps) * (c * T * s)) with ((1 + 2 * eps) * (c * s) * s) by (rewrite <- S2; field; lra).
    apply Rabs_le_between in CS2. destruct CS2. nra. }
  assert (SR : / s <= 1 / 1). { unfold Rdiv. rewrite Rmult_1_l. apply Rinv_le_contravar; lra. }
  assert (S0 : s * s >= 2) by lra.
  assert (SR2 : / s * / s <= / 2).
  { rewrite <- Rinv_mult. apply Rinv_le_contravar; lra. }
  assert (IS : 0 < / s) by (apply Rinv_0_lt_compat; lra).
  assert (SR3 : / s <= 3 / 4). { destruct (Rle_dec (/ s) (3 / 4)); [assumption|]. nra. }
  assert (IV1 : 0 < / (c * T)) by (apply Rinv_0_lt_compat; lra).
  assert (IV2 : / (c * T) <= 1) by nra.
  eapply Rle_trans; [apply Rabs_triang|]. unfold Rdiv. rewrite !Rabs_mult, (Rabs_pos_eq (/ (c * T))) by lra.
  rewrite (Rabs_minus_sym 1). rewrite <- (Rabs_mult) in *.
  assert (P1 : Rabs (c * I - nth 0 q 0) * / (c * T) <= eps * A).
  { pose proof (Rabs_pos (c * I - nth 0 q 0)). nra. }
  assert (P2 : Rabs (nth 0 q 0) * Rabs (c * s - 1) * / (c * T) <= eps * A).
  { pose proof (Rabs_pos (nth 0 q 0)). pose proof (Rabs_pos (c * s - 1)).
    apply Rle_trans with (Rabs (nth 0 q 0) * Rabs (c * s - 1) * 1).
    - apply Rmult_le_compat_l; [apply Rmult_le_pos; assumption|exact IV2].
    - rewrite Rmult_1_r, (Rmult_comm eps). apply Rmult_le_compat; assumption. }
  rewrite Rabs_mult. lra.
Qed.

(** Parseval: the integral of the square is the sum of the squares. *)
Theorem C35_norm :
  forall d p b fs q,
    interp_functions d p true b = Ok fs -> length q = length fs ->
    Rabs (cube d (fun x => expansion q fs x * expansion q fs x) - sq_sum q) <= / 10 ^ 14 * abs_sum q * abs_sum q.
Proof.
  intros d p b fs q H Hq. fold eps. destruct (gram d p b fs H) as (Hp & _).
  rewrite cube_expansion by (auto; apply expansion_poly; exact Hp).
  assert (K : forall i f, nth_error fs i = Some f ->
     Rabs (cube d (fun x => expansion q fs x * evalR f x) - nth i q 0) <= eps * abs_sum q).
  { intros i f Hi. rewrite (cube_ext d _ (fun x => evalR f x * expansion q fs x)) by (intros; apply Rmult_comm).
    apply (coefficient d p b fs q i f H Hq Hi). }
  set (G := fun f => cube d (fun x => expansion q fs x * evalR f x)) in *.
  change (Rabs (fold_right (fun t s => fst t * G (snd t) + s) 0 (combine q fs) - sq_sum q) <= eps * abs_sum q * abs_sum q).
  change (forall i f, nth_error fs i = Some f -> Rabs (G f - nth i q 0) <= eps * abs_sum q) in K.
  set (B := eps * abs_sum q) in *. clearbody B G. clear H Hp.
  revert fs Hq K. induction q as [|a q IH]; intros [|f fs] Hq K; cbn [combine fold_right fst snd]; try discriminate.
  - unfold sq_sum, abs_sum. cbn [fold_right]. rewrite Rminus_0_r, Rabs_R0. lra.
  - change (sq_sum (a :: q)) with (a * a + sq_sum q). change (abs_sum (a :: q)) with (Rabs a + abs_sum q).
    assert (IH' := IH fs ltac:(cbn in Hq; lia) ltac:(intros i g Hi; exact (K (S i) g Hi))).
    pose proof (K 0%nat f eq_refl) as K0. cbn [nth] in K0.
    set (r := fold_right _ 0 (combine q fs)) in *.
    replace (a * G f + r - (a * a + sq_sum q)) with (a * (G f - a) + (r - sq_sum q)) by ring.
    eapply Rle_trans; [apply Rabs_triang|]. rewrite Rabs_mult. pose proof (Rabs_pos a). nra.
Qed.

(** The functions are linearly independent: the coefficients are determined by the field. *)
Theorem C35_independent :
  forall d p b fs q,
    interp_functions d p true b = Ok fs -> length q = length fs ->
    (forall x, length x = d -> expansion q fs x = 0) ->
    q = repeat 0 (length fs).
Proof.
  intros d p b fs q H Hq Z.
  destruct (gram_tables d p b fs H) as (_ & _ & L).
  assert (K : forall i, (i < length q)%nat -> Rabs (nth i q 0) <= eps * abs_sum q).
  { intros i Hi. rewrite Hq in Hi. assert (Hf := nth_error_nth' fs (Nu 0 0) Hi).
    pose proof (coefficient d p b fs q i _ H Hq Hf) as C.
    rewrite (cube_ext d _ (fun _ => 0)) in C by (intros x Hx; rewrite (Z x Hx); ring).
    rewrite cube_const in C. rewrite <- Rabs_Ropp.
    replace (- nth i q 0) with (0 * 2 ^ d - nth i q 0) by ring. exact C. }
  assert (S : forall B (l : list R), (forall i, (i < length l)%nat -> Rabs (nth i l 0) <= B) -> abs_sum l <= INR (length l) * B).
  { intros B l. induction l as [|a l IH]; intros Hl; [cbn; lra|].
    change (abs_sum (a :: l)) with (Rabs a + abs_sum l). cbn [length]. rewrite S_INR.
    pose proof (Hl 0%nat ltac:(cbn; lia)) as H0. cbn [nth] in H0.
    assert (IH' := IH ltac:(intros i Hi; exact (Hl (S i) ltac:(cbn; lia)))). lra. }
  specialize (S _ q K).
  assert (L' : INR (length q) <= 1000). { rewrite Hq. apply le_INR in L. cbn -[INR] in L. replace (INR 1000) with 1000 in L by (rewrite INR_IZR_INZ; reflexivity). exact L. }
  assert (A0 : abs_sum q = 0).
  { pose proof (abs_sum_nonneg q). pose proof eps_small. pose proof eps_pos. pose proof (pos_INR (length q)).
    destruct (Req_dec (abs_sum q) 0) as [|N]; [assumption|]. exfalso.
    assert (INR (length q) * (eps * abs_sum q) <= 1000 * (eps * abs_sum q)) by (apply Rmult_le_compat_r; nra). nra. }
  rewrite <- Hq. clear - A0. induction q as [|a q IH]; [reflexivity|].
  cbn [length repeat]. change (abs_sum (a :: q)) with (Rabs a + abs_sum q) in A0.
  pose proof (Rabs_pos a). pose proof (abs_sum_nonneg q). f_equal; [|apply IH; lra].
  assert (R : Rabs a = 0) by lra. destruct (Req_dec a 0); [assumption|]. apply Rabs_no_R0 in H1. contradiction.
Qed.

(** Every function lies in the polynomial space its family stands for. *)
Theorem C35_space :
  forall d p b fs f,
    interp_functions d p true b = Ok fs -> In f fs ->
    exists q : list (R * list nat),
      List.Forall (fun t => length (snd t) = d /\ family_exponents d p b (snd t) = true) q /\
      forall x, length x = d -> evalR f x = fold_right (fun t s => fst t * fold_right Rmult 1 (map2 pow x (snd t)) + s) 0 q.
Proof.
  intros d p b fs f H Hf. destruct (gram d p b fs H) as (_ & _ & _ & S). destruct (S f Hf) as (q & D & P & E).
  exists q. split; [|exact E]. apply Forall_forall. intros t Ht. unfold dim_ok in D. rewrite List.Forall_forall in D, P. split; auto.
Qed.

(** ** Examples *)
Example C35_ex_tables : exists fs, interp_functions 5 4 true "serendipity" = Ok fs /\ length fs = 352%nat.
Proof. eexists. split; reflexivity. Qed.
Example C35_ex_mean :
  exists fs, interp_functions 2 1 true "serendipity" = Ok fs /\
    Rabs (cube 2 (expansion [3; 1; -2; 5] fs) / 2 ^ 2 - 3 / 2) <= / 10 ^ 12.
Proof.
  eexists. split; [reflexivity|].
  pose proof (C35_mean 2 1 "serendipity" _ [3; 1; -2; 5] eq_refl eq_refl) as H. cbn [nth] in H.
  replace (sqrt (2 ^ 2)) with 2 in H by (symmetry; rewrite <- Rsqr_pow2; apply sqrt_Rsqr; lra).
  eapply Rle_trans; [exact H|]. unfold abs_sum. cbn [fold_right].
  rewrite (Rabs_pos_eq 3), (Rabs_pos_eq 1), (Rabs_left (-2)), (Rabs_pos_eq 5) by lra.
  apply Rmult_le_reg_r with (r := 10 ^ 14); [apply pow_lt; lra|]. cbn [pow]. lra.
Qed.

Print Assumptions C35_orthonormal.
Print Assumptions C35_projection.
Print Assumptions C35_mean.
Print Assumptions C35_norm.
Print Assumptions C35_independent.
Print Assumptions C35_space.
