(** * Proofs about FGrid_Model *)
From Coq Require Import String List Arith ZArith Reals Bool Lia Lra Psatz.
From Flocq Require Import Core Relative Plus_error.
From Verif Require Import Prelude PreludeFacts NdArray Gkyl_Model Gkyl_Spec Gkyl_Proofs Gkyl_Proofs2 Gkyl_Props Float_Model Float_Props FGrid_Model FGrid_Spec.
Import ListNotations.
Open Scope R_scope.

#[local] Instance prec53 : Prec_gt_0 53.
Proof. reflexivity. Qed.

Lemma unit_val : unit_ = / 9007199254740992.
Proof. reflexivity. Qed.
Lemma unit_bounds : 0 < unit_ <= / 9007199254740992.
Proof. rewrite unit_val. lra. Qed.

Lemma fl_rel x : bpow radix2 (-1022) <= x -> x * (1 - unit_) <= fl x <= x * (1 + unit_).
Proof.
  intros H. assert (P : 0 < x) by (pose proof (bpow_gt_0 radix2 (-1022)); lra).
  pose proof (relative_error_N_FLT radix2 (-1074) 53 ltac:(reflexivity) (fun z => negb (Z.even z)) x) as E.
  rewrite Rabs_pos_eq in E by lra. specialize (E H).
  change (round radix2 (FLT_exp (-1074) 53) (Znearest (fun z => negb (Z.even z))) x) with (fl x) in E.
  assert (U : / 2 * bpow radix2 (Z.opp 53 + 1) = unit_) by (change (Z.opp 53 + 1)%Z with (-52)%Z; rewrite unit_val; cbn; lra).
  rewrite U in E. apply Rabs_le_inv in E. lra.
Qed.

Lemma fl_plus x y : format x -> format y -> Rabs (fl (x + y) - (x + y)) <= unit_ * Rabs (x + y).
Proof.
  intros Hx Hy. destruct (FLT_plus_error_N_ex radix2 (-1074) 53 (fun z => negb (Z.even z)) x y Hx Hy) as (e & He & E).
  change (round radix2 (FLT_exp (-1074) 53) (Znearest (fun z => negb (Z.even z))) (x + y)) with (fl (x + y)) in E.
  rewrite E. replace ((x + y) * (1 + e) - (x + y)) with (e * (x + y)) by ring. rewrite Rabs_mult.
  apply Rmult_le_compat_r; [apply Rabs_pos|]. eapply Rle_trans; [exact He|].
  assert (U : u_ro radix2 53 = unit_) by (unfold u_ro; change (Z.opp 53 + 1)%Z with (-52)%Z; rewrite unit_val; cbn; lra).
  rewrite U. pose proof unit_bounds. apply Rmult_le_reg_r with (1 + unit_); [lra|]. unfold Rdiv. rewrite Rmult_assoc, Rinv_l by lra. nra.
Qed.

Lemma fl_format x : format (fl x).
Proof. apply generic_format_round; apply _ || apply FLT_exp_valid; reflexivity. Qed.
Lemma fl_id x : format x -> fl x = x.
Proof. intros H. apply round_generic; [apply _|exact H]. Qed.
Lemma fl_between x lo up : format lo -> format up -> lo <= x <= up -> lo <= fl x <= up.
Proof. intros Hl Hu H. split; [rewrite <- (fl_id lo Hl)|rewrite <- (fl_id up Hu)]; apply fl_le; lra. Qed.
Lemma fl_nat k : (Z.of_nat k <= 2 ^ 53)%Z -> fl (IZR (Z.of_nat k)) = INR k.
Proof. intros H. rewrite fl_int by lia. symmetry. apply INR_IZR_INZ. Qed.

(** ** [np.linspace] between two doubles *)
Section Line.
  Context (lo up : R) (n : nat) (H : spaced lo up n).
  Let h := (up - lo) / INR n.
  Let step := fl (fl (up - lo) / INR n).
  Definition prod_ (i : nat) : R := fl (INR i * step).

  Lemma n_pos : 1 <= INR n.
  Proof. destruct H as (_ & _ & Hn & _). apply le_INR in Hn. exact Hn. Qed.
  Lemma n_top : INR n <= 1125899906842624.
  Proof. destruct H as (_ & _ & _ & Hn & _). rewrite INR_IZR_INZ. apply IZR_le in Hn. exact Hn. Qed.
  Lemma h_low : 2 * bpow radix2 (-1022) <= h.
  Proof. destruct H as (_ & _ & _ & _ & Hh). replace (2 * bpow radix2 (-1022)) with (bpow radix2 (-1021)); [exact Hh|]. change (-1021)%Z with (1 + -1022)%Z. rewrite bpow_plus. reflexivity. Qed.
  Lemma h_pos : 0 < h.
  Proof. pose proof h_low. pose proof (bpow_gt_0 radix2 (-1022)). lra. Qed.
  Lemma width : up - lo = INR n * h.
  Proof. unfold h. field. pose proof n_pos. lra. Qed.

  Lemma step_near : h * (1 - unit_) ^ 2 <= step <= h * (1 + unit_) ^ 2.
  Proof.
    pose proof n_pos as N1. pose proof h_low as Hl. pose proof h_pos as Hp. pose proof unit_bounds as U. pose proof (bpow_gt_0 radix2 (-1022)) as B.
    assert (D : bpow radix2 (-1022) <= up - lo) by (rewrite width; nra).
    pose proof (fl_rel _ D) as (D1 & D2). set (delta := fl (up - lo)) in *.
    assert (Q1 : h * (1 - unit_) <= delta / INR n).
    { apply Rmult_le_reg_r with (INR n); [lra|]. replace (delta / INR n * INR n) with delta by (field; lra). rewrite width in D1. nra. }
    assert (Q2 : delta / INR n <= h * (1 + unit_)).
    { apply Rmult_le_reg_r with (INR n); [lra|]. replace (delta / INR n * INR n) with delta by (field; lra). rewrite width in D2. nra. }
    assert (Q3 : bpow radix2 (-1022) <= delta / INR n) by nra.
    pose proof (fl_rel _ Q3) as (S1 & S2). fold step in S1, S2. split; nra.
  Qed.
  Lemma step_low : bpow radix2 (-1022) <= step.
  Proof. pose proof step_near as (S & _). pose proof h_low. pose proof unit_bounds. pose proof (bpow_gt_0 radix2 (-1022)). assert (/ 2 <= (1 - unit_) ^ 2) by nra. nra. Qed.

  Lemma prod_near i : INR i * h * (1 - 4 * unit_) <= prod_ i <= INR i * h * (1 + 4 * unit_).
  Proof.
    destruct i as [|i].
    - unfold prod_. cbn [INR]. replace (0 * step) with 0 by ring. rewrite fl_id by apply generic_format_0. lra.
    - pose proof step_near as (S1 & S2). pose proof step_low as Sl. pose proof unit_bounds as U. pose proof h_pos as Hp. pose proof (bpow_gt_0 radix2 (-1022)) as B.
      assert (I1 : 1 <= INR (S i)) by (rewrite S_INR; pose proof (pos_INR i); lra). set (k := INR (S i)) in *.
      assert (L : bpow radix2 (-1022) <= k * step) by nra.
      pose proof (fl_rel _ L) as (P1 & P2). fold (prod_ (S i)) in P1, P2.
      assert (A1 : 1 - 4 * unit_ <= (1 - unit_) ^ 2 * (1 - unit_)) by nra.
      assert (A2 : (1 + unit_) ^ 2 * (1 + unit_) <= 1 + 4 * unit_) by nra.
      assert (K : 0 < k * h) by (apply Rmult_lt_0_compat; lra). split.
      + apply Rle_trans with (k * h * ((1 - unit_) ^ 2 * (1 - unit_))); [apply Rmult_le_compat_l; lra|].
        apply Rle_trans with (k * step * (1 - unit_)); [|exact P1].
        replace (k * h * ((1 - unit_) ^ 2 * (1 - unit_))) with (k * (h * (1 - unit_) ^ 2) * (1 - unit_)) by ring.
        apply Rmult_le_compat_r; [lra|]. apply Rmult_le_compat_l; lra.
      + apply Rle_trans with (k * h * ((1 + unit_) ^ 2 * (1 + unit_))); [|apply Rmult_le_compat_l; lra].
        apply Rle_trans with (k * step * (1 + unit_)); [exact P2|].
        replace (k * h * ((1 + unit_) ^ 2 * (1 + unit_))) with (k * (h * (1 + unit_) ^ 2) * (1 + unit_)) by ring.
        apply Rmult_le_compat_r; [lra|]. apply Rmult_le_compat_l; lra.
  Qed.
  Lemma prod_le i j : (i <= j)%nat -> prod_ i <= prod_ j.
  Proof. intros L. apply fl_le. apply Rmult_le_compat_r; [pose proof step_low; pose proof (bpow_gt_0 radix2 (-1022)); lra|]. now apply le_INR. Qed.
  Lemma prod_range i : (i < n)%nat -> 0 <= prod_ i <= up - lo.
  Proof.
    intros L. pose proof (prod_near i) as (P1 & P2). pose proof unit_bounds as U. pose proof h_pos as Hp. pose proof n_pos as N1. pose proof n_top as N2. pose proof (pos_INR i) as I0.
    assert (I1 : INR i <= INR n - 1) by (apply Nat.le_succ_l, le_INR in L; rewrite S_INR in L; lra).
    assert (K : 0 <= INR i * h) by (apply Rmult_le_pos; lra). split; [nra|].
    rewrite width. apply Rle_trans with (INR i * h * (1 + 4 * unit_)); [exact P2|].
    apply Rle_trans with ((INR n - 1) * (1 + 4 * unit_) * h).
    { replace (INR i * h * (1 + 4 * unit_)) with (INR i * (1 + 4 * unit_) * h) by ring. apply Rmult_le_compat_r; [lra|]. apply Rmult_le_compat_r; lra. }
    apply Rmult_le_compat_r; [lra|]. nra.
  Qed.
  Lemma prod_format i : format (prod_ i).
  Proof. apply fl_format. Qed.

  Lemma size_between x : lo <= x <= up -> Rabs x <= Rmax (Rabs lo) (Rabs up).
  Proof.
    intros (A & B). pose proof (Rmax_l (Rabs lo) (Rabs up)) as M1. pose proof (Rmax_r (Rabs lo) (Rabs up)) as M2. pose proof (Rle_abs up). pose proof (Rle_abs (- lo)) as X. rewrite Rabs_Ropp in X.
    apply Rabs_le. lra.
  Qed.

  (** From below, and from above. *)
  Lemma from_below i : (i < n)%nat -> let x := fl (prod_ i + lo) in lo <= x <= up /\ Rabs (x - (lo + INR i * h)) <= slack lo up.
  Proof.
    intros L x. pose proof (prod_range i L) as (P0 & P1). destruct H as (Fl & Fu & _). pose proof unit_bounds as U.
    split; [apply fl_between; [exact Fl|exact Fu|lra]|].
    pose proof (fl_plus _ _ (prod_format i) Fl) as E. fold x in E. pose proof (size_between (prod_ i + lo) ltac:(lra)) as Sz.
    pose proof (prod_near i) as (N1 & N2). assert (Ih : 0 <= INR i * h <= up - lo).
    { rewrite width. pose proof h_pos. pose proof (pos_INR i). apply Nat.lt_le_incl, le_INR in L. split; [nra|apply Rmult_le_compat_r; lra]. }
    assert (E' : Rabs (x - (prod_ i + lo)) <= unit_ * Rmax (Rabs lo) (Rabs up)) by (eapply Rle_trans; [exact E|apply Rmult_le_compat_l; lra]).
    unfold slack. apply Rabs_le_inv in E'. apply Rabs_le. nra.
  Qed.
  Lemma from_above i : (i < n)%nat -> let x := fl (up - prod_ i) in lo <= x <= up /\ Rabs (x - (up - INR i * h)) <= slack lo up.
  Proof.
    intros L x. pose proof (prod_range i L) as (P0 & P1). destruct H as (Fl & Fu & _). pose proof unit_bounds as U.
    split; [apply fl_between; [exact Fl|exact Fu|lra]|].
    pose proof (fl_plus _ _ Fu (generic_format_opp _ _ _ (prod_format i))) as E. change (up + - prod_ i) with (up - prod_ i) in E. fold x in E. pose proof (size_between (up - prod_ i) ltac:(lra)) as Sz.
    pose proof (prod_near i) as (N1 & N2). assert (Ih : 0 <= INR i * h <= up - lo).
    { rewrite width. pose proof h_pos. pose proof (pos_INR i). apply Nat.lt_le_incl, le_INR in L. split; [nra|apply Rmult_le_compat_r; lra]. }
    assert (E' : Rabs (x - (up - prod_ i)) <= unit_ * Rmax (Rabs lo) (Rabs up)) by (eapply Rle_trans; [exact E|apply Rmult_le_compat_l; lra]).
    unfold slack. apply Rabs_le_inv in E'. apply Rabs_le. nra.
  Qed.
End Line.

(** ** Nodes *)
Lemma step_dnum lo up n : spaced lo up n -> fl (fl (up - lo) / fl (IZR (Z.of_nat n))) = fl (fl (up - lo) / INR n).
Proof. intros (_ & _ & _ & Hn & _). rewrite fl_nat; [reflexivity|]. lia. Qed.

Lemma nodes dec lo up n : spaced lo up n -> linspace (dnum dec) lo up n = List.map (fun i => fl (prod_ lo up n i + lo)) (seq 0 n) ++ [up].
Proof.
  intros H. pose proof H as (_ & _ & Hn & Hz & _). destruct n as [|n]; [lia|]. unfold linspace, dnum. cbn [fadd fsub fmul fdiv fofZ].
  f_equal. apply map_ext_in. intros i Hi. apply in_seq in Hi. rewrite (step_dnum lo up (S n) H). unfold prod_. rewrite (fl_nat i) by lia. reflexivity.
Qed.
Lemma node_at dec lo up n i : spaced lo up n -> (i < n)%nat -> nth_error (linspace (dnum dec) lo up n) i = Some (fl (prod_ lo up n i + lo)).
Proof.
  intros H L. rewrite (nodes dec lo up n H), nth_error_app1 by (rewrite map_length, seq_length; lia).
  rewrite nth_error_map, nth_error_seq. destruct (Nat.ltb_spec i n) as [_|C]; [reflexivity|lia].
Qed.
Lemma node_last dec lo up n : spaced lo up n -> nth_error (linspace (dnum dec) lo up n) n = Some up.
Proof.
  intros H. rewrite (nodes dec lo up n H), nth_error_app2 by (rewrite map_length, seq_length; lia).
  rewrite map_length, seq_length, Nat.sub_diag. reflexivity.
Qed.
Lemma node_first dec lo up n : spaced lo up n -> nth_error (linspace (dnum dec) lo up n) 0 = Some lo.
Proof.
  intros H. pose proof H as (Fl & _ & Hn & _). rewrite node_at by (assumption || lia). f_equal. unfold prod_. cbn [INR]. rewrite Rmult_0_l, (fl_id 0) by apply generic_format_0.
  rewrite Rplus_0_l. now apply fl_id.
Qed.
Lemma nodes_length dec lo up n : length (linspace (dnum dec) lo up n) = S n.
Proof. destruct n as [|n]; [reflexivity|]. unfold linspace. rewrite app_length, map_length, seq_length. cbn. lia. Qed.

Lemma slack_pos lo up : lo <= up -> 0 <= slack lo up.
Proof.
  intros H. unfold slack. pose proof unit_bounds. pose proof (Rmax_l (Rabs lo) (Rabs up)). pose proof (Rabs_pos lo). apply Rmult_le_pos; lra.
Qed.
Lemma spaced_lt lo up n : spaced lo up n -> lo < up.
Proof. intros H. pose proof (width lo up n H) as W. pose proof (n_pos lo up n H). pose proof (h_pos lo up n H). assert (0 < INR n * ((up - lo) / INR n)) by (apply Rmult_lt_0_compat; lra). lra. Qed.

Lemma edges_ok dec lo up n : spaced lo up n -> edges_near lo up n (slack lo up) (linspace (dnum dec) lo up n).
Proof.
  intros H. split; [apply nodes_length|]. intros i x Hx.
  assert (L : (i < S n)%nat) by (rewrite <- (nodes_length dec lo up n); apply nth_error_Some; congruence).
  destruct (Nat.eq_dec i n) as [->|N].
  - rewrite node_last in Hx by assumption. injection Hx as <-. pose proof (spaced_lt _ _ _ H). split; [lra|].
    unfold edge. pose proof (width lo up n H) as W. replace (up - (lo + INR n * ((up - lo) / INR n))) with 0 by lra. rewrite Rabs_R0. apply slack_pos. lra.
  - rewrite node_at in Hx by (assumption || lia). injection Hx as <-. apply (from_below lo up n H i). lia.
Qed.
Lemma ascending_ok dec lo up n : spaced lo up n -> ascending (linspace (dnum dec) lo up n).
Proof.
  intros H i j x y L Hx Hy.
  assert (Lj : (j < S n)%nat) by (rewrite <- (nodes_length dec lo up n); apply nth_error_Some; congruence).
  destruct (Nat.eq_dec j n) as [->|N].
  - rewrite node_last in Hy by assumption. injection Hy as <-. apply (edges_ok dec lo up n H) in Hx. lra.
  - rewrite node_at in Hx by (assumption || lia). rewrite node_at in Hy by (assumption || lia). injection Hx as <-. injection Hy as <-.
    apply fl_le. pose proof (prod_le lo up n H i j L). lra.
Qed.
Lemma near_strict lo up n e l : lo < up -> (1 <= n)%nat -> edges_near lo up n e l -> 2 * e < (up - lo) / INR n -> strictly_ascending l.
Proof.
  intros H Hn (_ & E) S i j x y L Hx Hy. apply E in Hx. apply E in Hy. destruct Hx as (_ & Hx). destruct Hy as (_ & Hy). unfold edge in *.
  apply Rabs_le_inv in Hx. apply Rabs_le_inv in Hy. set (h := (up - lo) / INR n) in *.
  assert (N : 0 < INR n) by (apply lt_0_INR; lia). assert (P : 0 < h) by (apply Rdiv_lt_0_compat; lra).
  assert (G : INR i + 1 <= INR j) by (rewrite <- S_INR; apply le_INR; lia). nra.
Qed.

Lemma same_formula dec lo up n : spaced lo up n -> linspace (dnum dec) lo up n = np_linspace lo up n.
Proof.
  intros H. pose proof H as (_ & _ & Hn & Hz & _). destruct n as [|n]; [lia|]. unfold linspace, dnum, np_linspace. cbn [fadd fsub fmul fdiv fofZ].
  rewrite Req_bool_false; [reflexivity|]. rewrite (step_dnum lo up (S n) H). pose proof (step_low lo up (S n) H). pose proof (bpow_gt_0 radix2 (-1022)). lra.
Qed.
Lemma same_formula0 dec lo n : format lo -> linspace (dnum dec) lo lo n = np_linspace lo lo n.
Proof.
  intros Fl. assert (Z0 : fl 0 = 0) by (apply fl_id, generic_format_0). destruct n as [|n].
  - cbn [linspace np_linspace]. rewrite Rminus_diag_eq by reflexivity. rewrite Z0, Rmult_0_l, Z0, Rplus_0_l, fl_id by assumption. reflexivity.
  - unfold linspace, dnum, np_linspace. cbn [fadd fsub fmul fdiv fofZ]. rewrite Rminus_diag_eq by reflexivity. rewrite Z0. unfold Rdiv at 1 2. rewrite Rmult_0_l, Z0.
    rewrite Req_bool_true by reflexivity. f_equal. apply map_ext. intros i. rewrite !Rmult_0_r. reflexivity.
Qed.

(** ** A part *)
Section Part.
  Context (lo up : R) (n a b : nat) (H : spaced lo up n) (Hab : (a < b <= n)%nat) (Hs : 4 * slack lo up <= (up - lo) / INR n) (Hh : bpow radix2 (-1020) <= (up - lo) / INR n).
  Definition lower_cut : R := fl (lo + fl (fl (IZR (Z.of_nat a)) * fl (fl (up - lo) / fl (IZR (Z.of_nat n))))).
  Definition upper_cut : R := fl (up - fl (fl (IZR (Z.of_nat n - Z.of_nat b)) * fl (fl (up - lo) / fl (IZR (Z.of_nat n))))).

  Lemma n_small : (Z.of_nat n <= 2 ^ 50)%Z.
  Proof. destruct H as (_ & _ & _ & X & _). exact X. Qed.
  Lemma lower_cut_eq : lower_cut = fl (prod_ lo up n a + lo).
  Proof. unfold lower_cut. pose proof n_small. rewrite (step_dnum lo up n H), (fl_nat a) by lia. rewrite Rplus_comm. reflexivity. Qed.
  Lemma upper_cut_eq : upper_cut = fl (up - prod_ lo up n (n - b)).
  Proof. unfold upper_cut. pose proof n_small. rewrite <- Nat2Z.inj_sub by lia. rewrite (step_dnum lo up n H), (fl_nat (n - b)) by lia. reflexivity. Qed.
  Lemma lower_cut_near : lo <= lower_cut <= up /\ Rabs (lower_cut - edge lo up n a) <= slack lo up.
  Proof. rewrite lower_cut_eq. apply (from_below lo up n H a). lia. Qed.
  Lemma upper_cut_near : lo <= upper_cut <= up /\ Rabs (upper_cut - edge lo up n b) <= slack lo up.
  Proof.
    rewrite upper_cut_eq. pose proof (from_above lo up n H (n - b) ltac:(lia)) as (A & B). cbv zeta in A, B. split; [exact A|].
    replace (edge lo up n b) with (up - INR (n - b) * ((up - lo) / INR n)); [exact B|]. unfold edge. rewrite minus_INR by lia.
    pose proof (width lo up n H). lra.
  Qed.

  Lemma cut_width : INR (b - a) * ((up - lo) / INR n) - 2 * slack lo up <= upper_cut - lower_cut.
  Proof.
    pose proof lower_cut_near as (_ & A). pose proof upper_cut_near as (_ & B). apply Rabs_le_inv in A. apply Rabs_le_inv in B. unfold edge in *.
    rewrite minus_INR by lia. lra.
  Qed.
  Lemma cut_spaced : spaced lower_cut upper_cut (b - a).
  Proof.
    pose proof n_small. split; [apply fl_format|]. split; [apply fl_format|]. split; [lia|]. split; [lia|].
    pose proof cut_width as W. assert (K : 1 <= INR (b - a)) by (apply (le_INR 1); lia). pose proof (h_pos lo up n H) as P. set (h := (up - lo) / INR n) in *.
    assert (Hb : bpow radix2 (-1020) = 2 * bpow radix2 (-1021)) by (change (-1020)%Z with (1 + -1021)%Z; rewrite bpow_plus; reflexivity).
    apply Rmult_le_reg_r with (INR (b - a)); [lra|]. replace ((upper_cut - lower_cut) / INR (b - a) * INR (b - a)) with (upper_cut - lower_cut) by (field; lra).
    apply Rle_trans with (h / 2 * INR (b - a)); [apply Rmult_le_compat_r; lra|]. nra.
  Qed.
  Lemma cut_slack : slack lower_cut upper_cut <= slack lo up.
  Proof.
    pose proof lower_cut_near as (A & _). pose proof upper_cut_near as (B & _). pose proof unit_bounds as U. unfold slack.
    pose proof (size_between lo up lower_cut A) as M1. pose proof (size_between lo up upper_cut B) as M2.
    apply Rmult_le_compat_l; [lra|]. pose proof (Rmax_lub _ _ _ M1 M2). lra.
  Qed.
  Lemma cut_near dec i x : nth_error (linspace (dnum dec) lower_cut upper_cut (b - a)) i = Some x ->
    lo <= x <= up /\ Rabs (x - edge lo up n (a + i)) <= 2 * slack lo up.
  Proof.
    intros Hx. pose proof lower_cut_near as (A & A'). pose proof upper_cut_near as (B & B'). pose proof (edges_ok dec _ _ _ cut_spaced) as (Ln & E).
    assert (Li : (i < S (b - a))%nat) by (rewrite <- Ln; apply nth_error_Some; congruence).
    destruct (E _ _ Hx) as (X & Y). split; [lra|]. pose proof cut_slack as Sl. unfold edge in *. 
    assert (K : 1 <= INR (b - a)) by (apply (le_INR 1); lia). assert (T : 0 <= INR i <= INR (b - a)) by (split; [apply pos_INR|apply le_INR; lia]).
    rewrite plus_INR. set (h := (up - lo) / INR n) in *. set (m := INR (b - a)) in *.
    assert (Hm : INR b = INR a + m) by (unfold m; rewrite minus_INR by lia; ring). rewrite Hm in B'.
    assert (T' : 0 <= INR i / m <= 1).
    { split; [apply Rmult_le_pos; [lra|left; apply Rinv_0_lt_compat; lra]|]. apply Rmult_le_reg_r with m; [lra|]. replace (INR i / m * m) with (INR i) by (field; lra). lra. }
    set (t := INR i / m) in *. assert (Ei : INR i = t * m) by (unfold t; field; lra). rewrite Ei in *.
    replace (t * m * ((upper_cut - lower_cut) / m)) with (t * (upper_cut - lower_cut)) in Y by (field; lra).
    apply Rabs_le_inv in A', B', Y. apply Rabs_le. nra.
  Qed.
End Part.
