(** * Rounding errors of sums and integrals *)
From Coq Require Import String Ascii List Arith ZArith Bool Lia Reals Lra Permutation Sorted Psatz.
From Flocq Require Import Core Relative Plus_error.
From Verif Require Import Prelude PreludeFacts NdArray Sort Ev_Model Tools_Arr Calc_Model Calc_Spec Calc_Proofs
  Float_Model Float_Props FInt_Model FInt_Spec.
Import ListNotations.
Open Scope list_scope.
Open Scope R_scope.

Lemma u_pos : 0 < u. Proof. apply bpow_gt_0. Qed.
Lemma tiny_pos : 0 < tiny. Proof. apply bpow_gt_0. Qed.
Lemma half_u : / 2 * bpow radix2 (- (53) + 1) = u.
Proof. unfold u. change (- (53) + 1)%Z with (1 + -53)%Z. rewrite bpow_plus. change (bpow radix2 1) with 2. lra. Qed.
Lemma half_tiny : / 2 * bpow radix2 (-1074) = tiny.
Proof. unfold tiny. change (-1074)%Z with (1 + -1075)%Z. rewrite bpow_plus. change (bpow radix2 1) with 2. lra. Qed.

Lemma fl_format x : format (fl x).
Proof. apply generic_format_round; [apply FLT_exp_valid; reflexivity|apply valid_rnd_N]. Qed.

(** One rounding. *)
Lemma fl_error x : Rabs (fl x - x) <= u * Rabs x + tiny.
Proof.
  destruct (error_N_FLT radix2 (-1074) 53 eq_refl (fun z => negb (Z.even z)) x) as (e & h & He & Hh & _ & E).
  change (round _ _ _ x) with (fl x) in E. rewrite E. rewrite half_u in He. rewrite half_tiny in Hh.
  replace (x * (1 + e) + h - x) with (e * x + h) by ring.
  apply Rle_trans with (1 := Rabs_triang _ _). rewrite Rabs_mult. pose proof (Rabs_pos x). nra.
Qed.
Lemma fl_sum_error x y : format x -> format y -> Rabs (fl (x + y) - (x + y)) <= u * Rabs (x + y).
Proof.
  intros Fx Fy. destruct (@FLT_plus_error_N_ex radix2 (-1074) 53 eq_refl (fun z => negb (Z.even z)) x y Fx Fy) as (e & He & E).
  change (round _ _ _ (x + y)) with (fl (x + y)) in E. rewrite E. unfold u_ro in He. rewrite half_u in He.
  replace ((x + y) * (1 + e) - (x + y)) with (e * (x + y)) by ring. rewrite Rabs_mult.
  assert (L : u / (1 + u) <= u).
  { pose proof u_pos. unfold Rdiv. rewrite <- (Rmult_1_r u) at 3. apply Rmult_le_compat_l; [lra|].
    rewrite <- Rinv_1. apply Rinv_le_contravar; lra. }
  apply Rmult_le_compat_r; [apply Rabs_pos|lra].
Qed.
Lemma fl_minus_error x y : format x -> format y -> Rabs (fl (x - y) - (x - y)) <= u * Rabs (x - y).
Proof. intros Fx Fy. unfold Rminus. apply (fl_sum_error x (- y)); [exact Fx|now apply generic_format_opp]. Qed.

(** Powers of one plus a rounding. *)
Lemma pw_ge n : 1 <= (1 + u) ^ n.
Proof. apply pow_R1_Rle. pose proof u_pos. lra. Qed.
Lemma pw_mono m n : (m <= n)%nat -> (1 + u) ^ m <= (1 + u) ^ n.
Proof. intros H. apply Rle_pow; [pose proof u_pos; lra|exact H]. Qed.

Definition prods (l : list (R * R)) : list R := List.map (fun p => fst p * snd p) l.
Definition absum (l : list R) : R := rsum (List.map Rabs l).
Lemma rsum_app l m : rsum (l ++ m) = rsum l + rsum m.
Proof. unfold rsum. induction l as [|x l IH]; cbn; [lra|]. rewrite IH. lra. Qed.
Lemma rsum_permut l m : Permutation l m -> rsum l = rsum m.
Proof. unfold rsum. induction 1; cbn in *; lra. Qed.
Lemma absum_pos l : 0 <= absum l.
Proof. unfold absum, rsum. induction l as [|x l IH]; cbn; [lra|]. pose proof (Rabs_pos x). lra. Qed.
Lemma absum_ge l : Rabs (rsum l) <= absum l.
Proof.
  unfold absum, rsum. induction l as [|x l IH]; cbn; [rewrite Rabs_R0; lra|].
  apply Rle_trans with (1 := Rabs_triang _ _). lra.
Qed.
Lemma absum_app l m : absum (l ++ m) = absum l + absum m.
Proof. unfold absum. rewrite map_app. apply rsum_app. Qed.
Lemma absum_perm l m : Permutation l m -> absum l = absum m.
Proof. intros P. unfold absum. apply rsum_permut. now apply Permutation_map. Qed.

(** The step common to both: two sums put together. *)
Lemma add_step s t S T A B n m D1 D2 :
  format s -> format t -> Rabs S <= A -> Rabs T <= B -> 0 <= D1 -> 0 <= D2 -> (0 < n)%nat -> (0 < m)%nat ->
  Rabs (s - S) <= ((1 + u) ^ n - 1) * A + (1 + u) ^ n * D1 -> Rabs (t - T) <= ((1 + u) ^ m - 1) * B + (1 + u) ^ m * D2 ->
  Rabs (fl (s + t) - (S + T)) <= ((1 + u) ^ (n + m) - 1) * (A + B) + (1 + u) ^ (n + m) * (D1 + D2).
Proof.
  intros Fs Ft HS HT P1 P2 Hn Hm E1 E2. pose proof (fl_sum_error s t Fs Ft) as E. pose proof u_pos as U.
  assert (A0 : 0 <= A) by (pose proof (Rabs_pos S); lra). assert (B0 : 0 <= B) by (pose proof (Rabs_pos T); lra).
  set (d := Rabs (s - S) + Rabs (t - T)).
  assert (X : Rabs (s + t - (S + T)) <= d).
  { replace (s + t - (S + T)) with ((s - S) + (t - T)) by ring. apply Rabs_triang. }
  assert (Y : Rabs (s + t) <= A + B + d).
  { replace (s + t) with ((S + T) + (s + t - (S + T))) by ring. apply Rle_trans with (1 := Rabs_triang _ _).
    pose proof (Rabs_triang S T). lra. }
  replace (fl (s + t) - (S + T)) with ((fl (s + t) - (s + t)) + (s + t - (S + T))) by ring.
  apply Rle_trans with (1 := Rabs_triang _ _).
  assert (Z : Rabs (fl (s + t) - (s + t)) + Rabs (s + t - (S + T)) <= (1 + u) * d + u * (A + B)) by nra.
  apply Rle_trans with (1 := Z). clear Z.
  assert (G1 : (1 + u) ^ (Datatypes.S n) <= (1 + u) ^ (n + m)) by (apply pw_mono; lia).
  assert (G2 : (1 + u) ^ (Datatypes.S m) <= (1 + u) ^ (n + m)) by (apply pw_mono; lia).
  cbn [pow] in G1, G2. set (G := (1 + u) ^ (n + m)) in *. set (gn := (1 + u) ^ n) in *. set (gm := (1 + u) ^ m) in *.
  assert (Z : (1 + u) * d + u * (A + B) <= ((1 + u) * gn - 1) * A + (1 + u) * gn * D1 + ((1 + u) * gm - 1) * B + (1 + u) * gm * D2).
  { assert (D : (1 + u) * d <= (1 + u) * ((gn - 1) * A + gn * D1 + ((gm - 1) * B + gm * D2))) by (apply Rmult_le_compat_l; [lra|unfold d; lra]). lra. }
  apply Rle_trans with (1 := Z). clear Z.
  assert (W1 : ((1 + u) * gn - 1) * A <= (G - 1) * A) by (apply Rmult_le_compat_r; lra).
  assert (W2 : ((1 + u) * gm - 1) * B <= (G - 1) * B) by (apply Rmult_le_compat_r; lra).
  assert (W3 : (1 + u) * gn * D1 <= G * D1) by (apply Rmult_le_compat_r; lra).
  assert (W4 : (1 + u) * gm * D2 <= G * D2) by (apply Rmult_le_compat_r; lra). lra.
Qed.

Lemma sums_error l s : sums l s -> List.Forall (fun x => format x) l ->
  format s /\ (l = [] -> s = 0) /\ Rabs (s - rsum l) <= ((1 + u) ^ length l - 1) * absum l.
Proof.
  induction 1 as [|a|l m s t H1 IH1 H2 IH2|l m s P H IH]; intros F.
  - split; [apply generic_format_0|]. split; [reflexivity|]. unfold absum, rsum. cbn. rewrite Rminus_0_r, Rabs_R0. lra.
  - split; [now inversion F|]. split; [discriminate|]. unfold absum, rsum. cbn. replace (a - (a + 0)) with 0 by ring. rewrite Rabs_R0.
    pose proof (Rabs_pos a). pose proof u_pos. nra.
  - apply List.Forall_app in F as (F1 & F2). destruct (IH1 F1) as (Fs & Zs & Es). destruct (IH2 F2) as (Ft & Zt & Et).
    split; [apply fl_format|]. split.
    { intros C. apply app_eq_nil in C as (-> & ->). rewrite Zs, Zt by reflexivity. rewrite Rplus_0_r. apply round_0, valid_rnd_N. }
    assert (Fid : forall x, format x -> fl x = x) by (intros x Fx; apply round_generic; [apply valid_rnd_N|exact Fx]).
    rewrite app_length, rsum_app, absum_app.
    destruct l as [|x l]; [rewrite Zs by reflexivity; rewrite Rplus_0_l, (Fid t Ft); cbn [length Nat.add]; change (rsum []) with 0; change (absum []) with 0; rewrite !Rplus_0_l; exact Et|].
    destruct m as [|y m]; [rewrite Zt by reflexivity; rewrite Rplus_0_r, (Fid s Fs); rewrite Nat.add_0_r; change (rsum []) with 0; change (absum []) with 0; rewrite !Rplus_0_r; exact Es|].
    pose proof (add_step s t (rsum (x :: l)) (rsum (y :: m)) (absum (x :: l)) (absum (y :: m)) (length (x :: l)) (length (y :: m)) 0 0) as A.
    rewrite Rplus_0_r, !Rmult_0_r, !Rplus_0_r in A. apply A; try assumption; try apply absum_ge; try lra; cbn; lia.
  - assert (F' : List.Forall (fun x => format x) l) by (apply List.Forall_forall; intros x Hx; rewrite List.Forall_forall in F; apply F; eapply Permutation_in; eassumption).
    destruct (IH F') as (Fs & Zs & Es). split; [exact Fs|]. split.
    { intros ->. apply Zs. apply Permutation_nil. now apply Permutation_sym. }
    rewrite <- (Permutation_length P), <- (rsum_permut _ _ P), <- (absum_perm _ _ P). exact Es.
Qed.

Lemma dots_error l s : dots l s ->
  format s /\ (l = [] -> s = 0) /\
  Rabs (s - rsum (prods l)) <= ((1 + u) ^ length l - 1) * absum (prods l) + (1 + u) ^ length l * (INR (length l) * tiny).
Proof.
  pose proof u_pos as U. pose proof tiny_pos as T.
  induction 1 as [|a b|a b l s H IH|l m s t H1 IH1 H2 IH2|l m s P H IH].
  - split; [apply generic_format_0|]. split; [reflexivity|]. unfold absum, rsum. cbn. rewrite Rminus_0_r, Rabs_R0. lra.
  - split; [apply fl_format|]. split; [discriminate|]. unfold absum, rsum, prods. cbn [List.map fold_right length pow fst snd]. pose proof (fl_error (a * b)) as E.
    change (INR 1) with 1. pose proof (Rabs_pos (a * b)) as Pp. rewrite !Rplus_0_r. set (p := Rabs (a * b)) in *.
    assert (0 <= u * tiny) by (apply Rmult_le_pos; lra). lra.
  - destruct IH as (Fs & _ & Es). split; [apply fl_format|]. split; [discriminate|].
    change (rsum (prods ((a, b) :: l))) with (a * b + rsum (prods l)). change (absum (prods ((a, b) :: l))) with (Rabs (a * b) + absum (prods l)).
    cbn [length]. rewrite S_INR. pose proof (fl_error (a * b + s)) as E. pose proof (pw_ge (length l)) as G1. cbn [pow].
    set (G := (1 + u) ^ length l) in *. set (S := rsum (prods l)) in *. pose proof (absum_ge (prods l)) as HA. fold S in HA. set (A := absum (prods l)) in *.
    set (d := Rabs (s - S)) in *. set (p := a * b) in *.
    assert (X : Rabs (p + s) <= Rabs p + (A + d)).
    { replace (p + s) with (p + (S + (s - S))) by ring. apply Rle_trans with (1 := Rabs_triang _ _). pose proof (Rabs_triang S (s - S)). unfold d. lra. }
    replace (fl (p + s) - (p + S)) with ((fl (p + s) - (p + s)) + (s - S)) by ring.
    apply Rle_trans with (1 := Rabs_triang _ _). fold d. pose proof (Rabs_pos p) as Pp.
    assert (N : 0 <= INR (length l) * tiny) by (apply Rmult_le_pos; [apply pos_INR|lra]). set (D := INR (length l) * tiny) in *.
    replace ((INR (length l) + 1) * tiny) with (D + tiny) by (unfold D; ring).
    assert (Y : Rabs (fl (p + s) - (p + s)) + d <= u * Rabs p + u * A + (1 + u) * d + tiny).
    { assert (u * Rabs (p + s) <= u * (Rabs p + (A + d))) by (apply Rmult_le_compat_l; lra). lra. }
    apply Rle_trans with (1 := Y). clear Y.
    assert (Z : (1 + u) * d <= (1 + u) * ((G - 1) * A + G * D)) by (apply Rmult_le_compat_l; lra).
    assert (W1 : u * Rabs p <= ((1 + u) * G - 1) * Rabs p) by (apply Rmult_le_compat_r; nra).
    assert (W2 : tiny <= (1 + u) * G * tiny) by (assert (1 <= (1 + u) * G) by nra; nra). nra.
  - destruct IH1 as (Fs & Zs & Es). destruct IH2 as (Ft & Zt & Et). split; [apply fl_format|]. split.
    { intros C. apply app_eq_nil in C as (-> & ->). rewrite Zs, Zt by reflexivity. rewrite Rplus_0_r. apply round_0, valid_rnd_N. }
    assert (Fid : forall x, format x -> fl x = x) by (intros x Fx; apply round_generic; [apply valid_rnd_N|exact Fx]).
    unfold prods in *. rewrite map_app, app_length, rsum_app, absum_app.
    destruct l as [|x l]; [rewrite Zs by reflexivity; rewrite Rplus_0_l, (Fid t Ft); cbn [length Nat.add List.map]; change (rsum []) with 0; change (absum []) with 0; rewrite !Rplus_0_l; exact Et|].
    destruct m as [|y m]; [rewrite Zt by reflexivity; rewrite Rplus_0_r, (Fid s Fs); cbn [List.map]; change (length (@nil (R * R))) with 0%nat; rewrite Nat.add_0_r; change (rsum []) with 0; change (absum []) with 0; rewrite !Rplus_0_r; exact Es|].
    rewrite plus_INR, Rmult_plus_distr_r.
    apply add_step; try assumption; try apply absum_ge; try (cbn [length]; lia); (apply Rmult_le_pos; [apply pos_INR|lra]).
  - destruct IH as (Fs & Zs & Es). split; [exact Fs|]. split.
    { intros ->. apply Zs. apply Permutation_nil. now apply Permutation_sym. }
    assert (P' : Permutation (prods l) (prods m)) by now apply Permutation_map.
    rewrite <- (Permutation_length P), <- (rsum_permut _ _ P'), <- (absum_perm _ _ P'). exact Es.
Qed.

(** ** One axis *)
Open Scope nat_scope.
Lemma fdiffs_length c : length (fdiffs c) = length c - 1.
Proof. induction c as [|x [|y r] IH]; [reflexivity..|]. cbn [fdiffs length] in *. rewrite IH. lia. Qed.
Lemma nth_fdiffs c k : S k < length c -> nth k (fdiffs c) 0%R = fl (nth (S k) c 0 - nth k c 0)%R.
Proof.
  revert k. induction c as [|x [|y r] IH]; intros k H; cbn [length] in H; try lia.
  destruct k; [reflexivity|]. change (fdiffs (x :: y :: r)) with (fl (y - x)%R :: fdiffs (y :: r)).
  change (nth k (fdiffs (y :: r)) 0%R = fl (nth (S k) (y :: r) 0 - nth k (y :: r) 0)%R). apply IH. cbn [length]. lia.
Qed.
Lemma fdz_length g n : fits g n -> 2 <= length g -> length (fdz_of g n) = n.
Proof.
  intros F L. unfold fdz_of. destruct F as [[F _]|[_ F]]; [lia|].
  destruct (Nat.ltb_spec 1 (length g)); [|lia]. cbn [andb].
  destruct (Nat.eqb_spec (length g) n); [rewrite app_length|]; rewrite fdiffs_length; cbn [length]; lia.
Qed.
Lemma nth_fdz g n k : fits g n -> 2 <= length g -> k < n -> nth k (fdz_of g n) 0%R = fl (width g n k).
Proof.
  intros F L K. unfold fdz_of, width. destruct F as [[F _]|[_ F]]; [lia|].
  destruct (Nat.ltb_spec 1 (length g)); [|lia]. cbn [andb].
  destruct (Nat.leb_spec (length g) 1); [lia|].
  destruct (Nat.eqb_spec (length g) n) as [E|E].
  - destruct (Nat.ltb_spec (S k) (length g)).
    + rewrite app_nth1 by (rewrite fdiffs_length; lia). now apply nth_fdiffs.
    + rewrite app_nth2 by (rewrite fdiffs_length; lia). rewrite fdiffs_length. replace (k - (length g - 1)) with 0 by lia.
      cbn [nth]. rewrite last_nth, fdiffs_length, nth_fdiffs by lia. do 3 f_equal; lia.
  - destruct (Nat.ltb_spec (S k) (length g)); [|lia]. now apply nth_fdiffs.
Qed.
Lemma fdz_map g n : fits g n -> 2 <= length g -> fdz_of g n = List.map (fun k => fl (width g n k)) (seq 0 n).
Proof.
  intros F L. apply nth_ext with (d := 0%R) (d' := fl (width g n 0)); [rewrite map_length, seq_length; now apply fdz_length|].
  intros k Hk. rewrite fdz_length in Hk by assumption. rewrite nth_fdz by assumption.
  rewrite (map_nth (fun k => fl (width g n k)) (seq 0 n) 0 k), seq_nth by lia. reflexivity.
Qed.
Lemma combine_map {A B C} (f : A -> B) (g : A -> C) l : combine (List.map f l) (List.map g l) = List.map (fun k => (f k, g k)) l.
Proof. induction l as [|x l IH]; [reflexivity|]. cbn. now rewrite IH. Qed.

Lemma fdz_all_ok grid sh : length grid <= length sh ->
  exists dz, fdz_all grid sh = Ok dz /\ length dz = length grid /\
    forall a, a < length grid -> nth a dz [] = fdz_of (nth a grid []) (nth a sh 0).
Proof.
  revert sh. induction grid as [|c g IH]; intros [|n sh] L; cbn [length] in L; try lia.
  - exists []. split; [reflexivity|]. split; [reflexivity|]. cbn. lia.
  - exists []. split; [reflexivity|]. split; [reflexivity|]. cbn. lia.
  - destruct (IH sh ltac:(lia)) as (dz & E & L' & H). exists (fdz_of c n :: dz). cbn [fdz_all]. rewrite E. split; [reflexivity|].
    split; [cbn [length]; lia|]. intros [|a] Ha; [reflexivity|]. apply H. cbn [length] in Ha. lia.
Qed.

Lemma width_pos g n k : fits g n -> ascending g -> k < n -> (0 <= width g n k)%R.
Proof.
  intros F A K. unfold width. destruct (Nat.leb_spec (length g) 1).
  - left. apply Rinv_0_lt_compat. apply lt_0_INR. lia.
  - destruct (Nat.ltb_spec (S k) (length g)) as [L|L].
    + specialize (A k L). lra.
    + destruct F as [[F _]|[_ F]]; [lia|]. assert (E : k = S (k - 1)) by lia. specialize (A (k - 1)).
      rewrite <- E in A. specialize (A ltac:(lia)). lra.
Qed.
Lemma width_error g n k : fits g n -> List.Forall (fun x => format x) g -> 2 <= length g -> k < n ->
  (Rabs (fl (width g n k) - width g n k) <= u * Rabs (width g n k))%R.
Proof.
  intros F D L K. assert (N : forall i, format (nth i g 0%R)).
  { intros i. destruct (nth_in_or_default i g 0%R) as [I| ->]; [|apply generic_format_0]. rewrite List.Forall_forall in D. now apply D. }
  unfold width. destruct (Nat.leb_spec (length g) 1); [lia|]. destruct (Nat.ltb_spec (S k) (length g)); apply fl_minus_error; apply N.
Qed.

Open Scope R_scope.
Lemma rsum_le {A} (f g : A -> R) l : (forall k, In k l -> f k <= g k) -> rsum (List.map f l) <= rsum (List.map g l).
Proof.
  unfold rsum. induction l as [|x l IH]; intros H; cbn; [lra|]. pose proof (H x (or_introl eq_refl)).
  specialize (IH (fun k Hk => H k (or_intror Hk))). lra.
Qed.
Lemma rsum_abs {A} (f : A -> R) l : Rabs (rsum (List.map f l)) <= rsum (List.map (fun k => Rabs (f k)) l).
Proof. pose proof (absum_ge (List.map f l)) as H. unfold absum in H. rewrite map_map in H. exact H. Qed.
Lemma rsum_nonneg {A} (f : A -> R) l : (forall k, In k l -> 0 <= f k) -> 0 <= rsum (List.map f l).
Proof. intros H. rewrite <- (rsum_zero l). now apply rsum_le. Qed.
Lemma rsum_minus {A} (f g : A -> R) l : rsum (List.map (fun k => f k - g k) l) = rsum (List.map f l) - rsum (List.map g l).
Proof. unfold rsum. induction l as [|k l IH]; cbn; [lra|]. rewrite IH. lra. Qed.

Section Axis.
  Context (n : nat) (w f h m : nat -> R) (K P G S : R).
  Let N := seq 0 n.
  Let F := rsum (List.map (fun k => w k * Rabs (f k)) N).
  Let E := rsum (List.map (fun k => w k * Rabs (h k - f k)) N).

  Lemma core :
    (forall k, In k N -> 0 <= w k /\ Rabs (f k) <= m k /\ Rabs (h k - f k) <= (K - 1) * m k + K * (P * tiny)) ->
    1 <= K -> 1 <= P -> 1 <= G ->
    Rabs (S - rsum (List.map (fun k => w k * f k) N)) <= (G - 1) * F + G * E + G * (INR n * tiny) ->
    Rabs (rsum (List.map (fun k => w k * f k) N)) <= rsum (List.map (fun k => w k * m k) N) /\
    Rabs (S - rsum (List.map (fun k => w k * f k) N)) <=
      (K * G - 1) * rsum (List.map (fun k => w k * m k) N) + K * G * (P * (rsum (List.map w N) + INR n) * tiny).
  Proof using Type.
    intros H HK HP HG HS. set (M := rsum (List.map (fun k => w k * m k) N)). set (L := rsum (List.map w N)).
    assert (FM : F <= M) by (apply rsum_le; intros k Hk; destruct (H k Hk) as (W & A & _); now apply Rmult_le_compat_l).
    assert (EM : E <= (K - 1) * M + K * (P * tiny) * L).
    { unfold M, L. rewrite <- !rsum_scale, <- rsum_plus. apply rsum_le. intros k Hk. destruct (H k Hk) as (W & _ & A).
      apply Rmult_le_compat_l with (r := w k) in A; [|exact W]. lra. }
    split.
    { apply Rle_trans with (1 := rsum_abs _ _). apply Rle_trans with F; [|exact FM]. unfold F. apply rsum_le. intros k Hk.
      destruct (H k Hk) as (W & _). rewrite Rabs_mult, (Rabs_pos_eq (w k)) by exact W. lra. }
    apply Rle_trans with (1 := HS). pose proof tiny_pos as T. pose proof (pos_INR n) as Hn.
    assert (X1 : (G - 1) * F <= (G - 1) * M) by (apply Rmult_le_compat_l; lra).
    assert (X2 : G * E <= G * ((K - 1) * M + K * (P * tiny) * L)) by (apply Rmult_le_compat_l; lra).
    assert (X3 : G * (INR n * tiny) <= G * (K * P * (INR n * tiny))).
    { apply Rmult_le_compat_l; [lra|]. assert (0 <= INR n * tiny) by (apply Rmult_le_pos; lra). assert (1 <= K * P) by nra. nra. }
    replace (K * G * (P * (L + INR n) * tiny)) with (G * (K * (P * tiny) * L) + G * (K * P * (INR n * tiny))) by ring.
    replace ((K * G - 1) * M) with ((G - 1) * M + G * ((K - 1) * M)) by ring. lra.
  Qed.

  (** A dot product with rounded widths. *)
  Lemma dot_axis : G = (1 + u) ^ (n + 1) ->
    (forall k, In k N -> 0 <= w k) -> (forall k, In k N -> Rabs (fl (w k) - w k) <= u * Rabs (w k)) ->
    dots (List.map (fun k => (h k, fl (w k))) N) S ->
    Rabs (S - rsum (List.map (fun k => w k * f k) N)) <= (G - 1) * F + G * E + G * (INR n * tiny).
  Proof using Type.
    intros HG W R D. destruct (dots_error _ _ D) as (_ & _ & X). unfold prods in X. rewrite map_map in X. cbn [fst snd] in X.
    assert (LN : length N = n) by apply seq_length. rewrite map_length, LN in X. unfold absum in X. rewrite map_map in X.
    set (g := (1 + u) ^ n) in *. assert (Gg : G = (1 + u) * g) by (rewrite HG, Nat.add_1_r; reflexivity).
    pose proof (pw_ge n) as g1. fold g in g1. pose proof u_pos as U. pose proof tiny_pos as T.
    assert (B1 : rsum (List.map (fun k => Rabs (h k * fl (w k))) N) <= (1 + u) * (F + E)).
    { unfold F, E. rewrite <- rsum_plus, <- rsum_scale. apply rsum_le. intros k Hk. specialize (W k Hk). specialize (R k Hk).
      rewrite (Rabs_pos_eq (w k)) in R by exact W. rewrite Rabs_mult.
      assert (A1 : Rabs (h k) <= Rabs (f k) + Rabs (h k - f k)) by (replace (h k) with (f k + (h k - f k)) at 1 by ring; apply Rabs_triang).
      assert (A2 : Rabs (fl (w k)) <= (1 + u) * w k).
      { replace (fl (w k)) with (w k + (fl (w k) - w k)) by ring. apply Rle_trans with (1 := Rabs_triang _ _). rewrite (Rabs_pos_eq (w k)) by exact W. lra. }
      apply Rle_trans with ((Rabs (f k) + Rabs (h k - f k)) * ((1 + u) * w k)); [|lra].
      apply Rmult_le_compat; try apply Rabs_pos; assumption. }
    assert (B2 : Rabs (rsum (List.map (fun k => h k * fl (w k)) N) - rsum (List.map (fun k => w k * f k) N)) <= (1 + u) * E + u * F).
    { rewrite <- rsum_minus. apply Rle_trans with (1 := rsum_abs _ _). unfold F, E. rewrite <- !rsum_scale, <- rsum_plus. apply rsum_le.
      intros k Hk. specialize (W k Hk). specialize (R k Hk). rewrite (Rabs_pos_eq (w k)) in R by exact W.
      replace (h k * fl (w k) - w k * f k) with (w k * (h k - f k) + h k * (fl (w k) - w k)) by ring.
      apply Rle_trans with (1 := Rabs_triang _ _). rewrite !Rabs_mult, (Rabs_pos_eq (w k)) by exact W.
      assert (A1 : Rabs (h k) <= Rabs (f k) + Rabs (h k - f k)) by (replace (h k) with (f k + (h k - f k)) at 1 by ring; apply Rabs_triang).
      assert (A3 : Rabs (h k) * Rabs (fl (w k) - w k) <= (Rabs (f k) + Rabs (h k - f k)) * (u * w k)) by (apply Rmult_le_compat; try apply Rabs_pos; assumption).
      lra. }
    replace (S - rsum (List.map (fun k => w k * f k) N)) with ((S - rsum (List.map (fun k => h k * fl (w k)) N)) + (rsum (List.map (fun k => h k * fl (w k)) N) - rsum (List.map (fun k => w k * f k) N))) by ring.
    apply Rle_trans with (1 := Rabs_triang _ _).
    assert (B3 : (g - 1) * rsum (List.map (fun k => Rabs (h k * fl (w k))) N) <= (g - 1) * ((1 + u) * (F + E))) by (apply Rmult_le_compat_l; lra).
    assert (B4 : g * (INR n * tiny) <= G * (INR n * tiny)).
    { apply Rmult_le_compat_r; [apply Rmult_le_pos; [apply pos_INR|lra]|]. rewrite Gg. nra. }
    rewrite Gg in B4 |- *. lra.
  Qed.

  (** A mean. *)
  Lemma mean_axis_error s : G = (1 + u) ^ (n + 1) -> (0 < n)%nat -> (forall k, In k N -> w k = / INR n) ->
    (forall k, In k N -> format (h k)) -> sums (List.map h N) s -> S = fl (s / INR n) ->
    Rabs (S - rsum (List.map (fun k => w k * f k) N)) <= (G - 1) * F + G * E + G * (INR n * tiny).
  Proof using Type.
    intros HG Hn W Fh D ES. destruct (sums_error _ _ D) as (_ & _ & X).
    { apply List.Forall_forall. intros x Hx. apply in_map_iff in Hx as (k & <- & Hk). now apply Fh. }
    assert (LN : length N = n) by apply seq_length. rewrite map_length, LN in X. unfold absum in X. rewrite map_map in X.
    set (g := (1 + u) ^ n) in *. assert (Gg : G = (1 + u) * g) by (rewrite HG, Nat.add_1_r; reflexivity).
    pose proof (pw_ge n) as g1. fold g in g1. pose proof u_pos as U. pose proof tiny_pos as T.
    assert (Pn : 0 < INR n) by now apply lt_0_INR. assert (N1 : 1 <= INR n) by (change 1 with (INR 1); apply le_INR; lia).
    assert (Pi : 0 < / INR n) by now apply Rinv_0_lt_compat.
    assert (EF : F = / INR n * rsum (List.map (fun k => Rabs (f k)) N)).
    { unfold F. rewrite <- rsum_scale. apply rsum_ext. intros k Hk. now rewrite W. }
    assert (EE : E = / INR n * rsum (List.map (fun k => Rabs (h k - f k)) N)).
    { unfold E. rewrite <- rsum_scale. apply rsum_ext. intros k Hk. now rewrite W. }
    assert (Ef : rsum (List.map (fun k => w k * f k) N) = / INR n * rsum (List.map f N)).
    { rewrite <- rsum_scale. apply rsum_ext. intros k Hk. now rewrite W. }
    rewrite Ef. set (sf := rsum (List.map f N)) in *. set (sh := rsum (List.map h N)) in *.
    set (F1 := rsum (List.map (fun k => Rabs (f k)) N)) in *. set (E1 := rsum (List.map (fun k => Rabs (h k - f k)) N)) in *.
    assert (B1 : rsum (List.map (fun k => Rabs (h k)) N) <= F1 + E1).
    { unfold F1, E1. rewrite <- rsum_plus. apply rsum_le. intros k Hk. replace (h k) with (f k + (h k - f k)) at 1 by ring. apply Rabs_triang. }
    assert (B2 : Rabs (sh - sf) <= E1) by (unfold sh, sf, E1; rewrite <- rsum_minus; apply rsum_abs).
    assert (B3 : Rabs sf <= F1) by apply rsum_abs.
    assert (F0 : 0 <= F1) by (pose proof (Rabs_pos sf); lra). assert (E0 : 0 <= E1) by (pose proof (Rabs_pos (sh - sf)); lra).
    assert (B4 : Rabs (s - sf) <= (g - 1) * (F1 + E1) + E1).
    { replace (s - sf) with ((s - sh) + (sh - sf)) by ring. apply Rle_trans with (1 := Rabs_triang _ _).
      assert ((g - 1) * rsum (List.map (fun k => Rabs (h k)) N) <= (g - 1) * (F1 + E1)) by (apply Rmult_le_compat_l; lra). lra. }
    pose proof (fl_error (s / INR n)) as C. rewrite <- ES in C.
    assert (D1 : Rabs (s / INR n - / INR n * sf) <= / INR n * ((g - 1) * (F1 + E1) + E1)).
    { replace (s / INR n - / INR n * sf) with (/ INR n * (s - sf)) by (unfold Rdiv; ring). rewrite Rabs_mult, (Rabs_pos_eq (/ INR n)) by lra.
      apply Rmult_le_compat_l; lra. }
    assert (D2 : Rabs (s / INR n) <= / INR n * F1 + / INR n * ((g - 1) * (F1 + E1) + E1)).
    { replace (s / INR n) with (/ INR n * sf + (s / INR n - / INR n * sf)) by ring. apply Rle_trans with (1 := Rabs_triang _ _).
      rewrite Rabs_mult, (Rabs_pos_eq (/ INR n)) by lra. assert (/ INR n * Rabs sf <= / INR n * F1) by (apply Rmult_le_compat_l; lra). lra. }
    replace (S - / INR n * sf) with ((S - s / INR n) + (s / INR n - / INR n * sf)) by ring.
    apply Rle_trans with (1 := Rabs_triang _ _).
    assert (D3 : u * Rabs (s / INR n) <= u * (/ INR n * F1 + / INR n * ((g - 1) * (F1 + E1) + E1))) by (apply Rmult_le_compat_l; lra).
    assert (D4 : tiny <= G * (INR n * tiny)).
    { assert (1 <= G * INR n) by (rewrite Gg; assert (1 <= (1 + u) * g) by nra; nra). rewrite <- Rmult_assoc. nra. }
    rewrite EF, EE. set (i := / INR n) in *. rewrite Gg in D4 |- *. nra.
  Qed.
End Axis.

(** ** All axes *)
Definition inv (s : list nat) (h f m : list nat -> R) (K P : R) : Prop :=
  forall j, in_range s j -> format (h j) /\ Rabs (f j) <= m j /\ Rabs (h j - f j) <= (K - 1) * m j + K * (P * tiny).

Definition mids (mid : nat -> list R -> R) (axes : list nat) (grid : list (list R)) : list (list R) :=
  fold_right (fun a g => set_nth a [mid a (nth a grid [])] g) grid axes.

Lemma fits_pos g n : fits g n -> (0 < n)%nat.
Proof. intros [[_ H]|[H [E|E]]]; lia. Qed.

Section Steps.
  Context (dot : nat -> list nat -> list R -> list R -> R) (sum : nat -> list nat -> list R -> R).
  Context (Hdot : forall a i v w, length v = length w -> dots (combine v w) (dot a i v w)).
  Context (Hsum : forall a i v, sums v (sum a i v)).
  Context (grid dz : list (list R)) (sh : list nat).
  Context (Ld : length dz = length grid).
  Context (Hd : forall a, (a < length grid)%nat -> nth a dz [] = fdz_of (nth a grid []) (nth a sh 0%nat)).

  Definition good (a : nat) : Prop :=
    (a < length grid)%nat /\ fits (nth a grid []) (nth a sh 0%nat) /\ ascending (nth a grid []) /\ List.Forall (fun x => format x) (nth a grid []).

  Notation wd a k := (width (nth a grid []) (nth a sh 0%nat) k).

  Lemma fstep_ok s a v h f m K P :
    holds s v h -> inv s h f m K P -> 1 <= K -> 1 <= P -> (a < length s)%nat -> nth a s 0%nat = nth a sh 0%nat -> good a ->
    exists v' h', fint_step dot sum grid dz (Z.of_nat a) v = Ok v' /\ holds (del a s) v' h' /\
      inv (del a s) h' (fun idx => rsum (List.map (fun k => wd a k * f (ins a k idx)) (seq 0 (nth a sh 0%nat))))
        (fun idx => rsum (List.map (fun k => wd a k * m (ins a k idx)) (seq 0 (nth a sh 0%nat))))
        (K * (1 + u) ^ (nth a sh 0 + 1)%nat) (P * (extent (nth a grid []) (nth a sh 0%nat) + INR (nth a sh 0%nat))).
  Proof using Hdot Hsum Ld Hd.
    intros Hv Hi HK HP Ls Es (La & Fi & As & Fo). pose proof Hv as (W & S & V). unfold fint_step. pose proof (fits_pos _ _ Fi) as Pn.
    set (n := nth a sh 0%nat) in *. set (g := nth a grid []) in *. set (G := (1 + u) ^ (n + 1)). assert (G1 : 1 <= G) by apply pw_ge.
    rewrite (at_nat grid a []) by exact La. cbn [bind]. fold g.
    assert (Rg : forall idx k, in_range (del a s) idx -> In k (seq 0 n) -> in_range s (ins a k idx)).
    { intros idx k Hx Hk. apply in_seq in Hk. apply range_ins; [exact Hx|exact Ls|rewrite Es; lia]. }
    assert (Pre : forall idx, in_range (del a s) idx -> forall k, In k (seq 0 n) -> 0 <= width g n k /\
       Rabs (f (ins a k idx)) <= m (ins a k idx) /\ Rabs (h (ins a k idx) - f (ins a k idx)) <= (K - 1) * m (ins a k idx) + K * (P * tiny)).
    { intros idx Hx k Hk. split; [apply in_seq in Hk; apply width_pos; [exact Fi|exact As|lia]|]. now apply (Hi (ins a k idx)), Rg. }
    destruct (Nat.ltb_spec 1 (length g)) as [L1|L1].
    - rewrite S, norm_axis_nat by lia. cbn [bind]. rewrite (at_nat dz a []) by lia. cbn [bind]. rewrite Hd by exact La. fold g n.
      assert (Lw : length (fdz_of g n) = n) by (apply fdz_length; [exact Fi|lia]).
      unfold fdot_last, move_last. cbn [shape tabulate]. rewrite S, last_snoc, Es, Lw, Nat.eqb_refl, removelast_snoc.
      eexists _, _. split; [reflexivity|]. split; [apply holds_tab|].
      intros idx Hx. cbv beta.
      change (mk_nda _ _) with (tabulate (del a s ++ [n]) (fun idx0 => val v (ins a (last idx0 0%nat) (removelast idx0)))).
      set (vs := List.map _ (seq 0 n)).
      assert (Ev : vs = List.map (fun k => h (ins a k idx)) (seq 0 n)).
      { apply map_ext_in. intros k Hk. pose proof (Rg idx k Hx Hk) as Rk. apply in_seq in Hk.
        erewrite holds_val; [|apply holds_tab|apply in_range_snoc; [exact Hx|lia]].
        cbv beta. rewrite last_snoc, removelast_snoc. erewrite holds_val; [reflexivity|exact Hv|exact Rk]. }
      assert (D : dots (List.map (fun k => (h (ins a k idx), fl (width g n k))) (seq 0 n)) (dot a idx vs (fdz_of g n))).
      { rewrite <- combine_map, <- Ev, <- (fdz_map g n Fi) by lia. apply Hdot. rewrite Lw, Ev, map_length, seq_length. reflexivity. }
      split; [apply (dots_error _ _ D)|].
      apply (core n (width g n) (fun k => f (ins a k idx)) (fun k => h (ins a k idx)) (fun k => m (ins a k idx)) K P G); auto.
      apply dot_axis; [reflexivity| | |exact D].
      + intros k Hk. now apply (Pre idx).
      + intros k Hk. apply in_seq in Hk. apply width_error; [exact Fi|exact Fo|lia|lia].
    - rewrite S, norm_axis_nat by lia. cbn [bind]. eexists _, _. split; [reflexivity|].
      unfold fmean_axis. rewrite S, Es. split; [apply holds_tab|].
      intros idx Hx. cbv beta. set (vs := List.map _ (seq 0 n)).
      assert (Ev : vs = List.map (fun k => h (ins a k idx)) (seq 0 n)).
      { apply map_ext_in. intros k Hk. pose proof (Rg idx k Hx Hk) as Rk. erewrite holds_val; [reflexivity|exact Hv|exact Rk]. }
      split; [apply fl_format|].
      apply (core n (width g n) (fun k => f (ins a k idx)) (fun k => h (ins a k idx)) (fun k => m (ins a k idx)) K P G); auto.
      eapply mean_axis_error; [reflexivity|exact Pn| | | |reflexivity].
      + intros k Hk. unfold width. destruct (Nat.leb_spec (length g) 1); [reflexivity|lia].
      + intros k Hk. now apply (Hi (ins a k idx)), Rg.
      + rewrite <- Ev. apply Hsum.
  Qed.

  Lemma room_ge axes : (forall a, In a axes -> good a) -> 1 <= room grid sh axes.
  Proof using Type.
    clear Ld Hd dz. induction axes as [|a r IH]; intros H; [cbn; lra|]. change (room grid sh (a :: r)) with ((extent (nth a grid []) (nth a sh 0%nat) + INR (nth a sh 0%nat)) * room grid sh r).
    specialize (IH (fun b Hb => H b (or_intror Hb))). destruct (H a (or_introl eq_refl)) as (_ & Fi & As & _).
    assert (E : 0 <= extent (nth a grid []) (nth a sh 0%nat)) by (apply rsum_nonneg; intros k Hk; apply in_seq in Hk; apply width_pos; [exact Fi|exact As|lia]).
    assert (N1 : 1 <= INR (nth a sh 0%nat)) by (change 1 with (INR 1); apply le_INR; apply fits_pos in Fi; lia). nra.
  Qed.

  Lemma fsteps_ok axes s v h f m K P :
    holds s v h -> inv s h f m K P -> 1 <= K -> 1 <= P -> desc axes ->
    (forall a, In a axes -> (a < length s)%nat /\ nth a s 0%nat = nth a sh 0%nat /\ good a) ->
    exists v', fint_steps dot sum grid dz (List.map Z.of_nat axes) v = Ok v' /\ wf v' /\ shape v' = dels axes s /\
      forall idx, in_range (collapse_shape axes s) idx -> exists x, get v' (dels axes idx) = Some x /\ format x /\
        Rabs (x - total grid sh (rev axes) f idx) <=
          (K * (1 + u) ^ roundings sh axes - 1) * total grid sh (rev axes) m idx + K * (1 + u) ^ roundings sh axes * (P * room grid sh axes * tiny).
  Proof using Hdot Hsum Ld Hd.
    revert s v h f m K P. induction axes as [|a r IH]; intros s v h f m K P Hv Hi HK HP D H.
    - exists v. pose proof Hv as (W & S & V). split; [reflexivity|]. split; [exact W|]. split; [exact S|].
      intros idx Hx. exists (h idx). change (dels [] idx) with idx. split; [apply V; exact Hx|]. cbn [rev total roundings fold_right room pow]. rewrite !Rmult_1_r.
      destruct (Hi idx Hx) as (F1 & _ & F2). auto.
    - inversion D as [|x y D' Lt]; subst. destruct (H a (or_introl eq_refl)) as (Ls & Es & Ga).
      destruct (fstep_ok s a v h f m K P Hv Hi HK HP Ls Es Ga) as (v1 & h1 & E1 & Hv1 & Hi1). cbn [List.map fint_steps]. rewrite E1. cbn [bind].
      rewrite List.Forall_forall in Lt.
      assert (G1 : 1 <= (1 + u) ^ (nth a sh 0 + 1)%nat) by apply pw_ge.
      assert (P1 : 1 <= extent (nth a grid []) (nth a sh 0%nat) + INR (nth a sh 0%nat)).
      { pose proof (room_ge [a]) as Q. change (room grid sh [a]) with ((extent (nth a grid []) (nth a sh 0%nat) + INR (nth a sh 0%nat)) * 1) in Q. rewrite Rmult_1_r in Q. apply Q. intros b [<-|[]]. exact Ga. }
      destruct (IH (del a s) v1 h1 _ _ _ _ Hv1 Hi1) as (v2 & E2 & W2 & S2 & V2); [nra|nra|exact D'| |].
      { intros b Hb. specialize (Lt b Hb). destruct (H b (or_intror Hb)) as (Ls' & Es' & F').
        rewrite del_length by exact Ls. rewrite nth_del_lt by exact Lt. split; [lia|]. auto. }
      exists v2. split; [exact E2|]. split; [exact W2|]. split; [exact S2|]. intros idx Hx.
      change (dels (a :: r) idx) with (dels r (del a idx)).
      assert (Hx' : in_range (collapse_shape r (del a s)) (del a idx)).
      { apply (range_del a) in Hx. cbn [collapse_shape fold_right] in Hx. rewrite del_set_same in Hx.
        fold (collapse_shape r s) in Hx. rewrite del_collapse in Hx; [exact Hx|]. now apply List.Forall_forall. }
      destruct (V2 _ Hx') as (x & Gx & Fx & Ex). exists x. split; [exact Gx|]. split; [exact Fx|].
      assert (T : forall q, total grid sh (rev r) (fun idx => rsum (List.map (fun k => wd a k * q (ins a k idx)) (seq 0 (nth a sh 0%nat)))) (del a idx) = total grid sh (rev (a :: r)) q idx).
      { intros q. cbn [rev]. rewrite total_app, total_del.
        2:{ apply List.Forall_forall. intros b Hb. apply Lt. now apply in_rev. }
        apply total_ext_len with (n := length s).
        { apply in_range_length in Hx. now rewrite collapse_length in Hx. }
        intros j Hj. cbn [total]. apply rsum_ext. intros k _. rewrite ins_del by lia. reflexivity. }
      rewrite !T in Ex. cbn [roundings fold_right]. fold (roundings sh r).
      change (room grid sh (a :: r)) with ((extent (nth a grid []) (nth a sh 0%nat) + INR (nth a sh 0%nat)) * room grid sh r).
      rewrite pow_add. eapply Rle_trans; [exact Ex|]. right. ring.
  Qed.

  Lemma fexpand_app l k s : fexpand_steps sum (l ++ k) s = let* t := fexpand_steps sum l s in fexpand_steps sum k t.
  Proof using Type.
    revert s. induction l as [|a l IH]; intros s; [reflexivity|]. cbn [app fexpand_steps].
    destruct (norm_index _ _); cbn [bind]; [|reflexivity]. destruct (norm_axis _ _); cbn [bind]; [apply IH|reflexivity].
  Qed.

  Lemma mids_length mid l g : length (mids mid l g) = length g.
  Proof using Type. induction l as [|b l IH]; [reflexivity|]. cbn [mids fold_right]. now rewrite set_nth_length. Qed.

  Lemma fexpands_ok axes s x :
    desc axes -> wf x -> shape x = dels axes s -> (forall a, In a axes -> (a < length grid /\ a < length s)%nat) ->
    exists w, fexpand_steps sum (List.map Z.of_nat (rev axes)) (grid, x) = Ok (mids (fmean sum) axes grid, w) /\
      wf w /\ shape w = collapse_shape axes s /\
      forall idx, in_range (collapse_shape axes s) idx -> get w idx = get x (dels axes idx).
  Proof using Type.
    clear Ld Hd dz. revert s x. induction axes as [|a r IH]; intros s x D W S H.
    - exists x. split; [reflexivity|]. split; [exact W|]. split; [exact S|]. reflexivity.
    - inversion D as [|p q D' Lt]; subst. rewrite List.Forall_forall in Lt. destruct (H a (or_introl eq_refl)) as (La & Ls).
      destruct (IH (del a s) x D' W S) as (w & E & Ww & Sw & V).
      { intros b Hb. rewrite del_length by exact Ls. specialize (Lt b Hb). destruct (H b (or_intror Hb)). lia. }
      cbn [rev]. rewrite map_app, fexpand_app, E. cbn [bind List.map fexpand_steps fst snd].
      rewrite norm_index_nat by (rewrite mids_length; exact La). cbn [bind].
      rewrite norm_axis_nat by (rewrite Sw, collapse_length, del_length by exact Ls; lia). cbn [bind].
      eexists. split.
      + do 2 f_equal. cbn [mids fold_right]. fold (mids (fmean sum) r grid). do 3 f_equal.
        assert (En : forall l, List.Forall (fun b => (b < a)%nat) l -> nth a (mids (fmean sum) l grid) [] = nth a grid []).
        { clear - La. intros l. induction l as [|b l IH]; intros Hl; [reflexivity|]. inversion Hl; subst. cbn [mids fold_right]. fold (mids (fmean sum) l grid).
          rewrite nth_set by (rewrite mids_length; lia). destruct (Nat.eqb_spec a b); [lia|]. now apply IH. }
        apply En. now apply List.Forall_forall.
      + assert (Hw : holds (collapse_shape r (del a s)) w (val w)).
        { split; [exact Ww|]. split; [exact Sw|]. intros j Hj. apply val_get; [exact Ww|]. now rewrite Sw. }
        apply (holds_expand a) in Hw.
        2:{ rewrite collapse_length, del_length by exact Ls. lia. }
        rewrite <- del_collapse in Hw by now apply List.Forall_forall.
        rewrite ins_del in Hw by (rewrite collapse_length; exact Ls).
        destruct Hw as (We & Se & Ve). split; [exact We|]. split; [exact Se|].
        intros idx Hi. rewrite Ve by exact Hi. change (dels (a :: r) idx) with (dels r (del a idx)).
        assert (Hdl : in_range (collapse_shape r (del a s)) (del a idx)).
        { apply (range_del a) in Hi. cbn [collapse_shape fold_right] in Hi. rewrite del_set_same in Hi.
          fold (collapse_shape r s) in Hi. rewrite del_collapse in Hi; [exact Hi|]. now apply List.Forall_forall. }
        rewrite <- V by exact Hdl. symmetry. apply val_get; [exact Ww|]. now rewrite Sw.
  Qed.
End Steps.

Lemma roundings_perm sh l m : Permutation l m -> roundings sh l = roundings sh m.
Proof. unfold roundings. induction 1; cbn [fold_right]; lia. Qed.
Lemma room_perm grid sh l m : Permutation l m -> room grid sh l = room grid sh m.
Proof. unfold room. induction 1 as [|a l m P IH|a b l|l m n P1 IH1 P2 IH2]; cbn [fold_right]; [reflexivity|now rewrite IH|ring|congruence]. Qed.
Lemma mids_perm mid l m grid : Permutation l m -> mids mid l grid = mids mid m grid.
Proof.
  induction 1 as [|a l m P IH|a b l|l m n P1 IH1 P2 IH2]; [reflexivity| | |congruence].
  - unfold mids in *. cbn [fold_right]. now rewrite IH.
  - unfold mids. cbn [fold_right]. destruct (Nat.eq_dec a b) as [->|N]; [reflexivity|]. apply set_comm. congruence.
Qed.

Lemma fintegrate_ok dot sum nd arg grid v sh f axes :
  (forall a i v w, length v = length w -> dots (combine v w) (dot a i v w)) -> (forall a i v, sums v (sum a i v)) ->
  parse_axis nd arg = Ok (List.map Z.of_nat axes) -> NoDup axes ->
  holds sh v f -> (forall j, in_range sh j -> format (f j)) -> (length grid <= length sh)%nat ->
  (forall a, In a axes -> good grid sh a) ->
  exists w, fintegrate dot sum nd arg (grid, v) = Ok (mids (fmean sum) axes grid, w) /\
    wf w /\ shape w = collapse_shape axes sh /\
    forall idx, in_range (collapse_shape axes sh) idx -> exists x, get w idx = Some x /\ format x /\
      Rabs (x - total grid sh axes f idx) <=
        ((1 + u) ^ roundings sh axes - 1) * total grid sh axes (fun j => Rabs (f j)) idx + (1 + u) ^ roundings sh axes * (room grid sh axes * tiny).
Proof.
  intros Hdot Hsum EP ND Hv Ff Lg H. pose proof Hv as (W & S & V). unfold fintegrate. rewrite EP. cbn [bind fst snd]. rewrite S.
  destruct (fdz_all_ok grid sh Lg) as (dz & -> & Ld & Hd). cbn [bind].
  set (up := isort Nat.leb axes). assert (P : Permutation axes up) by apply isort_perm.
  assert (PR : Permutation axes (rev up)) by (rewrite P; apply Permutation_rev).
  rewrite sort_of_nat. fold up. rewrite <- map_rev.
  assert (D : desc (rev up)) by (apply asc_rev, isort_asc, ND).
  assert (In' : forall a, In a (rev up) -> In a axes) by (intros a Ha; apply Permutation_sym in PR; now apply (Permutation_in a PR)).
  destruct (fsteps_ok dot sum Hdot Hsum grid dz sh Ld Hd (rev up) sh v f f (fun j => Rabs (f j)) 1 1 Hv) as (x & -> & Wx & Sx & Vx).
  { intros j Hj. split; [now apply Ff|]. split; [lra|]. rewrite Rminus_diag_eq by reflexivity. rewrite Rabs_R0. pose proof tiny_pos. lra. }
  { lra. } { lra. } { exact D. }
  { intros a Ha. pose proof (H a (In' a Ha)) as Ga. pose proof Ga as (La & _). split; [lia|]. auto. }
  cbn [bind].
  destruct (fexpands_ok sum grid (rev up) sh x D Wx Sx) as (w & E & Ww & Sw & Vw).
  { intros a Ha. destruct (H a (In' a Ha)) as (La & _). lia. }
  rewrite rev_involutive in E. rewrite E. exists w. split.
  - do 2 f_equal. apply mids_perm. now apply Permutation_sym.
  - rewrite (collapse_perm _ _ sh PR). split; [exact Ww|]. split; [exact Sw|]. intros idx Hx.
    destruct (Vx idx Hx) as (y & Gy & Fy & Ey). exists y. rewrite Vw by exact Hx. split; [exact Gy|]. split; [exact Fy|].
    rewrite !Rmult_1_l in Ey. rewrite rev_involutive in Ey.
    rewrite (roundings_perm sh axes (rev up) PR), (room_perm grid sh axes (rev up) PR), !(total_perm grid sh axes up) by (try exact P; exact ND). exact Ey.
Qed.
