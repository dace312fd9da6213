(** * C92: the common range of several datasets *)
From Coq Require Import String Ascii List Arith ZArith QArith Qminmax Qround Bool Lia Lqa Sorted Permutation.
From Verif Require Import Prelude PreludeFacts Sort Range_Model.
Import ListNotations.
Open Scope list_scope.

(** ** What a range has to be *)

(** [x] is the least (largest) element of [l]. *)
Definition is_least (x : Q) (l : list Q) : Prop := In x l /\ forall v, In v l -> x <= v.
Definition is_largest (x : Q) (l : list Q) : Prop := In x l /\ forall v, In v l -> v <= x.

(** [x] is at position [pos] of the polygon through the points (i, s_i). *)
Definition interpolates (s : list Q) (pos x : Q) : Prop :=
  exists i t a b, nth_error s i = Some a /\ nth_error s (S i) = Some b /\
    0 <= t <= 1 /\ inject_Z (Z.of_nat i) + t == pos /\ x == a + t * (b - a).

(** ** Minimum and maximum *)

Lemma least_spec l : l <> [] -> exists x, least l = Ok x /\ is_least x l.
Proof.
  destruct l as [|x l]; [congruence|]. intros _. cbn [least]. eexists. split; [reflexivity|]. unfold is_least. revert x.
  induction l as [|y l IH]; intros x; cbn [fold_left]; [split; [now left|intros v [->|[]]; lra]|].
  destruct (Qle_bool x y) eqn:E.
  - apply Qle_bool_iff in E. destruct (IH x) as ([H|H] & L).
    + split; [left; exact H|]. intros v [->|[->|Hv]]; [apply L; now left| |apply L; now right].
      apply Qle_trans with x; [apply L; now left|exact E].
    + split; [right; now right|]. intros v [->|[->|Hv]]; [apply L; now left| |apply L; now right].
      apply Qle_trans with x; [apply L; now left|exact E].
  - assert (E' : y <= x). { apply Qlt_le_weak. apply Qnot_le_lt. intros H. apply Qle_bool_iff in H. congruence. }
    destruct (IH y) as ([H|H] & L).
    + split; [right; left; exact H|]. intros v [->|[->|Hv]]; [|apply L; now left|apply L; now right].
      apply Qle_trans with y; [apply L; now left|exact E'].
    + split; [right; now right|]. intros v [->|[->|Hv]]; [|apply L; now left|apply L; now right].
      apply Qle_trans with y; [apply L; now left|exact E'].
Qed.

Lemma largest_spec l : l <> [] -> exists x, largest l = Ok x /\ is_largest x l.
Proof.
  destruct l as [|x l]; [congruence|]. intros _. cbn [largest]. eexists. split; [reflexivity|]. unfold is_largest. revert x.
  induction l as [|y l IH]; intros x; cbn [fold_left]; [split; [now left|intros v [->|[]]; lra]|].
  destruct (Qle_bool y x) eqn:E.
  - apply Qle_bool_iff in E. destruct (IH x) as ([H|H] & L).
    + split; [left; exact H|]. intros v [->|[->|Hv]]; [apply L; now left| |apply L; now right].
      apply Qle_trans with x; [exact E|apply L; now left].
    + split; [right; now right|]. intros v [->|[->|Hv]]; [apply L; now left| |apply L; now right].
      apply Qle_trans with x; [exact E|apply L; now left].
  - assert (E' : x <= y). { apply Qlt_le_weak. apply Qnot_le_lt. intros H. apply Qle_bool_iff in H. congruence. }
    destruct (IH y) as ([H|H] & L).
    + split; [right; left; exact H|]. intros v [->|[->|Hv]]; [|apply L; now left|apply L; now right].
      apply Qle_trans with y; [exact E'|apply L; now left].
    + split; [right; now right|]. intros v [->|[->|Hv]]; [|apply L; now left|apply L; now right].
      apply Qle_trans with y; [exact E'|apply L; now left].
Qed.

(** ** The loop over the datasets *)

(** [l] holds the least and the largest value of every set. *)
Inductive extremes : list (list Q) -> list Q -> Prop :=
| ex_nil : extremes [] []
| ex_cons v vs a b l : is_least a v -> is_largest b v -> extremes vs l -> extremes (v :: vs) (a :: b :: l).

Lemma lower_of_spec v x : exists y, lower_of v x = Some y /\ y <= x /\ (y = x \/ v = Some y) /\ (forall a, v = Some a -> y <= a).
Proof.
  destruct v as [a|]; cbn; [|exists x; repeat split; auto; try lra; congruence].
  destruct (Qle_bool a x) eqn:E; cbn.
  - apply Qle_bool_iff in E. exists a. repeat split; auto. intros b [= <-]. lra.
  - assert (E' : x < a). { apply Qnot_le_lt. intros H. apply Qle_bool_iff in H. congruence. }
    exists x. repeat split; auto; [lra|]. intros b [= <-]. lra.
Qed.
Lemma upper_of_spec v x : exists y, upper_of v x = Some y /\ x <= y /\ (y = x \/ v = Some y) /\ (forall a, v = Some a -> a <= y).
Proof.
  destruct v as [a|]; cbn; [|exists x; repeat split; auto; try lra; congruence].
  destruct (Qle_bool x a) eqn:E; cbn.
  - apply Qle_bool_iff in E. exists a. repeat split; auto. intros b [= <-]. lra.
  - assert (E' : a < x). { apply Qnot_le_lt. intros H. apply Qle_bool_iff in H. congruence. }
    exists x. repeat split; auto; [lra|]. intros b [= <-]. lra.
Qed.

(** The running extremes are those of everything seen so far. *)
Definition tracks (e : ext) (seen : list Q) : Prop :=
  match e_min e, e_max e with
  | None, None => seen = []
  | Some a, Some b => is_least a seen /\ is_largest b seen
  | _, _ => False
  end.

Lemma widen_tracks e seen v : tracks e seen -> v <> [] ->
  exists a b e', widen e v = Ok e' /\ is_least a v /\ is_largest b v /\ e_all e' = e_all e ++ [a; b] /\ tracks e' (seen ++ v) /\ e_min e' <> None.
Proof.
  intros T Hv. destruct (least_spec v Hv) as (a & Ea & La). destruct (largest_spec v Hv) as (b & Eb & Lb).
  unfold widen. rewrite Ea, Eb. cbn [bind]. exists a, b. eexists. split; [reflexivity|]. split; [exact La|]. split; [exact Lb|]. split; [reflexivity|].
  destruct (lower_of_spec (e_min e) a) as (x & Ex & Hx & Ox & Mx). destruct (upper_of_spec (e_max e) b) as (y & Ey & Hy & Oy & My).
  split; [|cbn; congruence]. unfold tracks in *. cbn [e_min e_max]. rewrite Ex, Ey.
  destruct (e_min e) as [m|], (e_max e) as [n|]; try contradiction.
  - destruct T as (Tm & Tn). split; split.
    + apply in_or_app. destruct Ox as [->|[= ->]]; [right; apply La|left; apply Tm].
    + intros w H. apply in_app_or in H as [H|H]; [apply Qle_trans with m; [now apply Mx|now apply Tm]|apply Qle_trans with a; [exact Hx|now apply La]].
    + apply in_or_app. destruct Oy as [->|[= ->]]; [right; apply Lb|left; apply Tn].
    + intros w H. apply in_app_or in H as [H|H]; [apply Qle_trans with n; [now apply Tn|now apply My]|apply Qle_trans with b; [now apply Lb|exact Hy]].
  - subst seen. cbn [app]. destruct Ox as [->|Ox]; [|discriminate Ox]. destruct Oy as [->|Oy]; [|discriminate Oy]. now split.
Qed.

Lemma extents_spec sets : forall e seen, tracks e seen -> Forall (fun v => v <> []) sets ->
  exists e' l, extents e sets = Ok e' /\ tracks e' (seen ++ concat sets) /\ extremes sets l /\ e_all e' = e_all e ++ l /\
    (sets <> [] -> e_min e' <> None).
Proof.
  induction sets as [|v sets IH]; intros e seen T F; cbn [extents concat].
  - exists e, []. rewrite !app_nil_r. split; [reflexivity|]. split; [exact T|]. split; [constructor|]. split; [reflexivity|congruence].
  - inversion F; subst. destruct (widen_tracks e seen v T H1) as (a & b & e1 & E & La & Lb & Ea & T1 & N1). rewrite E. cbn [bind].
    destruct (IH e1 (seen ++ v) T1 H2) as (e' & l & E' & T' & X & A & N). exists e', (a :: b :: l).
    split; [exact E'|]. split; [now rewrite app_assoc|]. split; [now constructor|].
    split; [rewrite A, Ea, <- app_assoc; reflexivity|]. intros _.
    destruct sets; [cbn in E'; injection E' as <-; exact N1|apply N; discriminate].
Qed.

Lemma extents_empty sets : forall e, Exists (fun v => v = []) sets -> extents e sets = Err ValueError.
Proof.
  induction sets as [|v sets IH]; intros e H; [inversion H|]. cbn [extents].
  destruct v as [|q v]; [reflexivity|]. inversion H; subst; [discriminate|].
  destruct (widen e (q :: v)) eqn:W; [|unfold widen in W; cbn [least largest bind] in W; discriminate W]. cbn [bind]. now apply IH.
Qed.

Definition scale_all (k : Q) (sets : list (list Q)) : list (list Q) := List.map (List.map (fun v => v * k)) sets.

Lemma in_scaled k sets w : In w (concat (scale_all k sets)) <-> exists s v, In s sets /\ In v s /\ w = v * k.
Proof.
  rewrite in_concat. unfold scale_all. split.
  - intros (x & Hx & Hw). apply in_map_iff in Hx as (s & <- & Hs). apply in_map_iff in Hw as (v & <- & Hv). eauto.
  - intros (s & v & Hs & Hv & ->). exists (List.map (fun v => v * k) s). split; [apply in_map_iff; eauto|apply in_map_iff; eauto].
Qed.
Lemma scaled_nonempty k sets : Forall (fun v => v <> []) sets -> Forall (fun v => v <> []) (scale_all k sets).
Proof. unfold scale_all. intros F. rewrite Forall_map. eapply Forall_impl; [|exact F]. intros [|] H; [congruence|discriminate]. Qed.

(** Without cut-off the range of the scaled values of all datasets, attained on
    both sides. *)
Theorem C92_range zscale sets :
  sets <> [] -> Forall (fun v => v <> []) sets ->
  exists lo hi, plot_range zscale None sets = Ok (Some lo, Some hi) /\
    (forall s v, In s sets -> In v s -> lo <= v * zscale <= hi) /\
    (exists s v, In s sets /\ In v s /\ lo = v * zscale) /\ (exists s v, In s sets /\ In v s /\ hi = v * zscale).
Proof.
  intros NE F. unfold plot_range. fold (scale_all zscale sets).
  destruct (extents_spec (scale_all zscale sets) (mk_ext None None []) [] eq_refl (scaled_nonempty _ _ F)) as (e & l & E & T & _ & _ & N).
  rewrite E. cbn [bind finish cutoff_of]. unfold tracks in T.
  assert (N' : e_min e <> None). { apply N. destruct sets; [congruence|discriminate]. }
  destruct (e_min e) as [lo|]; [|congruence]. destruct (e_max e) as [hi|]; [|contradiction]. destruct T as ((Il & Ll) & (Ih & Lh)).
  cbn [app] in *. exists lo, hi. split; [reflexivity|]. split; [|split; now apply in_scaled].
  intros s v Hs Hv. split; [apply Ll|apply Lh]; apply in_scaled; eauto.
Qed.

(** A dataset without values makes the command fail. *)
Theorem C92_empty zscale cutoff sets : Exists (fun v => v = []) sets -> plot_range zscale cutoff sets = Err ValueError.
Proof.
  intros H. unfold plot_range. rewrite extents_empty; [reflexivity|].
  apply Exists_exists in H as (v & Hv & ->). apply Exists_exists. exists []. split; [|reflexivity]. apply in_map_iff. exists []. auto.
Qed.

(** ** Percentiles *)

Lemma qle_sorted l : StronglySorted Qle (isort Qle_bool l).
Proof.
  assert (H : StronglySorted (fun x y => Qle_bool x y = true) (isort Qle_bool l)).
  { apply isort_sorted with (P := fun _ => True).
    - intros x y _ _. destruct (Qlt_le_dec x y) as [H|H]; [left|right]; apply Qle_bool_iff; [now apply Qlt_le_weak|exact H].
    - intros x y z _ _ _ H1 H2. apply Qle_bool_iff in H1, H2. apply Qle_bool_iff. now apply Qle_trans with y.
    - apply Forall_forall. auto. }
  induction H as [|a m H IH F]; constructor; auto. eapply Forall_impl; [|exact F]. intros b. apply Qle_bool_iff.
Qed.

Lemma sorted_nth s : StronglySorted Qle s -> forall i j a b, (i <= j)%nat -> nth_error s i = Some a -> nth_error s j = Some b -> a <= b.
Proof.
  induction 1 as [|x s H IH F]; intros [|i] [|j] a b L Ea Eb; cbn in *; try discriminate; try lia.
  - injection Ea as <-. injection Eb as <-. lra.
  - injection Ea as <-. rewrite Forall_forall in F. apply F. now apply nth_error_In in Eb.
  - apply (IH i j); auto. lia.
Qed.

Lemma floor_bounds v : inject_Z (Qfloor v) <= v /\ v < inject_Z (Qfloor v) + 1.
Proof.
  split; [apply Qfloor_le|]. pose proof (Qlt_floor v) as H. rewrite inject_Z_plus in H. exact H.
Qed.

(** [percentile] is the interpolation at the position of [q]. *)
Lemma percentile_spec s q : (2 <= length s)%nat -> 0 <= q <= 100 ->
  exists x, percentile s q = Ok x /\ interpolates s (inject_Z (Z.of_nat (length s - 1)) * q / 100) x.
Proof.
  intros L (Q0 & Q1). unfold percentile.
  apply Qle_bool_iff in Q0 as B0. apply Qle_bool_iff in Q1 as B1. rewrite B0, B1. cbn [andb negb].
  set (n := length s). set (v := inject_Z (Z.of_nat (n - 1)) * q / 100).
  destruct (floor_bounds v) as (F1 & F2).
  assert (Nn : 0 <= inject_Z (Z.of_nat (n - 1))) by (change 0 with (inject_Z 0); rewrite <- Zle_Qle; lia).
  assert (V0 : 0 <= v). { unfold v, Qdiv. apply Qmult_le_0_compat; [apply Qmult_le_0_compat; assumption|]. discriminate. }
  assert (V1 : v <= inject_Z (Z.of_nat (n - 1))).
  { unfold v. apply Qle_shift_div_r; [reflexivity|]. setoid_replace (inject_Z (Z.of_nat (n - 1)) * q) with (q * inject_Z (Z.of_nat (n - 1))) by ring.
    setoid_replace (inject_Z (Z.of_nat (n - 1)) * 100) with (100 * inject_Z (Z.of_nat (n - 1))) by ring. apply Qmult_le_compat_r; assumption. }
  assert (P0 : (0 <= Qfloor v)%Z). { change 0%Z with (Qfloor 0). now apply Qfloor_resp_le. }
  assert (P1 : (Qfloor v <= Z.of_nat (n - 1))%Z).
  { rewrite <- (Qfloor_Z (Z.of_nat (n - 1))). now apply Qfloor_resp_le. }
  set (p := Z.to_nat (Qfloor v)).
  assert (Ep : Qfloor v = Z.of_nat p) by (unfold p; lia). assert (Lp : (p <= n - 1)%nat) by lia.
  destruct (nth_error s p) as [a|] eqn:Ea; [|apply nth_error_None in Ea; unfold n in *; lia].
  destruct (Nat.eq_dec p (n - 1)) as [Eq|Ne].
  - rewrite Nat.min_r by lia. rewrite <- Eq, Ea. eexists. split; [reflexivity|].
    destruct (nth_error s (n - 2)) as [c|] eqn:Ec; [|apply nth_error_None in Ec; unfold n in *; lia].
    exists (n - 2)%nat, 1, c, a. split; [exact Ec|]. replace (S (n - 2)) with p by lia. split; [exact Ea|]. split; [lra|].
    assert (V : v == inject_Z (Z.of_nat (n - 1))) by (rewrite Ep, Eq in F1; lra).
    split; [|ring]. rewrite V. replace (n - 1)%nat with (S (n - 2)) by lia. rewrite Nat2Z.inj_succ. unfold Z.succ. rewrite inject_Z_plus. ring.
  - rewrite Nat.min_l by lia. destruct (nth_error s (S p)) as [b|] eqn:Eb; [|apply nth_error_None in Eb; unfold n in *; lia].
    eexists. split; [reflexivity|]. exists p, (v - inject_Z (Qfloor v)), a, b. split; [exact Ea|]. split; [exact Eb|]. split; [lra|].
    split; [rewrite <- Ep; ring|ring].
Qed.

Lemma percentile_out s q : ~ 0 <= q <= 100 -> percentile s q = Err ValueError.
Proof.
  intros H. unfold percentile. destruct (Qle_bool 0 q) eqn:B0; [|reflexivity]. destruct (Qle_bool q 100) eqn:B1; [|reflexivity].
  apply Qle_bool_iff in B0, B1. now destruct H.
Qed.

(** Interpolated values: above the points to the left, below those to the right. *)
Lemma interpolates_left s pos x i a : StronglySorted Qle s -> interpolates s pos x ->
  nth_error s i = Some a -> inject_Z (Z.of_nat i) <= pos -> a <= x.
Proof.
  intros Hs (j & t & c & d & Ec & Ed & Ht & Ep & Ex) Ea Hi. rewrite Ex.
  assert (C : c <= d) by (apply (sorted_nth s Hs j (S j)); auto).
  destruct (Nat.le_gt_cases i j) as [L|L].
  - assert (A : a <= c) by (apply (sorted_nth s Hs i j); auto).
    assert (M : 0 <= t * (d - c)) by (apply Qmult_le_0_compat; lra). lra.
  - assert (Z' : inject_Z (Z.of_nat j) + 1 <= inject_Z (Z.of_nat i)).
    { change 1 with (inject_Z 1). rewrite <- inject_Z_plus, <- Zle_Qle. lia. }
    assert (T : t == 1) by lra. assert (I : inject_Z (Z.of_nat i) <= inject_Z (Z.of_nat j) + 1) by lra.
    change 1 with (inject_Z 1) in I. rewrite <- inject_Z_plus, <- Zle_Qle in I. assert (i = S j) by lia. subst i.
    rewrite Ed in Ea. injection Ea as <-. rewrite T. lra.
Qed.
Lemma interpolates_right s pos x i a : StronglySorted Qle s -> interpolates s pos x ->
  nth_error s i = Some a -> pos <= inject_Z (Z.of_nat i) -> x <= a.
Proof.
  intros Hs (j & t & c & d & Ec & Ed & Ht & Ep & Ex) Ea Hi. rewrite Ex.
  assert (C : c <= d) by (apply (sorted_nth s Hs j (S j)); auto).
  assert (M : t * (d - c) <= 1 * (d - c)) by (apply Qmult_le_compat_r; lra).
  destruct (Nat.le_gt_cases (S j) i) as [L|L].
  - assert (A : d <= a) by (apply (sorted_nth s Hs (S j) i); auto). lra.
  - assert (I : inject_Z (Z.of_nat j) <= inject_Z (Z.of_nat i)) by lra. rewrite <- Zle_Qle in I. assert (i = j) by lia. subst i.
    rewrite Ec in Ea. injection Ea as <-. assert (T : t == 0) by lra. rewrite T. lra.
Qed.
Lemma interpolates_mono s p q x y : StronglySorted Qle s -> interpolates s p x -> interpolates s q y -> p <= q -> x <= y.
Proof.
  intros Hs Hx Hy L. pose proof Hx as (i & t & a & b & Ea & Eb & Ht & Ep & Ex). pose proof Hy as (j & u & c & d & Ec & Ed & Hu & Eq & Ey).
  destruct (Nat.lt_trichotomy i j) as [H|[H|H]].
  - apply Qle_trans with b; [|apply Qle_trans with c].
    + apply (interpolates_right s p x (S i)); auto. rewrite <- Ep. rewrite Nat2Z.inj_succ. unfold Z.succ. rewrite inject_Z_plus. change (inject_Z 1) with 1. lra.
    + apply (sorted_nth s Hs (S i) j); auto.
    + apply (interpolates_left s q y j); auto. lra.
  - subst j. rewrite Ea in Ec. rewrite Eb in Ed. injection Ec as <-. injection Ed as <-.
    assert (C : a <= b) by (apply (sorted_nth s Hs i (S i)); auto). rewrite Ex, Ey.
    assert (M : t * (b - a) <= u * (b - a)) by (apply Qmult_le_compat_r; lra). lra.
  - assert (I : inject_Z (Z.of_nat j) + 1 <= inject_Z (Z.of_nat i)).
    { change 1 with (inject_Z 1). rewrite <- inject_Z_plus, <- Zle_Qle. lia. }
    assert (U : u == 1) by lra. assert (T : t == 0) by lra.
    assert (E : inject_Z (Z.of_nat i) <= inject_Z (Z.of_nat j) + 1) by lra.
    change 1 with (inject_Z 1) in E. rewrite <- inject_Z_plus, <- Zle_Qle in E. assert (i = S j) by lia. subst i.
    rewrite Ed in Ea. injection Ea as <-. rewrite Ex, Ey, T, U. lra.
Qed.

Lemma extremes_length sets l : extremes sets l -> length l = (2 * length sets)%nat.
Proof. induction 1; cbn [length]; lia. Qed.

(** The interpolated quantiles (1 - c)/2 and (1 + c)/2 of the sorted least and
    largest values of all datasets. *)
Definition quantiles (c : Q) (sets : list (list Q)) (lo hi : Q) : Prop :=
  exists l s, extremes sets l /\ Permutation l s /\ StronglySorted Qle s /\
    let last := inject_Z (Z.of_nat (length s - 1)) in
    interpolates s (last * ((1 - c) / 2)) lo /\ interpolates s (last * ((1 + c) / 2)) hi /\ lo <= hi /\
    (* the extremes whose rank is in the middle part are within the limits *)
    (forall i v, nth_error s i = Some v ->
       last * ((1 - c) / 2) <= inject_Z (Z.of_nat i) <= last * ((1 + c) / 2) -> lo <= v <= hi).

Lemma cutoff_general sets c :
  sets <> [] -> Forall (fun v => v <> []) sets -> 0 < c <= 1 ->
  exists e lo hi, extents (mk_ext None None []) sets = Ok e /\ finish (Some c) e = Ok (Some lo, Some hi) /\ quantiles c sets lo hi.
Proof.
  intros NE F Hc.
  destruct (extents_spec sets (mk_ext None None []) [] eq_refl F) as (e & l & E & _ & X & A & _).
  exists e. unfold finish. cbn [cutoff_of]. destruct (Qeq_bool c 0) eqn:C0; [apply Qeq_bool_iff in C0; lra|].
  cbn [app e_all] in A. rewrite A. set (s := isort Qle_bool l). assert (Ss : StronglySorted Qle s) by apply qle_sorted.
  assert (Pm : Permutation l s) by apply isort_perm.
  assert (L2 : (2 <= length s)%nat).
  { rewrite <- (Permutation_length Pm), (extremes_length _ _ X). destruct sets; [congruence|cbn; lia]. }
  assert (HB : 100 * (1 - c) / 2 == 50 - 50 * c) by field.
  destruct (percentile_spec s (100 - 100 * (1 - c) / 2) L2) as (hi & Eh & Ih); [rewrite HB; lra|].
  destruct (percentile_spec s (100 * (1 - c) / 2) L2) as (lo & El & Il); [rewrite HB; lra|].
  rewrite Eh, El. cbn [bind]. exists lo, hi. split; [exact E|]. split; [reflexivity|]. exists l, s. split; [exact X|]. split; [exact Pm|]. split; [exact Ss|]. cbv zeta.
  set (last := inject_Z (Z.of_nat (length s - 1))) in *.
  assert (R : forall p q x, p == q -> interpolates s p x -> interpolates s q x).
  { intros p q x H (i & t & a & b & H1 & H2 & H3 & H4 & H5). exists i, t, a, b. rewrite H in H4. auto. }
  apply R with (q := last * ((1 + c) / 2)) in Ih; [|field]. apply R with (q := last * ((1 - c) / 2)) in Il; [|field].
  split; [exact Il|]. split; [exact Ih|].
  assert (N0 : 0 <= last) by (unfold last; change 0 with (inject_Z 0); rewrite <- Zle_Qle; lia).
  split.
  - apply (interpolates_mono s (last * ((1 - c) / 2)) (last * ((1 + c) / 2))); auto. rewrite !(Qmult_comm last). apply Qmult_le_compat_r; [|exact N0].
    setoid_replace ((1 - c) / 2) with (1 * (1 # 2) - c * (1 # 2)) by field. setoid_replace ((1 + c) / 2) with (1 * (1 # 2) + c * (1 # 2)) by field. lra.
  - intros i v Ev (H1 & H2). split; [now apply (interpolates_right s _ lo i v Ss Il)|now apply (interpolates_left s _ hi i v Ss Ih)].
Qed.

(** With a cut-off [c], 0 < c <= 1, the limits are these quantiles of the
    scaled values. *)
Theorem C92_cutoff zscale sets c :
  sets <> [] -> Forall (fun v => v <> []) sets -> 0 < c <= 1 ->
  exists lo hi, plot_range zscale (Some c) sets = Ok (Some lo, Some hi) /\
    quantiles c (List.map (List.map (fun v => v * zscale)) sets) lo hi.
Proof.
  intros NE F Hc. unfold plot_range.
  destruct (cutoff_general (scale_all zscale sets) c) as (e & lo & hi & E & Fi & Qt); auto.
  - destruct sets; [congruence|discriminate].
  - now apply scaled_nonempty.
  - unfold scale_all in *. rewrite E. cbn [bind]. rewrite Fi. exists lo, hi. auto.
Qed.

(** The whole range is kept by cut-off 1; a cut-off above 1 raises ValueError;
    a negative one exchanges the limits; 0 counts as not given. *)
Theorem C92_cutoff_outside zscale sets c :
  sets <> [] -> Forall (fun v => v <> []) sets ->
  (c == 0 -> plot_range zscale (Some c) sets = plot_range zscale None sets) /\
  (1 < c \/ c < -1 -> plot_range zscale (Some c) sets = Err ValueError) /\
  (-1 <= c < 0 -> exists lo hi, plot_range zscale (Some c) sets = Ok (Some lo, Some hi) /\ hi <= lo).
Proof.
  intros NE F. split; [|split].
  - intros C. unfold plot_range, finish. cbn [cutoff_of]. apply Qeq_bool_iff in C. now rewrite C.
  - intros C. unfold plot_range. fold (scale_all zscale sets).
    destruct (extents_spec (scale_all zscale sets) (mk_ext None None []) [] eq_refl (scaled_nonempty _ _ F)) as (e & l & E & _ & X & A & _).
    rewrite E. cbn [bind]. unfold finish. cbn [cutoff_of]. destruct (Qeq_bool c 0) eqn:C0; [apply Qeq_bool_iff in C0; lra|].
    assert (HB : 100 * (1 - c) / 2 == 50 - 50 * c) by field. rewrite (percentile_out _ (100 - _)); [reflexivity|rewrite HB; lra].
  - intros Hc. unfold plot_range. fold (scale_all zscale sets).
    destruct (extents_spec (scale_all zscale sets) (mk_ext None None []) [] eq_refl (scaled_nonempty _ _ F)) as (e & l & E & _ & X & A & _).
    rewrite E. cbn [bind]. unfold finish. cbn [cutoff_of]. destruct (Qeq_bool c 0) eqn:C0; [apply Qeq_bool_iff in C0; lra|].
    cbn [app e_all] in A. rewrite A. set (s := isort Qle_bool l). assert (Ss : StronglySorted Qle s) by apply qle_sorted.
    assert (Pm : Permutation l s) by apply isort_perm.
    assert (L2 : (2 <= length s)%nat).
    { rewrite <- (Permutation_length Pm), (extremes_length _ _ X). unfold scale_all. rewrite map_length. destruct sets; [congruence|cbn; lia]. }
    assert (HB : 100 * (1 - c) / 2 == 50 - 50 * c) by field.
  destruct (percentile_spec s (100 - 100 * (1 - c) / 2) L2) as (hi & Eh & Ih); [rewrite HB; lra|].
    destruct (percentile_spec s (100 * (1 - c) / 2) L2) as (lo & El & Il); [rewrite HB; lra|].
    rewrite Eh, El. cbn [bind]. exists lo, hi. split; [reflexivity|].
    eapply (interpolates_mono s); [exact Ss|exact Ih|exact Il|].
    assert (N0 : 0 <= inject_Z (Z.of_nat (length s - 1))) by (change 0 with (inject_Z 0); rewrite <- Zle_Qle; lia).
    unfold Qdiv at 1 3. apply Qmult_le_compat_r; [|discriminate]. rewrite !(Qmult_comm (inject_Z _)). apply Qmult_le_compat_r; [rewrite HB; lra|exact N0].
Qed.

(** Cut-off 1 is the range without cut-off. *)
Theorem C92_cutoff_one zscale sets :
  sets <> [] -> Forall (fun v => v <> []) sets ->
  exists lo hi lo' hi', plot_range zscale (Some 1) sets = Ok (Some lo, Some hi) /\
    plot_range zscale None sets = Ok (Some lo', Some hi') /\ lo == lo' /\ hi == hi'.
Proof.
  intros NE F. destruct (C92_cutoff zscale sets 1 NE F ltac:(lra)) as (lo & hi & E & l & s & X & Pm & Ss & Il & Ih & _ & M).
  destruct (C92_range zscale sets NE F) as (lo' & hi' & E' & R & (s1 & v1 & Hs1 & Hv1 & E1) & (s2 & v2 & Hs2 & Hv2 & E2)).
  exists lo, hi, lo', hi'. split; [exact E|]. split; [exact E'|].
  (* extremes are values, and the extreme values are extremes *)
  assert (IN : forall w, In w s -> exists s v, In s sets /\ In v s /\ w = v * zscale).
  { intros w Hw. apply (Permutation_in _ (Permutation_sym Pm)) in Hw. apply in_scaled. clear - X Hw. unfold scale_all.
    induction X as [|v vs a b l La Lb X IH]; [destruct Hw|]. cbn [concat]. apply in_or_app. destruct Hw as [<-|[<-|Hw]]; [left; apply La|left; apply Lb|right; now apply IH]. }
  assert (BD : forall k v, In k sets -> In v k -> (exists a, In a s /\ a <= v * zscale) /\ (exists b, In b s /\ v * zscale <= b)).
  { intros k v Hk Hv. assert (Hx : In (List.map (fun v => v * zscale) k) (List.map (List.map (fun v => v * zscale)) sets)) by (apply in_map; exact Hk).
    assert (Hw : In (v * zscale) (List.map (fun v => v * zscale) k)) by (apply (in_map (fun v => v * zscale)); exact Hv).
    assert (Q : forall sets' l', extremes sets' l' -> forall x w, In x sets' -> In w x -> (exists a, In a l' /\ a <= w) /\ (exists b, In b l' /\ w <= b)).
    { clear. induction 1 as [|v vs a b l La Lb X IH]; intros x w Hx Hw; [destruct Hx|]. destruct Hx as [<-|Hx].
      - split; [exists a; split; [now left|now apply La]|exists b; split; [right; now left|now apply Lb]].
      - destruct (IH x w Hx Hw) as ((c & Ic & Lc) & (d & Id & Ld)). split; [exists c|exists d]; (split; [right; right; assumption|assumption]). }
    destruct (Q _ _ X _ _ Hx Hw) as ((a & Ia & La) & (b & Ib & Lb)).
    split; [exists a|exists b]; (split; [now apply (Permutation_in _ Pm)|assumption]). }
  set (last := inject_Z (Z.of_nat (length s - 1))) in *.
  assert (N0 : 0 <= last) by (unfold last; change 0 with (inject_Z 0); rewrite <- Zle_Qle; lia).
  assert (ALL : forall w, In w s -> lo <= w <= hi).
  { intros w Hw. apply In_nth_error in Hw as (i & Ei). apply (M i w Ei).
    assert (Li : (i < length s)%nat) by (apply nth_error_Some; congruence).
    assert (Z0 : 0 <= inject_Z (Z.of_nat i)) by (change 0 with (inject_Z 0); rewrite <- Zle_Qle; lia).
    assert (Z1 : inject_Z (Z.of_nat i) <= last) by (unfold last; rewrite <- Zle_Qle; lia).
    setoid_replace ((1 - 1) / 2) with 0 by reflexivity. setoid_replace ((1 + 1) / 2) with 1 by reflexivity. lra. }
  (* the interpolated ends are the end points *)
  assert (L2 : (2 <= length s)%nat).
  { rewrite <- (Permutation_length Pm), (extremes_length _ _ X), map_length. destruct sets; [congruence|cbn; lia]. }
  destruct (nth_error s 0) as [a|] eqn:Ea; [|apply nth_error_None in Ea; lia].
  destruct (nth_error s (length s - 1)) as [b|] eqn:Eb; [|apply nth_error_None in Eb; lia].
  assert (A1 : a <= lo).
  { apply (interpolates_left s _ lo 0 a Ss Il Ea). setoid_replace ((1 - 1) / 2) with 0 by reflexivity. change (inject_Z (Z.of_nat 0)) with 0. lra. }
  assert (B1 : hi <= b).
  { apply (interpolates_right s _ hi _ b Ss Ih Eb). setoid_replace ((1 + 1) / 2) with 1 by reflexivity. fold last. lra. }
  apply nth_error_In in Ea, Eb. destruct (IN a Ea) as (ka & va & Hka & Hva & Eqa). destruct (IN b Eb) as (kb & vb & Hkb & Hvb & Eqb).
  pose proof (R ka va Hka Hva) as (Ra & _). pose proof (R kb vb Hkb Hvb) as (_ & Rb). rewrite <- Eqa in Ra. rewrite <- Eqb in Rb.
  destruct (BD s1 v1 Hs1 Hv1) as ((a' & Ia' & La') & _). destruct (BD s2 v2 Hs2 Hv2) as (_ & (b' & Ib' & Lb')). rewrite <- E1 in La'. rewrite <- E2 in Lb'.
  pose proof (ALL a' Ia'). pose proof (ALL b' Ib'). split; lra.
Qed.

(** With a shift the values drawn need not be inside the range. *)
Theorem C92_shift_refuted :
  exists zscale zshift sets lo hi s v,
    plot_range zscale None sets = Ok (Some lo, Some hi) /\ In s sets /\ In v s /\ hi < (v + zshift) * zscale.
Proof. exists 1, 5, [[0; 1]], (0 * 1), (1 * 1), [0; 1], 1. repeat split; [now left|right; now left]. Qed.

(** ** The range used by animate *)

Theorem C92_animate yscale zscale sets d nd :
  Forall (fun e => snd e <> []) (sets ++ [(nd, d)]) -> d <> [] ->
  exists lo hi, anim_range yscale zscale None (sets ++ [(nd, d)]) = Ok (Some lo, Some hi, nd) /\
    (forall n s v, In (n, s) (sets ++ [(nd, d)]) -> In v s ->
       lo <= v * (if (n =? 1)%nat then yscale else zscale) <= hi).
Proof.
  intros F Hd. unfold anim_range.
  set (f := fun e : nat * list Q => List.map (fun v => v * (if (fst e =? 1)%nat then yscale else zscale)) (snd e)).
  assert (F' : Forall (fun v => v <> []) (List.map f (sets ++ [(nd, d)]))).
  { rewrite Forall_map. eapply Forall_impl; [|exact F]. intros (n & [|]) H; cbn in *; [congruence|discriminate]. }
  destruct (extents_spec _ (mk_ext None None []) [] eq_refl F') as (e & l & E & T & _ & _ & N). rewrite E. cbn [bind finish cutoff_of].
  assert (N' : e_min e <> None). { apply N. destruct sets; discriminate. }
  unfold tracks in T. destruct (e_min e) as [lo|]; [|congruence]. destruct (e_max e) as [hi|]; [|contradiction]. destruct T as ((_ & Ll) & (_ & Lh)).
  exists lo, hi. split.
  - destruct sets as [|x sets]; [reflexivity|]. cbn [app]. f_equal. f_equal.
    assert (Q : forall x, last (sets ++ [(nd, d)]) x = (nd, d)).
    { clear. induction sets as [|y sets IH]; intros x; [reflexivity|]. cbn [app]. destruct (sets ++ [(nd, d)]) eqn:E; [destruct sets; discriminate|]. apply IH with (x := x). }
    now rewrite Q.
  - intros n s v Hs Hv. cbn [app] in *.
    assert (I : In (v * (if (n =? 1)%nat then yscale else zscale)) (concat (List.map f (sets ++ [(nd, d)])))).
    { apply in_concat. exists (f (n, s)). split; [now apply in_map|]. apply (in_map (fun v => v * (if (n =? 1)%nat then yscale else zscale))). exact Hv. }
    split; [now apply Ll|now apply Lh].
Qed.

(** What the range of animate is, with and without cut-off, for any datasets
    given by number of dimensions and values. *)
Definition scaled_sets (yscale zscale : Q) (sets : list (nat * list Q)) : list (list Q) :=
  List.map (fun e => List.map (fun v => v * (if (fst e =? 1)%nat then yscale else zscale)) (snd e)) sets.
Definition right_range (cutoff : option Q) (sets : list (list Q)) (lo hi : Q) : Prop :=
  match cutoff with
  | None => is_least lo (concat sets) /\ is_largest hi (concat sets)
  | Some c => quantiles c sets lo hi
  end.
Definition good_cutoff (cutoff : option Q) : Prop := match cutoff with None => True | Some c => 0 < c <= 1 end.

Theorem C92_animate_range yscale zscale cutoff sets nd d :
  Forall (fun e => snd e <> []) (sets ++ [(nd, d)]) -> good_cutoff cutoff ->
  exists lo hi, anim_range yscale zscale cutoff (sets ++ [(nd, d)]) = Ok (Some lo, Some hi, nd) /\
    right_range cutoff (scaled_sets yscale zscale (sets ++ [(nd, d)])) lo hi.
Proof.
  intros F Hc. unfold anim_range. fold (scaled_sets yscale zscale (sets ++ [(nd, d)])).
  set (S1 := scaled_sets yscale zscale (sets ++ [(nd, d)])).
  assert (F' : Forall (fun v => v <> []) S1).
  { unfold S1, scaled_sets. rewrite Forall_map. eapply Forall_impl; [|exact F]. intros (n & [|]) H; cbn in *; [congruence|discriminate]. }
  assert (N1 : S1 <> []) by (unfold S1, scaled_sets; destruct sets; discriminate).
  assert (L : match sets ++ [(nd, d)] with [] => Err UnboundLocalError | x :: l => Ok (fst (last l x)) end = Ok nd).
  { clear. destruct sets as [|x sets]; [reflexivity|]. cbn [app]. now rewrite last_last. }
  assert (Fin : exists e lo hi, extents (mk_ext None None []) S1 = Ok e /\ finish cutoff e = Ok (Some lo, Some hi) /\ right_range cutoff S1 lo hi).
  { destruct cutoff as [c|]; [now apply cutoff_general|].
    destruct (extents_spec S1 (mk_ext None None []) [] eq_refl F') as (e & l & E & T & _ & _ & N). specialize (N N1).
    unfold tracks in T. destruct (e_min e) as [lo|] eqn:E1; [|congruence]. destruct (e_max e) as [hi|] eqn:E2; [|contradiction].
    exists e, lo, hi. split; [exact E|]. split; [unfold finish; cbn [cutoff_of]; now rewrite E1, E2|exact T]. }
  destruct Fin as (e & lo & hi & E & Fi & Rr). exists lo, hi. rewrite E. cbn [bind]. rewrite Fi. cbn [bind].
  split; [|exact Rr]. destruct (sets ++ [(nd, d)]); [discriminate L|]. injection L as ->. reflexivity.
Qed.

Theorem C92_animate_none yscale zscale : anim_range yscale zscale None [] = Err UnboundLocalError.
Proof. reflexivity. Qed.

(** ** Examples *)
Example C92_ex :
  plot_range 2 None [[3; 1]; [-1 # 2; 2]] = Ok (Some ((-1 # 2) * 2), Some (3 * 2)) /\
  (exists lo hi, plot_range 2 (Some (1 # 2)) [[3; 1]; [-1 # 2; 2]] = Ok (Some lo, Some hi) /\ lo == 5 # 4 /\ hi == 9 # 2) /\
  plot_range 2 (Some 2) [[3; 1]; [-1 # 2; 2]] = Err ValueError.
Proof.
  split; [reflexivity|]. split; [|reflexivity]. eexists _, _. split; [vm_compute; reflexivity|]. split; reflexivity.
Qed.
Example C92_cutoff_ex : exists lo hi, plot_range 1 (Some (-1 # 2)) [[0; 1]] = Ok (Some lo, Some hi) /\ lo == 3 # 4 /\ hi == 1 # 4.
Proof. eexists _, _. split; [vm_compute; reflexivity|]. split; reflexivity. Qed.
Example C92_animate_ex : exists lo hi, anim_range 2 3 None [(1%nat, [1; 2]); (2%nat, [1; 5])] = Ok (Some lo, Some hi, 2%nat) /\ lo == 2 /\ hi == 15.
Proof. eexists _, _. split; [vm_compute; reflexivity|]. split; reflexivity. Qed.

Print Assumptions C92_range. Print Assumptions C92_empty. Print Assumptions C92_cutoff. Print Assumptions C92_cutoff_outside.
Print Assumptions C92_cutoff_one. Print Assumptions C92_shift_refuted. Print Assumptions C92_animate. Print Assumptions C92_animate_range.
Print Assumptions C92_animate_none.
