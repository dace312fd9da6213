(** * C59: the ev commands int, avg and len *)
From Coq Require Import String Ascii List Arith ZArith Bool Lia Reals Lra Permutation Sorted.
From Verif Require Import Prelude PreludeFacts NdArray Sort Ev_Model Tools_Arr Calc_Model Calc_Spec Calc_Proofs Calc_Props.
Import ListNotations.
Open Scope list_scope.
Open Scope nat_scope.

(** No coordinate of a single point for an axis of length one. *)
Definition no_point (grid : list (list R)) (sh : list nat) : Prop :=
  forall b, b < length grid -> length (nth b grid []) = nth b sh 0 -> 2 <= nth b sh 0.

Lemma ev_dz_ok grid sh : length grid <= length sh -> no_point grid sh ->
  exists dz, ev_dz_all grid sh = Ok dz /\ widths_ok grid dz sh.
Proof.
  revert sh. induction grid as [|c g IH]; intros [|n sh] L H; cbn [length] in L; try lia.
  - exists []. split; [reflexivity|]. split; [reflexivity|]. cbn. lia.
  - exists []. split; [reflexivity|]. split; [reflexivity|]. cbn. lia.
  - destruct (IH sh ltac:(lia)) as (dz & E & L' & Hd).
    { intros b Hb. apply (H (S b)). cbn [length]. lia. }
    exists (dz_of c n :: dz). split.
    + cbn [ev_dz_all]. rewrite E. specialize (H 0 ltac:(cbn; lia)). cbn [nth] in H. unfold dz_of.
      destruct (Nat.eqb_spec (length c) n) as [Ec|Ec]; [|rewrite andb_false_r; reflexivity].
      specialize (H Ec). destruct (Nat.ltb_spec 1 (length c)); [|lia]. cbn [andb].
      pose proof (diffs_length c). destruct (diffs c); [cbn [length] in *; lia|]. reflexivity.
    + split; [cbn [length]; lia|]. intros [|a] Ha; [reflexivity|]. apply Hd. cbn [length] in Ha. lia.
Qed.

Lemma ev_steps_same grid dz axes v :
  (forall a, In a axes -> a < length grid /\ 2 <= length (nth a grid [])) ->
  ev_int_steps dz (List.map Z.of_nat axes) v = int_steps grid dz (List.map Z.of_nat axes) v.
Proof.
  revert v. induction axes as [|a r IH]; intros v H; [reflexivity|]. destruct (H a (or_introl eq_refl)) as [La L2].
  cbn [List.map ev_int_steps int_steps]. unfold int_step at 1. rewrite (at_nat grid a []) by exact La. cbn [bind].
  destruct (Nat.ltb_spec 1 (length (nth a grid []))); [|lia].
  destruct (norm_axis _ _); cbn [bind]; [|reflexivity]. destruct (at_ dz _); cbn [bind]; [|reflexivity].
  destruct (dot_last _ _); cbn [bind]; [|reflexivity]. apply IH. intros b Hb. apply H. now right.
Qed.

(** Length the average divides by: for data at the points the first width is
    added. *)
Definition span (g : list R) (n : nat) : R :=
  if length g =? n then (last g 0 - nth 0 g 0 + (nth 1 g 0 - nth 0 g 0))%R else (last g 0 - nth 0 g 0)%R.

Lemma ev_length_ok g n : 2 <= length g -> ev_length g n = Ok (span g n).
Proof.
  intros L. unfold ev_length, span. destruct g as [|x [|y r]]; cbn [length] in *; try lia.
  destruct (S (S (length r)) =? n); reflexivity.
Qed.

Definition divided (avg : bool) (grid : list (list R)) (sh : list nat) (axes : list nat) (x : R) : R :=
  fold_right (fun a y => if avg then (y / span (nth a grid []) (nth a sh 0%nat))%R else y) x axes.

Lemma ev_expand_app avg g0 sh0 l m s :
  ev_expand_steps avg g0 sh0 (l ++ m) s = let* t := ev_expand_steps avg g0 sh0 l s in ev_expand_steps avg g0 sh0 m t.
Proof.
  revert s. induction l as [|a l IH]; intros s; [reflexivity|]. cbn [app ev_expand_steps].
  destruct (norm_index _ _); cbn [bind]; [|reflexivity]. destruct (norm_axis _ _); cbn [bind]; [|reflexivity].
  match goal with |- bind ?q _ = _ => destruct q; cbn [bind]; [apply IH|reflexivity] end.
Qed.

Lemma holds_rmap sh v f h : holds sh v f -> holds sh (rmap h v) (fun x => h (f x)).
Proof.
  intros (W & S & V). split; [unfold wf, rmap, map_nda in *; cbn; now rewrite map_length|].
  split; [exact S|]. intros x Hx. specialize (V x Hx). revert V. unfold get, rmap, map_nda; cbn.
  destruct (ravel (shape v) x) as [k|]; [|discriminate]. intros V. rewrite nth_error_map, V. reflexivity.
Qed.

Lemma ev_expands_ok avg axes grid sh s u :
  desc axes -> wf u -> shape u = dels axes s ->
  (forall a, In a axes -> a < length grid /\ a < length s /\ a < length sh /\ 2 <= length (nth a grid [])) ->
  exists w, ev_expand_steps avg grid sh (List.map Z.of_nat (rev axes)) (grid, u) = Ok (collapse_grid (fun _ => 0%R) axes grid, w) /\
    wf w /\ shape w = collapse_shape axes s /\
    forall idx, in_range (collapse_shape axes s) idx -> get w idx = option_map (divided avg grid sh axes) (get u (dels axes idx)).
Proof.
  revert s u. induction axes as [|a r IH]; intros s u D W S H.
  - exists u. split; [reflexivity|]. split; [exact W|]. split; [exact S|]. intros idx _. cbn. destruct (get u idx); reflexivity.
  - inversion D as [|x y D' Lt]; subst. rewrite Forall_forall in Lt. destruct (H a (or_introl eq_refl)) as (La & Ls & Lsh & L2).
    destruct (IH (del a s) u D' W S) as (w & E & Ww & Sw & V).
    { intros b Hb. rewrite del_length by exact Ls. specialize (Lt b Hb). destruct (H b (or_intror Hb)) as (? & ? & ? & ?). lia. }
    cbn [rev]. rewrite map_app, ev_expand_app, E. cbn [bind List.map ev_expand_steps fst snd].
    assert (Lg : length (collapse_grid (fun _ => 0%R) r grid) = length grid).
    { clear. induction r as [|b r IH]; [reflexivity|]. unfold collapse_grid in *. cbn [fold_right]. now rewrite set_nth_length. }
    rewrite norm_index_nat by lia. cbn [bind].
    rewrite norm_axis_nat by (rewrite Sw, collapse_length, del_length by exact Ls; lia). cbn [bind].
    assert (Hw : holds (collapse_shape r (del a s)) w (val w)).
    { split; [exact Ww|]. split; [exact Sw|]. intros j Hj. apply val_get; [exact Ww|]. now rewrite Sw. }
    apply (holds_expand a) in Hw.
    2:{ rewrite collapse_length, del_length by exact Ls. lia. }
    rewrite <- del_collapse in Hw by now apply Forall_forall.
    rewrite ins_del in Hw by (rewrite collapse_length; exact Ls).
    assert (Hd : forall idx, in_range (collapse_shape (a :: r) s) idx -> in_range (collapse_shape r (del a s)) (del a idx)).
    { intros idx Hi. apply (range_del a) in Hi. cbn [collapse_shape fold_right] in Hi. rewrite del_set_same in Hi.
      fold (collapse_shape r s) in Hi. rewrite del_collapse in Hi; [exact Hi|]. now apply Forall_forall. }
    assert (Hg : forall idx, in_range (collapse_shape (a :: r) s) idx ->
      Some (val w (del a idx)) = option_map (divided avg grid sh r) (get u (dels r (del a idx)))).
    { intros idx Hi. rewrite <- V by now apply Hd. symmetry. apply val_get; [exact Ww|]. rewrite Sw. now apply Hd. }
    destruct avg.
    + rewrite (at_nat grid a []) by exact La. cbn [bind]. rewrite (at_nat sh a 0) by exact Lsh. cbn [bind].
      rewrite ev_length_ok by exact L2. cbn [bind]. eexists. split; [reflexivity|].
      apply (holds_rmap _ _ _ (fun x => x / span (nth a grid []) (nth a sh 0%nat))%R) in Hw. destruct Hw as (We & Se & Ve).
      split; [exact We|]. split; [exact Se|]. intros idx Hi. rewrite Ve by exact Hi.
      change (dels (a :: r) idx) with (dels r (del a idx)). specialize (Hg idx Hi).
      destruct (get u (dels r (del a idx))); [|discriminate]. cbn in Hg |- *. injection Hg as ->. reflexivity.
    + eexists. split; [reflexivity|]. destruct Hw as (We & Se & Ve).
      split; [exact We|]. split; [exact Se|]. intros idx Hi. rewrite Ve by exact Hi.
      change (dels (a :: r) idx) with (dels r (del a idx)). rewrite (Hg idx Hi). reflexivity.
Qed.

(** [int] sums value times width over the axes; [avg] also divides by the
    length of every axis.  The new coordinate is zero. *)
Lemma ev_integrate_ok avg arg grid v sh f axes :
  ev_parse_axis (length grid) arg = Ok (List.map Z.of_nat axes) ->
  NoDup axes -> holds sh v f -> length grid <= length sh -> no_point grid sh ->
  (forall a, In a axes -> a < length grid /\ 2 <= length (nth a grid []) /\ fits (nth a grid []) (nth a sh 0)) ->
  exists w, ev_integrate avg arg (grid, v) = Ok (collapse_grid (fun _ => 0%R) axes grid, w) /\
    holds (collapse_shape axes sh) w (fun x =>
      if avg then total grid sh axes f x / fold_right Rmult 1 (List.map (fun a => span (nth a grid []) (nth a sh 0%nat)) axes)
      else total grid sh axes f x)%R.
Proof.
  intros EP ND Hv Lg NP H. pose proof Hv as (W & S & V). unfold ev_integrate. cbn [fst snd]. rewrite EP. cbn [bind]. rewrite S.
  destruct (ev_dz_ok grid sh Lg NP) as (dz & -> & WO). cbn [bind].
  set (up := isort Nat.leb axes). assert (P : Permutation axes up) by apply isort_perm.
  assert (PR : Permutation axes (rev up)) by (rewrite P; apply Permutation_rev).
  assert (H' : forall a, In a (rev up) -> a < length grid /\ a < length sh /\ 2 <= length (nth a grid []) /\ fits (nth a grid []) (nth a sh 0)).
  { intros a Ha. apply Permutation_sym in PR. apply (Permutation_in a PR) in Ha. destruct (H a Ha) as (? & ? & ?). split; [assumption|]. split; [lia|]. auto. }
  rewrite sort_of_nat. fold up. rewrite <- map_rev.
  assert (D : desc (rev up)) by (apply asc_rev, isort_asc, ND).
  rewrite (ev_steps_same grid) by (intros a Ha; destruct (H' a Ha) as (? & ? & ? & ?); auto).
  destruct (steps_ok grid dz sh WO (rev up) sh v f Hv D) as (u & -> & Wu & Su & Vu).
  { intros a Ha. destruct (H' a Ha) as (? & ? & ? & ?). auto. }
  cbn [bind].
  destruct (ev_expands_ok avg (rev up) grid sh sh u D Wu Su) as (w & E & Ww & Sw & Vw).
  { intros a Ha. destruct (H' a Ha) as (? & ? & ? & ?). auto. }
  rewrite rev_involutive in E. rewrite E. exists w. split.
  - do 2 f_equal. apply collapse_grid_perm. now apply Permutation_sym.
  - rewrite (collapse_perm _ _ sh PR). split; [exact Ww|]. split; [exact Sw|]. intros idx Hi. rewrite Vw, Vu by exact Hi.
    rewrite rev_involutive. cbn [option_map]. f_equal. rewrite (total_perm grid sh axes up f idx P ND).
    generalize (total grid sh up f idx). intros t. clear - PR. destruct avg.
    + assert (G1 : forall l, divided true grid sh l t = (t / fold_right Rmult 1 (List.map (fun a => span (nth a grid []) (nth a sh 0%nat)) l))%R).
      { unfold divided. induction l as [|a l IH]; cbn; [field|]. rewrite IH. unfold Rdiv. rewrite Rinv_mult. ring. }
      rewrite G1. f_equal.
      assert (G2 : forall l m, Permutation l m -> fold_right Rmult 1%R l = fold_right Rmult 1%R m).
      { induction 1; cbn; [reflexivity|congruence|ring|congruence]. }
      apply G2. apply Permutation_map. now apply Permutation_sym.
    + unfold divided. clear PR. induction (rev up) as [|b l IH]; [reflexivity|]. cbn [fold_right]. exact IH.
Qed.

Theorem C59_int grid v sh f axes :
  NoDup axes -> holds sh v f -> length grid <= length sh -> no_point grid sh ->
  (forall a, In a axes -> a < length grid /\ 2 <= length (nth a grid []) /\ fits (nth a grid []) (nth a sh 0)) ->
  exists w, ev_integrate false (AxTuple (List.map Z.of_nat axes)) (grid, v) = Ok (collapse_grid (fun _ => 0%R) axes grid, w) /\
    holds (collapse_shape axes sh) w (total grid sh axes f).
Proof. intros. destruct (ev_integrate_ok false (AxTuple (List.map Z.of_nat axes)) grid v sh f axes) as (w & E & Hw); auto. eauto. Qed.

(** "all" are all axes that have coordinates. *)
Theorem C59_all avg grid v sh f :
  holds sh v f -> length grid <= length sh -> no_point grid sh ->
  (forall a, a < length grid -> 2 <= length (nth a grid []) /\ fits (nth a grid []) (nth a sh 0)) ->
  exists w, ev_integrate avg (AxStr "all") (grid, v) = Ok (collapse_grid (fun _ => 0%R) (seq 0 (length grid)) grid, w) /\
    holds (collapse_shape (seq 0 (length grid)) sh) w (fun x =>
      if avg then total grid sh (seq 0 (length grid)) f x
                  / fold_right Rmult 1 (List.map (fun a => span (nth a grid []) (nth a sh 0%nat)) (seq 0 (length grid)))
      else total grid sh (seq 0 (length grid)) f x)%R.
Proof.
  intros Hv Lg NP H. apply ev_integrate_ok; auto; [apply seq_NoDup|].
  intros a Ha. apply in_seq in Ha. split; [lia|]. apply H. lia.
Qed.

(** The text of several axes, and one number. *)
Theorem C59_axes avg s a l :
  ev_integrate avg (AxInt a) s = ev_integrate avg (AxTuple [a]) s /\
  (2 <= length l -> ev_integrate avg (AxStr (join "," (List.map show_Z l))) s = ev_integrate avg (AxTuple l) s).
Proof.
  split; [reflexivity|]. intros NE. unfold ev_integrate. f_equal. unfold ev_parse_axis.
  assert (ES : l <> [] -> split_on "," (join "," (List.map show_Z l)) = List.map show_Z l).
  { clear s a NE. intros NE. induction l as [|x l IH]; [congruence|]. destruct l as [|y l].
    - cbn. apply split_on_none. apply show_Z_has; [|discriminate]. unfold digit_char. cbn. intuition discriminate.
    - cbn [List.map join] in *.
      change (String "," "" ++ ?t)%string with (String "," t).
      rewrite split_on_app; [|apply show_Z_has; [|discriminate]; unfold digit_char; cbn; intuition discriminate].
      f_equal. apply IH. discriminate. }
  rewrite ES, map_length by (intros ->; cbn in NE; lia). destruct (Nat.ltb_spec 1 (length l)); [|lia].
  clear. induction l as [|z m IH]; [reflexivity|].
  cbn [List.map mapM]. rewrite py_int_show_Z. cbn [bind]. rewrite IH. reflexivity.
Qed.

(** ** Averages *)

(** Edges of cells, in increasing order. *)
Definition edges (g : list R) (n : nat) : Prop := length g = S n /\ 0 < n /\ increasing g.

Lemma edges_fits g n : edges g n -> 2 <= length g /\ fits g n.
Proof. intros (L & P & _). split; [lia|]. right. lia. Qed.

Lemma inc_lt g : increasing g -> forall i j, i < j -> j < length g -> (nth i g 0 < nth j g 0)%R.
Proof.
  intros I i j. induction j as [|j IH]; intros Lt Lj; [lia|].
  destruct (Nat.eq_dec i j) as [->|N]; [apply I; lia|]. apply Rlt_trans with (nth j g 0%R); [apply IH; lia|apply I; lia].
Qed.

Lemma edges_span g n : edges g n -> (0 < span g n)%R /\ span g n = extent g n.
Proof.
  intros (L & P & I). unfold span, extent. destruct (Nat.eqb_spec (length g) n); [lia|].
  destruct (Nat.leb_spec (length g) 1); [lia|]. split; [|reflexivity]. rewrite last_nth.
  pose proof (inc_lt g I 0 (length g - 1) ltac:(lia) ltac:(lia)). lra.
Qed.

Lemma edges_width g n k : edges g n -> k < n -> (0 < width g n k)%R.
Proof.
  intros (L & P & I) K. unfold width. destruct (Nat.leb_spec (length g) 1); [lia|].
  destruct (Nat.ltb_spec (S k) (length g)); [|lia]. specialize (I k ltac:(lia)). lra.
Qed.

Lemma rsum_le {A} (f g : A -> R) l : (forall k, In k l -> f k <= g k)%R -> (rsum (List.map f l) <= rsum (List.map g l))%R.
Proof.
  induction l as [|k l IH]; intros H; [cbn; lra|]. cbn [List.map]. change (rsum (?x :: ?r)) with (x + rsum r)%R.
  specialize (IH (fun j Hj => H j (or_intror Hj))). specialize (H k (or_introl eq_refl)). lra.
Qed.

Lemma total_le grid sh axes f g x :
  (forall a, In a axes -> edges (nth a grid []) (nth a sh 0) /\ a < length sh) -> NoDup axes ->
  (forall y, in_range sh y -> f y <= g y)%R -> in_range (collapse_shape axes sh) x ->
  (total grid sh axes f x <= total grid sh axes g x)%R.
Proof.
  intros H ND F. revert x. induction axes as [|a r IH]; intros x Hx; [apply F, Hx|].
  inversion ND; subst. cbn [total]. apply rsum_le. intros k Hk. apply in_seq in Hk. apply Rmult_le_compat_l.
  - left. apply edges_width; [apply H; now left|lia].
  - apply IH; [intros b Hb; apply H; now right|assumption|]. eapply range_set; [|exact Hx|].
    + rewrite collapse_length. apply H. now left.
    + rewrite nth_collapse_not; [lia|intros b Hb; apply H; now right|assumption].
Qed.

Lemma total_const grid sh axes c x :
  (forall a, In a axes -> fits (nth a grid []) (nth a sh 0)) ->
  total grid sh axes (fun _ => c) x = (c * fold_right Rmult 1 (List.map (fun a => extent (nth a grid []) (nth a sh 0%nat)) axes))%R.
Proof.
  intros H. revert x. induction axes as [|a r IH]; intros x; [cbn; lra|]. cbn [total List.map fold_right].
  rewrite (rsum_ext _ (fun k => (c * fold_right Rmult 1 (List.map (fun a => extent (nth a grid []) (nth a sh 0%nat)) r)) * width (nth a grid []) (nth a sh 0%nat) k)%R).
  2:{ intros k _. rewrite IH by (intros b Hb; apply H; now right). ring. }
  rewrite rsum_scale, sum_widths by (apply H; now left). ring.
Qed.

Lemma spans_extents grid sh axes :
  (forall a, In a axes -> edges (nth a grid []) (nth a sh 0)) ->
  (0 < fold_right Rmult 1 (List.map (fun a => span (nth a grid []) (nth a sh 0%nat)) axes))%R /\
  fold_right Rmult 1%R (List.map (fun a => span (nth a grid []) (nth a sh 0%nat)) axes) =
  fold_right Rmult 1%R (List.map (fun a => extent (nth a grid []) (nth a sh 0%nat)) axes).
Proof.
  induction axes as [|a r IH]; intros H; [cbn; split; [lra|reflexivity]|]. cbn [List.map fold_right].
  destruct (IH (fun b Hb => H b (or_intror Hb))) as [P E]. destruct (edges_span _ _ (H a (or_introl eq_refl))) as [P' E'].
  split; [now apply Rmult_lt_0_compat|]. now rewrite E, E'.
Qed.

(** On cells the average is the integral over the volume; it lies between any
    bounds of the values, so the average of a constant is that constant. *)
Theorem C59_average grid v sh f axes lo hi :
  NoDup axes -> holds sh v f -> length grid <= length sh -> no_point grid sh ->
  (forall a, In a axes -> a < length grid /\ edges (nth a grid []) (nth a sh 0)) ->
  (forall y, in_range sh y -> lo <= f y <= hi)%R ->
  exists G w u, ev_integrate true (AxTuple (List.map Z.of_nat axes)) (grid, v) = Ok (G, w) /\
    ev_integrate false (AxTuple (List.map Z.of_nat axes)) (grid, v) = Ok (G, u) /\ shape w = shape u /\
    forall x, in_range (shape w) x ->
      (lo <= val w x <= hi)%R /\
      val w x = (val u x / fold_right Rmult 1 (List.map (fun a => last (nth a grid []) 0 - nth 0 (nth a grid []) 0) axes))%R.
Proof.
  intros ND Hv Lg NP H B.
  assert (H1 : forall a, In a axes -> a < length grid /\ 2 <= length (nth a grid []) /\ fits (nth a grid []) (nth a sh 0)).
  { intros a Ha. destruct (H a Ha) as [La Ea]. split; [exact La|]. now apply edges_fits. }
  destruct (ev_integrate_ok true (AxTuple (List.map Z.of_nat axes)) grid v sh f axes eq_refl ND Hv Lg NP H1) as (w & Ew & Hw).
  destruct (ev_integrate_ok false (AxTuple (List.map Z.of_nat axes)) grid v sh f axes eq_refl ND Hv Lg NP H1) as (u & Eu & Hu).
  do 3 eexists. split; [exact Ew|]. split; [exact Eu|].
  pose proof Hw as (_ & Sw & _). pose proof Hu as (_ & Su & _). split; [congruence|]. intros x Hx. rewrite Sw in Hx.
  rewrite (holds_val _ _ _ _ Hw Hx), (holds_val _ _ _ _ Hu Hx). cbv beta iota.
  assert (HE : forall a, In a axes -> edges (nth a grid []) (nth a sh 0)) by (intros a Ha; apply H, Ha).
  assert (HE' : forall a, In a axes -> edges (nth a grid []) (nth a sh 0) /\ a < length sh) by (intros a Ha; destruct (H a Ha); split; [assumption|lia]).
  destruct (spans_extents grid sh axes HE) as [P E]. split.
  - rewrite E in *. set (L := fold_right Rmult 1%R (List.map (fun a => extent (nth a grid []) (nth a sh 0%nat)) axes)) in *.
    pose proof (total_le grid sh axes (fun _ => lo) f x HE' ND (fun y Hy => proj1 (B y Hy)) Hx) as T1.
    pose proof (total_le grid sh axes f (fun _ => hi) x HE' ND (fun y Hy => proj2 (B y Hy)) Hx) as T2.
    rewrite total_const in T1, T2 by (intros a Ha; now apply edges_fits, HE). fold L in T1, T2.
    split; [apply Rmult_le_reg_r with L; [exact P|]|apply Rmult_le_reg_r with L; [exact P|]];
      unfold Rdiv; rewrite ?Rmult_assoc, ?Rinv_l by lra; lra.
  - f_equal. f_equal. apply map_ext_in. intros a Ha. destruct (HE a Ha) as (L & _ & _). unfold span.
    destruct (Nat.eqb_spec (length (nth a grid [])) (nth a sh 0)); [lia|reflexivity].
Qed.

(** For data at the points of an uneven grid the sum repeats the last width but
    the length adds the first one: the average of 1 is not 1. *)
Theorem C59_average_refuted : exists grid v G w,
  grid = [[0; 1; 3]%R] /\ v = tabulate [3; 1] (fun _ => 1%R) /\
  ev_integrate true (AxInt 0) (grid, v) = Ok (G, w) /\ get w [0; 0] = Some (5 / 4)%R.
Proof.
  destruct (ev_integrate_ok true (AxInt 0) [[0; 1; 3]%R] (tabulate [3; 1] (fun _ => 1%R)) [3; 1] (fun _ => 1%R) [0]) as (w & E & (_ & _ & V)).
  - reflexivity.
  - repeat constructor. cbn. tauto.
  - apply holds_tab.
  - cbn. lia.
  - intros [|b] Hb; cbn in *; lia.
  - intros a [<-|[]]. cbn. split; [lia|]. split; [lia|]. right. cbn. lia.
  - do 4 eexists. split; [reflexivity|]. split; [reflexivity|]. split; [exact E|]. rewrite V by (repeat constructor). f_equal.
    unfold span, width. cbn. unfold width. cbn. field.
Qed.

(** The result of an integration has one coordinate for an axis of length one,
    which the widths cannot cope with: a second integration fails although both
    axes at once are fine. *)
Theorem C59_again grid v :
  length grid <= length (shape v) ->
  (exists b, b < length grid /\ length (nth b grid []) = 1 /\ nth b (shape v) 0 = 1) ->
  forall avg l, ev_integrate avg (AxTuple l) (grid, v) = Err IndexError.
Proof.
  intros Lg (b & Lb & L1 & S1) avg l. unfold ev_integrate. cbn [ev_parse_axis bind fst snd].
  assert (E : ev_dz_all grid (shape v) = Err IndexError).
  { revert b Lb L1 S1. generalize dependent (shape v). induction grid as [|c g IH]; intros [|n sh] Lg b Lb L1 S1; cbn [length] in *; try lia.
    cbn [ev_dz_all]. destruct b as [|b]; cbn [nth] in L1, S1.
    - rewrite L1, S1. cbn [Nat.eqb]. destruct c as [|x [|y c]]; cbn [length] in L1; try discriminate. reflexivity.
    - rewrite (IH sh ltac:(lia) b ltac:(lia) L1 S1). destruct (length c =? n); [destruct (diffs c)|]; reflexivity. }
  rewrite E. reflexivity.
Qed.

Theorem C59_one_by_one_refuted : exists grid v r G w,
  ev_integrate false (AxStr "0,1") (grid, v) = Ok r /\
  ev_integrate false (AxInt 0) (grid, v) = Ok (G, w) /\
  ev_integrate false (AxInt 1) (G, w) = Err IndexError.
Proof.
  exists ex_grid, ex_arr. do 3 eexists. split; [reflexivity|]. split; [reflexivity|]. reflexivity.
Qed.

(** [len] gives the distance between the outer edges. *)
Theorem C59_len grid v a g n :
  nth_error grid a = Some g -> nth_error (shape v) a = Some n -> edges g n ->
  ev_len (Z.of_nat a) (grid, v) = Ok (nth n g 0 - nth 0 g 0)%R /\ (0 < nth n g 0 - nth 0 g 0)%R.
Proof.
  intros Eg En Ed. pose proof Ed as (L & P & I). unfold ev_len. cbn [fst snd].
  assert (La : a < length grid) by (apply nth_error_Some; congruence).
  assert (Ls : a < length (shape v)) by (apply nth_error_Some; congruence).
  rewrite (at_nat grid a []), (at_nat (shape v) a 0) by assumption. cbn [bind].
  rewrite (nth_error_nth _ _ _ Eg), (nth_error_nth _ _ _ En), ev_length_ok by lia.
  unfold span. destruct (Nat.eqb_spec (length g) n); [lia|]. rewrite last_nth. replace (length g - 1) with n by lia.
  split; [reflexivity|]. pose proof (inc_lt g I 0 n ltac:(lia) ltac:(lia)). lra.
Qed.

(** ** Examples *)

Example C59_average_ex : exists G w, ev_integrate true (AxInt 0) ([[0; 1; 4]%R], tabulate [2; 1] ex_val) = Ok (G, w) /\
  get w [0; 0] = Some (7 / 4)%R.
Proof.
  destruct (ev_integrate_ok true (AxInt 0) [[0; 1; 4]%R] (tabulate [2; 1] ex_val) [2; 1] ex_val [0]) as (w & E & (_ & _ & V)).
  - reflexivity.
  - repeat constructor. cbn. tauto.
  - apply holds_tab.
  - cbn. lia.
  - intros [|b] Hb; cbn in *; lia.
  - intros a [<-|[]]. cbn. split; [lia|]. split; [lia|]. right. cbn. lia.
  - do 2 eexists. split; [exact E|]. rewrite V by (repeat constructor). f_equal. unfold span, ex_val. cbn. unfold width. cbn. field.
Qed.

Example C59_edges_ex : edges [0; 1; 4]%R 2.
Proof. split; [reflexivity|]. split; [lia|]. intros [|[|k]] H; cbn in *; lra || lia. Qed.

Example C59_len_ex : ev_len 0 ([[0; 1; 4]%R], tabulate [2; 1] ex_val) = Ok (4 - 0)%R.
Proof. apply (C59_len [[0; 1; 4]%R] (tabulate [2; 1] ex_val) 0 [0; 1; 4]%R 2); [reflexivity|reflexivity|apply C59_edges_ex]. Qed.

Example C59_all_ex : exists G w, ev_integrate true (AxStr "all") ([[0; 1; 4]%R], tabulate [2; 1] ex_val) = Ok (G, w) /\
  ev_integrate true (AxInt 0) ([[0; 1; 4]%R], tabulate [2; 1] ex_val) = Ok (G, w).
Proof.
  destruct C59_average_ex as (G & w & E & _). exists G, w. split; [|exact E]. exact E.
Qed.

Print Assumptions C59_all. Print Assumptions C59_average.
