(** * C113: the twist-and-shift notebook *)
From Coq Require Import String List ZArith Reals Bool Lia Lra Psatz Sorted Permutation.
From Flocq Require Import Core.
From Verif Require Import Prelude PreludeFacts Sort Twist_Model.
Import ListNotations.
Open Scope string_scope. Open Scope list_scope. Open Scope R_scope.

(** ** What the properties are stated with *)

(** The sum of [f 0], ..., [f (n - 1)]. *)
Fixpoint tot (n : nat) (f : nat -> R) : R := match n with O => 0 | S m => tot m f + f m end.

(** Continuations of an index beyond [0 .. n-1]: periodic, mirrored at the end points, constant. *)
Definition repeats (n : nat) (g : Z -> nat) : Prop :=
  (forall k, 0 <= k < Z.of_nat n -> g k = Z.to_nat k)%Z /\ (forall k, g (k + Z.of_nat n)%Z = g k).
Definition mirrors (n : nat) (g : Z -> nat) : Prop :=
  (forall k, 0 <= k < Z.of_nat n -> g k = Z.to_nat k)%Z /\ (forall k, g (- k)%Z = g k) /\
  (forall k, g (Z.of_nat n - 1 + k)%Z = g (Z.of_nat n - 1 - k)%Z) /\ (forall k, (g k < n)%nat).
Definition stays (n : nat) (g : Z -> nat) : Prop :=
  (forall k, 0 <= k < Z.of_nat n -> g k = Z.to_nat k)%Z /\ (forall k, (k <= 0)%Z -> g k = 0%nat) /\
  (forall k, (Z.of_nat n <= k)%Z -> g k = (n - 1)%nat).

(** ** Sums *)
Lemma tot_ext n f g : (forall k, (k < n)%nat -> f k = g k) -> tot n f = tot n g.
Proof. induction n as [|n IH]; intros H; cbn; [reflexivity|]. rewrite IH by (intros; apply H; lia). now rewrite H by lia. Qed.
Lemma tot_plus n f g : tot n (fun k => f k + g k) = tot n f + tot n g.
Proof. induction n as [|n IH]; cbn; [lra|]. rewrite IH. lra. Qed.
Lemma tot_scal n c f : tot n (fun k => c * f k) = c * tot n f.
Proof. induction n as [|n IH]; cbn; [lra|]. rewrite IH. lra. Qed.
Lemma tot_le n f g : (forall k, (k < n)%nat -> f k <= g k) -> tot n f <= tot n g.
Proof. induction n as [|n IH]; intros H; cbn; [lra|]. specialize (IH ltac:(intros; apply H; lia)). specialize (H n ltac:(lia)). lra. Qed.
Lemma tot_first n f : tot (S n) f = f 0%nat + tot n (fun k => f (S k)).
Proof. induction n as [|n IH]; [cbn; lra|]. change (tot (S (S n)) f) with (tot (S n) f + f (S n)). rewrite IH. cbn [tot]. lra. Qed.
Lemma tot_split n m f : tot (n + m) f = tot n f + tot m (fun k => f (n + k)%nat).
Proof.
  induction m as [|m IH]; [rewrite Nat.add_0_r; cbn; lra|]. rewrite Nat.add_succ_r. cbn [tot]. rewrite IH. lra.
Qed.
Lemma rsum_tot n f : rsum (map f (seq 0 n)) = tot n f.
Proof.
  enough (G : forall s, rsum (map f (seq s n)) = tot n (fun k => f (s + k)%nat)) by (rewrite G; reflexivity).
  induction n as [|n IH]; intros s; [reflexivity|]. cbn [seq map rsum fold_right]. fold (rsum (map f (seq (S s) n))).
  rewrite IH, tot_first, Nat.add_0_r. f_equal. apply tot_ext. intros k _. f_equal. lia.
Qed.
Lemma rsum_nth l : rsum l = tot (length l) (fun k => nth k l 0).
Proof.
  rewrite <- rsum_tot. f_equal. induction l as [|a l IH]; [reflexivity|]. cbn [length seq map nth]. f_equal.
  rewrite <- seq_shift, map_map. exact IH.
Qed.

(** ** Kernels *)
Lemma map_nth_R f (l : list R) k : (k < length l)%nat -> nth k (map f l) 0 = f (nth k l 0).
Proof. intros H. rewrite (nth_indep _ 0 (f 0)) by now rewrite map_length. apply map_nth. Qed.

Lemma tot_const n c : tot n (fun _ => c) = INR n * c.
Proof. induction n as [|n IH]; [cbn; lra|]. rewrite S_INR. cbn [tot]. rewrite IH. lra. Qed.
Lemma tot_pos n f k : (forall i, (i < n)%nat -> 0 <= f i) -> (k < n)%nat -> 0 < f k -> 0 < tot n f.
Proof.
  intros N K P. induction n as [|n IH]; [lia|]. cbn.
  assert (0 <= tot n f). { pose proof (tot_le n (fun _ => 0) f ltac:(intros; apply N; lia)) as X. rewrite tot_const in X. lra. }
  destruct (Nat.eq_dec k n) as [->|Ne]; [lra|]. specialize (IH ltac:(intros; apply N; lia) ltac:(lia)). specialize (N n ltac:(lia)). lra.
Qed.

(** Normalised weights of a list without negative entries and with a positive one. *)
Lemma normalise_nth w k : (forall i, (i < length w)%nat -> 0 <= nth i w 0) -> (k < length w)%nat ->
  nth k (normalise w) 0 = nth k w 0 / tot (length w) (fun i => nth i w 0).
Proof.
  intros N K. unfold normalise. assert (E : map (fun x => Rmax x 0) w = w).
  { clear K. apply nth_ext with 0 0; [apply map_length|]. intros i Hi. rewrite map_length in Hi.
    rewrite map_nth_R by exact Hi. apply Rmax_left. now apply N. }
  cbv zeta. rewrite E, map_nth_R by exact K. now rewrite rsum_nth.
Qed.
Lemma normalise_length w : length (normalise w) = length w.
Proof. unfold normalise. now rewrite !map_length. Qed.

Definition weights (w : list R) : Prop :=
  (1 <= length w)%nat /\ (forall k, (k < length w)%nat -> 0 <= nth k w 0) /\ tot (length w) (fun k => nth k w 0) = 1.

Lemma normalise_weights w : (forall i, (i < length w)%nat -> 0 <= nth i w 0) -> (exists k, (k < length w)%nat /\ 0 < nth k w 0) ->
  weights (normalise w).
Proof.
  intros N (k & K & P). assert (T : 0 < tot (length w) (fun i => nth i w 0)) by (apply (tot_pos _ _ k); assumption).
  unfold weights. rewrite normalise_length. split; [lia|]. split.
  - intros i Hi. rewrite normalise_nth by assumption. unfold Rdiv. apply Rmult_le_pos; [now apply N|]. left. now apply Rinv_0_lt_compat.
  - rewrite (tot_ext _ _ (fun i => / tot (length w) (fun i => nth i w 0) * nth i w 0)).
    + rewrite tot_scal. field. lra.
    + intros i Hi. rewrite normalise_nth by assumption. unfold Rdiv. ring.
Qed.

Lemma arange_length h : length (arange h) = Z.to_nat (2 * h + 1).
Proof. unfold arange. now rewrite map_length, seq_length. Qed.
Lemma arange_nth h k : (k < Z.to_nat (2 * h + 1))%nat -> nth k (arange h) 0 = IZR (Z.of_nat k - h).
Proof.
  intros K. unfold arange. rewrite (nth_indep _ 0 (IZR (Z.of_nat 0 - h))) by now rewrite map_length, seq_length.
  rewrite (map_nth (fun i => IZR (Z.of_nat i - h))). now rewrite seq_nth.
Qed.

(** The entries of the triangle. *)
Lemma repeat_nth (c : R) n k : (k < n)%nat -> nth k (repeat c n) 0 = c.
Proof. revert k. induction n as [|n IH]; intros k H; [lia|]. destruct k as [|k]; [reflexivity|]. cbn. apply IH. lia. Qed.
Lemma count_window n k m : (m <= n)%nat ->
  tot m (fun i => nth i (repeat 1 n) 0 * (if (i <=? k)%nat then nth (k - i) (repeat 1 n) 0 else 0)) =
  INR (Nat.min m (k + 1) - (k + 1 - n)).
Proof.
  induction m as [|m IH]; intros Hm; [reflexivity|]. cbn [tot]. rewrite IH by lia. rewrite repeat_nth by lia.
  destruct (Nat.leb_spec m k) as [L|L].
  - destruct (Nat.lt_ge_cases (k - m) n) as [G|G].
    + rewrite repeat_nth by lia. replace (Nat.min (S m) (k + 1) - (k + 1 - n))%nat with (S (Nat.min m (k + 1) - (k + 1 - n)))%nat by lia.
      rewrite S_INR. lra.
    + rewrite (nth_overflow (repeat 1 n)) by (rewrite repeat_length; lia).
      replace (Nat.min (S m) (k + 1) - (k + 1 - n))%nat with 0%nat by lia.
      replace (Nat.min m (k + 1) - (k + 1 - n))%nat with 0%nat by lia. cbn. lra.
  - replace (Nat.min (S m) (k + 1)) with (Nat.min m (k + 1)) by lia. lra.
Qed.
Lemma triangle_length n : (1 <= n)%nat -> length (convolve (repeat 1 n) (repeat 1 n)) = (2 * n - 1)%nat.
Proof. intros H. unfold convolve. rewrite map_length, seq_length, repeat_length. lia. Qed.
Lemma triangle_nth n k : (k < 2 * n - 1)%nat ->
  nth k (convolve (repeat 1 n) (repeat 1 n)) 0 = INR (Nat.min (k + 1) (2 * n - 1 - k)).
Proof.
  intros K. unfold convolve. rewrite repeat_length.
  match goal with |- nth k (map ?f _) 0 = _ => rewrite (nth_indep _ 0 (f 0%nat)) by (rewrite map_length, seq_length; lia); rewrite (map_nth f) end.
  rewrite seq_nth by lia. rewrite Nat.add_0_l, rsum_tot, count_window by lia. f_equal. lia.
Qed.
Lemma triangle_sum n : (1 <= n)%nat -> tot (2 * n - 1) (fun k => INR (Nat.min (k + 1) (2 * n - 1 - k))) = INR n * INR n.
Proof.
  assert (Up : forall m, tot m (fun k => INR (k + 1)) = INR m * (INR m + 1) / 2).
  { induction m as [|m IH]; [cbn; lra|]. cbn [tot]. rewrite IH, S_INR, plus_INR. cbn [INR]. lra. }
  intros H. replace (2 * n - 1)%nat with (n + (n - 1))%nat by lia. rewrite tot_split.
  rewrite (tot_ext n _ (fun k => INR (k + 1))) by (intros; f_equal; lia). rewrite Up.
  rewrite (tot_ext (n - 1) _ (fun k => INR n + - INR (k + 1))).
  - rewrite tot_plus, tot_const. rewrite (tot_ext (n - 1) (fun k => - INR (k + 1)) (fun k => -1 * INR (k + 1))) by (intros; lra).
    rewrite tot_scal, Up, minus_INR by lia. cbn [INR]. lra.
  - intros k K. replace (Nat.min (n + k + 1) (n + (n - 1) - (n + k))) with (n - (k + 1))%nat by lia.
    rewrite minus_INR by lia. lra.
Qed.

(** The continuous windows. *)
Definition window (filter_type : string) (a n : nat) (sigma : R) (k : Z) : R :=
  if filter_type =? "gaussian" then exp (- (IZR k / (sigma * INR n)) ^ 2 / 2)
  else if filter_type =? "hann" then (1 + cos (PI * IZR k / INR (a * n))) / 2
  else 42 / 100 + 1 / 2 * cos (PI * IZR k / INR (a * n)) + 8 / 100 * cos (2 * PI * IZR k / INR (a * n)).

Lemma blackman_nonneg c : -1 <= c <= 1 -> 0 <= 42 / 100 + 1 / 2 * c + 8 / 100 * (2 * c * c - 1).
Proof. intros H. nra. Qed.

Lemma window_nonneg ft a n sigma k : 0 <= window ft a n sigma k.
Proof.
  unfold window. destruct (ft =? "gaussian")%string; [left; apply exp_pos|].
  destruct (ft =? "hann")%string.
  - pose proof (COS_bound (PI * IZR k / INR (a * n))). lra.
  - replace (2 * PI * IZR k / INR (a * n)) with (2 * (PI * IZR k / INR (a * n))) by (unfold Rdiv; ring).
    rewrite cos_2a_cos. apply blackman_nonneg. apply COS_bound.
Qed.
Lemma window_centre ft a n sigma : 0 < window ft a n sigma 0.
Proof.
  unfold window. destruct (ft =? "gaussian")%string; [apply exp_pos|].
  replace (PI * 0 / INR (a * n)) with 0 by (unfold Rdiv; ring). replace (2 * PI * 0 / INR (a * n)) with 0 by (unfold Rdiv; ring).
  rewrite cos_0. destruct (ft =? "hann")%string; lra.
Qed.
Lemma window_even ft a n sigma k : window ft a n sigma (- k) = window ft a n sigma k.
Proof.
  unfold window. rewrite opp_IZR. destruct (ft =? "gaussian")%string.
  - f_equal. unfold Rdiv. ring.
  - replace (PI * - IZR k / INR (a * n)) with (- (PI * IZR k / INR (a * n))) by (unfold Rdiv; ring).
    replace (2 * PI * - IZR k / INR (a * n)) with (- (2 * PI * IZR k / INR (a * n))) by (unfold Rdiv; ring).
    now rewrite !cos_neg.
Qed.

(** A list of window values around the centre. *)
Lemma window_list f ft a n sigma h : (0 <= h)%Z -> (forall k, f (IZR k) = window ft a n sigma k) ->
  let w := map f (arange h) in
  length w = Z.to_nat (2 * h + 1) /\
  (forall k, (k < length w)%nat -> nth k w 0 = window ft a n sigma (Z.of_nat k - h)) /\
  (forall k, (k < length w)%nat -> 0 <= nth k w 0) /\ (exists k, (k < length w)%nat /\ 0 < nth k w 0).
Proof.
  intros H F w. assert (L : length w = Z.to_nat (2 * h + 1)) by (unfold w; now rewrite map_length, arange_length).
  assert (N : forall k, (k < length w)%nat -> nth k w 0 = window ft a n sigma (Z.of_nat k - h)).
  { intros k K. rewrite L in K. unfold w. rewrite map_nth_R by now rewrite arange_length. rewrite arange_nth by exact K. apply F. }
  split; [exact L|]. split; [exact N|]. split.
  - intros k K. rewrite N by exact K. apply window_nonneg.
  - exists (Z.to_nat h). assert (K : (Z.to_nat h < length w)%nat) by lia. split; [exact K|].
    rewrite N by exact K. replace (Z.of_nat (Z.to_nat h) - h)%Z with 0%Z by lia. apply window_centre.
Qed.

(** How far a window reaches: three standard deviations, or [a] coarse cells. *)
Definition reach (ft : string) (a n : nat) (sigma : R) (half : nat) : Prop :=
  (ft = "gaussian" /\ 0 < sigma /\ INR half - 1 < 3 * sigma * INR n <= INR half) \/
  ((ft = "hann" \/ ft = "blackman") /\ (1 <= a)%nat /\ half = (a * n)%nat).

Lemma raw_windows n ft a sigma : (1 <= n)%nat ->
  (forall half, reach ft a n sigma half ->
     exists w, raw_kernel n ft a sigma = Ok w /\ length w = (2 * half + 1)%nat /\
       (forall k, (k < length w)%nat -> nth k w 0 = window ft a n sigma (Z.of_nat k - Z.of_nat half)) /\
       (forall k, (k < length w)%nat -> 0 <= nth k w 0) /\ (exists k, (k < length w)%nat /\ 0 < nth k w 0)) /\
  (forall w, raw_kernel n ft a sigma = Ok w ->
     (exists half, reach ft a n sigma half) \/ w = repeat 1 n \/ w = convolve (repeat 1 n) (repeat 1 n)).
Proof.
  intros N. assert (Np : 0 < INR n) by (apply lt_0_INR; lia). split.
  - intros half [(-> & S & Hh)|(Hf & A & ->)].
    + unfold raw_kernel. change ("gaussian" =? "box")%string with false. change ("gaussian" =? "triangle")%string with false.
      change ("gaussian" =? "gaussian")%string with true. cbv iota. destruct (Rlt_dec 0 sigma) as [_|C]; [|contradiction].
      assert (E : Zceil (3 * sigma * INR n) = Z.of_nat half).
      { apply Zceil_imp. rewrite minus_IZR, <- INR_IZR_INZ. lra. }
      rewrite E. eexists. split; [reflexivity|].
      destruct (window_list (fun k => exp (- (1 / 2) * (k / (sigma * INR n)) ^ 2)) "gaussian" a n sigma (Z.of_nat half) ltac:(lia)) as (L & X & Y & Z0).
      * intros k. unfold window. change ("gaussian" =? "gaussian")%string with true. cbv iota. f_equal. unfold Rdiv. ring.
      * split; [rewrite L; lia|]. auto.
    + assert (P : (a * n =? 0)%nat = false) by (apply Nat.eqb_neq; nia).
      destruct Hf as [-> | ->]; unfold raw_kernel.
      * change ("hann" =? "box")%string with false. change ("hann" =? "triangle")%string with false.
        change ("hann" =? "gaussian")%string with false. change ("hann" =? "hann")%string with true. cbv iota zeta. rewrite P.
        eexists. split; [reflexivity|].
        destruct (window_list (fun k => 1 / 2 + 1 / 2 * cos (PI * k / INR (a * n))) "hann" a n sigma (Z.of_nat (a * n)) ltac:(lia)) as (L & X & Y & Z0).
        { intros k. unfold window. change ("hann" =? "gaussian")%string with false. change ("hann" =? "hann")%string with true. cbv iota. lra. }
        split; [rewrite L; lia|]. auto.
      * change ("blackman" =? "box")%string with false. change ("blackman" =? "triangle")%string with false.
        change ("blackman" =? "gaussian")%string with false. change ("blackman" =? "hann")%string with false.
        change ("blackman" =? "blackman")%string with true. cbv iota zeta. rewrite P.
        eexists. split; [reflexivity|].
        destruct (window_list (fun k => 42 / 100 + 1 / 2 * cos (PI * (k / INR (a * n))) + 8 / 100 * cos (2 * PI * (k / INR (a * n)))) "blackman" a n sigma (Z.of_nat (a * n)) ltac:(lia)) as (L & X & Y & Z0).
        { intros k. unfold window. change ("blackman" =? "gaussian")%string with false. change ("blackman" =? "hann")%string with false. cbv iota.
          unfold Rdiv. rewrite !Rmult_assoc. reflexivity. }
        split; [rewrite L; lia|]. auto.
  - intros w E. unfold raw_kernel in E.
    destruct (ft =? "box")%string eqn:E1; [injection E as <-; auto|].
    destruct (ft =? "triangle")%string eqn:E2; [injection E as <-; auto|].
    destruct (ft =? "gaussian")%string eqn:E3.
    { apply String.eqb_eq in E3. destruct (Rlt_dec 0 sigma) as [S|_]; [|discriminate]. left.
      exists (Z.to_nat (Zceil (3 * sigma * INR n))). left. split; [exact E3|]. split; [exact S|].
      assert (Q : 0 < 3 * sigma * INR n) by (apply Rmult_lt_0_compat; lra).
      assert (Zp : (0 < Zceil (3 * sigma * INR n))%Z).
      { apply lt_IZR. eapply Rlt_le_trans; [exact Q|]. apply Zceil_ub. }
      rewrite INR_IZR_INZ, Z2Nat.id by lia. split; [|apply Zceil_ub].
      pose proof (Zceil_lb (3 * sigma * INR n)). lra. }
    destruct (ft =? "hann")%string eqn:E4.
    { apply String.eqb_eq in E4. cbv zeta in E. destruct (a * n =? 0)%nat eqn:P; [discriminate|]. apply Nat.eqb_neq in P. left.
      exists (a * n)%nat. right. split; [auto|]. split; [nia|reflexivity]. }
    destruct (ft =? "blackman")%string eqn:E5.
    { apply String.eqb_eq in E5. cbv zeta in E. destruct (a * n =? 0)%nat eqn:P; [discriminate|]. apply Nat.eqb_neq in P. left.
      exists (a * n)%nat. right. split; [auto|]. split; [nia|reflexivity]. }
    injection E as <-. auto.
Qed.

(** Every kernel consists of weights: not negative, with sum one. *)
Theorem C113_kernel n ft a sigma w : make_kernel n ft a sigma = Ok w ->
  (1 <= length w)%nat /\ (forall k, (k < length w)%nat -> 0 <= nth k w 0) /\ tot (length w) (fun k => nth k w 0) = 1.
Proof.
  intros E. change (weights w). unfold make_kernel in E. destruct (n =? 0)%nat eqn:N0; [discriminate|]. apply Nat.eqb_neq in N0.
  destruct (n =? 1)%nat; [injection E as <-; repeat split; cbn; [lia| |lra]; intros [|k] K; cbn; [lra|lia]|].
  apply bind_ok in E. destruct E as (r & Er & E). injection E as <-.
  destruct (raw_windows n ft a sigma ltac:(lia)) as [A B].
  destruct (B r Er) as [(half & Rh)|[->| ->]].
  - destruct (A half Rh) as (r' & Er' & _ & _ & X & Y). rewrite Er in Er'. injection Er' as <-. now apply normalise_weights.
  - apply normalise_weights; rewrite repeat_length.
    + intros i Hi. rewrite repeat_nth by exact Hi. lra.
    + exists 0%nat. split; [lia|]. rewrite repeat_nth by lia. lra.
  - apply normalise_weights; rewrite triangle_length by lia.
    + intros i Hi. rewrite triangle_nth by exact Hi. apply pos_INR.
    + exists 0%nat. split; [lia|]. rewrite triangle_nth by lia. apply lt_0_INR. lia.
Qed.

(** The kernels for a factor of at least two: a box for "box" and for unknown names (also for
    the default "lanczos"), the triangle, and the windows, which the clipping does not change. *)
Theorem C113_windows n ft a sigma : (2 <= n)%nat ->
  (~ In ft ["triangle"; "gaussian"; "hann"; "blackman"] -> make_kernel n ft a sigma = Ok (repeat (1 / INR n) n)) /\
  (exists w, make_kernel n "triangle" a sigma = Ok w /\ length w = (2 * n - 1)%nat /\
     forall k, (k < 2 * n - 1)%nat -> nth k w 0 = INR (Nat.min (k + 1) (2 * n - 1 - k)) / (INR n * INR n)) /\
  (forall half, reach ft a n sigma half ->
     exists w, make_kernel n ft a sigma = Ok w /\ length w = (2 * half + 1)%nat /\
       forall k, (k < 2 * half + 1)%nat ->
         nth k w 0 = window ft a n sigma (Z.of_nat k - Z.of_nat half) /
                     tot (2 * half + 1) (fun i => window ft a n sigma (Z.of_nat i - Z.of_nat half))).
Proof.
  intros N. assert (N0 : (n =? 0)%nat = false) by (apply Nat.eqb_neq; lia). assert (N1 : (n =? 1)%nat = false) by (apply Nat.eqb_neq; lia).
  unfold make_kernel. rewrite N0, N1. split; [|split].
  - intros Ni. assert (E : raw_kernel n ft a sigma = Ok (repeat 1 n)).
    { unfold raw_kernel. destruct (ft =? "box")%string; [reflexivity|].
      destruct (String.eqb_spec ft "triangle") as [->|_]; [exfalso; apply Ni; cbn; auto|].
      destruct (String.eqb_spec ft "gaussian") as [->|_]; [exfalso; apply Ni; cbn; auto|].
      destruct (String.eqb_spec ft "hann") as [->|_]; [exfalso; apply Ni; cbn; auto|].
      destruct (String.eqb_spec ft "blackman") as [->|_]; [exfalso; apply Ni; cbn; auto|]. reflexivity. }
    rewrite E. cbn [bind]. f_equal. apply nth_ext with 0 0; [now rewrite normalise_length, !repeat_length|].
    intros k K. rewrite normalise_length, repeat_length in K. rewrite normalise_nth; rewrite ?repeat_length.
    + rewrite !repeat_nth by exact K. f_equal. rewrite (tot_ext _ _ (fun _ => 1)) by (intros; now rewrite repeat_nth). rewrite tot_const. lra.
    + intros i Hi. rewrite repeat_nth by exact Hi. lra.
    + exact K.
  - unfold raw_kernel. change ("triangle" =? "box")%string with false. change ("triangle" =? "triangle")%string with true. cbn [bind].
    eexists. split; [reflexivity|]. rewrite normalise_length, triangle_length by lia. split; [reflexivity|].
    intros k K. rewrite normalise_nth; rewrite ?triangle_length by lia.
    + rewrite triangle_nth by exact K. f_equal. rewrite (tot_ext _ _ (fun k => INR (Nat.min (k + 1) (2 * n - 1 - k)))) by (intros; now apply triangle_nth).
      apply triangle_sum. lia.
    + intros i Hi. rewrite triangle_nth by exact Hi. apply pos_INR.
    + exact K.
  - intros half Rh. destruct (raw_windows n ft a sigma ltac:(lia)) as [A _]. destruct (A half Rh) as (r & -> & L & X & Y & _). cbn [bind].
    eexists. split; [reflexivity|]. rewrite normalise_length. split; [exact L|]. intros k K. rewrite normalise_nth by (auto || lia).
    rewrite X by lia. f_equal. rewrite L. apply tot_ext. intros i Hi. apply X. lia.
Qed.

(** ** Filtering *)

Lemma pick_id n i : (i < n)%nat -> pick n i = i.
Proof. intros H. unfold pick. destruct (Nat.eqb_spec n 1); lia. Qed.

Lemma total_spec (f : nat -> mat) r c L : (1 <= L)%nat ->
  (forall k, (k < L)%nat -> m_rows (f k) = r /\ m_cols (f k) = c) ->
  exists m, total (map f (seq 0 L)) = Ok m /\ m_rows m = r /\ m_cols m = c /\
    forall i j, (i < r)%nat -> (j < c)%nat -> m_at m i j = tot L (fun k => m_at (f k) i j).
Proof.
  intros HL Sh. destruct L as [|L]; [lia|]. cbn [seq map total]. rewrite <- seq_shift, map_map.
  assert (G : forall n s acc, (s + n = L)%nat -> m_rows acc = r -> m_cols acc = c ->
    exists m, fold_left (fun a x => let* b := a in plus b x) (map (fun k => f (S k)) (seq s n)) (Ok acc) = Ok m /\
      m_rows m = r /\ m_cols m = c /\
      forall i j, (i < r)%nat -> (j < c)%nat -> m_at m i j = m_at acc i j + tot n (fun k => m_at (f (S (s + k))) i j)).
  { induction n as [|n IH]; intros s acc Es Er Ec.
    - exists acc. cbn. repeat split; auto. intros. lra.
    - cbn [seq map fold_left bind]. destruct (Sh (S s) ltac:(lia)) as [Fr Fc].
      unfold plus at 2. rewrite Er, Ec, Fr, Fc. unfold bcast. rewrite !Nat.eqb_refl. cbn [bind].
      match goal with |- context [fold_left _ _ (Ok ?a)] => destruct (IH (S s) a ltac:(lia) eq_refl eq_refl) as (m & Em & Mr & Mc & Mv) end.
      exists m. split; [exact Em|]. split; [exact Mr|]. split; [exact Mc|]. intros i j Hi Hj. rewrite Mv by assumption. cbn [m_at].
      rewrite !pick_id by assumption. rewrite tot_first, Nat.add_0_r, Rplus_assoc. f_equal. f_equal. apply tot_ext.
      intros k _. do 2 f_equal. lia. }
  destruct (Sh 0%nat ltac:(lia)) as [Fr Fc]. destruct (G L 0%nat (f 0%nat) ltac:(lia) Fr Fc) as (m & Em & Mr & Mc & Mv).
  exists m. split; [exact Em|]. split; [exact Mr|]. split; [exact Mc|]. intros i j Hi Hj. rewrite Mv by assumption.
  now rewrite tot_first.
Qed.

Lemma repeats_sub n g k : repeats n g -> g (k - Z.of_nat n)%Z = g k.
Proof. intros [_ P]. rewrite <- (P (k - Z.of_nat n)%Z). f_equal. lia. Qed.

(** Entries of the periodic padding. *)
Lemma pad_periodic_at m k g i j : (1 <= k <= m_cols m)%nat -> repeats (m_cols m) g -> (j < m_cols m + 2 * k)%nat ->
  m_at (pad_cols_periodic k m) i j = m_at m i (g (Z.of_nat j - Z.of_nat k)%Z).
Proof.
  intros K G J. unfold pad_cols_periodic, beside, cut_cols, from_end. cbn [m_at m_rows m_cols].
  destruct (Nat.eqb_spec k 0) as [C|_]; [lia|]. rewrite Nat.min_id.
  destruct G as [G P]. destruct (Nat.ltb_spec j (m_cols m - (m_cols m - k) + m_cols m)) as [J1|J1].
  - destruct (Nat.ltb_spec j (m_cols m - (m_cols m - k))) as [J2|J2]; f_equal.
    + rewrite <- P, G by lia. lia.
    + rewrite G by lia. lia.
  - f_equal. rewrite <- (repeats_sub _ _ _ (conj G P)), G by lia. lia.
Qed.

Lemma filter_cols_spec w (periodic : bool) m g : (1 <= length w)%nat -> (1 <= m_cols m)%nat ->
  (if periodic then repeats (m_cols m) g /\ (length w / 2 <= m_cols m)%nat else stays (m_cols m) g) ->
  exists t, filter_cols w periodic m = Ok t /\ m_rows t = m_rows m /\ m_cols t = m_cols m /\
    forall i j, (i < m_rows m)%nat -> (j < m_cols m)%nat ->
      m_at t i j = tot (length w) (fun k => nth k w 0 * m_at m i (g (Z.of_nat j + Z.of_nat k - Z.of_nat (length w / 2))%Z)).
Proof.
  intros L C G. unfold filter_cols. assert (D : (length w = 2 * (length w / 2) + length w mod 2)%nat) by (apply Nat.div_mod; lia).
  pose proof (Nat.mod_upper_bound (length w) 2 ltac:(lia)) as Mb. set (half := (length w / 2)%nat) in *.
  assert (X : exists p, (if periodic then Ok (pad_cols_periodic half m) else pad_cols_edge half m) = Ok p /\ m_rows p = m_rows m /\
    (m_cols m + length w - 1 <= m_cols p)%nat /\
    forall i j, (j < m_cols m + length w - 1)%nat -> m_at p i j = m_at m i (g (Z.of_nat j - Z.of_nat half)%Z)).
  { destruct periodic.
    - destruct G as [G Hh]. eexists. split; [reflexivity|]. split; [reflexivity|].
      destruct (Nat.eq_dec half 0) as [H0|H0].
      + rewrite H0. unfold pad_cols_periodic, from_end, beside, cut_cols. cbn [m_at m_cols Nat.eqb]. split; [rewrite Nat.min_id; lia|].
        intros i j J. assert (J' : (j < m_cols m)%nat) by lia. rewrite Nat.min_id.
        destruct (Nat.ltb_spec j (m_cols m - 0 + m_cols m)) as [_|J1]; [|lia].
        destruct (Nat.ltb_spec j (m_cols m - 0)) as [_|J2]; [|lia]. f_equal. destruct G as [G _]. rewrite G by lia. lia.
      + split.
        * unfold pad_cols_periodic, from_end, beside, cut_cols. cbn [m_cols]. destruct (Nat.eqb_spec half 0); lia.
        * intros i j J. apply pad_periodic_at; [lia|exact G|lia].
    - unfold pad_cols_edge. destruct (Nat.eqb_spec (m_cols m) 0) as [C0|_]; [lia|]. cbn [andb]. eexists. split; [reflexivity|].
      split; [reflexivity|]. cbn [m_cols m_at]. split; [lia|]. intros i j J. f_equal. destruct G as (G1 & G2 & G3). unfold edge.
      destruct (Z_le_gt_dec (Z.of_nat j - Z.of_nat half) 0) as [A|A]; [rewrite G2 by lia; lia|].
      destruct (Z_lt_ge_dec (Z.of_nat j - Z.of_nat half) (Z.of_nat (m_cols m))) as [B|B]; [rewrite G1 by lia; lia|].
      rewrite G3 by lia. lia. }
  destruct X as (p & -> & Pr & Pc & Pv). cbn [bind].
  destruct (total_spec (fun k => times (nth k w 0) (cut_cols k (k + m_cols m) p)) (m_rows m) (m_cols m) (length w) L) as (t & Et & Tr & Tc & Tv).
  { intros k K. unfold times, cut_cols. cbn [m_rows m_cols]. split; [exact Pr|]. lia. }
  exists t. split; [exact Et|]. split; [exact Tr|]. split; [exact Tc|]. intros i j Hi Hj. rewrite Tv by assumption.
  apply tot_ext. intros k K. unfold times, cut_cols. cbn [m_at]. rewrite Pv by lia. do 3 f_equal. lia.
Qed.

Lemma mirrors_reflect n g k : (1 <= n)%nat -> mirrors n g -> reflect n k = g k.
Proof.
  intros N (A & B & C & D). unfold reflect. destruct (Nat.eqb_spec n 1) as [->|N1]; [specialize (D k); lia|].
  cbv zeta. set (p := (2 * (Z.of_nat n - 1))%Z). assert (P : forall z, g (z + p)%Z = g z).
  { intros z. replace (z + p)%Z with (Z.of_nat n - 1 + (z + (Z.of_nat n - 1)))%Z by lia. rewrite C, <- B. f_equal. lia. }
  assert (Pn : forall m z, g (z + Z.of_nat m * p)%Z = g z).
  { induction m as [|m IH]; intros z; [f_equal; lia|]. replace (z + Z.of_nat (S m) * p)%Z with (z + Z.of_nat m * p + p)%Z by lia.
    now rewrite P, IH. }
  assert (Pz : forall m z, g (z + m * p)%Z = g z).
  { intros m z. destruct (Z_le_gt_dec 0 m) as [M|M].
    - specialize (Pn (Z.to_nat m) z). rewrite Z2Nat.id in Pn by lia. exact Pn.
    - specialize (Pn (Z.to_nat (- m)) (z + m * p)%Z). rewrite Z2Nat.id in Pn by lia. rewrite <- Pn. f_equal. lia. }
  pose proof (Z.div_mod k p ltac:(lia)) as E. pose proof (Z.mod_pos_bound k p ltac:(lia)) as M.
  assert (Ek : g k = g (k mod p)%Z) by (rewrite <- (Pz (k / p)%Z (k mod p)%Z); f_equal; lia). rewrite Ek.
  destruct (Z.ltb_spec (k mod p) (Z.of_nat n)) as [T|T]; [now rewrite A by lia|].
  rewrite <- (A (p - k mod p)%Z) by lia. rewrite <- B, <- (P (- (p - k mod p))%Z). f_equal. lia.
Qed.

Lemma filter_rows_spec w m g : (1 <= length w)%nat -> (1 <= m_rows m)%nat -> mirrors (m_rows m) g ->
  exists t, filter_rows w m (m_rows m) = Ok t /\ m_rows t = m_rows m /\ m_cols t = m_cols m /\
    forall i j, (i < m_rows m)%nat -> (j < m_cols m)%nat ->
      m_at t i j = tot (length w) (fun k => nth k w 0 * m_at m (g (Z.of_nat i + Z.of_nat k - Z.of_nat (length w / 2))%Z) j).
Proof.
  intros L C G. unfold filter_rows, pad_rows_reflect. destruct (Nat.eqb_spec (m_rows m) 0) as [C0|_]; [lia|]. cbn [andb bind].
  assert (D : (length w = 2 * (length w / 2) + length w mod 2)%nat) by (apply Nat.div_mod; lia).
  pose proof (Nat.mod_upper_bound (length w) 2 ltac:(lia)) as Mb. set (half := (length w / 2)%nat) in *.
  match goal with |- exists t, total (map ?f _) = _ /\ _ => destruct (total_spec f (m_rows m) (m_cols m) (length w) L) as (t & Et & Tr & Tc & Tv) end.
  { intros k K. unfold times, cut_rows. cbn [m_rows m_cols]. split; [|reflexivity]. lia. }
  exists t. split; [exact Et|]. split; [exact Tr|]. split; [exact Tc|]. intros i j Hi Hj. rewrite Tv by assumption.
  apply tot_ext. intros k K. unfold times, cut_rows. cbn [m_at]. rewrite (mirrors_reflect _ g) by assumption. do 3 f_equal. lia.
Qed.

(** The filter is a weighted mean over a window around the point kept: periodic or with constant
    continuation in y, mirrored at both ends in x. *)
Theorem C113_filter field nint_x nint_y ft a sigma (periodic : bool) wx wy gx gy :
  ft <> "5point" -> ft <> "9point" -> (1 <= m_rows field)%nat -> (1 <= m_cols field)%nat ->
  make_kernel nint_x ft a sigma = Ok wx -> make_kernel nint_y ft a sigma = Ok wy ->
  mirrors (m_rows field) gx ->
  (if periodic then repeats (m_cols field) gy /\ (length wy / 2 <= m_cols field)%nat else stays (m_cols field) gy) ->
  exists out, filter_downsample field nint_x nint_y ft a sigma periodic = Ok out /\
    (forall i, (i < m_rows out <-> i * nint_x < m_rows field))%nat /\ (forall j, (j < m_cols out <-> j * nint_y < m_cols field))%nat /\
    forall i j, (i < m_rows out)%nat -> (j < m_cols out)%nat ->
      m_at out i j = tot (length wx) (fun k => nth k wx 0 * tot (length wy) (fun l => nth l wy 0 *
        m_at field (gx (Z.of_nat (i * nint_x) + Z.of_nat k - Z.of_nat (length wx / 2))%Z)
                   (gy (Z.of_nat (j * nint_y) + Z.of_nat l - Z.of_nat (length wy / 2))%Z))).
Proof.
  intros F5 F9 R1 C1 Kx Ky Gx Gy. unfold filter_downsample.
  destruct (String.eqb_spec ft "5point") as [E|_]; [contradiction|]. destruct (String.eqb_spec ft "9point") as [E|_]; [contradiction|].
  rewrite Ky. cbn [bind]. destruct (C113_kernel _ _ _ _ _ Ky) as (Ly & _ & _). destruct (C113_kernel _ _ _ _ _ Kx) as (Lx & _ & _).
  destruct (filter_cols_spec wy periodic field gy Ly C1 Gy) as (t & -> & Tr & Tc & Tv). cbn [bind]. rewrite Kx. cbn [bind].
  rewrite <- Tr in Gx. destruct (filter_rows_spec wx t gx Lx ltac:(lia) Gx) as (o & Eo & Or & Oc & Ov). rewrite Tr in Eo, Or, Ov, Gx. rewrite Eo.
  cbn [bind]. unfold every.
  assert (Nx : (nint_x <> 0)%nat) by (intros ->; discriminate Kx). assert (Ny : (nint_y <> 0)%nat) by (intros ->; discriminate Ky).
  destruct (Nat.eqb_spec nint_x 0) as [C|_]; [contradiction|]. destruct (Nat.eqb_spec nint_y 0) as [C|_]; [contradiction|]. cbn [orb].
  assert (Cd : forall n k i, (k <> 0)%nat -> (i < (n + k - 1) / k <-> i * k < n)%nat).
  { intros n k i K. split; intros H.
    - assert (X : (S i * k <= n + k - 1)%nat) by (rewrite Nat.mul_comm; apply Nat.div_le_lower_bound in H || idtac; pose proof (Nat.mul_div_le (n + k - 1) k K); nia). lia.
    - apply Nat.div_le_lower_bound; [exact K|]. nia. }
  eexists. split; [reflexivity|]. cbn [m_rows m_cols m_at]. rewrite Or, Oc, Tc.
  split; [intros i; now apply Cd|]. split; [intros j; now apply Cd|].
  intros i j Hi Hj. apply Cd in Hi; [|exact Nx]. apply Cd in Hj; [|exact Ny].
  rewrite Ov by (assumption || lia). apply tot_ext. intros k K. f_equal. apply Tv; [|lia]. apply Gx.
Qed.

(** The continuations exist. *)
Definition wrap (n : nat) (k : Z) : nat := Z.to_nat (k mod Z.of_nat n).
Lemma wrap_repeats n : (1 <= n)%nat -> repeats n (wrap n).
Proof.
  intros N. split; intros k; unfold wrap.
  - intros K. now rewrite Z.mod_small.
  - f_equal. rewrite Z.add_mod, Z.mod_same, Z.add_0_r, Z.mod_mod by lia. reflexivity.
Qed.
Lemma wrap_lt n k : (1 <= n)%nat -> (wrap n k < n)%nat.
Proof. intros N. unfold wrap. pose proof (Z.mod_pos_bound k (Z.of_nat n) ltac:(lia)). lia. Qed.
Lemma edge_stays n : (1 <= n)%nat -> stays n (edge n).
Proof. intros N. unfold edge. repeat split; intros; lia. Qed.
Lemma reflect_mirrors n : (1 <= n)%nat -> mirrors n (reflect n).
Proof.
  intros N. unfold reflect. destruct (Nat.eqb_spec n 1) as [->|N1]; [repeat split; intros; lia|]. cbv zeta.
  set (p := (2 * (Z.of_nat n - 1))%Z). assert (Pp : (0 < p)%Z) by lia.
  assert (Sym : forall x y, (exists m, x + y = m * p)%Z ->
     Z.to_nat (if (x mod p <? Z.of_nat n)%Z then x mod p else p - x mod p) =
     Z.to_nat (if (y mod p <? Z.of_nat n)%Z then y mod p else p - y mod p)).
  { intros x y (m & E).
    pose proof (Z.div_mod x p ltac:(lia)) as Ex. pose proof (Z.mod_pos_bound x p Pp) as Mx.
    pose proof (Z.div_mod y p ltac:(lia)) as Ey. pose proof (Z.mod_pos_bound y p Pp) as My.
    assert (D : (x mod p + y mod p = 0 \/ x mod p + y mod p = p)%Z).
    { assert (X : (x mod p + y mod p = (m - x / p - y / p) * p)%Z) by lia. set (t := (m - x / p - y / p)%Z) in X.
      assert (0 <= t < 2)%Z by nia. assert (t = 0 \/ t = 1)%Z as [T|T] by lia; rewrite T in X; lia. }
    destruct (Z.ltb_spec (x mod p) (Z.of_nat n)); destruct (Z.ltb_spec (y mod p) (Z.of_nat n)); lia. }
  split; [|split; [|split]]; intros k.
  - intros K. rewrite Z.mod_small by lia. destruct (Z.ltb_spec k (Z.of_nat n)); lia.
  - apply Sym. exists 0%Z. lia.
  - apply Sym. exists 1%Z. lia.
  - pose proof (Z.mod_pos_bound k p Pp) as Mx. destruct (Z.ltb_spec (k mod p) (Z.of_nat n)); lia.
Qed.

Lemma weighted_mean w f lo hi : weights w -> (forall k, (k < length w)%nat -> lo <= f k <= hi) ->
  lo <= tot (length w) (fun k => nth k w 0 * f k) <= hi.
Proof.
  intros (L & N & S1) H. split.
  - replace lo with (lo * tot (length w) (fun k => nth k w 0)) by (rewrite S1; lra). rewrite <- tot_scal. apply tot_le.
    intros k K. specialize (N k K). specialize (H k K). nra.
  - replace hi with (hi * tot (length w) (fun k => nth k w 0)) by (rewrite S1; lra). rewrite <- tot_scal. apply tot_le.
    intros k K. specialize (N k K). specialize (H k K). nra.
Qed.

(** Three neighbours of a padded row, nine of a padded array. *)
Definition row3 (p : mat) (i j : nat) : R := m_at p i j + m_at p i (j + 1)%nat + m_at p i (j + 2)%nat.
Lemma sum9_rows p i j : sum9 p i j = row3 p i j + row3 p (i + 1) j + row3 p (i + 2) j.
Proof. unfold sum9, row3. lra. Qed.
Lemma zero_rows_in p i j : (1 <= i <= m_rows p)%nat -> row3 (zero_rows p) i j = row3 p (i - 1) j.
Proof.
  intros H. unfold row3, zero_rows. cbn [m_at]. destruct (Nat.ltb_spec 0 i); [|lia]. destruct (Nat.ltb_spec i (m_rows p + 1)); [|lia]. reflexivity.
Qed.
Lemma zero_rows_out p i j : (i = 0 \/ m_rows p < i)%nat -> row3 (zero_rows p) i j = 0.
Proof.
  intros H. unfold row3, zero_rows. cbn [m_at]. destruct (Nat.ltb_spec 0 i); destruct (Nat.ltb_spec i (m_rows p + 1)); cbn [andb]; lra || lia.
Qed.
Lemma sum9_zero p i j : (3 <= m_rows p)%nat -> (i < m_rows p)%nat ->
  sum9 (zero_rows p) i j =
  if (i =? m_rows p - 1)%nat then row3 p (m_rows p - 2) j + row3 p (m_rows p - 1) j
  else if (i =? 0)%nat then row3 p 0 j + row3 p 1 j
  else row3 p (i - 1) j + row3 p i j + row3 p (i + 1) j.
Proof.
  intros N I. rewrite sum9_rows. destruct (Nat.eqb_spec i (m_rows p - 1)) as [->|E].
  - rewrite (zero_rows_in p (m_rows p - 1)), (zero_rows_in p (m_rows p - 1 + 1)), (zero_rows_out p (m_rows p - 1 + 2)) by lia.
    replace (m_rows p - 1 - 1)%nat with (m_rows p - 2)%nat by lia. replace (m_rows p - 1 + 1 - 1)%nat with (m_rows p - 1)%nat by lia. lra.
  - destruct (Nat.eqb_spec i 0) as [->|E0].
    + rewrite (zero_rows_out p 0), (zero_rows_in p (0 + 1)), (zero_rows_in p (0 + 2)) by lia. cbn [Nat.add Nat.sub]. lra.
    + rewrite (zero_rows_in p i), (zero_rows_in p (i + 1)), (zero_rows_in p (i + 2)) by lia.
      replace (i + 1 - 1)%nat with i by lia. replace (i + 2 - 1)%nat with (i + 1)%nat by lia. lra.
Qed.
Lemma row3_periodic m i j : (1 <= m_cols m)%nat -> (j < m_cols m)%nat ->
  row3 (pad_cols_periodic 1 m) i j =
  m_at m i (wrap (m_cols m) (Z.of_nat j - 1)) + m_at m i (wrap (m_cols m) (Z.of_nat j)) + m_at m i (wrap (m_cols m) (Z.of_nat j + 1)).
Proof.
  intros C J. unfold row3. rewrite !(pad_periodic_at m 1 (wrap (m_cols m))) by (try (apply wrap_repeats); lia).
  repeat (f_equal; try lia).
Qed.
Lemma row3_zero m i j : (3 <= m_cols m)%nat -> (j < m_cols m)%nat ->
  row3 (zero_cols m) i j =
  if (j =? m_cols m - 1)%nat then m_at m i (m_cols m - 2)%nat + m_at m i (m_cols m - 1)%nat
  else if (j =? 0)%nat then m_at m i 0%nat + m_at m i 1%nat
  else m_at m i (j - 1)%nat + m_at m i j + m_at m i (j + 1)%nat.
Proof.
  intros C J. unfold row3, zero_cols. cbn [m_at]. destruct (Nat.eqb_spec j (m_cols m - 1)) as [->|E].
  - destruct (Nat.ltb_spec 0 (m_cols m - 1)); [|lia]. destruct (Nat.ltb_spec (m_cols m - 1) (m_cols m + 1)); [|lia].
    destruct (Nat.ltb_spec 0 (m_cols m - 1 + 1)); [|lia]. destruct (Nat.ltb_spec (m_cols m - 1 + 1) (m_cols m + 1)); [|lia].
    destruct (Nat.ltb_spec 0 (m_cols m - 1 + 2)); [|lia]. destruct (Nat.ltb_spec (m_cols m - 1 + 2) (m_cols m + 1)); [lia|]. cbn [andb].
    replace (m_cols m - 1 - 1)%nat with (m_cols m - 2)%nat by lia. replace (m_cols m - 1 + 1 - 1)%nat with (m_cols m - 1)%nat by lia. lra.
  - destruct (Nat.ltb_spec (j + 1) (m_cols m + 1)); [|lia]. destruct (Nat.ltb_spec (j + 2) (m_cols m + 1)); [|lia].
    destruct (Nat.ltb_spec j (m_cols m + 1)); [|lia]. destruct (Nat.ltb_spec 0 (j + 1)); [|lia]. destruct (Nat.ltb_spec 0 (j + 2)); [|lia].
    replace (j + 1 - 1)%nat with j by lia. replace (j + 2 - 1)%nat with (j + 1)%nat by lia.
    destruct (Nat.eqb_spec j 0) as [->|E0].
    + cbn [Nat.ltb Nat.leb andb Nat.add]. lra.
    + destruct (Nat.ltb_spec 0 j); [|lia]. cbn [andb]. lra.
Qed.

(** "5point" and "9point" are the same filter from three points in each direction on: the mean over the
    3 x 3 neighbours that exist. *)
Theorem C113_points field periodic nint_x nint_y a sigma : (3 <= m_rows field)%nat -> (3 <= m_cols field)%nat ->
  (1 <= nint_x)%nat -> (1 <= nint_y)%nat ->
  exists p q, filter_downsample field nint_x nint_y "5point" a sigma periodic = Ok p /\
    filter_downsample field nint_x nint_y "9point" a sigma periodic = Ok q /\
    m_rows p = m_rows q /\ m_cols p = m_cols q /\
    forall i j, (i * nint_x < m_rows field)%nat -> (j * nint_y < m_cols field)%nat -> m_at p i j = m_at q i j.
Proof.
  intros R3 C3 Nx Ny. unfold filter_downsample. change ("5point" =? "5point")%string with true.
  change ("9point" =? "5point")%string with false. change ("9point" =? "9point")%string with true. cbv iota. unfold every.
  destruct (Nat.eqb_spec nint_x 0) as [C|_]; [lia|]. destruct (Nat.eqb_spec nint_y 0) as [C|_]; [lia|]. cbn [orb].
  eexists. eexists. split; [reflexivity|]. split; [reflexivity|].
  assert (Sr : m_rows (smooth3_rows field) = m_rows field) by (unfold smooth3_rows; destruct (3 <=? _)%nat; reflexivity).
  assert (Sc : m_cols (smooth3_rows field) = m_cols field) by (unfold smooth3_rows; destruct (3 <=? _)%nat; reflexivity).
  assert (Fr : m_rows (five_point periodic field) = m_rows field /\ m_cols (five_point periodic field) = m_cols field).
  { unfold five_point, smooth3_cols. rewrite Sr, Sc. destruct (3 <=? _)%nat; [destruct periodic|]; cbn; auto. }
  destruct Fr as [Fr Fc]. cbn [m_rows m_cols m_at]. rewrite Fr, Fc. split; [reflexivity|]. split; [reflexivity|].
  intros i' j' Hi Hj. set (i := (i' * nint_x)%nat) in *. set (j := (j' * nint_y)%nat) in *. clearbody i j.
  unfold five_point, smooth3_cols, nine_point. rewrite Sr, Sc. cbv zeta. cbn [m_at].
  destruct (Nat.leb_spec 3 (m_cols field)) as [_|C]; [|lia].
  set (ones := mk_mat (m_rows field) (m_cols field) (fun _ _ => 1)).
  assert (S3 : forall c, m_at (smooth3_rows field) i c =
    if (i =? m_rows field - 1)%nat then (m_at field (m_rows field - 2)%nat c + m_at field (m_rows field - 1)%nat c) / 2
    else if (i =? 0)%nat then (m_at field 0%nat c + m_at field 1%nat c) / 2
    else (m_at field (i - 1)%nat c + m_at field i c + m_at field (i + 1)%nat c) / 3).
  { intros c. unfold smooth3_rows. destruct (Nat.leb_spec 3 (m_rows field)) as [_|C]; [|lia]. reflexivity. }
  destruct periodic; cbn [m_at].
  - change (m_at (pad_cols_periodic 1 (smooth3_rows field)) i j + m_at (pad_cols_periodic 1 (smooth3_rows field)) i (j + 1)%nat +
            m_at (pad_cols_periodic 1 (smooth3_rows field)) i (j + 2)%nat) with (row3 (pad_cols_periodic 1 (smooth3_rows field)) i j).
    rewrite row3_periodic by (rewrite Sc; lia). rewrite Sc, !S3.
    assert (Pr : m_rows (pad_cols_periodic 1 field) = m_rows field) by reflexivity.
    assert (Po : m_rows (pad_cols_periodic 1 ones) = m_rows field) by reflexivity.
    rewrite !sum9_zero by (rewrite ?Pr, ?Po; lia). rewrite !Pr, !Po.
    assert (F1 : forall r, row3 (pad_cols_periodic 1 ones) r j = 3).
    { intros r. rewrite row3_periodic by (cbn; lia). cbn [ones m_at]. lra. }
    rewrite !F1, !row3_periodic by lia.
    destruct (Nat.eqb_spec i (m_rows field - 1)) as [E|E]; [|destruct (Nat.eqb_spec i 0) as [E0|E0]]; rewrite Rmax_left by lra; lra.
  - rewrite !S3. assert (Pr : m_rows (zero_cols field) = m_rows field) by reflexivity.
    assert (Po : m_rows (zero_cols ones) = m_rows field) by reflexivity.
    rewrite !sum9_zero by (rewrite ?Pr, ?Po; lia). rewrite !Pr, !Po.
    rewrite !row3_zero by (cbn; lia). cbn [ones m_at m_cols].
    destruct (Nat.eqb_spec j (m_cols field - 1)) as [Ej|Ej]; [|destruct (Nat.eqb_spec j 0) as [Ej0|Ej0]];
    (destruct (Nat.eqb_spec i (m_rows field - 1)) as [E|E]; [|destruct (Nat.eqb_spec i 0) as [E0|E0]]); rewrite Rmax_left by lra; lra.
Qed.

(** ** Means *)
Lemma every_ok a b m out : every a b m = Ok out ->
  (a <> 0 /\ b <> 0)%nat /\ (forall i, (i < m_rows out <-> i * a < m_rows m))%nat /\ (forall j, (j < m_cols out <-> j * b < m_cols m))%nat /\
  forall i j, m_at out i j = m_at m (i * a)%nat (j * b)%nat.
Proof.
  unfold every. destruct (Nat.eqb_spec a 0) as [C|A]; [discriminate|]. destruct (Nat.eqb_spec b 0) as [C|B]; [discriminate|]. cbn [orb].
  intros [= <-]. cbn [m_rows m_cols m_at].
  assert (Cd : forall n k i, (k <> 0)%nat -> (i < (n + k - 1) / k <-> i * k < n)%nat).
  { intros n k i K. split; intros H.
    - pose proof (Nat.mul_div_le (n + k - 1) k K). nia.
    - apply Nat.div_le_lower_bound; [exact K|]. nia. }
  split; [auto|]. split; [intros i; now apply Cd|]. split; [intros j; now apply Cd|]. reflexivity.
Qed.

Definition within (lo hi : R) (m : mat) : Prop := forall i j, (i < m_rows m)%nat -> (j < m_cols m)%nat -> lo <= m_at m i j <= hi.

Lemma smooth3_rows_within lo hi m : within lo hi m -> within lo hi (smooth3_rows m).
Proof.
  intros H. unfold smooth3_rows. destruct (Nat.leb_spec 3 (m_rows m)) as [R3|_]; [|exact H]. intros i j I J. cbn [m_rows m_cols m_at] in *.
  destruct (Nat.eqb_spec i (m_rows m - 1)) as [E|E]; [|destruct (Nat.eqb_spec i 0) as [E0|E0]].
  - pose proof (H (m_rows m - 2)%nat j ltac:(lia) J). pose proof (H (m_rows m - 1)%nat j ltac:(lia) J). lra.
  - pose proof (H 0%nat j ltac:(lia) J). pose proof (H 1%nat j ltac:(lia) J). lra.
  - pose proof (H (i - 1)%nat j ltac:(lia) J). pose proof (H i j ltac:(lia) J). pose proof (H (i + 1)%nat j ltac:(lia) J). lra.
Qed.
Lemma smooth3_cols_within lo hi periodic m : within lo hi m -> within lo hi (smooth3_cols periodic m).
Proof.
  intros H. unfold smooth3_cols. destruct (Nat.leb_spec 3 (m_cols m)) as [C3|_]; [|exact H]. destruct periodic; intros i j I J; cbn [m_rows m_cols m_at] in *.
  - cbv zeta. change (m_at (pad_cols_periodic 1 m) i j + m_at (pad_cols_periodic 1 m) i (j + 1)%nat + m_at (pad_cols_periodic 1 m) i (j + 2)%nat)
      with (row3 (pad_cols_periodic 1 m) i j). rewrite row3_periodic by lia.
    pose proof (H i _ I (wrap_lt (m_cols m) (Z.of_nat j - 1) ltac:(lia))). pose proof (H i _ I (wrap_lt (m_cols m) (Z.of_nat j) ltac:(lia))).
    pose proof (H i _ I (wrap_lt (m_cols m) (Z.of_nat j + 1) ltac:(lia))). lra.
  - destruct (Nat.eqb_spec j (m_cols m - 1)) as [E|E]; [|destruct (Nat.eqb_spec j 0) as [E0|E0]].
    + pose proof (H i (m_cols m - 2)%nat I ltac:(lia)). pose proof (H i (m_cols m - 1)%nat I ltac:(lia)). lra.
    + pose proof (H i 0%nat I ltac:(lia)). pose proof (H i 1%nat I ltac:(lia)). lra.
    + pose proof (H i (j - 1)%nat I ltac:(lia)). pose proof (H i j I ltac:(lia)). pose proof (H i (j + 1)%nat I ltac:(lia)). lra.
Qed.

(** An entry of the padded array is a value, where the padded mask is 1, or 0, where it is 0. *)
Lemma nine_point_within lo hi periodic m : (1 <= m_cols m)%nat -> within lo hi m -> within lo hi (nine_point periodic m).
Proof.
  intros C H i j I J. unfold nine_point in *. cbn [m_rows m_cols m_at] in *.
  set (ones := mk_mat (m_rows m) (m_cols m) (fun _ _ => 1)).
  set (pad := fun f => zero_rows (if periodic then pad_cols_periodic 1 f else zero_cols f)).
  change (lo <= sum9 (pad m) i j / Rmax (sum9 (pad ones) i j) 1 <= hi).
  assert (E : forall r c, (c < m_cols m + 2)%nat ->
    (m_at (pad ones) r c = 0 /\ m_at (pad m) r c = 0) \/ (m_at (pad ones) r c = 1 /\ lo <= m_at (pad m) r c <= hi)).
  { intros r c Hc. unfold pad, zero_rows. cbn [m_at]. assert (Rr : forall f, m_rows (if periodic then pad_cols_periodic 1 f else zero_cols f) = m_rows f) by (intros; now destruct periodic).
    rewrite !Rr. cbn [ones m_rows]. destruct (Nat.ltb_spec 0 r) as [R0|R0]; cbn [andb]; [|now left].
    destruct (Nat.ltb_spec r (m_rows m + 1)) as [R1|R1]; [|now left]. destruct periodic.
    - right. rewrite !(pad_periodic_at _ 1 (wrap (m_cols m))) by (try (apply wrap_repeats); cbn; lia). cbn [m_at]. split; [reflexivity|].
      apply H; [lia|apply wrap_lt, C].
    - unfold zero_cols. cbn [m_at m_cols]. change (m_cols ones) with (m_cols m). destruct (Nat.ltb_spec 0 c) as [C0|C0]; cbn [andb]; [|now left].
      destruct (Nat.ltb_spec c (m_cols m + 1)) as [C1|C1]; [|now left]. right. split; [reflexivity|]. apply H; lia. }
  assert (M : m_at (pad ones) (i + 1)%nat (j + 1)%nat = 1).
  { unfold pad, zero_rows. cbn [m_at]. assert (Rr : m_rows (if periodic then pad_cols_periodic 1 ones else zero_cols ones) = m_rows m) by (now destruct periodic).
    rewrite Rr. destruct (Nat.ltb_spec 0 (i + 1)); [|lia]. destruct (Nat.ltb_spec (i + 1) (m_rows m + 1)); [|lia]. cbn [andb]. destruct periodic.
    - rewrite (pad_periodic_at _ 1 (wrap (m_cols m))) by (try (apply wrap_repeats); cbn; lia). reflexivity.
    - unfold zero_cols. cbn [m_at m_cols ones]. destruct (Nat.ltb_spec 0 (j + 1)); [|lia]. destruct (Nat.ltb_spec (j + 1) (m_cols m + 1)); [|lia]. reflexivity. }
  assert (B : forall r c, (c < m_cols m + 2)%nat -> 0 <= m_at (pad ones) r c /\ lo * m_at (pad ones) r c <= m_at (pad m) r c <= hi * m_at (pad ones) r c).
  { intros r c Hc. destruct (E r c Hc) as [[-> ->]|[-> ?]]; lra. }
  unfold sum9.
  pose proof (B i j ltac:(lia)). pose proof (B i (j + 1)%nat ltac:(lia)). pose proof (B i (j + 2)%nat ltac:(lia)).
  pose proof (B (i + 1)%nat j ltac:(lia)). pose proof (B (i + 1)%nat (j + 1)%nat ltac:(lia)). pose proof (B (i + 1)%nat (j + 2)%nat ltac:(lia)).
  pose proof (B (i + 2)%nat j ltac:(lia)). pose proof (B (i + 2)%nat (j + 1)%nat ltac:(lia)). pose proof (B (i + 2)%nat (j + 2)%nat ltac:(lia)).
  match goal with |- _ <= ?num / Rmax ?den 1 <= _ => assert (D1 : 1 <= den) by (rewrite M in *; lra); rewrite (Rmax_left den) by lra;
    assert (N1 : lo * den <= num <= hi * den) by lra; set (dd := den) in *; set (nn := num) in * end.
  clearbody dd nn. split.
  - apply (Rmult_le_reg_r dd); [lra|]. replace (nn / dd * dd) with nn by (field; lra). lra.
  - apply (Rmult_le_reg_r dd); [lra|]. replace (nn / dd * dd) with nn by (field; lra). lra.
Qed.

(** No filter leaves the range of the values of the field; a constant field stays. *)
Theorem C113_bounds field nint_x nint_y ft a sigma periodic out lo hi :
  (1 <= m_rows field)%nat -> (1 <= m_cols field)%nat ->
  (forall i j, (i < m_rows field)%nat -> (j < m_cols field)%nat -> lo <= m_at field i j <= hi) ->
  (ft = "5point" \/ ft = "9point" \/ periodic = false \/
   exists wy, make_kernel nint_y ft a sigma = Ok wy /\ (length wy / 2 <= m_cols field)%nat) ->
  filter_downsample field nint_x nint_y ft a sigma periodic = Ok out ->
  forall i j, (i < m_rows out)%nat -> (j < m_cols out)%nat -> lo <= m_at out i j <= hi.
Proof.
  intros R1 C1 H Hf E i j I J.
  destruct (String.eqb_spec ft "5point") as [->|F5]; [|destruct (String.eqb_spec ft "9point") as [->|F9]].
  - unfold filter_downsample in E. change ("5point" =? "5point")%string with true in E. cbv iota in E.
    apply every_ok in E. destruct E as (_ & Er & Ec & Ev). rewrite Ev. apply Er in I. apply Ec in J.
    apply (smooth3_cols_within lo hi periodic (smooth3_rows field)); [|exact I|exact J]. apply smooth3_rows_within. exact H.
  - unfold filter_downsample in E. change ("9point" =? "5point")%string with false in E. change ("9point" =? "9point")%string with true in E. cbv iota in E.
    apply every_ok in E. destruct E as (_ & Er & Ec & Ev). rewrite Ev. apply Er in I. apply Ec in J.
    apply (nine_point_within lo hi periodic field C1 H); assumption.
  - assert (K : exists wx wy, make_kernel nint_x ft a sigma = Ok wx /\ make_kernel nint_y ft a sigma = Ok wy).
    { pose proof E as E'. unfold filter_downsample in E'. destruct (String.eqb_spec ft "5point") as [C|_]; [contradiction|].
      destruct (String.eqb_spec ft "9point") as [C|_]; [contradiction|].
      apply bind_ok in E'. destruct E' as (wy & Ky & E'). apply bind_ok in E'. destruct E' as (t & _ & E').
      apply bind_ok in E'. destruct E' as (wx & Kx & _). eauto. }
    destruct K as (wx & wy & Kx & Ky). set (gy := if periodic then wrap (m_cols field) else edge (m_cols field)).
    destruct (C113_filter field nint_x nint_y ft a sigma periodic wx wy (reflect (m_rows field)) gy F5 F9 R1 C1 Kx Ky (reflect_mirrors _ R1))
      as (out' & Eo & Er & Ec & Ev).
    { unfold gy. destruct periodic; [|apply edge_stays, C1]. split; [apply wrap_repeats, C1|].
      destruct Hf as [?|[?|[?|(wy' & Ky' & L)]]]; try contradiction; [discriminate|]. rewrite Ky in Ky'. injection Ky' as <-. exact L. }
    rewrite E in Eo. injection Eo as <-. rewrite Ev by assumption.
    apply weighted_mean; [apply (C113_kernel _ _ _ _ _ Kx)|]. intros k _. apply weighted_mean; [apply (C113_kernel _ _ _ _ _ Ky)|]. intros l _.
    apply H; [apply (reflect_mirrors _ R1)|]. unfold gy. destruct periodic; [apply wrap_lt, C1|unfold edge; lia].
Qed.

(** A periodic window of more than twice the width of the field is refused. *)
Lemma total_wide f r c K L c' : (1 <= K < L)%nat ->
  (forall k, (k < K)%nat -> m_rows (f k) = r /\ m_cols (f k) = c) -> m_rows (f K) = r -> m_cols (f K) = c' -> bcast c c' = Err ValueError ->
  total (map f (seq 0 L)) = Err ValueError.
Proof.
  intros HK Sh Er Ec B. replace L with (K + S (L - K - 1))%nat by lia. rewrite seq_app, map_app. cbn [seq map Nat.add].
  destruct (total_spec f r c K ltac:(lia) Sh) as (m & Em & Mr & Mc & _).
  assert (A : forall l1 l2, l1 <> [] -> total (l1 ++ l2) = fold_left (fun acc x => let* a := acc in plus a x) l2 (total l1)).
  { intros [|x l1] l2 Ne; [contradiction|]. cbn [app total]. apply fold_left_app. }
  rewrite A by (destruct K; [lia|discriminate]). rewrite Em. cbn [fold_left bind]. unfold plus at 2. rewrite Mr, Mc, Er, Ec.
  unfold bcast at 1. rewrite Nat.eqb_refl. cbn [bind]. rewrite B. cbn [bind].
  generalize (map f (seq (S K) (L - K - 1))) as l. induction l as [|x l IH]; [reflexivity|exact IH].
Qed.
Theorem C113_wide field nint_x nint_y ft a sigma wy : ft <> "5point" -> ft <> "9point" ->
  make_kernel nint_y ft a sigma = Ok wy -> (3 <= m_cols field)%nat -> (m_cols field < length wy / 2)%nat ->
  filter_downsample field nint_x nint_y ft a sigma true = Err ValueError.
Proof.
  intros F5 F9 Ky C3 W. unfold filter_downsample. destruct (String.eqb_spec ft "5point") as [C|_]; [contradiction|].
  destruct (String.eqb_spec ft "9point") as [C|_]; [contradiction|]. rewrite Ky. cbn [bind]. unfold filter_cols. cbn [bind].
  assert (D : (length wy = 2 * (length wy / 2) + length wy mod 2)%nat) by (apply Nat.div_mod; lia).
  set (half := (length wy / 2)%nat) in *. set (n := m_cols field) in *.
  assert (P : m_cols (pad_cols_periodic half field) = (3 * n)%nat).
  { unfold pad_cols_periodic, beside, cut_cols, from_end. cbn [m_cols]. fold n. destruct (Nat.eqb_spec half 0); lia. }
  rewrite (total_wide _ (m_rows field) n (2 * n + 1) _ (n - 1)); [reflexivity|lia| | | |].
  - intros k K. unfold times, cut_cols. cbn [m_rows m_cols]. rewrite P. split; [reflexivity|lia].
  - reflexivity.
  - unfold times, cut_cols. cbn [m_cols]. rewrite P. lia.
  - unfold bcast. destruct (Nat.eqb_spec n (n - 1)); [lia|]. destruct (Nat.eqb_spec n 1); [lia|]. destruct (Nat.eqb_spec (n - 1) 1); [lia|]. reflexivity.
Qed.

(** ** Waves *)
Lemma kernel_symmetric n ft a sigma w : make_kernel n ft a sigma = Ok w ->
  forall k, (k < length w)%nat -> nth (length w - 1 - k) w 0 = nth k w 0.
Proof.
  intros E. unfold make_kernel in E. destruct (n =? 0)%nat eqn:N0; [discriminate|]. apply Nat.eqb_neq in N0.
  destruct (n =? 1)%nat; [injection E as <-; intros k K; cbn in K; assert (k = 0)%nat as -> by lia; reflexivity|].
  apply bind_ok in E. destruct E as (r & Er & E). injection E as <-. rewrite normalise_length.
  assert (G : (forall i, (i < length r)%nat -> 0 <= nth i r 0) -> (forall k, (k < length r)%nat -> nth (length r - 1 - k) r 0 = nth k r 0) ->
    forall k, (k < length r)%nat -> nth (length r - 1 - k) (normalise r) 0 = nth k (normalise r) 0).
  { intros N Sy k K. rewrite !normalise_nth by (assumption || lia). now rewrite Sy. }
  destruct (raw_windows n ft a sigma ltac:(lia)) as [A B].
  destruct (B r Er) as [(half & Rh)|[->| ->]].
  - destruct (A half Rh) as (r' & Er' & L & X & Y & _). rewrite Er in Er'. injection Er' as <-. apply G; [exact Y|].
    intros k K. rewrite !X by lia. rewrite <- window_even. f_equal. lia.
  - rewrite repeat_length in *. apply G; [intros i Hi; rewrite repeat_nth by exact Hi; lra|]. intros k K. rewrite !repeat_nth by lia. reflexivity.
  - rewrite triangle_length in * by lia. apply G; [intros i Hi; rewrite triangle_nth by exact Hi; apply pos_INR|].
    intros k K. rewrite !triangle_nth by lia. f_equal. lia.
Qed.

Lemma tot_reverse n f : tot n f = tot n (fun k => f (n - 1 - k)%nat).
Proof.
  induction n as [|n IH]; [reflexivity|]. rewrite (tot_first n (fun k => f (S n - 1 - k)%nat)). cbn [tot]. rewrite IH.
  rewrite (tot_ext n (fun k => f (S n - 1 - S k)%nat) (fun k => f (n - 1 - k)%nat)) by (intros; f_equal; lia).
  replace (S n - 1 - 0)%nat with n by lia. lra.
Qed.

Lemma cos_periods x k : cos (x + 2 * IZR k * PI) = cos x.
Proof.
  destruct (Z_le_gt_dec 0 k) as [K|K].
  - rewrite <- (Z2Nat.id k K), <- INR_IZR_INZ. apply cos_period.
  - rewrite <- (cos_period (x + 2 * IZR k * PI) (Z.to_nat (- k))). f_equal. rewrite INR_IZR_INZ, Z2Nat.id by lia. rewrite opp_IZR. ring.
Qed.

(** A wave in y that fits into the period keeps its phase and wave length under a filter of odd
    length and is multiplied by the response of the kernel; its amplitude is filtered along x. *)
Theorem C113_waves field nint_x nint_y ft a sigma wx wy h amp theta phase m gx out :
  ft <> "5point" -> ft <> "9point" -> (1 <= m_rows field)%nat -> (1 <= m_cols field)%nat ->
  make_kernel nint_x ft a sigma = Ok wx -> make_kernel nint_y ft a sigma = Ok wy ->
  length wy = (2 * h + 1)%nat -> (h <= m_cols field)%nat -> mirrors (m_rows field) gx ->
  INR (m_cols field) * theta = 2 * IZR m * PI ->
  (forall i j, (i < m_rows field)%nat -> (j < m_cols field)%nat -> m_at field i j = amp i * cos (INR j * theta + phase)) ->
  filter_downsample field nint_x nint_y ft a sigma true = Ok out ->
  forall i j, (i < m_rows out)%nat -> (j < m_cols out)%nat ->
    m_at out i j = tot (length wx) (fun k => nth k wx 0 * amp (gx (Z.of_nat (i * nint_x) + Z.of_nat k - Z.of_nat (length wx / 2))%Z)) *
      tot (length wy) (fun l => nth l wy 0 * cos ((INR l - INR h) * theta)) * cos (INR (j * nint_y) * theta + phase).
Proof.
  intros F5 F9 R1 C1 Kx Ky Lh Hh Gx Th Wave E i j I J.
  assert (Half : (length wy / 2 = h)%nat) by (rewrite Lh; symmetry; apply (Nat.div_unique _ 2 h 1); lia).
  destruct (C113_filter field nint_x nint_y ft a sigma true wx wy gx (wrap (m_cols field)) F5 F9 R1 C1 Kx Ky Gx)
    as (out' & Eo & Er & Ec & Ev).
  { split; [apply wrap_repeats, C1|lia]. }
  rewrite E in Eo. injection Eo as <-. rewrite Ev by assumption. rewrite Half. clear Ev.
  assert (Inner : forall r, (r < m_rows field)%nat ->
    tot (length wy) (fun l => nth l wy 0 * m_at field r (wrap (m_cols field) (Z.of_nat (j * nint_y) + Z.of_nat l - Z.of_nat h))) =
    amp r * (tot (length wy) (fun l => nth l wy 0 * cos ((INR l - INR h) * theta)) * cos (INR (j * nint_y) * theta + phase))).
  { intros r Hr. set (c0 := INR (j * nint_y) * theta + phase).
    assert (W : forall l, m_at field r (wrap (m_cols field) (Z.of_nat (j * nint_y) + Z.of_nat l - Z.of_nat h)) = amp r * cos (c0 + (INR l - INR h) * theta)).
    { intros l. rewrite Wave by (exact Hr || apply wrap_lt, C1). f_equal. unfold wrap.
      set (z := (Z.of_nat (j * nint_y) + Z.of_nat l - Z.of_nat h)%Z). set (n := m_cols field) in *.
      pose proof (Z.mod_pos_bound z (Z.of_nat n) ltac:(lia)) as Mz. pose proof (Z.div_mod z (Z.of_nat n) ltac:(lia)) as Dz.
      rewrite <- (cos_periods _ (z / Z.of_nat n * m)). f_equal. rewrite INR_IZR_INZ, Z2Nat.id by lia.
      assert (Ez : IZR (z mod Z.of_nat n) = IZR z - INR n * IZR (z / Z.of_nat n)).
      { rewrite INR_IZR_INZ, <- mult_IZR, <- minus_IZR. f_equal. lia. }
      rewrite Ez, mult_IZR. assert (Zz : IZR z = INR (j * nint_y) + INR l - INR h).
      { unfold z. rewrite minus_IZR, plus_IZR, <- !INR_IZR_INZ. reflexivity. }
      rewrite Zz. unfold c0. replace (2 * (IZR (z / Z.of_nat n) * IZR m) * PI) with (IZR (z / Z.of_nat n) * (2 * IZR m * PI)) by ring.
      rewrite <- Th. ring. }
    rewrite (tot_ext _ _ (fun l => amp r * (nth l wy 0 * cos (c0 + (INR l - INR h) * theta)))) by (intros; rewrite W; ring).
    rewrite tot_scal. f_equal.
    (* The sine parts cancel. *)
    assert (Sy : tot (length wy) (fun l => nth l wy 0 * sin ((INR l - INR h) * theta)) = 0).
    { enough (X : tot (length wy) (fun l => nth l wy 0 * sin ((INR l - INR h) * theta)) =
                  -1 * tot (length wy) (fun l => nth l wy 0 * sin ((INR l - INR h) * theta))) by lra.
      rewrite tot_reverse at 1. rewrite <- tot_scal. apply tot_ext. intros l Hl.
      rewrite (kernel_symmetric _ _ _ _ _ Ky) by exact Hl.
      assert (Il : INR (length wy - 1 - l) = 2 * INR h - INR l).
      { rewrite !minus_INR by lia. rewrite Lh, plus_INR, mult_INR. cbn [INR]. lra. }
      rewrite Il. replace ((2 * INR h - INR l - INR h) * theta) with (- ((INR l - INR h) * theta)) by ring. rewrite sin_neg. ring. }
    rewrite (tot_ext _ _ (fun l => cos c0 * (nth l wy 0 * cos ((INR l - INR h) * theta)) + - sin c0 * (nth l wy 0 * sin ((INR l - INR h) * theta)))).
    - rewrite tot_plus, !tot_scal, Sy. ring.
    - intros l _. rewrite cos_plus. ring. }
  rewrite (tot_ext _ _ (fun k => (tot (length wy) (fun l => nth l wy 0 * cos ((INR l - INR h) * theta)) * cos (INR (j * nint_y) * theta + phase)) *
    (nth k wx 0 * amp (gx (Z.of_nat (i * nint_x) + Z.of_nat k - Z.of_nat (length wx / 2))%Z)))).
  - rewrite tot_scal. ring.
  - intros k _. rewrite Inner by apply Gx. ring.
Qed.

(** A box of even length moves the wave: one that vanishes at all points kept does not any more. *)
Theorem C113_waves_refuted : exists field out,
  m_rows field = 1%nat /\ m_cols field = 4%nat /\ (forall i j, m_at field i j = sin (INR j * (PI / 2))) /\
  filter_downsample field 1 2 "box" 2 (1 / 2) true = Ok out /\ m_cols out = 2%nat /\
  (forall j, (j < 2)%nat -> m_at field 0%nat (j * 2)%nat = 0) /\ m_at out 0%nat 0%nat = - / 2.
Proof.
  set (field := mk_mat 1 4 (fun _ j => sin (INR j * (PI / 2)))).
  assert (Kx : make_kernel 1 "box" 2 (1 / 2) = Ok [1]) by reflexivity.
  destruct (C113_windows 2 "box" 2 (1 / 2) ltac:(lia)) as [Ky _]. specialize (Ky ltac:(cbn; intuition discriminate)).
  destruct (C113_filter field 1 2 "box" 2 (1 / 2) true [1] (repeat (1 / INR 2) 2) (reflect 1) (wrap 4) ltac:(discriminate) ltac:(discriminate) ltac:(cbn; lia) ltac:(cbn; lia) Kx Ky
    (reflect_mirrors 1 ltac:(lia)) ltac:(split; [apply (wrap_repeats 4); lia|rewrite repeat_length; cbn; lia])) as (out & Eo & Er & Ec & Ev).
  exists field, out. split; [reflexivity|]. split; [reflexivity|]. split; [reflexivity|]. split; [exact Eo|].
  assert (C0 : (0 < m_cols out)%nat) by (apply Ec; cbn; lia). assert (C1 : (1 < m_cols out)%nat) by (apply Ec; cbn; lia).
  assert (C2 : ~ (2 < m_cols out)%nat) by (intros C; apply Ec in C; cbn in C; lia).
  assert (R0 : (0 < m_rows out)%nat) by (apply Er; cbn; lia).
  split; [lia|]. split.
  - intros j Hj. cbn [field m_at]. destruct j as [|[|j]]; [| |lia].
    + cbn [Nat.mul INR]. replace (0 * (PI / 2)) with 0 by ring. apply sin_0.
    + replace (INR (1 * 2) * (PI / 2)) with PI by (cbn [INR Nat.mul Nat.add]; field). apply sin_PI.
  - rewrite Ev by assumption. cbn [length repeat tot nth field m_at].
    change (wrap 4 (Z.of_nat (0 * 2) + Z.of_nat 0 - Z.of_nat (2 / 2))) with 3%nat.
    change (wrap 4 (Z.of_nat (0 * 2) + Z.of_nat 1 - Z.of_nat (2 / 2))) with 0%nat.
    replace (INR 3 * (PI / 2)) with (3 * (PI / 2)) by (cbn [INR]; ring). rewrite sin_3PI2.
    replace (INR 0 * (PI / 2)) with 0 by (cbn [INR]; ring). rewrite sin_0. cbn [INR]. lra.
Qed.
