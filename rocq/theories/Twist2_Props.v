(** * C113, continued: interpolation, twist and shift *)
From Coq Require Import String List ZArith Reals Bool Lia Lra Psatz Sorted Permutation.
From Coquelicot Require Import Coquelicot.
From Flocq Require Import Core.
From Verif Require Import Prelude PreludeFacts Sort Twist_Model Twist_Props.
Import ListNotations.
Open Scope string_scope. Open Scope list_scope. Open Scope R_scope.

(** ** Linear interpolation *)
Definition below (p q : R * R) : Prop := fst p < fst q.

Lemma interp_from_between x l : forall p k a b, StronglySorted below (p :: l) ->
  nth_error (p :: l) k = Some a -> nth_error (p :: l) (S k) = Some b -> fst a <= x < fst b ->
  interp_from x p l = snd a + (x - fst a) / (fst b - fst a) * (snd b - snd a).
Proof.
  induction l as [|q l IH]; intros p k a b So Ea Eb X.
  - cbn in Eb. destruct k; discriminate.
  - cbn [interp_from]. inversion So as [|? ? So' Fo]; subst. destruct k as [|k].
    + cbn in Ea, Eb. injection Ea as <-. injection Eb as <-. destruct (Rlt_dec x (fst q)) as [_|C]; [|lra].
      unfold Rdiv. ring.
    + cbn [nth_error] in Ea. assert (Q : fst q <= fst a).
      { destruct k as [|k]; [cbn in Ea; injection Ea as <-; lra|]. inversion So' as [|? ? _ Fq]; subst.
        cbn [nth_error] in Ea. apply nth_error_In in Ea. rewrite Forall_forall in Fq. specialize (Fq _ Ea). unfold below in Fq. lra. }
      destruct (Rlt_dec x (fst q)) as [C|_]; [lra|]. apply (IH q k a b So' Ea Eb X).
Qed.
Lemma interp_between x l k a b : StronglySorted below l ->
  nth_error l k = Some a -> nth_error l (S k) = Some b -> fst a <= x < fst b ->
  interp x l = snd a + (x - fst a) / (fst b - fst a) * (snd b - snd a).
Proof.
  intros So Ea Eb X. destruct l as [|p l]; [destruct k; discriminate|]. cbn [interp].
  assert (Q : fst p <= fst a).
  { destruct k as [|k]; [cbn in Ea; injection Ea as <-; lra|]. inversion So as [|? ? _ F]; subst. cbn [nth_error] in Ea.
    apply nth_error_In in Ea. rewrite Forall_forall in F. specialize (F _ Ea). unfold below in F. lra. }
  destruct (Rlt_dec x (fst p)) as [C|_]; [lra|]. now apply (interp_from_between x l p k a b).
Qed.
Lemma interp_beyond x l a : StronglySorted below l -> nth_error l (length l - 1) = Some a -> fst a <= x -> interp x l = snd a.
Proof.
  intros So Ea X. destruct l as [|p l]; [discriminate|]. cbn [interp].
  assert (G : forall l p, StronglySorted below (p :: l) -> nth_error (p :: l) (length l) = Some a -> fst p <= fst a /\ interp_from x p l = snd a).
  { clear -X. induction l as [|q l IH]; intros p So Ea.
    - cbn in Ea. injection Ea as ->. split; [lra|reflexivity].
    - inversion So as [|? ? So' F]; subst. cbn [length nth_error] in Ea. destruct (IH q So' Ea) as [Q E].
      inversion F as [|? ? Hq _]; subst. unfold below in Hq. split; [lra|]. cbn [interp_from]. destruct (Rlt_dec x (fst q)) as [C|_]; [lra|exact E]. }
  cbn [length] in Ea. replace (S (length l) - 1)%nat with (length l) in Ea by lia. destruct (G l p So Ea) as [Q E].
  destruct (Rlt_dec x (fst p)) as [C|_]; [lra|exact E].
Qed.

(** ** The sorted list of the periodic interpolation *)
Lemma sorted_unique l1 : forall l2, Permutation l1 l2 -> StronglySorted (fun p q : R * R => fst p <= fst q) l1 ->
  StronglySorted below l2 -> l1 = l2.
Proof.
  induction l1 as [|x l1 IH]; intros l2 Pe S1 S2.
  - apply Permutation_nil in Pe. now subst.
  - destruct l2 as [|y l2]; [symmetry in Pe; apply Permutation_nil in Pe; discriminate|].
    inversion S1 as [|? ? S1' F1]; subst. inversion S2 as [|? ? S2' F2]; subst. rewrite Forall_forall in F1, F2.
    assert (E : x = y).
    { assert (Ix : In x (y :: l2)) by (eapply Permutation_in; [exact Pe|now left]).
      assert (Iy : In y (x :: l1)) by (eapply Permutation_in; [symmetry; exact Pe|now left]).
      destruct Ix as [Ix|Ix]; [now symmetry|]. destruct Iy as [Iy|Iy]; [exact Iy|].
      specialize (F2 _ Ix). specialize (F1 _ Iy). unfold below in F2. cbv beta in F1. lra. }
    subst y. f_equal. apply IH; auto. now apply Permutation_cons_inv in Pe.
Qed.
Lemma isort_by_fst l l' : Permutation l l' -> StronglySorted below l' -> isort by_fst l = l'.
Proof.
  intros Pe So. apply sorted_unique; [|  |exact So].
  - rewrite <- (isort_perm by_fst l). exact Pe.
  - assert (G : StronglySorted (fun p q => by_fst p q = true) (isort by_fst l)).
    { apply isort_sorted with (P := fun _ => True); unfold by_fst.
      all: intros; repeat match goal with |- context [Rle_dec ?a ?b] => destruct (Rle_dec a b) end; auto; try lra;
           repeat match goal with H : context [Rle_dec ?a ?b] |- _ => destruct (Rle_dec a b) end; auto; try discriminate; try lra.
      all: try (apply Forall_forall; auto). }
    clear -G. induction G as [|x l0 G IH F]; constructor; auto. eapply Forall_impl; [|exact F]. intros q. unfold by_fst.
    destruct (Rle_dec (fst x) (fst q)); [auto|discriminate].
Qed.

(** ** Periodic interpolation on a uniform grid *)
Section Periodic.
  Context (n : nat) (P : R) (f : nat -> R).
  Context (N : (1 <= n)%nat) (Pp : 0 < P).
  Let d := P / INR n.
  Let node (z : Z) : R := d * IZR z - P / 2.

  Lemma n_pos : 0 < INR n. Proof. apply lt_0_INR. lia. Qed.
  Lemma d_pos : 0 < d.
  Proof. unfold d. apply Rmult_lt_0_compat; [exact Pp|]. apply Rinv_0_lt_compat, n_pos. Qed.
  Lemma d_n : d * INR n = P. Proof. unfold d. field. pose proof n_pos. lra. Qed.

  Lemma fmod_shift x y k : x = y + P * IZR k -> 0 <= y < P -> fmod_py x P = y.
  Proof.
    intros -> Y. unfold fmod_py. assert (E : Zfloor ((y + P * IZR k) / P) = k).
    { replace ((y + P * IZR k) / P) with (y / P + IZR k) by (field; lra). apply Zfloor_imp. rewrite plus_IZR.
      assert (0 <= y / P < 1). { split; [apply Rmult_le_pos; [lra|]; left; now apply Rinv_0_lt_compat|]. apply (Rmult_lt_reg_r P); [lra|]. replace (y / P * P) with y by (field; lra). lra. }
      lra. }
    rewrite E. ring.
  Qed.
  Lemma fmod_range x : 0 <= fmod_py x P < P /\ exists k, x = fmod_py x P + P * IZR k.
  Proof.
    unfold fmod_py. pose proof (Zfloor_lb (x / P)) as A. pose proof (Zfloor_ub (x / P)) as B. set (k := Zfloor (x / P)) in *.
    assert (E : x = x / P * P) by (field; lra). split; [|exists k; ring].
    split; [apply Rle_trans with (x / P * P - P * IZR k); [nra|lra]|]. rewrite E at 1. nra.
  Qed.

  Definition points : list (R * R) := map (fun j => (d * INR j - P / 2, f j)) (seq 0 n).
  Definition ring_points (z : Z) (k : nat) : list (R * R) := map (fun i => (node (z + Z.of_nat i), f (wrap n (z + Z.of_nat i)))) (seq 0 k).
  Let h : nat := ((n + 1) / 2)%nat.
  Lemma h_bounds : (2 * h = n \/ 2 * h = n + 1)%nat.
  Proof.
    unfold h. pose proof (Nat.div_mod (n + 1) 2 ltac:(lia)). pose proof (Nat.mod_upper_bound (n + 1) 2 ltac:(lia)). lia.
  Qed.

  Lemma ring_sorted z k : StronglySorted below (ring_points z k).
  Proof.
    unfold ring_points. assert (G : forall m s, StronglySorted below (map (fun i => (node (z + Z.of_nat i), f (wrap n (z + Z.of_nat i)))) (seq s m))).
    { induction m as [|m IH]; intros s; cbn [seq map]; constructor; [apply IH|]. apply Forall_forall. intros q Iq.
      apply in_map_iff in Iq. destruct Iq as (i & <- & Ii). apply in_seq in Ii. unfold below. cbn [fst]. unfold node.
      pose proof d_pos. assert (IZR (z + Z.of_nat s) < IZR (z + Z.of_nat i)) by (apply IZR_lt; lia). nra. }
    apply G.
  Qed.

  Lemma mods_list : Permutation (map (fun p => (fmod_py (fst p) P, snd p)) points) (ring_points (Z.of_nat h) n).
  Proof.
    unfold points, ring_points. rewrite map_map. cbn [fst snd]. pose proof h_bounds as H. pose proof d_n as D. pose proof d_pos as Dp. pose proof n_pos as Np.
    replace (seq 0 n) with (seq 0 (h + (n - h))) at 1 by (f_equal; lia). rewrite seq_app, map_app. cbn [Nat.add].
    replace (seq 0 n) with (seq 0 ((n - h) + h)) by (f_equal; lia). rewrite seq_app, map_app. cbn [Nat.add].
    assert (A : map (fun x => (fmod_py (d * INR x - P / 2) P, f x)) (seq 0 h) =
                map (fun i => (node (Z.of_nat h + Z.of_nat i), f (wrap n (Z.of_nat h + Z.of_nat i)))) (seq (n - h) h)).
    { apply nth_ext with (0, 0) (0, 0); [now rewrite !map_length, !seq_length|]. intros k K. rewrite map_length, seq_length in K.
      rewrite (nth_indep (map _ (seq 0 h)) (0, 0) ((fun x => (fmod_py (d * INR x - P / 2) P, f x)) 0%nat)) by (rewrite map_length, seq_length; lia).
      rewrite (map_nth (fun x => (fmod_py (d * INR x - P / 2) P, f x))).
      rewrite (nth_indep (map _ (seq (n - h) h)) (0, 0) ((fun i => (node (Z.of_nat h + Z.of_nat i), f (wrap n (Z.of_nat h + Z.of_nat i)))) 0%nat)) by (rewrite map_length, seq_length; lia).
      rewrite (map_nth (fun i => (node (Z.of_nat h + Z.of_nat i), f (wrap n (Z.of_nat h + Z.of_nat i))))). rewrite !seq_nth by lia. cbn [Nat.add].
      assert (Kr : 0 <= INR k <= INR n / 2 - / 2).
      { split; [apply pos_INR|]. assert (X : (2 * k + 1 <= n)%nat) by lia. apply le_INR in X. rewrite plus_INR, mult_INR in X. cbn [INR] in X. lra. }
      f_equal.
      - rewrite (fmod_shift _ (d * INR k + P / 2) (-1)); [|lra|nra].
        unfold node. replace (Z.of_nat h + Z.of_nat (n - h + k))%Z with (Z.of_nat n + Z.of_nat k)%Z by lia.
        rewrite plus_IZR, <- !INR_IZR_INZ. nra.
      - f_equal. replace (Z.of_nat h + Z.of_nat (n - h + k))%Z with (Z.of_nat k + Z.of_nat n)%Z by lia.
        destruct (wrap_repeats n N) as [W1 W2]. rewrite W2, W1 by lia. lia. }
    assert (B : map (fun x => (fmod_py (d * INR x - P / 2) P, f x)) (seq h (n - h)) =
                map (fun i => (node (Z.of_nat h + Z.of_nat i), f (wrap n (Z.of_nat h + Z.of_nat i)))) (seq 0 (n - h))).
    { apply nth_ext with (0, 0) (0, 0); [now rewrite !map_length, !seq_length|]. intros k K. rewrite map_length, seq_length in K.
      rewrite (nth_indep (map _ (seq h (n - h))) (0, 0) ((fun x => (fmod_py (d * INR x - P / 2) P, f x)) 0%nat)) by (rewrite map_length, seq_length; lia).
      rewrite (map_nth (fun x => (fmod_py (d * INR x - P / 2) P, f x))).
      rewrite (nth_indep (map _ (seq 0 (n - h))) (0, 0) ((fun i => (node (Z.of_nat h + Z.of_nat i), f (wrap n (Z.of_nat h + Z.of_nat i)))) 0%nat)) by (rewrite map_length, seq_length; lia).
      rewrite (map_nth (fun i => (node (Z.of_nat h + Z.of_nat i), f (wrap n (Z.of_nat h + Z.of_nat i))))). rewrite !seq_nth by lia. cbn [Nat.add].
      assert (Kr : INR n / 2 <= INR (h + k) <= INR n - 1).
      { split.
        - assert (X : (n <= 2 * (h + k))%nat) by lia. apply le_INR in X. rewrite mult_INR in X. cbn [INR] in X. lra.
        - assert (X : (h + k + 1 <= n)%nat) by lia. apply le_INR in X. rewrite plus_INR in X. cbn [INR] in X. lra. }
      f_equal.
      - rewrite (fmod_shift _ (d * INR (h + k) - P / 2) 0); [|lra|nra]. unfold node. rewrite <- Nat2Z.inj_add, <- INR_IZR_INZ. reflexivity.
      - f_equal. rewrite <- Nat2Z.inj_add. destruct (wrap_repeats n N) as [W1 _]. rewrite W1 by lia. lia. }
    rewrite A, B. apply Permutation_app_comm.
  Qed.

  Lemma ring_nth z m k : (k < m)%nat -> nth_error (ring_points z m) k = Some (node (z + Z.of_nat k), f (wrap n (z + Z.of_nat k))).
  Proof.
    intros K. unfold ring_points. rewrite nth_error_map. rewrite (nth_error_nth' _ 0%nat) by (rewrite seq_length; exact K). rewrite seq_nth by exact K. reflexivity.
  Qed.

  (** The list searched: [n + 2] nodes in a row. *)
  Lemma search_list x : interp_periodic x points P = interp (fmod_py x P) (ring_points (Z.of_nat h - 1) (n + 2)).
  Proof.
    unfold interp_periodic. rewrite (isort_by_fst _ _ mods_list (ring_sorted _ _)). pose proof d_n as D.
    destruct (ring_points (Z.of_nat h) n) as [|p l] eqn:E.
    { apply (f_equal (@length _)) in E. unfold ring_points in E. rewrite map_length, seq_length in E. cbn in E. lia. }
    rewrite <- E. f_equal.
    assert (Ef : p = (node (Z.of_nat h), f (wrap n (Z.of_nat h)))).
    { pose proof (ring_nth (Z.of_nat h) n 0 ltac:(lia)) as X. rewrite E in X. cbn [nth_error] in X. injection X as ->.
      now rewrite Z.add_0_r. }
    assert (El : last (ring_points (Z.of_nat h) n) p = (node (Z.of_nat h + Z.of_nat n - 1), f (wrap n (Z.of_nat h + Z.of_nat n - 1)))).
    { pose proof (ring_nth (Z.of_nat h) n (n - 1) ltac:(lia)) as X.
      assert (L : forall (A : Type) (l : list A) a0 b0, nth_error l (length l - 1) = Some b0 -> last l a0 = b0).
      { clear. intros A l a0 b0. induction l as [|a l IH]; [discriminate|]. destruct l as [|b l]; [cbn; congruence|]. intros H. apply IH.
        cbn [length] in *. replace (S (S (length l)) - 1)%nat with (S (length l)) in H by lia. cbn [nth_error] in H. replace (S (length l) - 1)%nat with (length l) by lia. exact H. }
      apply L. unfold ring_points at 2. rewrite map_length, seq_length. rewrite X. do 2 f_equal; [|f_equal]; f_equal; lia. }
    rewrite El, Ef. cbn [fst snd]. unfold ring_points at 2. replace (n + 2)%nat with (S (n + 1)) by lia. cbn [seq map].
    rewrite <- seq_shift, map_map, seq_app, map_app. cbn [seq map].
    destruct (wrap_repeats n N) as [W1 W2]. f_equal; [|f_equal].
    - f_equal.
      + unfold node. cbn [Z.of_nat]. rewrite Z.add_0_r, !minus_IZR, plus_IZR, <- !INR_IZR_INZ. rewrite <- D. ring.
      + f_equal. rewrite <- (W2 (Z.of_nat h - 1 + Z.of_nat 0)%Z). f_equal. lia.
    - unfold ring_points. apply map_ext. intros i. replace (Z.of_nat h - 1 + Z.of_nat (S i))%Z with (Z.of_nat h + Z.of_nat i)%Z by lia. reflexivity.
    - f_equal. replace (Z.of_nat h - 1 + Z.of_nat (S (0 + n)))%Z with (Z.of_nat h + Z.of_nat n)%Z by lia. rewrite W2. f_equal.
      unfold node. rewrite plus_IZR, <- !INR_IZR_INZ. rewrite <- D. ring.
  Qed.

  (** Between two grid points the value is the linear mean of theirs, with indices modulo [n]. *)
  Lemma periodic_value x z t : x = d * (IZR z + t) - P / 2 -> 0 <= t < 1 ->
    interp_periodic x points P = (1 - t) * f (wrap n z) + t * f (wrap n (z + 1)).
  Proof.
    intros X T. rewrite search_list. destruct (fmod_range x) as [Y (k & Ek)]. set (y := fmod_py x P) in *. pose proof d_n as D. pose proof d_pos as Dp. pose proof n_pos as Np.
    set (z' := (z - k * Z.of_nat n)%Z).
    assert (Ey : y = d * (IZR z' + t) - P / 2).
    { unfold z'. rewrite minus_IZR, mult_IZR, <- INR_IZR_INZ. replace y with (x - P * IZR k) by lra. rewrite X. rewrite <- D. ring. }
    assert (Zb : (Z.of_nat h - 1 <= z' <= Z.of_nat h + Z.of_nat n - 1)%Z).
    { pose proof h_bounds as H. assert (Hr : INR n <= 2 * INR h <= INR n + 1).
      { destruct H as [H|H]; apply (f_equal INR) in H; rewrite mult_INR in H; [|rewrite plus_INR in H]; cbn [INR] in H; lra. }
      assert (Lo : -1 < IZR z' - INR h + 1) by (assert (INR n / 2 <= IZR z' + t) by nra; lra).
      assert (Up : IZR z' - INR h - INR n < 0) by (assert (IZR z' + t < INR n + INR n / 2) by nra; lra).
      rewrite INR_IZR_INZ in Lo, Up. rewrite (INR_IZR_INZ n) in Up. rewrite <- minus_IZR, <- plus_IZR in Lo. rewrite <- !minus_IZR in Up.
      apply lt_IZR in Lo. apply lt_IZR in Up. lia. }
    pose proof (ring_nth (Z.of_nat h - 1) (n + 2) (Z.to_nat (z' - Z.of_nat h + 1)) ltac:(lia)) as A.
    pose proof (ring_nth (Z.of_nat h - 1) (n + 2) (S (Z.to_nat (z' - Z.of_nat h + 1))) ltac:(lia)) as B.
    replace (Z.of_nat h - 1 + Z.of_nat (Z.to_nat (z' - Z.of_nat h + 1)))%Z with z' in A by lia.
    replace (Z.of_nat h - 1 + Z.of_nat (S (Z.to_nat (z' - Z.of_nat h + 1))))%Z with (z' + 1)%Z in B by lia.
    rewrite (interp_between y _ _ _ _ (ring_sorted _ _) A B); cbn [fst snd]; unfold node.
    - assert (Wk : forall m v, wrap n (v - m * Z.of_nat n) = wrap n v).
      { intros m v. unfold wrap. f_equal. replace (v - m * Z.of_nat n)%Z with (v + - m * Z.of_nat n)%Z by lia. apply Z.mod_add. lia. }
      unfold z' in *. replace (z - k * Z.of_nat n + 1)%Z with (z + 1 - k * Z.of_nat n)%Z by lia. rewrite !Wk, Ey.
      replace (z + 1 - k * Z.of_nat n)%Z with ((z - k * Z.of_nat n) + 1)%Z by lia. rewrite (plus_IZR _ 1). set (w0 := IZR (z - k * Z.of_nat n)).
      replace ((d * (w0 + t) - P / 2 - (d * w0 - P / 2)) / (d * (w0 + 1) - P / 2 - (d * w0 - P / 2))) with t by (field; lra). ring.
    - rewrite plus_IZR, Ey. split; nra.
  Qed.
End Periodic.

(** ** The grids *)
Lemma Ly_pos q0 : 0 < q0 -> 0 < t_Ly q0.
Proof.
  intros Q. unfold t_Ly, t_Cy, t_x0. pose proof PI_RGT_0. apply Rmult_lt_0_compat; [lra|]. apply Rmult_lt_0_compat; [lra|]. now apply Rinv_0_lt_compat.
Qed.
Lemma grid_y_at q0 n j : (j < n)%nat -> grid_y q0 n j = t_Ly q0 / INR n * INR j - t_Ly q0 / 2.
Proof.
  intros J. unfold grid_y, linspace. destruct (Nat.eqb_spec n 1) as [->|N1].
  - assert (j = 0)%nat as -> by lia. cbn [INR]. lra.
  - assert (1 < INR n) by (change 1 with (INR 1); apply lt_INR; lia). rewrite minus_INR by lia. cbn [INR]. field. split; lra.
Qed.
Lemma grid_x_at n i : (i < n)%nat -> grid_x n i = 2 + INR i / INR n.
Proof.
  intros J. unfold grid_x, linspace, t_x0, t_Lx. destruct (Nat.eqb_spec n 1) as [->|N1].
  - assert (i = 0)%nat as -> by lia. cbn [INR]. lra.
  - assert (1 < INR n) by (change 1 with (INR 1); apply lt_INR; lia). rewrite minus_INR by lia. cbn [INR]. field. split; lra.
Qed.
Lemma grid_points q0 n (f : nat -> R) : map (fun l => (grid_y q0 n l, f l)) (seq 0 n) = points n (t_Ly q0) f.
Proof. unfold points. apply map_ext_in. intros j Hj. apply in_seq in Hj. rewrite grid_y_at by lia. reflexivity. Qed.

Lemma any_repeats n g z : (1 <= n)%nat -> repeats n g -> g z = wrap n z.
Proof.
  intros N [A B]. assert (Bn : forall m z, g (z + Z.of_nat m * Z.of_nat n)%Z = g z).
  { induction m as [|m IH]; intros v; [f_equal; lia|]. replace (v + Z.of_nat (S m) * Z.of_nat n)%Z with (v + Z.of_nat m * Z.of_nat n + Z.of_nat n)%Z by lia. now rewrite B, IH. }
  pose proof (Z.div_mod z (Z.of_nat n) ltac:(lia)) as E. pose proof (Z.mod_pos_bound z (Z.of_nat n) ltac:(lia)) as M.
  unfold wrap. rewrite <- (A (z mod Z.of_nat n)%Z M). destruct (Z_le_gt_dec 0 (z / Z.of_nat n)) as [K|K].
  - rewrite <- (Bn (Z.to_nat (z / Z.of_nat n)) (z mod Z.of_nat n)%Z). f_equal. rewrite Z2Nat.id by lia. lia.
  - rewrite <- (Bn (Z.to_nat (- (z / Z.of_nat n))) z). f_equal. rewrite Z2Nat.id by lia. lia.
Qed.

(** The shift is [q] turns. *)
Lemma shift_turns n_x nint_x q0 shat i : shift_at n_x nint_x q0 shat i = t_Ly q0 * q_func (grid_x (n_x * nint_x) i) 2 q0 shat.
Proof. reflexivity. Qed.

(** Each row is shifted by the same distance, [m + t] cells of the fine grid: a mean of two neighbours on
    the circle; by whole cells it is turned around. *)
Theorem C113_twist n_x n_y nint_x nint_y q0 shat phi g i j m t :
  0 < q0 -> (1 <= n_y * nint_y)%nat -> repeats (n_y * nint_y) g -> (j < n_y * nint_y)%nat ->
  INR (n_y * nint_y) * q_func (grid_x (n_x * nint_x) i) 2 q0 shat = IZR m + t -> 0 <= t < 1 ->
  m_at (twist n_x n_y nint_x nint_y q0 shat phi) i j =
    (1 - t) * m_at phi i (g (Z.of_nat j + m)%Z) + t * m_at phi i (g (Z.of_nat j + m + 1)%Z).
Proof.
  intros Q N G J Sh T. unfold twist. cbn [m_at]. set (n := (n_y * nint_y)%nat) in *.
  pose proof (Ly_pos q0 Q) as Lp. assert (Np : 0 < INR n) by (apply lt_0_INR; lia).
  rewrite grid_points. unfold wrapped. set (P := t_Ly q0) in *.
  destruct (fmod_range P Lp (grid_y q0 n j + shift_at n_x nint_x q0 shat i + P / 2)) as [_ (k & Ek)].
  set (y := fmod_py (grid_y q0 n j + shift_at n_x nint_x q0 shat i + P / 2) P) in *.
  rewrite (periodic_value n P (m_at phi i) N Lp (y - P / 2) (Z.of_nat j + m - k * Z.of_nat n) t).
  - assert (Wk : forall v, wrap n (v - k * Z.of_nat n) = wrap n v).
    { intros v. unfold wrap. f_equal. replace (v - k * Z.of_nat n)%Z with (v + - k * Z.of_nat n)%Z by lia. apply Z.mod_add. lia. }
    replace (Z.of_nat j + m - k * Z.of_nat n + 1)%Z with (Z.of_nat j + m + 1 - k * Z.of_nat n)%Z by lia.
    rewrite !Wk, !(any_repeats n g) by assumption. reflexivity.
  - rewrite minus_IZR, plus_IZR, mult_IZR, <- !INR_IZR_INZ. replace y with (grid_y q0 n j + shift_at n_x nint_x q0 shat i + P / 2 - P * IZR k) by lra.
    rewrite grid_y_at by exact J. fold P. rewrite shift_turns. fold P. set (q := q_func _ _ _ _) in *.
    assert (Eq : q = (IZR m + t) / INR n) by (rewrite <- Sh; field; lra). rewrite Eq. field. lra.
  - exact T.
Qed.

(** Turning by whole circles changes nothing; so does the map without shear for an integer safety factor. *)
Lemma q_flat q0 n i : (i < n)%nat -> q_func (grid_x n i) 2 q0 0 = q0.
Proof.
  intros I. rewrite grid_x_at by exact I. unfold q_func, Rpower. rewrite Rmult_0_l, exp_0. ring.
Qed.

Lemma turn_sum n f m : (1 <= n)%nat -> tot n (fun j => f (wrap n (Z.of_nat j + m))) = tot n f.
Proof.
  intros N. assert (S1 : forall f, tot n (fun j => f (wrap n (Z.of_nat j + 1))) = tot n f).
  { intros f0. destruct n as [|n']; [lia|]. rewrite (tot_first n' f0). cbn [tot].
    destruct (wrap_repeats (S n') N) as [W1 W2].
    rewrite (tot_ext n' _ (fun k => f0 (S k))) by (intros k K; f_equal; rewrite W1 by lia; lia).
    replace (Z.of_nat n' + 1)%Z with (0 + Z.of_nat (S n'))%Z by lia. rewrite W2, W1 by lia. cbn [Z.to_nat]. lra. }
  assert (Sk : forall k f, tot n (fun j => f (wrap n (Z.of_nat j + Z.of_nat k))) = tot n f).
  { induction k as [|k IH]; intros f0.
    - apply tot_ext. intros j J. f_equal. destruct (wrap_repeats n N) as [W1 _]. rewrite W1 by lia. lia.
    - rewrite <- (S1 f0). rewrite <- (IH (fun v => f0 (wrap n (Z.of_nat v + 1)))). apply tot_ext. intros j J. f_equal.
      unfold wrap. rewrite Z2Nat.id by (apply Z.mod_pos_bound; lia). rewrite Zplus_mod_idemp_l. f_equal. f_equal. lia. }
  rewrite <- (Sk (wrap n m) f). apply tot_ext. intros j J. f_equal. unfold wrap.
  rewrite Z2Nat.id by (apply Z.mod_pos_bound; lia). now rewrite Zplus_mod_idemp_r.
Qed.

(** The mean of each row is kept, and its range. *)
Theorem C113_twist_mean n_x n_y nint_x nint_y q0 shat phi i : 0 < q0 -> (1 <= n_y * nint_y)%nat ->
  tot (n_y * nint_y) (fun j => m_at (twist n_x n_y nint_x nint_y q0 shat phi) i j) = tot (n_y * nint_y) (fun j => m_at phi i j) /\
  (forall lo hi, (forall j, (j < n_y * nint_y)%nat -> lo <= m_at phi i j <= hi) ->
     forall j, (j < n_y * nint_y)%nat -> lo <= m_at (twist n_x n_y nint_x nint_y q0 shat phi) i j <= hi) /\
  m_rows (twist n_x n_y nint_x nint_y q0 shat phi) = m_rows phi /\ m_cols (twist n_x n_y nint_x nint_y q0 shat phi) = m_cols phi.
Proof.
  intros Q N. set (n := (n_y * nint_y)%nat) in *. set (u := INR n * q_func (grid_x (n_x * nint_x) i) 2 q0 shat).
  assert (U : u = IZR (Zfloor u) + (u - IZR (Zfloor u))) by ring. pose proof (Zfloor_lb u) as A. pose proof (Zfloor_ub u) as B.
  set (m := Zfloor u) in *. set (t := u - IZR m) in *. assert (T : 0 <= t < 1) by (unfold t; lra).
  assert (V : forall j, (j < n)%nat -> m_at (twist n_x n_y nint_x nint_y q0 shat phi) i j =
    (1 - t) * m_at phi i (wrap n (Z.of_nat j + m)) + t * m_at phi i (wrap n (Z.of_nat j + (m + 1)))).
  { intros j J. rewrite Z.add_assoc. apply C113_twist; auto. now apply wrap_repeats. }
  split; [|split; [|split; reflexivity]].
  - match goal with |- tot n ?f = _ => transitivity (tot n (fun j => (1 - t) * m_at phi i (wrap n (Z.of_nat j + m)) + t * m_at phi i (wrap n (Z.of_nat j + (m + 1))))) end.
    + apply tot_ext. exact V.
    + rewrite tot_plus, !tot_scal. rewrite !(turn_sum n (m_at phi i)) by exact N.
      change (tot n (fun j => m_at phi i j)) with (tot n (m_at phi i)). ring.
  - intros lo hi H j J. rewrite V by exact J. pose proof (H _ (wrap_lt n (Z.of_nat j + m) N)). pose proof (H _ (wrap_lt n (Z.of_nat j + (m + 1)) N)). nra.
Qed.

(** Upsampling is linear interpolation in both directions: around the circle in y, constant behind the
    last point in x. *)
Theorem C113_upsample n_x n_y nint_x nint_y q0 phi g k s l r :
  0 < q0 -> (k < n_x)%nat -> (s < nint_x)%nat -> (l < n_y)%nat -> (r < nint_y)%nat -> repeats n_y g ->
  let row i := (1 - INR r / INR nint_y) * m_at phi i l + INR r / INR nint_y * m_at phi i (g (Z.of_nat l + 1)%Z) in
  m_at (upsample n_x n_y nint_x nint_y q0 phi) (k * nint_x + s) (l * nint_y + r) =
    (1 - INR s / INR nint_x) * row k + INR s / INR nint_x * row (Nat.min (k + 1) (n_x - 1)).
Proof.
  intros Q K Sx L Ry G row. unfold upsample. cbn [m_at]. rewrite grid_x_at by nia.
  assert (Bx : 0 < INR nint_x) by (apply lt_0_INR; lia). assert (By : 0 < INR nint_y) by (apply lt_0_INR; lia).
  assert (Nx : 0 < INR n_x) by (apply lt_0_INR; lia). assert (Ny : 0 < INR n_y) by (apply lt_0_INR; lia).
  assert (Fs : 0 <= INR s / INR nint_x < 1).
  { split; [apply Rmult_le_pos; [apply pos_INR|]; left; now apply Rinv_0_lt_compat|]. apply (Rmult_lt_reg_r (INR nint_x)); [exact Bx|].
    replace (INR s / INR nint_x * INR nint_x) with (INR s) by (field; lra). rewrite Rmult_1_l. now apply lt_INR. }
  assert (Fr : 0 <= INR r / INR nint_y < 1).
  { split; [apply Rmult_le_pos; [apply pos_INR|]; left; now apply Rinv_0_lt_compat|]. apply (Rmult_lt_reg_r (INR nint_y)); [exact By|].
    replace (INR r / INR nint_y * INR nint_y) with (INR r) by (field; lra). rewrite Rmult_1_l. now apply lt_INR. }
  assert (Fy : forall i, interp_periodic (grid_y q0 (n_y * nint_y) (l * nint_y + r)) (map (fun l0 => (grid_y q0 n_y l0, m_at phi i l0)) (seq 0 n_y)) (t_Ly q0) = row i).
  { intros i. rewrite grid_points. rewrite (periodic_value n_y (t_Ly q0) (m_at phi i) ltac:(lia) (Ly_pos q0 Q) _ (Z.of_nat l) (INR r / INR nint_y)).
    - unfold row. rewrite !(any_repeats n_y g) by (assumption || lia). destruct (wrap_repeats n_y ltac:(lia)) as [W1 _]. rewrite (W1 (Z.of_nat l)) by lia. now rewrite Nat2Z.id.
    - rewrite grid_y_at by nia. rewrite plus_INR, !mult_INR, <- INR_IZR_INZ. field. lra.
    - exact Fr. }
  rewrite (map_ext _ (fun k0 => (grid_x n_x k0, row k0))) by (intros; now rewrite Fy).
  assert (So : StronglySorted below (map (fun k0 => (grid_x n_x k0, row k0)) (seq 0 n_x))).
  { assert (Gm : forall m st, (st + m <= n_x)%nat -> StronglySorted below (map (fun k0 => (grid_x n_x k0, row k0)) (seq st m))).
    { induction m as [|m IH]; intros st B; cbn [seq map]; constructor; [apply IH; lia|]. apply Forall_forall. intros p Ip.
      apply in_map_iff in Ip. destruct Ip as (i & <- & Ii). apply in_seq in Ii. unfold below. cbn [fst]. rewrite !grid_x_at by lia.
      apply Rplus_lt_compat_l. apply Rmult_lt_compat_r; [now apply Rinv_0_lt_compat|]. apply lt_INR. lia. }
    apply Gm. lia. }
  assert (Nt : forall i, (i < n_x)%nat -> nth_error (map (fun k0 => (grid_x n_x k0, row k0)) (seq 0 n_x)) i = Some (grid_x n_x i, row i)).
  { intros i I. rewrite nth_error_map. rewrite (nth_error_nth' _ 0%nat) by (rewrite seq_length; exact I). now rewrite seq_nth by exact I. }
  assert (Ex : 2 + INR (k * nint_x + s) / INR (n_x * nint_x) = 2 + (INR k + INR s / INR nint_x) / INR n_x).
  { rewrite plus_INR, !mult_INR. field. split; lra. }
  rewrite Ex. destruct (Nat.lt_ge_cases (k + 1) n_x) as [K1|K1].
  - rewrite (interp_between _ _ k _ _ So (Nt k K) (Nt (S k) ltac:(lia))); cbn [fst snd]; rewrite !grid_x_at by lia; rewrite S_INR.
    + rewrite Nat.min_l by lia. replace (k + 1)%nat with (S k) by lia.
      replace ((2 + (INR k + INR s / INR nint_x) / INR n_x - (2 + INR k / INR n_x)) / (2 + (INR k + 1) / INR n_x - (2 + INR k / INR n_x))) with (INR s / INR nint_x) by (field; lra). ring.
    + split; apply Rplus_le_compat_l || apply Rplus_lt_compat_l; (apply Rmult_le_compat_r || apply Rmult_lt_compat_r); try lra;
      try (left; now apply Rinv_0_lt_compat); try (now apply Rinv_0_lt_compat).
  - assert (Ek : k = (n_x - 1)%nat) by lia. rewrite Nat.min_r by lia. rewrite <- Ek.
    rewrite (interp_beyond _ _ (grid_x n_x k, row k) So).
    + cbn [snd]. ring.
    + rewrite map_length, seq_length, <- Ek. now apply Nt.
    + cbn [fst]. rewrite grid_x_at by lia. apply Rplus_le_compat_l. apply Rmult_le_compat_r; [left; now apply Rinv_0_lt_compat|]. lra.
Qed.

(** Without filter, without shear and with an integer safety factor the field comes back. *)
Theorem C113_identity n_x n_y nint_x nint_y q a sigma ft phi : (1 <= q)%Z -> (1 <= nint_x)%nat -> (1 <= nint_y)%nat ->
  (1 <= n_x)%nat -> (1 <= n_y)%nat ->
  exists out, twist_shift n_x n_y nint_x nint_y (IZR q) 0 false ft a sigma phi = Ok out /\ m_rows out = n_x /\ m_cols out = n_y /\
    forall i j, (i < n_x)%nat -> (j < n_y)%nat -> m_at out i j = m_at phi i j.
Proof.
  intros Q Bx By Nx Ny. assert (Qp : 0 < IZR q) by (apply (IZR_lt 0); lia). unfold twist_shift, every.
  destruct (Nat.eqb_spec nint_x 0) as [C|_]; [lia|]. destruct (Nat.eqb_spec nint_y 0) as [C|_]; [lia|]. cbn [orb].
  eexists. split; [reflexivity|]. cbn [m_rows m_cols m_at twist upsample].
  split; [symmetry; apply (Nat.div_unique _ nint_x n_x (nint_x - 1)); nia|]. split; [symmetry; apply (Nat.div_unique _ nint_y n_y (nint_y - 1)); nia|].
  intros i j I J. pose proof (wrap_repeats (n_y * nint_y) ltac:(nia)) as W.
  change (m_at (twist n_x n_y nint_x nint_y (IZR q) 0 (upsample n_x n_y nint_x nint_y (IZR q) phi)) (i * nint_x)%nat (j * nint_y)%nat = m_at phi i j).
  rewrite (C113_twist n_x n_y nint_x nint_y (IZR q) 0 _ (wrap (n_y * nint_y)) (i * nint_x) (j * nint_y) (Z.of_nat (n_y * nint_y) * q) 0 Qp ltac:(nia) W ltac:(nia)); [| |lra].
  - replace (wrap (n_y * nint_y) (Z.of_nat (j * nint_y) + Z.of_nat (n_y * nint_y) * q)) with (j * nint_y)%nat.
    + pose proof (C113_upsample n_x n_y nint_x nint_y (IZR q) phi (wrap n_y) i 0 j 0 Qp I ltac:(lia) J ltac:(lia) (wrap_repeats n_y Ny)) as U.
      cbv zeta in U. rewrite !Nat.add_0_r in U. rewrite U. cbn [INR]. unfold Rdiv. rewrite !Rmult_0_l. ring.
    + unfold wrap. rewrite Z.mul_comm, Z.mod_add by nia. rewrite Z.mod_small by nia. lia.
  - rewrite q_flat by nia. rewrite mult_IZR, <- INR_IZR_INZ. ring.
Qed.

(** The local shear (r/q) dq/dr of the profile is the parameter everywhere. *)
Theorem C113_shear r0 q0 s r : 0 < r0 -> 0 < r -> 0 < q0 ->
  is_derive (fun x => q_func x r0 q0 s) r (s * q_func r r0 q0 s / r).
Proof.
  intros R0 Rp Q. unfold q_func, Rpower. auto_derive.
  - apply Rmult_lt_0_compat; [exact Rp|]. now apply Rinv_0_lt_compat.
  - unfold Rdiv. rewrite Rmult_1_l. field. split; lra.
Qed.
(** The curve plotted uses the distance from the reference surface for r and starts with 0. *)
Theorem C113_shear_refuted : exists n_x q0 shat, 0 < q0 /\ shat <> 0 /\ (1 <= n_x)%nat /\ forall grad, shat_local n_x q0 shat grad 0 <> shat.
Proof.
  exists 4%nat, 2, 1. split; [lra|]. split; [lra|]. split; [lia|]. intros grad E. unfold shat_local, x_local in E.
  rewrite grid_x_at in E by lia. unfold t_x0 in E. cbn [INR] in E. replace (2 + 0 / 4 - 2) with 0 in E by lra.
  unfold Rdiv in E. rewrite !Rmult_0_l in E. unfold Rdiv in E. lra.
Qed.

(** ** Concrete inputs meeting the hypotheses *)
Ltac compute_indices :=
  repeat match goal with
         | |- context [reflect ?n ?z] => let v := eval vm_compute in (reflect n z) in change (reflect n z) with v
         | |- context [wrap ?n ?z] => let v := eval vm_compute in (wrap n z) in change (wrap n z) with v
         end;
  repeat match goal with
         | |- context [INR ?k] => rewrite (INR_IZR_INZ k); let v := eval vm_compute in (Z.of_nat k) in change (Z.of_nat k) with v
         end.
Example C113_kernel_ex : exists w, make_kernel 2 "triangle" 2 (1 / 2) = Ok w /\ nth 1 w 0 = 1 / 2 /\ nth 0 w 0 = 1 / 4.
Proof.
  destruct (C113_windows 2 "triangle" 2 (1 / 2) ltac:(lia)) as (_ & (w & E & _ & V) & _). exists w. split; [exact E|].
  rewrite !V by lia. cbn [Nat.min Nat.add Nat.sub Nat.mul INR]. split; lra.
Qed.
Example C113_windows_ex : reach "gaussian" 2 4 (1 / 2) 6 /\ reach "hann" 2 4 (1 / 2) 8.
Proof. split; [left|right]; cbn [INR]; repeat split; auto; lra || lia. Qed.
Example C113_filter_ex : exists out,
  filter_downsample (mk_mat 2 4 (fun i j => INR (10 * i + j))) 1 2 "triangle" 2 (1 / 2) true = Ok out /\ m_rows out = 2%nat /\ m_cols out = 2%nat /\
  m_at out 1%nat 1%nat = 12 /\ m_at out 0%nat 0%nat = 1.
Proof.
  destruct (C113_windows 2 "triangle" 2 (1 / 2) ltac:(lia)) as (_ & (w & E & L & V) & _).
  destruct (C113_filter (mk_mat 2 4 (fun i j => INR (10 * i + j))) 1 2 "triangle" 2 (1 / 2) true [1] w (reflect 2) (wrap 4) ltac:(discriminate) ltac:(discriminate)
    ltac:(cbn; lia) ltac:(cbn; lia) eq_refl E (reflect_mirrors 2 ltac:(lia)) ltac:(split; [apply (wrap_repeats 4); lia|rewrite L; cbn; lia])) as (out & Eo & Er & Ec & Ev).
  exists out. split; [exact Eo|]. cbn [m_rows m_cols] in Er, Ec.
  assert (R1 : (1 < m_rows out)%nat) by (apply Er; lia). assert (R2 : ~ (2 < m_rows out)%nat) by (rewrite Er; lia).
  assert (C1 : (1 < m_cols out)%nat) by (apply Ec; lia). assert (C2 : ~ (2 < m_cols out)%nat) by (rewrite Ec; lia).
  split; [lia|]. split; [lia|]. rewrite !Ev by lia. rewrite L. change (2 * 2 - 1)%nat with 3%nat. cbn [length tot nth m_at].
  rewrite !V by lia. compute_indices. lra.
Qed.
Example C113_points_ex : let f := mk_mat 3 4 (fun i j => INR (i * j)) in
  exists p q, filter_downsample f 2 2 "5point" 2 1 true = Ok p /\ filter_downsample f 2 2 "9point" 2 1 true = Ok q /\
    m_at p 1%nat 1%nat = m_at q 1%nat 1%nat.
Proof.
  intros f. destruct (C113_points f true 2 2 2 1 ltac:(cbn; lia) ltac:(cbn; lia) ltac:(lia) ltac:(lia)) as (p & q & Ep & Eq & _ & _ & V).
  exists p, q. split; [exact Ep|]. split; [exact Eq|]. apply V; cbn; lia.
Qed.
Example C113_bounds_ex : exists out, filter_downsample (mk_mat 3 4 (fun _ _ => 7)) 1 1 "9point" 2 1 true = Ok out /\ m_at out 2%nat 3%nat = 7.
Proof.
  destruct (C113_points (mk_mat 3 4 (fun _ _ => 7)) true 1 1 2 1 ltac:(cbn; lia) ltac:(cbn; lia) ltac:(lia) ltac:(lia)) as (_ & q & _ & Eq & _).
  exists q. split; [exact Eq|]. pose proof (every_ok _ _ _ _ Eq) as (_ & Er & Ec & _).
  destruct (C113_bounds (mk_mat 3 4 (fun _ _ => 7)) 1 1 "9point" 2 1 true q 7 7 ltac:(cbn; lia) ltac:(cbn; lia) ltac:(cbn; intros; lra) ltac:(auto) Eq 2%nat 3%nat); [apply Er; cbn; lia|apply Ec; cbn; lia|]. lra.
Qed.
Example C113_wide_ex : filter_downsample (mk_mat 2 4 (fun _ _ => 1)) 2 2 "hann" 3 1 true = Err ValueError.
Proof.
  destruct (C113_windows 2 "hann" 3 1 ltac:(lia)) as (_ & _ & W). destruct (W 6%nat ltac:(right; repeat split; auto; lia)) as (w & E & L & _).
  apply (C113_wide _ 2 2 "hann" 3 1 w ltac:(discriminate) ltac:(discriminate) E); [cbn; lia|]. rewrite L. cbn. lia.
Qed.
Example C113_waves_ex : exists out,
  filter_downsample (mk_mat 1 4 (fun _ j => 3 * cos (INR j * (PI / 2) + 0))) 1 2 "triangle" 2 1 true = Ok out /\ m_at out 0%nat 0%nat = 3 / 2.
Proof.
  set (field := mk_mat 1 4 (fun _ j => 3 * cos (INR j * (PI / 2) + 0))).
  destruct (C113_windows 2 "triangle" 2 1 ltac:(lia)) as (_ & (w & E & L & V) & _). change (2 * 2 - 1)%nat with 3%nat in *.
  destruct (C113_filter field 1 2 "triangle" 2 1 true [1] w (reflect 1) (wrap 4) ltac:(discriminate) ltac:(discriminate)
    ltac:(cbn; lia) ltac:(cbn; lia) eq_refl E (reflect_mirrors 1 ltac:(lia)) ltac:(split; [apply (wrap_repeats 4); lia|rewrite L; cbn; lia])) as (out & Eo & Er & Ec & _).
  exists out. split; [exact Eo|].
  rewrite (C113_waves field 1 2 "triangle" 2 1 [1] w 1 (fun _ => 3) (PI / 2) 0 1 (reflect 1) out ltac:(discriminate) ltac:(discriminate)
    ltac:(cbn; lia) ltac:(cbn; lia) eq_refl E L ltac:(cbn; lia) (reflect_mirrors 1 ltac:(lia)) ltac:(cbn [field m_cols INR]; field) ltac:(reflexivity) Eo 0 0 ltac:(apply Er; cbn; lia) ltac:(apply Ec; cbn; lia)).
  rewrite L. cbn [length tot nth]. rewrite !V by lia. change (0 * 2)%nat with 0%nat. compute_indices.
  replace ((0 - 1) * (PI / 2)) with (- (PI / 2)) by lra. replace ((2 - 1) * (PI / 2)) with (PI / 2) by lra. rewrite cos_neg, cos_PI2.
  replace ((1 - 1) * (PI / 2)) with 0 by lra. replace (0 * (PI / 2) + 0) with 0 by lra. rewrite cos_0. lra.
Qed.
Example C113_twist_ex : m_at (twist 1 4 1 1 (1 / 4) 0 (mk_mat 1 4 (fun _ j => INR j))) 0 3 = 0.
Proof.
  rewrite (C113_twist 1 4 1 1 (1 / 4) 0 _ (wrap 4) 0 3 1 0 ltac:(lra) ltac:(lia) (wrap_repeats 4 ltac:(lia)) ltac:(lia)).
  - cbn [m_at]. compute_indices. lra.
  - rewrite q_flat by lia. cbn [INR Nat.mul Nat.add]. lra.
  - lra.
Qed.
Example C113_upsample_ex : m_at (upsample 2 2 2 2 1 (mk_mat 2 2 (fun i j => INR (10 * i + 4 * j)))) 1 1 = 7.
Proof.
  pose proof (C113_upsample 2 2 2 2 1 (mk_mat 2 2 (fun i j => INR (10 * i + 4 * j))) (wrap 2) 0 1 0 1 ltac:(lra) ltac:(lia) ltac:(lia) ltac:(lia) ltac:(lia) (wrap_repeats 2 ltac:(lia))) as U.
  cbv zeta in U. change (0 * 2 + 1)%nat with 1%nat in U. rewrite U. cbn [m_at]. compute_indices. lra.
Qed.
Example C113_identity_ex : exists out, twist_shift 2 4 3 2 (IZR 2) 0 false "box" 2 1 (mk_mat 2 4 (fun i j => INR (i + j))) = Ok out /\ m_at out 1%nat 3%nat = 4.
Proof.
  destruct (C113_identity 2 4 3 2 2 2 1 "box" (mk_mat 2 4 (fun i j => INR (i + j))) ltac:(lia) ltac:(lia) ltac:(lia) ltac:(lia) ltac:(lia)) as (out & E & _ & _ & V).
  exists out. split; [exact E|]. rewrite V by lia. cbn [m_at]. compute_indices. lra.
Qed.

Print Assumptions C113_kernel.
Print Assumptions C113_windows.
Print Assumptions C113_filter.
Print Assumptions C113_points.
Print Assumptions C113_bounds.
Print Assumptions C113_wide.
Print Assumptions C113_waves.
Print Assumptions C113_waves_refuted.
Print Assumptions C113_twist.
Print Assumptions C113_twist_mean.
Print Assumptions C113_upsample.
Print Assumptions C113_identity.
Print Assumptions C113_shear.
Print Assumptions C113_shear_refuted.
