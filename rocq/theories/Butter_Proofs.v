(** * Lemmas for the Butterworth filter *)
From Coq Require Import List Arith ZArith Bool Lia Reals Lra Permutation.
From Coquelicot Require Import Complex.
From Verif Require Import Prelude PreludeFacts Fft_Model Butter_Model.
Import ListNotations.
Open Scope list_scope.
Open Scope nat_scope.
Open Scope R_scope.
Open Scope C_scope.

(** ** Sequences that are zero before their start *)

Definition del (u : nat -> C) (n : nat) : C := match n with O => 0 | S m => u m end.

(** [a_0 u_n + a_1 u_(n-1) + ...] *)
Fixpoint app (a : list C) (u : nat -> C) (n : nat) : C :=
  match a with [] => 0 | c :: a' => c * u n + app a' (del u) n end.

Lemma del_ext (u v : nat -> C) : (forall n, u n = v n) -> forall n, del u n = del v n.
Proof. intros H [|n]; cbn; auto. Qed.

Lemma app_ext a : forall u v : nat -> C, (forall n, u n = v n) -> forall n, app a u n = app a v n.
Proof. induction a as [|c a IH]; intros u v H n; cbn [app]; [reflexivity|]. rewrite H. f_equal. apply IH. now apply del_ext. Qed.

Lemma app_zero a : forall (u : nat -> C) n, (forall m, (m <= n)%nat -> u m = 0) -> app a u n = 0.
Proof.
  induction a as [|c a IH]; intros u n H; cbn [app]; [reflexivity|]. rewrite (H n (le_n _)), (IH (del u) n); [ring|]. intros [|m] Hm; cbn; [reflexivity|]. apply H. lia.
Qed.

Lemma app_shift a : forall u n, app a (del u) (S n) = app a u n.
Proof. induction a as [|c a IH]; intros u n; cbn [app]; [reflexivity|]. rewrite IH. reflexivity. Qed.

Lemma app_lin a : forall (u v : nat -> C) (k : C) n, app a (fun m => u m + k * v m) n = app a u n + k * app a v n.
Proof.
  induction a as [|c a IH]; intros u v k n; cbn [app]; [ring|].
  rewrite (app_ext a (del (fun m => u m + k * v m)) (fun m => del u m + k * del v m)); [rewrite IH; ring|]. intros [|m]; cbn; ring.
Qed.

Lemma app_map k a : forall u n, app (List.map (Cmult k) a) u n = k * app a u n.
Proof. induction a as [|c a IH]; intros u n; cbn [app List.map List.app]; [ring|]. rewrite IH. ring. Qed.

Lemma app_pad a : forall u n, app (a ++ [RtoC 0]) u n = app a u n.
Proof. induction a as [|c a IH]; intros u n; cbn [app List.map List.app]; [ring|]. now rewrite IH. Qed.

Lemma app_sum a : forall b u n, length a = length b -> app (List.map (fun p => fst p + snd p) (combine a b)) u n = app a u n + app b u n.
Proof.
  induction a as [|c a IH]; intros [|d b] u n H; try discriminate H; cbn; [ring|]. rewrite IH by (cbn in H; lia). ring.
Qed.

Definition diff (r : C) (u : nat -> C) (n : nat) : C := u n - r * del u n.

Lemma app_conv1 a r u n : app (conv1 a r) u n = app a (diff r u) n.
Proof.
  unfold conv1. rewrite app_sum by (rewrite app_length, map_length; cbn; lia). rewrite app_pad, app_map. cbn [app].
  rewrite (app_ext a (diff r u) (fun m => u m + - r * del u m)) by (intros m; unfold diff; ring). rewrite app_lin. ring.
Qed.

Fixpoint diffs (rs : list C) (u : nat -> C) : nat -> C := match rs with [] => u | r :: rs' => diff r (diffs rs' u) end.

Lemma app_fold rs : forall acc u n, app (fold_left conv1 rs acc) u n = app acc (diffs rs u) n.
Proof. induction rs as [|r rs IH]; intros acc u n; cbn [fold_left diffs]; [reflexivity|]. now rewrite IH, app_conv1. Qed.

Lemma app_poly rs u n : app (poly rs) u n = diffs rs u n.
Proof. unfold poly. rewrite app_fold. cbn. ring. Qed.

(** ** Decay *)

Definition tends0 (u : nat -> C) : Prop := forall eps, (0 < eps)%R -> exists N, forall n, (N <= n)%nat -> (Cmod (u n) < eps)%R.

Lemma diff_decays r u : (Cmod r < 1)%R -> tends0 (diff r u) -> tends0 u.
Proof.
  intros Hr H eps He. pose proof (Cmod_ge_0 r) as Hr0. destruct (H (eps * (1 - Cmod r) / 2)%R) as (N & HN). { apply Rmult_lt_0_compat; [apply Rmult_lt_0_compat; lra|lra]. }
  assert (K : forall k, (Cmod (u (N + k)%nat) <= Cmod r ^ k * Cmod (u N) + eps / 2)%R).
  { induction k as [|k IH]. { rewrite Nat.add_0_r. cbn [pow]. lra. }
    specialize (HN (N + S k)%nat ltac:(lia)). replace (N + S k)%nat with (S (N + k)) in * by lia. unfold diff in HN. cbn [del] in HN.
    replace (u (S (N + k))) with ((u (S (N + k)) - r * u (N + k)%nat) + r * u (N + k)%nat) by ring.
    eapply Rle_trans; [apply Cmod_triangle|]. rewrite Cmod_mult. cbn [pow].
    assert (Cmod r * Cmod (u (N + k)%nat) <= Cmod r * (Cmod r ^ k * Cmod (u N) + eps / 2))%R by (apply Rmult_le_compat_l; assumption). nra. }
  destruct (pow_lt_1_zero (Cmod r)) with (y := (eps / 2 / (Cmod (u N) + 1))%R) as (M & HM).
  { rewrite Rabs_pos_eq; assumption. }
  { pose proof (Cmod_ge_0 (u N)). apply Rdiv_lt_0_compat; lra. }
  exists (N + M)%nat. intros n Hn. specialize (K (n - N)%nat). replace (N + (n - N))%nat with n in K by lia. specialize (HM (n - N)%nat ltac:(lia)).
  rewrite Rabs_pos_eq in HM by (apply pow_le; assumption). pose proof (Cmod_ge_0 (u N)) as Hu.
  assert (Cmod r ^ (n - N) * Cmod (u N) < eps / 2)%R.
  { apply Rle_lt_trans with (Cmod r ^ (n - N) * (Cmod (u N) + 1))%R; [apply Rmult_le_compat_l; [now apply pow_le|lra]|].
    apply (Rmult_lt_compat_r (Cmod (u N) + 1)%R) in HM; [|lra]. replace (eps / 2 / (Cmod (u N) + 1) * (Cmod (u N) + 1))%R with (eps / 2)%R in HM by (field; lra). exact HM. }
  lra.
Qed.

Lemma diffs_decay rs : Forall (fun r => (Cmod r < 1)%R) rs -> forall u, tends0 (diffs rs u) -> tends0 u.
Proof. induction 1 as [|r rs Hr _ IH]; intros u H; cbn [diffs] in H; [exact H|]. apply IH. eapply diff_decays; eauto. Qed.

(** ** Evaluation on a wave *)

Fixpoint ev (a : list C) (z : C) : C := match a with [] => 0 | c :: a' => c + z * ev a' z end.

Fixpoint cpow (z : C) (n : nat) : C := match n with O => 1 | S m => z * cpow z m end.

Lemma app_wave (w z : C) : w * z = 1 -> forall a c (u : nat -> C) n, (length a <= S n)%nat -> (forall m, (m <= n)%nat -> (n < m + length a)%nat -> u m = c * cpow w m) ->
  app a u n = c * cpow w n * ev a z.
Proof.
  intros E. induction a as [|d a IH]; intros c u n L H; cbn [app ev]; [ring|]. cbn [length] in *. rewrite (H n) by lia.
  rewrite (IH (c * z) (del u) n); [ring|lia|]. intros [|m] Hm1 Hm2; [lia|]. cbn [del cpow]. rewrite H by lia.
  transitivity (c * (w * z) * cpow w m); [rewrite E; ring|ring].
Qed.

Lemma ev_sum a : forall b z, length a = length b -> ev (List.map (fun p => fst p + snd p) (combine a b)) z = ev a z + ev b z.
Proof. induction a as [|c a IH]; intros [|d b] z H; try discriminate H; cbn; [ring|]. rewrite IH by (cbn in H; lia). ring. Qed.
Lemma ev_pad a z : ev (a ++ [RtoC 0]) z = ev a z.
Proof. induction a as [|c a IH]; cbn; [ring|]. now rewrite IH. Qed.
Lemma ev_map k a z : ev (List.map (Cmult k) a) z = k * ev a z.
Proof. induction a as [|c a IH]; cbn; [ring|]. rewrite IH. ring. Qed.

Lemma ev_conv1 a r z : ev (conv1 a r) z = (1 - r * z) * ev a z.
Proof. unfold conv1. rewrite ev_sum by (rewrite app_length, map_length; cbn; lia). rewrite ev_pad, ev_map. cbn [ev]. ring. Qed.

Lemma ev_poly rs z : ev (poly rs) z = cprod (List.map (fun r => 1 - r * z) rs).
Proof.
  unfold poly. assert (H : forall acc, ev (fold_left conv1 rs acc) z = cprod (List.map (fun r => 1 - r * z) rs) * ev acc z).
  { unfold cprod. induction rs as [|r rs IH]; intros acc; cbn [fold_left List.map fold_right]; [ring|]. rewrite IH, ev_conv1. ring. }
  rewrite H. cbn. ring.
Qed.

(** ** Coefficients of polynomials with conjugate roots are real *)

Lemma conv1_length a r : length (conv1 a r) = S (length a).
Proof. unfold conv1. rewrite map_length, combine_length, app_length, map_length. cbn. lia. Qed.

Lemma poly_length rs : length (poly rs) = S (length rs).
Proof.
  unfold poly. assert (H : forall acc, length (fold_left conv1 rs acc) = (length rs + length acc)%nat). { induction rs as [|r rs IH]; intros acc; cbn; [reflexivity|]. rewrite IH, conv1_length. lia. }
  rewrite H. cbn. lia.
Qed.

Lemma conv1_nth a r i : nth i (conv1 a r) 0 = nth i a 0 + - r * match i with O => 0 | S j => nth j a 0 end.
Proof.
  unfold conv1.
  assert (G : forall (l m : list C) k, length l = length m -> nth k (List.map (fun p => fst p + snd p) (combine l m)) 0 = nth k l 0 + nth k m 0).
  { induction l as [|x l IH]; intros [|y m] k H; try discriminate H; [destruct k; cbn; ring|]. destruct k; cbn; [reflexivity|]. apply IH. cbn in H. lia. }
  rewrite G by (rewrite app_length, map_length; cbn; lia). f_equal.
  - destruct (Nat.lt_ge_cases i (length a)) as [L|L]; [now rewrite app_nth1|]. rewrite app_nth2 by exact L. rewrite (nth_overflow a) by exact L. destruct (i - length a)%nat as [|[|k]]; reflexivity.
  - replace (RtoC 0) with (- r * 0) at 2 by ring. change (- r * 0) with ((fun c => Cmult (Copp r) c) 0) at 1.
    rewrite (map_nth (Cmult (Copp r))). destruct i; reflexivity.
Qed.

Lemma conv1_comm a r s : conv1 (conv1 a r) s = conv1 (conv1 a s) r.
Proof.
  apply (nth_ext _ _ (RtoC 0) (RtoC 0)); [now rewrite !conv1_length|]. intros i _. rewrite !conv1_nth. destruct i as [|[|i]]; rewrite ?conv1_nth; ring.
Qed.

Lemma poly_perm rs rs' : Permutation rs rs' -> poly rs = poly rs'.
Proof.
  intros P. unfold poly. generalize [RtoC 1]. induction P as [|x l l' _ IH|x y l|l l' l'' _ IH1 _ IH2]; intros acc; cbn [fold_left].
  - reflexivity.
  - apply IH.
  - now rewrite conv1_comm.
  - now rewrite IH1.
Qed.

Lemma conj_conv1 a r : List.map Cconj (conv1 a r) = conv1 (List.map Cconj a) (Cconj r).
Proof.
  apply (nth_ext _ _ (RtoC 0) (RtoC 0)); [now rewrite map_length, !conv1_length, map_length|]. intros i _.
  assert (M : forall l k, nth k (List.map Cconj l) 0 = Cconj (nth k l 0)). { intros l k. replace (RtoC 0) with (Cconj 0) at 1 by (unfold Cconj; cbn; apply injective_projections; cbn; ring). apply map_nth. }
  rewrite M, !conv1_nth, M. destruct i; rewrite ?M; unfold Cconj, Cplus, Cmult, Copp; apply injective_projections; cbn; ring.
Qed.

Lemma poly_conj rs : List.map Cconj (poly rs) = poly (List.map Cconj rs).
Proof.
  unfold poly. assert (H : forall acc, List.map Cconj (fold_left conv1 rs acc) = fold_left conv1 (List.map Cconj rs) (List.map Cconj acc)).
  { induction rs as [|r rs IH]; intros acc; cbn [fold_left List.map]; [reflexivity|]. now rewrite IH, conj_conv1. }
  rewrite H. f_equal. cbn. f_equal. apply injective_projections; cbn; ring.
Qed.

Lemma poly_real rs : Permutation (List.map Cconj rs) rs -> List.map RtoC (List.map Re (poly rs)) = poly rs.
Proof.
  intros P. assert (E : List.map Cconj (poly rs) = poly rs) by (rewrite poly_conj; now apply poly_perm).
  rewrite map_map. induction (poly rs) as [|c l IH]; [reflexivity|]. cbn in *. injection E as E1 E2. f_equal; [|now apply IH].
  destruct c as (x, y). unfold Cconj in E1. cbn in E1. injection E1 as E3. unfold RtoC, Re. cbn. f_equal. lra.
Qed.

(** ** The filter and its difference equation *)

Section Run.
  Context (b a : list R) (K : nat) (Lb : length b = S K) (La : length a = S K) (x : nat -> R).

  Fixpoint state (n : nat) : list R := match n with O => repeat 0%R K | S m => snd (lstep b a (state m) (x m)) end.
  Definition out (n : nat) : R := fst (lstep b a (state n) (x n)).

  Lemma lrun_out N : forall k, lrun b a (state k) (List.map x (seq k N)) = List.map out (seq k N).
  Proof using Type.
    induction N as [|N IH]; intros k; [reflexivity|]. cbn [seq List.map lrun]. specialize (IH (S k)). cbn [state] in IH. unfold out at 1.
    destruct (lstep b a (state k) (x k)) as (y, d'). cbn [snd fst] in *. f_equal. exact IH.
  Qed.

  Lemma state_length n : length (state n) = K.
  Proof using Type. induction n as [|n IH]; cbn [state]; [apply repeat_length|]. unfold lstep. cbn [snd]. rewrite map_length, seq_length. exact IH. Qed.

  Notation B := (List.map RtoC b). Notation A := (List.map RtoC a).
  Notation X := (fun n => RtoC (x n)). Notation Y := (fun n => RtoC (out n)).

  Lemma skipn_step (l : list R) i u n : app (skipn i (List.map RtoC l)) u n = RtoC (nth i l 0%R) * u n + app (skipn (S i) (List.map RtoC l)) (del u) n.
  Proof using Type.
    revert i. induction l as [|c l IH]; intros [|i].
    - cbn. ring.
    - cbn. ring.
    - reflexivity.
    - cbn [List.map skipn nth]. exact (IH i).
  Qed.

  Lemma state_spec n : forall i, RtoC (nth i (state n) 0%R) = app (skipn (S i) B) (del X) n - app (skipn (S i) A) (del Y) n.
  Proof using Lb La.
    induction n as [|n IH]; intros i.
    - cbn [state]. rewrite !app_zero by (intros [|m] Hm; [reflexivity|lia]). rewrite nth_repeat. ring.
    - cbn [state]. rewrite !app_shift. destruct (Nat.lt_ge_cases i K) as [L|L].
      + unfold lstep. cbn [snd]. rewrite state_length.
        rewrite (nth_indep _ 0%R ((fun i0 => (nth (S i0) (state n) 0 + nth (S i0) b 0 * x n - nth (S i0) a 0 * (nth 0%nat b 0 * x n + nth 0%nat (state n) 0))%R) 0%nat)) by (now rewrite map_length, seq_length).
        rewrite (map_nth (fun i0 => (nth (S i0) (state n) 0 + nth (S i0) b 0 * x n - nth (S i0) a 0 * (nth 0%nat b 0 * x n + nth 0%nat (state n) 0))%R)), seq_nth by exact L. cbn [plus].
        rewrite RtoC_minus, RtoC_plus, IH. rewrite (skipn_step b (S i)), (skipn_step a (S i)). rewrite !RtoC_mult. change (out n) with (nth 0%nat b 0 * x n + nth 0%nat (state n) 0)%R. ring.
      + rewrite nth_overflow; [|change (state (S n)) with (state (S n)); pose proof (state_length (S n)) as E; cbn [state] in E; rewrite E; exact L].
        rewrite !skipn_all2 by (rewrite map_length; lia). cbn. ring.
  Qed.

  Lemma equation : nth 0%nat a 0%R = 1%R -> forall n, app A Y n = app B X n.
  Proof using Lb La.
    intros E n. pose proof (skipn_step b 0%nat X n) as HB. pose proof (skipn_step a 0%nat Y n) as HA. change (skipn 0 B) with B in HB. change (skipn 0 A) with A in HA. rewrite HA, HB, E. cbv beta.
    pose proof (state_spec n 0%nat) as HS. assert (Hy : RtoC (out n) = RtoC (nth 0%nat b 0%R) * RtoC (x n) + RtoC (nth 0%nat (state n) 0%R)). { unfold out, lstep. cbn [fst]. now rewrite RtoC_plus, RtoC_mult. }
    rewrite Hy, HS. ring.
  Qed.
End Run.
