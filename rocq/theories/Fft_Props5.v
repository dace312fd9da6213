(** * C98: [fft_filtering] keeps exactly the waves up to the cutoff *)
From Coq Require Import List Arith ZArith Bool Lia Reals Lra.
From Coquelicot Require Import Complex.
From Verif Require Import Prelude PreludeFacts NdArray Fft_Model Fft_Dft Fft_Proofs.
Import ListNotations.
Open Scope nat_scope.
Open Scope list_scope.

(** ** Specification *)

(** Samples, [dt] apart, of the wave of frequency [nu]. *)
Definition samples (n : nat) (dt nu : R) : list C :=
  List.map (fun j => cis (2 * PI * nu * (INR j * dt))%R) (seq 0 n).

(** The frequency of the wave with [m] turns over all samples. *)
Definition freq_of (n : nat) (dt : R) (m : Z) : R := (IZR m / (INR n * dt))%R.

(** Entrywise [a x + b y]. *)
Definition mix (a b : C) (x y : list C) : list C :=
  List.map (fun p => Cplus (Cmult a (fst p)) (Cmult b (snd p))) (combine x y).

(** Sum of the squared magnitudes. *)
Definition energy (x : list C) : R := fold_right (fun z s => Cmod z * Cmod z + s)%R 0%R x.

Definition real (z : C) : Prop := snd z = 0%R.

(** ** The filter as a sum *)

Definition num (n k : nat) : Z := if 2 * k <? n then Z.of_nat k else (Z.of_nat k - Z.of_nat n)%Z.

Definition passes (n : nat) (dt cutoff : R) (k : nat) : bool :=
  if Rle_dec (Rabs (freq_of n dt (num n k))) cutoff then true else false.

Definition at0 (data : list C) (j : nat) : C := nth j data (RtoC 0).

Definition spec_kept (data : list C) (dt cutoff : R) (k : nat) : C :=
  if passes (length data) dt cutoff k then dft (length data) (at0 data) k else RtoC 0.

Lemma idft_ext n f g j : (forall k, k < n -> f k = g k) -> idft n f j = idft n g j.
Proof. intros H. unfold idft. f_equal. apply csum_ext. intros k Hk. now rewrite H. Qed.

Lemma filter_sum data dt cutoff : data <> [] ->
  fft_filtering data dt cutoff = Ok (List.map (idft (length data) (spec_kept data dt cutoff)) (seq 0 (length data))).
Proof.
  intros Hd. assert (Hn : 0 < length data) by (destruct data; [contradiction|cbn; lia]).
  unfold fft_filtering. destruct (fftfreq_ok (length data) dt Hn) as (l & -> & _ & Hl). cbn [bind]. f_equal.
  apply map_ext_in. intros j _. apply idft_ext. intros k Hk. rewrite Hl by exact Hk. unfold spec_kept, passes, freq_of, num, rleb.
  set (f := (_ / _)%R). unfold Rabs. destruct (Rcase_abs f); destruct (Rle_dec f cutoff); destruct (Rle_dec (- cutoff) f); try destruct (Rle_dec (- f) cutoff);
    cbn [negb]; try reflexivity; exfalso; lra.
Qed.

Lemma filter_at data dt cutoff out : data <> [] -> fft_filtering data dt cutoff = Ok out ->
  length out = length data /\ forall j, j < length data -> at0 out j = idft (length data) (spec_kept data dt cutoff) j.
Proof.
  intros Hd E. rewrite filter_sum in E by exact Hd.
  assert (Oi : forall a b : list C, Ok a = Ok b -> a = b) by congruence. apply Oi in E. subst out.
  split; [now rewrite map_length, seq_length|]. intros j Hj. unfold at0.
  rewrite nth_indep with (d' := idft (length data) (spec_kept data dt cutoff) 0) by (rewrite map_length, seq_length; exact Hj).
  rewrite map_nth, seq_nth by exact Hj. reflexivity.
Qed.

Lemma list_at (x y : list C) : length x = length y -> (forall j, j < length x -> at0 x j = at0 y j) -> x = y.
Proof. intros L H. apply nth_ext with (d := RtoC 0) (d' := RtoC 0); assumption. Qed.

Lemma at_map (f : nat -> C) n j : j < n -> at0 (List.map f (seq 0 n)) j = f j.
Proof.
  intros H. unfold at0. rewrite nth_indep with (d' := f 0) by (rewrite map_length, seq_length; exact H).
  now rewrite map_nth, seq_nth.
Qed.

(** The transform of what comes out. *)
Lemma filter_spectrum data dt cutoff out k : data <> [] -> fft_filtering data dt cutoff = Ok out -> k < length data ->
  dft (length data) (at0 out) k = spec_kept data dt cutoff k.
Proof.
  intros Hd E Hk. destruct (filter_at _ _ _ _ Hd E) as (_ & H).
  rewrite (dft_ext _ _ (idft (length data) (spec_kept data dt cutoff))) by exact H. now apply idft_inverse.
Qed.

Lemma spectrum_inj n (x y : list C) : length x = n -> length y = n -> (forall k, k < n -> dft n (at0 x) k = dft n (at0 y) k) -> x = y.
Proof.
  intros Lx Ly H. apply list_at; [congruence|]. rewrite Lx. intros j Hj.
  rewrite <- (dft_inverse n (at0 x) j Hj), <- (dft_inverse n (at0 y) j Hj). now apply idft_ext.
Qed.

(** ** Theorems *)

(** The result has as many values as the data; no values are refused. *)
Theorem C98_defined data dt cutoff :
  (data <> [] -> exists out, fft_filtering data dt cutoff = Ok out /\ length out = length data) /\
  (data = [] -> fft_filtering data dt cutoff = Err ZeroDivisionError).
Proof.
  split; [|intros ->; reflexivity]. intros Hd. eexists. split; [now apply filter_sum|]. now rewrite map_length, seq_length.
Qed.

Lemma freq_0 n k : 0 < n -> k < n -> exists q : Z, num n k = (Z.of_nat k - q * Z.of_nat n)%Z.
Proof. intros. unfold num. destruct (_ <? _); [exists 0%Z|exists 1%Z]; lia. Qed.

Lemma num_of n (m : Z) : (- Z.of_nat n <= 2 * m < Z.of_nat n)%Z -> exists k, k < n /\ num n k = m.
Proof.
  intros H. destruct (Z_lt_dec m 0) as [N|N].
  - exists (Z.to_nat (m + Z.of_nat n)). split; [lia|]. unfold num. destruct (Nat.ltb_spec (2 * Z.to_nat (m + Z.of_nat n)) n); lia.
  - exists (Z.to_nat m). split; [lia|]. unfold num. destruct (Nat.ltb_spec (2 * Z.to_nat m) n); lia.
Qed.

Lemma conj_1 : Cconj (RtoC 1) = RtoC 1.
Proof. unfold Cconj, RtoC. cbn. f_equal. ring. Qed.

Lemma sample_at n dt k j : 0 < n -> dt <> 0%R -> k < n -> j < n ->
  at0 (samples n dt (freq_of n dt (num n k))) j = cis (turn n k j).
Proof.
  intros Hn Hd Hk Hj. unfold samples. rewrite at_map by exact Hj. assert (N : INR n <> 0%R) by (apply not_0_INR; lia).
  unfold num, freq_of. destruct (_ <? _).
  - rewrite <- INR_IZR_INZ. f_equal. unfold turn. field. now split.
  - rewrite minus_IZR, <- !INR_IZR_INZ.
    replace (2 * PI * ((INR k - INR n) / (INR n * dt)) * (INR j * dt))%R with (turn n k j + - (2 * PI * INR j))%R by (unfold turn; field; now split).
    rewrite cis_plus, cis_neg, cis_turns, conj_1. ring.
Qed.

Lemma dft_sample n k l : k < n -> l < n -> dft n (fun j => cis (turn n k j)) l = if l =? k then RtoC (INR n) else RtoC 0.
Proof.
  intros Hk Hl. rewrite <- (idft_inverse n (fun i => if i =? k then RtoC (INR n) else RtoC 0) l Hl). apply dft_ext. intros j Hj.
  unfold idft. rewrite (csum_pick n k); [|exact Hk|intros i _ N; destruct (Nat.eqb_spec i k); [contradiction|ring]].
  rewrite Nat.eqb_refl, Cmult_assoc, <- RtoC_mult, Rinv_l by (apply not_0_INR; lia). ring.
Qed.

(** Each wave that fits the samples passes unchanged if its frequency, without
    the sign, is at most the cutoff; otherwise nothing of it is left. *)
Theorem C98_waves n dt cutoff m : 0 < n -> dt <> 0%R -> (- Z.of_nat n <= 2 * m < Z.of_nat n)%Z ->
  ((Rabs (freq_of n dt m) <= cutoff)%R -> fft_filtering (samples n dt (freq_of n dt m)) dt cutoff = Ok (samples n dt (freq_of n dt m))) /\
  ((cutoff < Rabs (freq_of n dt m))%R -> fft_filtering (samples n dt (freq_of n dt m)) dt cutoff = Ok (repeat (RtoC 0) n)).
Proof.
  intros Hn Hd Hm. destruct (num_of n m Hm) as (k & Hk & <-). set (x := samples n dt _).
  assert (Lx : length x = n) by (unfold x, samples; now rewrite map_length, seq_length).
  assert (Nx : x <> []) by (intros E; rewrite E in Lx; cbn in Lx; lia).
  destruct (proj1 (C98_defined x dt cutoff) Nx) as (out & E & Lo). rewrite Lx in Lo.
  assert (Dx : forall l, l < n -> dft n (at0 x) l = if l =? k then RtoC (INR n) else RtoC 0).
  { intros l Hl. rewrite <- dft_sample by assumption. apply dft_ext. intros j Hj. now apply sample_at. }
  pose proof (fun l => filter_spectrum x dt cutoff out l Nx E) as Sp. rewrite Lx in Sp. unfold spec_kept in Sp. rewrite Lx in Sp.
  split; intros Hc; rewrite E; f_equal; apply (spectrum_inj n); try assumption.
  - intros l Hl. rewrite Sp by exact Hl. destruct (Nat.eqb_spec l k) as [->|N].
    + unfold passes. destruct (Rle_dec _ _); [reflexivity|contradiction].
    + destruct (passes _ _ _ _); [reflexivity|]. rewrite Dx by exact Hl. destruct (Nat.eqb_spec l k); [contradiction|reflexivity].
  - apply repeat_length.
  - intros l Hl. rewrite Sp by exact Hl. transitivity (RtoC 0).
    + destruct (Nat.eqb_spec l k) as [->|N].
      * unfold passes. destruct (Rle_dec _ _); [lra|reflexivity].
      * destruct (passes _ _ _ _); [|reflexivity]. rewrite Dx by exact Hl. destruct (Nat.eqb_spec l k); [contradiction|reflexivity].
    + unfold dft. rewrite (csum_ext n _ (fun _ => RtoC 0)); [now rewrite csum_0|].
      intros j Hj. unfold at0. rewrite nth_repeat. ring.
Qed.

(** Linear in the data. *)
Theorem C98_linear a b x y dt cutoff u v : length x = length y -> x <> [] ->
  fft_filtering x dt cutoff = Ok u -> fft_filtering y dt cutoff = Ok v ->
  fft_filtering (mix a b x y) dt cutoff = Ok (mix a b u v).
Proof.
  intros L Nx Eu Ev.
  assert (Lm : forall p q : list C, length p = length q -> length (mix a b p q) = length p)
    by (intros p q H; unfold mix; rewrite map_length, combine_length, H; lia).
  assert (Am : forall p q : list C, length p = length q -> forall j, j < length p -> at0 (mix a b p q) j = Cplus (Cmult a (at0 p j)) (Cmult b (at0 q j))).
  { intros p q H j Hj. unfold at0, mix.
    rewrite nth_indep with (d' := Cplus (Cmult a (fst (RtoC 0, RtoC 0))) (Cmult b (snd (RtoC 0, RtoC 0)))) by (rewrite map_length, combine_length; lia).
    rewrite map_nth with (f := fun p : C * C => Cplus (Cmult a (fst p)) (Cmult b (snd p))), combine_nth by exact H. reflexivity. }
  assert (Ny : y <> []) by (intros ->; destruct x; [contradiction|discriminate]).
  destruct (filter_at _ _ _ _ Nx Eu) as (Lu & _). destruct (filter_at _ _ _ _ Ny Ev) as (Lv & _).
  assert (Nm : mix a b x y <> []).
  { intros E. specialize (Lm x y L). rewrite E in Lm. destruct x; [contradiction|discriminate]. }
  destruct (proj1 (C98_defined (mix a b x y) dt cutoff) Nm) as (w & Ew & Lw). rewrite Ew. f_equal.
  apply (spectrum_inj (length x)); [rewrite Lw; auto|rewrite Lm; congruence|]. intros k Hk.
  pose proof (filter_spectrum _ _ _ _ k Nm Ew) as S1. rewrite (Lm x y L) in S1. rewrite S1 by exact Hk.
  rewrite (dft_ext (length x) (at0 (mix a b u v)) (fun j => Cplus (Cmult a (at0 u j)) (Cmult b (at0 v j)))) by (intros j Hj; apply Am; congruence).
  rewrite dft_linear. rewrite (filter_spectrum _ _ _ _ k Nx Eu Hk).
  pose proof (filter_spectrum _ _ _ _ k Ny Ev) as S2. rewrite <- L in S2. rewrite S2 by exact Hk.
  unfold spec_kept. rewrite <- L, (Lm x y L). destruct (passes _ _ _ _); [|ring].
  rewrite <- dft_linear. apply dft_ext. intros j Hj. now apply Am.
Qed.

(** Filtering twice is filtering once. *)
Theorem C98_twice data dt cutoff out : fft_filtering data dt cutoff = Ok out -> fft_filtering out dt cutoff = Ok out.
Proof.
  intros E. destruct data as [|z data']; [discriminate|]. set (data := z :: data') in *.
  assert (Nd : data <> []) by discriminate. destruct (filter_at _ _ _ _ Nd E) as (Lo & _).
  assert (No : out <> []) by (intros ->; discriminate).
  destruct (proj1 (C98_defined out dt cutoff) No) as (w & Ew & Lw). rewrite Ew. f_equal.
  apply (spectrum_inj (length data)); [congruence|exact Lo|]. intros k Hk.
  pose proof (filter_spectrum _ _ _ _ k No Ew) as S1. rewrite Lo in S1. rewrite S1 by exact Hk.
  unfold spec_kept. rewrite Lo. rewrite (filter_spectrum _ _ _ _ k Nd E Hk). unfold spec_kept. now destruct (passes _ _ _ _).
Qed.

Lemma freq_bound n dt k : 0 < n -> (0 < dt)%R -> k < n -> (Rabs (freq_of n dt (num n k)) <= / (2 * dt))%R.
Proof.
  intros Hn Hd Hk. assert (N : (0 < INR n)%R) by (apply lt_0_INR; lia).
  assert (B : (- Z.of_nat n <= 2 * num n k <= Z.of_nat n)%Z) by (unfold num; destruct (Nat.ltb_spec (2 * k) n); lia).
  destruct B as (B1 & B2). apply IZR_le in B1, B2. rewrite opp_IZR, mult_IZR, <- INR_IZR_INZ in B1. rewrite mult_IZR, <- INR_IZR_INZ in B2.
  unfold freq_of. replace (IZR (num n k) / (INR n * dt))%R with ((2 * IZR (num n k) / INR n) * / (2 * dt))%R by (field; lra).
  rewrite Rabs_mult, (Rabs_right (/ (2 * dt))) by (apply Rle_ge, Rlt_le, Rinv_0_lt_compat; lra).
  rewrite <- (Rmult_1_l (/ (2 * dt))) at 2. apply Rmult_le_compat_r; [apply Rlt_le, Rinv_0_lt_compat; lra|].
  apply Rabs_le. split; apply Rmult_le_reg_r with (INR n); try exact N; unfold Rdiv; rewrite Rmult_assoc, Rinv_l by lra; lra.
Qed.

(** A cutoff from half the sampling rate on changes nothing; a negative one leaves nothing. *)
Theorem C98_wide data dt cutoff : data <> [] -> (0 < dt)%R -> (/ (2 * dt) <= cutoff)%R -> fft_filtering data dt cutoff = Ok data.
Proof.
  intros Nd Hd Hc. destruct (proj1 (C98_defined data dt cutoff) Nd) as (w & Ew & Lw). rewrite Ew. f_equal.
  apply (spectrum_inj (length data)); [exact Lw|reflexivity|]. intros k Hk. rewrite (filter_spectrum _ _ _ _ k Nd Ew Hk).
  unfold spec_kept, passes. destruct (Rle_dec _ _) as [|N]; [reflexivity|]. exfalso. apply N.
  apply Rle_trans with (/ (2 * dt))%R; [|exact Hc]. apply freq_bound; try assumption. lia.
Qed.

Theorem C98_negative data dt cutoff : data <> [] -> (cutoff < 0)%R ->
  fft_filtering data dt cutoff = Ok (repeat (RtoC 0) (length data)).
Proof.
  intros Nd Hc. destruct (proj1 (C98_defined data dt cutoff) Nd) as (w & Ew & Lw). rewrite Ew. f_equal.
  apply (spectrum_inj (length data)); [exact Lw|apply repeat_length|]. intros k Hk. rewrite (filter_spectrum _ _ _ _ k Nd Ew Hk).
  transitivity (RtoC 0).
  - unfold spec_kept, passes. destruct (Rle_dec _ _) as [Y|]; [|reflexivity]. exfalso. pose proof (Rabs_pos (freq_of (length data) dt (num (length data) k))). lra.
  - unfold dft. rewrite (csum_ext _ _ (fun _ => RtoC 0)); [now rewrite csum_0|]. intros j Hj. unfold at0. rewrite nth_repeat. ring.
Qed.

(** Real data stay real. *)
Lemma num_mirror n dt k : 0 < k -> k < n -> Rabs (freq_of n dt (num n (n - k))) = Rabs (freq_of n dt (num n k)).
Proof.
  intros H0 Hk. unfold freq_of, Rdiv. rewrite !Rabs_mult. f_equal. rewrite <- !abs_IZR. f_equal.
  unfold num. destruct (Nat.ltb_spec (2 * (n - k)) n); destruct (Nat.ltb_spec (2 * k) n); lia.
Qed.

Lemma csum_S n f : csum (S n) f = Cplus (f 0) (csum n (fun j => f (S j))).
Proof. induction n as [|n IH]; [cbn; ring|]. change (csum (S (S n)) f) with (Cplus (csum (S n) f) (f (S n))). rewrite IH. cbn [csum]. ring. Qed.

Lemma csum_rev n f : csum n f = csum n (fun j => f (n - 1 - j)).
Proof.
  induction n as [|n IH]; [reflexivity|]. rewrite csum_S with (f := fun j => f (S n - 1 - j)). cbn [csum].
  rewrite IH. replace (S n - 1 - 0) with n by lia. rewrite (Cplus_comm (f n)). f_equal. apply csum_ext. intros j Hj. f_equal. lia.
Qed.

Lemma idft_symmetric n f j : 0 < n -> real (f 0) -> (forall k, 0 < k -> k < n -> f (n - k) = Cconj (f k)) -> real (idft n f j).
Proof.
  intros Hn R0 H. assert (Q : forall z : C, Cconj z = z -> real z) by (intros (a, b) E; unfold Cconj in E; injection E as E; unfold real; cbn in *; lra).
  apply Q. unfold idft. rewrite Cconj_mult. f_equal; [unfold Cconj, RtoC; cbn; f_equal; ring|].
  rewrite csum_conj. destruct n as [|n]; [lia|]. rewrite !csum_S. f_equal.
  - rewrite Cconj_mult, <- cis_neg. rewrite turn_sym, turn_0, Ropp_0. f_equal. destruct (f 0) as (a, b). unfold real in R0. cbn in R0. unfold Cconj. cbn. f_equal. lra.
  - rewrite csum_rev. apply csum_ext. intros i Hi. rewrite Cconj_mult, <- cis_neg.
    replace (S (n - 1 - i)) with (S n - S i) by lia. f_equal.
    + rewrite H by lia. apply Cconj_conj.
    + replace (- turn (S n) (S n - S i) j)%R with (turn (S n) (S i) j + - turn (S n) (S n) j)%R.
      * rewrite cis_plus, cis_neg, (turn_sym _ (S n) j). replace (S n) with (1 * S n) at 3 by lia. rewrite turn_whole by lia. rewrite conj_1. ring.
      * replace (S n) with ((S n - S i) + S i) at 3 by lia. rewrite turn_l. ring.
Qed.

Theorem C98_real data dt cutoff out : Forall real data -> fft_filtering data dt cutoff = Ok out -> Forall real out.
Proof.
  intros Hr E. destruct data as [|z data']; [discriminate|]. set (data := z :: data') in *.
  assert (Nd : data <> []) by discriminate. destruct (filter_at _ _ _ _ Nd E) as (Lo & Ho).
  assert (Hn : 0 < length data) by (cbn; lia).
  assert (Hrj : forall j, j < length data -> snd (at0 data j) = 0%R).
  { intros j Hj. rewrite Forall_forall in Hr. apply Hr. now apply nth_In. }
  apply Forall_nth. intros j d Hj. rewrite nth_indep with (d' := RtoC 0) by exact Hj. rewrite Lo in Hj.
  change (real (at0 out j)). rewrite Ho by exact Hj. apply idft_symmetric; [exact Hn| |].
  - unfold spec_kept. destruct (passes _ _ _ _); [|reflexivity]. unfold dft.
    rewrite (csum_ext _ _ (at0 data)).
    2:{ intros i Hi. rewrite turn_sym, turn_0, Ropp_0, cis_0. ring. }
    clear -Hrj. unfold real. induction (length data) as [|n IH]; [reflexivity|]. cbn [csum]. unfold Cplus. cbn [snd].
    rewrite IH by (intros; apply Hrj; lia). rewrite Hrj by lia. ring.
  - intros k H0 Hk. unfold spec_kept, passes. rewrite num_mirror by assumption.
    destruct (Rle_dec _ _); [|unfold Cconj, RtoC; cbn; f_equal; ring]. now apply dft_real.
Qed.

(** The filter adds no energy. *)
Lemma energy_sum (x : list C) : RtoC (energy x) = csum (length x) (fun j => RtoC (Cmod (at0 x j) * Cmod (at0 x j))).
Proof.
  induction x as [|z x IH]; [reflexivity|]. cbn [length]. rewrite csum_S. cbn [energy fold_right at0 nth]. rewrite RtoC_plus. f_equal. exact IH.
Qed.

Lemma csum_real n (f : nat -> R) : csum n (fun j => RtoC (f j)) = RtoC (fold_right Rplus 0%R (List.map f (seq 0 n))).
Proof.
  induction n as [|n IH]; [reflexivity|]. rewrite seq_S, map_app, fold_right_app. cbn [csum]. rewrite IH, <- RtoC_plus. f_equal. cbn.
  generalize (List.map f (seq 0 n)). intros l. induction l as [|a l IHl]; cbn; [ring|]. rewrite <- IHl. ring.
Qed.

Lemma sum_le n (f g : nat -> R) : (forall j, j < n -> (f j <= g j)%R) ->
  (fold_right Rplus 0 (List.map f (seq 0 n)) <= fold_right Rplus 0 (List.map g (seq 0 n)))%R.
Proof.
  intros H. assert (K : forall j, In j (seq 0 n) -> (f j <= g j)%R) by (intros j Hj; apply in_seq in Hj; apply H; lia).
  clear H. induction (seq 0 n) as [|a l IH]; cbn; [lra|]. apply Rplus_le_compat; [apply K; now left|]. apply IH. intros. apply K. now right.
Qed.

Theorem C98_energy data dt cutoff out : fft_filtering data dt cutoff = Ok out -> (energy out <= energy data)%R.
Proof.
  intros E. destruct data as [|z data']; [discriminate|]. set (data := z :: data') in *.
  assert (Nd : data <> []) by discriminate. destruct (filter_at _ _ _ _ Nd E) as (Lo & _).
  assert (N : (0 < INR (length data))%R) by (apply lt_0_INR; cbn; lia).
  pose proof (dft_parseval (length data) (at0 data)) as P1. pose proof (dft_parseval (length data) (at0 out)) as P2. unfold power in P1, P2.
  rewrite <- (energy_sum data) in P1. pose proof (energy_sum out) as Eo. rewrite Lo in Eo. rewrite <- Eo in P2.
  rewrite <- RtoC_mult in P1, P2.
  apply Rmult_le_reg_l with (INR (length data)); [exact N|].
  rewrite csum_real in P1, P2. apply RtoC_inj in P1, P2. rewrite <- P1, <- P2. apply sum_le. intros k Hk.
  rewrite (filter_spectrum _ _ _ _ k Nd E Hk). unfold spec_kept. destruct (passes _ _ _ _); [lra|].
  rewrite Cmod_0. rewrite Rmult_0_l. apply Rmult_le_pos; apply Cmod_ge_0.
Qed.

(** Six samples: the wave with one turn passes a cutoff of 1/4, that with two turns does not. *)
Example C98_example :
  fft_filtering (samples 6 1 (freq_of 6 1 (-1))) 1 (/ 4) = Ok (samples 6 1 (freq_of 6 1 (-1))) /\
  fft_filtering (samples 6 1 (freq_of 6 1 2)) 1 (/ 4) = Ok (repeat (RtoC 0) 6) /\
  fft_filtering (samples 6 1 (freq_of 6 1 (-3))) 1 (/ 2) = Ok (samples 6 1 (freq_of 6 1 (-3))).
Proof.
  repeat split.
  - apply C98_waves; [lia|lra|lia|]. unfold freq_of. cbn. apply Rabs_le. lra.
  - apply C98_waves; [lia|lra|lia|]. unfold freq_of. cbn. rewrite Rabs_right; lra.
  - apply C98_waves; [lia|lra|lia|]. unfold freq_of. cbn. apply Rabs_le. lra.
Qed.

Print Assumptions C98_waves.
Print Assumptions C98_real.
Print Assumptions C98_energy.
