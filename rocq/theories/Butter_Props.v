(** * C115: the Butterworth filter

    The filter of tools/filters.py is the sixth-order Butterworth low-pass filter:
    what it is as a difference equation, what it does to a sampled sinusoid, to a
    signal that settles and to a bounded signal, and when it is refused. *)
From Coq Require Import List Arith ZArith Bool Lia Reals Lra Permutation.
From Coquelicot Require Import Complex.
From Verif Require Import Prelude PreludeFacts Fft_Model Butter_Model Butter_Proofs Butter_Design.
Import ListNotations.
Open Scope list_scope.
Open Scope nat_scope.
Open Scope R_scope.
Open Scope C_scope.

(** ** Specification *)

(** The samples [x 0, x 1, ...] are filtered to [y 0, y 1, ...], however many are given. *)
Definition filtered (dt fc : R) (x y : nat -> R) : Prop :=
  forall N, butter_filtering (List.map x (seq 0 N)) dt (Some fc) = Ok (List.map y (seq 0 N)).

(** [c_0 s_n + c_1 s_(n-1) + ... + c_6 s_(n-6)], nothing before the first sample. *)
Definition before (s : nat -> R) (n j : nat) : R := if (j <=? n)%nat then s (n - j)%nat else 0%R.
Definition weighted (c : list R) (s : nat -> R) (n : nat) : R :=
  fold_right Rplus 0%R (List.map (fun j => (nth j c 0 * before s n j)%R) (seq 0 7)).

(** [c_0 + c_1 z + ... + c_6 z^6] *)
Definition at_z (c : list R) (z : C) : C := fold_right (fun cj acc => RtoC cj + z * acc) 0 c.

Fixpoint power (z : C) (n : nat) : C := match n with O => 1 | S m => z * power z m end.

(** The product over the six poles [t exp(i(pi/2 + (2k+1)pi/12))] of the analogue
    filter with cut-off [t], of [(1-z) - p(1+z)]. *)
Definition analogue (t : R) (z : C) : C :=
  fold_right Cmult 1 (List.map (fun k => (1 - z) - RtoC t * cis (PI / 2 + (2 * INR k + 1) * PI / 12)%R * (1 + z)) (seq 0 6)).

(** Tends to zero. *)
Definition vanishes (s : nat -> R) : Prop :=
  forall eps, (0 < eps)%R -> exists N, forall n, (N <= n)%nat -> (Rabs (s n) < eps)%R.

(** The gain at frequency [f] of the filter with cut-off [fc]. *)
Definition gain (dt fc f : R) : R := (/ sqrt (1 + (tan (PI * f * dt) / tan (PI * fc * dt)) ^ 12))%R.

(** ** From the model to the response *)

Definition warped (dt fc : R) : R := (4 * tan (PI * fc * dt))%R.

Lemma tan_pos t : (0 < t < PI / 2)%R -> (0 < tan t)%R.
Proof. intros H. apply tan_gt_0; lra. Qed.

Lemma warped_pos dt fc : (0 < 2 * fc * dt < 1)%R -> (0 < warped dt fc)%R.
Proof. intros H. pose proof PI_RGT_0. unfold warped. assert (0 < tan (PI * fc * dt))%R by (apply tan_pos; split; nra). lra. Qed.

Lemma wn_eq dt fc : dt <> 0%R -> (fc / (0.5 * (1 / dt)) = 2 * fc * dt)%R.
Proof. intros H. replace 0.5%R with (/ 2)%R by lra. field. exact H. Qed.

Lemma butter_ok wn : (0 < wn < 1)%R -> butter 6 wn = Ok (bco (4 * tan (PI * wn / 2))%R, aco (4 * tan (PI * wn / 2))%R).
Proof. intros H. unfold butter. destruct (Rle_dec wn 0); [lra|]. destruct (Rle_dec 1 wn); [lra|]. reflexivity. Qed.

Lemma filtering_ok dt fc data : (0 < 2 * fc * dt < 1)%R ->
  butter_filtering data dt (Some fc) = Ok (lrun (bco (warped dt fc)) (aco (warped dt fc)) (repeat 0%R 6) data).
Proof.
  intros H. assert (D : dt <> 0%R) by nra. unfold butter_filtering. destruct (Req_EM_T dt 0); [contradiction|].
  unfold butter_lowpass_filter, butter_lowpass. rewrite wn_eq by exact D. rewrite butter_ok by exact H. cbn [bind].
  replace (4 * tan (PI * (2 * fc * dt) / 2))%R with (warped dt fc) by (unfold warped; do 2 f_equal; field).
  unfold lfilter. rewrite aco_head, bco_length. cbn [minus]. f_equal.
  assert (E : forall l : list R, List.map (fun c => (c / 1)%R) l = l). { intros l. rewrite <- (map_id l) at 2. apply map_ext. intros c. field. }
  now rewrite !E.
Qed.

Lemma filtered_resp dt fc x : (0 < 2 * fc * dt < 1)%R -> filtered dt fc x (resp (warped dt fc) x).
Proof. intros H N. rewrite filtering_ok by exact H. f_equal. exact (lrun_out _ _ 6 x N 0). Qed.

Lemma filtered_unique dt fc x y : (0 < 2 * fc * dt < 1)%R -> filtered dt fc x y -> forall n, y n = resp (warped dt fc) x n.
Proof.
  intros H F n. specialize (F (S n)). rewrite (filtered_resp dt fc x H (S n)) in F. apply (f_equal (fun r => match r with Ok l => nth n l 0%R | Err _ => 0%R end)) in F. cbv beta iota in F.
  assert (E : forall s : nat -> R, nth n (List.map s (seq 0 (S n))) 0%R = s n).
  { intros s. rewrite (nth_indep _ 0%R (s 0%nat)) by (rewrite map_length, seq_length; lia). rewrite map_nth, seq_nth by lia. reflexivity. }
  now rewrite !E in F.
Qed.

Lemma at_z_ev c z : at_z c z = ev (List.map RtoC c) z.
Proof. induction c as [|a c IH]; [reflexivity|]. cbn [at_z fold_right List.map ev]. now rewrite <- IH. Qed.

Lemma power_cpow z n : power z n = cpow z n.
Proof. induction n as [|n IH]; [reflexivity|]. cbn. now rewrite IH. Qed.

Lemma weighted_app c s n : length c = 7%nat -> RtoC (weighted c s n) = app (List.map RtoC c) (fun m => RtoC (s m)) n.
Proof.
  intros L. do 7 (destruct c as [|? c]; [discriminate|]). destruct c; [|discriminate]. clear L. unfold weighted. cbn [seq List.map fold_right nth app].
  rewrite !RtoC_plus, !RtoC_mult. unfold before.
  destruct n as [|[|[|[|[|[|n]]]]]]; cbn [del Nat.leb Nat.sub]; rewrite ?Nat.sub_0_r; ring.
Qed.

Lemma analogue_lin t z : RtoC (4 ^ 6)%R * analogue t z = cprod (List.map (lin z) (poles (4 * t)%R)).
Proof.
  rewrite poles_list. unfold analogue. cbn [seq List.map]. unfold cprod. cbn [fold_right].
  assert (E : forall k m : R, (PI / 2 + (2 * k + 1) * PI / 12 = PI * m / 12 + PI)%R -> (1 - z) - RtoC t * cis (PI / 2 + (2 * k + 1) * PI / 12)%R * (1 + z) = RtoC (/ 4)%R * lin z (- (RtoC (4 * t)%R * cis (ang m)))).
  { intros k m ->. unfold ang, lin. replace (cis (PI * m / 12 + PI)%R) with (- cis (PI * m / 12)%R) by (unfold cis, Copp; cbn; now rewrite neg_cos, neg_sin).
    rewrite RtoC_mult, RtoC_inv by lra. field. intros G. apply (f_equal Re) in G. cbn in G. lra. }
  rewrite (E (INR 0) (-5)%R), (E (INR 1) (-3)%R), (E (INR 2) (-1)%R), (E (INR 3) 1%R), (E (INR 4) 3%R), (E (INR 5) 5%R) by (cbn [INR]; field).
  replace (RtoC (4 ^ 6)%R) with (4 * 4 * 4 * 4 * 4 * 4) by (rewrite <- !RtoC_mult; f_equal; ring). rewrite RtoC_inv by lra. field. intros G. apply (f_equal Re) in G. cbn in G. lra.
Qed.

Lemma vanishes_tends s : tends0 (fun n => RtoC (s n)) -> vanishes s.
Proof. intros H eps P. destruct (H eps P) as (N & G). exists N. intros n L. rewrite <- Cmod_R. now apply G. Qed.
Lemma tends_vanishes s : vanishes s -> tends0 (fun n => RtoC (s n)).
Proof. intros H eps P. destruct (H eps P) as (N & G). exists N. intros n L. rewrite Cmod_R. now apply G. Qed.
Lemma vanishes_ext s t : (forall n, s n = t n) -> vanishes s -> vanishes t.
Proof. intros E H eps P. destruct (H eps P) as (N & G). exists N. intros n L. rewrite <- E. now apply G. Qed.

Lemma app_unique W (HW : (0 < W)%R) (u v : nat -> R) :
  (forall n, app (List.map RtoC (aco W)) (fun m => RtoC (u m)) n = app (List.map RtoC (aco W)) (fun m => RtoC (v m)) n) -> forall n, u n = v n.
Proof.
  intros H n. destruct (diffs_bounded (pz W) (pz_small W HW)) as (K & PK & D).
  specialize (D (fun m => RtoC (u m) + - RtoC 1 * RtoC (v m)) 0%R (Rle_refl 0)).
  assert (Z : (Cmod (RtoC (u n) + - RtoC 1 * RtoC (v n))%C <= K * 0)%R).
  { apply (D). intros m. rewrite <- app_poly, <- aco_C, (app_lin _ (fun k => RtoC (u k)) (fun k => RtoC (v k))), H. match goal with |- (Cmod ?q <= 0)%R => replace q with (RtoC 0) by ring end. rewrite Cmod_0. lra. }
  rewrite Rmult_0_r in Z. replace (RtoC (u n) + - RtoC 1 * RtoC (v n)) with (RtoC (u n - v n)%R) in Z by (rewrite RtoC_minus; ring). rewrite Cmod_R in Z.
  pose proof (Rabs_pos (u n - v n)). assert (E : Rabs (u n - v n) = 0%R) by lra. apply Rabs_eq_0 in E || (destruct (Req_dec (u n - v n) 0) as [G|G]; [|apply Rabs_no_R0 in G; contradiction]). lra.
Qed.

Lemma lrun_length b a data : forall d, length (lrun b a d data) = length data.
Proof. induction data as [|x data IH]; intros d; [reflexivity|]. cbn [lrun]. destruct (lstep b a d x) as (y, d'). cbn [length]. now rewrite IH. Qed.

Lemma lrun_firstn b a data : forall d k, lrun b a d (firstn k data) = firstn k (lrun b a d data).
Proof.
  induction data as [|x data IH]; intros d [|k]; try reflexivity. cbn [firstn lrun]. destruct (lstep b a d x) as (y, d'). cbn [firstn]. now rewrite IH.
Qed.

(** ** C115 *)

(** When the filter is refused; otherwise there is one sample for each sample given,
    and the samples so far decide the outputs so far. *)
Theorem C115_errors :
  (forall data cutoff, butter_filtering data 0 cutoff = Err ZeroDivisionError) /\
  (forall data dt, dt <> 0%R -> butter_filtering data dt None = Err TypeError) /\
  (forall data dt fc, dt <> 0%R -> ~ (0 < 2 * fc * dt < 1)%R -> butter_filtering data dt (Some fc) = Err ValueError) /\
  (forall data dt fc, (0 < 2 * fc * dt < 1)%R ->
     exists out, butter_filtering data dt (Some fc) = Ok out /\ length out = length data /\
       forall k, butter_filtering (firstn k data) dt (Some fc) = Ok (firstn k out)).
Proof.
  repeat split.
  - intros data cutoff. unfold butter_filtering. now destruct (Req_EM_T 0 0).
  - intros data dt H. unfold butter_filtering. now destruct (Req_EM_T dt 0).
  - intros data dt fc H N. unfold butter_filtering. destruct (Req_EM_T dt 0); [contradiction|]. unfold butter_lowpass_filter, butter_lowpass. rewrite wn_eq by exact H. unfold butter.
    destruct (Rle_dec (2 * fc * dt) 0); [reflexivity|]. destruct (Rle_dec 1 (2 * fc * dt)); [reflexivity|]. exfalso. apply N. lra.
  - intros data dt fc H. rewrite filtering_ok by exact H. eexists. split; [reflexivity|].
    split; [apply lrun_length|]. intros k. rewrite filtering_ok by exact H. now rewrite lrun_firstn.
Qed.

(** The filter is one difference equation for all signals.  Its coefficients are those
    of the bilinear transform of the sixth-order Butterworth filter whose cut-off
    is the warped one, and it is stable. *)
Theorem C115_difference dt fc : (0 < 2 * fc * dt < 1)%R ->
  exists b a, length b = 7%nat /\ length a = 7%nat /\ nth 0 a 0%R = 1%R /\
    (forall z, at_z b z * analogue (tan (PI * fc * dt)) z = RtoC (tan (PI * fc * dt) ^ 6)%R * power (1 + z) 6 * at_z a z) /\
    (forall z, (Cmod z <= 1)%R -> at_z a z <> 0) /\
    forall x, exists y, filtered dt fc x y /\ forall n, weighted a y n = weighted b x n.
Proof.
  intros H. pose proof (warped_pos dt fc H) as P. exists (bco (warped dt fc)), (aco (warped dt fc)).
  split; [apply bco_length|]. split; [apply aco_length|]. split; [apply aco_head|]. split; [|split].
  - intros z. rewrite !at_z_ev, power_cpow. pose proof (transfer (warped dt fc) P z) as T. unfold warped in T at 2. rewrite <- analogue_lin in T.
    replace (RtoC (warped dt fc ^ 6)%R) with (RtoC (4 ^ 6)%R * RtoC (tan (PI * fc * dt) ^ 6)%R) in T by (rewrite <- RtoC_mult; f_equal; unfold warped; ring).
    assert (N : RtoC (4 ^ 6)%R <> 0) by (intros G; apply (f_equal Re) in G; cbn in G; lra).
    set (eb := ev _ z) in *. set (an := analogue _ z) in *. set (k := RtoC (4 ^ 6)%R) in *.
    replace (eb * an) with (eb * (k * an) / k) by (field; exact N). rewrite T. field. exact N.
  - intros z Hz. rewrite at_z_ev. now apply stable.
  - intros x. exists (resp (warped dt fc) x). split; [now apply filtered_resp|]. intros n. apply RtoC_inj.
    rewrite !weighted_app by (apply aco_length || apply bco_length). apply resp_eq.
Qed.

(** A sampled sinusoid comes out, in the long run, as a sinusoid of the same frequency
    with the Butterworth gain; the phase shift does not depend on the phase. *)
Theorem C115_sinusoid dt fc f : (0 < 2 * fc * dt < 1)%R -> cos (PI * f * dt) <> 0%R ->
  exists shift, forall phase y, filtered dt fc (fun n => cos (2 * PI * f * (INR n * dt) + phase)) y ->
    vanishes (fun n => (y n - gain dt fc f * cos (2 * PI * f * (INR n * dt) + phase + shift))%R).
Proof.
  intros H Hc. pose proof (warped_pos dt fc H) as P. set (w := (2 * PI * f * dt)%R). assert (W2 : (w / 2 = PI * f * dt)%R) by (unfold w; field).
  destruct (polar (gain_of (warped dt fc) (cis (- w)))) as (shift & Hs). exists shift. intros phase y F. apply vanishes_tends.
  assert (Hc' : cos (w / 2) <> 0%R) by (rewrite W2; exact Hc).
  set (x := fun n => cos (2 * PI * f * (INR n * dt) + phase)) in *. pose proof (resp_wave (warped dt fc) P (cis phase) w x Hc') as R.
  eapply tends0_ext; [|apply R].
  - intros n. cbv beta. f_equal. rewrite (filtered_unique dt fc x y H F n). f_equal. rewrite Hs, gain_mod by assumption. rewrite W2. 
    replace (4 * tan (PI * f * dt) / warped dt fc)%R with (tan (PI * f * dt) / tan (PI * fc * dt))%R by (unfold warped; field; unfold warped in P; lra).
    fold (gain dt fc f). rewrite <- Cmult_assoc, <- !cis_plus. unfold Re, Cmult, RtoC, cis. cbn [fst snd].
    replace (shift + (phase + INR n * w))%R with (2 * PI * f * (INR n * dt) + phase + shift)%R by (unfold w; ring). ring.
  - intros n. unfold x. rewrite <- cis_plus. unfold Re, cis. cbn [fst]. f_equal. unfold w. ring.
Qed.

(** The gain: one at rest, half the power at the cut-off, falling all the way. *)
Theorem C115_gain dt fc : (0 < 2 * fc * dt < 1)%R ->
  gain dt fc 0 = 1%R /\ gain dt fc fc = (/ sqrt 2)%R /\
  (forall f g, (0 <= PI * f * dt)%R -> (PI * f * dt < PI * g * dt < PI / 2)%R -> (gain dt fc g < gain dt fc f)%R).
Proof.
  intros H. pose proof PI_RGT_0 as Pi. assert (P : (0 < tan (PI * fc * dt))%R) by (apply tan_pos; split; nra). unfold gain. repeat split.
  - rewrite Rmult_0_r, Rmult_0_l, tan_0. replace (1 + (0 / tan (PI * fc * dt)) ^ 12)%R with 1%R by (field; lra). rewrite sqrt_1. field.
  - replace (1 + (tan (PI * fc * dt) / tan (PI * fc * dt)) ^ 12)%R with 2%R by (field; lra). reflexivity.
  - intros f g Hf Hg. assert (T : (tan (PI * f * dt) < tan (PI * g * dt))%R) by (apply tan_increasing; lra).
    assert (T0 : (0 <= tan (PI * f * dt))%R). { destruct (Req_dec (PI * f * dt) 0) as [->|N]; [rewrite tan_0; lra|]. apply Rlt_le, tan_pos. lra. }
    assert (Q1 : (0 <= tan (PI * f * dt) / tan (PI * fc * dt))%R) by (apply Rmult_le_pos; [exact T0|apply Rlt_le, Rinv_0_lt_compat, P]).
    assert (Q2 : (tan (PI * f * dt) / tan (PI * fc * dt) < tan (PI * g * dt) / tan (PI * fc * dt))%R) by (apply Rmult_lt_compat_r; [apply Rinv_0_lt_compat, P|exact T]).
    assert (Q3 : ((tan (PI * f * dt) / tan (PI * fc * dt)) ^ 12 < (tan (PI * g * dt) / tan (PI * fc * dt)) ^ 12)%R).
    { assert (M : forall u v : R, (0 <= u -> u < v -> forall n, u ^ S n < v ^ S n)%R). { intros u v Hu Hv n. induction n as [|n IH]; [cbn; lra|]. cbn [pow] in *. assert (0 <= u ^ n)%R by (now apply pow_le). assert (0 <= u * u ^ n)%R by nra. nra. }
      now apply M. }
    assert (Q4 : (0 <= (tan (PI * f * dt) / tan (PI * fc * dt)) ^ 12)%R) by (now apply pow_le).
    apply Rinv_lt_contravar; [apply Rmult_lt_0_compat; apply sqrt_lt_R0; lra|]. apply sqrt_lt_1; lra.
Qed.

(** The alternating signal, at the Nyquist frequency, is removed. *)
Theorem C115_nyquist dt fc c y : (0 < 2 * fc * dt < 1)%R -> filtered dt fc (fun n => (c * (-1) ^ n)%R) y -> vanishes y.
Proof.
  intros H F. pose proof (warped_pos dt fc H) as P. set (x := fun n => (c * (-1) ^ n)%R) in *. set (W := warped dt fc) in *.
  apply vanishes_tends. apply (tends0_ext (fun n => RtoC (resp W x n))); [intros n; now rewrite (filtered_unique dt fc x y H F n)|].
  apply (decay W P). apply (tends0_from (fun _ => 0) _ 6); [|apply tends0_zero]. intros n L. symmetry. rewrite resp_eq.
  assert (I : RtoC (-1) * RtoC (-1) = 1) by (rewrite <- RtoC_mult; f_equal; ring).
  rewrite (app_wave _ _ I _ (RtoC c)).
  - rewrite ev_b. replace (1 + RtoC (-1)) with (RtoC 0) by (rewrite <- RtoC_plus; f_equal; ring). cbn [cpow]. ring.
  - rewrite map_length, bco_length. lia.
  - intros m _ _. unfold x. rewrite RtoC_mult. f_equal. clear. induction m as [|m IH]; [reflexivity|]. cbn [pow cpow]. now rewrite RtoC_mult, IH.
Qed.

(** A signal that settles comes out settling to the same value. *)
Theorem C115_limit dt fc l x y : (0 < 2 * fc * dt < 1)%R -> filtered dt fc x y ->
  vanishes (fun n => (x n - l)%R) -> vanishes (fun n => (y n - l)%R).
Proof.
  intros H F V. pose proof (warped_pos dt fc H) as P. apply tends_vanishes in V. apply (resp_limit _ P) in V. apply vanishes_tends in V.
  revert V. apply vanishes_ext. intros n. now rewrite (filtered_unique dt fc x y H F n).
Qed.

(** A bounded signal stays bounded, by a constant of the filter. *)
Theorem C115_bounded dt fc : (0 < 2 * fc * dt < 1)%R ->
  exists K, forall x y M, filtered dt fc x y -> (forall n, (Rabs (x n) <= M)%R) -> forall n, (Rabs (y n) <= K * M)%R.
Proof.
  intros H. destruct (resp_bounded (warped dt fc) (warped_pos dt fc H)) as (K & _ & B). exists K. intros x y M F V n. rewrite (filtered_unique dt fc x y H F n). now apply B.
Qed.

(** Signals add, and a delayed signal comes out delayed. *)
Theorem C115_linear dt fc x y x' y' k : (0 < 2 * fc * dt < 1)%R -> filtered dt fc x y -> filtered dt fc x' y' ->
  filtered dt fc (fun n => (x n + k * x' n)%R) (fun n => (y n + k * y' n)%R) /\
  filtered dt fc (fun n => match n with O => 0%R | S m => x m end) (fun n => match n with O => 0%R | S m => y m end).
Proof.
  intros H F F'. pose proof (warped_pos dt fc H) as P. set (W := warped dt fc) in *. pose proof (filtered_unique dt fc x y H F) as E. pose proof (filtered_unique dt fc x' y' H F') as E'. fold W in E, E'.
  split; intros N; rewrite filtered_resp by exact H; f_equal; apply map_ext; intros n; fold W; symmetry; revert n; apply (app_unique W P); intros n; rewrite resp_eq.
  - rewrite (app_ext _ (fun m => RtoC (y m + k * y' m)%R) (fun m => RtoC (resp W x m) + RtoC k * RtoC (resp W x' m))) by (intros m; now rewrite RtoC_plus, RtoC_mult, E, E').
    rewrite (app_lin _ (fun m => RtoC (resp W x m)) (fun m => RtoC (resp W x' m))), !resp_eq.
    rewrite (app_ext _ (fun m => RtoC (x m + k * x' m)%R) (fun m => RtoC (x m) + RtoC k * RtoC (x' m))) by (intros m; now rewrite RtoC_plus, RtoC_mult).
    now rewrite (app_lin _ (fun m => RtoC (x m)) (fun m => RtoC (x' m))).
  - rewrite (app_ext _ _ (del (fun m => RtoC (resp W x m)))) by (intros [|m]; cbn [del]; now rewrite ?E). 
    rewrite (app_ext (List.map RtoC (bco W)) _ (del (fun m => RtoC (x m)))) by (now intros [|m]).
    destruct n as [|n]; [|now rewrite !app_shift, resp_eq]. rewrite !app_zero; [reflexivity| |]; intros [|m] L; try reflexivity; lia.
Qed.

(** ** Examples *)

(** The design and the run of the first-order filter at half the Nyquist frequency:
    the mean of two samples. *)
Example C115_example_first : butter 1 (/ 2) = Ok ([/ 2; / 2], [1; 0])%R /\ lfilter [/ 2; / 2]%R [1; 0]%R [1; 3; 5]%R = [/ 2; 2; 4]%R.
Proof.
  split.
  - unfold butter. destruct (Rle_dec (/ 2) 0); [lra|]. destruct (Rle_dec 1 (/ 2)); [lra|].
    replace (tan (PI * / 2 / 2)) with 1%R by (replace (PI * / 2 / 2)%R with (PI / 4)%R by field; now rewrite tan_PI4).
    unfold prototype. cbn [seq List.map]. change (2 * Z.of_nat 0 + 1 - Z.of_nat 1)%Z with 0%Z. replace (PI * 0 / (2 * INR 1))%R with 0%R by (cbn; field). unfold cis. rewrite cos_0, sin_0.
    unfold poly, conv1, cprod. cbn [repeat fold_left combine List.map List.app fold_right fst snd]. unfold Re, RtoC, Cdiv, Cinv, Cminus, Cplus, Cmult, Copp. cbn [fst snd].
    f_equal. f_equal; repeat (f_equal; try field).
  - unfold lfilter, lstep. cbn. repeat (f_equal; try field).
Qed.

(** A cosine at the cut-off frequency, four samples in a period: half the power. *)
Example C115_example_cutoff : exists shift y, filtered (/ 4) 1 (fun n => cos (2 * PI * 1 * (INR n * / 4) + 0)) y /\
  vanishes (fun n => (y n - / sqrt 2 * cos (2 * PI * 1 * (INR n * / 4) + 0 + shift))%R).
Proof.
  assert (H : (0 < 2 * 1 * / 4 < 1)%R) by lra. destruct (C115_sinusoid (/ 4) 1 1 H) as (shift & S1).
  { replace (PI * 1 * / 4)%R with (PI / 4)%R by field. rewrite cos_PI4. assert (0 < sqrt 2)%R by (apply sqrt_lt_R0; lra). apply Rgt_not_eq, Rmult_gt_0_compat; [lra|now apply Rinv_0_lt_compat]. }
  exists shift, (resp (warped (/ 4) 1) (fun n => cos (2 * PI * 1 * (INR n * / 4) + 0))). split; [now apply filtered_resp|].
  specialize (S1 0%R _ (filtered_resp _ _ _ H)). destruct (C115_gain (/ 4) 1 H) as (_ & G & _). rewrite G in S1. exact S1.
Qed.

Example C115_example_errors : butter_filtering [1; 2]%R (/ 4) (Some 2%R) = Err ValueError /\ butter_filtering [1; 2]%R 1 None = Err TypeError.
Proof.
  destruct C115_errors as (_ & E1 & E2 & _). split; [apply E2; lra|apply E1; lra].
Qed.

Print Assumptions C115_errors.
Print Assumptions C115_difference.
Print Assumptions C115_sinusoid.
Print Assumptions C115_gain.
Print Assumptions C115_nyquist.
Print Assumptions C115_limit.
Print Assumptions C115_bounded.
Print Assumptions C115_linear.
