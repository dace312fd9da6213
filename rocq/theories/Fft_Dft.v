(** * The discrete Fourier transform: orthogonality of the waves *)
From Coq Require Import List Arith ZArith Bool Lia Reals Lra.
From Coquelicot Require Import Complex.
From Verif Require Import Prelude PreludeFacts NdArray Fft_Model.
Import ListNotations.
Open Scope nat_scope.

(** ** exp(i t) *)

Lemma cis_plus a b : cis (a + b) = Cmult (cis a) (cis b).
Proof. unfold cis, Cmult. cbn [fst snd]. rewrite cos_plus, sin_plus. f_equal; ring. Qed.

Lemma cis_0 : cis 0 = RtoC 1.
Proof. unfold cis, RtoC. now rewrite cos_0, sin_0. Qed.

Lemma cis_neg a : cis (- a) = Cconj (cis a).
Proof. unfold cis, Cconj. cbn [fst snd]. now rewrite cos_neg, sin_neg. Qed.

Lemma cis_mod a : Cmod (cis a) = 1%R.
Proof.
  unfold Cmod, cis. cbn [fst snd]. replace (cos a ^ 2 + sin a ^ 2)%R with 1%R; [apply sqrt_1|].
  pose proof (sin2_cos2 a) as H. unfold Rsqr in H. cbn. lra.
Qed.

Lemma cis_turns n : cis (2 * PI * INR n) = RtoC 1.
Proof.
  induction n as [|n IH]; [cbn; rewrite Rmult_0_r; apply cis_0|].
  rewrite S_INR. replace (2 * PI * (INR n + 1))%R with (2 * PI * INR n + 2 * PI)%R by ring.
  rewrite cis_plus, IH. unfold cis. rewrite cos_2PI, sin_2PI. unfold RtoC, Cmult; cbn. f_equal; ring.
Qed.

Lemma cis_not_1 t : (0 < t < 2 * PI)%R -> cis t <> RtoC 1.
Proof.
  intros [H0 H1] E. unfold cis, RtoC in E. injection E as Ec Es.
  destruct (sin_eq_O_2PI_0 t) as [K|[K|K]]; [lra|lra|exact Es|lra| |lra].
  rewrite K, cos_PI in Ec. lra.
Qed.

Fixpoint Cpow (z : C) (n : nat) : C := match n with 0 => RtoC 1 | S m => Cmult z (Cpow z m) end.

Lemma cis_INR t n : cis (t * INR n) = Cpow (cis t) n.
Proof.
  induction n as [|n IH]; [cbn; rewrite Rmult_0_r; apply cis_0|].
  rewrite S_INR. replace (t * (INR n + 1))%R with (t * INR n + t)%R by ring.
  rewrite cis_plus, IH. cbn [Cpow]. ring.
Qed.

(** ** Sums *)

Lemma csum_ext n f g : (forall j, j < n -> f j = g j) -> csum n f = csum n g.
Proof. induction n as [|n IH]; intros H; [reflexivity|]. cbn. rewrite IH by (intros; apply H; lia). rewrite H by lia. reflexivity. Qed.

Lemma csum_plus n f g : csum n (fun j => Cplus (f j) (g j)) = Cplus (csum n f) (csum n g).
Proof. induction n as [|n IH]; cbn; [ring|]. rewrite IH. ring. Qed.

Lemma csum_scal n c f : csum n (fun j => Cmult c (f j)) = Cmult c (csum n f).
Proof. induction n as [|n IH]; cbn; [ring|]. rewrite IH. ring. Qed.

Lemma csum_scal_r n c f : csum n (fun j => Cmult (f j) c) = Cmult (csum n f) c.
Proof. induction n as [|n IH]; cbn; [ring|]. rewrite IH. ring. Qed.

Lemma csum_0 n : csum n (fun _ => RtoC 0) = RtoC 0.
Proof. induction n as [|n IH]; cbn; [reflexivity|]. rewrite IH. ring. Qed.

Lemma csum_const n c : csum n (fun _ => c) = Cmult (RtoC (INR n)) c.
Proof. induction n as [|n IH]; [cbn; ring|]. cbn [csum]. rewrite IH, S_INR, RtoC_plus. ring. Qed.

Lemma csum_swap n m f : csum n (fun i => csum m (fun j => f i j)) = csum m (fun j => csum n (fun i => f i j)).
Proof.
  induction n as [|n IH]; cbn; [now rewrite csum_0|]. rewrite IH. now rewrite <- csum_plus.
Qed.

Lemma csum_pick n k f : k < n -> (forall j, j < n -> j <> k -> f j = RtoC 0) -> csum n f = f k.
Proof.
  induction n as [|n IH]; intros Hk H; [lia|]. cbn. destruct (Nat.eq_dec k n) as [->|N].
  - rewrite (csum_ext n f (fun _ => RtoC 0)), csum_0 by (intros; apply H; lia). ring.
  - rewrite IH by (try lia; intros; apply H; lia). rewrite (H n) by lia. ring.
Qed.

Lemma csum_conj n f : Cconj (csum n f) = csum n (fun j => Cconj (f j)).
Proof.
  induction n as [|n IH]; cbn; [unfold Cconj, RtoC; cbn; f_equal; ring|]. rewrite <- IH.
  unfold Cconj, Cplus; cbn. f_equal; ring.
Qed.

Lemma csum_geom z n : Cmult (Cminus (RtoC 1) z) (csum n (fun j => Cpow z j)) = Cminus (RtoC 1) (Cpow z n).
Proof.
  induction n as [|n IH]; cbn [csum Cpow]; [ring|]. rewrite Cmult_plus_distr_l, IH. ring.
Qed.

(** ** Orthogonality *)

Lemma turn_l n k k' j : (turn n (k + k') j = turn n k j + turn n k' j)%R.
Proof. unfold turn. rewrite plus_INR. unfold Rdiv. ring. Qed.

Lemma turn_0 n k : turn n k 0 = 0%R.
Proof. unfold turn. cbn. unfold Rdiv. ring. Qed.

Lemma turn_whole n k j : 0 < n -> cis (turn n k (j * n)) = RtoC 1.
Proof.
  intros Hn. replace (turn n k (j * n)) with (2 * PI * INR (k * j))%R; [apply cis_turns|].
  unfold turn. rewrite !mult_INR. field. apply not_0_INR. lia.
Qed.

Lemma turn_sym n k j : turn n k j = turn n j k.
Proof. unfold turn, Rdiv. ring. Qed.

(** A wave that makes [m] turns, [0 < m < n], sums to zero. *)
Lemma wave_sum n m : 0 < m -> m < n -> csum n (fun j => cis (turn n m j)) = RtoC 0.
Proof.
  intros H0 H1. set (t := (2 * PI * INR m / INR n)%R).
  assert (Hn : (0 < INR n)%R) by (apply lt_0_INR; lia).
  assert (E : forall j, turn n m j = (t * INR j)%R) by (intros; unfold turn, t; field; lra).
  rewrite (csum_ext n _ (fun j => Cpow (cis t) j)) by (intros; rewrite E; apply cis_INR).
  assert (N : Cminus (RtoC 1) (cis t) <> RtoC 0).
  { intros K. apply (cis_not_1 t).
    - unfold t. assert (0 < INR m)%R by (apply lt_0_INR; lia). assert (INR m < INR n)%R by (apply lt_INR; lia).
      pose proof PI_RGT_0. split; [apply Rdiv_lt_0_compat; [nra|lra]|].
      apply (Rmult_lt_reg_r (INR n)); [lra|]. unfold Rdiv. rewrite Rmult_assoc, Rinv_l by lra. nra.
    - replace (cis t) with (Cminus (RtoC 1) (Cminus (RtoC 1) (cis t))) by ring. rewrite K. ring. }
  assert (G : Cmult (Cminus (RtoC 1) (cis t)) (csum n (fun j => Cpow (cis t) j)) = RtoC 0).
  { rewrite csum_geom, <- cis_INR, <- E. replace n with (1 * n) at 2 by lia. rewrite turn_whole by lia. ring. }
  set (s := csum n _) in *. replace s with (Cmult (Cinv (Cminus (RtoC 1) (cis t))) (Cmult (Cminus (RtoC 1) (cis t)) s)).
  - rewrite G. ring.
  - rewrite Cmult_assoc, Cinv_l by exact N. ring.
Qed.

(** The sum over all points of wave [k] times the conjugate of wave [l]. *)
Lemma waves_orthogonal n k l : k < n -> l < n ->
  csum n (fun j => Cmult (cis (turn n k j)) (cis (- turn n l j))) = if k =? l then RtoC (INR n) else RtoC 0.
Proof.
  intros Hk Hl. destruct (Nat.eqb_spec k l) as [->|N].
  - rewrite (csum_ext n _ (fun _ => RtoC 1)).
    + rewrite csum_const. ring.
    + intros. rewrite <- cis_plus. replace (turn n l j + - turn n l j)%R with 0%R by ring. apply cis_0.
  - destruct (lt_dec l k) as [L|L].
    + rewrite (csum_ext n _ (fun j => cis (turn n (k - l) j))); [apply wave_sum; lia|].
      intros. rewrite <- cis_plus. f_equal. replace k with ((k - l) + l) at 1 by lia. rewrite turn_l. ring.
    + assert (K : csum n (fun j => cis (turn n (l - k) j)) = RtoC 0) by (apply wave_sum; lia).
      apply (f_equal Cconj) in K. rewrite csum_conj in K.
      rewrite (csum_ext n _ (fun j => Cconj (cis (turn n (l - k) j)))).
      * rewrite K. unfold Cconj, RtoC; cbn. f_equal; ring.
      * intros. rewrite <- cis_neg, <- cis_plus. f_equal. replace l with ((l - k) + k) at 1 by lia. rewrite turn_l. ring.
Qed.

Lemma INR_C n : 0 < n -> RtoC (INR n) <> RtoC 0.
Proof. intros H E. injection E as E. revert E. apply not_0_INR. lia. Qed.

(** ** One dimension *)

Theorem dft_inverse n f j : j < n -> idft n (dft n f) j = f j.
Proof.
  intros Hj. unfold idft, dft.
  rewrite (csum_ext n _ (fun k => csum n (fun i => Cmult (f i) (Cmult (cis (turn n k j)) (cis (- turn n k i)))))).
  2:{ intros k _. rewrite <- csum_scal_r. apply csum_ext. intros. ring. }
  rewrite csum_swap.
  rewrite (csum_ext n _ (fun i => Cmult (f i) (if j =? i then RtoC (INR n) else RtoC 0))).
  2:{ intros i Hi. rewrite csum_scal. f_equal. rewrite <- waves_orthogonal by assumption. apply csum_ext. intros.
      now rewrite (turn_sym n j), (turn_sym n i). }
  rewrite (csum_pick n j).
  - rewrite Nat.eqb_refl. rewrite Cmult_comm, <- Cmult_assoc, <- RtoC_mult, Rinv_r, Cmult_1_r; [reflexivity|].
    apply not_0_INR. lia.
  - exact Hj.
  - intros i Hi N. destruct (Nat.eqb_spec j i); [lia|]. ring.
Qed.

Theorem idft_inverse n f k : k < n -> dft n (idft n f) k = f k.
Proof.
  intros Hk. unfold idft, dft.
  rewrite (csum_ext n _ (fun j => csum n (fun i => Cmult (Cmult (RtoC (/ INR n)) (f i)) (Cmult (cis (turn n i j)) (cis (- turn n k j)))))).
  2:{ intros j _. rewrite (Cmult_comm _ (cis _)), Cmult_assoc, <- csum_scal. apply csum_ext. intros. ring. }
  rewrite csum_swap.
  rewrite (csum_ext n _ (fun i => Cmult (Cmult (RtoC (/ INR n)) (f i)) (if i =? k then RtoC (INR n) else RtoC 0))).
  2:{ intros i Hi. rewrite csum_scal. f_equal. now apply waves_orthogonal. }
  rewrite (csum_pick n k).
  - rewrite Nat.eqb_refl. rewrite (Cmult_comm (RtoC (/ INR n))), <- Cmult_assoc, <- RtoC_mult, Rinv_l, Cmult_1_r; [reflexivity|].
    apply not_0_INR. lia.
  - exact Hk.
  - intros i Hi N. destruct (Nat.eqb_spec i k); [lia|]. ring.
Qed.

Lemma Cmod_conj z : Cmult z (Cconj z) = RtoC (Cmod z * Cmod z).
Proof.
  unfold Cmod. rewrite sqrt_sqrt by (destruct z; cbn; nra). destruct z as [a b]. unfold Cmult, Cconj, RtoC; cbn. f_equal; ring.
Qed.

Lemma Cconj_mult a b : Cconj (Cmult a b) = Cmult (Cconj a) (Cconj b).
Proof. destruct a, b. unfold Cconj, Cmult; cbn. f_equal; ring. Qed.

Lemma Cconj_conj z : Cconj (Cconj z) = z.
Proof. destruct z. unfold Cconj; cbn. f_equal. ring. Qed.

Lemma dft_conj n f k : Cconj (dft n f k) = csum n (fun j => Cmult (Cconj (f j)) (cis (turn n k j))).
Proof.
  unfold dft. rewrite csum_conj. apply csum_ext. intros. rewrite Cconj_mult, cis_neg, Cconj_conj. reflexivity.
Qed.

Theorem dft_parseval n f :
  csum n (fun k => power (dft n f k)) = Cmult (RtoC (INR n)) (csum n (fun j => power (f j))).
Proof.
  unfold power. rewrite (csum_ext n _ (fun k => csum n (fun j => Cmult (Cconj (f j)) (Cmult (cis (turn n k j)) (dft n f k))))).
  2:{ intros. rewrite <- Cmod_conj, dft_conj, Cmult_comm, <- csum_scal_r. apply csum_ext. intros. ring. }
  rewrite csum_swap, <- csum_scal. apply csum_ext. intros j Hj. rewrite csum_scal.
  rewrite <- Cmod_conj. rewrite <- (dft_inverse n f j Hj) at 2. unfold idft.
  rewrite (csum_ext n (fun i => Cmult (cis _) _) (fun k => Cmult (dft n f k) (cis (turn n k j)))) by (intros; ring).
  set (s := csum n (fun k => Cmult (dft n f k) (cis (turn n k j)))).
  replace (Cmult (RtoC (INR n)) (Cmult (Cmult (RtoC (/ INR n)) s) (Cconj (f j))))
    with (Cmult (RtoC (INR n * / INR n)) (Cmult (Cconj (f j)) s)) by (rewrite RtoC_mult; ring).
  rewrite Rinv_r by (apply not_0_INR; lia). ring.
Qed.

(** Real data have a symmetric spectrum. *)
Theorem dft_real n f k : 0 < k -> k < n -> (forall j, j < n -> snd (f j) = 0%R) ->
  dft n f (n - k) = Cconj (dft n f k).
Proof.
  intros H0 Hk Hr. rewrite dft_conj. unfold dft. apply csum_ext. intros j Hj. f_equal.
  - specialize (Hr j Hj). destruct (f j). cbn in Hr. unfold Cconj; cbn. rewrite Hr. f_equal. ring.
  - replace (- turn n (n - k) j)%R with (turn n k j + - turn n n j)%R.
    + rewrite cis_plus. replace (cis (- turn n n j)) with (RtoC 1); [ring|].
      rewrite cis_neg, turn_sym. replace n with (1 * n) at 2 by lia. rewrite turn_whole by lia. unfold Cconj, RtoC; cbn. f_equal; ring.
    + replace n with ((n - k) + k) at 3 by lia. rewrite turn_l. ring.
Qed.

Lemma dft_linear n a b f g k :
  dft n (fun j => Cplus (Cmult a (f j)) (Cmult b (g j))) k = Cplus (Cmult a (dft n f k)) (Cmult b (dft n g k)).
Proof.
  unfold dft. rewrite <- !csum_scal, <- csum_plus. apply csum_ext. intros. ring.
Qed.
