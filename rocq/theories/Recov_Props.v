(** * C111: the recovery polynomials solve the equations they were derived from *)
From Coq Require Import List Arith ZArith QArith Reals Qreals Lia Lra Psatz.
From Coquelicot Require Import Coquelicot.
From Verif Require Import Prelude Dg_Int Recov_Model.
Import ListNotations.
Open Scope list_scope.
Open Scope R_scope.

(** ** Specification *)

(** Legendre polynomials and the orthonormal basis of a cell. *)
Definition legendre (k : nat) (y : R) : R :=
  match k with
  | 0%nat => 1
  | 1%nat => y
  | 2%nat => (3 * y ^ 2 - 1) / 2
  | 3%nat => (5 * y ^ 3 - 3 * y) / 2
  | _ => 0
  end.
Definition basis (k : nat) (y : R) : R := sqrt ((2 * INR k + 1) / 2) * legendre k y.

(** Coefficient [k] of a function on the cell with centre [c] and width [dx]. *)
Definition coefficient (g : R -> R) (c dx : R) (k : nat) : R :=
  2 / dx * RInt (fun x => g x * basis k ((x - c) / (dx / 2))) (c - dx / 2) (c + dx / 2).

(** The expansion itself. *)
Definition expansion (n : nat) (q : nat -> R) (c dx x : R) : R :=
  fold_right (fun k s => q k * basis k ((x - c) / (dx / 2)) + s) 0 (seq 0 n).

(** The sum of the absolute values of what goes in. *)
Definition abs_sum (n : nat) (q : nat -> R) : R := fold_right (fun k s => Rabs (q k) + s) 0 (seq 0 n).
Definition size (n : nat) (F : cell -> nat -> R) : R := abs_sum n (F fL) + abs_sum n (F f0) + abs_sum n (F fR).

(** The error allowed for coefficients written with sixteen digits. *)
Definition eps : R := / 10 ^ 13.

(** The same two cells seen as the left and the right one. *)
Definition pair_of (a b : nat -> R) (w : cell) : nat -> R := match w with fL => a | f0 => fun _ => 0 | fR => b end.

(** ** Polynomials with rational coefficients *)

Definition poly := list Q.
Fixpoint peval (p : poly) (y : R) : R := match p with [] => 0 | c :: p' => Q2R c + y * peval p' y end.
Fixpoint padd (p q : poly) : poly := match p, q with [], _ => q | _, [] => p | a :: p', b :: q' => Qred (a + b)%Q :: padd p' q' end.
Definition pscale (c : Q) (p : poly) : poly := List.map (fun a => Qred (c * a)%Q) p.
Fixpoint pmul (p q : poly) : poly := match p with [] => [] | c :: p' => padd (pscale c q) (0%Q :: pmul p' q) end.
Fixpoint ppow (p : poly) (n : nat) : poly := match n with O => [1%Q] | S n' => pmul p (ppow p n') end.

Lemma Q2R_red q : Q2R (Qred q) = Q2R q.
Proof. apply Qeq_eqR, Qred_correct. Qed.
Lemma Q2R_0 : Q2R 0 = 0.
Proof. unfold Q2R. cbn. lra. Qed.
Lemma Q2R_1 : Q2R 1 = 1.
Proof. unfold Q2R. cbn. lra. Qed.
Lemma padd_ok p : forall q y, peval (padd p q) y = peval p y + peval q y.
Proof.
  induction p as [|a p IH]; intros [|b q] y; cbn [padd peval]; try lra. rewrite Q2R_red, Q2R_plus, IH. lra.
Qed.
Lemma pscale_ok c p y : peval (pscale c p) y = Q2R c * peval p y.
Proof. induction p as [|a p IH]; cbn [pscale List.map peval]; [lra|]. fold (pscale c p). rewrite Q2R_red, Q2R_mult, IH. lra. Qed.
Lemma pmul_ok p q y : peval (pmul p q) y = peval p y * peval q y.
Proof. induction p as [|c p IH]; cbn [pmul peval]; [lra|]. rewrite padd_ok, pscale_ok. cbn [peval]. rewrite Q2R_0, IH. lra. Qed.
Lemma ppow_ok p n y : peval (ppow p n) y = peval p y ^ n.
Proof. induction n as [|n IH]; cbn [ppow pow]; [cbn [peval]; rewrite Q2R_1; lra|]. now rewrite pmul_ok, IH. Qed.

Lemma int_scal (f : R -> R) a b k l : is_RInt f a b l -> is_RInt (fun y => k * f y) a b (k * l).
Proof. exact (is_RInt_scal f a b k l). Qed.
Lemma int_plus (f g : R -> R) a b l m : is_RInt f a b l -> is_RInt g a b m -> is_RInt (fun y => f y + g y) a b (l + m).
Proof. exact (is_RInt_plus f g a b l m). Qed.
Lemma int_zero a b : is_RInt (fun _ : R => 0) a b 0.
Proof. pose proof (is_RInt_const a b (0 : R)) as H. unfold scal in H; cbn in H. unfold mult in H; cbn in H. rewrite Rmult_0_r in H. exact H. Qed.
Lemma int_ext (f g : R -> R) a b l : (forall y, f y = g y) -> is_RInt f a b l -> is_RInt g a b l.
Proof. intros H. apply is_RInt_ext. intros y _. apply H. Qed.

(** Integral over [-1,1]. *)
Definition momentQ (n : nat) : Q := if Nat.even n then (2 # Pos.of_nat (S n)) else 0%Q.
Lemma momentQ_ok n : Q2R (momentQ n) = moment n.
Proof.
  unfold momentQ, moment. destruct (Nat.even n); [|apply Q2R_0]. unfold Q2R. cbn [Qnum Qden]. unfold Rdiv. do 2 f_equal. rewrite INR_IZR_INZ. f_equal. rewrite <- (positive_nat_Z (Pos.of_nat (S n))), Nat2Pos.id by lia. reflexivity.
Qed.
Fixpoint pint_from (n : nat) (p : poly) : Q := match p with [] => 0%Q | c :: p' => Qred (c * momentQ n + pint_from (S n) p')%Q end.
Definition pint (p : poly) : Q := pint_from 0 p.

Lemma is_RInt_from p : forall n, is_RInt (fun y => y ^ n * peval p y) (-1) 1 (Q2R (pint_from n p)).
Proof.
  induction p as [|c p IH]; intros n; cbn [pint_from peval].
  - rewrite Q2R_0. eapply int_ext; [|apply int_zero]. intros y. cbv beta. lra.
  - rewrite Q2R_red, Q2R_plus, Q2R_mult, momentQ_ok. eapply int_ext; [|apply int_plus; [apply int_scal, is_RInt_pow|apply IH]].
    intros y. cbn [pow]. lra.
Qed.
Lemma is_RInt_peval p : is_RInt (peval p) (-1) 1 (Q2R (pint p)).
Proof. eapply int_ext; [|apply (is_RInt_from p 0)]. intros y. cbn [pow]. lra. Qed.

Definition legendreQ (k : nat) : poly :=
  match k with
  | 0%nat => [1%Q]
  | 1%nat => [0%Q; 1%Q]
  | 2%nat => [-1 # 2; 0%Q; 3 # 2]
  | 3%nat => [0%Q; -3 # 2; 0%Q; 5 # 2]
  | _ => []
  end.
Lemma legendreQ_ok k y : peval (legendreQ k) y = legendre k y.
Proof. destruct k as [|[|[|[|k]]]]; cbn [legendreQ legendre peval]; unfold Q2R; cbn [Qnum Qden]; lra. Qed.

(** ** The basis is orthonormal *)

Lemma gram_check : forallb (fun i => forallb (fun j => Qeq_bool (pint (pmul (legendreQ i) (legendreQ j))) (if Nat.eqb i j then 2 # Pos.of_nat (2 * i + 1) else 0)) (seq 0 4)) (seq 0 4) = true.
Proof. vm_compute. reflexivity. Qed.

Theorem C111_basis i j : (i < 4)%nat -> (j < 4)%nat -> is_RInt (fun y => basis i y * basis j y) (-1) 1 (if Nat.eqb i j then 1 else 0).
Proof.
  intros Hi Hj. pose proof gram_check as G. rewrite forallb_forall in G. specialize (G i ltac:(apply in_seq; lia)). rewrite forallb_forall in G. specialize (G j ltac:(apply in_seq; lia)). apply Qeq_bool_iff, Qeq_eqR in G.
  pose proof (int_scal _ _ _ (sqrt ((2 * INR i + 1) / 2) * sqrt ((2 * INR j + 1) / 2)) _ (is_RInt_peval (pmul (legendreQ i) (legendreQ j)))) as H. rewrite G in H.
  assert (E : sqrt ((2 * INR i + 1) / 2) * sqrt ((2 * INR j + 1) / 2) * Q2R (if Nat.eqb i j then 2 # Pos.of_nat (2 * i + 1) else 0)%Q = if Nat.eqb i j then 1 else 0).
  { destruct (Nat.eqb_spec i j) as [->|N]; [|rewrite Q2R_0; lra]. pose proof (pos_INR j) as P. rewrite sqrt_sqrt by lra. unfold Q2R. cbn [Qnum Qden].
    replace (IZR (Z.pos (Pos.of_nat (2 * j + 1)))) with (2 * INR j + 1); [field; lra|]. rewrite <- (positive_nat_Z (Pos.of_nat _)), Nat2Pos.id by lia. rewrite <- INR_IZR_INZ, plus_INR, mult_INR. cbn. lra. }
  rewrite E in H. eapply int_ext; [|exact H]. intros y. cbv beta. rewrite pmul_ok, !legendreQ_ok. unfold basis. ring.
Qed.

(** ** Linear functionals of a recovery function *)

(** The weight with which entry [k] of cell [w] goes in, when [x^p/dx^p] counts [m p]. *)
Definition part (m : nat -> Q) (w : cell) (k : nat) (tab : list term) : Q :=
  fold_right (fun t s => if cell_eqb (t_cell t) w && Nat.eqb (t_k t) k then Qred (t_c t * m (t_p t) + s) else s)%Q 0%Q tab.

Definition value (m : nat -> Q) (tab : list term) (F : cell -> nat -> R) : R := fold_right (fun t s => Q2R (t_c t) * F (t_cell t) (t_k t) * Q2R (m (t_p t)) + s) 0 tab.

Definition over (n : nat) (q : nat -> R) (u : nat -> R) : R := fold_right (fun k s => q k * u k + s) 0 (seq 0 n).

Lemma over_from n q u v a : forall s, (fold_right (fun k r => q k * (u k + v k) + r) 0 (seq s n) = fold_right (fun k r => q k * u k + r) 0 (seq s n) + fold_right (fun k r => q k * v k + r) 0 (seq s n)) /\
  ((s <= a < s + n)%nat -> forall c, fold_right (fun k r => q k * (if Nat.eqb a k then c else 0) + r) 0 (seq s n) = q a * c) /\ ((a < s)%nat -> forall c, fold_right (fun k r => q k * (if Nat.eqb a k then c else 0) + r) 0 (seq s n) = 0).
Proof.
  induction n as [|n IH]; intros s; cbn [seq fold_right]; [repeat split; intros; try lra; lia|]. destruct (IH (S s)) as (A & B & C). split; [rewrite A; lra|]. split.
  - intros H c. destruct (Nat.eqb_spec a s) as [->|N]; [rewrite C by lia; lra|]. rewrite B by lia. lra.
  - intros H c. destruct (Nat.eqb_spec a s) as [->|N]; [lia|]. rewrite C by lia. lra.
Qed.
Lemma over_plus n q u v : over n q (fun k => u k + v k) = over n q u + over n q v.
Proof. exact (proj1 (over_from n q u v 0 0%nat)). Qed.
Lemma over_one n q a c : (a < n)%nat -> over n q (fun k => if Nat.eqb a k then c else 0) = q a * c.
Proof. intros H. apply (proj1 (proj2 (over_from n q (fun _ => 0) (fun _ => 0) a 0%nat))). lia. Qed.
Lemma over_ext n q u v : (forall k, (k < n)%nat -> u k = v k) -> over n q u = over n q v.
Proof.
  unfold over. intros H. assert (G : forall l, (forall k, In k l -> u k = v k) -> fold_right (fun k s => q k * u k + s) 0 l = fold_right (fun k s => q k * v k + s) 0 l).
  { induction l as [|k l IH]; intros Hl; cbn [fold_right]; [reflexivity|]. rewrite (Hl k ltac:(now left)), IH; [reflexivity|]. intros j Hj. apply Hl. now right. }
  apply G. intros k Hk. apply in_seq in Hk. apply H. lia.
Qed.

Lemma value_parts n m tab F : List.Forall (fun t => (t_k t < n)%nat) tab ->
  value m tab F = over n (F fL) (fun k => Q2R (part m fL k tab)) + over n (F f0) (fun k => Q2R (part m f0 k tab)) + over n (F fR) (fun k => Q2R (part m fR k tab)).
Proof.
  assert (Z : forall q, over n q (fun _ => Q2R 0) = 0). { intros q. unfold over. generalize (seq 0 n). intros l. induction l as [|k l IH]; cbn [fold_right]; [reflexivity|]. rewrite IH, Q2R_0. lra. }
  induction 1 as [|[c w j p] tab Hk _ IH]; [cbn [part fold_right value]; rewrite !Z; lra|]. cbn [t_k] in Hk.
  assert (S1 : forall w', over n (F w') (fun k => Q2R (part m w' k (T c w j p :: tab))) = (if cell_eqb w w' then F w' j * (Q2R c * Q2R (m p)) else 0) + over n (F w') (fun k => Q2R (part m w' k tab))).
  { intros w'. rewrite (over_ext n (F w') (fun k => Q2R (part m w' k (T c w j p :: tab))) (fun k => (if cell_eqb w w' then (if Nat.eqb j k then Q2R c * Q2R (m p) else 0) else 0) + Q2R (part m w' k tab))).
    - rewrite over_plus. f_equal. destruct (cell_eqb w w'); [now apply over_one|]. unfold over. generalize (seq 0 n). intros l. induction l as [|k l IHl]; cbn [fold_right]; [reflexivity|]. rewrite IHl. lra.
    - intros k _. unfold part at 1. cbn [fold_right t_cell t_k t_c t_p]. fold (part m w' k tab). destruct (cell_eqb w w'); cbn [andb]; [|lra]. destruct (Nat.eqb j k); [rewrite Q2R_red, Q2R_plus, Q2R_mult; reflexivity|lra]. }
  rewrite !S1. unfold value. cbn [fold_right t_c t_cell t_k t_p]. fold (value m tab F). rewrite IH. destruct w; cbn [cell_eqb]; lra.
Qed.

(** Values, derivatives and coefficients are such functionals. *)
Fixpoint qpow (q : Q) (n : nat) : Q := match n with O => 1%Q | S m => Qred (q * qpow q m)%Q end.
Lemma qpow_ok q n : Q2R (qpow q n) = Q2R q ^ n.
Proof. induction n as [|n IH]; cbn [qpow pow]; [apply Q2R_1|]. now rewrite Q2R_red, Q2R_mult, IH. Qed.

Lemma value_at tab F a dx : dx <> 0 -> recov tab F (Q2R a * dx) dx = value (qpow a) tab F.
Proof.
  intros Hd. induction tab as [|t tab IH]; cbn [recov value fold_right]; [reflexivity|]. fold (recov tab F (Q2R a * dx) dx). fold (value (qpow a) tab F). rewrite IH, qpow_ok, Rpow_mult_distr. field. now apply pow_nonzero.
Qed.

Definition dpow (a : Q) (p : nat) : Q := match p with O => 0%Q | S p' => Qred (inject_Z (Z.of_nat p) * qpow a p')%Q end.
Lemma derive_at tab F a dx : dx <> 0 -> is_derive (fun x => recov tab F x dx) (Q2R a * dx) (value (dpow a) tab F / dx).
Proof.
  intros Hd. induction tab as [|t tab IH]; cbn [recov value fold_right].
  - replace (0 / dx) with 0 by (field; exact Hd). apply (is_derive_const (0 : R)).
  - fold (value (dpow a) tab F). replace ((Q2R (t_c t) * F (t_cell t) (t_k t) * Q2R (dpow a (t_p t)) + value (dpow a) tab F) / dx) with (Q2R (t_c t) * F (t_cell t) (t_k t) * Q2R (dpow a (t_p t)) / dx + value (dpow a) tab F / dx) by (field; exact Hd).
    apply (is_derive_plus (fun x => Q2R (t_c t) * F (t_cell t) (t_k t) * x ^ t_p t / dx ^ t_p t) (fun x => recov tab F x dx)); [|exact IH].
    generalize (Q2R (t_c t) * F (t_cell t) (t_k t)). intros q. destruct (t_p t) as [|p]; cbn [dpow].
    + rewrite Q2R_0. replace (q * 0 / dx) with 0 by (field; exact Hd). eapply is_derive_ext; [|apply (is_derive_const (q / 1))]. intros x. cbn [pow]. change (q / 1 = q * 1 / 1). field.
    + assert (P : dx ^ p <> 0) by (now apply pow_nonzero). rewrite Q2R_red, Q2R_mult, qpow_ok. replace (Q2R (inject_Z (Z.of_nat (S p)))) with (INR (S p)) by (unfold Q2R; cbn [Qnum Qden inject_Z]; rewrite INR_IZR_INZ; field).
      eapply is_derive_ext with (f := fun x => q / dx ^ S p * x ^ S p); [intros x; cbn [pow]; change (q / (dx * dx ^ p) * (x * x ^ p) = q * (x * x ^ p) / (dx * dx ^ p)); field; split; assumption|].
      replace (q * (INR (S p) * Q2R a ^ p) / dx) with (q / dx ^ S p * (INR (S p) * 1 * (Q2R a * dx) ^ pred (S p))); [|cbn [pred]; rewrite Rpow_mult_distr; cbn [pow]; field; split; assumption].
      apply (is_derive_scal (fun x => x ^ S p)). apply (is_derive_pow (fun x => x)). apply (is_derive_id (Q2R a * dx)).
Qed.

(** Coefficient [j] on the cell with centre [b dx], without the square root. *)
Definition proj (b : Q) (j p : nat) : Q := pint (pmul (ppow [b; 1 # 2] p) (legendreQ j)).

Lemma is_RInt_recov tab F b j dx : dx <> 0 -> is_RInt (fun y => recov tab F (Q2R b * dx + y * (dx / 2)) dx * legendre j y) (-1) 1 (value (proj b j) tab F).
Proof.
  intros Hd. induction tab as [|t tab IH]; cbn [recov value fold_right].
  - eapply int_ext; [|apply int_zero]. intros y. cbv beta. lra.
  - fold (value (proj b j) tab F). eapply int_ext; [|apply int_plus; [apply int_scal, (is_RInt_peval (pmul (ppow [b; 1 # 2] (t_p t)) (legendreQ j)))|exact IH]].
    intros y. cbv beta. rewrite pmul_ok, ppow_ok, legendreQ_ok. cbn [peval]. fold (recov tab F (Q2R b * dx + y * (dx / 2)) dx).
    replace (Q2R b * dx + y * (dx / 2)) with ((Q2R b + y * (Q2R (1 # 2) + y * 0)) * dx) by (unfold Q2R at 2; cbn [Qnum Qden]; field). rewrite Rpow_mult_distr. unfold proj. field. now apply pow_nonzero.
Qed.

Lemma coefficient_is (g : R -> R) c dx k l : 0 < dx -> is_RInt (fun y => g (c + y * (dx / 2)) * basis k y) (-1) 1 l -> coefficient g c dx k = l.
Proof.
  intros Hd H0. unfold coefficient.
  assert (H : is_RInt (fun x => g x * basis k ((x - c) / (dx / 2))) (c - dx / 2) (c + dx / 2) (dx / 2 * l)).
  { assert (H1 : is_RInt (fun y => g (c + y * (dx / 2)) * basis k y) (2 / dx * (c - dx / 2) + - (2 / dx * c)) (2 / dx * (c + dx / 2) + - (2 / dx * c)) l).
    { replace (2 / dx * (c - dx / 2) + - (2 / dx * c)) with (-1) by (field; lra). replace (2 / dx * (c + dx / 2) + - (2 / dx * c)) with 1 by (field; lra). exact H0. }
    apply is_RInt_comp_lin in H1. apply (int_scal _ _ _ (dx / 2)) in H1. eapply int_ext; [|exact H1]. intros y. cbv beta. unfold scal. cbn -[basis]. unfold mult. cbn -[basis].
    replace ((2 / dx * y + - (2 / dx * c)) * (dx / 2)) with (y - c) by (field; lra). replace (c + (y - c)) with y by ring. replace ((y - c) / (dx / 2)) with (2 / dx * y + - (2 / dx * c)) by (field; lra). field. lra. }
  rewrite (is_RInt_unique _ _ _ _ H). field. lra.
Qed.

(** The coefficients of an expansion are its own. *)
Theorem C111_expansion n q c dx k : (n <= 4)%nat -> (k < n)%nat -> 0 < dx -> coefficient (expansion n q c dx) c dx k = q k.
Proof.
  intros Hn Hk Hd. apply coefficient_is; [exact Hd|]. rewrite <- (Rmult_1_r (q k)), <- (over_one n q k 1 Hk). unfold expansion, over.
  assert (G : forall l, (forall j, In j l -> (j < 4)%nat) -> is_RInt (fun y => fold_right (fun j s => q j * basis j ((c + y * (dx / 2) - c) / (dx / 2)) + s) 0 l * basis k y) (-1) 1 (fold_right (fun j s => q j * (if Nat.eqb k j then 1 else 0) + s) 0 l)).
  { induction l as [|j l IH]; intros Hl; cbn [fold_right]; [eapply int_ext; [|apply int_zero]; intros y; cbv beta; lra|].
    eapply int_ext; [|apply int_plus; [apply int_scal, (C111_basis k j ltac:(lia) (Hl j ltac:(now left)))|apply IH; intros i Hi; apply Hl; now right]]. intros y. cbv beta. replace ((c + y * (dx / 2) - c) / (dx / 2)) with y by (field; lra). ring. }
  apply G. intros j Hj. apply in_seq in Hj. lia.
Qed.

Lemma coefficient_recov tab F b j dx : 0 < dx -> coefficient (fun x => recov tab F x dx) (Q2R b * dx) dx j = sqrt ((2 * INR j + 1) / 2) * value (proj b j) tab F.
Proof.
  intros Hd. apply coefficient_is; [exact Hd|]. eapply int_ext; [|apply (int_scal _ _ _ (sqrt ((2 * INR j + 1) / 2)) _ (is_RInt_recov tab F b j dx ltac:(lra)))]. intros y. cbv beta. unfold basis. ring.
Qed.

(** ** Checks *)

(** Within the error of [target]: rational numbers, and rational numbers times a root. *)
Definition tiny : Q := 1 # 10000000000000.
Definition close (a target : Q) : bool := Qle_bool (a - target) tiny && Qle_bool (target - a) tiny.
Lemma close_ok a t : close a t = true -> Rabs (Q2R a - Q2R t) <= eps.
Proof.
  unfold close. intros H. apply andb_true_iff in H as (H1 & H2). apply Qle_bool_iff, Qle_Rle in H1, H2. rewrite Q2R_minus in H1, H2. assert (E : Q2R tiny = eps) by (unfold Q2R, tiny, eps; cbn [Qnum Qden]; lra). rewrite E in H1, H2. apply Rabs_le. lra.
Qed.

Definition w2 (j : nat) : Q := inject_Z (Z.of_nat (2 * j + 1)) / 2.
Lemma w2_ok j : Q2R (w2 j) = (2 * INR j + 1) / 2.
Proof. unfold w2. rewrite Q2R_div by (intros H; discriminate H). unfold Q2R at 1 2. cbn [Qnum Qden inject_Z]. rewrite <- INR_IZR_INZ, plus_INR, mult_INR. cbn. field. Qed.

Definition close_root (j : nat) (one : bool) (a : Q) : bool :=
  if one then Qle_bool 0 a && close (Qred (a * a * w2 j))%Q 1 else Qle_bool (Qred (a * a * w2 j))%Q (Qred (tiny * tiny)).
Lemma close_root_ok j one a : close_root j one a = true -> Rabs (sqrt ((2 * INR j + 1) / 2) * Q2R a - (if one then 1 else 0)) <= eps.
Proof.
  unfold close_root. assert (W : 0 <= (2 * INR j + 1) / 2) by (pose proof (pos_INR j); lra). pose proof (sqrt_pos ((2 * INR j + 1) / 2)) as Sp. pose proof (sqrt_sqrt _ W) as Ss. set (s := sqrt ((2 * INR j + 1) / 2)) in *. clearbody s. destruct one; intros H.
  - apply andb_true_iff in H as (H1 & H2). apply Qle_bool_iff, Qle_Rle in H1. apply close_ok in H2. rewrite Q2R_red, !Q2R_mult, w2_ok, Q2R_1, <- Ss in H2. rewrite Q2R_0 in H1. set (x := Q2R a) in *. clearbody x.
    replace (x * x * (s * s) - 1) with ((s * x - 1) * (s * x + 1)) in H2 by ring. rewrite Rabs_mult in H2. assert (P : 1 <= Rabs (s * x + 1)) by (rewrite Rabs_pos_eq; nra). pose proof (Rabs_pos (s * x - 1)). nra.
  - apply Qle_bool_iff, Qle_Rle in H. rewrite !Q2R_red, !Q2R_mult, w2_ok, <- Ss in H. assert (E : Q2R tiny = eps) by (unfold Q2R, tiny, eps; cbn [Qnum Qden]; lra). rewrite E in H. set (x := Q2R a) in *. clearbody x. rewrite Rminus_0_r.
    assert (P : 0 < eps) by (unfold eps; lra). rewrite <- (Rabs_pos_eq eps) by lra. apply Rsqr_le_abs_0. unfold Rsqr. lra.
Qed.

Lemma over_bound n q u e : 0 <= e -> (forall k, (k < n)%nat -> Rabs (u k) <= e) -> Rabs (over n q u) <= e * abs_sum n q.
Proof.
  intros He. unfold over, abs_sum. intros H. assert (G : forall l, (forall k, In k l -> Rabs (u k) <= e) -> Rabs (fold_right (fun k s => q k * u k + s) 0 l) <= e * fold_right (fun k s => Rabs (q k) + s) 0 l).
  { induction l as [|k l IH]; intros Hl; cbn [fold_right]; [rewrite Rabs_R0; lra|]. specialize (IH ltac:(intros i Hi; apply Hl; now right)). specialize (Hl k ltac:(now left)). pose proof (Rabs_triang (q k * u k) (fold_right (fun k s => q k * u k + s) 0 l)) as T. rewrite Rabs_mult in T. pose proof (Rabs_pos (q k)). nra. }
  apply G. intros k Hk. apply in_seq in Hk. apply H. lia.
Qed.
Lemma over_minus n q u v : over n q u - over n q v = over n q (fun k => u k - v k).
Proof. unfold over. generalize (seq 0 n). intros l. induction l as [|k l IH]; cbn [fold_right]; [lra|]. rewrite <- IH. lra. Qed.
Lemma over_scale n q u c : c * over n q u = over n q (fun k => c * u k).
Proof. unfold over. generalize (seq 0 n). intros l. induction l as [|k l IH]; cbn [fold_right]; [lra|]. rewrite <- IH. lra. Qed.
Lemma abs_sum_pos n q : 0 <= abs_sum n q.
Proof. unfold abs_sum. generalize (seq 0 n). intros l. induction l as [|k l IH]; cbn [fold_right]; [lra|]. pose proof (Rabs_pos (q k)). lra. Qed.

Definition wfb (n : nat) (tab : list term) : bool := forallb (fun t => Nat.ltb (t_k t) n) tab.
Lemma wfb_ok n tab : wfb n tab = true -> List.Forall (fun t => (t_k t < n)%nat) tab.
Proof. unfold wfb. rewrite forallb_forall. intros H. apply Forall_forall. intros t Ht. apply Nat.ltb_lt, H, Ht. Qed.

Definition cells : list cell := [fL; f0; fR].

(** The coefficients of [tab] on the cell with centre [b dx] are those of cell [w]. *)
Definition proj_ok (n : nat) (tab : list term) (b : Q) (w : cell) : bool :=
  forallb (fun j => forallb (fun w' => forallb (fun k => close_root j (cell_eqb w' w && Nat.eqb k j) (part (proj b j) w' k tab)) (seq 0 n)) cells) (seq 0 n).

Lemma forallb_seq n (g : nat -> bool) : forallb g (seq 0 n) = true -> forall k, (k < n)%nat -> g k = true.
Proof. rewrite forallb_forall. intros H k Hk. apply H, in_seq. lia. Qed.

Lemma proj_thm n tab F b w j dx : 0 < dx -> (j < n)%nat -> wfb n tab = true -> proj_ok n tab b w = true -> Rabs (coefficient (fun x => recov tab F x dx) (Q2R b * dx) dx j - F w j) <= eps * size n F.
Proof.
  intros Hd Hj Hw Hp. rewrite (coefficient_recov tab F b j dx Hd), (value_parts n _ _ _ (wfb_ok _ _ Hw)). apply forallb_seq with (k := j) in Hp; [|exact Hj]. rewrite forallb_forall in Hp. set (s := sqrt ((2 * INR j + 1) / 2)).
  assert (B : forall w', Rabs (s * over n (F w') (fun k => Q2R (part (proj b j) w' k tab)) - (if cell_eqb w' w then F w' j else 0)) <= eps * abs_sum n (F w')).
  { intros w'. assert (Hin : In w' cells) by (destruct w'; cbn; auto). specialize (Hp w' Hin). cbv beta in Hp. pose proof (forallb_seq n _ Hp) as Hk. cbv beta in Hk. rewrite over_scale.
    replace (if cell_eqb w' w then F w' j else 0) with (over n (F w') (fun k => if cell_eqb w' w && Nat.eqb j k then 1 else 0)).
    - rewrite over_minus. apply over_bound; [unfold eps; lra|]. intros k Hkn. specialize (Hk k Hkn). apply close_root_ok in Hk. fold s in Hk. rewrite Nat.eqb_sym. exact Hk.
    - destruct (cell_eqb w' w); cbn [andb]; [rewrite over_one by exact Hj; lra|]. unfold over. generalize (seq 0 n). intros l. induction l as [|k l IH]; cbn [fold_right]; [reflexivity|]. rewrite IH. lra. }
  pose proof (B fL) as B1. pose proof (B f0) as B2. pose proof (B fR) as B3. unfold size. destruct w; cbn [cell_eqb] in B1, B2, B3; rewrite ?Rminus_0_r in *; apply Rabs_le; apply Rabs_le_between in B1, B2, B3; lra.
Qed.

(** Two functionals of two functions agree; the pair [a], [b] of cells goes into the first
    function as cells [fL], [fR]. *)
Definition link (right : bool) (w : cell) : option cell :=
  if right then match w with fL => None | f0 => Some fL | fR => Some fR end else match w with fL => Some fL | f0 => Some fR | fR => None end.
Definition edge_ok (n : nat) (tab etab : list term) (right : bool) (m me : nat -> Q) : bool :=
  forallb (fun w => forallb (fun k => close (part m w k tab) (match link right w with Some w' => part me w' k etab | None => 0%Q end)) (seq 0 n)) cells.

Definition seen_by (right : bool) (F : cell -> nat -> R) : cell -> nat -> R := if right then pair_of (F f0) (F fR) else pair_of (F fL) (F f0).

Lemma edge_thm n tab etab right m me F : wfb n tab = true -> wfb n etab = true -> forallb (fun t => negb (cell_eqb (t_cell t) f0)) etab = true -> edge_ok n tab etab right m me = true ->
  Rabs (value m tab F - value me etab (seen_by right F)) <= eps * size n F.
Proof.
  intros Hw He _ Hk. rewrite (value_parts n _ _ _ (wfb_ok _ _ Hw)), (value_parts n _ _ _ (wfb_ok _ _ He)). unfold edge_ok in Hk. rewrite forallb_forall in Hk.
  assert (Z : forall u, over n (fun _ => 0) u = 0). { intros u. unfold over. generalize (seq 0 n). intros l. induction l as [|k l IH]; cbn [fold_right]; [reflexivity|]. rewrite IH. lra. }
  assert (B : forall w, Rabs (over n (F w) (fun k => Q2R (part m w k tab)) - over n (F w) (fun k => Q2R (match link right w with Some w' => part me w' k etab | None => 0%Q end))) <= eps * abs_sum n (F w)).
  { intros w. assert (Hin : In w cells) by (destruct w; cbn; auto). pose proof (forallb_seq n _ (Hk w Hin)) as Hw'. cbv beta in Hw'. rewrite over_minus. apply over_bound; [unfold eps; lra|]. intros k Hkn. apply close_ok, (Hw' k Hkn). }
  assert (Z0 : forall q, over n q (fun _ => Q2R 0) = 0). { intros q. unfold over. generalize (seq 0 n). intros l. induction l as [|k l IH]; cbn [fold_right]; [reflexivity|]. rewrite IH, Q2R_0. lra. }
  pose proof (B fL) as B1. pose proof (B f0) as B2. pose proof (B fR) as B3. unfold size, seen_by. destruct right; cbn [link pair_of] in *; rewrite ?Z0, ?Z in *; apply Rabs_le; apply Rabs_le_between in B1, B2, B3; lra.
Qed.

(** ** The nine functions *)

Definition order_tabs (p : nat) : option (list term * list term * list term) :=
  match nth_error recovEdFn (p - 1), nth_error recovC0Fn (p - 1), nth_error recovC1Fn (p - 1) with
  | Some e, Some c0, Some c1 => Some (e, c0, c1)
  | _, _, _ => None
  end.

Definition all_ok (p : nat) : bool :=
  match order_tabs p with
  | None => false
  | Some (e, c0, c1) =>
      let n := S p in
      wfb n e && wfb n c0 && wfb n c1 && forallb (fun t => negb (cell_eqb (t_cell t) f0)) e &&
      proj_ok n e (-1 # 2) fL && proj_ok n e (1 # 2) fR && proj_ok n c0 0 f0 && proj_ok n c1 0 f0 &&
      edge_ok n c0 e true (qpow (1 # 2)) (qpow 0) && edge_ok n c0 e false (qpow (-1 # 2)) (qpow 0) &&
      edge_ok n c1 e true (qpow (1 # 2)) (qpow 0) && edge_ok n c1 e false (qpow (-1 # 2)) (qpow 0) &&
      edge_ok n c1 e true (dpow (1 # 2)) (dpow 0) && edge_ok n c1 e false (dpow (-1 # 2)) (dpow 0) &&
      forallb (fun t => Nat.leb (t_p t) (2 * p + 1)) e && forallb (fun t => Nat.leb (t_p t) (p + 2)) c0 && forallb (fun t => Nat.leb (t_p t) (p + 4)) c1
  end.
Lemma tables_ok : forallb all_ok [1; 2; 3]%nat = true.
Proof. vm_compute. reflexivity. Qed.

Lemma tables p : (1 <= p <= 3)%nat -> all_ok p = true.
Proof. pose proof tables_ok as H. rewrite forallb_forall in H. intros Hp. apply H. cbn. lia. Qed.

Section Order.
  Context (p : nat) (e c0 c1 : list term) (Hp : (1 <= p <= 3)%nat).
  Context (He : nth_error recovEdFn (p - 1) = Some e) (H0 : nth_error recovC0Fn (p - 1) = Some c0) (H1 : nth_error recovC1Fn (p - 1) = Some c1).
  Context (dx : R) (Hdx : 0 < dx).

  Ltac checks := pose proof (tables p Hp) as K; unfold all_ok, order_tabs in K; rewrite He, H0, H1 in K; cbv zeta in K;
    repeat match goal with H : _ && _ = true |- _ => apply andb_true_iff in H; destruct H end.

  Lemma half : Q2R (1 # 2) = / 2 /\ Q2R (-1 # 2) = - / 2.
  Proof. unfold Q2R. cbn [Qnum Qden]. lra. Qed.

  Lemma size_pair n a b : size n (pair_of a b) = abs_sum n a + abs_sum n b.
  Proof.
    unfold size. cbn [pair_of]. assert (Z : abs_sum n (fun _ => 0) = 0). { unfold abs_sum. generalize (seq 0 n). intros l. induction l as [|k l IH]; cbn [fold_right]; [reflexivity|]. rewrite IH, Rabs_R0. lra. } rewrite Z. lra.
  Qed.

  (** On two neighbouring cells the polynomial has the coefficients of both. *)
  Theorem C111_two_cells a b k : (k <= p)%nat ->
    Rabs (coefficient (fun x => recov e (pair_of a b) x dx) (- dx / 2) dx k - a k) <= eps * (abs_sum (S p) a + abs_sum (S p) b) /\
    Rabs (coefficient (fun x => recov e (pair_of a b) x dx) (dx / 2) dx k - b k) <= eps * (abs_sum (S p) a + abs_sum (S p) b).
  Proof.
    intros Hk. checks. destruct half as (E1 & E2). rewrite <- size_pair. split.
    - replace (- dx / 2) with (Q2R (-1 # 2) * dx) by (rewrite E2; field). apply (proj_thm (S p) e (pair_of a b) (-1 # 2) fL); try assumption; lia.
    - replace (dx / 2) with (Q2R (1 # 2) * dx) at 1 by (rewrite E1; field). apply (proj_thm (S p) e (pair_of a b) (1 # 2) fR); try assumption; lia.
  Qed.

  (** The continuous ones have the coefficients of their own cell, *)
  Theorem C111_own_cell F k : (k <= p)%nat ->
    Rabs (coefficient (fun x => recov c0 F x dx) 0 dx k - F f0 k) <= eps * size (S p) F /\ Rabs (coefficient (fun x => recov c1 F x dx) 0 dx k - F f0 k) <= eps * size (S p) F.
  Proof.
    intros Hk. checks. assert (E : 0 = Q2R 0 * dx) by (rewrite Q2R_0; lra). split.
    - replace (coefficient (fun x => recov c0 F x dx) 0 dx k) with (coefficient (fun x => recov c0 F x dx) (Q2R 0 * dx) dx k) by (now rewrite <- E). apply (proj_thm (S p) c0 F 0 f0); try assumption; lia.
    - replace (coefficient (fun x => recov c1 F x dx) 0 dx k) with (coefficient (fun x => recov c1 F x dx) (Q2R 0 * dx) dx k) by (now rewrite <- E). apply (proj_thm (S p) c1 F 0 f0); try assumption; lia.
  Qed.

  (** at both edges the value recovered from the two cells there, *)
  Theorem C111_edge_values F : (forall c, c = c0 \/ c = c1 ->
    Rabs (recov c F (dx / 2) dx - recov e (pair_of (F f0) (F fR)) 0 dx) <= eps * size (S p) F /\
    Rabs (recov c F (- dx / 2) dx - recov e (pair_of (F fL) (F f0)) 0 dx) <= eps * size (S p) F).
  Proof.
    checks. destruct half as (E1 & E2). assert (E : 0 = Q2R 0 * dx) by (rewrite Q2R_0; lra). assert (N : dx <> 0) by lra.
    assert (V : forall G, recov e G 0 dx = value (qpow 0) e G) by (intros G; rewrite E at 1; now apply value_at).
    intros c Hc. rewrite !V. replace (dx / 2) with (Q2R (1 # 2) * dx) by (rewrite E1; field). replace (- dx / 2) with (Q2R (-1 # 2) * dx) by (rewrite E2; field). rewrite !value_at by exact N.
    destruct Hc as [-> | ->]; split.
    - apply (edge_thm (S p) c0 e true); assumption.
    - apply (edge_thm (S p) c0 e false); assumption.
    - apply (edge_thm (S p) c1 e true); assumption.
    - apply (edge_thm (S p) c1 e false); assumption.
  Qed.

  (** and the smooth one its slope. *)
  Theorem C111_edge_slopes F :
    Rabs (Derive (fun x => recov c1 F x dx) (dx / 2) - Derive (fun x => recov e (pair_of (F f0) (F fR)) x dx) 0) <= eps * size (S p) F / dx /\
    Rabs (Derive (fun x => recov c1 F x dx) (- dx / 2) - Derive (fun x => recov e (pair_of (F fL) (F f0)) x dx) 0) <= eps * size (S p) F / dx.
  Proof.
    checks. destruct half as (E1 & E2). assert (N : dx <> 0) by lra.
    assert (D : forall tab G a, Derive (fun x => recov tab G x dx) (Q2R a * dx) = value (dpow a) tab G / dx) by (intros tab G a; apply is_derive_unique; now apply derive_at).
    assert (V : forall G, Derive (fun x => recov e G x dx) 0 = value (dpow 0) e G / dx) by (intros G; rewrite <- D, Q2R_0, Rmult_0_l; reflexivity).
    rewrite !V. replace (dx / 2) with (Q2R (1 # 2) * dx) by (rewrite E1; field). replace (- dx / 2) with (Q2R (-1 # 2) * dx) by (rewrite E2; field). rewrite !D.
    assert (B : forall u v s, Rabs (u - v) <= s -> Rabs (u / dx - v / dx) <= s / dx). { intros u v s Huv. replace (u / dx - v / dx) with ((u - v) / dx) by (field; exact N). unfold Rdiv at 1. rewrite Rabs_mult, (Rabs_pos_eq (/ dx)) by (left; now apply Rinv_0_lt_compat). apply Rmult_le_compat_r; [left; now apply Rinv_0_lt_compat|exact Huv]. }
    split; apply B; [apply (edge_thm (S p) c1 e true)|apply (edge_thm (S p) c1 e false)]; assumption.
  Qed.

  (** So the piecewise function is continuous, the smooth one with its first derivative. *)
  Theorem C111_continuous q : let at_ j (w : cell) := match w with fL => q (j - 1)%Z | f0 => q j | fR => q (j + 1)%Z end in forall j,
    (forall c, c = c0 \/ c = c1 -> Rabs (recov c (at_ j) (dx / 2) dx - recov c (at_ (j + 1)%Z) (- dx / 2) dx) <= eps * (size (S p) (at_ j) + size (S p) (at_ (j + 1)%Z))) /\
    Rabs (Derive (fun x => recov c1 (at_ j) x dx) (dx / 2) - Derive (fun x => recov c1 (at_ (j + 1)%Z) x dx) (- dx / 2)) <= eps * (size (S p) (at_ j) + size (S p) (at_ (j + 1)%Z)) / dx.
  Proof.
    intros at_ j. assert (Same : pair_of (at_ j f0) (at_ j fR) = pair_of (at_ (j + 1)%Z fL) (at_ (j + 1)%Z f0)) by (unfold at_; now replace (j + 1 - 1)%Z with j by lia).
    assert (Tri : forall u v w s t, Rabs (u - w) <= s -> Rabs (v - w) <= t -> Rabs (u - v) <= s + t). { intros u v w s t A B. apply Rabs_le. apply Rabs_le_between in A, B. lra. }
    split.
    - intros c Hc. destruct (C111_edge_values (at_ j) c Hc) as (A & _), (C111_edge_values (at_ (j + 1)%Z) c Hc) as (_ & B). rewrite Same in A. rewrite Rmult_plus_distr_l. exact (Tri _ _ _ _ _ A B).
    - destruct (C111_edge_slopes (at_ j)) as (A & _), (C111_edge_slopes (at_ (j + 1)%Z)) as (_ & B). rewrite Same in A. replace (eps * (size (S p) (at_ j) + size (S p) (at_ (j + 1)%Z)) / dx) with (eps * size (S p) (at_ j) / dx + eps * size (S p) (at_ (j + 1)%Z) / dx) by (field; lra). exact (Tri _ _ _ _ _ A B).
  Qed.

  (** They are polynomials of the degree for which this determines them. *)
  Theorem C111_degree : forall tab d, (tab, d) = (e, 2 * p + 1)%nat \/ (tab, d) = (c0, p + 2)%nat \/ (tab, d) = (c1, p + 4)%nat -> forall F, exists a : nat -> R, forall x, recov tab F x dx = sum_f_R0 (fun i => a i * x ^ i) d.
  Proof.
    assert (G : forall d tab F, forallb (fun t => Nat.leb (t_p t) d) tab = true -> exists a : nat -> R, forall x, recov tab F x dx = sum_f_R0 (fun i => a i * x ^ i) d).
    { intros d tab F. induction tab as [|t tab IH]; intros Ht; cbn [forallb] in Ht.
      - exists (fun _ => 0). intros x. cbn [recov fold_right]. induction d as [|d IHd]; cbn [sum_f_R0]; [lra|]. rewrite <- IHd. lra.
      - apply andb_true_iff in Ht as (Ht & Hr). apply Nat.leb_le in Ht. destruct (IH Hr) as (a & Ha). exists (fun i => a i + if Nat.eqb (t_p t) i then Q2R (t_c t) * F (t_cell t) (t_k t) / dx ^ t_p t else 0). intros x. cbn [recov fold_right]. fold (recov tab F x dx). rewrite Ha.
        rewrite (sum_eq (fun i => (a i + (if Nat.eqb (t_p t) i then Q2R (t_c t) * F (t_cell t) (t_k t) / dx ^ t_p t else 0)) * x ^ i) (fun i => a i * x ^ i + (if Nat.eqb (t_p t) i then Q2R (t_c t) * F (t_cell t) (t_k t) / dx ^ t_p t else 0) * x ^ i)) by (intros i _; lra). rewrite sum_plus.
        assert (One : forall c m d, (m <= d)%nat -> sum_f_R0 (fun i => (if Nat.eqb m i then c else 0) * x ^ i) d = c * x ^ m).
        { intros c m. assert (Zero : forall d, (d < m)%nat -> sum_f_R0 (fun i => (if Nat.eqb m i then c else 0) * x ^ i) d = 0). { induction d0 as [|d0 IHd]; intros Hd; cbn [sum_f_R0]; [destruct (Nat.eqb_spec m 0); [lia|lra]|]. rewrite IHd by lia. destruct (Nat.eqb_spec m (S d0)); [lia|lra]. }
          induction d0 as [|d0 IHd]; intros Hd; cbn [sum_f_R0]; [replace m with 0%nat by lia; cbn; lra|]. destruct (Nat.eqb_spec m (S d0)) as [->|N]; [rewrite Zero by lia; lra|]. rewrite IHd by lia. lra. }
        rewrite One by exact Ht. field. apply pow_nonzero. lra. }
    checks. intros tab d [E|[E|E]] F; injection E as -> ->; apply G; assumption.
  Qed.
End Order.

(** ** Example: a step from 0 to 1 (coefficient sqrt 2 of the constant) recovered with p = 1
    is 1/2 at the edge, up to rounding *)
Example ex_step : Rabs (recov p1e (pair_of (fun _ => 0) (fun k => match k with O => sqrt 2 | _ => 0 end)) 0 1 - / 2) <= 10 * eps.
Proof.
  unfold recov, p1e, eps. cbn -[sqrt Q2R]. unfold Q2R. cbn [Qnum Qden]. assert (S : 1.4142135623730950 <= sqrt 2 <= 1.4142135623730951).
  { split; [rewrite <- (sqrt_square 1.4142135623730950) by lra|rewrite <- (sqrt_square 1.4142135623730951) by lra]; apply sqrt_le_1_alt; lra. }
  apply Rabs_le. lra.
Qed.
Example ex_order : nth_error recovEdFn (2 - 1) = Some p2e /\ nth_error recovC0Fn (2 - 1) = Some p2c0 /\ nth_error recovC1Fn (2 - 1) = Some p2c1.
Proof. repeat split. Qed.

Print Assumptions C111_basis.
Print Assumptions C111_two_cells.
Print Assumptions C111_own_cell.
Print Assumptions C111_continuous.
Print Assumptions C111_degree.
