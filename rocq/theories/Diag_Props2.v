(** * C103: enstrophy *)
From Coq Require Import String Ascii List Arith ZArith Reals Bool Lia Lra.
From Verif Require Import Prelude PreludeFacts Diag_Model Diag_Props.
Import ListNotations.
Open Scope list_scope.

(** ** Specification *)

(** The slope at point [i] of the parabola through the values at three neighbouring
    points: [i] and its neighbours, at the ends the last three points. *)
Definition slope (n : nat) (h : R) (g : nat -> R) (i : nat) (s : R) : Prop :=
  let m := Nat.max 1 (Nat.min i (n - 2)) in
  exists a b c, (forall l, (m - 1 <= l <= m + 1)%nat -> g l = a + b * (INR l * h) + c * (INR l * h) ^ 2)%R /\ s = (b + 2 * c * (INR i * h))%R.

(** Component [c] (1, 2, 3) of the velocity. *)
Definition velocity (fr : frame) (c i j k : nat) : R := (f_at fr [i; j; k; c] / f_at fr [i; j; k; 0%nat])%R.

(** ** Differences *)

Lemma difference_slope n h g i : (3 <= n)%nat -> (i < n)%nat -> h <> 0%R -> slope n h g i (difference n h g i).
Proof.
  intros Hn Hi Hh. unfold slope. set (m := Nat.max 1 (Nat.min i (n - 2))).
  assert (Hm : (1 <= m)%nat) by lia. destruct m as [|q] eqn:Em; [lia|]. clear Hm.
  set (x := INR (S q)). set (c := ((g (q + 2)%nat - 2 * g (S q) + g q) / (2 * h ^ 2))%R). set (b0 := ((g (q + 2)%nat - g q) / (2 * h))%R).
  exists (g (S q) - b0 * (x * h) + c * (x * h) ^ 2)%R, (b0 - 2 * c * (x * h))%R, c. split.
  - intros l Hl. assert (l = q \/ l = S q \/ l = q + 2)%nat as [->|[->| ->]] by lia.
    + unfold c, b0, x. rewrite S_INR. field. exact Hh.
    + unfold c, b0, x. rewrite S_INR. field. exact Hh.
    + unfold c, b0, x. rewrite plus_INR, S_INR. cbn [INR]. field. exact Hh.
  - unfold difference. destruct (Nat.eqb_spec i 0) as [->|N0]; [|destruct (Nat.eqb_spec i (n - 1)) as [->|N1]].
    + assert (q = 0)%nat as -> by lia. unfold c, b0, x. cbn. field. exact Hh.
    + assert (E : (n = q + 3)%nat) by lia. subst n. replace (q + 3 - 3)%nat with q by lia. replace (q + 3 - 2)%nat with (S q) by lia. replace (q + 3 - 1)%nat with (q + 2)%nat by lia.
      unfold c, b0, x. rewrite plus_INR, S_INR. cbn [INR]. field. exact Hh.
    + assert (E : (i = S q)%nat) by lia. subst i. replace (S q + 1)%nat with (q + 2)%nat by lia. replace (S q - 1)%nat with q by lia. unfold c, b0. fold x. field. exact Hh.
Qed.

(** There is only one such slope. *)
Lemma slope_unique n h g i s s' : h <> 0%R -> slope n h g i s -> slope n h g i s' -> s = s'.
Proof.
  intros Hh. unfold slope. set (m := Nat.max 1 (Nat.min i (n - 2))). assert (Hm : (1 <= m)%nat) by lia. clearbody m. destruct m as [|q]; [lia|].
  intros (a & b & c & H & ->) (a' & b' & c' & H' & ->).
  pose proof (H q ltac:(lia)) as A0. pose proof (H (S q) ltac:(lia)) as A1. pose proof (H (S (S q)) ltac:(lia)) as A2.
  rewrite (H' q ltac:(lia)) in A0. rewrite (H' (S q) ltac:(lia)) in A1. rewrite (H' (S (S q)) ltac:(lia)) in A2. rewrite !S_INR in *.
  set (x := INR q) in *. clearbody x. 
  assert (C : (h * (h * (c - c')) = 0)%R) by lra. assert (Ec : c = c') by (destruct (Rmult_integral _ _ C) as [?|C']; [contradiction|destruct (Rmult_integral _ _ C'); [contradiction|lra]]). subst c'.
  assert (B : (h * (b - b') = 0)%R) by lra. assert (Eb : b = b') by (destruct (Rmult_integral _ _ B); [contradiction|lra]). now subst b'.
Qed.

(** ** The loop *)

Lemma store_last l x y r : store l r x = Ok y -> forall z, store y r z = store l r z.
Proof.
  unfold store. destruct (Nat.ltb_spec r (List.length l)) as [H|H]; [|discriminate]. intros E. injection E as <-. intros z.
  assert (L : List.length (set_nth r x l) = List.length l) by (clear; revert r; induction l as [|a l IH]; intros [|r]; cbn; auto).
  rewrite L. apply Nat.ltb_lt in H as H'. rewrite H'. f_equal. apply list_ext. intros i. rewrite !nth_error_set_nth by (rewrite ?L; exact H). now destruct (i =? r)%nat.
Qed.

Section Enstrophy.
  Context (load : string -> res frame) (name : string) (init final : nat) (dx dy dz : R) (n0 n1 n2 : nat) (fr : nat -> frame).
  Context (gx gy gz : list R) (more : list (list R)).

  Definition data : Prop :=
    f_grid (fr init) = gx :: gy :: gz :: more /\ step gx dx /\ step gy dy /\ step gz dz /\ (3 <= n0)%nat /\ (3 <= n1)%nat /\ (3 <= n2)%nat /\
    forall c, (init <= c <= final)%nat -> load (file_name name c) = Ok (fr c) /\ exists nc, f_shape (fr c) = [n0; n1; n2; nc] /\ (4 <= nc)%nat.

  Definition grad (c d i j k : nat) (f : frame) : R := gradient n0 n1 n2 dx dy dz (velocity f c) d i j k.

  (** What is added up for a frame. *)
  Definition integrand (f : frame) (i j k : nat) : R :=
    if ((i <? n0 - 1) && (j <? n1 - 1) && (k <? n2 - 1))%nat
    then ((grad 1 0 i j k f * grad 1 0 i j k f + (grad 2 1 i j k f * grad 2 1 i j k f + grad 3 2 i j k f * grad 3 2 i j k f)) * f_at f [i; j; k; 0%nat])%R else 0%R.

  Definition entry (f : frame) : R := (sum3 n0 n1 n2 (integrand f) * dx * dy * dz)%R.

  Lemma frame_step f nc a r mag : f_shape f = [n0; n1; n2; nc] -> (4 <= nc)%nat -> (3 <= n0)%nat -> (3 <= n1)%nat -> (3 <= n2)%nat ->
    (forall i j k, ((i <? n0 - 1) && (j <? n1 - 1) && (k <? n2 - 1))%nat = false -> mag i j k = 0%R) -> (r < final + 1 - init)%nat ->
    exists mag', enstrophy_frame (n0, n1, n2) dx dy dz f (List.map a (seq 0 (final + 1 - init)), mag, r)
      = Ok (List.map (fun j => if (j =? r)%nat then entry f else a j) (seq 0 (final + 1 - init)), mag', S r) /\
      (forall i j k, ((i <? n0 - 1) && (j <? n1 - 1) && (k <? n2 - 1))%nat = false -> mag' i j k = 0%R).
  Proof.
    intros Es Hc H0 H1 H2 Hm Hr. unfold enstrophy_frame. rewrite (moments_ok _ _ _ _ _ Es Hc). cbn [bind].
    assert (B1 : ((n0 <? 3) || (n1 <? 3) || (n2 <? 3))%nat = false) by (destruct (Nat.ltb_spec n0 3), (Nat.ltb_spec n1 3), (Nat.ltb_spec n2 3); try lia; reflexivity). rewrite B1.
    set (x := (sum3 n0 n1 n2 _ * dx * dy * dz)%R).
    assert (St : exists y, store (List.map a (seq 0 (final + 1 - init))) r x = Ok y) by (rewrite store_map by exact Hr; eauto). destruct St as (y & St). rewrite St. cbn [bind].
    assert (B2 : ((n0 <? n0 - 1) || (n1 <? n1 - 1) || (n2 <? n2 - 1))%nat = false) by (destruct (Nat.ltb_spec n0 (n0 - 1)), (Nat.ltb_spec n1 (n1 - 1)), (Nat.ltb_spec n2 (n2 - 1)); try lia; reflexivity). rewrite B2.
    rewrite (store_last _ _ _ _ St), store_map by exact Hr. cbn [bind]. eexists. split.
    - f_equal. f_equal. f_equal. apply map_seq_ext. intros i _. destruct (i =? r)%nat; [|reflexivity]. unfold entry. do 3 f_equal. apply sum3_ext. intros c j k _ _ _.
      unfold update_mag, integrand. destruct ((c <? n0 - 1) && (j <? n1 - 1) && (k <? n2 - 1))%nat eqn:Eb; [|now apply Hm].
      unfold trace_product, sum, grad, velocity. cbn [seq List.map fold_right app]. ring.
    - intros i j k Eb. unfold update_mag. rewrite Eb. now apply Hm.
  Qed.

  Lemma loop (F : forall c, (init <= c <= final)%nat -> load (file_name name c) = Ok (fr c) /\ exists nc, f_shape (fr c) = [n0; n1; n2; nc] /\ (4 <= nc)%nat)
    (H0 : (3 <= n0)%nat) (H1 : (3 <= n1)%nat) (H2 : (3 <= n2)%nat) m : forall k mag, (k + m = final + 1 - init)%nat ->
    (forall i j k, ((i <? n0 - 1) && (j <? n1 - 1) && (k <? n2 - 1))%nat = false -> mag i j k = 0%R) ->
    exists mag' r, for_each (seq (init + k) m) (fun i st => let* fr := load (name ++ show_Z (Z.of_nat i) ++ ".bp")%string in enstrophy_frame (n0, n1, n2) dx dy dz fr st)
      (List.map (fun j => if (j <? k)%nat then entry (fr (init + j)) else 0%R) (seq 0 (final + 1 - init)), mag, k)
    = Ok (List.map (fun j => entry (fr (init + j))) (seq 0 (final + 1 - init)), mag', r).
  Proof.
    induction m as [|m IH]; intros k mag Hk Hm.
    - exists mag, k. cbn [seq]. unfold for_each. cbn [fold_left]. do 3 f_equal. apply map_seq_ext. intros i Hi. destruct (Nat.ltb_spec i k); [reflexivity|lia].
    - cbn [seq]. rewrite for_each_cons. destruct (F (init + k)) as (F1 & nc & F2 & F3); [lia|]. unfold file_name in F1. rewrite F1. cbn [bind].
      destruct (frame_step (fr (init + k)) nc (fun j => if (j <? k)%nat then entry (fr (init + j)) else 0%R) k mag F2 F3 H0 H1 H2 Hm ltac:(lia)) as (mag' & E & Hm'). rewrite E. cbn [bind].
      replace (S (init + k)) with (init + S k)%nat by lia. destruct (IH (S k) mag' ltac:(lia) Hm') as (mag2 & r & E2). exists mag2, r. rewrite <- E2. do 2 f_equal. f_equal. apply map_seq_ext. intros i Hi.
      destruct (Nat.eqb_spec i k) as [->|Ne].
      + destruct (Nat.ltb_spec k (S k)); [reflexivity|lia].
      + destruct (Nat.ltb_spec i k), (Nat.ltb_spec i (S k)); try reflexivity; lia.
  Qed.

  Lemma calc_ok : data -> (init <= final)%nat ->
    calc_enstrophy load name init final = Ok (List.map (fun j => entry (fr (init + j))) (seq 0 (final + 1 - init)), List.map (fun j => entry (fr (init + j))) (seq 0 (final + 1 - init))).
  Proof.
    intros (Eg & Hx & Hy & Hz & H0 & H1 & H2 & F) Hif. destruct (F init ltac:(lia)) as (L & nc & Es & Hc). unfold calc_enstrophy. unfold file_name in L. rewrite L. cbn [bind].
    rewrite (spacing_ok _ 0 gx dx), (spacing_ok _ 1 gy dy), (spacing_ok _ 2 gz dz); try (rewrite Eg; reflexivity); try assumption. cbn [bind].
    replace (Z.of_nat final - Z.of_nat init + 1)%Z with (Z.of_nat (final + 1 - init)) by lia. rewrite zeros_nonneg. cbn [bind]. rewrite Es.
    assert (B1 : ((n0 =? 0) || (n1 =? 0) || (n2 =? 0) || (nc =? 0))%nat = false) by (destruct (Nat.eqb_spec n0 0), (Nat.eqb_spec n1 0), (Nat.eqb_spec n2 0), (Nat.eqb_spec nc 0); try lia; reflexivity). rewrite B1.
    destruct (loop F H0 H1 H2 (final + 1 - init) 0 (fun _ _ _ => 0%R) eq_refl (fun _ _ _ _ => eq_refl)) as (mag' & r & E). rewrite Nat.add_0_r in E.
    rewrite (map_seq_ext (fun _ => 0%R) (fun j => if (j <? 0)%nat then entry (fr (init + j)) else 0%R)) by reflexivity.
    replace (S final - init)%nat with (final + 1 - init)%nat by lia. rewrite E. reflexivity.
  Qed.

  (** Both results are one array, with one entry per frame: the sum, without the
      last layer of cells on each axis, of the density times the squares of the
      three diagonal slopes of the velocity. *)
  Theorem C103_entries : data -> (init <= final)%nat -> dx <> 0%R -> dy <> 0%R -> dz <> 0%R -> exists out,
    calc_enstrophy load name init final = Ok (out, out) /\ List.length out = (final + 1 - init)%nat /\
    forall r, (r < final + 1 - init)%nat -> exists ux vy wz : nat -> nat -> nat -> R,
      let f := fr (init + r) in
      (forall i j k, (i < n0)%nat -> (j < n1)%nat -> (k < n2)%nat ->
         slope n0 dx (fun i' => velocity f 1 i' j k) i (ux i j k) /\ slope n1 dy (fun j' => velocity f 2 i j' k) j (vy i j k) /\ slope n2 dz (fun k' => velocity f 3 i j k') k (wz i j k)) /\
      nth_error out r = Some (sum3 (n0 - 1) (n1 - 1) (n2 - 1) (fun i j k => f_at f [i; j; k; 0%nat] * (ux i j k ^ 2 + vy i j k ^ 2 + wz i j k ^ 2)) * dx * dy * dz)%R.
  Proof.
    intros D Hif Hx Hy Hz. rewrite (calc_ok D Hif). eexists. split; [reflexivity|]. split; [now rewrite map_length, seq_length|]. intros r Hr.
    destruct D as (_ & _ & _ & _ & H0 & H1 & H2 & _). cbn zeta. set (f := fr (init + r)).
    exists (fun i j k => grad 1 0 i j k f), (fun i j k => grad 2 1 i j k f), (fun i j k => grad 3 2 i j k f). split.
    - intros i j k Hi Hj Hk. unfold grad, gradient. split; [|split]; now apply difference_slope.
    - rewrite nth_error_map_seq. destruct (Nat.ltb_spec r (final + 1 - init)); [|lia]. f_equal. fold f. unfold entry. do 3 f_equal.
      assert (Cut : forall n (g h : nat -> R), (1 <= n)%nat -> (forall i, (i < n - 1)%nat -> g i = h i) -> g (n - 1)%nat = 0%R -> sum n g = sum (n - 1) h).
      { intros n g h Hn Hg Hl. destruct n as [|q]; [lia|]. replace (S q - 1)%nat with q in * by lia. unfold sum. rewrite seq_S, map_app, fold_right_app. cbn [List.map fold_right Nat.add]. rewrite Hl, Rplus_0_r. f_equal. now apply map_seq_ext. }
      assert (Zero : forall n, sum n (fun _ => 0%R) = 0%R) by (intros n; unfold sum; induction (seq 0 n) as [|a l IH]; cbn; [reflexivity|rewrite IH; ring]).
      assert (ZeroF : forall n g, (forall i, (i < n)%nat -> g i = 0%R) -> sum n g = 0%R) by (intros n g Hg; rewrite <- (Zero n); now apply sum_ext).
      unfold sum3, integrand. apply Cut; [lia| |].
      + intros i Hi. apply Nat.ltb_lt in Hi. rewrite Hi. apply Cut; [lia| |].
        * intros j Hj. apply Nat.ltb_lt in Hj. rewrite Hj. apply Cut; [lia| |].
          -- intros k Hk. apply Nat.ltb_lt in Hk. rewrite Hk. cbn [andb]. ring.
          -- rewrite Nat.ltb_irrefl. reflexivity.
        * apply ZeroF. intros k _. rewrite Nat.ltb_irrefl. reflexivity.
      + apply ZeroF. intros j _. apply ZeroF. intros k _. rewrite Nat.ltb_irrefl. reflexivity.
  Qed.
End Enstrophy.

(** Fewer than three cells along an axis are refused. *)
Theorem C103_small load name init final fr n0 n1 n2 nc r :
  (init <= final)%nat -> load (file_name name init) = Ok fr -> f_shape fr = [n0; n1; n2; nc] -> (n0 < 3 \/ n1 < 3 \/ n2 < 3)%nat -> calc_enstrophy load name init final <> Ok r.
Proof.
  intros Hif Hl Hs Hn H. unfold calc_enstrophy in H. unfold file_name in Hl. rewrite Hl in H. cbn [bind] in H. do 4 (apply bind_ok in H as (? & _ & H)). rewrite Hs in H.
  destruct ((n0 =? 0) || (n1 =? 0) || (n2 =? 0) || (nc =? 0))%nat; [discriminate|]. apply bind_ok in H as (? & H & _).
  replace (S final - init)%nat with (S (final - init)) in H by lia. cbn [seq] in H. rewrite for_each_cons in H. apply bind_ok in H as (? & H & _). rewrite Hl in H. cbn [bind] in H.
  unfold enstrophy_frame in H. apply bind_ok in H as ((sh & mm) & Hm & H). unfold moments in Hm. rewrite Hs in Hm. cbn [rev app] in Hm. destruct (4 <=? nc)%nat; [|discriminate]. injection Hm as <- <-.
  replace ((n0 <? 3) || (n1 <? 3) || (n2 <? 3))%nat with true in H; [discriminate|]. symmetry. destruct (Nat.ltb_spec n0 3), (Nat.ltb_spec n1 3), (Nat.ltb_spec n2 3); cbn; try reflexivity; lia.
Qed.

(** ** Refuted claims *)

Lemma slope_const n h i (a : R) : h <> 0%R -> slope n h (fun _ => a) i 0.
Proof. intros _. exists a, 0%R, 0%R. split; [intros; ring|ring]. Qed.

(** Rigid rotation about the third axis with angular velocity 1: the curl of the
    velocity has length 2 everywhere, the sum of squared slopes is 2; both
    results are 0. *)
Definition rotation : frame :=
  {| f_grid := [[0; 1]; [0; 1]; [0; 1]]%R; f_shape := [3; 3; 3; 5]%nat;
     f_at := fun idx => match idx with [_; _; _; 0] => 1 | [_; j; _; 1] => - INR j | [i; _; _; 2] => INR i | _ => 0 end%R |}.

Theorem C103_rotation_refuted : exists load, (forall c, load (file_name "sim_" c) = Ok rotation) /\
  (forall i j k, velocity rotation 1 i j k = - INR j /\ velocity rotation 2 i j k = INR i /\ velocity rotation 3 i j k = 0)%R /\
  calc_enstrophy load "sim_" 0 0 = Ok ([0%R], [0%R]).
Proof.
  exists (fun _ => Ok rotation). split; [reflexivity|]. assert (V : forall i j k, (velocity rotation 1 i j k = - INR j /\ velocity rotation 2 i j k = INR i /\ velocity rotation 3 i j k = 0)%R).
  { intros i j k. unfold velocity. cbn [f_at rotation]. repeat split; field. }
  split; [exact V|]. assert (D : data (fun _ => Ok rotation) "sim_" 0 0 1 1 1 3 3 3 (fun _ => rotation) [0; 1]%R [0; 1]%R [0; 1]%R []).
  { split; [reflexivity|]. do 3 (split; [apply step01|]). do 3 (split; [lia|]). intros c _. split; [reflexivity|]. exists 5%nat. split; [reflexivity|lia]. }
  destruct (C103_entries _ _ _ _ _ _ _ _ _ _ _ _ _ _ _ D (le_n 0) R1_neq_R0 R1_neq_R0 R1_neq_R0) as (out & E & L & H). rewrite E.
  destruct out as [|x [|y out]]; try discriminate. destruct (H 0%nat (le_n 1)) as (ux & vy & wz & S & Hx). cbn [nth_error] in Hx.
  assert (K : x = 0%R); [|now rewrite K]. assert (Oi : forall a b : R, Some a = Some b -> a = b) by congruence. apply Oi in Hx. rewrite Hx.
  assert (Z : sum3 (3 - 1) (3 - 1) (3 - 1) (fun i j k => f_at rotation [i; j; k; 0%nat] * (ux i j k ^ 2 + vy i j k ^ 2 + wz i j k ^ 2))%R = sum3 (3 - 1) (3 - 1) (3 - 1) (fun _ _ _ => 0%R)).
  { apply sum3_ext. intros i j k Hi Hj Hk. destruct (S i j k ltac:(lia) ltac:(lia) ltac:(lia)) as (S1 & S2 & S3). cbn [Nat.add] in *.
    assert (Ex : ux i j k = 0%R) by (apply (slope_unique _ _ _ _ _ _ R1_neq_R0 S1); exists (- INR j)%R, 0%R, 0%R; split; [intros l _; destruct (V l j k) as (-> & _); ring|ring]).
    assert (Ey : vy i j k = 0%R) by (apply (slope_unique _ _ _ _ _ _ R1_neq_R0 S2); exists (INR i)%R, 0%R, 0%R; split; [intros l _; destruct (V i l k) as (_ & -> & _); ring|ring]).
    assert (Ez : wz i j k = 0%R) by (apply (slope_unique _ _ _ _ _ _ R1_neq_R0 S3); exists 0%R, 0%R, 0%R; split; [intros l _; destruct (V i j l) as (_ & _ & ->); ring|ring]).
    rewrite Ex, Ey, Ez. ring. }
  cbn [Nat.add]. rewrite Z. unfold sum3, sum. cbn. ring.
Qed.

Print Assumptions C103_entries.
