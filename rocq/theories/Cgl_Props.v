(** * C114: parallel, perpendicular and agyrotropic parts of a pressure tensor *)
From Coq Require Import String Ascii List Arith ZArith Bool Lia Reals Lra.
From Verif Require Import Prelude PreludeFacts NdArray Ev_Model Tools_Arr Tools_Model Tools_Proofs Tools_Proofs2 Tools_Props Tools_Props2 Cgl_Model.
Import ListNotations.
Open Scope list_scope.
Open Scope nat_scope.
Open Scope R_scope.

Lemma cell_map sh w f h : holds sh w f -> holds sh (rmap h w) (fun x => h (f x)).
Proof.
  intros (W & Sh & V). split; [unfold wf, rmap, map_nda in *; cbn; now rewrite map_length|].
  split; [exact Sh|]. intros x Hx. specialize (V x Hx). revert V. unfold get, rmap, map_nda; cbn.
  destruct (ravel (shape w) x) as [k|]; [|discriminate]. rewrite nth_error_map. now intros ->.
Qed.

Section Cgl.
  Context (cells : list nat) (np nb : nat) (p b : arr) (fp fb : list nat -> nat -> R).
  Context (Sp : shows cells np p fp) (Sb : shows cells nb b fb) (Hp : (6 <= np)%nat) (Hb : (3 <= nb)%nat).
  Context (Nz : forall x, in_range cells x -> exists i, (i < 3)%nat /\ fb x i <> 0).

  Let m x := sqrt (fb x 0%nat * fb x 0%nat + fb x 1%nat * fb x 1%nat + fb x 2%nat * fb x 2%nat).
  Let u i x := fb x i / m x.
  Let q x := u 0%nat x * u 0%nat x * fp x 0%nat + u 1%nat x * u 1%nat x * fp x 3%nat + u 2%nat x * u 2%nat x * fp x 5%nat
      + 2 * (u 0%nat x * u 1%nat x * fp x 1%nat + u 0%nat x * u 2%nat x * fp x 2%nat + u 1%nat x * u 2%nat x * fp x 4%nat).
  Let r x := (fp x 0%nat + fp x 3%nat + fp x 5%nat - q x) / 2.

  Lemma six_ok : exists xx xy xz yy yz zz, six p = Ok (xx, xy, xz, yy, yz, zz) /\
    holds cells xx (fun x => fp x 0%nat) /\ holds cells xy (fun x => fp x 1%nat) /\ holds cells xz (fun x => fp x 2%nat) /\
    holds cells yy (fun x => fp x 3%nat) /\ holds cells yz (fun x => fp x 4%nat) /\ holds cells zz (fun x => fp x 5%nat).
  Proof.
    unfold six.
    destruct (holds_comp 0 p cells np fp Sp ltac:(clear - Hp; lia)) as (xx & -> & H0). destruct (holds_comp 1 p cells np fp Sp ltac:(clear - Hp; lia)) as (xy & -> & H1).
    destruct (holds_comp 2 p cells np fp Sp ltac:(clear - Hp; lia)) as (xz & -> & H2). destruct (holds_comp 3 p cells np fp Sp ltac:(clear - Hp; lia)) as (yy & -> & H3).
    destruct (holds_comp 4 p cells np fp Sp ltac:(clear - Hp; lia)) as (yz & -> & H4). destruct (holds_comp 5 p cells np fp Sp ltac:(clear - Hp; lia)) as (zz & -> & H5).
    cbn [bind]. exists xx, xy, xz, yy, yz, zz. repeat split; try reflexivity; try apply H0; try apply H1; try apply H2; try apply H3; try apply H4; apply H5.
  Qed.

  Ltac step w H := match goal with |- context [bind (?op ?a ?c) _] =>
      match goal with Ha : holds cells a _ |- _ => match goal with Hc : holds cells c _ |- _ =>
        let o := eval unfold mul, add, sub, div in op in
        match o with rb ?f => destruct (holds_rb f a c cells _ _ Ha Hc) as (w & H); change (op a c) with (rb f a c); let Q := fresh "Q" in destruct H as (Q & H); rewrite Q; clear Q; cbn [bind]; cbv beta in H end
      end end end.

  Lemma direction_ok : exists bx by_ bz, direction b = Ok (bx, by_, bz) /\ holds cells bx (u 0%nat) /\ holds cells by_ (u 1%nat) /\ holds cells bz (u 2%nat).
  Proof.
    unfold direction.
    destruct (holds_comp 0 b cells nb fb Sb ltac:(lia)) as (b0 & -> & H0). destruct (holds_comp 1 b cells nb fb Sb ltac:(lia)) as (b1 & -> & H1).
    destruct (holds_comp 2 b cells nb fb Sb ltac:(lia)) as (b2 & -> & H2). cbn [bind].
    step s0 hA0. step s1 hA1. step s hA. step s2 hA2. step t hB. cbv zeta.
    pose proof (cell_map cells t _ sqrt hB) as hC. cbv beta in hC.
    step kx0 hD0. step kx1 hD1. step kx2 hD2. exists kx0, kx1, kx2. split; [reflexivity|]. split; [exact hD0|]. split; [exact hD1|exact hD2].
  Qed.

  Lemma parallel_ok c d : six p = Ok c -> direction b = Ok d -> exists w, parallel c d = Ok w /\ holds cells w q.
  Proof.
    intros Ec Ed. destruct six_ok as (xx & xy & xz & yy & yz & zz & E & H0 & H1 & H2 & H3 & H4 & H5). rewrite E in Ec. injection Ec as <-.
    destruct direction_ok as (bx & by_ & bz & E' & K0 & K1 & K2). rewrite E' in Ed. injection Ed as <-. unfold parallel.
    step a1 hA1. step a2 hA2. step a3 hA3. step a4 hA4. step s hS1. step a5 hA5. step a6 hA6. step s' hS2.
    step kc1 hC1. step kc2 hC2. step kc3 hC3. step kc4 hC4. step kc5 hC5. step kc6 hC6. step kc7 hC7. step kc8 hC8.
    pose proof (cell_map cells kc8 _ (fun x => 2 * x) hC8) as L.
    destruct (holds_rb Rplus s' (scale 2 kc8) cells _ _ hS2 L) as (w & Ew & W). exists w. split; [exact Ew|]. exact W.
  Qed.

  Lemma half_ok c w : six p = Ok c -> holds cells w q -> exists v, half_rest c w = Ok v /\ holds cells v r.
  Proof.
    intros Ec W. destruct six_ok as (xx & xy & xz & yy & yz & zz & E & H0 & H1 & H2 & H3 & H4 & H5). rewrite E in Ec. injection Ec as <-.
    unfold half_rest. step s hA. step s' hB. step t hC. eexists. split; [reflexivity|]. exact (cell_map cells t _ (fun x => x / 2) hC).
  Qed.

  Lemma m_pos x : in_range cells x -> 0 < m x /\ m x * m x = dot (fb x) (fb x).
  Proof.
    intros Hx. pose proof (dot_pos (fb x) (Nz x Hx)) as D. unfold dot, sum3 in D. split; [now apply sqrt_lt_R0|].
    unfold m. rewrite sqrt_sqrt by lra. reflexivity.
  Qed.

  Lemma u_prod x i j : in_range cells x -> u i x * u j x = fb x i * fb x j / dot (fb x) (fb x).
  Proof. intros Hx. destruct (m_pos x Hx) as (P & E). rewrite <- E. unfold u. field. lra. Qed.

  Lemma q_quad x : in_range cells x -> q x * dot (fb x) (fb x) = quad (tensor_of (fp x)) (fb x).
  Proof.
    intros Hx. pose proof (dot_pos (fb x) (Nz x Hx)) as D. unfold q. rewrite !u_prod by exact Hx.
    unfold quad, sum3, tensor_of, place. field. lra.
  Qed.

  (** The first component is the pressure along the field, the second the mean
      pressure across it. *)
  Theorem C114_par_perp : exists par perp : list nat -> R,
    yields (getParPerp p b) cells 2 (fun x j => match j with O => par x | _ => perp x end) /\
    forall x, in_range cells x ->
      par x * dot (fb x) (fb x) = quad (tensor_of (fp x)) (fb x) /\
      par x + 2 * perp x = trace (tensor_of (fp x)).
  Proof.
    exists q, r. split.
    - unfold getParPerp. destruct (yields_cols 0 2 p cells np fp Sp) as (t & Et & St). rewrite Et. cbn [bind].
      assert (L : slice2 np 0 2 = [0; 1]%nat). { unfold slice2, adjust_pos. cbn [Z.ltb Z.compare]. rewrite !Z.min_l by lia. reflexivity. }
      rewrite L in St. cbn [length] in St.
      destruct six_ok as (xx & xy & xz & yy & yz & zz & Ec & _). destruct direction_ok as (bx & by_ & bz & Ed & _).
      destruct (parallel_ok _ _ Ec Ed) as (w & Ew & W). rewrite Ec. cbn [bind]. rewrite Ed. cbn [bind]. rewrite Ew. cbn [bind].
      eapply yields_bind; [eapply yields_set_col; [exact W|exact St|lia]|]. intros t1 S1. cbv beta in S1.
      destruct (holds_comp 0 t1 cells 2 _ S1 ltac:(lia)) as (w' & -> & W'). cbn [bind]. cbv beta in W'. cbn [Nat.eqb] in W'.
      destruct (half_ok _ w' Ec W') as (v & -> & V). cbn [bind].
      eapply yields_ext; [eapply yields_set_col; [exact V|exact S1|lia]|]. intros x j Hx Hj. cbv beta. destruct j as [|[|j]]; [reflexivity|reflexivity|lia].
    - intros x Hx. split; [exact (q_quad x Hx)|]. unfold r, trace, sum3, tensor_of, place. lra.
  Qed.

  Lemma rest_ok delta pij bi bj w v f i j : holds cells pij f -> holds cells bi (u i) -> holds cells bj (u j) -> holds cells w q -> holds cells v r ->
    exists e, rest delta pij bi bj w v = Ok e /\ holds cells e (fun x => f x - (q x * u i x * u j x + r x * (delta - u i x * u j x))).
  Proof.
    intros Hf Hi Hj Hq Hr. unfold rest.
    destruct (holds_rb Rmult w bi cells _ _ Hq Hi) as (a & Ea & A). change (mul w bi) with (rb Rmult w bi). rewrite Ea. cbn [bind].
    destruct (holds_rb Rmult a bj cells _ _ A Hj) as (a' & Ea' & A'). change (mul a bj) with (rb Rmult a bj). rewrite Ea'. cbn [bind].
    destruct (holds_rb Rmult bi bj cells _ _ Hi Hj) as (c & Ec & C). change (mul bi bj) with (rb Rmult bi bj). rewrite Ec. cbn [bind].
    pose proof (cell_map cells c _ (fun x => delta - x) C) as C'.
    destruct (holds_rb Rmult v _ cells _ _ Hr C') as (d & Ed & D). change (mul v (rmap (fun x : R => delta - x) c)) with (rb Rmult v (rmap (fun x : R => delta - x) c)). rewrite Ed. cbn [bind].
    destruct (holds_rb Rplus a' d cells _ _ A' D) as (s & Es & S1). change (add a' d) with (rb Rplus a' d). rewrite Es. cbn [bind].
    destruct (holds_rb Rminus pij s cells _ _ Hf S1) as (e & Ee & E). exists e. split; [exact Ee|]. exact E.
  Qed.

  (** [getAgyro] is what is left of the tensor when the gyrotropic tensor with the same two
      pressures is taken away; it has no trace and no pressure along the field. *)
  Theorem C114_agyro : exists (par perp : list nat -> R) (D : list nat -> nat -> R),
    yields (getParPerp p b) cells 2 (fun x j => match j with O => par x | _ => perp x end) /\
    yields (getAgyro p b) cells 6 D /\
    forall x, in_range cells x ->
      (forall i j, (i < 3)%nat -> (j < 3)%nat -> tensor_of (fp x) i j = gyro (par x) (perp x) (fb x) i j + tensor_of (D x) i j) /\
      trace (tensor_of (D x)) = 0 /\ quad (tensor_of (D x)) (fb x) = 0.
  Proof.
    destruct C114_par_perp as (par & perp & Y & I).
    pose (D := fun (x : list nat) (k : nat) => match k with
      | 0%nat => fp x 0%nat - (q x * u 0%nat x * u 0%nat x + r x * (1 - u 0%nat x * u 0%nat x))
      | 1%nat => fp x 1%nat - (q x * u 0%nat x * u 1%nat x + r x * (0 - u 0%nat x * u 1%nat x))
      | 2%nat => fp x 2%nat - (q x * u 0%nat x * u 2%nat x + r x * (0 - u 0%nat x * u 2%nat x))
      | 3%nat => fp x 3%nat - (q x * u 1%nat x * u 1%nat x + r x * (1 - u 1%nat x * u 1%nat x))
      | 4%nat => fp x 4%nat - (q x * u 1%nat x * u 2%nat x + r x * (0 - u 1%nat x * u 2%nat x))
      | _ => fp x 5%nat - (q x * u 2%nat x * u 2%nat x + r x * (1 - u 2%nat x * u 2%nat x))
      end).
    exists par, perp, D. split; [exact Y|]. split.
    - unfold getAgyro. destruct (yields_cols 0 6 p cells np fp Sp) as (t & Et & St). rewrite Et. cbn [bind].
      assert (L : slice2 np 0 6 = [0; 1; 2; 3; 4; 5]%nat). { unfold slice2, adjust_pos. cbn [Z.ltb Z.compare]. rewrite !Z.min_l by lia. reflexivity. }
      rewrite L in St. cbn [length] in St.
      destruct six_ok as (xx & xy & xz & yy & yz & zz & Ec & H0 & H1 & H2 & H3 & H4 & H5). destruct direction_ok as (bx & by_ & bz & Ed & K0 & K1 & K2).
      destruct (parallel_ok _ _ Ec Ed) as (w & Ew & W). destruct (half_ok _ w Ec W) as (v & Ev & V).
      rewrite Ec. cbn [bind]. rewrite Ed. cbn [bind]. rewrite Ew. cbn [bind]. rewrite Ev. cbn [bind].
      destruct (rest_ok 1 xx bx bx w v _ 0 0 H0 K0 K0 W V) as (e0 & -> & E0). cbn [bind].
      eapply yields_bind; [eapply yields_set_col; [exact E0|exact St|lia]|]. intros t0 T0. cbv beta in T0.
      destruct (rest_ok 0 xy bx by_ w v _ 0 1 H1 K0 K1 W V) as (e1 & -> & E1). cbn [bind].
      eapply yields_bind; [eapply yields_set_col; [exact E1|exact T0|lia]|]. intros t1 T1. cbv beta in T1.
      destruct (rest_ok 0 xz bx bz w v _ 0 2 H2 K0 K2 W V) as (e2 & -> & E2). cbn [bind].
      eapply yields_bind; [eapply yields_set_col; [exact E2|exact T1|lia]|]. intros t2 T2. cbv beta in T2.
      destruct (rest_ok 1 yy by_ by_ w v _ 1 1 H3 K1 K1 W V) as (e3 & -> & E3). cbn [bind].
      eapply yields_bind; [eapply yields_set_col; [exact E3|exact T2|lia]|]. intros t3 T3. cbv beta in T3.
      destruct (rest_ok 0 yz by_ bz w v _ 1 2 H4 K1 K2 W V) as (e4 & -> & E4). cbn [bind].
      eapply yields_bind; [eapply yields_set_col; [exact E4|exact T3|lia]|]. intros t4 T4. cbv beta in T4.
      destruct (rest_ok 1 zz bz bz w v _ 2 2 H5 K2 K2 W V) as (e5 & -> & E5). cbn [bind].
      eapply yields_ext; [eapply yields_set_col; [exact E5|exact T4|lia]|]. intros x j Hx Hj. cbv beta.
      destruct j as [|[|[|[|[|[|j]]]]]]; cbn [Nat.eqb]; try reflexivity; lia.
    - intros x Hx. destruct (I x Hx) as (I1 & I2). pose proof (dot_pos (fb x) (Nz x Hx)) as Dp. pose proof (q_quad x Hx) as Q.
      assert (Ep : par x = q x). { apply (Rmult_eq_reg_r (dot (fb x) (fb x))); lra. }
      assert (Er : perp x = r x). { unfold r. unfold trace, sum3, tensor_of, place in I2. lra. }
      assert (G : forall i j, (i < 3)%nat -> (j < 3)%nat -> tensor_of (D x) i j = tensor_of (fp x) i j - gyro (par x) (perp x) (fb x) i j).
      { assert (Um : forall i j, q x * u i x * u j x = q x * (u i x * u j x)) by (intros; ring).
        intros i j Hi Hj. rewrite Ep, Er. unfold gyro, delta, tensor_of.
        destruct i as [|[|[|i]]]; [| | |lia]; destruct j as [|[|[|j]]]; try lia; cbn [place D Nat.eqb]; rewrite ?Um, !u_prod by exact Hx; field; lra. }
      split; [|split].
      + intros i j Hi Hj. rewrite G by assumption. ring.
      + unfold trace, sum3. rewrite !G by lia. unfold trace, sum3 in I2. unfold gyro, delta. cbn [Nat.eqb].
        transitivity (tensor_of (fp x) 0 0 + tensor_of (fp x) 1 1 + tensor_of (fp x) 2 2 - (par x + 2 * perp x)); [|lra].
        unfold dot, sum3 in Dp |- *. field. lra.
      + unfold quad, sum3 in *. rewrite !G by lia. unfold gyro, delta. cbn [Nat.eqb].
        match type of I1 with ?a = ?c => transitivity (c - a); [|lra] end. unfold dot, sum3 in *. field. lra.
  Qed.

  Lemma pair_unique (P : nat -> nat -> R) (v : nat -> R) (a c a' c' : R) : 0 < dot v v ->
    a * dot v v = quad P v -> a + 2 * c = trace P -> a' * dot v v = quad P v -> a' + 2 * c' = trace P -> a = a' /\ c = c'.
  Proof. intros D E1 E2 E3 E4. assert (a = a') by (apply (Rmult_eq_reg_r (dot v v)); lra). split; lra. Qed.

  Lemma gyro_pair (a c : R) (v : nat -> R) : 0 < dot v v -> a * dot v v = quad (gyro a c v) v /\ a + 2 * c = trace (gyro a c v).
  Proof. intros D. unfold quad, trace, gyro, delta, dot, sum3 in *. cbn [Nat.eqb]. split; field; lra. Qed.

  Lemma yields_same rr f g k : yields rr cells k f -> yields rr cells k g -> forall x j, in_range cells x -> (j < k)%nat -> f x j = g x j.
  Proof. intros (w & E & _ & _ & V) (w' & E' & _ & _ & V') x j Hx Hj. rewrite E in E'. injection E' as <-. specialize (V x j Hx Hj). rewrite (V' x j Hx Hj) in V. now injection V. Qed.

  (** These are the pressures of tools/pressure_diagnostics.py. *)
  Theorem C114_same : exists par perp : list nat -> R,
    yields (getParPerp p b) cells 2 (fun x j => match j with O => par x | _ => perp x end) /\
    yields (get_p_par p b) cells 1 (fun x _ => par x) /\ yields (get_p_perp p b) cells 1 (fun x _ => perp x).
  Proof.
    destruct C114_par_perp as (par & perp & Y & I). destruct (C40_decomposition cells np nb p b fp fb Sp Sb Hp Hb Nz) as (par' & perp' & Y1 & Y2 & I').
    exists par, perp. split; [exact Y|].
    assert (E : forall x, in_range cells x -> par x = par' x /\ perp x = perp' x).
    { intros x Hx. destruct (I x Hx). destruct (I' x Hx). eapply (pair_unique (tensor_of (fp x)) (fb x)); eauto. now apply dot_pos, Nz. }
    split; (eapply yields_ext; [first [exact Y1|exact Y2]|]); intros x j Hx _; cbv beta; symmetry; apply E; exact Hx.
  Qed.

  (** There is no other way to split the tensor so. *)
  Theorem C114_unique (par perp : list nat -> R) (D : list nat -> nat -> R) :
    (forall x, in_range cells x ->
      (forall i j, (i < 3)%nat -> (j < 3)%nat -> tensor_of (fp x) i j = gyro (par x) (perp x) (fb x) i j + tensor_of (D x) i j) /\
      trace (tensor_of (D x)) = 0 /\ quad (tensor_of (D x)) (fb x) = 0) ->
    yields (getParPerp p b) cells 2 (fun x j => match j with O => par x | _ => perp x end) /\ yields (getAgyro p b) cells 6 D.
  Proof.
    intros H. destruct C114_agyro as (par' & perp' & D' & Y & Y' & I).
    assert (K : forall a c (E : nat -> R) x, in_range cells x ->
       (forall i j, (i < 3)%nat -> (j < 3)%nat -> tensor_of (fp x) i j = gyro a c (fb x) i j + tensor_of E i j) -> trace (tensor_of E) = 0 -> quad (tensor_of E) (fb x) = 0 ->
       a * dot (fb x) (fb x) = quad (tensor_of (fp x)) (fb x) /\ a + 2 * c = trace (tensor_of (fp x))).
    { intros a c E x Hx E1 E2 E3. destruct (gyro_pair a c (fb x) (dot_pos _ (Nz x Hx))) as (G1 & G2). unfold quad, trace, sum3 in *. rewrite !E1 by lia. split; lra. }
    assert (E : forall x, in_range cells x -> par' x = par x /\ perp' x = perp x).
    { intros x Hx. destruct (I x Hx) as (A & B & C). destruct (H x Hx) as (A' & B' & C'). destruct (K _ _ _ x Hx A B C). destruct (K _ _ _ x Hx A' B' C').
      eapply (pair_unique (tensor_of (fp x)) (fb x)); eauto. now apply dot_pos, Nz. }
    split.
    - eapply yields_ext; [exact Y|]. intros x j Hx _. cbv beta. destruct (E x Hx) as (-> & ->). reflexivity.
    - eapply yields_ext; [exact Y'|]. intros x j Hx Hj. destruct (E x Hx) as (E1 & E2). destruct (I x Hx) as (A & _). destruct (H x Hx) as (A' & _).
      assert (T : forall i k, (i < 3)%nat -> (k < 3)%nat -> tensor_of (D' x) i k = tensor_of (D x) i k). { intros i k Hi Hk. specialize (A i k Hi Hk). specialize (A' i k Hi Hk). rewrite E1, E2 in A. lra. }
      destruct j as [|[|[|[|[|[|j]]]]]]; [exact (T 0%nat 0%nat ltac:(lia) ltac:(lia))|exact (T 0%nat 1%nat ltac:(lia) ltac:(lia))|exact (T 0%nat 2%nat ltac:(lia) ltac:(lia))|exact (T 1%nat 1%nat ltac:(lia) ltac:(lia))|exact (T 1%nat 2%nat ltac:(lia) ltac:(lia))|exact (T 2%nat 2%nat ltac:(lia) ltac:(lia))|lia].
  Qed.

  (** The result vanishes exactly for gyrotropic tensors. *)
  Theorem C114_gyrotropic :
    yields (getAgyro p b) cells 6 (fun _ _ => 0) <->
    forall x, in_range cells x -> exists par perp, forall i j, (i < 3)%nat -> (j < 3)%nat -> tensor_of (fp x) i j = gyro par perp (fb x) i j.
  Proof.
    split.
    - intros Z x Hx. destruct C114_agyro as (par & perp & D & _ & Y & I). exists (par x), (perp x). intros i j Hi Hj. destruct (I x Hx) as (A & _). rewrite (A i j Hi Hj).
      unfold tensor_of. rewrite (yields_same _ _ _ _ Y Z x (place i j) Hx); [ring|]. destruct i as [|[|[|i]]]; destruct j as [|[|[|j]]]; cbn [place]; lia.
    - intros G. destruct C114_agyro as (par & perp & D & _ & Y & I). eapply yields_ext; [exact Y|]. intros x j Hx Hj. cbv beta.
      destruct (G x Hx) as (a & c & E). destruct (I x Hx) as (A & B & C). pose proof (dot_pos _ (Nz x Hx)) as Dp.
      destruct (gyro_pair a c (fb x) Dp) as (G1 & G2). destruct (gyro_pair (par x) (perp x) (fb x) Dp) as (G3 & G4).
      assert (Eq : par x = a /\ perp x = c).
      { apply (pair_unique (tensor_of (fp x)) (fb x) _ _ _ _ Dp).
        - rewrite G3. unfold quad, sum3 in *. rewrite !A by lia. lra.
        - rewrite G4. unfold trace, sum3 in *. rewrite !A by lia. lra.
        - rewrite G1. unfold quad, sum3. now rewrite !E by lia.
        - rewrite G2. unfold trace, sum3. now rewrite !E by lia. }
      destruct Eq as (E1 & E2).
      assert (T : forall i k, (i < 3)%nat -> (k < 3)%nat -> tensor_of (D x) i k = 0). { intros i k Hi Hk. specialize (A i k Hi Hk). specialize (E i k Hi Hk). rewrite E1, E2 in A. lra. }
      destruct j as [|[|[|[|[|[|j]]]]]]; [exact (T 0%nat 0%nat ltac:(lia) ltac:(lia))|exact (T 0%nat 1%nat ltac:(lia) ltac:(lia))|exact (T 0%nat 2%nat ltac:(lia) ltac:(lia))|exact (T 1%nat 1%nat ltac:(lia) ltac:(lia))|exact (T 1%nat 2%nat ltac:(lia) ltac:(lia))|exact (T 2%nat 2%nat ltac:(lia) ltac:(lia))|lia].
  Qed.
End Cgl.

(** Too few components of the tensor or of the field: an [IndexError]. *)
Theorem C114_few cells np nb p b fp fb : shows cells np p fp -> shows cells nb b fb -> (np < 6 \/ nb < 3)%nat ->
  getParPerp p b = Err IndexError /\ getAgyro p b = Err IndexError.
Proof.
  intros Sp Sb H.
  assert (C : six p = Err IndexError \/ exists c, six p = Ok c /\ direction b = Err IndexError).
  { destruct (le_lt_dec 6 np) as [G|G].
    - right. destruct (six_ok cells np p fp Sp G) as (xx & xy & xz & yy & yz & zz & E & _).
      eexists. split; [exact E|]. assert (L : (nb < 3)%nat) by lia. clear E H. destruct Sb as (W & Sh & V). unfold direction.
      assert (K : forall c v, comp c b = Ok v -> (c < nb)%nat). { intros c v Ec. destruct (le_lt_dec nb c) as [Q|Q]; [|exact Q]. rewrite (comp_err c b cells nb Sh Q) in Ec. discriminate Ec. }
      assert (K' : forall c, comp c b = Err IndexError \/ exists v, comp c b = Ok v). { intros c. destruct (le_lt_dec nb c) as [Q|Q]; [left; exact (comp_err c b cells nb Sh Q)|right]. destruct (holds_comp c b cells nb fb (conj W (conj Sh V)) Q) as (v & E & _). eauto. }
      destruct (K' 0%nat) as [->|(v0 & E0)]; [reflexivity|]. rewrite E0. cbn [bind]. destruct (K' 1%nat) as [->|(v1 & E1)]; [reflexivity|]. rewrite E1. cbn [bind].
      destruct (K' 2%nat) as [->|(v2 & E2)]; [reflexivity|]. apply K in E2. lia.
    - left. destruct Sp as (W & Sh & V). unfold six.
      assert (K : forall c v, comp c p = Ok v -> (c < np)%nat). { intros c v Ec. destruct (le_lt_dec np c) as [Q|Q]; [|exact Q]. rewrite (comp_err c p cells np Sh Q) in Ec. discriminate Ec. }
      assert (K' : forall c, comp c p = Err IndexError \/ exists v, comp c p = Ok v). { intros c. destruct (le_lt_dec np c) as [Q|Q]; [left; exact (comp_err c p cells np Sh Q)|right]. destruct (holds_comp c p cells np fp (conj W (conj Sh V)) Q) as (v & E & _). eauto. }
      destruct (K' 0%nat) as [->|(v0 & E0)]; [reflexivity|]. rewrite E0. cbn [bind]. destruct (K' 1%nat) as [->|(v1 & E1)]; [reflexivity|]. rewrite E1. cbn [bind].
      destruct (K' 2%nat) as [->|(v2 & E2)]; [reflexivity|]. rewrite E2. cbn [bind]. destruct (K' 3%nat) as [->|(v3 & E3)]; [reflexivity|]. rewrite E3. cbn [bind].
      destruct (K' 4%nat) as [->|(v4 & E4)]; [reflexivity|]. rewrite E4. cbn [bind]. destruct (K' 5%nat) as [->|(v5 & E5)]; [reflexivity|]. apply K in E5. lia. }
  unfold getParPerp, getAgyro. destruct (yields_cols 0 2 p cells np fp Sp) as (t & -> & _). destruct (yields_cols 0 6 p cells np fp Sp) as (t' & -> & _). cbn [bind].
  destruct C as [->|(c & -> & ->)]; cbn [bind]; split; reflexivity.
Qed.

(** ** Examples *)

(** One cell, field along z: parallel pressure 3, the others 1 and 2, a shear xy of 1/2. *)
Definition p_ex : arr := mk_nda [1; 6]%nat [1; 1 / 2; 0; 2; 0; 3].
Definition b_ex : arr := mk_nda [1; 3]%nat [0; 0; 2].
Definition fp_ex (_ : list nat) (j : nat) : R := nth j [1; 1 / 2; 0; 2; 0; 3] 0.
Definition fb_ex (_ : list nat) (j : nat) : R := nth j [0; 0; 2] 0.
Example p_ex_shows : shows [1]%nat 6 p_ex fp_ex.
Proof.
  split; [reflexivity|]. split; [reflexivity|]. intros x j Hx Hj. inversion Hx as [|i ? x' ? Hi Hx']; subst. inversion Hx'; subst.
  assert (i = 0)%nat by lia. subst i. destruct j as [|[|[|[|[|[|j]]]]]]; [reflexivity..|lia].
Qed.
Example b_ex_shows : shows [1]%nat 3 b_ex fb_ex.
Proof.
  split; [reflexivity|]. split; [reflexivity|]. intros x j Hx Hj. inversion Hx as [|i ? x' ? Hi Hx']; subst. inversion Hx'; subst.
  assert (i = 0)%nat by lia. subst i. destruct j as [|[|[|j]]]; [reflexivity..|lia].
Qed.
Example cgl_ex : yields (getParPerp p_ex b_ex) [1]%nat 2 (fun _ j => match j with O => 3 | _ => 3 / 2 end) /\
  yields (getAgyro p_ex b_ex) [1]%nat 6 (fun _ j => nth j [- (1 / 2); 1 / 2; 0; 1 / 2; 0; 0] 0).
Proof.
  apply (C114_unique [1]%nat 6 3 p_ex b_ex fp_ex fb_ex p_ex_shows b_ex_shows (le_n _) (le_n _)) with (par := fun _ => 3) (perp := fun _ => 3 / 2).
  - intros x _. exists 2%nat. split; [lia|]. cbn. lra.
  - intros x _. unfold tensor_of, gyro, delta, trace, quad, dot, sum3, fp_ex, fb_ex. split; [|split; cbn; lra].
    intros i j Hi Hj. destruct i as [|[|[|i]]]; destruct j as [|[|[|j]]]; try lia; cbn; lra.
Qed.

Print Assumptions C114_par_perp.
Print Assumptions C114_agyro.
Print Assumptions C114_same.
Print Assumptions C114_unique.
Print Assumptions C114_gyrotropic.
Print Assumptions C114_few.
