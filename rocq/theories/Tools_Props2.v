(** * C40, C41: pressure along a magnetic field and agyrotropy. *)
From Coq Require Import String Ascii List Arith ZArith Bool Lia Reals Lra.
From Verif Require Import Prelude PreludeFacts NdArray Ev_Model Tools_Arr Tools_Model Tools_Proofs Tools_Proofs2 Tools_Props.
Import ListNotations.
Open Scope list_scope.
Open Scope nat_scope.

(** ** Specification: vectors and symmetric tensors of three-space *)

(** Components of a symmetric tensor are stored as xx, xy, xz, yy, yz, zz. *)
Definition place (i j : nat) : nat :=
  match i, j with
  | 0, 0 => 0 | 0, 1 | 1, 0 => 1 | 0, 2 | 2, 0 => 2
  | 1, 1 => 3 | 1, 2 | 2, 1 => 4 | _, _ => 5
  end.
Open Scope R_scope.

Definition sum3 (f : nat -> R) : R := f 0%nat + f 1%nat + f 2%nat.
Definition dot (u w : nat -> R) : R := sum3 (fun i => u i * w i).
Definition tensor_of (c : nat -> R) (i j : nat) : R := c (place i j).
Definition quad (P : nat -> nat -> R) (u : nat -> R) : R := sum3 (fun i => sum3 (fun j => u i * P i j * u j)).
Definition trace (P : nat -> nat -> R) : R := sum3 (fun i => P i i).
Definition delta (i j : nat) : R := if (i =? j)%nat then 1 else 0.
(** [p_perp I + (p_par - p_perp) bb]. *)
Definition gyro (par perp : R) (b : nat -> R) (i j : nat) : R := perp * delta i j + (par - perp) * (b i * b j / dot b b).
Definition frob2 (D : nat -> nat -> R) : R := sum3 (fun i => sum3 (fun j => D i j * D i j)).

Lemma sum3_square (a b c : R) : a * a + b * b + c * c = 0 -> a = 0 /\ b = 0 /\ c = 0.
Proof.
  intros H. pose proof (Rle_0_sqr a) as Ha. pose proof (Rle_0_sqr b) as Hb. pose proof (Rle_0_sqr c) as Hc.
  unfold Rsqr in *. repeat split; apply Rsqr_eq_0; unfold Rsqr; lra.
Qed.

Lemma dot_pos (u : nat -> R) : (exists i, (i < 3)%nat /\ u i <> 0) -> 0 < dot u u.
Proof.
  intros (i & Hi & N). unfold dot, sum3.
  pose proof (Rle_0_sqr (u 0%nat)) as H0. pose proof (Rle_0_sqr (u 1%nat)) as H1. pose proof (Rle_0_sqr (u 2%nat)) as H2.
  unfold Rsqr in *.
  destruct (Req_dec (u 0%nat * u 0%nat + u 1%nat * u 1%nat + u 2%nat * u 2%nat) 0) as [E|E]; [|lra].
  apply sum3_square in E as (E0 & E1 & E2). destruct i as [|[|[|i]]]; try lia; congruence.
Qed.

Lemma B2_dot fb x : B2 fb x = dot (fb x) (fb x).
Proof. reflexivity. Qed.
Lemma bPb_quad fp fb x : bPb fp fb x = quad (tensor_of (fp x)) (fb x).
Proof. unfold bPb, quad, sum3, tensor_of, place. ring. Qed.
Lemma trP_trace fp x : trP fp x = trace (tensor_of (fp x)).
Proof. reflexivity. Qed.

Section Pressure.
  Context (cells : list nat) (np nb : nat) (p b : arr) (fp fb : list nat -> nat -> R).
  Context (Sp : shows cells np p fp) (Sb : shows cells nb b fb) (Hp : (6 <= np)%nat) (Hb : (3 <= nb)%nat).
  Context (Nz : forall x, in_range cells x -> exists i, (i < 3)%nat /\ fb x i <> 0).

  Lemma B2_pos x : in_range cells x -> 0 < B2 fb x.
  Proof using Nz. intros. rewrite B2_dot. apply dot_pos. auto. Qed.

  (** ** C40 *)
  Theorem C40_decomposition : exists par perp : list nat -> R,
    yields (get_p_par p b) cells 1 (fun x _ => par x) /\
    yields (get_p_perp p b) cells 1 (fun x _ => perp x) /\
    forall x, in_range cells x ->
      par x * dot (fb x) (fb x) = quad (tensor_of (fp x)) (fb x) /\
      par x + 2 * perp x = trace (tensor_of (fp x)).
  Proof using All.
    exists (ppar fp fb), (pperp fp fb).
    split; [eapply y_p_par; eauto|]. split; [eapply y_p_perp; eauto|].
    intros x Hx. pose proof (B2_pos x Hx) as HB. rewrite <- bPb_quad, <- trP_trace, <- B2_dot.
    unfold pperp, ppar. split; field; lra.
  Qed.

  Theorem C40_scale b' fb' nb' (c : list nat -> R) :
    (3 <= nb')%nat -> shows cells nb' b' fb' ->
    (forall x, in_range cells x -> c x <> 0 /\ forall i, (i < 3)%nat -> fb' x i = c x * fb x i) ->
    get_p_par p b' = get_p_par p b /\ get_p_perp p b' = get_p_perp p b.
  Proof using All.
    intros Hb' Sb' Hc.
    assert (E : forall x, in_range cells x -> ppar fp fb' x = ppar fp fb x).
    { intros x Hx. destruct (Hc x Hx) as (Nc & Ec). pose proof (B2_pos x Hx) as HB. unfold ppar, bPb, B2 in *.
      rewrite !Ec by lia. field. split; [lra|].
      replace (c x * fb x 0%nat * (c x * fb x 0%nat) + c x * fb x 1%nat * (c x * fb x 1%nat) + c x * fb x 2%nat * (c x * fb x 2%nat))
        with (c x * c x * (fb x 0%nat * fb x 0%nat + fb x 1%nat * fb x 1%nat + fb x 2%nat * fb x 2%nat)) by ring.
      apply Rmult_integral_contrapositive_currified; [nra|lra]. }
    assert (U : forall r r' f g, yields r cells 1 f -> yields r' cells 1 g ->
       (forall x, in_range cells x -> f x 0%nat = g x 0%nat) -> r = r').
    { intros r r' f g (w & -> & W & S & V) (w' & -> & W' & S' & V') He. f_equal. apply nda_ext; auto; [congruence|].
      intros idx Hi. rewrite S in Hi. apply in_range_snoc_inv in Hi as (x & j & -> & Hx & Hj).
      rewrite V, V' by auto. f_equal. assert (j = 0%nat) by lia. subst j. auto. }
    split.
    - eapply U; [eapply y_p_par; [exact Sp|exact Sb'|lia|lia]|eapply y_p_par; [exact Sp|exact Sb|lia|lia]|].
      intros x Hx. cbv beta. auto.
    - eapply U; [eapply y_p_perp; [exact Sp|exact Sb'|lia|lia]|eapply y_p_perp; [exact Sp|exact Sb|lia|lia]|].
      intros x Hx. cbv beta. unfold pperp. rewrite E by auto. reflexivity.
  Qed.

  Lemma gyro_par par perp x : in_range cells x ->
    (forall i j, (i < 3)%nat -> (j < 3)%nat -> tensor_of (fp x) i j = gyro par perp (fb x) i j) ->
    ppar fp fb x = par /\ pperp fp fb x = perp.
  Proof using Nz.
    intros Hx H. pose proof (B2_pos x Hx) as HB.
    assert (G : forall i j k, (i < 3)%nat -> (j < 3)%nat -> place i j = k -> fp x k = gyro par perp (fb x) i j).
    { intros i j k Hi Hj <-. apply (H i j Hi Hj). }
    assert (E : ppar fp fb x = par).
    { unfold ppar, bPb, B2 in *.
      rewrite (G 0 0 0)%nat, (G 0 1 1)%nat, (G 0 2 2)%nat, (G 1 1 3)%nat, (G 1 2 4)%nat, (G 2 2 5)%nat by (auto; lia).
      unfold gyro, dot, sum3, delta. cbn [Nat.eqb]. field. lra. }
    split; [exact E|]. unfold pperp. rewrite E. unfold trP.
    rewrite (G 0 0 0)%nat, (G 1 1 3)%nat, (G 2 2 5)%nat by (auto; lia).
    unfold gyro, dot, sum3, delta. cbn [Nat.eqb]. unfold B2 in HB. field. lra.
  Qed.

  Theorem C40_gyrotropic (par perp : list nat -> R) :
    (forall x i j, in_range cells x -> (i < 3)%nat -> (j < 3)%nat -> tensor_of (fp x) i j = gyro (par x) (perp x) (fb x) i j) ->
    yields (get_p_par p b) cells 1 (fun x _ => par x) /\ yields (get_p_perp p b) cells 1 (fun x _ => perp x).
  Proof using All.
    intros H. split; (eapply yields_ext; [first [eapply y_p_par|eapply y_p_perp]; eauto|]); intros x j Hx Hj; cbv beta;
      destruct (gyro_par (par x) (perp x) x Hx) as [E1 E2]; auto.
  Qed.

  (** Pressures of a positive semi-definite tensor are not negative. *)
  Theorem C40_positive :
    (forall x u, in_range cells x -> 0 <= quad (tensor_of (fp x)) u) ->
    exists par perp : list nat -> R,
      yields (get_p_par p b) cells 1 (fun x _ => par x) /\ yields (get_p_perp p b) cells 1 (fun x _ => perp x) /\
      forall x, in_range cells x -> 0 <= par x /\ 0 <= perp x.
  Proof using All.
    intros PSD. exists (ppar fp fb), (pperp fp fb).
    split; [eapply y_p_par; eauto|]. split; [eapply y_p_perp; eauto|].
    intros x Hx. pose proof (B2_pos x Hx) as HB.
    assert (Hi : 0 < / B2 fb x) by (apply Rinv_0_lt_compat; exact HB).
    split.
    - unfold ppar. rewrite bPb_quad. apply Rmult_le_pos; [apply PSD; exact Hx|lra].
    - set (e1 := fun i => match i with O => 0 | 1%nat => - fb x 2%nat | _ => fb x 1%nat end).
      set (e2 := fun i => match i with O => fb x 2%nat | 1%nat => 0 | _ => - fb x 0%nat end).
      set (e3 := fun i => match i with O => - fb x 1%nat | 1%nat => fb x 0%nat | _ => 0 end).
      pose proof (PSD x e1 Hx) as Q1. pose proof (PSD x e2 Hx) as Q2. pose proof (PSD x e3 Hx) as Q3.
      assert (I : pperp fp fb x = (quad (tensor_of (fp x)) e1 + quad (tensor_of (fp x)) e2 + quad (tensor_of (fp x)) e3) * (/ B2 fb x) / 2).
      { unfold pperp, ppar, trP, bPb, B2, quad, sum3, tensor_of, place, e1, e2, e3 in *. field. lra. }
      rewrite I. apply Rmult_le_pos; [|lra]. apply Rmult_le_pos; lra.
  Qed.

  (** ** C41 *)
  Lemma dd_identity x : in_range cells x -> dd fp fb x = den fp fb x - 2 * i2 fp x.
  Proof using Nz.
    intros Hx. pose proof (B2_pos x Hx) as HB.
    set (t := (ppar fp fb x - pperp fp fb x) / B2 fb x).
    assert (T1 : t * B2 fb x = ppar fp fb x - pperp fp fb x) by (unfold t; field; lra).
    assert (T2 : t * bPb fp fb x = (ppar fp fb x - pperp fp fb x) * ppar fp fb x) by (unfold t, ppar; field; lra).
    assert (T3 : trP fp x = ppar fp fb x + 2 * pperp fp fb x) by (unfold pperp; field).
    assert (D : forall de pij bi bj, dev fp fb x de pij bi bj = pij - pperp fp fb x * de - t * (bi * bj)).
    { intros. unfold dev, t. field. lra. }
    assert (E : dd fp fb x = (fp x 0%nat * fp x 0%nat + fp x 3%nat * fp x 3%nat + fp x 5%nat * fp x 5%nat
         + 2 * (fp x 1%nat * fp x 1%nat + fp x 2%nat * fp x 2%nat + fp x 4%nat * fp x 4%nat))
       - 2 * pperp fp fb x * trP fp x - 2 * (t * bPb fp fb x) + 3 * (pperp fp fb x * pperp fp fb x)
       + 2 * pperp fp fb x * (t * B2 fb x) + (t * B2 fb x) * (t * B2 fb x)).
    { unfold dd, dxx, dxy, dxz, dyy, dyz, dzz. rewrite !D. unfold trP, bPb, B2. ring. }
    rewrite E, T1, T2.
    replace (fp x 0%nat * fp x 0%nat + fp x 3%nat * fp x 3%nat + fp x 5%nat * fp x 5%nat
         + 2 * (fp x 1%nat * fp x 1%nat + fp x 2%nat * fp x 2%nat + fp x 4%nat * fp x 4%nat))
      with (trP fp x * trP fp x - 2 * i2 fp x) by (unfold trP, i2; ring).
    rewrite T3. unfold den. ring.
  Qed.

  Lemma dd_frob x : in_range cells x ->
    dd fp fb x = frob2 (fun i j => tensor_of (fp x) i j - gyro (ppar fp fb x) (pperp fp fb x) (fb x) i j).
  Proof using Nz.
    intros Hx. pose proof (B2_pos x Hx) as HB.
    unfold frob2, sum3, tensor_of, gyro, delta. cbn [place Nat.eqb]. rewrite <- !B2_dot.
    unfold dd, dxx, dxy, dxz, dyy, dyz, dzz, dev. field. lra.
  Qed.

  Lemma frob2_zero (D : nat -> nat -> R) : frob2 D = 0 -> forall i j, (i < 3)%nat -> (j < 3)%nat -> D i j = 0.
  Proof using.
    clear - D. unfold frob2, sum3. intros H i j Hi Hj.
    assert (Q : forall a b : nat, 0 <= D a b * D a b) by (intros a b'; apply (Rle_0_sqr (D a b'))).
    pose proof (Q 0 0)%nat. pose proof (Q 0 1)%nat. pose proof (Q 0 2)%nat. pose proof (Q 1 0)%nat. pose proof (Q 1 1)%nat.
    pose proof (Q 1 2)%nat. pose proof (Q 2 0)%nat. pose proof (Q 2 1)%nat. pose proof (Q 2 2)%nat. clear Q.
    destruct i as [|[|[|i]]]; try lia; destruct j as [|[|[|j]]]; try lia; apply Rsqr_eq_0; unfold Rsqr; lra.
  Qed.

  Lemma frob2_pos (D : nat -> nat -> R) : 0 <= frob2 D.
  Proof using.
    assert (Q : forall a b : nat, 0 <= D a b * D a b) by (intros a b'; apply (Rle_0_sqr (D a b'))).
    unfold frob2, sum3. pose proof (Q 0 0)%nat. pose proof (Q 0 1)%nat. pose proof (Q 0 2)%nat. pose proof (Q 1 0)%nat. pose proof (Q 1 1)%nat.
    pose proof (Q 1 2)%nat. pose proof (Q 2 0)%nat. pose proof (Q 2 1)%nat. pose proof (Q 2 2)%nat. lra.
  Qed.

  (** [par] and [perp] are the parallel and perpendicular pressures the tool
      reports; where both are positive, the measure is the Frobenius norm of the
      deviation from the gyrotropic tensor with these pressures, over the norm
      scale, is never negative, and vanishes exactly for that tensor. *)
  Theorem C41_frobenius m : str_lower m = "frobenius"%string ->
    exists par perp q : list nat -> R,
      yields (get_p_par p b) cells 1 (fun x _ => par x) /\ yields (get_p_perp p b) cells 1 (fun x _ => perp x) /\
      yields (get_agyro m p b) cells 1 (fun x _ => q x) /\
      forall x, in_range cells x -> 0 < perp x -> 0 < perp x + 2 * par x ->
        q x = sqrt (frob2 (fun i j => tensor_of (fp x) i j - gyro (par x) (perp x) (fb x) i j))
              / sqrt (2 * (perp x)^2 + 4 * par x * perp x) /\
        0 <= q x /\
        (q x = 0 <-> forall i j, (i < 3)%nat -> (j < 3)%nat -> tensor_of (fp x) i j = gyro (par x) (perp x) (fb x) i j).
  Proof using All.
    intros Em. exists (ppar fp fb), (pperp fp fb), (fun x => sqrt (dd fp fb x) / sqrt (den fp fb x)).
    split; [eapply y_p_par; eauto|]. split; [eapply y_p_perp; eauto|].
    split; [eapply y_frobenius; eauto|].
    intros x Hx H1 H2.
    assert (Hden : 0 < den fp fb x).
    { unfold den. replace (2 * (pperp fp fb x * pperp fp fb x) + 4 * ppar fp fb x * pperp fp fb x)
        with (2 * (pperp fp fb x * (pperp fp fb x + 2 * ppar fp fb x))) by ring.
      apply Rmult_lt_0_compat; [lra|]. apply Rmult_lt_0_compat; assumption. }
    assert (Hs : 0 < sqrt (den fp fb x)) by (apply sqrt_lt_R0; exact Hden).
    split; [|split].
    - rewrite <- dd_frob by exact Hx. f_equal. f_equal. unfold den. ring.
    - apply Rmult_le_pos; [apply sqrt_pos|]. apply Rlt_le, Rinv_0_lt_compat. exact Hs.
    - split.
      + intros E. apply Rmult_integral in E as [E|E].
        * apply sqrt_eq_0 in E; [|rewrite dd_frob by exact Hx; apply frob2_pos].
          rewrite dd_frob in E by exact Hx. intros i j Hi Hj. pose proof (frob2_zero _ E i j Hi Hj) as Z. cbv beta in Z. lra.
        * exfalso. apply Rinv_neq_0_compat in E; [assumption|lra].
      + intros G. rewrite dd_frob by exact Hx.
        replace (frob2 _) with 0; [rewrite sqrt_0; unfold Rdiv; ring|].
        unfold frob2, sum3. rewrite !G by lia. ring.
  Qed.

  (** Where the measures are defined they are the same number. *)
  Theorem C41_equal m m' : str_lower m = "frobenius"%string -> str_lower m' = "swisdak"%string ->
    (exists par perp : list nat -> R,
      yields (get_p_par p b) cells 1 (fun x _ => par x) /\ yields (get_p_perp p b) cells 1 (fun x _ => perp x) /\
      forall x, in_range cells x -> 0 < perp x /\ 0 < perp x + 2 * par x) ->
    get_agyro m' p b = get_agyro m p b.
  Proof using All.
    intros Em Em' (par & perp & Y1 & Y2 & Pos).
    destruct (y_frobenius cells np nb p b fp fb Sp Sb Hp Hb m Em) as (w & -> & W & S & V).
    destruct (y_swisdak cells np nb p b fp fb Sp Sb Hp Hb m' Em') as (w' & -> & W' & S' & V').
    f_equal. apply nda_ext; auto; [congruence|].
    intros idx Hi. rewrite S' in Hi. apply in_range_snoc_inv in Hi as (x & j & -> & Hx & Hj).
    rewrite V, V' by auto. f_equal.
    assert (E1 : par x = ppar fp fb x).
    { destruct Y1 as (a & Ea & Wa & Sa & Va). destruct (y_p_par cells np nb p b fp fb Sp Sb Hp Hb) as (a' & Ea' & _ & _ & Va').
      rewrite Ea in Ea'. injection Ea' as <-. specialize (Va x 0%nat Hx ltac:(lia)). specialize (Va' x 0%nat Hx ltac:(lia)). congruence. }
    assert (E2 : perp x = pperp fp fb x).
    { destruct Y2 as (a & Ea & Wa & Sa & Va). destruct (y_p_perp cells np nb p b fp fb Sp Sb Hp Hb) as (a' & Ea' & _ & _ & Va').
      rewrite Ea in Ea'. injection Ea' as <-. specialize (Va x 0%nat Hx ltac:(lia)). specialize (Va' x 0%nat Hx ltac:(lia)). congruence. }
    destruct (Pos x Hx) as [P1 P2]. rewrite E1, E2 in *.
    assert (Hden : 0 < den fp fb x).
    { unfold den. replace (2 * (pperp fp fb x * pperp fp fb x) + 4 * ppar fp fb x * pperp fp fb x)
        with (2 * (pperp fp fb x * (pperp fp fb x + 2 * ppar fp fb x))) by ring.
      apply Rmult_lt_0_compat; [lra|]. apply Rmult_lt_0_compat; assumption. }
    rewrite <- sqrt_div_alt by exact Hden. f_equal. rewrite dd_identity by exact Hx.
    assert (T : trP fp x = ppar fp fb x + 2 * pperp fp fb x) by (unfold pperp; field).
    rewrite T. unfold den in *.
    assert (pperp fp fb x <> 0) by lra. assert (pperp fp fb x + 2 * ppar fp fb x <> 0) by lra.
    field. repeat split; nra.
  Qed.

  Theorem C41_gyrotropic m (par perp : list nat -> R) :
    str_lower m = "frobenius"%string \/ str_lower m = "swisdak"%string ->
    (forall x, in_range cells x -> 0 < perp x /\ 0 < perp x + 2 * par x) ->
    (forall x i j, in_range cells x -> (i < 3)%nat -> (j < 3)%nat -> tensor_of (fp x) i j = gyro (par x) (perp x) (fb x) i j) ->
    yields (get_agyro m p b) cells 1 (fun _ _ => 0).
  Proof using All.
    intros Em Pos G. destruct (C40_gyrotropic par perp G) as [Y1 Y2].
    assert (F : forall k, str_lower k = "frobenius"%string -> yields (get_agyro k p b) cells 1 (fun _ _ => 0)).
    { intros k Ek. eapply yields_ext; [eapply y_frobenius; eauto|]. intros x j Hx Hj. cbv beta.
      destruct (gyro_par (par x) (perp x) x Hx ltac:(auto)) as [E1 E2].
      rewrite dd_frob, E1, E2 by exact Hx. replace (frob2 _) with 0; [rewrite sqrt_0; unfold Rdiv; ring|].
      unfold frob2, sum3. rewrite !G by (auto; lia). ring. }
    destruct Em as [Em|Em]; [apply F; exact Em|].
    rewrite (C41_equal "frobenius" m eq_refl Em); [apply F; reflexivity|].
    exists par, perp. auto.
  Qed.

  (** Any other name is refused. *)
  Theorem C41_names m : str_lower m <> "swisdak"%string -> str_lower m <> "frobenius"%string -> get_agyro m p b = Err ValueError.
  Proof using All. intros. eapply agyro_other; eauto. Qed.
End Pressure.

(** Every measure the command agyro offers works, but one of the two offered by
    mom_agyro never does. *)
Theorem C41_choices cells np nb p b fp fb :
  shows cells np p fp -> shows cells nb b fb -> (6 <= np)%nat -> (3 <= nb)%nat ->
  (forall m, In m agyro_choices -> exists w, get_agyro m p b = Ok w) /\
  (exists w, get_agyro "frobenius" p b = Ok w).
Proof.
  intros Sp Sb Hp Hb.
  assert (F : exists w, get_agyro "frobenius" p b = Ok w).
  { destruct (y_frobenius cells np nb p b fp fb Sp Sb Hp Hb "frobenius" eq_refl) as (w & E & _). eauto. }
  split; [|exact F]. intros m [<-|[<-|[]]]; [|exact F].
  destruct (y_swisdak cells np nb p b fp fb Sp Sb Hp Hb "swisdak" eq_refl) as (w & E & _). eauto.
Qed.

Theorem C41_command_refuted : exists m, In m mom_agyro_choices /\
  forall species field w, get_gkyl_10m_agyro m species field <> Ok w.
Proof.
  exists "swidak"%string. split; [left; reflexivity|]. intros sp fl w. unfold get_gkyl_10m_agyro, of_moments.
  destruct (get_pij sp) as [p|e]; [|discriminate]. destruct (cols 3 6 fl) as [b|e]; [|discriminate]. cbn [bind].
  unfold get_agyro.
  repeat match goal with |- context [bind ?r _] => destruct r; [cbn [bind]|discriminate] end. discriminate.
Qed.

(** From ten-moment data and an electromagnetic field (components 3-5). *)
Theorem C40_moments cells n nf species field s ff :
  (10 <= n)%nat -> (6 <= nf)%nat -> stores cells n species (tenmoment_cons s) -> shows cells nf field ff ->
  (forall x, in_range cells x -> 0 < rho s x) ->
  (forall x, in_range cells x -> exists i, (i < 3)%nat /\ ff x (3 + i)%nat <> 0) ->
  (ones_first cells = true ->
   exists par perp : list nat -> R,
     yields (get_gkyl_10m_p_par species field) cells 1 (fun x _ => par x) /\
     yields (get_gkyl_10m_p_perp species field) cells 1 (fun x _ => perp x) /\
     forall x, in_range cells x ->
       par x * dot (fun i => ff x (3 + i)%nat) (fun i => ff x (3 + i)%nat) = quad (tensor_of (tensor s x)) (fun i => ff x (3 + i)%nat) /\
       par x + 2 * perp x = pxx s x + pyy s x + pzz s x) /\
  (ones_first cells = false -> get_gkyl_10m_p_par species field = Err ValueError /\ get_gkyl_10m_p_perp species field = Err ValueError).
Proof.
  intros Hn Hf St Sf Hr Nz.
  destruct (C38_tensor 2 cells n species s Hn St Hr) as (F & EF & T & TE). injection EF as <-. split.
  - intros O. destruct (T O) as (pt & Ept & Sp).
    assert (L : slice2 nf 3 6 = [3; 4; 5]%nat).
    { unfold slice2, adjust_pos. cbn [Z.ltb Z.compare]. rewrite !Z.min_l by lia. reflexivity. }
    pose proof (yields_cols 3 6 field cells nf ff Sf) as (bb & Eb & Sb). rewrite L in Sb. cbn [length] in Sb.
    assert (Sb' : shows cells 3 bb (fun x i => ff x (3 + i)%nat)).
    { eapply shows_ext; [exact Sb|]. intros x j Hx Hj. destruct j as [|[|[|j]]]; try lia; reflexivity. }
    destruct (C40_decomposition cells 6 3 pt bb (tensor s) _ Sp Sb' (le_n _) (le_n _) Nz) as (par & perp & Y1 & Y2 & I).
    exists par, perp. unfold get_gkyl_10m_p_par, get_gkyl_10m_p_perp, of_moments. rewrite Ept, Eb. cbn [bind].
    split; [exact Y1|]. split; [exact Y2|]. exact I.
  - intros O. unfold get_gkyl_10m_p_par, get_gkyl_10m_p_perp, of_moments. rewrite (TE O). auto.
Qed.

(** ** Example: p_par = 5, p_perp = 2 along (0, 3, 4), and a sheared tensor. *)
Definition ex_b : arr := one_cell [0; 3; 4].
Definition ex_p : arr := one_cell [2; 0; 0; 2 + 27 / 25; 36 / 25; 2 + 48 / 25].

Lemma one_cell_shows c n : length c = n -> shows [1%nat] n (one_cell c) (fun _ j => nth j c 0).
Proof.
  intros <-. split; [unfold wf, one_cell, prod; cbn [shape flat fold_right]; lia|]. split; [reflexivity|].
  intros x j Hx Hj. inversion Hx as [|i ? ? ? Hi Hn]; subst. inversion Hn; subst. assert (i = 0%nat) by lia. subst i.
  unfold get, one_cell. cbn [shape flat ravel app]. destruct (Nat.ltb_spec j (length c)); [|lia]. cbn [option_map Nat.ltb Nat.leb].
  rewrite nth_error_nth' with (d := 0) by (unfold prod; cbn; lia). f_equal. f_equal. unfold prod. cbn. lia.
Qed.

Example C40_ex :
  yields (get_p_par ex_p ex_b) [1%nat] 1 (fun _ _ => 5) /\ yields (get_p_perp ex_p ex_b) [1%nat] 1 (fun _ _ => 2) /\
  yields (get_agyro "Swisdak" ex_p ex_b) [1%nat] 1 (fun _ _ => 0).
Proof.
  assert (Sp : shows [1%nat] 6 ex_p _) by (apply one_cell_shows; reflexivity).
  assert (Sb : shows [1%nat] 3 ex_b _) by (apply one_cell_shows; reflexivity).
  assert (Nz : forall x, in_range [1%nat] x -> exists i, (i < 3)%nat /\ nth i [0; 3; 4] 0 <> 0).
  { intros. exists 1%nat. split; [lia|]. cbn. lra. }
  assert (G : forall x i j, in_range [1%nat] x -> (i < 3)%nat -> (j < 3)%nat ->
     tensor_of (fun k => nth k [2; 0; 0; 2 + 27 / 25; 36 / 25; 2 + 48 / 25] 0) i j = gyro 5 2 (fun k => nth k [0; 3; 4] 0) i j).
  { intros x i j _ Hi Hj. unfold tensor_of, gyro, dot, sum3, delta.
    destruct i as [|[|[|i]]]; try lia; destruct j as [|[|[|j]]]; try lia; cbn; lra. }
  destruct (C40_gyrotropic [1%nat] 6 3 ex_p ex_b _ _ Sp Sb (le_n _) (le_n _) Nz (fun _ => 5) (fun _ => 2) G) as [Y1 Y2].
  split; [exact Y1|]. split; [exact Y2|].
  apply (C41_gyrotropic [1%nat] 6 3 ex_p ex_b _ _ Sp Sb (le_n _) (le_n _) Nz "Swisdak" (fun _ => 5) (fun _ => 2)).
  - right. reflexivity.
  - intros. lra.
  - exact G.
Qed.

(** A tensor that is not gyrotropic about x: p_xy = 1. *)
Example C41_ex : exists q, 0 < q /\ yields (get_agyro "frobenius" (one_cell [1; 1; 0; 1; 0; 1]) (one_cell [2; 0; 0])) [1%nat] 1 (fun _ _ => q).
Proof.
  assert (Sp : shows [1%nat] 6 (one_cell [1; 1; 0; 1; 0; 1]) _) by (apply one_cell_shows; reflexivity).
  assert (Sb : shows [1%nat] 3 (one_cell [2; 0; 0]) _) by (apply one_cell_shows; reflexivity).
  exists (sqrt 2 / sqrt 6). split.
  - apply Rmult_lt_0_compat; [|apply Rinv_0_lt_compat]; apply sqrt_lt_R0; lra.
  - eapply yields_ext; [eapply (y_frobenius [1%nat] 6 3 _ _ _ _ Sp Sb (le_n _) (le_n _)); reflexivity|].
    intros x j Hx Hj. cbv beta.
    assert (E1 : ppar (fun _ j => nth j [1; 1; 0; 1; 0; 1] 0) (fun _ j => nth j [2; 0; 0] 0) x = 1).
    { unfold ppar, bPb, B2. cbn [nth]. field. }
    assert (E2 : pperp (fun _ j => nth j [1; 1; 0; 1; 0; 1] 0) (fun _ j => nth j [2; 0; 0] 0) x = 1).
    { unfold pperp. rewrite E1. unfold trP. cbn [nth]. field. }
    f_equal.
    + f_equal. unfold dd, dxx, dxy, dxz, dyy, dyz, dzz, dev. rewrite E1, E2. unfold B2. cbn [nth]. field.
    + f_equal. unfold den. rewrite E1, E2. ring.
Qed.

Print Assumptions C40_decomposition. Print Assumptions C40_scale. Print Assumptions C40_gyrotropic. Print Assumptions C40_positive.
Print Assumptions C40_moments. Print Assumptions C41_frobenius. Print Assumptions C41_equal. Print Assumptions C41_gyrotropic.
Print Assumptions C41_names. Print Assumptions C41_choices. Print Assumptions C41_command_refuted.
