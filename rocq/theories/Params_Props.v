(** * C65, C68: plasma parameters and the current of a species. *)
From Coq Require Import String Ascii List Arith ZArith Bool Lia Reals Lra.
From Verif Require Import Prelude PreludeFacts NdArray Ev_Model Tools_Arr Tools_Model Tools_Proofs Tools_Proofs2 Tools_Props Params_Model.
Import ListNotations.
Open Scope list_scope.
Open Scope R_scope.

(** ** Specification

    In every cell: mass density, scalar pressure and magnetic field. *)
Record plasma := mk_plasma { p_rho : list nat -> R; p_pr : list nat -> R; p_B : list nat -> R * R * R }.

Definition norm3 (b : R * R * R) : R := let '(x, y, z) := b in sqrt (x * x + y * y + z * z).

(** The constants in force: those of the metadata, if they are not zero. *)
Definition in_force (d : gdat) (key : string) (default x : R) : Prop :=
  exists y, ctx d key = Some y /\ (y <> 0 -> x = y) /\ (y = 0 -> x = default).

(** The pressure of five- or ten-moment data. *)
Definition pressure5 (gamma : R) (f : list nat -> nat -> R) x : R :=
  (gamma - 1) * (f x 4%nat - (f x 1%nat ^ 2 + f x 2%nat ^ 2 + f x 3%nat ^ 2) / (2 * f x 0%nat)).
Definition pressure10 (f : list nat -> nat -> R) x : R :=
  (f x 4%nat + f x 7%nat + f x 9%nat - (f x 1%nat ^ 2 + f x 2%nat ^ 2 + f x 3%nat ^ 2) / f x 0%nat) / 3.

(** The pressure of MHD data, without the energies of motion and field. *)
Definition pressure8 (gamma mu0 : R) (f : list nat -> nat -> R) x : R :=
  (gamma - 1) * (f x 4%nat - (f x 1%nat ^ 2 + f x 2%nat ^ 2 + f x 3%nat ^ 2) / (2 * f x 0%nat)
                 - (f x 5%nat ^ 2 + f x 6%nat ^ 2 + f x 7%nat ^ 2) / mu0 / 2).

(** [w] holds one number [g x] per cell. *)
Definition holds (cells : list nat) (r : res arr) (g : list nat -> R) : Prop :=
  exists w, r = Ok w /\ shape w = cells ++ [1%nat] /\ forall x, in_range cells x -> get w (x ++ [0%nat]) = Some (g x).

Lemma yields_holds cells r g : yields r cells 1 (fun x _ => g x) -> holds cells r g.
Proof. intros (w & E & _ & S & V). exists w. split; [exact E|]. split; [exact S|]. intros x Hx. apply V; [exact Hx|lia]. Qed.

Lemma ctx_or_ok d key dflt x : in_force d key dflt x -> ctx_or d key dflt = Ok x.
Proof.
  intros (y & E & H1 & H2). unfold ctx_or. rewrite E. destruct (Req_EM_T y 0) as [e|n]; [rewrite (H2 e)|rewrite (H1 n)]; reflexivity.
Qed.

Section Plasma.
  Context (cells : list nat) (ns nf : nat) (k : kw) (species field : gdat).
  Context (f g : list nat -> nat -> R) (s : plasma) (m q eps mu : R).
  Context (Ss : shows cells ns (vals species) f) (Sf : shows cells nf (vals field) g).
  Context (Hns : (5 <= ns)%nat) (Hnf : (6 <= nf)%nat).
  Context (Hm : in_force species "mass" (k_mass k) m) (Hq : in_force species "charge" (k_charge k) q).
  Context (He : in_force field "epsilon_0" (k_eps k) eps) (Hu : in_force field "mu_0" (k_mu k) mu).
  Context (Hrho : forall x, in_range cells x -> f x 0%nat = p_rho s x).
  Context (HB : forall x, in_range cells x -> p_B s x = (g x 3%nat, g x 4%nat, g x 5%nat)).
  Context (Rpos : forall x, in_range cells x -> 0 < p_rho s x).
  Context (Hp : k_moms k = Some 5%nat /\ (forall x, in_range cells x -> p_pr s x = pressure5 (k_gamma k) f x)
                \/ k_moms k = Some 10%nat /\ (10 <= ns)%nat /\ (forall x, in_range cells x -> p_pr s x = pressure10 f x)).

  Lemma y_magB : yields (get_magB field) cells 1 (fun x _ => norm3 (p_B s x)).
  Proof.
    unfold get_magB.
    assert (L : slice2 nf 3 6 = [3; 4; 5]%nat).
    { unfold slice2, adjust_pos. cbn [Z.ltb Z.compare]. rewrite !Z.min_l by lia. reflexivity. }
    eapply yields_bind; [eapply yields_cols; exact Sf|]. rewrite L. cbn [length]. intros b Hb.
    eapply yields_bind; [eapply (y_mag_sq _ _ _ _ Hb "0:3" 0 3); [reflexivity|lia]|]. intros w Hw.
    eapply yields_ext; [apply yields_map; exact Hw|]. intros x j Hx Hj. cbv beta. rewrite HB by exact Hx.
    unfold norm3. f_equal. cbn. ring.
  Qed.

  Lemma y_pr : yields (get_p (k_gamma k) (k_moms k) (vals species)) cells 1 (fun x _ => p_pr s x).
  Proof.
    destruct Hp as [[Ek E]|(Ek & Hn10 & E)]; rewrite Ek.
    - eapply yields_ext; [eapply y_p5; [exact Ss|exact Hns]|]. intros x j Hx Hj. cbv beta. rewrite (E x Hx).
      unfold pressure5, speed2. specialize (Hrho x Hx). specialize (Rpos x Hx). rewrite Hrho. field. lra.
    - eapply yields_ext; [eapply y_p10; [exact Ss|discriminate|exact Hn10]|]. intros x j Hx Hj. cbv beta. rewrite (E x Hx).
      unfold pressure10. specialize (Hrho x Hx). specialize (Rpos x Hx). rewrite Hrho. field. lra.
  Qed.

  Lemma y_temp' : yields (get_temp (k_gamma k) (k_moms k) (vals species)) cells 1 (fun x _ => p_pr s x / p_rho s x).
  Proof.
    eapply yields_ext; [eapply y_temp; [exact Ss|lia|exact y_pr]|]. intros x j Hx Hj. cbv beta. now rewrite Hrho.
  Qed.

  Definition vth (x : list nat) : R := (if k_sqrt2 k then sqrt 2 else 1) * sqrt (p_pr s x / p_rho s x / m).

  Lemma y_vt : yields (get_vt k false species) cells 1 (fun x _ => vth x).
  Proof.
    unfold get_vt. rewrite (ctx_or_ok _ _ _ _ Hm). cbn [bind]. eapply yields_bind; [exact y_temp'|]. intros t Ht.
    unfold vth. destruct (k_sqrt2 k).
    - eapply yields_ext; [apply yields_ok; eapply shows_map; eapply shows_map; exact Ht|]. intros. cbv beta. ring.
    - eapply yields_ext; [apply yields_ok; eapply shows_map; exact Ht|]. intros. cbv beta. ring.
  Qed.

  Lemma y_rho : yields (get_density (vals species)) cells 1 (fun x _ => p_rho s x).
  Proof. eapply yields_ext; [eapply y_density; [exact Ss|lia]|]. intros. cbv beta. auto. Qed.

  Lemma y_vA : yields (get_vA k species field) cells 1 (fun x _ => norm3 (p_B s x) / sqrt (mu * p_rho s x)).
  Proof.
    unfold get_vA. rewrite (ctx_or_ok _ _ _ _ Hu). cbn [bind]. eapply yields_bind; [exact y_magB|]. intros b Hb.
    eapply yields_bind; [exact y_rho|]. intros r Hr. eapply yields_ext; [ysolve|]. intros. reflexivity.
  Qed.

  Lemma y_oc : yields (get_omegaC k species field) cells 1 (fun x _ => Rabs q * norm3 (p_B s x) / m).
  Proof.
    unfold get_omegaC. rewrite (ctx_or_ok _ _ _ _ Hm), (ctx_or_ok _ _ _ _ Hq). cbn [bind].
    eapply yields_bind; [exact y_magB|]. intros b Hb. eapply yields_ext; [ysolve|]. intros. reflexivity.
  Qed.

  Definition wp (x : list nat) : R := sqrt (q ^ 2 / m ^ 2 * p_rho s x / eps).

  Lemma y_op : yields (get_omegaP k species field) cells 1 (fun x _ => wp x).
  Proof.
    unfold get_omegaP. rewrite (ctx_or_ok _ _ _ _ Hm), (ctx_or_ok _ _ _ _ Hq), (ctx_or_ok _ _ _ _ He). cbn [bind].
    eapply yields_bind; [exact y_rho|]. intros b Hb. eapply yields_ext; [ysolve|]. intros. reflexivity.
  Qed.
End Plasma.

(** ** C65 *)
Section C65.
  Context (cells : list nat) (ns nf : nat) (k : kw) (species field : gdat).
  Context (f g : list nat -> nat -> R) (s : plasma) (m q eps mu : R).

  (** The datasets hold the plasma [s] with the constants [m], [q], [eps] and
      [mu] in force. *)
  Definition describes : Prop :=
    shows cells ns (vals species) f /\ shows cells nf (vals field) g /\ (5 <= ns)%nat /\ (6 <= nf)%nat /\
    in_force species "mass" (k_mass k) m /\ in_force species "charge" (k_charge k) q /\
    in_force field "epsilon_0" (k_eps k) eps /\ in_force field "mu_0" (k_mu k) mu /\
    (forall x, in_range cells x -> f x 0%nat = p_rho s x) /\
    (forall x, in_range cells x -> p_B s x = (g x 3%nat, g x 4%nat, g x 5%nat)) /\
    (k_moms k = Some 5%nat /\ (forall x, in_range cells x -> p_pr s x = pressure5 (k_gamma k) f x)
     \/ k_moms k = Some 10%nat /\ (10 <= ns)%nat /\ (forall x, in_range cells x -> p_pr s x = pressure10 f x)).
  Definition physical : Prop :=
    0 < m /\ q <> 0 /\ 0 < eps /\ 0 < mu /\
    forall x, in_range cells x -> 0 < p_rho s x /\ 0 < p_pr s x /\ 0 < norm3 (p_B s x).

  Lemma sqrt2_pos : 0 < sqrt 2. Proof. apply sqrt_lt_R0. lra. Qed.
  Lemma sqrt2_sq : sqrt 2 * sqrt 2 = 2. Proof. apply sqrt_sqrt. lra. Qed.
  Lemma pow2_pos (a : R) : a <> 0 -> 0 < a * a.
  Proof. intros H. destruct (Rdichotomy a 0 H); nra. Qed.
  Lemma wp_val x : 0 < m -> q <> 0 -> 0 < eps -> 0 < p_rho s x -> wp s m q eps x = Rabs q / m * sqrt (p_rho s x / eps) /\ 0 < wp s m q eps x.
  Proof.
    intros M Q E P. unfold wp.
    assert (A : 0 < p_rho s x / eps) by (apply Rdiv_lt_0_compat; lra).
    assert (B : 0 < Rabs q / m) by (apply Rdiv_lt_0_compat; [apply Rabs_pos_lt; exact Q|exact M]).
    assert (C : q ^ 2 / m ^ 2 * p_rho s x / eps = (Rabs q / m) * (Rabs q / m) * (p_rho s x / eps)).
    { assert (D : q ^ 2 = Rabs q * Rabs q) by (rewrite <- Rabs_mult, Rabs_pos_eq; [ring|pose proof (pow2_pos q Q); lra]).
      rewrite D. field. lra. }
    rewrite C, sqrt_mult, sqrt_square by nra. split; [reflexivity|]. apply Rmult_lt_0_compat; [exact B|].
    apply sqrt_lt_R0. exact A.
  Qed.

  Lemma Rdiv_le_0_compat a b : 0 <= a -> 0 < b -> 0 <= a / b.
  Proof. intros A B. unfold Rdiv. apply Rmult_le_pos; [exact A|]. apply Rlt_le, Rinv_0_lt_compat, B. Qed.

  Ltac open D P := destruct D as (Ss & Sf & Hns & Hnf & Hm & Hq & He & Hu & Hr & HB & Hp); destruct P as (Pm & Pq & Pe & Pu & Px);
    assert (Rp : forall x, in_range cells x -> 0 < p_rho s x) by (intros; apply Px; assumption).

  (** Frequencies and speeds, each cell from its own data: with the number
      density n = rho/m, the plasma frequency squared is n q^2 / (eps m). *)
  Theorem C65_frequencies : describes -> physical ->
    holds cells (get_magB field) (fun x => norm3 (p_B s x)) /\
    holds cells (get_omegaC k species field) (fun x => Rabs q * norm3 (p_B s x) / m) /\
    (exists w, holds cells (get_omegaP k species field) w /\
       forall x, in_range cells x -> 0 <= w x /\ w x * w x = (p_rho s x / m) * q ^ 2 / (eps * m)) /\
    (exists v, holds cells (get_vA k species field) v /\
       forall x, in_range cells x -> 0 <= v x /\ v x * v x * (mu * p_rho s x) = norm3 (p_B s x) * norm3 (p_B s x)).
  Proof.
    intros D P. open D P. split; [|split; [|split]].
    - apply yields_holds. eapply y_magB; eassumption.
    - apply yields_holds. eapply y_oc; eassumption.
    - exists (wp s m q eps). split; [apply yields_holds; eapply y_op; eassumption|]. intros x Hx. unfold wp. split; [apply sqrt_pos|].
      assert (A : 0 <= q ^ 2 / m ^ 2 * p_rho s x / eps).
      { apply Rdiv_le_0_compat; [|exact Pe]. apply Rmult_le_pos; [|specialize (Rp x Hx); lra]. apply Rdiv_le_0_compat; nra. }
      rewrite sqrt_sqrt by exact A. field. lra.
    - exists (fun x => norm3 (p_B s x) / sqrt (mu * p_rho s x)). split; [apply yields_holds; eapply y_vA; eassumption|].
      intros x Hx. specialize (Rp x Hx). assert (A : 0 < mu * p_rho s x) by nra. pose proof (sqrt_lt_R0 _ A) as B.
      destruct (Px x Hx) as (_ & _ & N). split; [apply Rlt_le, Rdiv_lt_0_compat; assumption|].
      rewrite <- (sqrt_sqrt (mu * p_rho s x)) at 3 by lra. field. lra.
  Qed.

  (** The thermal speed, with and without the factor two.  In MHD data the
      magnetic field is part of the species and its energy is subtracted. *)
  Theorem C65_thermal : describes -> physical ->
    (exists v, holds cells (get_vt k false species) v /\
       forall x, in_range cells x -> 0 <= v x /\ v x * v x = (if k_sqrt2 k then 2 else 1) * (p_pr s x / p_rho s x / m)) /\
    ((8 <= ns)%nat ->
     (forall x, in_range cells x -> 0 <= pressure8 (k_gamma k) (k_mu k) f x) ->
     exists v, holds cells (get_vt k true species) v /\
       forall x, in_range cells x -> 0 <= v x /\
         v x * v x = (if k_sqrt2 k then 2 else 1) * (pressure8 (k_gamma k) (k_mu k) f x / p_rho s x / m)).
  Proof.
    intros D P. open D P. pose proof sqrt2_pos as S2. pose proof sqrt2_sq as S22. split.
    - exists (vth k s m). split; [apply yields_holds; eapply y_vt; eassumption|]. intros x Hx. destruct (Px x Hx) as (A & B & _).
      assert (T : 0 < p_pr s x / p_rho s x / m) by (apply Rdiv_lt_0_compat; [apply Rdiv_lt_0_compat|]; assumption).
      pose proof (sqrt_lt_R0 _ T) as ST. unfold vth. rewrite <- (sqrt_sqrt (p_pr s x / p_rho s x / m)) at 4 by lra.
      destruct (k_sqrt2 k); split; try nra.
    - intros N8 P8. exists (fun x => (if k_sqrt2 k then sqrt 2 else 1) * sqrt (pressure8 (k_gamma k) (k_mu k) f x / p_rho s x / m)). split.
      + apply yields_holds. unfold get_vt. rewrite (ctx_or_ok _ _ _ _ Hm). cbn [bind].
        assert (Y : yields (get_mhd_temp (k_gamma k) (k_mu k) (vals species)) cells 1
                      (fun x _ => pressure8 (k_gamma k) (k_mu k) f x / p_rho s x)).
        { eapply yields_ext; [eapply y_mhd_temp; [exact Ss|exact N8]|]. intros x j Hx Hj. cbv beta.
          specialize (Rp x Hx). unfold pressure8, speed2, field2. rewrite (Hr x Hx). f_equal. f_equal.
          set (X := / k_mu k). unfold Rdiv. fold X. clearbody X. field. lra. }
        eapply yields_bind; [exact Y|]. intros t Ht. destruct (k_sqrt2 k).
        * eapply yields_ext; [apply yields_ok; eapply shows_map; eapply shows_map; exact Ht|]. intros. cbv beta. ring.
        * eapply yields_ext; [apply yields_ok; eapply shows_map; exact Ht|]. intros. cbv beta. ring.
      + intros x Hx. specialize (P8 x Hx). specialize (Rp x Hx).
        assert (T : 0 <= pressure8 (k_gamma k) (k_mu k) f x / p_rho s x / m) by (apply Rdiv_le_0_compat; [apply Rdiv_le_0_compat|]; assumption).
        pose proof (sqrt_pos (pressure8 (k_gamma k) (k_mu k) f x / p_rho s x / m)) as ST.
        rewrite <- (sqrt_sqrt (pressure8 (k_gamma k) (k_mu k) f x / p_rho s x / m)) at 4 by lra.
        destruct (k_sqrt2 k); split; try nra.
  Qed.

  (** Inertial length, Debye length and gyroradius are speeds over frequencies;
      the last two do not depend on the choice of the thermal speed. *)
  Theorem C65_lengths : describes -> physical ->
    exists wp wc c2,
      holds cells (get_omegaP k species field) wp /\ holds cells (get_omegaC k species field) wc /\
      c2 = 1 / (eps * mu) /\
      (exists d, holds cells (get_d k species field) d /\
         forall x, in_range cells x -> 0 < d x /\ (d x * wp x) ^ 2 = c2) /\
      (exists l, holds cells (get_lambdaD k species field) l /\
         forall x, in_range cells x -> 0 < l x /\ (l x * wp x) ^ 2 = p_pr s x / p_rho s x / m) /\
      (exists r, holds cells (get_rho k species field) r /\
         forall x, in_range cells x -> 0 < r x /\ (r x * wc x) ^ 2 = 2 * (p_pr s x / p_rho s x / m)).
  Proof.
    intros D P. open D P.
    exists (wp s m q eps), (fun x => Rabs q * norm3 (p_B s x) / m), (1 / (eps * mu)).
    split; [apply yields_holds; eapply y_op; eassumption|]. split; [apply yields_holds; eapply y_oc; eassumption|].
    split; [reflexivity|].
    assert (W : forall x, in_range cells x -> 0 < wp s m q eps x) by (intros x Hx; apply wp_val; auto).
    assert (C : forall x, in_range cells x -> 0 < Rabs q * norm3 (p_B s x) / m).
    { intros x Hx. destruct (Px x Hx) as (_ & _ & N). apply Rdiv_lt_0_compat; [|exact Pm]. apply Rmult_lt_0_compat; [apply Rabs_pos_lt; exact Pq|exact N]. }
    assert (T : forall x, in_range cells x -> 0 < p_pr s x / p_rho s x / m).
    { intros x Hx. destruct (Px x Hx) as (A & B & _). apply Rdiv_lt_0_compat; [apply Rdiv_lt_0_compat|]; assumption. }
    pose proof sqrt2_pos as S2. pose proof sqrt2_sq as S22.
    split; [|split].
    - exists (fun x => 1 / sqrt (eps * mu) / wp s m q eps x). split.
      + apply yields_holds. unfold get_d. rewrite (ctx_or_ok _ _ _ _ He), (ctx_or_ok _ _ _ _ Hu). cbn [bind].
        eapply yields_bind; [eapply y_op; eassumption|]. intros b Hb. eapply yields_ext; [ysolve|]. intros. reflexivity.
      + intros x Hx. specialize (W x Hx). assert (A : 0 < eps * mu) by nra. pose proof (sqrt_lt_R0 _ A) as B. split.
        * apply Rdiv_lt_0_compat; [|exact W]. apply Rdiv_lt_0_compat; [lra|exact B].
        * replace (1 / sqrt (eps * mu) / wp s m q eps x * wp s m q eps x) with (1 / sqrt (eps * mu)) by (field; lra).
          rewrite <- (sqrt_sqrt (eps * mu)) at 2 by lra. field. lra.
    - exists (fun x => sqrt (p_pr s x / p_rho s x / m) / wp s m q eps x). split.
      + apply yields_holds. unfold get_lambdaD. eapply yields_bind; [eapply y_op; eassumption|]. intros w Hw.
        eapply yields_bind; [eapply y_vt; eassumption|]. intros v Hv.
        assert (Y : yields (div v w) cells 1 (fun x _ => vth k s m x / wp s m q eps x)) by (eapply yields_ext; [ysolve|]; intros; reflexivity).
        eapply yields_bind; [exact Y|]. intros o Ho. unfold vth in Ho. destruct (k_sqrt2 k).
        * eapply yields_ext; [apply yields_ok; eapply shows_map; exact Ho|]. intros x j Hx Hj. cbv beta. specialize (W x Hx). field. lra.
        * eapply yields_ext; [apply yields_ok; exact Ho|]. intros x j Hx Hj. cbv beta. specialize (W x Hx). field. lra.
      + intros x Hx. specialize (W x Hx). specialize (T x Hx). pose proof (sqrt_lt_R0 _ T) as B. split; [apply Rdiv_lt_0_compat; assumption|].
        replace (sqrt (p_pr s x / p_rho s x / m) / wp s m q eps x * wp s m q eps x) with (sqrt (p_pr s x / p_rho s x / m)) by (field; lra).
        cbn [pow]. rewrite Rmult_1_r. apply sqrt_sqrt. lra.
    - exists (fun x => sqrt 2 * sqrt (p_pr s x / p_rho s x / m) / (Rabs q * norm3 (p_B s x) / m)). split.
      + apply yields_holds. unfold get_rho. eapply yields_bind; [eapply y_oc; eassumption|]. intros w Hw.
        eapply yields_bind; [eapply y_vt; eassumption|]. intros v Hv.
        assert (Y : yields (div v w) cells 1 (fun x _ => vth k s m x / (Rabs q * norm3 (p_B s x) / m))) by (eapply yields_ext; [ysolve|]; intros; reflexivity).
        eapply yields_bind; [exact Y|]. intros o Ho. unfold vth in Ho. destruct (k_sqrt2 k).
        * eapply yields_ext; [apply yields_ok; exact Ho|]. intros; reflexivity.
        * eapply yields_ext; [apply yields_ok; eapply shows_map; exact Ho|]. intros x j Hx Hj. cbv beta. specialize (C x Hx).
          set (cc := Rabs q * norm3 (p_B s x) / m) in *. field. lra.
      + intros x Hx. specialize (C x Hx). specialize (T x Hx). pose proof (sqrt_lt_R0 _ T) as B.
        set (cc := Rabs q * norm3 (p_B s x) / m) in *. split; [apply Rdiv_lt_0_compat; [nra|exact C]|].
        replace (sqrt 2 * sqrt (p_pr s x / p_rho s x / m) / cc * cc) with (sqrt 2 * sqrt (p_pr s x / p_rho s x / m)) by (field; lra).
        rewrite Rpow_mult_distr. cbn [pow]. rewrite !Rmult_1_r, S22, sqrt_sqrt by lra. reflexivity.
  Qed.

  (** Beta for either choice of the thermal speed.  The pressure is divided by
      the mass although the density already contains it. *)
  Theorem C65_beta : describes -> physical ->
    holds cells (get_beta k species field) (fun x => 2 * mu * p_pr s x / (m * norm3 (p_B s x) ^ 2)).
  Proof.
    intros D P. open D P. apply yields_holds. unfold get_beta.
    eapply yields_bind; [eapply y_vA; eassumption|]. intros w Hw.
    eapply yields_bind; [eapply y_vt; eassumption|]. intros v Hv.
    pose proof sqrt2_sq as S22.
    assert (Y : yields (div (sq v) (sq w)) cells 1 (fun x _ =>
      (if k_sqrt2 k then 2 else 1) * mu * p_pr s x / (m * norm3 (p_B s x) ^ 2))).
    { eapply yields_ext; [ysolve|]. intros x j Hx Hj. cbv beta. destruct (Px x Hx) as (A & B & N).
      assert (T : 0 < p_pr s x / p_rho s x / m) by (apply Rdiv_lt_0_compat; [apply Rdiv_lt_0_compat|]; assumption).
      assert (M : 0 < mu * p_rho s x) by nra. pose proof (sqrt_lt_R0 _ M) as SM.
      replace (vth k s m x * vth k s m x) with ((if k_sqrt2 k then 2 else 1) * (p_pr s x / p_rho s x / m)).
      2:{ unfold vth. rewrite <- (sqrt_sqrt (p_pr s x / p_rho s x / m)) at 1 by lra. destruct (k_sqrt2 k); [rewrite <- S22 at 1|]; ring. }
      replace (norm3 (p_B s x) / sqrt (mu * p_rho s x) * (norm3 (p_B s x) / sqrt (mu * p_rho s x)))
        with (norm3 (p_B s x) * norm3 (p_B s x) / (mu * p_rho s x)).
      2:{ rewrite <- (sqrt_sqrt (mu * p_rho s x)) at 1 by lra. field. lra. }
      field. repeat split; lra. }
    eapply yields_bind; [exact Y|]. intros o Ho. destruct (k_sqrt2 k).
    - eapply yields_ext; [apply yields_ok; exact Ho|]. intros; reflexivity.
    - eapply yields_ext; [apply yields_ok; eapply shows_map; exact Ho|]. intros x j Hx Hj. cbv beta.
      destruct (Px x Hx) as (A & B & N). field. lra.
  Qed.
End C65.

(** Nothing is computed without the metadata: the defaults of the keyword
    arguments are used only when the file says zero. *)
Theorem C65_keys k species field mhd :
  (ctx species "mass" = None -> get_vt k mhd species = Err KeyError /\ get_omegaC k species field = Err KeyError /\
     get_omegaP k species field = Err KeyError) /\
  (ctx field "mu_0" = None -> get_vA k species field = Err KeyError /\ get_beta k species field = Err KeyError).
Proof.
  split; intros E.
  - unfold get_vt, get_omegaC, get_omegaP, ctx_or. rewrite E. cbn. auto.
  - unfold get_beta, get_vA, ctx_or. rewrite E. cbn. auto.
Qed.

(** A plasma of mass 2. *)
Definition tab (l : list (string * R)) : string -> option R := fun k => aget k l.
Definition ex_species : gdat := mk_gdat (tab [("mass"%string, 2); ("charge"%string, -1)]) (one_cell [2; 0; 0; 0; 6]).
Definition ex_field : gdat := mk_gdat (tab [("mu_0"%string, 1); ("epsilon_0"%string, 0)]) (one_cell [0; 0; 0; 0; 3; 4]).
Definition ex_kw : kw := mk_kw (5 / 3) (Some 5%nat) 1 1 (1 / 2) 1 true.
Definition ex_plasma : plasma := mk_plasma (fun _ => 2) (fun _ => 4) (fun _ => (0, 3, 4)).

Lemma one_cell_shows l : shows [1%nat] (length l) (one_cell l) (fun _ j => nth j l 0).
Proof.
  split; [unfold wf, one_cell; cbn; lia|]. split; [reflexivity|]. intros x j Hx Hj.
  inversion Hx as [|a ? ? ? Ha Hn]; subst. inversion Hn; subst. replace a with 0%nat by lia.
  unfold get, one_cell. cbn [shape flat app ravel]. destruct (Nat.ltb_spec 0 1); [|lia].
  destruct (Nat.ltb_spec j (length l)); [|lia]. cbn. rewrite ?Nat.mul_1_r, ?Nat.add_0_r. apply nth_error_nth'. exact Hj.
Qed.

Lemma norm34 : norm3 (0, 3, 4) = 5.
Proof. unfold norm3. replace (0 * 0 + 3 * 3 + 4 * 4) with (5 * 5) by ring. apply sqrt_square. lra. Qed.

Example C65_ex : describes [1%nat] 5 6 ex_kw ex_species ex_field (fun _ j => nth j [2; 0; 0; 0; 6] 0) (fun _ j => nth j [0; 0; 0; 0; 3; 4] 0)
    ex_plasma 2 (-1) (1 / 2) 1 /\ physical [1%nat] ex_plasma 2 (-1) (1 / 2) 1.
Proof.
  split.
  - unfold describes. split; [apply (one_cell_shows [2; 0; 0; 0; 6])|]. split; [apply (one_cell_shows [0; 0; 0; 0; 3; 4])|].
    split; [lia|]. split; [lia|]. split; [exists 2; repeat split; auto; lra|]. split; [exists (-1); repeat split; auto; lra|].
    split; [exists 0; repeat split; auto; lra|]. split; [exists 1; repeat split; auto; lra|].
    split; [reflexivity|]. split; [reflexivity|]. left. split; [reflexivity|]. intros x Hx. unfold pressure5. cbn. field.
  - unfold physical. repeat split; try lra; cbn [p_rho p_pr p_B ex_plasma]; try lra. rewrite norm34. lra.
Qed.

(** So beta is not the ratio of the pressure to the magnetic pressure when the
    mass is not one. *)
Theorem C65_beta_refuted : exists k species field s w,
  get_beta k species field = Ok w /\ ctx species "mass" = Some 2 /\
  describes [1%nat] 5 6 k species field (fun _ j => nth j [2; 0; 0; 0; 6] 0) (fun _ j => nth j [0; 0; 0; 0; 3; 4] 0) s 2 (-1) (1 / 2) 1 /\
  get w [0; 0]%nat <> Some (p_pr s [0%nat] / (norm3 (p_B s [0%nat]) ^ 2 / (2 * 1))).
Proof.
  destruct C65_ex as [D P]. pose proof (C65_beta _ _ _ _ _ _ _ _ _ _ _ _ _ D P) as (w & E & _ & V).
  exists ex_kw, ex_species, ex_field, ex_plasma, w. split; [exact E|]. split; [reflexivity|]. split; [exact D|].
  specialize (V [0%nat]). cbn [app] in V. rewrite V by (repeat constructor). cbn [p_pr p_B ex_plasma]. rewrite norm34.
  intros H. injection H as H. lra.
Qed.

(** ** C68 *)
Theorem C68_current v : wf v ->
  exists w, accumulate_current v false = Ok w /\ shape w = shape v /\
    forall idx, in_range (shape v) idx -> exists y, get v idx = Some y /\ get w idx = Some (- y).
Proof.
  intros W. exists (scale (-1) v). split; [reflexivity|]. split; [reflexivity|]. intros idx Hi.
  destruct (get_in v idx W Hi) as [y E]. exists y. split; [exact E|]. unfold scale. 
  revert E. unfold get, rmap, map_nda; cbn. destruct (ravel (shape v) idx) as [p|]; [|discriminate].
  rewrite nth_error_map. intros ->. cbn. f_equal. ring.
Qed.

(** The charge of the species never enters: there is no dataset for which the
    flow is multiplied by a charge-to-mass ratio. *)
Theorem C68_no_ratio : forall v w, accumulate_current v true <> Ok w.
Proof. discriminate. Qed.

Example C68_ex : exists w, accumulate_current (one_cell [1; -2; 3]) false = Ok w /\ get w [0; 1]%nat = Some 2.
Proof.
  destruct (C68_current (one_cell [1; -2; 3])) as (w & E & _ & V); [reflexivity|].
  exists w. split; [exact E|]. destruct (V [0; 1]%nat) as (y & Y & G); [repeat constructor|].
  cbn in Y. injection Y as <-. rewrite G. f_equal. lra.
Qed.

Print Assumptions C65_frequencies.
Print Assumptions C65_thermal.
Print Assumptions C65_lengths.
Print Assumptions C65_beta.
Print Assumptions C65_beta_refuted.
Print Assumptions C68_current.
