(** * What the diagnostics compute in every cell. *)
From Coq Require Import String Ascii List Arith ZArith Bool Lia Reals Lra.
From Verif Require Import Prelude PreludeFacts NdArray Ev_Model Tools_Arr Tools_Model.
Import ListNotations.
Open Scope list_scope.
Open Scope nat_scope.

Ltac ysolve :=
  match goal with
  | |- yields (col _ _) _ _ _ => eapply yields_col; [eassumption|lia]
  | |- yields (rb _ _ _) _ _ _ => first [eapply yields_rb; yshow | eapply yields_rb1; yshow]
  | |- yields (add _ _) _ _ _ => unfold add; ysolve
  | |- yields (sub _ _) _ _ _ => unfold sub; ysolve
  | |- yields (mul _ _) _ _ _ => unfold mul; ysolve
  | |- yields (div _ _) _ _ _ => unfold div; ysolve
  | |- yields (Ok _) _ _ _ => apply yields_ok; yshow
  | |- yields (bind _ _) _ _ _ => eapply yields_bind; [ysolve|intros ? ?; ysolve]
  end
with yshow :=
  match goal with
  | |- shows _ _ (rmap _ _) _ => eapply shows_map; yshow
  | |- shows _ _ (sq _) _ => unfold sq; yshow
  | |- shows _ _ (scale _ _) _ => unfold scale; yshow
  | |- shows _ _ _ _ => eassumption
  end.

Section Cells.
  Context (cells : list nat) (n : nat) (v : arr) (f : list nat -> nat -> R).
  Context (Sh : shows cells n v f).
  Open Scope R_scope.

  Lemma y_density : (0 < n)%nat -> yields (get_density v) cells 1 (fun x _ => f x 0%nat).
  Proof using Sh. intros. unfold get_density. ysolve. Qed.

  Lemma y_v k : (k < n)%nat -> yields (get_v k v) cells 1 (fun x _ => f x k / f x 0%nat).
  Proof using Sh.
    intros. unfold get_v. eapply yields_bind; [apply y_density; lia|]. intros ? ?. ysolve.
  Qed.

  Lemma y_vi : (4 <= n)%nat -> yields (get_vi v) cells 3 (fun x j => f x (S j) / f x 0%nat).
  Proof using Sh.
    intros Hn. unfold get_vi. eapply yields_bind; [apply y_density; lia|]. intros rho Hr.
    assert (L : slice2 n 1 4 = [1; 2; 3]%nat).
    { unfold slice2, adjust_pos. cbn [Z.ltb Z.compare]. rewrite !Z.min_l by lia. reflexivity. }
    eapply yields_bind; [eapply yields_cols; exact Sh|]. rewrite L. cbn [length]. intros m Hm.
    eapply yields_ext; [eapply yields_rb1; eassumption|].
    intros x j Hx Hj. cbv beta. destruct j as [|[|[|j]]]; try lia; reflexivity.
  Qed.

  Lemma y_pab k a b : (k < n)%nat -> (a < n)%nat -> (b < n)%nat ->
    yields (get_pab k a b v) cells 1 (fun x _ => f x k - f x 0%nat * (f x a / f x 0%nat) * (f x b / f x 0%nat)).
  Proof using Sh.
    intros. unfold get_pab. eapply yields_bind; [apply y_density; lia|]. intros ? ?.
    eapply yields_bind; [apply (y_v a); lia|]. intros ? ?.
    eapply yields_bind; [apply (y_v b); lia|]. intros ? ?. ysolve.
  Qed.

  Definition speed2 (x : list nat) : R :=
    (f x 1%nat / f x 0%nat) * (f x 1%nat / f x 0%nat) + (f x 2%nat / f x 0%nat) * (f x 2%nat / f x 0%nat)
    + (f x 3%nat / f x 0%nat) * (f x 3%nat / f x 0%nat).

  Lemma y_vsq : (4 <= n)%nat -> yields (vsq v) cells 1 (fun x _ => speed2 x).
  Proof using Sh.
    intros. unfold vsq, get_vx, get_vy, get_vz.
    eapply yields_bind; [apply (y_v 1); lia|]. intros ? ?.
    eapply yields_bind; [apply (y_v 2); lia|]. intros ? ?.
    eapply yields_bind; [apply (y_v 3); lia|]. intros ? ?.
    eapply yields_ext; [ysolve|]. intros. reflexivity.
  Qed.

  Lemma y_p5 gamma : (5 <= n)%nat ->
    yields (get_p gamma (Some 5%nat) v) cells 1 (fun x _ => (gamma - 1) * (f x 4%nat - 1 / 2 * f x 0%nat * speed2 x)).
  Proof using Sh.
    intros. unfold get_p. cbn [moments bind Nat.eqb].
    eapply yields_bind; [apply y_density; lia|]. intros ? ?.
    eapply yields_bind; [apply y_vsq; lia|]. intros ? ?.
    eapply yields_ext; [ysolve|]. intros. reflexivity.
  Qed.

  Lemma y_p10 gamma k : k <> 5%nat -> (10 <= n)%nat ->
    yields (get_p gamma (Some k) v) cells 1 (fun x _ =>
      ((f x 4%nat - f x 0%nat * (f x 1%nat / f x 0%nat) * (f x 1%nat / f x 0%nat))
       + (f x 7%nat - f x 0%nat * (f x 2%nat / f x 0%nat) * (f x 2%nat / f x 0%nat))
       + (f x 9%nat - f x 0%nat * (f x 3%nat / f x 0%nat) * (f x 3%nat / f x 0%nat))) / 3).
  Proof using Sh.
    intros Nk Hn. unfold get_p. cbn [moments bind]. destruct (Nat.eqb_spec k 5); [congruence|].
    eapply yields_bind; [apply (y_pab 4 1 1); lia|]. intros ? ?.
    eapply yields_bind; [apply (y_pab 7 2 2); lia|]. intros ? ?.
    eapply yields_bind; [apply (y_pab 9 3 3); lia|]. intros ? ?.
    eapply yields_ext; [ysolve|]. intros. reflexivity.
  Qed.

  (** The number of moments is guessed from the number of components. *)
  Lemma moments_none : moments None v = if (n =? 5)%nat then Ok 5%nat else if (n =? 10)%nat then Ok 10%nat else Err ValueError.
  Proof using Sh.
    destruct Sh as (W & S & V). unfold moments. destruct (snoc_shape v cells n S) as (a & l & E).
    rewrite E. cbv iota. rewrite <- E, S, last_snoc. reflexivity.
  Qed.

  Lemma get_p_none gamma k : moments None v = Ok k -> get_p gamma None v = get_p gamma (Some k) v.
  Proof using. intros E. unfold get_p. rewrite E. reflexivity. Qed.
  Lemma get_ke_none gamma k : moments None v = Ok k -> get_ke gamma None v = get_ke gamma (Some k) v.
  Proof using. intros E. unfold get_ke. rewrite E. reflexivity. Qed.

  Lemma y_ke5 gamma : (5 <= n)%nat ->
    yields (get_ke gamma (Some 5%nat) v) cells 1
      (fun x _ => f x 4%nat - (gamma - 1) * (f x 4%nat - 1 / 2 * f x 0%nat * speed2 x) / (gamma - 1)).
  Proof using Sh.
    intros. unfold get_ke. cbn [moments bind Nat.eqb].
    eapply yields_bind; [apply y_p5; lia|]. intros ? ?. eapply yields_ext; [ysolve|]. intros. reflexivity.
  Qed.

  Lemma y_ke10 gamma k : k <> 5%nat -> (4 <= n)%nat ->
    yields (get_ke gamma (Some k) v) cells 1 (fun x _ => 1 / 2 * f x 0%nat * speed2 x).
  Proof using Sh.
    intros Nk Hn. unfold get_ke. cbn [moments bind]. destruct (Nat.eqb_spec k 5); [congruence|].
    eapply yields_bind; [apply y_density; lia|]. intros ? ?.
    eapply yields_bind; [apply y_vsq; lia|]. intros ? ?. eapply yields_ext; [ysolve|]. intros. reflexivity.
  Qed.

  (** Temperature, sound speed and Mach number from the pressure. *)
  Lemma y_temp gamma o p : (0 < n)%nat -> yields (get_p gamma o v) cells 1 (fun x _ => p x) ->
    yields (get_temp gamma o v) cells 1 (fun x _ => p x / f x 0%nat).
  Proof using Sh.
    intros Hn Hp. unfold get_temp. eapply yields_bind; [apply y_density; lia|]. intros ? ?.
    eapply yields_bind; [exact Hp|]. intros ? ?. eapply yields_ext; [ysolve|]. intros. reflexivity.
  Qed.

  Lemma y_sound gamma o p : (0 < n)%nat -> yields (get_p gamma o v) cells 1 (fun x _ => p x) ->
    yields (get_sound gamma o v) cells 1 (fun x _ => sqrt (gamma * p x / f x 0%nat)).
  Proof using Sh.
    intros Hn Hp. unfold get_sound. eapply yields_bind; [apply y_density; lia|]. intros ? ?.
    eapply yields_bind; [exact Hp|]. intros ? ?. eapply yields_ext; [ysolve|]. intros. reflexivity.
  Qed.

  Lemma y_mach gamma o p : (4 <= n)%nat -> yields (get_p gamma o v) cells 1 (fun x _ => p x) ->
    yields (get_mach gamma o v) cells 1 (fun x _ => sqrt (speed2 x) / sqrt (gamma * p x / f x 0%nat)).
  Proof using Sh.
    intros Hn Hp. unfold get_mach. eapply yields_bind; [apply y_vsq; lia|]. intros ? ?.
    eapply yields_bind; [apply (y_sound gamma o p); [lia|exact Hp]|]. intros ? ?.
    eapply yields_ext; [ysolve|]. intros. reflexivity.
  Qed.

  (** *** MHD *)
  Definition field2 (x : list nat) : R := f x 5%nat * f x 5%nat + f x 6%nat * f x 6%nat + f x 7%nat * f x 7%nat.

  Lemma y_mag_p mu0 : (8 <= n)%nat -> yields (get_mhd_mag_p mu0 v) cells 1 (fun x _ => 1 / 2 * field2 x / mu0).
  Proof using Sh.
    intros. unfold get_mhd_mag_p, get_mhd_Bx, get_mhd_By, get_mhd_Bz. eapply yields_ext; [ysolve|]. intros. reflexivity.
  Qed.

  Lemma y_mhd_p gamma mu0 : (8 <= n)%nat ->
    yields (get_mhd_p gamma mu0 v) cells 1
      (fun x _ => (gamma - 1) * (f x 4%nat - 1 / 2 * f x 0%nat * speed2 x - 1 / 2 * field2 x / mu0)).
  Proof using Sh.
    intros. unfold get_mhd_p. eapply yields_bind; [apply y_density; lia|]. intros ? ?.
    eapply yields_bind; [apply y_vsq; lia|]. intros ? ?.
    eapply yields_bind; [apply y_mag_p; lia|]. intros ? ?. eapply yields_ext; [ysolve|]. intros. reflexivity.
  Qed.

  Lemma y_mhd_temp gamma mu0 : (8 <= n)%nat ->
    yields (get_mhd_temp gamma mu0 v) cells 1
      (fun x _ => (gamma - 1) * (f x 4%nat - 1 / 2 * f x 0%nat * speed2 x - 1 / 2 * field2 x / mu0) / f x 0%nat).
  Proof using Sh.
    intros. unfold get_mhd_temp. eapply yields_bind; [apply y_density; lia|]. intros ? ?.
    eapply yields_bind; [apply y_mhd_p; lia|]. intros ? ?. eapply yields_ext; [ysolve|]. intros. reflexivity.
  Qed.

  Lemma y_mhd_sound gamma mu0 : (8 <= n)%nat ->
    yields (get_mhd_sound gamma mu0 v) cells 1
      (fun x _ => sqrt (gamma * ((gamma - 1) * (f x 4%nat - 1 / 2 * f x 0%nat * speed2 x - 1 / 2 * field2 x / mu0)) / f x 0%nat)).
  Proof using Sh.
    intros. unfold get_mhd_sound. eapply yields_bind; [apply y_density; lia|]. intros ? ?.
    eapply yields_bind; [apply y_mhd_p; lia|]. intros ? ?. eapply yields_ext; [ysolve|]. intros. reflexivity.
  Qed.

  Lemma y_mhd_mach gamma mu0 : (8 <= n)%nat ->
    yields (get_mhd_mach gamma mu0 v) cells 1
      (fun x _ => sqrt (speed2 x) / sqrt (gamma * ((gamma - 1) * (f x 4%nat - 1 / 2 * f x 0%nat * speed2 x - 1 / 2 * field2 x / mu0)) / f x 0%nat)).
  Proof using Sh.
    intros. unfold get_mhd_mach. eapply yields_bind; [apply y_vsq; lia|]. intros ? ?.
    eapply yields_bind; [apply y_mhd_sound; lia|]. intros ? ?. eapply yields_ext; [ysolve|]. intros. reflexivity.
  Qed.

  (** *** The pressure tensor as one array *)
  Definition pab (x : list nat) (k a b : nat) : R := f x k - f x 0%nat * (f x a / f x 0%nat) * (f x b / f x 0%nat).

  Lemma slice_len a b : (a <= b <= n)%nat -> length (slice2 n (Z.of_nat a) (Z.of_nat b)) = (b - a)%nat.
  Proof using.
    intros H. unfold slice2, adjust_pos. rewrite seq_length.
    replace (Z.of_nat a <? 0)%Z with false by (symmetry; apply Z.ltb_ge; lia).
    replace (Z.of_nat b <? 0)%Z with false by (symmetry; apply Z.ltb_ge; lia). lia.
  Qed.

  Lemma y_pij : (10 <= n)%nat -> ones_first cells = true ->
    yields (get_pij v) cells 6 (fun x j =>
      nth j [pab x 4 1 1; pab x 5 1 2; pab x 6 1 3; pab x 7 2 2; pab x 8 2 3; pab x 9 3 3] 0).
  Proof using Sh.
    intros Hn O. unfold get_pij.
    destruct (yields_cols 4 10 v cells n f Sh) as (z & Ez & (Wz & Sz & _)). rewrite Ez. cbn [bind].
    change 4%Z with (Z.of_nat 4) in Sz. change 10%Z with (Z.of_nat 10) in Sz. rewrite slice_len in Sz by lia. cbn [Nat.sub] in Sz.
    rewrite Sz.
    eapply yields_bind; [apply (y_pab 4 1 1); lia|]. intros xx Hxx.
    eapply yields_bind; [apply (y_pab 5 1 2); lia|]. intros xy Hxy.
    eapply yields_bind; [apply (y_pab 6 1 3); lia|]. intros xz Hxz.
    eapply yields_bind; [apply (y_pab 7 2 2); lia|]. intros yy Hyy.
    eapply yields_bind; [apply (y_pab 8 2 3); lia|]. intros yz Hyz.
    eapply yields_bind; [apply (y_pab 9 3 3); lia|]. intros zz Hzz.
    eapply yields_bind; [eapply yields_set_squeezed; [exact O|exact Hxx|apply shows_zeros|lia]|]. intros o0 H0.
    eapply yields_bind; [eapply yields_set_squeezed; [exact O|exact Hxy|exact H0|lia]|]. intros o1 H1.
    eapply yields_bind; [eapply yields_set_squeezed; [exact O|exact Hxz|exact H1|lia]|]. intros o2 H2.
    eapply yields_bind; [eapply yields_set_squeezed; [exact O|exact Hyy|exact H2|lia]|]. intros o3 H3.
    eapply yields_bind; [eapply yields_set_squeezed; [exact O|exact Hyz|exact H3|lia]|]. intros o4 H4.
    eapply yields_ext; [eapply yields_set_squeezed; [exact O|exact Hzz|exact H4|lia]|].
    intros x j Hx Hj. cbv beta. destruct j as [|[|[|[|[|[|j]]]]]]; try lia; reflexivity.
  Qed.

  Lemma pij_err : (10 <= n)%nat -> ones_first cells = false -> get_pij v = Err ValueError.
  Proof using Sh.
    intros Hn O. unfold get_pij.
    destruct (yields_cols 4 10 v cells n f Sh) as (z & Ez & (Wz & Sz & _)). rewrite Ez. cbn [bind].
    change 4%Z with (Z.of_nat 4) in Sz. change 10%Z with (Z.of_nat 10) in Sz. rewrite slice_len in Sz by lia. cbn [Nat.sub] in Sz.
    rewrite Sz.
    destruct (y_pab 4 1 1) as (xx & Exx & Hxx); [lia..|]. unfold get_pxx. rewrite Exx. cbn [bind].
    destruct (y_pab 5 1 2) as (xy & Exy & Hxy); [lia..|]. unfold get_pxy. rewrite Exy. cbn [bind].
    destruct (y_pab 6 1 3) as (xz & Exz & Hxz); [lia..|]. unfold get_pxz. rewrite Exz. cbn [bind].
    destruct (y_pab 7 2 2) as (yy & Eyy & Hyy); [lia..|]. unfold get_pyy. rewrite Eyy. cbn [bind].
    destruct (y_pab 8 2 3) as (yz & Eyz & Hyz); [lia..|]. unfold get_pyz. rewrite Eyz. cbn [bind].
    destruct (y_pab 9 3 3) as (zz & Ezz & Hzz); [lia..|]. unfold get_pzz. rewrite Ezz. cbn [bind].
    erewrite set_squeezed_err; [reflexivity|exact O|exact Hxx|apply shows_zeros|lia].
  Qed.

  (** *** Squared magnitude of components [a .. b-1] *)
  Lemma y_mag_sq coords a b : split_on ":" coords = [show_Z (Z.of_nat a); show_Z (Z.of_nat b)]%string ->
    (a < b <= n)%nat ->
    yields (mag_sq coords v) cells 1 (fun x _ => rsum (List.map (fun k => f x k * f x k) (seq a (b - a)))).
  Proof using Sh.
    intros Es H. unfold mag_sq. rewrite Es. rewrite !py_int_show_Z. cbn [bind].
    assert (Sl : slice2 n (Z.of_nat a) (Z.of_nat b) = seq a (b - a)).
    { unfold slice2, adjust_pos. 
      replace (Z.of_nat a <? 0)%Z with false by (symmetry; apply Z.ltb_ge; lia).
      replace (Z.of_nat b <? 0)%Z with false by (symmetry; apply Z.ltb_ge; lia).
      rewrite !Z.min_l by lia. f_equal; lia. }
    eapply yields_bind; [eapply yields_cols; exact Sh|]. rewrite Sl, seq_length. intros w Hw.
    destruct (holds_comp 0 w _ _ _ Hw ltac:(lia)) as (c & Ec & _). rewrite Ec. cbn [bind].
    eapply yields_bind; [unfold mul; eapply yields_rb; exact Hw|]. intros p Hp.
    eapply yields_ext; [eapply yields_sum_axis; exact Hp|].
    intros x j Hx Hj. cbv beta. f_equal.
    transitivity (List.map (fun i => f x (a + i)%nat * f x (a + i)%nat) (seq 0 (b - a))).
    - apply map_ext_in. intros i Hi. apply in_seq in Hi. rewrite seq_nth by lia. reflexivity.
    - rewrite <- (map_map (fun i => (a + i)%nat) (fun k => f x k * f x k)). f_equal.
      clear. generalize (b - a)%nat as m. intros m. revert a. induction m as [|m IH]; intros a; [reflexivity|].
      cbn [seq List.map]. f_equal; [lia|]. rewrite <- (IH (S a)), <- seq_shift, map_map. apply map_ext. intros i. lia.
  Qed.
End Cells.
