(** * Pressure along a magnetic field, rotations, relative change, energies. *)
From Coq Require Import String Ascii List Arith ZArith Bool Lia Reals Lra.
From Verif Require Import Prelude PreludeFacts NdArray Ev_Model Tools_Arr Tools_Model Tools_Proofs.
Import ListNotations.
Open Scope list_scope.
Open Scope nat_scope.

Section Field.
  Context (cells : list nat) (np nb : nat) (p b : arr) (fp fb : list nat -> nat -> R).
  Context (Sp : shows cells np p fp) (Sb : shows cells nb b fb) (Hp : 6 <= np) (Hb : 3 <= nb).
  Open Scope R_scope.

  Definition B2 (x : list nat) : R := fb x 0%nat * fb x 0%nat + fb x 1%nat * fb x 1%nat + fb x 2%nat * fb x 2%nat.
  (** b . P . b *)
  Definition bPb (x : list nat) : R :=
    fb x 0%nat * fb x 0%nat * fp x 0%nat + fb x 1%nat * fb x 1%nat * fp x 3%nat + fb x 2%nat * fb x 2%nat * fp x 5%nat
    + 2 * (fb x 0%nat * fb x 1%nat * fp x 1%nat + fb x 0%nat * fb x 2%nat * fp x 2%nat + fb x 1%nat * fb x 2%nat * fp x 4%nat).
  Definition trP (x : list nat) : R := fp x 0%nat + fp x 3%nat + fp x 5%nat.
  Definition ppar (x : list nat) : R := bPb x / B2 x.
  Definition pperp (x : list nat) : R := (trP x - ppar x) / 2.

  Lemma y_B2 : yields (mag_sq "0:3" b) cells 1 (fun x _ => B2 x).
  Proof using Sb Hb.
    eapply yields_ext; [eapply (y_mag_sq _ _ _ _ Sb "0:3" 0 3); [reflexivity|clear - Hb; lia]|].
    intros. cbv beta. unfold B2. cbn [seq List.map Nat.sub rsum fold_right]. ring.
  Qed.

  Lemma y_p_par : yields (get_p_par p b) cells 1 (fun x _ => ppar x).
  Proof using Sp Sb Hp Hb.
    unfold get_p_par.
    do 9 (eapply yields_bind; [ysolve|intros ? ?]).
    eapply yields_bind; [exact y_B2|intros ? ?].
    eapply yields_ext; [ysolve|]. intros. reflexivity.
  Qed.

  Lemma y_p_perp : yields (get_p_perp p b) cells 1 (fun x _ => pperp x).
  Proof using Sp Sb Hp Hb.
    unfold get_p_perp. do 3 (eapply yields_bind; [ysolve|intros ? ?]).
    eapply yields_bind; [exact y_p_par|intros ? ?].
    eapply yields_ext; [ysolve|]. intros. reflexivity.
  Qed.

  Definition dev (x : list nat) (delta pij bi bj : R) : R :=
    pij - (ppar x * bi * bj / B2 x + pperp x * (delta - bi * bj / B2 x)).
  Definition dxx x := dev x 1 (fp x 0%nat) (fb x 0%nat) (fb x 0%nat).
  Definition dxy x := dev x 0 (fp x 1%nat) (fb x 0%nat) (fb x 1%nat).
  Definition dxz x := dev x 0 (fp x 2%nat) (fb x 0%nat) (fb x 2%nat).
  Definition dyy x := dev x 1 (fp x 3%nat) (fb x 1%nat) (fb x 1%nat).
  Definition dyz x := dev x 0 (fp x 4%nat) (fb x 1%nat) (fb x 2%nat).
  Definition dzz x := dev x 1 (fp x 5%nat) (fb x 2%nat) (fb x 2%nat).
  Definition dd x := dxx x * dxx x + 2 * (dxy x * dxy x) + 2 * (dxz x * dxz x) + dyy x * dyy x + 2 * (dyz x * dyz x) + dzz x * dzz x.
  Definition den x := 2 * (pperp x * pperp x) + 4 * ppar x * pperp x.

  Lemma y_part delta a1 a2 a3 a4 a5 a6 (fpp fe fm f1 f2 f3 : list nat -> nat -> R) :
    shows cells 1 a1 f1 -> shows cells 1 a2 f2 -> shows cells 1 a3 f3 ->
    shows cells 1 a4 fpp -> shows cells 1 a5 fe -> shows cells 1 a6 fm ->
    yields (agyro_part delta a1 a2 a3 a4 a5 a6) cells 1
      (fun x j => f1 x j - (fpp x j * f2 x j * f3 x j / fm x j + fe x j * (delta - f2 x j * f3 x j / fm x j))).
  Proof using. intros. unfold agyro_part. eapply yields_ext; [ysolve|]. intros. reflexivity. Qed.

  Lemma y_frobenius m : str_lower m = "frobenius"%string ->
    yields (get_agyro m p b) cells 1 (fun x _ => sqrt (dd x) / sqrt (den x)).
  Proof using Sp Sb Hp Hb.
    intros E. unfold get_agyro. rewrite E. cbv beta. 
    do 9 (eapply yields_bind; [ysolve|intros ? ?]).
    eapply yields_bind; [exact y_B2|intros ? ?].
    eapply yields_bind; [exact y_p_par|intros ? ?].
    eapply yields_bind; [exact y_p_perp|intros ? ?].
    change (String.eqb "frobenius" "swisdak") with false. change (String.eqb "frobenius" "frobenius") with true. cbv iota.
    do 6 (eapply yields_bind; [eapply y_part; eassumption|intros ? ?]).
    eapply yields_ext; [ysolve|]. intros. reflexivity.
  Qed.

  Definition i2 x := fp x 0%nat * fp x 3%nat + fp x 0%nat * fp x 5%nat + fp x 3%nat * fp x 5%nat
    - (fp x 1%nat * fp x 1%nat + fp x 2%nat * fp x 2%nat + fp x 4%nat * fp x 4%nat).

  Lemma y_swisdak m : str_lower m = "swisdak"%string ->
    yields (get_agyro m p b) cells 1 (fun x _ => sqrt (1 - 4 * i2 x / ((trP x - ppar x) * (trP x + 3 * ppar x)))).
  Proof using Sp Sb Hp Hb.
    intros E. unfold get_agyro. rewrite E. cbv beta.
    do 9 (eapply yields_bind; [ysolve|intros ? ?]).
    eapply yields_bind; [exact y_B2|intros ? ?].
    eapply yields_bind; [exact y_p_par|intros ? ?].
    eapply yields_bind; [exact y_p_perp|intros ? ?].
    change (String.eqb "swisdak" "swisdak") with true. cbv iota.
    eapply yields_ext; [ysolve|]. intros. reflexivity.
  Qed.

  Lemma agyro_other m : str_lower m <> "swisdak"%string -> str_lower m <> "frobenius"%string -> get_agyro m p b = Err ValueError.
  Proof using Sp Sb Hp Hb.
    intros N1 N2. unfold get_agyro.
    assert (C : forall k v n f, shows cells n v f -> (k < n)%nat -> exists w, col k v = Ok w).
    { intros k v n f S H. destruct (yields_col k v _ _ _ S H) as (w & Ew & _). eauto. }
    assert (Cp : forall k, (k < 6)%nat -> exists w, col k p = Ok w) by (intros; eapply C; [exact Sp|lia]).
    assert (Cb : forall k, (k < 3)%nat -> exists w, col k b = Ok w) by (intros; eapply C; [exact Sb|lia]).
    destruct (Cp 0%nat) as [? ->]; [lia|]. destruct (Cp 1%nat) as [? ->]; [lia|]. destruct (Cp 2%nat) as [? ->]; [lia|].
    destruct (Cp 3%nat) as [? ->]; [lia|]. destruct (Cp 4%nat) as [? ->]; [lia|]. destruct (Cp 5%nat) as [? ->]; [lia|].
    destruct (Cb 0%nat) as [? ->]; [lia|]. destruct (Cb 1%nat) as [? ->]; [lia|]. destruct (Cb 2%nat) as [? ->]; [lia|].
    destruct y_B2 as (? & -> & _). destruct y_p_par as (? & -> & _). destruct y_p_perp as (? & -> & _). cbn [bind].
    destruct (String.eqb_spec (str_lower m) "swisdak"); [congruence|].
    destruct (String.eqb_spec (str_lower m) "frobenius"); [congruence|]. reflexivity.
  Qed.
End Field.

(** ** parrotate *)
Definition bind_ok {A B} (r : res A) (k : A -> res B) a : r = Ok a -> bind r k = k a.
Proof. intros ->. reflexivity. Qed.

Section Rotate.
  Context (cells : list nat) (m : nat) (u w : arr) (f g : list nat -> nat -> R).
  Context (Su : shows cells m u f) (Sw : shows cells m w g).
  Open Scope R_scope.

  Definition dotf (x : list nat) : R := rsum (List.map (fun j => f x j * g x j) (seq 0 m)).
  Definition dotg (x : list nat) : R := rsum (List.map (fun j => g x j * g x j) (seq 0 m)).

  Lemma y_par_comp k out h : shows cells m out h -> (k < m)%nat ->
    yields (par_comp u w k out) cells m (fun x j => if (j =? k)%nat then dotf x / dotg x * g x k else h x j).
  Proof using Su Sw.
    intros So Hk. unfold par_comp, mul, div.
    eapply yields_bind; [eapply yields_rb; [exact Su|exact Sw]|intros a Ha].
    destruct (holds_sum _ _ _ _ Ha) as (n & -> & Hn). cbn [bind].
    eapply yields_bind; [eapply yields_rb; exact Sw|intros c Hc].
    destruct (holds_sum _ _ _ _ Hc) as (d & -> & Hd). cbn [bind].
    destruct (holds_rb Rdiv _ _ _ _ _ Hn Hd) as (q & Eq & Hq). rewrite Eq. cbn [bind].
    destruct (holds_comp k w _ _ _ Sw Hk) as (e & Ee & He). rewrite Ee. cbn [bind].
    destruct (holds_rb Rmult _ _ _ _ _ Hq He) as (r & Er & Hr). rewrite Er. cbn [bind].
    eapply yields_ext; [eapply yields_set_col; [exact Hr|exact So|exact Hk]|].
    intros x j Hx Hj. reflexivity.
  Qed.

  Lemma par_comp_err k out h : shows cells m out h -> (m <= k)%nat -> par_comp u w k out = Err IndexError.
  Proof using Su Sw.
    intros So Hk. unfold par_comp, mul, div.
    destruct (yields_rb Rmult _ _ _ _ _ _ Su Sw) as (a & -> & Ha). cbn [bind].
    destruct (holds_sum _ _ _ _ Ha) as (n & -> & Hn). cbn [bind].
    destruct (yields_rb Rmult _ _ _ _ _ _ Sw Sw) as (c & -> & Hc). cbn [bind].
    destruct (holds_sum _ _ _ _ Hc) as (d & -> & Hd). cbn [bind].
    destruct (holds_rb Rdiv _ _ _ _ _ Hn Hd) as (q & -> & Hq). cbn [bind].
    rewrite (comp_err k w cells m); [reflexivity|apply Sw|exact Hk].
  Qed.
End Rotate.

Lemma y_parrotate cells nr data rot f g coords a b :
  shows cells (b - a) data f -> shows cells nr rot g -> a <= b <= nr -> 3 <= b - a ->
  split_on ":" coords = [show_Z (Z.of_nat a); show_Z (Z.of_nat b)]%string ->
  yields (parrotate coords data rot) cells (b - a) (fun x j =>
    if j <? 3 then
      (rsum (List.map (fun i => f x i * g x (a + i)%nat) (seq 0 (b - a)))
       / rsum (List.map (fun i => g x (a + i)%nat * g x (a + i)%nat) (seq 0 (b - a))) * g x (a + j)%nat)
    else 0)%R.
Proof.
  intros Sd Sr H H3 Es. unfold parrotate. rewrite Es, !py_int_show_Z. cbn [bind].
  assert (Sl : slice2 nr (Z.of_nat a) (Z.of_nat b) = seq a (b - a)).
  { unfold slice2, adjust_pos.
    replace (Z.of_nat a <? 0)%Z with false by (symmetry; apply Z.ltb_ge; lia).
    replace (Z.of_nat b <? 0)%Z with false by (symmetry; apply Z.ltb_ge; lia).
    rewrite !Z.min_l by lia. f_equal; lia. }
  destruct (yields_cols (Z.of_nat a) (Z.of_nat b) rot cells nr g Sr) as (w & -> & Sw). cbn [bind].
  rewrite Sl, seq_length in Sw.
  assert (Sw' : shows cells (b - a) w (fun x j => g x (a + j))).
  { eapply shows_ext; [exact Sw|]. intros x j Hx Hj. cbv beta. now rewrite seq_nth by lia. }
  assert (Shd : shape data = cells ++ [b - a]) by apply Sd. rewrite Shd.
  destruct (y_par_comp cells (b - a) data w f _ Sd Sw' 0 _ _ (shows_zeros cells (b - a)) ltac:(lia)) as (o0 & -> & H0). cbn [bind].
  destruct (y_par_comp cells (b - a) data w f _ Sd Sw' 1 _ _ H0 ltac:(lia)) as (o1 & -> & H1). cbn [bind].
  destruct (y_par_comp cells (b - a) data w f _ Sd Sw' 2 _ _ H1 ltac:(lia)) as (o2 & -> & H2).
  apply yields_ok. eapply shows_ext; [exact H2|]. intros x j Hx Hj. cbv beta. unfold dotf, dotg.
  destruct j as [|[|[|j]]]; reflexivity.
Qed.

Lemma parrotate_few cells nr data rot f g coords a b :
  shows cells (b - a) data f -> shows cells nr rot g -> a <= b <= nr -> b - a < 3 ->
  split_on ":" coords = [show_Z (Z.of_nat a); show_Z (Z.of_nat b)]%string ->
  parrotate coords data rot = Err AttributeError.
Proof.
  intros Sd Sr H H3 Es. unfold parrotate. rewrite Es, !py_int_show_Z. cbn [bind].
  assert (Sl : slice2 nr (Z.of_nat a) (Z.of_nat b) = seq a (b - a)).
  { unfold slice2, adjust_pos.
    replace (Z.of_nat a <? 0)%Z with false by (symmetry; apply Z.ltb_ge; lia).
    replace (Z.of_nat b <? 0)%Z with false by (symmetry; apply Z.ltb_ge; lia).
    rewrite !Z.min_l by lia. f_equal; lia. }
  destruct (yields_cols (Z.of_nat a) (Z.of_nat b) rot cells nr g Sr) as (w & -> & Sw). cbn [bind].
  rewrite Sl, seq_length in Sw.
  assert (Shd : shape data = cells ++ [b - a]) by apply Sd. rewrite Shd.
  destruct (Nat.eq_dec (b - a) 0) as [Z0|N0].
  { erewrite par_comp_err; [reflexivity|exact Sd|exact Sw|apply shows_zeros|lia]. }
  destruct (y_par_comp cells (b - a) data w f _ Sd Sw 0 _ _ (shows_zeros cells (b - a)) ltac:(lia)) as (o0 & -> & H0). cbn [bind].
  destruct (Nat.eq_dec (b - a) 1) as [Z1|N1].
  { erewrite par_comp_err; [reflexivity|exact Sd|exact Sw|exact H0|lia]. }
  destruct (y_par_comp cells (b - a) data w f _ Sd Sw 1 _ _ H0 ltac:(lia)) as (o1 & -> & H1). cbn [bind].
  erewrite par_comp_err; [reflexivity|exact Sd|exact Sw|exact H1|lia].
Qed.

(** ** rel_change *)
Section Relative.
  Context (cells : list nat) (m m0 : nat) (v v0 : arr) (f f0 : list nat -> nat -> R).
  Context (Sv : shows cells m v f) (S0 : shows cells m0 v0 f0).
  Open Scope R_scope.

  Lemma y_rel_comp k ref r out h :
    shows cells m out h -> (k < m)%nat -> (k < m0)%nat -> norm_index m0 ref = Ok r -> (r < m0)%nat ->
    yields (rel_comp k v v0 ref out) cells m (fun x j => if (j =? k)%nat then (f x k - f0 x k) / f0 x r else h x j).
  Proof using Sv S0.
    intros So Hk Hk0 Er Hr. unfold rel_comp, sub, div.
    destruct (holds_comp k v _ _ _ Sv Hk) as (a & -> & Ha). cbn [bind].
    destruct (holds_comp k v0 _ _ _ S0 Hk0) as (c & -> & Hc). cbn [bind].
    destruct (holds_rb Rminus _ _ _ _ _ Ha Hc) as (d & -> & Hd). cbn [bind].
    assert (E : shape v0 = cells ++ [m0]) by apply S0. rewrite E, last_snoc, Er. cbn [bind].
    destruct (holds_comp r v0 _ _ _ S0 Hr) as (e & -> & He). cbn [bind].
    destruct (holds_rb Rdiv _ _ _ _ _ Hd He) as (q & -> & Hq). cbn [bind].
    eapply yields_ext; [eapply yields_set_col; [exact Hq|exact So|exact Hk]|]. intros x j Hx Hj. reflexivity.
  Qed.

  (** With [cmp = None] each component is divided by itself, otherwise all by
      one component of the reference. *)
  Definition ref_of (cmp : option Z) (k r : nat) : Prop :=
    match cmp with None => r = k | Some z => norm_index m0 z = Ok r end.

  Definition rel_loop (cmp : option string) :=
    fix loop (ks : list nat) (out : arr) : res arr :=
      match ks with
      | [] => Ok out
      | k :: ks' =>
          let* r := match cmp with Some s => py_int s | None => Ok (Z.of_nat k) end in
          let* o := rel_comp k v v0 r out in loop ks' o
      end.

  Lemma y_loop cmp (rf : nat -> nat) : (m <= m0)%nat -> (forall k, (k < m)%nat -> (rf k < m0)%nat) ->
    (forall k, (k < m)%nat -> exists z, match cmp with Some s => py_int s | None => Ok (Z.of_nat k) end = Ok z /\ norm_index m0 z = Ok (rf k)) ->
    forall ks out h, (forall k, In k ks -> (k < m)%nat) -> shows cells m out h ->
    yields (rel_loop cmp ks out) cells m
      (fun x j => if existsb (Nat.eqb j) ks then (f x j - f0 x j) / f0 x (rf j) else h x j).
  Proof using Sv S0.
    intros Hm Hr Hz. induction ks as [|k ks IH]; intros out h Hk So.
    - apply yields_ok. exact So.
    - cbn [rel_loop]. destruct (Hz k) as (z & Ez & En); [apply Hk; left; reflexivity|]. rewrite Ez. cbn [bind].
      assert (Hkm : (k < m)%nat) by (apply Hk; left; reflexivity).
      eapply yields_bind; [eapply (y_rel_comp k z (rf k)); [exact So|exact Hkm|lia|exact En|auto]|].
      intros o Ho. eapply yields_ext; [apply IH; [intros; apply Hk; right; assumption|exact Ho]|].
      intros x j Hx Hj. cbv beta. cbn [existsb]. destruct (Nat.eqb_spec j k); [subst j; cbn [orb]|reflexivity].
      destruct (existsb (Nat.eqb k) ks); reflexivity.
  Qed.

  Lemma rel_change_loop cmp : rel_change v0 v cmp = rel_loop cmp (seq 0 (last (shape v) 0%nat)) (zeros (shape v)).
  Proof using. reflexivity. Qed.

  Lemma y_rel_none : (m <= m0)%nat ->
    yields (rel_change v0 v None) cells m (fun x j => (f x j - f0 x j) / f0 x j).
  Proof using Sv S0.
    intros Hm. rewrite rel_change_loop. assert (E : shape v = cells ++ [m]) by apply Sv. rewrite E, last_snoc.
    eapply yields_ext; [apply (y_loop None (fun k => k) Hm)|].
    - intros; lia.
    - intros k Hk. exists (Z.of_nat k). split; [reflexivity|]. unfold norm_index.
      replace (Z.of_nat k <? 0)%Z with false by (symmetry; apply Z.ltb_ge; lia). cbn.
      destruct (Z.leb_spec 0 (Z.of_nat k)); [|lia]. destruct (Z.ltb_spec (Z.of_nat k) (Z.of_nat m0)); [|lia].
      cbn. now rewrite Nat2Z.id.
    - intros k Hk. apply in_seq in Hk. lia.
    - apply shows_zeros.
    - intros x j Hx Hj. cbv beta. replace (existsb (Nat.eqb j) (seq 0 m)) with true; [reflexivity|].
      symmetry. apply existsb_exists. exists j. split; [apply in_seq; lia|apply Nat.eqb_refl].
  Qed.

  Lemma y_rel_some s z r : (m <= m0)%nat -> py_int s = Ok z -> norm_index m0 z = Ok r -> (r < m0)%nat ->
    yields (rel_change v0 v (Some s)) cells m (fun x j => (f x j - f0 x j) / f0 x r).
  Proof using Sv S0.
    intros Hm Es Er Hr. rewrite rel_change_loop. assert (E : shape v = cells ++ [m]) by apply Sv. rewrite E, last_snoc.
    eapply yields_ext; [apply (y_loop (Some s) (fun _ => r) Hm)|].
    - intros; lia.
    - intros k Hk. exists z. auto.
    - intros k Hk. apply in_seq in Hk. lia.
    - apply shows_zeros.
    - intros x j Hx Hj. cbv beta. replace (existsb (Nat.eqb j) (seq 0 m)) with true; [reflexivity|].
      symmetry. apply existsb_exists. exists j. split; [apply in_seq; lia|apply Nat.eqb_refl].
  Qed.
End Relative.

(** ** energetics *)
Section Energy.
  Context (cells : list nat) (nf : nat) (elc ion field : arr) (ff : list nat -> nat -> R).
  Context (pe ke pi ki : list nat -> R).
  Context (Sf : shows cells nf field ff).
  Context (Ype : yields (get_p gas_gamma None elc) cells 1 (fun x _ => pe x)).
  Context (Yke : yields (get_ke gas_gamma None elc) cells 1 (fun x _ => ke x)).
  Context (Ypi : yields (get_p gas_gamma None ion) cells 1 (fun x _ => pi x)).
  Context (Yki : yields (get_ke gas_gamma None ion) cells 1 (fun x _ => ki x)).
  Open Scope R_scope.

  Definition esq (x : list nat) : R := (ff x 0%nat * ff x 0%nat + ff x 1%nat * ff x 1%nat + ff x 2%nat * ff x 2%nat) / 2.
  Definition bsq (x : list nat) : R := (ff x 3%nat * ff x 3%nat + ff x 4%nat * ff x 4%nat + ff x 5%nat * ff x 5%nat) / 2.

  Lemma y_energetics : (7 <= nf)%nat -> ones_first cells = true ->
    yields (energetics elc ion field) cells 7 (fun x j =>
      nth j [pe x; ke x; pi x; ki x; esq x; bsq x; pe x + ke x + pi x + ki x + esq x + bsq x] 0).
  Proof using All.
    intros Hn O. unfold energetics.
    destruct (yields_cols 0 7 field cells nf ff Sf) as (z & Ez & (Wz & Sz & _)). rewrite Ez. cbn [bind].
    change 0%Z with (Z.of_nat 0) in Sz. change 7%Z with (Z.of_nat 7) in Sz. rewrite slice_len in Sz by lia. cbn [Nat.sub] in Sz.
    rewrite Sz.
    eapply yields_bind; [exact Ype|intros a1 H1]. eapply yields_bind; [exact Yke|intros a2 H2].
    eapply yields_bind; [exact Ypi|intros a3 H3]. eapply yields_bind; [exact Yki|intros a4 H4].
    eapply yields_bind.
    { eapply (y_mag_sq _ _ _ _ Sf "0:3" 0 3); [reflexivity|clear - Hn; lia]. }
    intros a5 H5.
    eapply yields_bind.
    { eapply (y_mag_sq _ _ _ _ Sf "3:6" 3 6); [reflexivity|clear - Hn; lia]. }
    intros a6 H6.
    assert (H5' : shows cells 1 (rmap (fun x => x / 2) a5) (fun x _ => esq x)).
    { eapply shows_ext; [eapply shows_map; exact H5|]. intros. cbv beta. unfold esq. cbn [seq List.map Nat.sub rsum fold_right]. field. }
    assert (H6' : shows cells 1 (rmap (fun x => x / 2) a6) (fun x _ => bsq x)).
    { eapply shows_ext; [eapply shows_map; exact H6|]. intros. cbv beta. unfold bsq. cbn [seq List.map Nat.sub rsum fold_right]. field. }
    cbv zeta. clear H5 H6. revert H5' H6'. generalize (rmap (fun x => x / 2) a5) (rmap (fun x => x / 2) a6). clear a5 a6. intros a5 a6 H5 H6.
    eapply yields_bind; [eapply yields_set_squeezed; [exact O|exact H1|apply shows_zeros|lia]|]. intros o0 K0.
    eapply yields_bind; [eapply yields_set_squeezed; [exact O|exact H2|exact K0|lia]|]. intros o1 K1.
    eapply yields_bind; [eapply yields_set_squeezed; [exact O|exact H3|exact K1|lia]|]. intros o2 K2.
    eapply yields_bind; [eapply yields_set_squeezed; [exact O|exact H4|exact K2|lia]|]. intros o3 K3.
    eapply yields_bind; [eapply yields_set_squeezed; [exact O|exact H5|exact K3|lia]|]. intros o4 K4.
    eapply yields_bind; [eapply yields_set_squeezed; [exact O|exact H6|exact K4|lia]|]. intros o5 K5.
    do 5 (eapply yields_bind; [ysolve|intros ? ?]).
    eapply yields_ext; [eapply yields_set_squeezed; [exact O|eassumption|exact K5|lia]|].
    intros x j Hx Hj. cbv beta. destruct j as [|[|[|[|[|[|[|j]]]]]]]; try lia; reflexivity.
  Qed.

  Lemma energetics_axis : ones_first cells = false -> (6 <= nf)%nat ->
    energetics elc ion field = Err ValueError.
  Proof using All.
    intros O Hn. unfold energetics.
    destruct (yields_cols 0 7 field cells nf ff Sf) as (z & Ez & (Wz & Sz & _)). rewrite Ez. cbn [bind].
    destruct Ype as (a1 & -> & H1). destruct Yke as (a2 & -> & H2). destruct Ypi as (a3 & -> & H3). destruct Yki as (a4 & -> & H4).
    cbn [bind].
    assert (M5 : yields (mag_sq "0:3" field) cells 1 (fun x _ => rsum (List.map (fun k => ff x k * ff x k) (seq 0 (3 - 0))))).
    { eapply (y_mag_sq _ _ _ _ Sf "0:3" 0 3); [reflexivity|clear - Hn; lia]. }
    assert (M6 : yields (mag_sq "3:6" field) cells 1 (fun x _ => rsum (List.map (fun k => ff x k * ff x k) (seq 3 (6 - 3))))).
    { eapply (y_mag_sq _ _ _ _ Sf "3:6" 3 6); [reflexivity|clear - Hn; lia]. }
    destruct M5 as (a5 & -> & _). destruct M6 as (a6 & -> & _). cbn [bind]. cbv zeta.
    rewrite Sz. erewrite set_squeezed_err; [reflexivity|exact O|exact H1|apply shows_zeros|].
    unfold slice2, adjust_pos. cbn [Z.ltb Z.compare]. rewrite seq_length. lia.
  Qed.
End Energy.
