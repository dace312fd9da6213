(** * C96: the Fourier transform of a dataset *)
From Coq Require Import List Arith ZArith Bool Lia Reals Lra.
From Coquelicot Require Import Complex.
From Verif Require Import Prelude PreludeFacts NdArray Fft_Model Fft_Spec Fft_Dft Fft_Proofs.
Import ListNotations.
Open Scope nat_scope.
Open Scope list_scope.

Lemma cval_get v idx z : get v idx = Some z -> cval v idx = z.
Proof. intros E. unfold cval. now rewrite E. Qed.

Lemma get_cval v idx : wf v -> in_range (shape v) idx -> get v idx = Some (cval v idx).
Proof. intros W H. destruct (get_in v idx W H) as [z E]. unfold cval. now rewrite E. Qed.

Lemma snoc_range cells m x c : in_range cells x -> c < m -> in_range (cells ++ [m]) (x ++ [c]).
Proof. intros. unfold in_range in *. apply Forall2_app; auto. Qed.

Lemma prod_pos sh x : in_range sh x -> 0 < prod sh.
Proof. induction 1 as [|i n x sh Hi _ IH]; cbn; [lia|]. fold (prod sh). nia. Qed.

(** Nothing is lost: every value is the sum of the waves with the amplitudes in
    the result, over the number of points; each component for itself. *)
Theorem C96_inverse ow gs cells m v : good gs cells m v ->
  exists fs ft, delivers (fft false false ow (dataset gs v)) ow (dataset gs v) (List.map Pts fs) ft /\
    wf ft /\ shape ft = shape v /\
    forall x c, in_range cells x -> c < m ->
      get v (x ++ [c]) = Some (Cmult (RtoC (/ size cells)) (box_sum cells (fun k => Cmult (cval ft (k ++ [c])) (wave cells k x)))).
Proof.
  intros G. destruct (fft_plain ow gs cells m v G) as (fs & _ & D). destruct G as (W & S & _).
  exists fs, (ft_all v). split; [exact D|]. split; [apply ft_all_wf|]. split; [reflexivity|].
  intros x c Hx Hc. rewrite (get_cval v) by (rewrite ?S; auto using snoc_range). f_equal.
  rewrite (box_sum_ext cells _ (fun k => Cmult (dftn cells (fun x => cval v (x ++ [c])) k) (wave cells k x))).
  2:{ intros k Hk. now rewrite (cval_get _ _ _ (ft_all_get v cells m k c S Hk Hc)). }
  rewrite dftn_inverse by assumption. rewrite Cmult_assoc, <- RtoC_mult, Rinv_l, Cmult_1_l; [reflexivity|].
  unfold size. apply not_0_INR. pose proof (prod_pos _ _ Hx). lia.
Qed.

(** The power in the result is that of the data, times the number of points. *)
Theorem C96_parseval ow gs cells m v : good gs cells m v ->
  exists fs ft, delivers (fft false false ow (dataset gs v)) ow (dataset gs v) (List.map Pts fs) ft /\
    forall c, c < m -> box_sum cells (fun k => power (cval ft (k ++ [c])))
                     = Cmult (RtoC (size cells)) (box_sum cells (fun x => power (cval v (x ++ [c])))).
Proof.
  intros G. destruct (fft_plain ow gs cells m v G) as (fs & _ & D). destruct G as (W & S & _).
  exists fs, (ft_all v). split; [exact D|]. intros c Hc. rewrite <- dftn_parseval. apply box_sum_ext. intros k Hk.
  now rewrite (cval_get _ _ _ (ft_all_get v cells m k c S Hk Hc)).
Qed.

(** ** Frequencies of data with one point per value *)

Lemma uniform_step g : 2 < length g -> uniform g -> exists x0 dx, dx <> 0%R /\ (nth 1 g 0 - nth 0 g 0 = dx)%R /\
  forall j, j < length g -> nth j g 0%R = (x0 + INR j * dx)%R.
Proof.
  intros L (x0 & dx & N & E). exists x0, dx. split; [exact N|]. split; [|exact E].
  rewrite (E 1), (E 0) by lia. cbn. ring.
Qed.

(** The frequencies of the mode with indices [k]. *)
Definition mode (fs : list (list R)) (k : list nat) : list R :=
  List.map (fun p => nth (fst p) (snd p) 0%R) (combine k fs).

Lemma phase_wave gs fs k : freqs_of gs fs -> Forall (fun g => 2 < length g) gs -> Forall uniform gs ->
  in_range (List.map (@length R) gs) k ->
  exists a, forall x, in_range (List.map (@length R) gs) x ->
    plane_wave (mode fs k) gs x = Cmult (cis a) (wave (List.map (@length R) gs) k x).
Proof.
  unfold plane_wave, mode. intros F. revert k. induction F as [|g f gs fs (Lf & Nf) F IH]; intros k A U Hk.
  - exists 0%R. intros x Hx. cbn in *. inversion Hk; inversion Hx; subst. cbn. rewrite cis_0. ring.
  - inversion A as [|? ? Ag A']; inversion U as [|? ? Ug U']; subst. cbn [List.map] in Hk.
    inversion Hk as [|i ? kt ? Hi Hkt]; subst. destruct (IH kt A' U' Hkt) as (a & E).
    destruct (uniform_step g Ag Ug) as (x0 & dx & N & D & Eg).
    exists (2 * PI * (nth i f 0 * x0) + a)%R. intros x Hx. cbn [List.map] in Hx. inversion Hx as [|j ? xt ? Hj Hxt]; subst.
    cbn [combine List.map phase wave fst snd]. rewrite cis_plus, E by assumption.
    rewrite Eg by assumption. rewrite cis_plus.
    replace (2 * PI * (nth i f 0 * (x0 + INR j * (nth 1 g 0 - nth 0 g 0))))%R
      with (2 * PI * (nth i f 0 * x0) + 2 * PI * (nth i f 0 * (INR j * (nth 1 g 0 - nth 0 g 0))))%R by ring.
    rewrite cis_plus.
    replace (cis (2 * PI * (nth i f 0 * (INR j * (nth 1 g 0 - nth 0 g 0))))%R) with (cis (turn (length g) i j)); [ring|].
    rewrite Nf by assumption. set (dx := (nth 1 g 0 - nth 0 g 0)%R) in *.
    assert (Hn : INR (length g) <> 0%R) by (apply not_0_INR; lia).
    destruct (Nat.ltb_spec (2 * i) (length g)).
    + rewrite <- INR_IZR_INZ. f_equal. unfold turn. field. split; assumption.
    + rewrite minus_IZR, <- !INR_IZR_INZ.
      replace (2 * PI * ((INR i - INR (length g)) / (INR (length g) * dx) * (INR j * dx)))%R
        with (turn (length g) i j + - (2 * PI * INR j))%R by (unfold turn; field; split; assumption).
      rewrite cis_plus, cis_neg, cis_turns. unfold Cconj, RtoC, Cmult; cbn. apply injective_projections; cbn; ring.
Qed.

(** If component [c] is the plane wave with the frequencies that the result gives
    for the indices [k], evaluated at the coordinates of the points, then the
    result is zero except at [k], where its magnitude is the number of points. *)
Theorem C96_plane_wave ow gs cells m v :
  good gs cells m v -> cells = List.map (@length R) gs -> Forall uniform gs ->
  exists fs ft, delivers (fft false false ow (dataset gs v)) ow (dataset gs v) (List.map Pts fs) ft /\
    List.map (@length R) fs = cells /\
    forall k c, in_range cells k -> c < m ->
      (forall x, in_range cells x -> get v (x ++ [c]) = Some (plane_wave (mode fs k) gs x)) ->
      forall l, in_range cells l -> Cmod (cval ft (l ++ [c])) = if list_eq_dec Nat.eq_dec l k then size cells else 0%R.
Proof.
  intros G Ec U. destruct (fft_plain ow gs cells m v G) as (fs & F & D). destruct G as (W & S & L & N & A).
  exists fs, (ft_all v). split; [exact D|]. split.
  { rewrite Ec. clear -F. induction F as [|g f gs fs (Lf & _) F IH]; cbn; [reflexivity|]. now rewrite Lf, IH. }
  intros k c Hk Hc Hv l Hl.
  rewrite (cval_get _ _ _ (ft_all_get v cells m l c S Hl Hc)). rewrite Ec in Hk.
  destruct (phase_wave gs fs k F A U Hk) as (a & E). rewrite <- Ec in E, Hk.
  rewrite (dftn_ext cells _ (fun x => Cmult (cis a) (wave cells k x))).
  - rewrite dftn_scal, dftn_wave, Cmod_mult, cis_mod, Rmult_1_l by assumption.
    destruct list_eq_dec; rewrite Cmod_R; [|apply Rabs_R0]. apply Rabs_pos_eq. unfold size. apply pos_INR.
  - now apply in_range_length.
  - intros x Hx. rewrite (cval_get _ _ _ (Hv x Hx)). now apply E.
Qed.

(** The frequencies lie between minus and plus half a turn per point. *)
Theorem C96_frequency_range ow gs cells m v : good gs cells m v -> Forall (fun g => nth 0 g 0 < nth 1 g 0)%R gs ->
  exists fs ft, delivers (fft false false ow (dataset gs v)) ow (dataset gs v) (List.map Pts fs) ft /\
    Forall2 (fun g f => length f = length g /\ nth 0 f 0%R = 0%R /\
      forall k, k < length f -> (- (1 / 2) <= nth k f 0 * (nth 1 g 0 - nth 0 g 0) < 1 / 2)%R) gs fs.
Proof.
  intros G P. destruct (fft_plain ow gs cells m v G) as (fs & F & D). destruct G as (W & S & L & N & A).
  exists fs, (ft_all v). split; [exact D|]. clear - F P A. induction F as [|g f gs fs (Lf & Nf) F IH]; constructor.
  - inversion P as [|? ? Pg _]; inversion A as [|? ? Ag _]; subst. split; [exact Lf|].
    set (dx := (nth 1 g 0 - nth 0 g 0)%R) in *. assert (Hd : (0 < dx)%R) by (unfold dx; lra).
    assert (Hn : (0 < INR (length g))%R) by (apply lt_0_INR; lia).
    split.
    + rewrite Nf by lia. destruct (Nat.ltb_spec (2 * 0) (length g)); [|lia]. cbn. unfold Rdiv. ring.
    + intros k Hk. rewrite Lf in Hk. rewrite Nf by assumption.
      set (z := if 2 * k <? length g then Z.of_nat k else (Z.of_nat k - Z.of_nat (length g))%Z).
      assert (Hz : (- Z.of_nat (length g) <= 2 * z < Z.of_nat (length g))%Z)
        by (unfold z; destruct (Nat.ltb_spec (2 * k) (length g)); lia).
      replace (IZR z / (INR (length g) * dx) * dx)%R with (IZR z / INR (length g))%R by (field; split; lra).
      destruct Hz as [H1 H2]. apply IZR_le in H1. apply IZR_lt in H2.
      rewrite opp_IZR, mult_IZR, <- INR_IZR_INZ in H1. rewrite mult_IZR, <- INR_IZR_INZ in H2.
      split; apply (Rmult_le_reg_r (INR (length g))) || apply (Rmult_lt_reg_r (INR (length g))); try exact Hn;
        unfold Rdiv; rewrite Rmult_assoc, Rinv_l by lra; lra.
  - apply IH; [now inversion A|now inversion P].
Qed.

(** ** Data on cells: one coordinate more than values *)

Lemma range1 n x : in_range [n] x -> exists j, x = [j] /\ j < n.
Proof. intros H. inversion H as [|j ? t ? Hj Ht]; subst. inversion Ht; subst. eauto. Qed.

(** With the edges of [n] cells of size [dx] there is one frequency more than
    there are values, and the wave that makes [k] turns in the domain, with
    frequency [k / (n * dx)], is listed under [n / (n + 1)] of its frequency. *)
Theorem C96_edge_frequencies ow g n m v :
  good [g] [n] m v -> length g = n + 1 -> uniform g ->
  exists f ft dx, (dx = nth 1 g 0 - nth 0 g 0)%R /\
    delivers (fft false false ow (dataset [g] v)) ow (dataset [g] v) [Pts f] ft /\
    shape ft = [n; m] /\ length f = n + 1 /\
    forall k c, 2 * k < n -> c < m -> let nu := (INR k / (INR n * dx))%R in
      (forall j, j < n -> get v [j; c] = Some (cis (2 * PI * (nu * ((nth j g 0 + nth (j + 1) g 0) / 2)))%R)) ->
      (forall l, l < n -> Cmod (cval ft [l; c]) = if l =? k then INR n else 0%R) /\
      nth k f 0%R = (INR n / (INR n + 1) * nu)%R.
Proof.
  intros G Lg U. destruct (fft_plain ow [g] [n] m v G) as (fs & F & D). destruct G as (W & S & L & N & A).
  inversion F as [|? f ? t (Lf & Nf) Ft]; subst. inversion Ft; subst. inversion A as [|? ? Ag _]; subst.
  destruct (uniform_step g Ag U) as (x0 & dx & Nd & Dx & Eg).
  exists f, (ft_all v), dx. split; [now symmetry|]. split; [exact D|]. split; [exact S|]. split; [lia|].
  assert (Hn : INR n <> 0%R) by (apply not_0_INR; lia).
  assert (Hn1 : (INR n + 1 <> 0)%R) by (pose proof (pos_INR n); lra).
  intros k c Hk Hc nu Hv. split.
  - intros l Hl. assert (Rl : in_range [n] [l]) by (constructor; [exact Hl|constructor]).
    assert (Rk : in_range [n] [k]) by (constructor; [lia|constructor]).
    rewrite (cval_get (ft_all v) [l; c] _ (ft_all_get v [n] m [l] c S Rl Hc)).
    rewrite (dftn_ext [n] _ (fun x => Cmult (cis (2 * PI * (nu * (x0 + dx / 2)))) (wave [n] [k] x))).
    + rewrite dftn_scal, dftn_wave, Cmod_mult, cis_mod, Rmult_1_l by assumption.
      destruct (list_eq_dec Nat.eq_dec [l] [k]) as [E|E]; destruct (Nat.eqb_spec l k); try congruence; rewrite Cmod_R; [|apply Rabs_R0].
      rewrite Rabs_pos_eq by apply pos_INR. unfold size. cbn. rewrite Nat.mul_1_r. reflexivity.
    + reflexivity.
    + intros x Hx. apply range1 in Hx as (j & -> & Hj).
      cbn [app]. rewrite (cval_get v [j; c] _ (Hv j Hj)). cbn [wave].
      rewrite (Eg j), (Eg (j + 1)) by lia. rewrite plus_INR. cbn [INR].
      replace (2 * PI * (nu * ((x0 + INR j * dx + (x0 + (INR j + 1) * dx)) / 2)))%R
        with (2 * PI * (nu * (x0 + dx / 2)) + turn n k j)%R by (unfold turn, nu; field; split; assumption).
      rewrite cis_plus. ring.
  - rewrite Nf by lia. rewrite Lg. destruct (Nat.ltb_spec (2 * k) (n + 1)); [|lia].
    rewrite Dx, <- INR_IZR_INZ, plus_INR. cbn [INR]. unfold nu. field. repeat split; assumption.
Qed.

(** The claim that each value has its own frequency is false for such data. *)
Theorem C96_one_frequency_each_refuted :
  exists gs cells m v fs ft, good gs cells m v /\ fft false false true (dataset gs v) = Ok (mk_fdat (List.map Pts fs) ft, None) /\
    List.map (@length R) fs <> removelast (shape ft).
Proof.
  assert (G : good [[0; 1; 2; 3]%R] [3] 1 (tabulate [3; 1] (fun _ => RtoC 1))).
  { repeat split; cbn; auto; repeat constructor. }
  destruct (fft_plain true _ _ _ _ G) as (fs & F & D). destruct D as (ret & D).
  assert (ret = None) as ->.
  { revert D. unfold fft, dataset. cbn. intros D. now inversion D. }
  do 6 eexists. split; [exact G|]. split; [exact D|].
  inversion F as [|? f ? t (Lf & Nf) Ft]; subst. inversion Ft; subst. cbn. cbn in Lf. rewrite Lf. discriminate.
Qed.

Print Assumptions C96_inverse.
Print Assumptions C96_plane_wave.
Print Assumptions C96_edge_frequencies.
