(** * C96, continued: power spectra, collapsed axes and what happens to the source *)
From Coq Require Import List Arith ZArith Bool Lia Reals Lra.
From Coquelicot Require Import Complex.
From Verif Require Import Prelude PreludeFacts NdArray Fft_Model Fft_Spec Fft_Dft Fft_Proofs Fft_Props.
Import ListNotations.
Open Scope nat_scope.
Open Scope list_scope.

(** ** Power spectra *)

Lemma half_lists gs fs : freqs_of gs fs ->
  List.map (fun nf : nat * list R => fst nf / 2) (combine (List.map (@length R) gs) fs) = List.map (fun g => length g / 2) gs /\
  List.map (fun nf : nat * list R => firstn (fst nf / 2) (snd nf)) (combine (List.map (@length R) gs) fs) = List.map (fun f => firstn (length f / 2) f) fs.
Proof.
  induction 1 as [|g f gs fs (Lf & _) _ (I1 & I2)]; [split; reflexivity|]. cbn [combine List.map fst snd]. rewrite I1, I2, Lf. split; reflexivity.
Qed.

Lemma psd_of_ok hs cells m (v : nda C) : shape v = cells ++ [m] -> length hs = length cells ->
  exists w, psd_of hs v = Ok w /\ wf w /\ shape w = List.map (fun p => Nat.min (fst p) (snd p)) (combine hs cells) ++ [m] /\
    forall k c, in_range (List.map (fun p => Nat.min (fst p) (snd p)) (combine hs cells)) k -> c < m ->
      get w (k ++ [c]) = Some (power (cval v (k ++ [c]))).
Proof.
  intros S L. unfold psd_of. rewrite S. destruct (Nat.ltb_spec (length (cells ++ [m])) (Datatypes.S (length hs))) as [H|H].
  { rewrite app_length in H. cbn in H. lia. }
  eexists. split; [reflexivity|]. split; [apply wf_tabulate|].
  assert (E : combine hs (cells ++ [m]) = combine hs cells).
  { clear -L. revert cells L. induction hs as [|h hs IH]; intros [|n cells] L; try discriminate; [reflexivity|]. cbn. f_equal. apply IH. cbn in L; lia. }
  rewrite E. rewrite L, skipn_app, skipn_all, Nat.sub_diag. cbn [app skipn shape tabulate]. split; [reflexivity|].
  intros k c Hk Hc. rewrite get_tabulate; [reflexivity|]. now apply snoc_range.
Qed.

(** The psd option: the squared magnitudes of the transform, for the first half
    of the frequencies of every axis; in two dimensions a number 0 is appended to
    the coordinates. *)
Theorem C96_psd ow gs cells m v : good gs cells m v ->
  exists fs ft w,
    delivers (fft false false ow (dataset gs v)) ow (dataset gs v) (List.map Pts fs) ft /\
    delivers (fft true false ow (dataset gs v)) ow (dataset gs v)
      (List.map (fun f => Pts (firstn (length f / 2) f)) fs ++ (if length gs =? 2 then [Num 0%R] else [])) w /\
    shape w = List.map (fun p => Nat.min (length (fst p) / 2) (snd p)) (combine gs cells) ++ [m] /\
    forall k c, in_range (List.map (fun p => Nat.min (length (fst p) / 2) (snd p)) (combine gs cells)) k -> c < m ->
      get w (k ++ [c]) = Some (RtoC (Cmod (cval ft (k ++ [c])) * Cmod (cval ft (k ++ [c])))).
Proof.
  intros G. destruct (fft_plain ow gs cells m v G) as (fs0 & F0 & D). destruct G as (W & S & L & N & A).
  destruct (axes_freq gs A) as (fs & E & F).
  assert (fs0 = fs) as ->.
  { clear -F F0. revert fs F. induction F0 as [|g f gs fs0 (Lf & Nf) _ IH]; intros fs F; inversion F as [|? f' ? fs' (Lf' & Nf') F']; subst; [reflexivity|].
    f_equal; [|now apply IH]. apply (nth_ext _ _ 0%R 0%R); [congruence|]. intros k Hk. rewrite Lf in Hk. now rewrite Nf, Nf'. }
  destruct (half_lists gs fs F) as (H1 & H2).
  destruct (psd_of_ok (List.map (fun g : list R => length g / 2) gs) cells m (ft_all v)) as (w & Ew & Ww & Sw & Gw);
    [rewrite ft_all_shape; exact S|now rewrite map_length|].
  assert (Ec : List.map (fun p : nat * nat => Nat.min (fst p) (snd p)) (combine (List.map (fun g : list R => length g / 2) gs) cells)
             = List.map (fun p => Nat.min (length (fst p) / 2) (snd p)) (combine gs cells)).
  { clear. revert cells. induction gs as [|g gs IH]; intros [|n cells]; cbn; try reflexivity. now rewrite IH. }
  rewrite Ec in Sw, Gw.
  exists fs, (ft_all v), w. split; [exact D|]. split; [|split; [exact Sw|exact Gw]].
  unfold fft, dataset. cbn [f_grid f_vals]. rewrite dummies_none by assumption. cbn [bind]. rewrite keep_not_nil.
  destruct gs as [|g1 [|g2 gs]]; [cbn in N; lia| |].
  - cbn [List.map]. inversion F as [|? f ? t (Lf & Nf) Ft]; subst. inversion Ft; subst.
    cbn [List.map mapM combine] in E. destruct (axis_freq (Pts g1)) as [nf|]; [|discriminate]. cbn [bind] in *. injection E as ->.
    destruct cells as [|n [|? ?]]; [discriminate| |discriminate]. cbn [fst snd].
    rewrite (ft_last_all v n m) by exact S. cbn [List.map] in Ew. rewrite Ew. cbn [bind]. cbn [List.map length Nat.eqb app]. rewrite Lf.
    unfold delivers. destruct ow; [eexists; reflexivity|reflexivity].
  - change (List.map Pts (g1 :: g2 :: gs)) with (Pts g1 :: Pts g2 :: List.map Pts gs) in *. cbv iota.
    assert (L3 : (3 <? length (Pts g1 :: Pts g2 :: List.map Pts gs)) = false).
    { apply Nat.ltb_ge. cbn [length] in *. rewrite map_length. lia. }
    rewrite L3, E. cbn [bind].
    assert (L23 : (length (Pts g1 :: Pts g2 :: List.map Pts gs) =? 2) || (length (Pts g1 :: Pts g2 :: List.map Pts gs) =? 3) = true).
    { cbn [length] in *. rewrite map_length. destruct gs as [|? [|? ?]]; cbn in *; auto; lia. }
    rewrite L23. cbv iota. rewrite H1, H2, Ew. cbn [bind].
    rewrite map_map. assert (E2 : length (Pts g1 :: Pts g2 :: List.map Pts gs) = length (g1 :: g2 :: gs)) by (cbn; now rewrite map_length).
    rewrite E2. unfold delivers. destruct ow; [eexists; reflexivity|reflexivity].
Qed.

Lemma dft_half n f : (forall j, j < 2 * n -> snd (f j) = 0%R) -> 0 < n ->
  Cmult (RtoC (INR (2 * n))) (csum (2 * n) (fun j => power (f j)))
  = Cplus (power (dft (2 * n) f n))
      (Cplus (power (dft (2 * n) f 0)) (Cmult (RtoC 2) (csum (n - 1) (fun k => power (dft (2 * n) f (S k)))))).
Proof.
  intros Hr Hn. rewrite <- dft_parseval.
  assert (Sym : forall k, 0 < k -> k < 2 * n -> power (dft (2 * n) f (2 * n - k)) = power (dft (2 * n) f k)).
  { intros k H0 H1. rewrite dft_real by assumption. unfold power, Cmod, Cconj. cbn [fst snd]. f_equal.
    replace ((- snd (dft (2 * n) f k)) ^ 2)%R with (snd (dft (2 * n) f k) ^ 2)%R by ring. reflexivity. }
  set (P := fun k => power (dft (2 * n) f k)) in *.
  assert (App : forall a b g, csum (a + b) g = Cplus (csum a g) (csum b (fun j => g (a + j)))).
  { intros a b g. induction b as [|b IH]; [rewrite Nat.add_0_r; cbn; ring|]. rewrite Nat.add_succ_r. cbn. rewrite IH. ring. }
  assert (Hd : forall a g, csum (S a) g = Cplus (g 0) (csum a (fun j => g (S j)))).
  { intros a g. change (S a) with (1 + a). rewrite (App 1 a g). cbn. ring. }
  assert (Rev : forall a g, csum a g = csum a (fun j => g (a - 1 - j))).
  { intros a. induction a as [|a IH]; intros g; [reflexivity|]. rewrite Hd. cbn [csum].
    replace (S a - 1 - a) with 0 by lia. rewrite (IH (fun j => g (S j))). rewrite Cplus_comm. f_equal.
    apply csum_ext. intros j Hj. f_equal. lia. }
  replace (2 * n) with (S (n - 1) + S (n - 1)) at 1 by lia. rewrite App. rewrite (Hd (n - 1) P).
  rewrite (Hd (n - 1) (fun j => P (S (n - 1) + j))). rewrite (Rev (n - 1) (fun j => P (S (n - 1) + S j))).
  rewrite (csum_ext (n - 1) (fun j => P (S (n - 1) + S (n - 1 - 1 - j))) (fun j => P (S j))).
  - replace (S (n - 1) + 0) with n by lia. set (s := csum (n - 1) (fun j => P (S j))).
    change (power (dft (2 * n) f n)) with (P n). change (power (dft (2 * n) f 0)) with (P 0).
    change (csum (n - 1) (fun k => power (dft (2 * n) f (S k)))) with s. replace (RtoC 2) with (Cplus (RtoC 1) (RtoC 1)) by (rewrite <- RtoC_plus; f_equal; ring). ring.
  - intros j Hj. unfold P. rewrite <- (Sym (S j)) by lia. do 2 f_equal. lia.
Qed.

(** Real data with an even number of points along one axis: the power spectrum,
    counted twice except for frequency 0, and the power at the highest frequency
    are all of the power of the data, times the number of points. *)
Theorem C96_psd_total ow g n m v : good [g] [2 * n] m v -> length g = 2 * n ->
  exists fs ft w g',
    delivers (fft false false ow (dataset [g] v)) ow (dataset [g] v) (List.map Pts fs) ft /\
    delivers (fft true false ow (dataset [g] v)) ow (dataset [g] v) g' w /\ shape w = [n; m] /\
    forall c, c < m -> (forall j, j < 2 * n -> snd (cval v [j; c]) = 0%R) ->
      Cmult (RtoC (INR (2 * n))) (box_sum [2 * n] (fun x => power (cval v (x ++ [c]))))
      = Cplus (power (cval ft [n; c]))
          (Cplus (cval w [0; c]) (Cmult (RtoC 2) (box_sum [n - 1] (fun x => cval w [S (hd 0 x); c])))).
Proof.
  intros G Lg. assert (Hn : 0 < n). { destruct G as (_ & _ & _ & _ & A). inversion A; subst. lia. }
  destruct (C96_psd ow [g] [2 * n] m v G) as (fs & ft & w & D1 & D2 & Sw & Gw).
  destruct (fft_plain ow [g] [2 * n] m v G) as (fs1 & _ & D3).
  assert (ft = ft_all v) as ->.
  { unfold delivers in D1, D3. destruct ow.
    - destruct D1 as (r1 & D1), D3 as (r3 & D3). rewrite D1 in D3. now injection D3.
    - rewrite D1 in D3. now injection D3. }
  assert (Eh : Nat.min (length g / 2) (2 * n) = n).
  { rewrite Lg, (Nat.mul_comm 2 n), Nat.div_mul by lia. lia. }
  cbn [combine List.map fst snd app] in Sw, Gw. rewrite Eh in Sw, Gw.
  exists fs, (ft_all v), w, (List.map (fun f => Pts (firstn (length f / 2) f)) fs ++ (if length [g] =? 2 then [Num 0%R] else [])).
  split; [exact D1|]. split; [exact D2|]. split; [exact Sw|]. intros c Hc Hr.
  destruct G as (W & S & _). rewrite !box_sum_cons.
  rewrite (csum_ext (2 * n) _ (fun j => power (cval v [j; c]))) by (intros; now rewrite box_sum_nil).
  rewrite (csum_ext (n - 1) _ (fun k => power (dft (2 * n) (fun j => cval v [j; c]) (Datatypes.S k)))).
  - rewrite dft_half by assumption.
    assert (R : forall k, k < 2 * n -> in_range [2 * n] [k]) by (intros; constructor; [assumption|constructor]).
    assert (E0 : cval w [0; c] = power (cval (ft_all v) [0; c])).
    { apply cval_get. apply (Gw [0] c); [|exact Hc]. constructor; [lia|constructor]. }
    rewrite E0, (cval_get (ft_all v) [0; c] _ (ft_all_get v [2 * n] m [0] c S (R 0 ltac:(lia)) Hc)).
    rewrite (cval_get (ft_all v) [n; c] _ (ft_all_get v [2 * n] m [n] c S (R n ltac:(lia)) Hc)). reflexivity.
  - intros k Hk. rewrite box_sum_nil. cbn [hd].
    assert (R : in_range [2 * n] [Datatypes.S k]) by (constructor; [lia|constructor]).
    assert (E0 : cval w [Datatypes.S k; c] = power (cval (ft_all v) [Datatypes.S k; c])).
    { apply cval_get. apply (Gw [Datatypes.S k] c); [|exact Hc]. constructor; [lia|constructor]. }
    rewrite E0, (cval_get (ft_all v) [Datatypes.S k; c] _ (ft_all_get v [2 * n] m [Datatypes.S k] c S R Hc)). reflexivity.
Qed.

(** With an odd number of points the highest positive frequency is left out. *)
Theorem C96_psd_all_positive_refuted :
  exists g v fs fs' ft w, good [g] [length g] 1 v /\
    fft false false false (dataset [g] v) = Ok (dataset [g] v, Some ([Pts fs], ft)) /\
    fft true false false (dataset [g] v) = Ok (dataset [g] v, Some ([Pts fs'], w)) /\
    exists f, In f fs /\ (0 < f)%R /\ ~ In f fs'.
Proof.
  set (g := [0; 1; 2]%R). set (v := tabulate [3; 1] (fun _ => RtoC 1)).
  assert (G : good [g] [3] 1 v). { repeat split; cbn; auto; repeat constructor. }
  destruct (C96_psd false [g] [3] 1 v G) as (fs & ft & w & D1 & D2 & _).
  destruct (fft_plain false [g] [3] 1 v G) as (fs1 & F & D3).
  unfold delivers in D1, D3. rewrite D1 in D3. injection D3 as M _.
  assert (fs = fs1) as ->.
  { apply (f_equal (List.map (fun c => match c with Pts l => l | Num _ => [] end))) in M. rewrite !map_map, !map_id in M. exact M. }
  inversion F as [|? f ? t (Lf & Nf) Ft]; subst. inversion Ft; subst. cbn [List.map app length Nat.eqb] in *.
  exists g, v, f, (firstn (length f / 2) f), ft, w. split; [exact G|]. split; [exact D1|]. split; [exact D2|].
  exists (nth 1 f 0%R). assert (E1 : nth 1 f 0%R = (1 / 3)%R).
  { rewrite Nf by (cbn; lia). cbn. field. }
  assert (E0 : nth 0 f 0%R = 0%R). { rewrite Nf by (cbn; lia). cbn. field. }
  split; [apply nth_In; rewrite Lf; cbn; lia|]. split; [rewrite E1; lra|].
  rewrite Lf. cbn [length g Nat.div Nat.divmod fst]. destruct f as [|a f]; [discriminate|]. cbn in E0. cbn [firstn]. intros [H|H]; [|exact H].
  rewrite <- H, E0 in E1. lra.
Qed.

(** ** Collapsed axes *)

Definition long (c : coord) : bool := match c with Pts l => 2 <? length l | Num _ => false end.

Lemma dummies_in k g idx : dummies k g = Ok idx -> forall i, In i idx -> k <= i < k + length g.
Proof.
  revert k idx. induction g as [|c g IH]; intros k idx H i Hi; cbn in H; [injection H as <-; contradiction|].
  apply bind_ok in H as (n & Hn & H). apply bind_ok in H as (idx' & H' & H). injection H as <-. cbn [length].
  destruct (n <=? 2).
  - destruct Hi as [<-|Hi]; [lia|]. specialize (IH _ _ H' i Hi). lia.
  - specialize (IH _ _ H' i Hi). lia.
Qed.

Lemma keep_not_ext {A} k idx idx' (l : list A) : (forall i, k <= i -> (In i idx <-> In i idx')) -> keep_not k idx l = keep_not k idx' l.
Proof.
  revert k. induction l as [|a l IH]; intros k H; [reflexivity|]. cbn.
  assert (E : existsb (Nat.eqb k) idx = existsb (Nat.eqb k) idx').
  { apply Bool.eq_iff_eq_true. rewrite !existsb_exists.
    split; intros (i & Hi & E); apply Nat.eqb_eq in E as <-; exists k; (split; [apply H; auto|apply Nat.eqb_refl]). }
  rewrite E. rewrite IH; [reflexivity|]. intros i Hi. apply H. lia.
Qed.

(** The axes kept are those with more than two coordinates. *)
Lemma dummies_keep k g idx : dummies k g = Ok idx -> keep_not k idx g = filter long g.
Proof.
  revert k idx. induction g as [|c g IH]; intros k idx H; cbn in H; [reflexivity|].
  apply bind_ok in H as (n & Hn & H). apply bind_ok in H as (idx' & H' & H). injection H as <-.
  pose proof (dummies_in _ _ _ H') as R. specialize (IH _ _ H').
  destruct c as [l|]; [|discriminate]. cbn in Hn. injection Hn as <-. cbn [keep_not filter long].
  destruct (Nat.leb_spec (length l) 2); destruct (Nat.ltb_spec 2 (length l)); try lia.
  - cbn [existsb]. rewrite Nat.eqb_refl. cbn [orb]. rewrite <- IH. apply keep_not_ext. intros i Hi. cbn. intuition lia.
  - assert (E : existsb (Nat.eqb k) idx' = false).
    { apply Bool.not_true_is_false. rewrite existsb_exists. intros (i & Hi & Ei). apply Nat.eqb_eq in Ei as <-. specialize (R _ Hi). lia. }
    rewrite E. now rewrite IH.
Qed.

(** Without overwriting, the values of the source stay; of its coordinates only
    those of the axes with more than two are left. *)
Theorem C96_source psd iso d d' r : fft psd iso false d = Ok (d', r) ->
  f_vals d' = f_vals d /\ f_grid d' = filter long (f_grid d).
Proof.
  intros H. unfold fft in H. apply bind_ok in H as (idx & Hi & H). apply bind_ok in H as (v & Hv & H).
  rewrite (dummies_keep _ _ _ Hi) in H. set (d0 := mk_fdat (filter long (f_grid d)) (f_vals d)) in *.
  assert (d' = d0) as ->; [|split; reflexivity].
  destruct (filter long (f_grid d)) as [|c1 [|c2 gs]] eqn:Eg.
  - cbn in H. destruct psd; [discriminate|]. now injection H as <-.
  - apply bind_ok in H as (nf & _ & H). apply bind_ok in H as (ft & _ & H). now injection H as <-.
  - destruct (3 <? _); [discriminate|]. apply bind_ok in H as (nfs & _ & H). destruct psd.
    + destruct (_ || _); [|discriminate]. apply bind_ok in H as (ft & _ & H). destruct iso.
      * apply bind_ok in H as (q & _ & H). now injection H as <-.
      * now injection H as <-.
    + now injection H as <-.
Qed.

(** So calling [fft] for a result does change the source. *)
Theorem C96_source_unchanged_refuted :
  exists d d' r, fft false false false d = Ok (d', Some r) /\ d' <> d /\ length (f_grid d') <> length (shape (f_vals d')) - 1.
Proof.
  set (d := dataset [[0; 1]; [0; 1; 2; 3]]%R (tabulate [1; 3; 1] (fun _ => RtoC 1))).
  destruct (fft false false false d) as [[d' r]|e] eqn:E.
  - pose proof (C96_source _ _ _ _ _ E) as (Ev & Eg). cbn in Ev, Eg. destruct r as [r|].
    + exists d, d', r. split; [exact E|]. destruct d' as [g' v']. cbn in Ev, Eg. subst. split; [discriminate|]. cbn. discriminate.
    + exfalso. unfold fft in E. cbn in E. discriminate.
  - exfalso. unfold fft in E. cbn in E. discriminate.
Qed.

(** Axes with one cell are taken out: the result is that for the data without them. *)
Definition kept (gs : list (list R)) (cells : list nat) : list nat :=
  List.map snd (filter (fun p : list R * nat => 2 <? length (fst p)) (combine gs cells)).

Lemma dummies_ok k gs : exists idx, dummies k (List.map Pts gs) = Ok idx /\
  forall cells, length cells = length gs ->
    keep_not k idx cells = kept gs cells /\
    (Forall2 (fun g n => length g <= 2 -> n = 1) gs cells -> forall i, In i idx -> k <= i /\ nth (i - k) cells 0 = 1) /\
    (idx = [] -> Forall (fun g => 2 < length g) gs).
Proof.
  revert k. induction gs as [|g gs IH]; intros k.
  - exists []. split; [reflexivity|]. intros [|? ?] L; [|discriminate]. repeat split; auto; try contradiction.
  - destruct (IH (S k)) as (idx & E & P). exists (if length g <=? 2 then k :: idx else idx). split.
    { cbn. rewrite E. reflexivity. }
    pose proof (dummies_in _ _ _ E) as R.
    intros [|n cells] L; [discriminate|]. destruct (P cells ltac:(cbn in L; lia)) as (P1 & P2 & P3).
    unfold kept. cbn [combine filter fst]. destruct (Nat.leb_spec (length g) 2); destruct (Nat.ltb_spec 2 (length g)); try lia.
    + split; [|split].
      * cbn [keep_not existsb]. rewrite Nat.eqb_refl. cbn [orb]. change (List.map snd _) with (kept gs cells). rewrite <- P1.
        apply keep_not_ext. intros i Hi. cbn. intuition lia.
      * intros F i Hi. inversion F as [|? ? ? ? Fg F']; subst. destruct Hi as [<-|Hi].
        -- split; [lia|]. rewrite Nat.sub_diag. cbn. auto.
        -- destruct (P2 F' i Hi) as (K1 & K2). split; [lia|]. replace (i - k) with (S (i - S k)) by lia. exact K2.
      * discriminate.
    + split; [|split].
      * cbn [keep_not]. assert (Ex : existsb (Nat.eqb k) idx = false).
        { apply Bool.not_true_is_false. rewrite existsb_exists. intros (i & Hi & Ei). apply Nat.eqb_eq in Ei as <-. specialize (R _ Hi). lia. }
        rewrite Ex. cbn [List.map snd]. f_equal. exact P1.
      * intros F i Hi. inversion F as [|? ? ? ? Fg F']; subst. destruct (P2 F' i Hi) as (K1 & K2).
        split; [lia|]. replace (i - k) with (S (i - S k)) by lia. exact K2.
      * intros ->. constructor; [assumption|auto].
Qed.

Lemma keep_not_app {A} k idx (l : list A) a : (forall i, In i idx -> i < k + length l) -> keep_not k idx (l ++ [a]) = keep_not k idx l ++ [a].
Proof.
  revert k. induction l as [|b l IH]; intros k H; cbn.
  - assert (Ex : existsb (Nat.eqb k) idx = false).
    { apply Bool.not_true_is_false. rewrite existsb_exists. intros (i & Hi & Ei). apply Nat.eqb_eq in Ei as <-. specialize (H _ Hi). cbn in H. lia. }
    now rewrite Ex.
  - rewrite IH by (intros i Hi; specialize (H i Hi); cbn in H; lia). destruct (existsb _ _); reflexivity.
Qed.

Theorem C96_collapsed psd iso ow gs cells m v :
  shape v = cells ++ [m] -> length cells = length gs -> Forall2 (fun g n => length g <= 2 -> n = 1) gs cells ->
  let gs' := filter (fun g : list R => 2 <? length g) gs in
  let v' := mk_nda (kept gs cells ++ [m]) (flat v) in
  match fft psd iso ow (dataset gs v), fft psd iso ow (dataset gs' v') with
  | Ok (d, r), Ok (d', r') => r = r' /\ (d = d' \/ d = dataset gs' v /\ d' = dataset gs' v')
  | Err e, Err e' => e = e'
  | _, _ => False
  end.
Proof.
  intros S L F gs' v'. destruct (dummies_ok 0 gs) as (idx & E & P). destruct (P cells L) as (P1 & P2 & P3).
  assert (A' : Forall (fun g : list R => 2 < length g) gs').
  { apply Forall_forall. intros g Hg. apply filter_In in Hg as (_ & Hg). now apply Nat.ltb_lt. }
  assert (Eg : keep_not 0 idx (List.map Pts gs) = List.map Pts gs').
  { rewrite (dummies_keep _ _ _ E). unfold gs'. clear. induction gs as [|g gs IH]; [reflexivity|]. cbn [List.map filter long]. destruct (2 <? length g); cbn [List.map]; now rewrite IH. }
  assert (Ev : match idx with [] => Ok v | _ => squeeze idx v end = Ok v').
  { assert (R : forall i, In i idx -> i < 0 + length cells).
    { intros i Hi. pose proof (dummies_in _ _ _ E i Hi) as K. rewrite map_length in K. lia. }
    assert (Ks : keep_not 0 idx (shape v) = kept gs cells ++ [m]) by (rewrite S, keep_not_app, P1 by assumption; reflexivity).
    destruct idx as [|i0 idx'].
    - unfold v'. rewrite <- Ks, keep_not_nil. destruct v; reflexivity.
    - unfold squeeze. rewrite Ks. replace (forallb _ _) with true; [reflexivity|]. symmetry. apply forallb_forall. intros i Hi.
      apply Nat.eqb_eq. destruct (P2 F i Hi) as (_ & K). rewrite Nat.sub_0_r in K. rewrite S.
      rewrite app_nth1 by (apply (R i Hi)). exact K. }
  unfold fft, dataset. cbn [f_grid f_vals]. rewrite E, (dummies_none 0 gs' A'). cbn [bind]. rewrite Eg, keep_not_nil, Ev. cbn [bind].
  generalize (List.map Pts gs') as g0; intros g0. generalize v' as w; intros w. clear.
  set (d := mk_fdat g0 v). set (d' := mk_fdat g0 w).
  assert (B : d = d' \/ d = mk_fdat g0 v /\ d' = mk_fdat g0 w) by (right; split; reflexivity). clearbody d d'.
  destruct g0 as [|c1 [|c2 cs]].
  - cbn. destruct psd; [reflexivity|]. cbn. destruct (ow && negb iso); split; auto.
  - destruct (axis_freq c1) as [nf|e]; cbn [bind]; [|reflexivity].
    destruct (if psd then psd_of [fst nf / 2] (ft_last w) else Ok (ft_last w)) as [ft|e]; cbn [bind]; [|reflexivity].
    destruct ow; split; auto.
  - destruct (3 <? _); [reflexivity|]. destruct (mapM axis_freq _) as [nfs|e]; cbn [bind]; [|reflexivity]. destruct psd.
    + destruct (_ || _); [|reflexivity]. destruct (psd_of _ _) as [ft|e]; cbn [bind]; [|reflexivity]. destruct iso.
      * destruct (iso_of _ _ _) as [q|e]; cbn [bind]; [|reflexivity]. destruct ow; split; auto.
      * destruct ow; split; auto.
    + destruct (ow && negb iso); split; auto.
Qed.

(** ** Other options and refusals *)

(** One axis: the iso option has no effect. *)
Theorem C96_iso_one_axis psd iso ow g n m v : good [g] [n] m v ->
  fft psd iso ow (dataset [g] v) = fft psd false ow (dataset [g] v).
Proof.
  intros (W & S & L & N & A). unfold fft, dataset. cbn [f_grid f_vals]. rewrite dummies_none by assumption. cbn [bind]. rewrite keep_not_nil.
  reflexivity.
Qed.

(** Several axes: without psd the iso option keeps the dataset from being overwritten. *)
Theorem C96_iso_alone gs cells m v : good gs cells m v -> 1 < length gs ->
  exists r, fft false true true (dataset gs v) = Ok (dataset gs v, Some r).
Proof.
  intros (W & S & L & N & A) H. destruct (axes_freq gs A) as (fs & E & F).
  unfold fft, dataset. cbn [f_grid f_vals]. rewrite dummies_none by assumption. cbn [bind]. rewrite keep_not_nil.
  destruct gs as [|g1 [|g2 gs]]; [cbn in H; lia|cbn in H; lia|].
  change (List.map Pts (g1 :: g2 :: gs)) with (Pts g1 :: Pts g2 :: List.map Pts gs) in *. cbv iota.
  assert (L3 : (3 <? length (Pts g1 :: Pts g2 :: List.map Pts gs)) = false).
  { apply Nat.ltb_ge. cbn [length] in *. rewrite map_length. lia. }
  rewrite L3, E. cbn [bind]. eexists. reflexivity.
Qed.

(** Four or more axes that count are refused. *)
Theorem C96_four_axes psd iso ow gs v : Forall (fun g => 2 < length g) gs -> 3 < length gs ->
  fft psd iso ow (dataset gs v) = Err IndexError.
Proof.
  intros A H. unfold fft, dataset. cbn [f_grid f_vals]. rewrite dummies_none by assumption. cbn [bind]. rewrite keep_not_nil.
  destruct gs as [|g1 [|g2 gs]]; [cbn in H; lia|cbn in H; lia|]. cbn [List.map].
  assert (L3 : (3 <? length (Pts g1 :: Pts g2 :: List.map Pts gs)) = true).
  { apply Nat.ltb_lt. cbn [length] in *. rewrite map_length. lia. }
  now rewrite L3.
Qed.

(** An axis with two coordinates and two values is taken for a collapsed one, and refused. *)
Theorem C96_two_points psd iso ow gs cells m v i :
  shape v = cells ++ [m] -> length cells = length gs -> i < length gs ->
  length (nth i gs []) <= 2 -> nth i cells 0 <> 1 ->
  fft psd iso ow (dataset gs v) = Err ValueError.
Proof.
  intros S L Hi Hg Hn. destruct (dummies_ok 0 gs) as (idx & E & P).
  assert (I : In i idx).
  { assert (Q : forall gs k idx, dummies k (List.map Pts gs) = Ok idx -> forall i, i < length gs -> length (nth i gs []) <= 2 -> In (k + i) idx).
    { clear. induction gs as [|g gs IH]; intros k idx H i Hi Hg; cbn in Hi; [lia|]. cbn in H.
      apply bind_ok in H as (idx' & H' & H). injection H as <-. destruct i as [|i]; cbn in Hg.
      - destruct (Nat.leb_spec (length g) 2); [|lia]. rewrite Nat.add_0_r. now left.
      - specialize (IH _ _ H' i ltac:(lia) Hg). replace (k + S i) with (S k + i) by lia. destruct (length g <=? 2); [now right|exact IH]. }
    exact (Q gs 0 idx E i Hi Hg). }
  unfold fft, dataset. cbn [f_grid f_vals]. rewrite E. cbn [bind].
  replace (match idx with [] => Ok v | _ => squeeze idx v end) with (@Err (nda C) ValueError); [reflexivity|].
  destruct idx as [|i0 idx]; [contradiction|]. unfold squeeze.
  destruct (forallb _ _) eqn:Fb; [|reflexivity]. rewrite forallb_forall in Fb. specialize (Fb i I). apply Nat.eqb_eq in Fb.
  rewrite S, app_nth1 in Fb by lia. contradiction.
Qed.

(** ** Examples *)

Definition ex_grid : list (list R) := [[0; 1; 2; 3]; [0; 2; 4]]%R.
Definition ex_vals : nda C := tabulate [4; 3; 2] (fun x => RtoC (INR (nth 0 x 0 + nth 2 x 0))).

Example C96_good_example : good ex_grid [4; 3] 2 ex_vals /\ [4; 3] = List.map (@length R) ex_grid /\ Forall uniform ex_grid /\
  Forall (fun g => nth 0 g 0 < nth 1 g 0)%R ex_grid.
Proof.
  split; [|split; [reflexivity|split]].
  - split; [apply wf_tabulate|]. repeat split; cbn; try lia. repeat constructor.
  - unfold ex_grid. constructor; [|constructor; [|constructor]].
    + exists 0%R, 1%R. split; [lra|]. intros j Hj. cbn in Hj. do 4 (destruct j as [|j]; [cbn; lra|]). lia.
    + exists 0%R, 2%R. split; [lra|]. intros j Hj. cbn in Hj. do 3 (destruct j as [|j]; [cbn; lra|]). lia.
  - unfold ex_grid. repeat constructor; cbn; lra.
Qed.

(** Edges of three cells. *)
Example C96_edges_example :
  let g := [0; 1; 2; 3]%R in let v := tabulate [3; 1] (fun x => cis (2 * PI * (1 / (3 * 1) * (INR (nth 0 x 0) + / 2)))) in
  good [g] [3] 1 v /\ length g = 3 + 1 /\ uniform g.
Proof.
  cbv zeta. split; [|split; [reflexivity|]].
  - repeat split; cbn; auto; repeat constructor.
  - exists 0%R, 1%R. split; [lra|]. intros j Hj. cbn in Hj. do 4 (destruct j as [|j]; [cbn; lra|]). lia.
Qed.

Example C96_collapsed_example :
  let gs := [[0; 1]; [0; 1; 2; 3]]%R in
  Forall2 (fun g n => length g <= 2 -> n = 1) gs [1; 4] /\ kept gs [1; 4] = [4].
Proof. cbv zeta. split; [repeat constructor; cbn; lia|reflexivity]. Qed.

Print Assumptions C96_psd.
Print Assumptions C96_collapsed.
