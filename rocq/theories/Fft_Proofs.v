(** * Facts about the Fourier transform of a dataset *)
From Coq Require Import List Arith ZArith Bool Lia Reals Lra.
From Coquelicot Require Import Complex.
From Verif Require Import Prelude PreludeFacts NdArray Fft_Model Fft_Spec Fft_Dft.
Import ListNotations.
Open Scope nat_scope.
Open Scope list_scope.

(** ** Sums over boxes *)

Lemma fold_app f l l' : fold_right (fun (x : list nat) s => Cplus (f x) s) (RtoC 0) (l ++ l')
  = Cplus (fold_right (fun x s => Cplus (f x) s) (RtoC 0) l) (fold_right (fun x s => Cplus (f x) s) (RtoC 0) l').
Proof. induction l as [|a l IH]; cbn; [ring|]. rewrite IH. ring. Qed.

Lemma fold_map f i l : fold_right (fun (x : list nat) s => Cplus (f x) s) (RtoC 0) (List.map (cons i) l)
  = fold_right (fun x s => Cplus (f (i :: x)) s) (RtoC 0) l.
Proof. induction l as [|a l IH]; cbn; [reflexivity|]. now rewrite IH. Qed.

Lemma box_sum_nil f : box_sum [] f = f [].
Proof. unfold box_sum. cbn. ring. Qed.

Lemma box_sum_cons n sh f : box_sum (n :: sh) f = csum n (fun i => box_sum sh (fun x => f (i :: x))).
Proof.
  unfold box_sum. cbn [indices]. induction n as [|n IH]; [reflexivity|].
  rewrite seq_S, flat_map_app, fold_app, IH. cbn [csum flat_map]. rewrite app_nil_r. f_equal. apply fold_map.
Qed.

Lemma in_indices sh x : In x (indices sh) -> in_range sh x.
Proof.
  revert x. induction sh as [|n sh IH]; intros x H; cbn in H.
  - destruct H as [<-|[]]. constructor.
  - apply in_flat_map in H as (i & Hi & Hx). apply in_map_iff in Hx as (y & <- & Hy).
    apply in_seq in Hi. constructor; [lia|]. now apply IH.
Qed.

Lemma box_sum_ext sh f g : (forall x, in_range sh x -> f x = g x) -> box_sum sh f = box_sum sh g.
Proof.
  intros H. unfold box_sum. assert (K : forall l, (forall x, In x l -> in_range sh x) ->
    fold_right (fun x s => Cplus (f x) s) (RtoC 0) l = fold_right (fun x s => Cplus (g x) s) (RtoC 0) l).
  { induction l as [|a l IH]; intros Hl; [reflexivity|]. cbn. rewrite H by (apply Hl; now left).
    rewrite IH; [reflexivity|]. intros; apply Hl; now right. }
  apply K. apply in_indices.
Qed.

Lemma box_sum_scal sh c f : box_sum sh (fun x => Cmult c (f x)) = Cmult c (box_sum sh f).
Proof. unfold box_sum. induction (indices sh) as [|a l IH]; cbn; [ring|]. rewrite IH. ring. Qed.

Lemma box_sum_plus sh f g : box_sum sh (fun x => Cplus (f x) (g x)) = Cplus (box_sum sh f) (box_sum sh g).
Proof. unfold box_sum. induction (indices sh) as [|a l IH]; cbn; [ring|]. rewrite IH. ring. Qed.

Lemma box_sum_0 sh : box_sum sh (fun _ => RtoC 0) = RtoC 0.
Proof. unfold box_sum. induction (indices sh) as [|a l IH]; cbn; [reflexivity|]. rewrite IH. ring. Qed.

Lemma box_csum sh n f : box_sum sh (fun x => csum n (fun j => f x j)) = csum n (fun j => box_sum sh (fun x => f x j)).
Proof.
  induction n as [|n IH]; cbn; [apply box_sum_0|]. rewrite box_sum_plus. now rewrite IH.
Qed.

Lemma size_cons n sh : (size (n :: sh) = INR n * size sh)%R.
Proof. unfold size. cbn [prod fold_right]. now rewrite mult_INR. Qed.

(** ** Several dimensions *)

Lemma dftn_cons n sh f k ks : dftn (n :: sh) f (k :: ks) = dft n (fun j => dftn sh (fun x => f (j :: x)) ks) k.
Proof. reflexivity. Qed.

Lemma dft_ext n f g k : (forall j, j < n -> f j = g j) -> dft n f k = dft n g k.
Proof. intros H. unfold dft. apply csum_ext. intros. now rewrite H. Qed.

Lemma dftn_ext sh f g ks : length ks = length sh -> (forall x, in_range sh x -> f x = g x) -> dftn sh f ks = dftn sh g ks.
Proof.
  revert f g ks. induction sh as [|n sh IH]; intros f g ks L H.
  - destruct ks; apply H; constructor.
  - destruct ks as [|k ks]; [discriminate|]. rewrite !dftn_cons. apply dft_ext. intros j Hj. apply IH; [cbn in L; lia|].
    intros x Hx. apply H. now constructor.
Qed.

Theorem dftn_inverse sh f x : in_range sh x ->
  box_sum sh (fun k => Cmult (dftn sh f k) (wave sh k x)) = Cmult (RtoC (size sh)) (f x).
Proof.
  revert f x. induction sh as [|n sh IH]; intros f x Hx.
  - inversion Hx; subst. rewrite box_sum_nil. cbn. unfold size; cbn. ring.
  - inversion Hx as [|j ? y ? Hj Hy]; subst. rewrite box_sum_cons.
    rewrite (csum_ext n _ (fun k => Cmult (RtoC (size sh)) (Cmult (dft n (fun i => f (i :: y)) k) (cis (turn n k j))))).
    + rewrite csum_scal. rewrite size_cons.
      pose proof (dft_inverse n (fun i => f (i :: y)) j Hj) as E. unfold idft in E.
      set (s := csum n _) in *. rewrite <- E.
      replace (Cmult (RtoC (INR n * size sh)) (Cmult (RtoC (/ INR n)) s))
        with (Cmult (RtoC (INR n * / INR n)) (Cmult (RtoC (size sh)) s)) by (rewrite !RtoC_mult; ring).
      rewrite Rinv_r by (apply not_0_INR; lia). ring.
    + intros k Hk. cbn [wave]. unfold dft. rewrite <- csum_scal_r, <- csum_scal.
      rewrite (csum_ext n (fun i => Cmult (RtoC _) _)
        (fun i => Cmult (Cmult (cis (- turn n k i)) (cis (turn n k j))) (Cmult (RtoC (size sh)) (f (i :: y))))) by (intros; ring).
      rewrite (csum_ext n (fun i => Cmult (Cmult _ _) (Cmult _ _))
        (fun i => box_sum sh (fun ks => Cmult (Cmult (cis (- turn n k i)) (cis (turn n k j)))
                                          (Cmult (dftn sh (fun x => f (i :: x)) ks) (wave sh ks y))))).
      2:{ intros i Hi. rewrite box_sum_scal. f_equal. symmetry. now apply (IH (fun x => f (i :: x))). }
      rewrite <- box_csum. apply box_sum_ext. intros ks _. cbn [dftn]. rewrite <- csum_scal_r. apply csum_ext. intros. ring.
Qed.

Theorem dftn_parseval sh f :
  box_sum sh (fun k => power (dftn sh f k)) = Cmult (RtoC (size sh)) (box_sum sh (fun x => power (f x))).
Proof.
  revert f. induction sh as [|n sh IH]; intros f.
  - rewrite !box_sum_nil. cbn. unfold size; cbn. ring.
  - rewrite !box_sum_cons, <- box_csum.
    rewrite (box_sum_ext sh _ (fun ks => Cmult (RtoC (INR n)) (csum n (fun j => power (dftn sh (fun x => f (j :: x)) ks))))).
    2:{ intros ks _. apply (dft_parseval n (fun j => dftn sh (fun x => f (j :: x)) ks)). }
    rewrite box_sum_scal, box_csum. rewrite (csum_ext n _ (fun j => Cmult (RtoC (size sh)) (box_sum sh (fun x => power (f (j :: x)))))).
    2:{ intros j _. apply IH. }
    rewrite csum_scal, size_cons, RtoC_mult. ring.
Qed.

(** The transform of a wave. *)
Theorem dftn_wave sh k l : in_range sh k -> in_range sh l ->
  dftn sh (wave sh k) l = if list_eq_dec Nat.eq_dec l k then RtoC (size sh) else RtoC 0.
Proof.
  revert k l. induction sh as [|n sh IH]; intros k l Hk Hl.
  - inversion Hk; inversion Hl; subst. destruct list_eq_dec; [|easy]. cbn. reflexivity.
  - inversion Hk as [|i ? kt ? Hi Hkt]; inversion Hl as [|i' ? lt ? Hi' Hlt]; subst.
    rewrite dftn_cons. rewrite (dft_ext n _ (fun j => Cmult (cis (turn n i j)) (dftn sh (wave sh kt) lt))).
    + rewrite IH by assumption. unfold dft.
      set (c := if list_eq_dec Nat.eq_dec lt kt then _ else _).
      rewrite (csum_ext n _ (fun j => Cmult c (Cmult (cis (turn n i j)) (cis (- turn n i' j))))) by (intros; ring).
      rewrite csum_scal, waves_orthogonal by assumption. unfold c. rewrite size_cons.
      destruct (Nat.eqb_spec i i') as [->|N]; destruct (list_eq_dec Nat.eq_dec lt kt) as [->|N']; destruct (list_eq_dec Nat.eq_dec _ _) as [E|E];
        try (injection E; intros; subst; congruence); try congruence; rewrite ?RtoC_mult; ring.
    + intros j Hj. cbn [wave].
      assert (G : forall s ks g a, dftn s (fun x => Cmult a (g x)) ks = Cmult a (dftn s g ks)).
      { induction s as [|m s IHs]; intros ks g a; [destruct ks; reflexivity|]. destruct ks as [|q ks]; [reflexivity|].
        rewrite !dftn_cons. unfold dft. rewrite <- csum_scal. apply csum_ext. intros. rewrite IHs. ring. }
      apply G.
Qed.

Lemma dftn_scal s ks g a : dftn s (fun x => Cmult a (g x)) ks = Cmult a (dftn s g ks).
Proof.
  revert ks g a. induction s as [|m s IHs]; intros ks g a; [destruct ks; reflexivity|]. destruct ks as [|q ks]; [reflexivity|].
  rewrite !dftn_cons. unfold dft. rewrite <- csum_scal. apply csum_ext. intros. rewrite IHs. ring.
Qed.

(** ** Frequencies *)

Lemma freq_numbers_length n : 0 < n -> length (freq_numbers n) = n.
Proof.
  intros H. unfold freq_numbers. rewrite app_length, !map_length, !seq_length.
  pose proof (Nat.div_mod n 2). pose proof (Nat.div_mod (n - 1) 2). pose proof (Nat.mod_upper_bound n 2). pose proof (Nat.mod_upper_bound (n - 1) 2). lia.
Qed.

Lemma freq_number n k : 0 < n -> k < n ->
  nth k (freq_numbers n) 0%Z = if 2 * k <? n then Z.of_nat k else (Z.of_nat k - Z.of_nat n)%Z.
Proof.
  intros Hn Hk. unfold freq_numbers.
  pose proof (Nat.div_mod n 2 ltac:(lia)) as D1. pose proof (Nat.div_mod (n - 1) 2 ltac:(lia)) as D2.
  pose proof (Nat.mod_upper_bound n 2). pose proof (Nat.mod_upper_bound (n - 1) 2).
  destruct (Nat.ltb_spec (2 * k) n).
  - rewrite app_nth1 by (rewrite map_length, seq_length; lia).
    change 0%Z with (Z.of_nat 0). rewrite map_nth, seq_nth by lia. reflexivity.
  - rewrite app_nth2 by (rewrite map_length, seq_length; lia). rewrite map_length, seq_length.
    rewrite nth_indep with (d' := (Z.of_nat 0 - Z.of_nat (n / 2))%Z) by (rewrite map_length, seq_length; lia).
    rewrite map_nth with (f := fun i => (Z.of_nat i - Z.of_nat (n / 2))%Z). rewrite seq_nth by lia. lia.
Qed.

Lemma fftfreq_ok n d : 0 < n -> exists l, fftfreq n d = Ok l /\ length l = n /\
  forall k, k < n -> nth k l 0%R = (IZR (if 2 * k <? n then Z.of_nat k else Z.of_nat k - Z.of_nat n) / (INR n * d))%R.
Proof.
  intros H. unfold fftfreq. destruct (Nat.eqb_spec n 0); [lia|]. eexists. split; [reflexivity|].
  rewrite map_length, freq_numbers_length by assumption. split; [reflexivity|]. intros k Hk.
  rewrite nth_indep with (d' := (IZR 0 / (INR n * d))%R) by (rewrite map_length, freq_numbers_length; assumption).
  rewrite map_nth with (f := fun z => (IZR z / (INR n * d))%R). now rewrite freq_number.
Qed.

(** ** The parts of [fft] *)

Lemma dummies_none k gs : Forall (fun g => 2 < length g) gs -> dummies k (List.map Pts gs) = Ok [].
Proof.
  intros H. revert k. induction H as [|g gs Hg _ IH]; intros k; [reflexivity|]. cbn. rewrite IH. cbn.
  destruct (Nat.leb_spec (length g) 2); [lia|reflexivity].
Qed.

Lemma keep_not_nil {A} k (l : list A) : keep_not k [] l = l.
Proof. revert k. induction l as [|a l IH]; intros k; cbn; [reflexivity|]. now rewrite IH. Qed.

Lemma axis_freq_ok g : 2 < length g -> exists f, axis_freq (Pts g) = Ok (length g, f) /\ length f = length g /\
  forall k, k < length g -> nth k f 0%R =
    (IZR (if 2 * k <? length g then Z.of_nat k else Z.of_nat k - Z.of_nat (length g)) / (INR (length g) * (nth 1 g 0 - nth 0 g 0)))%R.
Proof.
  intros H. destruct g as [|a [|b g]]; [cbn in H; lia|cbn in H; lia|].
  unfold axis_freq. cbn [coord_len spacing bind].
  destruct (fftfreq_ok (length (a :: b :: g)) (b - a)) as (f & E & L & N); [cbn; lia|].
  rewrite E. cbn [bind]. exists f. split; [reflexivity|]. split; [exact L|]. exact N.
Qed.

(** The frequencies of the axes, in order. *)
Definition freqs_of (gs : list (list R)) (fs : list (list R)) : Prop :=
  Forall2 (fun g f => length f = length g /\ forall k, k < length g -> nth k f 0%R =
    (IZR (if 2 * k <? length g then Z.of_nat k else Z.of_nat k - Z.of_nat (length g)) / (INR (length g) * (nth 1 g 0 - nth 0 g 0)))%R) gs fs.

Lemma axes_freq gs : Forall (fun g => 2 < length g) gs ->
  exists fs, mapM axis_freq (List.map Pts gs) = Ok (combine (List.map (@length R) gs) fs) /\ freqs_of gs fs.
Proof.
  induction 1 as [|g gs Hg _ (fs & E & F)]; [exists []; split; [reflexivity|constructor]|].
  destruct (axis_freq_ok g Hg) as (f & Ef & Lf & Nf). exists (f :: fs). split; [|constructor; auto].
  cbn [List.map mapM]. rewrite Ef. cbn [bind]. rewrite E. reflexivity.
Qed.

Lemma ft_last_all v n m : shape v = [n; m] -> ft_last v = ft_all v.
Proof.
  intros S. unfold ft_last, ft_all. rewrite S. cbn [removelast last]. unfold tabulate. f_equal.
  apply map_ext_in. intros idx H. apply in_indices in H. inversion H as [|k ? t ? Hk Ht]; subst. inversion Ht as [|c ? t' ? Hc Ht']; subst.
  inversion Ht'; subst. cbn [removelast last app]. reflexivity.
Qed.

Lemma ft_all_get v cells m k c : shape v = cells ++ [m] -> in_range cells k -> c < m ->
  get (ft_all v) (k ++ [c]) = Some (dftn cells (fun x => cval v (x ++ [c])) k).
Proof.
  intros S Hk Hc. unfold ft_all. rewrite S. rewrite removelast_app by discriminate. cbn [removelast]. rewrite app_nil_r.
  rewrite get_tabulate.
  - f_equal. rewrite removelast_app by discriminate. cbn [removelast]. rewrite app_nil_r.
    assert (L : forall (l : list nat) a, last (l ++ [a]) 0 = a) by (induction l as [|b [|? ?] IH]; intros; cbn in *; auto).
    now rewrite L.
  - unfold in_range in *. apply Forall2_app; auto.
Qed.

Lemma ft_all_shape v : shape (ft_all v) = shape v.
Proof. reflexivity. Qed.

Lemma ft_all_wf v : wf (ft_all v).
Proof. apply wf_tabulate. Qed.

(** The three cases of the number of axes at once. *)
Lemma fft_plain ow gs cells m v : good gs cells m v ->
  exists fs, freqs_of gs fs /\ delivers (fft false false ow (dataset gs v)) ow (dataset gs v) (List.map Pts fs) (ft_all v).
Proof.
  intros (W & S & L & N & A). destruct (axes_freq gs A) as (fs & E & F). exists fs. split; [exact F|].
  unfold fft, dataset. cbn [f_grid f_vals]. rewrite dummies_none by assumption. cbn [bind]. rewrite keep_not_nil.
  destruct gs as [|g1 [|g2 gs]]; [cbn in N; lia| |].
  - cbn [List.map]. inversion F as [|? f ? t (Lf & Nf) Ft]; subst. inversion Ft; subst.
    cbn [List.map mapM combine] in E. destruct (axis_freq (Pts g1)) as [nf|]; [|discriminate]. cbn [bind] in *. injection E as ->.
    destruct cells as [|n [|? ?]]; [discriminate| |discriminate]. cbn [snd].
    rewrite (ft_last_all v n m) by exact S. unfold delivers. destruct ow; [eexists; reflexivity|reflexivity].
  - change (List.map Pts (g1 :: g2 :: gs)) with (Pts g1 :: Pts g2 :: List.map Pts gs) in *. cbv iota.
    assert (L3 : (3 <? length (Pts g1 :: Pts g2 :: List.map Pts gs)) = false).
    { apply Nat.ltb_ge. cbn [length] in *. rewrite map_length. lia. }
    rewrite L3, E. cbn [bind].
    assert (M : forall (a : list (list R)) (b : list (list R)), length a = length b ->
      List.map (fun nf : nat * list R => Pts (snd nf)) (combine (List.map (@length R) a) b) = List.map Pts b).
    { induction a as [|x a IH]; intros [|y b] Lab; cbn in *; try discriminate; [reflexivity|]. f_equal. apply IH. lia. }
    rewrite M by (eapply Forall2_length; exact F). rewrite Bool.andb_true_r.
    unfold delivers. destruct ow; [eexists; reflexivity|reflexivity].
Qed.
