(** * C97: spectra binned by the length of the wave vector *)
From Coq Require Import List Arith ZArith Bool Lia Reals Lra Permutation.
From Coquelicot Require Import Complex.
From Verif Require Import Prelude PreludeFacts NdArray Fft_Model Fft_Spec Fft_Dft Fft_Proofs Fft_Props Fft_Props2.
Import ListNotations.
Open Scope nat_scope.
Open Scope list_scope.

(** ** Specification *)

(** The length of the wave vector of mode [x]. *)
Definition wave_number (fs : list (list R)) (x : list nat) : R :=
  sqrt (fold_right Rplus 0%R (List.map (fun f => (f * f)%R) (mode fs x))).

(** A wave number belongs to bin [i] of [n]: it is nearer to [(i + 1) * dk] than
    to other multiples of [dk]; the last bin also has all larger ones. *)
Definition belongs (n : nat) (dk : R) (i : nat) (k : R) : Prop :=
  i < n /\ (((INR i + / 2) * dk <= k < (INR i + 3 / 2) * dk)%R \/ i = n - 1 /\ ((INR i + 3 / 2) * dk <= k)%R).

Definition lsum (f : list nat -> C) (l : list (list nat)) : C := fold_right (fun x s => Cplus (f x) s) (RtoC 0) l.

(** ** Proofs *)

Lemma rleb_le a b : rleb a b = true <-> (a <= b)%R.
Proof. unfold rleb. destruct (Rle_dec a b); split; intros; try assumption; try reflexivity; try discriminate; contradiction. Qed.

Lemma lim_eq dk i : bin_lim dk i = ((INR i + / 2) * dk)%R.
Proof. unfold bin_lim. field. Qed.

Lemma lim_S dk i : bin_lim dk (S i) = ((INR i + 3 / 2) * dk)%R.
Proof. unfold bin_lim. rewrite S_INR. field. Qed.

Lemma in_bin_spec dk i k : in_bin dk i k = true <-> ((INR i + / 2) * dk <= k < (INR i + 3 / 2) * dk)%R.
Proof.
  unfold in_bin. rewrite andb_true_iff, negb_true_iff, rleb_le, lim_S, lim_eq. split.
  - intros (H1 & H2). split; [exact H2|]. apply Rnot_le_lt. intros K. apply rleb_le in K. congruence.
  - intros (H1 & H2). split; [|exact H1]. apply Bool.not_true_is_false. rewrite rleb_le. lra.
Qed.

Lemma in_bin_unique dk i j k : (0 < dk)%R -> in_bin dk i k = true -> in_bin dk j k = true -> i = j.
Proof.
  intros Hd. rewrite !in_bin_spec. intros Hi Hj.
  assert (INR i < INR j + 1)%R by (apply (Rmult_lt_reg_r dk); lra).
  assert (INR j < INR i + 1)%R by (apply (Rmult_lt_reg_r dk); lra).
  rewrite <- S_INR in *. apply INR_lt in H. apply INR_lt in H0. lia.
Qed.

Lemma fold_pick (P : nat -> bool) l d : (forall i j, In i l -> In j l -> P i = true -> P j = true -> i = j) ->
  forall r, fold_left (fun p i => if P i then i else p) l d = r <->
    (In r l /\ P r = true) \/ ((forall i, In i l -> P i = false) /\ r = d).
Proof.
  revert d. induction l as [|a l IH]; intros d U r; cbn.
  - split; [intros <-; right; split; [contradiction|reflexivity]|intros [([] & _)|(_ & ->)]; reflexivity].
  - rewrite IH by (intros; apply U; cbn; auto). destruct (P a) eqn:Pa.
    + split.
      * intros [(H & Pr)|(H & ->)]; [left; auto|left; auto].
      * intros [([->|H] & Pr)|(H & _)].
        -- destruct (existsb P l) eqn:Ex.
           ++ apply existsb_exists in Ex as (i & Hi & Pi). assert (i = r) as -> by (apply U; cbn; auto). left; auto.
           ++ right. split; [|reflexivity]. intros i Hi. apply Bool.not_true_is_false. intros Pi.
              assert (existsb P l = true) by (apply existsb_exists; eauto). congruence.
        -- left; auto.
        -- specialize (H a (or_introl eq_refl)). congruence.
    + split.
      * intros [(H & Pr)|(H & ->)]; [left; auto|right; split; [|reflexivity]]. intros i [<-|Hi]; auto.
      * intros [([->|H] & Pr)|(H & ->)]; [congruence|left; auto|right; split; auto].
Qed.

(** Below the last limit every wave number is in some bin or below the first. *)
Lemma some_bin n dk k : (0 < dk)%R -> (k < bin_lim dk n)%R -> (bin_lim dk 0 <= k)%R -> exists i, i < n /\ in_bin dk i k = true.
Proof.
  intros Hd. induction n as [|n IH]; intros H1 H0; [lra|].
  destruct (Rle_dec (bin_lim dk n) k) as [L|L].
  - exists n. split; [lia|]. apply in_bin_spec. rewrite lim_eq in L. rewrite lim_S in H1. lra.
  - destruct IH as (i & Hi & Ei); [lra|exact H0|]. exists i. split; [lia|exact Ei].
Qed.

Lemma polar_index_spec n dk k i : 0 < n -> (0 < dk)%R -> (0 <= k)%R ->
  polar_index n dk k = i <-> belongs n dk i k \/ (i = 0 /\ (k < / 2 * dk)%R).
Proof.
  intros Hn Hd Hk. unfold polar_index. rewrite fold_pick by (intros; eapply in_bin_unique; eassumption).
  assert (Lmono : forall a b, a <= b -> (bin_lim dk a <= bin_lim dk b)%R).
  { intros a b H. rewrite !lim_eq. apply le_INR in H. apply Rmult_le_compat_r; lra. }
  unfold belongs. split.
  - intros [(Hi & Pi)|(Hall & ->)].
    + apply in_seq in Hi. apply in_bin_spec in Pi. left. split; [lia|]. left. exact Pi.
    + destruct (rleb (bin_lim dk n) k) eqn:Ov.
      * apply rleb_le in Ov. left. split; [lia|]. right. split; [reflexivity|].
        replace n with (S (n - 1)) in Ov by lia. rewrite lim_S in Ov. exact Ov.
      * right. split; [reflexivity|]. apply Rnot_le_lt. intros K.
        destruct (some_bin n dk k Hd) as (i & Hi & Pi).
        -- apply Rnot_le_lt. intros Q. apply rleb_le in Q. congruence.
        -- rewrite lim_eq. cbn. lra.
        -- rewrite Hall in Pi by (apply in_seq; lia). discriminate.
  - intros [(Hi & [Pi|(-> & Ov)])|(-> & Low)].
    + left. split; [apply in_seq; lia|]. now apply in_bin_spec.
    + right.
      assert (Ov' : (bin_lim dk n <= k)%R) by (replace n with (S (n - 1)) at 1 by lia; rewrite lim_S; exact Ov).
      split.
      * intros j Hj. apply in_seq in Hj. apply Bool.not_true_is_false. intros Pj. apply in_bin_spec in Pj.
        rewrite <- lim_S in Pj. assert (bin_lim dk (S j) <= bin_lim dk n)%R by (apply Lmono; lia). lra.
      * assert (rleb (bin_lim dk n) k = true) as -> by (now apply rleb_le). reflexivity.
    + right. split.
      * intros j Hj. apply Bool.not_true_is_false. intros Pj. apply in_bin_spec in Pj. pose proof (pos_INR j).
        assert (0 <= INR j * dk)%R by (apply Rmult_le_pos; lra). lra.
      * assert (rleb (bin_lim dk n) k = false) as ->; [|reflexivity]. apply Bool.not_true_is_false. rewrite rleb_le, lim_eq.
        pose proof (pos_INR n). assert (0 <= INR n * dk)%R by (apply Rmult_le_pos; lra). lra.
Qed.

(** Deciding [belongs]. *)
Definition belongsb (n : nat) (dk : R) (i : nat) (k : R) : bool :=
  (i <? n) && (in_bin dk i k || (i =? n - 1) && rleb (bin_lim dk n) k).

Lemma belongsb_spec n dk i k : 0 < n -> belongsb n dk i k = true <-> belongs n dk i k.
Proof.
  intros Hn. unfold belongsb, belongs. rewrite andb_true_iff, orb_true_iff, andb_true_iff, Nat.ltb_lt, Nat.eqb_eq, rleb_le, in_bin_spec.
  split; intros (H & [K|(-> & K)]); (split; [exact H|]); auto; right; (split; [reflexivity|]).
  - replace n with (S (n - 1)) in K at 1 by lia. now rewrite lim_S in K.
  - replace n with (S (n - 1)) at 1 by lia. now rewrite lim_S.
Qed.

Lemma filter_or {A} (f g : A -> bool) l : (forall a, f a = true -> g a = true -> False) ->
  length (filter (fun a => f a || g a) l) = length (filter f l) + length (filter g l).
Proof.
  intros D. induction l as [|a l IH]; [reflexivity|]. cbn. specialize (D a). destruct (f a), (g a); cbn; rewrite ?IH; lia || (exfalso; auto).
Qed.

Lemma nbin_spec n dk ks i : 0 < n -> (0 < dk)%R -> i < n -> nbin n dk ks i = length (filter (belongsb n dk i) ks).
Proof.
  intros Hn Hd Hi. unfold nbin. rewrite (filter_ext (belongsb n dk i) (fun k => in_bin dk i k || (i =? n - 1) && rleb (bin_lim dk n) k)).
  2:{ intros k. unfold belongsb. destruct (Nat.ltb_spec i n); [reflexivity|lia]. }
  rewrite filter_or.
  - destruct (i =? n - 1); cbn [andb]; [apply Nat.add_comm|]. replace (filter (fun _ => false) ks) with (@nil R); [cbn [length]; lia|].
    induction ks as [|a ks IH]; cbn; auto.
  - intros k H1 H2. apply in_bin_spec in H1. apply andb_true_iff in H2 as (E & H2). apply Nat.eqb_eq in E. subst i.
    apply rleb_le in H2. replace n with (S (n - 1)) in H2 at 1 by lia. rewrite lim_S in H2. lra.
Qed.

Lemma iso_sum n dk (modes : list (R * C)) i s :
  fold_left (fun s m => if polar_index n dk (fst m) =? i then Cplus s (snd m) else s) modes s
  = Cplus s (fold_right (fun m s => Cplus (snd m) s) (RtoC 0) (filter (fun m => polar_index n dk (fst m) =? i) modes)).
Proof.
  revert s. induction modes as [|a l IH]; intros s; cbn; [ring|]. rewrite IH. destruct (_ =? _); cbn; ring.
Qed.

Lemma perm_same {A} (l l' : list A) : NoDup l -> NoDup l' -> (forall x, In x l <-> In x l') -> Permutation l l'.
Proof. intros. now apply NoDup_Permutation. Qed.

Lemma lsum_perm f l l' : Permutation l l' -> lsum f l = lsum f l'.
Proof.
  induction 1 as [|x l l' _ IH|x y l|l l' l'' _ IH1 _ IH2]; [reflexivity| |cbn; ring|now rewrite IH1].
  cbn. fold (lsum f l) (lsum f l'). now rewrite IH.
Qed.

Lemma lsum_app f l l' : lsum f (l ++ l') = Cplus (lsum f l) (lsum f l').
Proof. apply fold_app. Qed.

Lemma NoDup_indices sh : NoDup (indices sh).
Proof.
  induction sh as [|n sh IH]; cbn; [repeat constructor; auto|].
  assert (G : forall a l, (forall i, In i l -> a <> i) -> forall x, In x (List.map (cons a) (indices sh)) -> ~ In x (flat_map (fun i => List.map (cons i) (indices sh)) l)).
  { intros a l H x Hx Hy. apply in_map_iff in Hx as (y & <- & _). apply in_flat_map in Hy as (i & Hi & Hz).
    apply in_map_iff in Hz as (z & E & _). injection E as -> _. now apply (H a Hi). }
  generalize (seq_NoDup n 0). generalize (seq 0 n). intros l N. induction N as [|a l Na Nl IHl]; cbn; [constructor|].
  assert (NA : forall (a b : list (list nat)), NoDup a -> NoDup b -> (forall x, In x a -> ~ In x b) -> NoDup (a ++ b)).
  { clear. induction a as [|x a IH]; intros b Ha Hb D; [exact Hb|]. inversion Ha; subst. cbn. constructor.
    - rewrite in_app_iff. intros [H|H]; [contradiction|]. apply (D x); [now left|exact H].
    - apply IH; auto. intros y Hy. apply D. now right. }
  apply NA; [|exact IHl|].
  - apply FinFun.Injective_map_NoDup; [|exact IH]. intros x y E. now injection E.
  - apply G. intros i Hi E. subst. contradiction.
Qed.

Lemma indices_in sh x : In x (indices sh) <-> in_range sh x.
Proof.
  split; [apply in_indices|]. revert x. induction sh as [|n sh IH]; intros x H.
  - inversion H; subst. now left.
  - inversion H as [|i ? y ? Hi Hy]; subst. cbn. apply in_flat_map. exists i. split; [apply in_seq; lia|]. apply in_map. now apply IH.
Qed.

(** ** A bin of the model *)

Lemma isotropic_bin n dk cells kf vf i members low :
  0 < n -> (0 < dk)%R -> i < n -> (forall x, 0 <= kf x)%R ->
  NoDup members -> (forall x, In x members <-> in_range cells x /\ belongs n dk i (kf x)) ->
  NoDup low -> (forall x, In x low <-> in_range cells x /\ i = 0 /\ (kf x < / 2 * dk)%R) ->
  isotropic n dk (List.map (fun x => (kf x, vf x)) (indices cells)) i
  = Cmult (Cplus (lsum vf members) (lsum vf low)) (RtoC (/ INR (length members))).
Proof.
  intros Hn Hd Hi Hk Nm Em Nl El. unfold isotropic. f_equal.
  - rewrite iso_sum. rewrite Cplus_0_l.
    assert (E : forall l, fold_right (fun m s => Cplus (snd m) s) (RtoC 0) (filter (fun m => polar_index n dk (fst m) =? i) (List.map (fun x => (kf x, vf x)) l))
              = lsum vf (filter (fun x => polar_index n dk (kf x) =? i) l)).
    { induction l as [|a l IH]; [reflexivity|]. cbn. destruct (_ =? i); cbn; now rewrite IH. }
    rewrite E, <- lsum_app. apply lsum_perm. apply perm_same.
    + apply NoDup_filter, NoDup_indices.
    + clear -Nm Nl Em El Hi Hd. revert Nm Nl.
      assert (D : forall x, In x members -> ~ In x low).
      { intros x H1 H2. apply Em in H1 as (_ & _ & [B|(_ & B)]); apply El in H2 as (_ & -> & L); cbn in B; lra. }
      clear Em El. induction members as [|x l IH]; intros Nm Nl; [exact Nl|]. inversion Nm; subst. cbn. constructor.
      * rewrite in_app_iff. intros [H|H]; [contradiction|]. apply (D x); [now left|exact H].
      * apply IH; auto. intros y Hy. apply D. now right.
    + intros x. rewrite filter_In, indices_in, Nat.eqb_eq, in_app_iff, Em, El, polar_index_spec by auto. intuition.
  - do 3 f_equal. rewrite nbin_spec by assumption. rewrite map_map. cbn [fst].
    assert (E : forall l, length (filter (belongsb n dk i) (List.map kf l)) = length (filter (fun x => belongsb n dk i (kf x)) l)).
    { induction l as [|a l IH]; [reflexivity|]. cbn. destruct (belongsb n dk i (kf a)); cbn; now rewrite IH. }
    rewrite E. apply Permutation_length. apply perm_same; [apply NoDup_filter, NoDup_indices|exact Nm|].
    intros x. rewrite filter_In, indices_in, belongsb_spec, Em by assumption. reflexivity.
Qed.

Lemma klen_number fs x : klen fs x = wave_number fs x.
Proof.
  unfold klen, wave_number, mode. f_equal. revert x. induction fs as [|f fs IH]; intros [|i x]; cbn; auto. now rewrite IH.
Qed.

(** ** The theorem *)

(** The width of the bins: the largest of the lowest frequencies of the axes. *)
Definition lowest_max (fs : list (list R)) (dk : R) : Prop :=
  (exists f, In f fs /\ nth 1 f 0%R = dk) /\ forall f, In f fs -> (nth 1 f 0 <= dk)%R.

Definition halves (fs : list (list R)) : list (list R) := List.map (fun f => firstn (length f / 2) f) fs.

Lemma item_nth (l : list R) : 1 < length l -> item l 1 = Ok (nth 1 l 0%R).
Proof. intros H. destruct l as [|a [|b l]]; cbn in H; try lia. reflexivity. Qed.

Lemma width_ok fs : 2 <= length fs <= 3 -> Forall (fun f => 1 < length f) fs ->
  exists dk, match fs with [kx; ky] => width2 kx ky | [kx; ky; kz] => width3 kx ky kz | _ => Err IndexError end = Ok dk /\
    lowest_max fs dk.
Proof.
  intros L A. destruct fs as [|kx [|ky [|kz [|? ?]]]]; cbn in L; try lia.
  - inversion A as [|? ? Ax A1]; inversion A1 as [|? ? Ay _]; subst.
    unfold width2, odd_one, rmax2. pose proof (Nat.mod_upper_bound (length ky) 2 ltac:(lia)).
    destruct (Nat.eqb_spec (length kx) (length ky mod 2)); [lia|]. cbn [andb].
    destruct (Nat.eqb_spec (length kx) 1); [lia|]. destruct (Nat.eqb_spec (length ky) 1); [lia|].
    rewrite !item_nth by assumption. cbn [bind]. eexists. split; [reflexivity|]. split.
    + unfold Rmax. destruct Rle_dec; eexists; (split; [|reflexivity]); cbn; auto.
    + intros f [<-|[<-|[]]]; [apply Rmax_l|apply Rmax_r].
  - inversion A as [|? ? Ax A1]; inversion A1 as [|? ? Ay A2]; inversion A2 as [|? ? Az _]; subst.
    unfold width3, odd_one, rmax2. pose proof (Nat.mod_upper_bound (length ky) 2 ltac:(lia)).
    destruct (Nat.eqb_spec (length kx) (length ky mod 2)); [lia|]. cbn [andb].
    destruct (Nat.eqb_spec (length kx) 1); [lia|]. destruct (Nat.eqb_spec (length ky) 1); [lia|]. destruct (Nat.eqb_spec (length kz) 1); [lia|].
    rewrite !item_nth by assumption. cbn [bind]. eexists. split; [reflexivity|]. split.
    + unfold Rmax. destruct Rle_dec; destruct Rle_dec; eexists; (split; [|reflexivity]); cbn; auto.
    + intros f [<-|[<-|[<-|[]]]]; [eapply Rle_trans; apply Rmax_l|eapply Rle_trans; [apply Rmax_r|apply Rmax_l]|apply Rmax_r].
Qed.

(** The common part of all statements about the iso option. *)
Lemma fft_iso ow gs cells m v : good gs cells m v -> 2 <= length gs ->
  exists fs w, freqs_of gs fs /\
    delivers (fft true false ow (dataset gs v)) ow (dataset gs v)
      (List.map Pts (halves fs) ++ (if length gs =? 2 then [Num 0%R] else [])) w /\ last (shape w) 0 = m /\
    fft true true ow (dataset gs v) =
      let* r := iso_of (List.map (@length R) gs) (halves fs) w in
      Ok ((if ow then mk_fdat (fst r) (snd r) else dataset gs v), Some r).
Proof.
  intros (W & S & L & N & A) H2. destruct (axes_freq gs A) as (fs & E & F). destruct (half_lists gs fs F) as (H1 & Hh).
  destruct (psd_of_ok (List.map (fun g : list R => length g / 2) gs) cells m (ft_all v)) as (w & Ew & Ww & Sw & Gw);
    [rewrite ft_all_shape; exact S|now rewrite map_length|].
  exists fs, w. split; [exact F|].
  unfold fft, dataset. cbn [f_grid f_vals]. rewrite dummies_none by assumption. cbn [bind]. rewrite keep_not_nil.
  destruct gs as [|g1 [|g2 gs]]; [cbn in H2; lia|cbn in H2; lia|].
  change (List.map Pts (g1 :: g2 :: gs)) with (Pts g1 :: Pts g2 :: List.map Pts gs) in *. cbv iota.
  assert (L3 : (3 <? length (Pts g1 :: Pts g2 :: List.map Pts gs)) = false).
  { apply Nat.ltb_ge. cbn [length] in *. rewrite map_length. lia. }
  rewrite L3, E. cbn [bind].
  assert (L23 : (length (Pts g1 :: Pts g2 :: List.map Pts gs) =? 2) || (length (Pts g1 :: Pts g2 :: List.map Pts gs) =? 3) = true).
  { cbn [length] in *. rewrite map_length. destruct gs as [|? [|? ?]]; cbn in *; auto; lia. }
  rewrite L23. cbv iota. rewrite H1, Hh, Ew. cbn [bind].
  assert (E2 : length (Pts g1 :: Pts g2 :: List.map Pts gs) = length (g1 :: g2 :: gs)) by (cbn; now rewrite map_length).
  assert (E3 : List.map fst (combine (List.map (@length R) (g1 :: g2 :: gs)) fs) = List.map (@length R) (g1 :: g2 :: gs)).
  { apply Forall2_length in F. clear - F. revert fs F. generalize (g1 :: g2 :: gs).
    induction l as [|g l IH]; intros [|f fs] F; cbn in *; try discriminate; auto. f_equal. apply IH. lia. }
  rewrite E2, E3. split; [|split].
  - unfold delivers, halves. destruct ow; [eexists; reflexivity|reflexivity].
  - rewrite Sw. clear. induction (List.map _ _) as [|a l IH]; [reflexivity|]. cbn. destruct (l ++ [m]) eqn:El; [destruct l; discriminate|exact IH].
  - reflexivity.
Qed.

Lemma halves_length gs fs : freqs_of gs fs -> List.map (@length R) (halves fs) = List.map (fun g => length g / 2) gs.
Proof.
  induction 1 as [|g f gs fs (Lf & _) _ IH]; [reflexivity|]. cbn [halves List.map]. unfold halves in IH. rewrite IH.
  f_equal. rewrite firstn_length, Lf. pose proof (Nat.div_le_upper_bound (length g) 2 (length g) ltac:(lia) ltac:(lia)). lia.
Qed.

Lemma freq_low gs fs : freqs_of gs fs -> Forall (fun g => 3 < length g) gs -> Forall (fun g => nth 0 g 0 < nth 1 g 0)%R gs ->
  Forall (fun f => 1 < length f /\ (0 < nth 1 f 0)%R) (halves fs).
Proof.
  induction 1 as [|g f gs fs (Lf & Nf) _ IH]; intros A P; [constructor|].
  inversion A as [|? ? Ag A']; inversion P as [|? ? Pg P']; subst. cbn [halves List.map]. constructor; [|now apply IH].
  assert (H2 : 2 <= length f / 2) by (apply Nat.div_le_lower_bound; lia).
  assert (Hl : length f / 2 <= length f) by (apply Nat.div_le_upper_bound; lia).
  split; [rewrite firstn_length; lia|].
  assert (E : nth 1 (firstn (length f / 2) f) 0%R = nth 1 f 0%R).
  { destruct f as [|a [|b f]]; cbn [length] in *; try lia. destruct (S (S (length f)) / 2) as [|[|q]]; try lia. reflexivity. }
  rewrite E, Nf by lia. destruct (Nat.ltb_spec (2 * 1) (length g)); [|lia].
  apply Rdiv_lt_0_compat; [cbn; lra|]. apply Rmult_lt_0_compat; [apply lt_0_INR; lia|lra].
Qed.

(** The binned spectrum. With at least four coordinates along each of two or three
    axes there are as many bins as the diagonal of the box of points is long; bin
    [i] is at wave number [(i + 1) * dk] and holds the sum of the power of the modes that
    belong to it over their number. The sum in the first bin has in addition the
    power of the modes below half of [dk], which are not counted. *)
Theorem C97_bins ow gs cells m v : good gs cells m v -> 2 <= length gs ->
  Forall (fun g => 3 < length g) gs -> Forall (fun g => nth 0 g 0 < nth 1 g 0)%R gs ->
  exists fs w ks iso n dk,
    delivers (fft true false ow (dataset gs v)) ow (dataset gs v) (List.map Pts fs ++ (if length gs =? 2 then [Num 0%R] else [])) w /\
    delivers (fft true true ow (dataset gs v)) ow (dataset gs v) [Pts ks] iso /\
    n = Nat.sqrt (fold_right (fun g s => length g * length g + s) 0 gs) /\
    lowest_max fs dk /\ (0 < dk)%R /\ length ks = n /\ shape iso = [n; m] /\
    (forall i, i < n -> nth i ks 0%R = ((INR i + 1) * dk)%R) /\
    forall i c members low, i < n -> c < m ->
      NoDup members -> (forall x, In x members <-> in_range (List.map (@length R) fs) x /\ belongs n dk i (wave_number fs x)) ->
      NoDup low -> (forall x, In x low <-> in_range (List.map (@length R) fs) x /\ i = 0 /\ (wave_number fs x < / 2 * dk)%R) ->
      members <> [] ->
      get iso [i; c] = Some (Cmult (Cplus (lsum (fun x => cval w (x ++ [c])) members) (lsum (fun x => cval w (x ++ [c])) low))
                                   (RtoC (/ INR (length members)))).
Proof.
  intros G H2 A4 P. destruct (fft_iso ow gs cells m v G H2) as (fs & w & F & D & Lw & E).
  destruct G as (W & S & L & N & A). pose proof (freq_low gs fs F A4 P) as Fl.
  assert (Lh : length (halves fs) = length gs).
  { unfold halves. rewrite map_length. symmetry. eapply Forall2_length. exact F. }
  destruct (width_ok (halves fs)) as (dk & Ed & M).
  { rewrite Lh. lia. }
  { eapply Forall_impl; [|exact Fl]. intros f (H & _). exact H. }
  assert (Hd : (0 < dk)%R).
  { destruct M as ((f & Hf & <-) & _). rewrite Forall_forall in Fl. now apply Fl. }
  set (n := Nat.sqrt (fold_right (fun g s => length g * length g + s) 0 gs)).
  assert (En : Nat.sqrt (fold_right (fun m s => m * m + s) 0 (List.map (@length R) gs)) = n).
  { unfold n. f_equal. clear. induction gs as [|g gs IH]; cbn; [reflexivity|]. now rewrite IH. }
  assert (Hn : 0 < n).
  { unfold n. destruct gs as [|g gs]; [cbn in H2; lia|]. inversion A4; subst. cbn [fold_right].
    assert (1 <= Nat.sqrt (length g * length g + fold_right (fun g s => length g * length g + s) 0 gs)); [|lia].
    change 1 with (Nat.sqrt 1) at 1. apply Nat.sqrt_le_mono. nia. }
  unfold iso_of in E. rewrite En, Ed in E. cbn [bind fst snd] in E.
  eexists (halves fs), w, (List.map (bin_k dk) (seq 0 n)), _, n, dk. split; [exact D|]. split.
  { rewrite E. unfold delivers. destruct ow; [eexists; reflexivity|reflexivity]. }
  split; [reflexivity|]. split; [exact M|]. split; [exact Hd|]. split; [now rewrite map_length, seq_length|].
  split; [cbn [shape tabulate]; now rewrite Lw|]. split.
  { intros i Hi. rewrite nth_indep with (d' := bin_k dk 0) by (now rewrite map_length, seq_length). rewrite map_nth, seq_nth by assumption. reflexivity. }
  intros i c members low Hi Hc Nm Em Nl El Hne. rewrite get_tabulate.
  2:{ rewrite Lw. constructor; [exact Hi|constructor; [exact Hc|constructor]]. }
  cbn [nth]. f_equal. apply isotropic_bin; try assumption.
  - intros x. apply sqrt_pos.
  - intros x. rewrite klen_number. apply Em.
  - intros x. rewrite klen_number. apply El.
Qed.

(** No mode belongs to the upper half of the bins (numpy divides 0 by 0 there). *)
Theorem C97_upper_half_empty ow gs cells m v : good gs cells m v -> 2 <= length gs ->
  Forall (fun g => 3 < length g) gs -> Forall (fun g => nth 0 g 0 < nth 1 g 0)%R gs ->
  exists fs w n dk,
    delivers (fft true false ow (dataset gs v)) ow (dataset gs v) (List.map Pts fs ++ (if length gs =? 2 then [Num 0%R] else [])) w /\
    n = Nat.sqrt (fold_right (fun g s => length g * length g + s) 0 gs) /\ lowest_max fs dk /\ 3 < n /\
    forall i x, n <= 2 * i -> in_range (List.map (@length R) fs) x -> ~ belongs n dk i (wave_number fs x).
Proof.
  intros G H2 A4 P. destruct (fft_iso ow gs cells m v G H2) as (fs & w & F & D & _).
  destruct G as (W & S & L & N & A). pose proof (freq_low gs fs F A4 P) as Fl.
  assert (Lh : length (halves fs) = length gs).
  { unfold halves. rewrite map_length. symmetry. eapply Forall2_length. exact F. }
  destruct (width_ok (halves fs)) as (dk & _ & M).
  { rewrite Lh. lia. }
  { eapply Forall_impl; [|exact Fl]. intros f (H & _). exact H. }
  assert (Hd : (0 < dk)%R).
  { destruct M as ((f & Hf & <-) & _). rewrite Forall_forall in Fl. now apply Fl. }
  set (Q := fold_right (fun g s => length g * length g + s) 0 gs). set (n := Nat.sqrt Q).
  exists (halves fs), w, n, dk. split; [exact D|]. split; [reflexivity|]. split; [exact M|]. split.
  { unfold n, Q. destruct gs as [|g gs]; [cbn in H2; lia|]. inversion A4; subst. cbn [fold_right].
    assert (4 <= Nat.sqrt (length g * length g + fold_right (fun g s => length g * length g + s) 0 gs)); [|lia].
    change 4 with (Nat.sqrt 16) at 1. apply Nat.sqrt_le_mono. nia. }
  intros i x Hi Hx (Hin & B).
  (* the wave number is below [dk / 2 * sqrt Q] *)
  assert (Bd : (fold_right Rplus 0 (List.map (fun f => f * f) (mode (halves fs) x)) <= (dk / 2) * (dk / 2) * INR Q)%R).
  { unfold Q. destruct M as (_ & M). clear - F A4 P Hx M Hd. revert x Hx.
    induction F as [|g f gs fs (Lf & Nf) F IH]; intros x Hx.
    - cbn. unfold mode. destruct x; cbn; lra.
    - inversion A4 as [|? ? Ag A']; inversion P as [|? ? Pg P']; subst.
      cbn [halves List.map] in Hx. inversion Hx as [|j ? y ? Hj Hy]; subst.
      cbn [halves List.map mode combine fold_right fst snd]. rewrite plus_INR, mult_INR.
      assert (IH' : (fold_right Rplus 0 (List.map (fun f => f * f) (mode (halves fs) y)) <= dk / 2 * (dk / 2) * INR (fold_right (fun g s => (length g * length g + s)%nat) 0%nat gs))%R).
      { apply IH; auto. intros f' Hf'. apply M. cbn. now right. }
      unfold mode, halves in IH'. cbv beta in IH'. unfold mode, halves.
      assert (Hl : length f / 2 <= length f) by (apply Nat.div_le_upper_bound; lia).
      assert (H4 : 2 <= length f / 2) by (apply Nat.div_le_lower_bound; lia).
      rewrite firstn_length in Hj. change (fst (Nat.divmod (length f) 1 0 1)) with (length f / 2) in Hj.
      assert (Hf : forall q, q < length f / 2 -> nth q (firstn (length f / 2) f) 0%R = (INR q / (INR (length g) * (nth 1 g 0 - nth 0 g 0)))%R).
      { intros q Hq. assert (Eq : nth q (firstn (length f / 2) f) 0%R = nth q f 0%R).
        { transitivity (nth q (firstn (length f / 2) f ++ skipn (length f / 2) f) 0%R); [|now rewrite firstn_skipn].
          rewrite app_nth1; [reflexivity|]. rewrite firstn_length. lia. }
        pose proof (Nat.mul_div_le (length f) 2 ltac:(lia)) as Hd2.
        rewrite Eq, Nf by lia. destruct (Nat.ltb_spec (2 * q) (length g)); [|lia]. now rewrite <- INR_IZR_INZ. }
      pose proof (M _ (or_introl eq_refl)) as M1. rewrite Hf in M1 by lia.
      rewrite Hf by lia. set (Lw := (INR (length g) * (nth 1 g 0 - nth 0 g 0))%R) in *.
      assert (HL : (0 < Lw)%R) by (apply Rmult_lt_0_compat; [apply lt_0_INR; lia|lra]).
      assert (Hj2 : (INR j <= INR (length g) / 2)%R).
      { pose proof (Nat.mul_div_le (length f) 2 ltac:(lia)) as Hd2. assert (Hjj : 2 * j <= length g) by lia.
        apply le_INR in Hjj. rewrite mult_INR in Hjj. cbn in Hjj. lra. }
      assert (V : (0 <= INR j / Lw <= dk / 2 * INR (length g))%R).
      { split; [apply Rmult_le_pos; [apply pos_INR|left; now apply Rinv_0_lt_compat]|].
        replace (INR j / Lw)%R with (INR j * (1 / Lw))%R by (field; lra).
        cbn [INR] in M1. assert (0 < 1 / Lw)%R by (apply Rdiv_lt_0_compat; lra).
        apply Rle_trans with (INR (length g) / 2 * dk)%R; [|lra]. apply Rmult_le_compat; try lra. apply pos_INR. }
      assert (V2 : (INR j / Lw * (INR j / Lw) <= dk / 2 * (dk / 2) * (INR (length g) * INR (length g)))%R).
      { replace (dk / 2 * (dk / 2) * (INR (length g) * INR (length g)))%R with ((dk / 2 * INR (length g)) * (dk / 2 * INR (length g)))%R by ring.
        apply Rmult_le_compat; lra. }
      lra. }
  assert (K : (wave_number (halves fs) x <= dk / 2 * sqrt (INR Q))%R).
  { unfold wave_number. eapply Rle_trans; [apply sqrt_le_1_alt; exact Bd|].
    rewrite sqrt_mult by (try apply Rmult_le_pos; try apply pos_INR; lra). rewrite sqrt_square by lra. lra. }
  assert (Sq : (sqrt (INR Q) < INR n + 1)%R).
  { rewrite <- S_INR. rewrite <- (sqrt_square (INR (Datatypes.S n))) by apply pos_INR. apply sqrt_lt_1_alt. split; [apply pos_INR|].
    rewrite <- mult_INR. apply lt_INR. unfold n. apply Nat.sqrt_spec. lia. }
  assert (Hi' : (INR n <= 2 * INR i)%R).
  { apply le_INR in Hi. rewrite mult_INR in Hi. cbn in Hi. lra. }
  assert (Lo : ((INR i + / 2) * dk <= wave_number (halves fs) x)%R) by (destruct B as [B|(_ & B)]; lra).
  assert (dk / 2 * sqrt (INR Q) < dk / 2 * (INR n + 1))%R by (apply Rmult_lt_compat_l; lra).
  assert (INR n * dk <= 2 * INR i * dk)%R by (apply Rmult_le_compat_r; lra).
  lra.
Qed.
