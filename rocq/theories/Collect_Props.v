(** * Properties C29 and C30: the [collect] command. *)
From Coq Require Import String Ascii List Arith ZArith QArith Qround Bool Lia Permutation Sorted.
From Verif Require Import Prelude PreludeFacts NdArray GData_Model DataSpace_Model DataSpace_Spec
  DataSpace_Proofs DataSpace_Proofs2 DataSpace_Proofs3 DataSpace_Props Sort Collect_Model.
Import ListNotations.
Open Scope list_scope.

(** ** Specification *)

(** The active datasets of a tag with their positions. *)
Definition frames (l : list (dset cdata)) : list (nat * cdata) :=
  List.map (fun p => (fst p, ds_data (snd p)))
    (List.filter (fun p => ds_status (snd p)) (combine (seq 0 (length l)) l)).

(** The time stamp of the dataset at position [i]: its time; if that is zero
    its frame number; if that is zero too its position. *)
Inductive has_stamp (f : nat * cdata) : Q -> Prop :=
| stamp_time t : c_time (snd f) = Some t -> ~ (t == 0)%Q -> has_stamp f t
| stamp_frame t n : c_time (snd f) = Some t -> (t == 0)%Q -> c_frame (snd f) = Some n -> ~ (n == 0)%Q -> has_stamp f n
| stamp_pos t n : c_time (snd f) = Some t -> (t == 0)%Q -> c_frame (snd f) = Some n -> (n == 0)%Q ->
    has_stamp f (inject_Z (Z.of_nat (fst f))).

(** Time within the period [p] (or not, without a period). *)
Definition in_epoch (period : option Q) (offset t0 t : Q) : Prop :=
  match period with
  | None => t = t0
  | Some p => ((p == 0)%Q /\ t = t0) \/
              (exists k : Z, (t == t0 - offset - inject_Z k * p)%Q /\ ((0 <= t < p)%Q \/ (p < t <= 0)%Q))
  end.

(** [np.argsort]: the positions in an order that sorts the values. *)
Definition is_argsort (argsort : list Q -> list nat) : Prop :=
  forall l, Permutation (argsort l) (seq 0 (length l)) /\
            StronglySorted Qle (List.map (fun k => nth k l 0%Q) (argsort l)).

(** The dataset [o] collects exactly the frames [fs]: there is an order [p] of
    them in which the times [ts] do not decrease; the times are the first axis
    and the [j]-th slab holds the values of the [j]-th frame in that order. *)
Definition collects (period : option Q) (offset : Q) (sumdata : bool) (fs : list (nat * cdata)) (o : cdata) : Prop :=
  exists p ts sh,
    Permutation p fs /\
    Forall2 (fun f t => exists t0, has_stamp f t0 /\ in_epoch period offset t0 t) p ts /\
    StronglySorted Qle ts /\
    (exists rest, c_grid o = mk_nda [length ts] ts :: rest /\
       if sumdata then rest = [] else exists f fs', fs = f :: fs' /\ rest = c_grid (snd f)) /\
    c_time o = None /\ c_frame o = None /\
    wf (c_vals o) /\ shape (c_vals o) = length fs :: (if sumdata then [last sh 0%nat] else sh) /\
    forall j f, nth_error p j = Some f -> shape (c_vals (snd f)) = sh /\
      if sumdata then
        forall c, (c < last sh 0)%nat ->
          get (c_vals o) [j; c] =
          Some (fold_right Qplus 0%Q
            (List.map (fun cell => match get (c_vals (snd f)) (cell ++ [c]) with Some v => v | None => 0%Q end)
               (indices (removelast sh))))
      else forall idx, in_range sh idx -> get (c_vals o) (j :: idx) = get (c_vals (snd f)) idx.

(** ** Proofs *)

Lemma time_stamp_spec f t : time_stamp (fst f) (snd f) = Ok t <-> has_stamp f t.
Proof.
  unfold time_stamp. split.
  - destruct (c_time (snd f)) as [t0|] eqn:Et; [|discriminate]. destruct (Qeq_bool t0 0) eqn:E0; cbn [negb].
    + destruct (c_frame (snd f)) as [n|] eqn:Ef; [|discriminate]. destruct (Qeq_bool n 0) eqn:E1; cbn [negb]; intros [= <-].
      * apply (stamp_pos f t0 n); auto; now apply Qeq_bool_iff.
      * apply (stamp_frame f t0 n); auto; [now apply Qeq_bool_iff|now apply Qeq_bool_neq].
    + intros [= <-]. apply stamp_time; auto. now apply Qeq_bool_neq.
  - assert (K : forall q, (q == 0)%Q -> Qeq_bool q 0 = true) by (intros; now apply Qeq_bool_iff).
    assert (N : forall q, ~ (q == 0)%Q -> Qeq_bool q 0 = false).
    { intros q H. destruct (Qeq_bool q 0) eqn:E; [|reflexivity]. apply Qeq_bool_iff in E. contradiction. }
    intros [t' H1 H2|t' n H1 H2 H3 H4|t' n H1 H2 H3 H4]; rewrite H1; rewrite ?(K t'), ?(N t') by auto; cbn [negb]; [reflexivity| |];
      rewrite H3; rewrite ?(K n), ?(N n) by auto; reflexivity.
Qed.

Lemma stamp_fun f t t' : has_stamp f t -> has_stamp f t' -> t = t'.
Proof. intros H H'. apply time_stamp_spec in H, H'. congruence. Qed.

Lemma py_mod_spec x p : ~ (p == 0)%Q ->
  exists k : Z, (py_mod x p == x - inject_Z k * p)%Q /\ ((0 <= py_mod x p < p)%Q \/ (p < py_mod x p <= 0)%Q).
Proof.
  intros Hp. exists (Qfloor (x / p)). split; [reflexivity|].
  set (k := Qfloor (x / p)). assert (H1 : (inject_Z k <= x / p)%Q) by apply Qfloor_le.
  assert (H2 : (x / p < inject_Z k + 1)%Q).
  { pose proof (Qlt_floor (x / p)) as H. fold k in H. rewrite inject_Z_plus in H. exact H. }
  unfold py_mod. fold k.
  assert (Ex : (x == (x / p) * p)%Q) by (field; exact Hp).
  destruct (Qlt_le_dec 0 p) as [P|P].
  - left. split.
    + apply Qle_minus_iff in H1. rewrite Ex at 1. setoid_replace ((x / p) * p - inject_Z k * p)%Q with ((x / p + - inject_Z k) * p)%Q by ring.
      apply Qmult_le_0_compat; [exact H1|now apply Qlt_le_weak].
    + apply Qlt_minus_iff. setoid_replace (p + - (x - inject_Z k * p))%Q with ((inject_Z k + 1 + - (x / p)) * p)%Q by (rewrite Ex at 1; ring).
      apply Qlt_minus_iff in H2. rewrite <- (Qmult_0_l p). apply Qmult_lt_r; [exact P|]. exact H2.
  - right. assert (P' : (0 < - p)%Q).
    { destruct (Qle_lt_or_eq _ _ P) as [L|L]; [|contradiction]. apply Qlt_minus_iff in L. rewrite Qplus_0_l in L. exact L. }
    split.
    + apply Qlt_minus_iff. setoid_replace (x - inject_Z k * p + - p)%Q with ((inject_Z k + 1 + - (x / p)) * - p)%Q by (rewrite Ex at 1; ring).
      apply Qlt_minus_iff in H2. rewrite <- (Qmult_0_l (- p)). apply Qmult_lt_r; [exact P'|]. exact H2.
    + apply Qle_minus_iff. setoid_replace (0 + - (x - inject_Z k * p))%Q with ((x / p + - inject_Z k) * - p)%Q by (rewrite Ex at 1; ring).
      apply Qle_minus_iff in H1. apply Qmult_le_0_compat; [exact H1|now apply Qlt_le_weak].
Qed.

Lemma epoch_spec period offset t : in_epoch period offset t (epoch period offset t).
Proof.
  unfold in_epoch, epoch. destruct period as [p|]; [|reflexivity]. destruct (Qeq_bool p 0) eqn:E.
  - left. split; [now apply Qeq_bool_iff|reflexivity].
  - right. apply Qeq_bool_neq in E. apply (py_mod_spec (t - offset) p E).
Qed.

Lemma pick_map {A B} (f : A -> B) l idx : pick (List.map f l) idx = List.map f (pick l idx).
Proof.
  unfold pick. induction idx as [|k idx IH]; [reflexivity|]. cbn [flat_map]. rewrite map_app, <- IH, nth_error_map.
  destruct (nth_error l k); reflexivity.
Qed.

Lemma pick_nth {A} (l : list A) idx d : Forall (fun k => (k < length l)%nat) idx ->
  pick l idx = List.map (fun k => nth k l d) idx.
Proof.
  intros H. induction H as [|k idx Hk _ IH]; [reflexivity|]. unfold pick in *. cbn [flat_map List.map]. rewrite <- IH.
  rewrite (nth_error_nth' l d Hk). reflexivity.
Qed.

Lemma pick_seq {A} (l : list A) : pick l (seq 0 (length l)) = l.
Proof.
  destruct l as [|a0 l0] eqn:E; [reflexivity|]. rewrite <- E. rewrite (pick_nth l _ a0).
  - apply nth_error_ext. intros k. rewrite nth_error_map, nth_error_seq. destruct (Nat.ltb_spec k (length l)) as [L|L]; cbn [option_map].
    + symmetry. now apply nth_error_nth'.
    + symmetry. now apply nth_error_None.
  - apply Forall_forall. intros k Hk. apply in_seq in Hk. lia.
Qed.

Lemma pick_perm {A} (l : list A) idx : Permutation idx (seq 0 (length l)) -> Permutation (pick l idx) l.
Proof.
  intros H. rewrite <- (pick_seq l) at 2. unfold pick. now apply Permutation_flat_map.
Qed.

Lemma argsort_lt argsort (l : list Q) : is_argsort argsort -> Forall (fun k => (k < length l)%nat) (argsort l).
Proof.
  intros H. destruct (H l) as [P _]. apply Forall_forall. intros k Hk. apply (Permutation_in _ P) in Hk. apply in_seq in Hk. lia.
Qed.

Lemma stack_ok (l : list (nda Q)) sh : l <> [] -> Forall (fun a => shape a = sh) l ->
  stack_arrays l = Ok (mk_nda (length l :: sh) (flat_map flat l)).
Proof.
  intros Hne H. destruct l as [|a l]; [congruence|]. inversion H as [|? ? Ha Hl]; subst.
  unfold stack_arrays. replace (forallb _ (a :: l)) with true; [reflexivity|]. symmetry. apply forallb_forall.
  intros b Hb. rewrite Forall_forall in H. rewrite (H b Hb). destruct (list_eq_dec Nat.eq_dec (shape a) (shape a)); congruence.
Qed.

Lemma rows_flat (l : list (nda Q)) m k a : Forall (fun a => length (flat a) = m) l -> nth_error l k = Some a ->
  firstn m (skipn (k * m) (flat_map flat l)) = flat a.
Proof.
  revert k. induction l as [|b l IH]; intros k H Hk; [destruct k; discriminate|]. inversion H as [|? ? Hb Hl]; subst.
  destruct k as [|k]; cbn [nth_error] in Hk.
  - injection Hk as ->. cbn [Nat.mul skipn flat_map]. apply firstn_app_exact. reflexivity.
  - cbn [flat_map]. replace (S k * length (flat b))%nat with (length (flat b) + k * length (flat b))%nat by lia.
    rewrite <- (IH k Hl Hk). f_equal. clear. generalize (flat_map flat l), (k * length (flat b))%nat. intros m q. induction (flat b) as [|x r IH]; [reflexivity|].
    cbn [length Nat.add app skipn]. exact IH.
Qed.

Lemma take_rows_rows (l : list (nda Q)) sh idx :
  Forall (fun a => shape a = sh /\ wf a) l -> Forall (fun k => (k < length l)%nat) idx ->
  take_rows (mk_nda (length l :: sh) (flat_map flat l)) idx = mk_nda (length idx :: sh) (flat_map flat (pick l idx)).
Proof.
  intros Hl Hi. unfold take_rows. cbn [shape flat tl]. f_equal. induction Hi as [|k idx Hk Hi IH]; [reflexivity|].
  unfold pick in *. cbn [flat_map]. rewrite IH, flat_map_app. f_equal. destruct (nth_error l k) as [a|] eqn:Ea.
  - cbn [flat_map]. rewrite app_nil_r. apply rows_flat; [|exact Ea]. eapply Forall_impl; [|exact Hl]. cbn beta. intros b [Sb Wb].
    unfold wf in Wb. now rewrite Sb in Wb.
  - apply nth_error_None in Ea. lia.
Qed.

Lemma get_rows (l : list (nda Q)) sh j a idx :
  Forall (fun a => shape a = sh /\ wf a) l -> nth_error l j = Some a -> in_range sh idx ->
  get (mk_nda (length l :: sh) (flat_map flat l)) (j :: idx) = get a idx.
Proof.
  intros Hl Hj Hi. assert (Hlt : (j < length l)%nat) by (apply nth_error_Some; congruence).
  destruct (in_range_ravel sh idx Hi) as (k & Ek & Lk). assert (Ha : shape a = sh /\ wf a).
  { rewrite Forall_forall in Hl. apply Hl. eapply nth_error_In; eauto. }
  destruct Ha as [Sa Wa]. unfold get. cbn [shape flat ravel]. destruct (Nat.ltb_spec j (length l)); [|lia]. rewrite Sa, Ek. cbn [option_map].
  apply (nth_error_flat_map flat l (prod sh) j k a); auto. intros b Hb. rewrite Forall_forall in Hl. destruct (Hl b Hb) as [Sb Wb]. unfold wf in Wb. now rewrite Sb in Wb.
Qed.

Section Proofs.
  Context (argsort : list Q -> list nat) (Hsort : is_argsort argsort) (sumdata : bool) (period : option Q) (offset : Q).
  Local Notation frame := (nat * cdata)%type.

  Definition fval (f : frame) : nda Q := if sumdata then sum_cells (c_vals (snd f)) else c_vals (snd f).

  (** The frames have stamps, a grid, and arrays of the same shape. *)
  Definition good_frames (sh : list nat) (fs : list frame) : Prop :=
    Forall (fun f => (exists t, has_stamp f t) /\ c_grid (snd f) <> [] /\ shape (c_vals (snd f)) = sh /\ wf (c_vals (snd f))) fs.

  Definition stamp (f : frame) : Q := match time_stamp (fst f) (snd f) with Ok t => t | Err _ => 0%Q end.
  Definition chunk_of (fs : list frame) : chunk :=
    mk_chunk (List.map stamp fs) (List.map fval fs) (match fs with f :: _ => c_grid (snd f) | [] => [] end).

  Lemma wf_fval sh f : shape (c_vals (snd f)) = sh -> wf (c_vals (snd f)) ->
    shape (fval f) = (if sumdata then [last sh 0%nat] else sh) /\ wf (fval f).
  Proof.
    intros <- W. unfold fval. destruct sumdata; [|auto]. split; [reflexivity|]. apply wf_tabulate.
  Qed.

  Lemma collect_chunk_ok sh fs : good_frames sh fs -> fs <> [] ->
    exists o, collect_chunk argsort sumdata period offset (chunk_of fs) = Ok o /\ collects period offset sumdata fs o.
  Proof.
    intros Hg Hne. unfold collect_chunk, chunk_of. cbn [k_vals k_time k_grid].
    set (vsh := if sumdata then [last sh 0%nat] else sh).
    assert (Hv : Forall (fun a => shape a = vsh /\ wf a) (List.map fval fs)).
    { apply Forall_forall. intros a Ha. apply in_map_iff in Ha as (f & <- & Hf). unfold good_frames in Hg. rewrite Forall_forall in Hg.
      destruct (Hg f Hf) as (_ & _ & S & W). now apply wf_fval. }
    rewrite (stack_ok _ vsh).
    2:{ destruct fs; [congruence|discriminate]. }
    2:{ eapply Forall_impl; [|exact Hv]. cbn beta. tauto. }
    cbn [bind]. rewrite map_map. set (key := fun f => epoch period offset (stamp f)).
    set (idx := argsort (List.map key fs)).
    assert (Hlt : Forall (fun k => (k < length fs)%nat) idx).
    { pose proof (argsort_lt argsort (List.map key fs) Hsort) as H. now rewrite map_length in H. }
    destruct (Hsort (List.map key fs)) as [Hperm Hsrt]. fold idx in Hperm, Hsrt. rewrite map_length in Hperm.
    eexists. split; [reflexivity|].
    assert (Pk : Permutation (pick fs idx) fs) by now apply pick_perm.
    rewrite (pick_map key fs idx).
    assert (Lp : length (pick fs idx) = length fs) by now apply Permutation_length.
    assert (Ll : length idx = length fs) by (rewrite (Permutation_length Hperm); apply seq_length).
    exists (pick fs idx), (List.map key (pick fs idx)), sh. split; [exact Pk|]. split; [|split; [|split; [|split; [|split; [|split; [|split]]]]]].
    - assert (Hall : Forall (fun f => exists t, has_stamp f t) (pick fs idx)).
      { apply Forall_forall. intros f Hf. apply (Permutation_in _ Pk) in Hf. unfold good_frames in Hg. rewrite Forall_forall in Hg. apply Hg, Hf. }
      clear - Hall. induction Hall as [|f l [t Ht] _ IH]; constructor; [|exact IH]. exists (stamp f). split.
      + unfold stamp. apply time_stamp_spec in Ht. rewrite Ht. now apply time_stamp_spec.
      + apply epoch_spec.
    - rewrite <- (pick_map key), (pick_nth (List.map key fs) idx 0%Q); [exact Hsrt|]. now rewrite map_length.
    - cbn [c_grid]. destruct sumdata; eexists; (split; [reflexivity|]); [reflexivity|]. destruct fs as [|f fs']; [congruence|]. eauto.
    - reflexivity.
    - reflexivity.
    - cbn [c_vals].
      rewrite take_rows_rows; [|exact Hv|now rewrite map_length]. rewrite pick_map.
      assert (Hv' : Forall (fun a => shape a = vsh /\ wf a) (List.map fval (pick fs idx))).
      { apply Forall_forall. intros a Ha. apply in_map_iff in Ha as (f & <- & Hf). apply (Permutation_in _ Pk) in Hf.
        rewrite Forall_forall in Hv. apply Hv. now apply in_map. }
      unfold wf. cbn [shape flat]. rewrite (flat_map_length flat _ (prod vsh)).
      + rewrite map_length, Lp, Ll. reflexivity.
      + intros a Ha. rewrite Forall_forall in Hv'. destruct (Hv' a Ha) as [S W]. unfold wf in W. now rewrite S in W.
    - cbn [c_vals]. unfold take_rows. cbn [shape tl]. now rewrite Ll.
    - intros j f Hj. assert (Hf : In f fs) by (eapply Permutation_in; [exact Pk|eapply nth_error_In; eauto]).
      unfold good_frames in Hg. rewrite Forall_forall in Hg. destruct (Hg f Hf) as (_ & _ & S & W). split; [exact S|].
      assert (Hr : forall ix, in_range vsh ix ->
                get (take_rows (mk_nda (length (List.map fval fs) :: vsh) (flat_map flat (List.map fval fs))) idx) (j :: ix) = get (fval f) ix).
      { intros ix Hix. rewrite take_rows_rows; [|exact Hv|now rewrite map_length]. rewrite pick_map, Ll, <- Lp, <- (map_length fval).
        apply get_rows; [|now apply map_nth_error|exact Hix].
        apply Forall_forall. intros a Ha. apply in_map_iff in Ha as (f' & <- & Hf'). apply (Permutation_in _ Pk) in Hf'.
        rewrite Forall_forall in Hv. apply Hv. now apply in_map. }
      assert (Ef : fval f = if sumdata then sum_cells (c_vals (snd f)) else c_vals (snd f)) by reflexivity.
      rewrite Ef in Hr. cbn [c_vals]. subst vsh. clearbody idx. clear Ef. revert Hr. destruct sumdata; intros Hr.
      + intros c Hc. rewrite (Hr [c]) by (constructor; [exact Hc|constructor]). unfold sum_cells. rewrite get_tabulate.
        * now rewrite S.
        * rewrite S. constructor; [exact Hc|constructor].
      + intros ix Hix. now apply Hr.
  Qed.

  (** ** The loop over the datasets of a tag *)
  Context (chunk_len : option Z).
  Local Notation one := (fun f : frame => collect_one sumdata chunk_len (fst f) (snd f)).
  Definition init : cstate := mk_cstate 0 [] empty_chunk.

  Lemma frames_flat (pre l : list (dset cdata)) :
    List.map (fun p => (fst p, ds_data (snd p)))
      (List.filter (fun p => ds_status (snd p)) (combine (seq (length pre) (length l)) l)) =
    flat_map (fun i => match nth_error (pre ++ l) i with
                       | Some d => if ds_status d then [(i, ds_data d)] else []
                       | None => [] end) (seq (length pre) (length l)).
  Proof.
    revert pre. induction l as [|d l IH]; intros pre; [reflexivity|]. cbn [length seq combine List.filter flat_map snd].
    rewrite nth_error_app2, Nat.sub_diag by lia. cbn [nth_error].
    specialize (IH (pre ++ [d])). rewrite app_length in IH. cbn [length] in IH. rewrite Nat.add_1_r in IH. rewrite <- app_assoc in IH. cbn [app] in IH.
    destruct (ds_status d); cbn [List.map fst snd app]; now rewrite IH.
  Qed.

  Lemma loop_frames (ds : dspace cdata) T l cs st :
    aget T ds = Some l -> List.map snd cs = selected [T] (all_of ds) -> Forall (fun v => fst v = snd (snd v)) cs ->
    foldM (vis (fun _ : cstate => ds) (collect_body sumdata chunk_len ds) true) cs st = foldM one (frames l) st.
  Proof.
    intros Hl Hs Hf. unfold frames. pose proof (frames_flat [] l) as FF. cbn [length app] in FF. rewrite FF. clear FF.
    unfold selected, all_of in Hs. cbn [flat_map] in Hs. rewrite Hl, app_nil_r in Hs.
    revert cs st Hs Hf. generalize (seq 0 (length l)) as ps. induction ps as [|i ps IH]; intros cs st Hs Hf.
    - apply map_eq_nil in Hs as ->. reflexivity.
    - destruct cs as [|[k r] cs]; [discriminate|]. cbn [List.map snd] in Hs. injection Hs as Hr Hs. inversion Hf as [|? ? H0 Hf']; subst.
      cbn [fst snd] in H0. subst k. cbn [foldM flat_map]. unfold vis at 1. unfold visit. cbn [fst snd].
      unfold lookup at 1. cbn [fst snd]. rewrite Hl. destruct (nth_error l i) as [d|] eqn:Ed.
      + destruct (ds_status d) eqn:Es; cbn [negb orb andb].
        * unfold collect_body at 1, lookup. cbn [fst snd]. rewrite Hl, Ed. rewrite foldM_app. cbn [foldM fst snd].
          destruct (collect_one sumdata chunk_len i (ds_data d) st); [cbn [bind]; now apply IH|reflexivity].
        * cbn [bind app]. now apply IH.
      + cbn. now apply IH.
  Qed.

  Definition positive : option nat :=
    match chunk_len with Some c => if (0 <? c)%Z then Some (Z.to_nat c) else None | None => None end.

  Lemma collect_fold sh fs : match chunk_len with Some c => (0 <= c)%Z | None => True end -> good_frames sh fs ->
    exists css cur, foldM one fs init = Ok (mk_cstate (Z.of_nat (length cur)) (List.map chunk_of css) (chunk_of cur)) /\
      concat css ++ cur = fs /\ (fs <> [] -> cur <> []) /\ Forall (fun k => k <> []) css /\
      match positive with Some c => Forall (fun k => length k = c) css /\ (length cur <= c)%nat | None => css = [] end.
  Proof.
    intros Hc. induction fs as [|f fs IH] using rev_ind; intros Hg.
    - exists [], []. split; [reflexivity|]. split; [reflexivity|]. split; [auto|]. split; [constructor|]. destruct positive; [|reflexivity].
      split; [constructor|]. cbn. lia.
    - apply Forall_app in Hg as [Hg Hf]. inversion Hf as [|? ? Hff _]; subst. destruct Hff as ([t Ht] & Gr & _).
      destruct (IH Hg) as (css & cur & E & Ec & Hne & Hcs & Hp). rewrite foldM_app, E. cbn [bind foldM].
      assert (Est : stamp f = t) by (unfold stamp; apply time_stamp_spec in Ht; now rewrite Ht).
      apply time_stamp_spec in Ht.
      assert (Full : forall b, b = match chunk_len with Some c => negb (c =? 0)%Z && (c <? Z.of_nat (length cur) + 1)%Z | None => false end ->
               if b then exists c, positive = Some c /\ length cur = c else match positive with Some c => (length cur < c)%nat | None => True end).
      { intros b ->. unfold positive in *. destruct chunk_len as [c|]; [|exact I]. destruct (Z.ltb_spec 0 c) as [Lc|Lc].
        - destruct (Z.eqb_spec c 0); [lia|]. cbn [negb andb]. destruct Hp as [_ Hp]. destruct (Z.ltb_spec c (Z.of_nat (length cur) + 1)).
          + exists (Z.to_nat c). split; [reflexivity|]. lia.
          + lia.
        - assert (c = 0%Z) as -> by lia. cbn. exact I. }
      unfold collect_one. cbn [s_cnt s_done s_cur].
      destruct (match chunk_len with Some c => negb (c =? 0)%Z && (c <? Z.of_nat (length cur) + 1)%Z | None => false end) eqn:Eb;
        specialize (Full _ eq_refl); cbn beta iota in Full; rewrite Ht; cbn [bind].
      + destruct Full as (c & Pc & Lc). rewrite Pc in *. destruct Hp as [Hp _]. exists (css ++ [cur]), [f]. split; [|split; [|split; [|split; [|split]]]].
        * assert (chunk_of [f] = mk_chunk [t] [fval f] (c_grid (snd f))) as -> by (unfold chunk_of; cbn [List.map]; now rewrite Est).
          cbn [k_time k_vals k_grid empty_chunk app length]. rewrite map_app. reflexivity.
        * rewrite concat_app. cbn [concat]. rewrite app_nil_r. now rewrite Ec.
        * discriminate.
        * apply Forall_app. split; [exact Hcs|]. constructor; [|constructor]. intros ->. cbn in Lc. subst c.
          unfold positive in Pc. destruct chunk_len as [z|]; [|discriminate]. destruct (Z.ltb_spec 0 z); [|discriminate]. injection Pc as Pc. lia.
        * apply Forall_app. split; [exact Hp|]. constructor; [exact Lc|constructor].
        * cbn [length]. assert (c <> 0%nat); [|lia]. intros ->.
          unfold positive in Pc. destruct chunk_len as [z|]; [|discriminate]. destruct (Z.ltb_spec 0 z); [|discriminate]. injection Pc as Pc. lia.
      + exists css, (cur ++ [f]). split; [|split; [|split; [|split]]].
        * assert (Hcg : cur <> [] -> match cur with g :: _ => c_grid (snd g) | [] => [] end <> []).
          { intros Hn. destruct cur as [|g cur]; [congruence|]. assert (Hin : In g (concat css ++ g :: cur)) by (apply in_or_app; right; now left).
            rewrite Ec in Hin. unfold good_frames in Hg. rewrite Forall_forall in Hg. apply (Hg g Hin). }
          assert (Ecf : chunk_of (cur ++ [f]) = mk_chunk (List.map stamp cur ++ [t]) (List.map fval cur ++ [fval f])
                   (match cur with g :: _ => c_grid (snd g) | [] => c_grid (snd f) end)).
          { unfold chunk_of. rewrite !map_app. cbn [List.map]. rewrite Est. destruct cur; reflexivity. }
          rewrite Ecf. unfold chunk_of at 2 3 4. cbn [k_time k_vals k_grid]. rewrite app_length. cbn [length].
          replace (Z.of_nat (length cur) + 1)%Z with (Z.of_nat (length cur + 1)) by lia.
          destruct cur as [|g cur]; cbn [app]; [reflexivity|]. specialize (Hcg ltac:(discriminate)). destruct (c_grid (snd g)); [congruence|reflexivity].
        * now rewrite app_assoc, Ec.
        * intros _ H. apply app_eq_nil in H as [_ H]. discriminate.
        * exact Hcs.
        * destruct positive; [|exact Hp]. rewrite app_length. cbn [length]. split; [apply Hp|lia].
  Qed.
End Proofs.

(** ** The command *)

Definition below (ds : dspace cdata) (t : string) : list (dset cdata) := match aget t ds with Some l => l | None => [] end.

(** [n] frames in groups [css] of [c] (all in one group without a length). *)
Definition split_into (chunk_len : option Z) (fs : list (nat * cdata)) (css : list (list (nat * cdata))) : Prop :=
  concat css = fs /\
  match chunk_len with
  | None => length css = 1%nat
  | Some c => (c = 0%Z /\ length css = 1%nat) \/
              (0 < c)%Z /\ Forall (fun k => Z.of_nat (length k) = c) (removelast css) /\
              (1 <= Z.of_nat (length (last css [])) <= c)%Z /\
              Z.of_nat (length css) = ((Z.of_nat (length fs) + c - 1) / c)%Z
  end.

Lemma deactivate_tag (ds : dspace cdata) T l : T <> ""%string -> has_char "," T = false -> aget T ds = Some l ->
  exists ds', deactivate_all ds (Some T) = Ok ds' /\
    forall t, aget t ds' = if String.eqb t T then Some (List.map (set_status false) l) else aget t ds.
Proof.
  intros Hne Hc Hl.
  destruct (set_all_selected false ds (Some T) None [T] (all_of ds)) as (ds' & E & K & L & H).
  - apply (names_list ds [T]); [discriminate|exact Hne|repeat constructor; exact Hc].
  - apply picks_none_wf.
  - apply picks_all_under. constructor; [|constructor]. eapply key_aget; eauto.
  - exists ds'. split; [exact E|]. intros t. specialize (L t). unfold lens in L.
    assert (Hin : forall k, in_refs (T, k) (selected [T] (all_of ds)) = (k <? length l)%nat).
    { intros k. destruct (in_refs (T, k) (selected [T] (all_of ds))) eqn:Er; symmetry.
      - apply in_refs_spec in Er. apply in_all_of in Er as [_ Hk]. unfold lookup in Hk. cbn [fst snd] in Hk. rewrite Hl in Hk.
        apply Nat.ltb_lt. apply nth_error_Some. exact Hk.
      - apply Nat.ltb_ge. destruct (Nat.le_gt_cases (length l) k) as [|Hk]; [assumption|exfalso].
        assert (Hi : In (T, k) (selected [T] (all_of ds))).
        { apply in_all_of. split; [now left|]. unfold lookup. cbn [fst snd]. rewrite Hl. now apply nth_error_Some. }
        apply in_refs_spec in Hi. congruence. }
    assert (Hout : forall t k, t <> T -> in_refs (t, k) (selected [T] (all_of ds)) = false).
    { intros u k Hu. destruct (in_refs (u, k) (selected [T] (all_of ds))) eqn:Er; [|reflexivity].
      apply in_refs_spec in Er. apply in_all_of in Er as [[Ht|[]] _]. cbn in Ht. congruence. }
    assert (Hn : forall k, lookup ds' (t, k) = option_map (fun d => if in_refs (t, k) (selected [T] (all_of ds)) then set_status false d else d) (lookup ds (t, k)))
      by (intros; apply H).
    unfold lookup in Hn. cbn [fst snd] in Hn. destruct (String.eqb_spec t T) as [->|Ht].
    + rewrite Hl in *. destruct (aget T ds') as [l'|]; [|discriminate]. f_equal. apply nth_error_ext. intros k. rewrite Hn, nth_error_map.
      destruct (nth_error l k) as [d|] eqn:Ed; [|reflexivity]. cbn [option_map]. rewrite Hin.
      destruct (Nat.ltb_spec k (length l)) as [|Hk]; [reflexivity|]. apply nth_error_None in Hk. congruence.
    + destruct (aget t ds) as [m|], (aget t ds') as [m'|]; try discriminate; [|reflexivity]. f_equal. apply nth_error_ext. intros k.
      rewrite Hn. destruct (nth_error m k); [|reflexivity]. cbn [option_map]. now rewrite Hout.
Qed.

Lemma add_chunks_spec tag label outs ds :
  exists news, Forall2 (fun o n => ds_data n = o /\ ds_status n = true /\ ds_label n = label) outs news /\
    below (add_chunks tag label outs ds) tag = below ds tag ++ news /\
    forall t, t <> tag -> aget t (add_chunks tag label outs ds) = aget t ds.
Proof.
  unfold add_chunks. revert ds. induction outs as [|o outs IH]; intros ds; cbn [fold_left].
  - exists []. split; [constructor|]. rewrite app_nil_r. auto.
  - destruct (IH (add ds tag (mk_dset (next_id ds) "" true label o))) as (news & Hn & Hu & Ho).
    exists (mk_dset (next_id ds) "" true label o :: news). split; [constructor; [|exact Hn]; split; [|split]; reflexivity|]. split.
    + rewrite Hu. unfold below. rewrite aget_add, String.eqb_refl. rewrite <- app_assoc. reflexivity.
    + intros t Ht. rewrite Ho by auto. rewrite aget_add. destruct (String.eqb_spec t tag); [contradiction|reflexivity].
Qed.

(** Number of groups. *)
Lemma group_count {A} (css : list (list A)) cur c : (0 < c)%nat ->
  Forall (fun k => length k = c) css -> (1 <= length cur <= c)%nat ->
  Z.of_nat (length (css ++ [cur])) = ((Z.of_nat (length (concat css ++ cur)) + Z.of_nat c - 1) / Z.of_nat c)%Z.
Proof.
  intros Hc H Hcur. rewrite !app_length. cbn [length].
  assert (E : length (concat css) = (length css * c)%nat).
  { induction H as [|k css Hk _ IH]; [reflexivity|]. cbn [concat length]. rewrite app_length, IH. lia. }
  rewrite E. apply (Z.div_unique _ _ _ (Z.of_nat (length cur) - 1)%Z); lia.
Qed.

Lemma frames_nonempty (l : list (dset cdata)) : existsb ds_status l = true -> frames l <> [].
Proof.
  unfold frames. generalize 0%nat. induction l as [|d l IH]; intros k H; [discriminate|]. cbn [length seq combine List.filter snd existsb] in *.
  destruct (ds_status d); [discriminate|]. now apply IH.
Qed.

Section Command.
  Context (argsort : list Q -> list nat) (Hsort : is_argsort argsort) (sumdata : bool) (chunk_len : option Z)
          (Hchunk : match chunk_len with Some c => (0 <= c)%Z | None => True end)
          (period : option Q) (offset : Q) (label : string).
  Implicit Type ds : dspace cdata.

  (** What collecting the tag [T] into the tag [out] does: the active datasets
      in groups, each group collected into a new active dataset; the inputs
      deactivated; nothing else changed. *)
  Definition collected ds T out ds' : Prop :=
    exists css news,
      split_into chunk_len (frames (below ds T)) css /\
      Forall2 (fun fs n => collects period offset sumdata fs (ds_data n) /\ ds_status n = true /\ ds_label n = label) css news /\
      below ds' T = List.map (set_status false) (below ds T) ++ (if String.eqb T out then news else []) /\
      (T <> out -> below ds' out = below ds out ++ news) /\
      forall t, t <> T -> t <> out -> aget t ds' = aget t ds.

  Lemma collect_tag_ok outs k ds T out sh :
    match outs with None => out = T | Some [o] => out = o | Some os => nth_error os k = Some out end ->
    T <> ""%string -> has_char "," T = false -> aget T ds <> None ->
    frames (below ds T) <> [] -> good_frames sh (frames (below ds T)) ->
    exists ds', collect_tag argsort sumdata chunk_len period offset outs label k T ds = Ok ds' /\ collected ds T out ds'.
  Proof.
    intros Hout Hne Hc Hl Hf Hg. destruct (aget T ds) as [l|] eqn:El; [|congruence]. clear Hl.
    assert (El' : below ds T = l) by (unfold below; now rewrite El). rewrite El' in *.
    unfold collect_tag.
    destruct (iterate_selected (fun _ : cstate => ds) (collect_body sumdata chunk_len ds) true (Some T) None [T] (all_of ds) init) as (cs & Es & En & E).
    - apply (names_list ds [T]); [discriminate|exact Hne|repeat constructor; exact Hc].
    - apply picks_none_wf.
    - apply picks_all_under. constructor; [|constructor]. eapply key_aget; eauto.
    - intros i r st st' _ t _. reflexivity.
    - assert (E1 : iterate (fun _ : cstate => ds) (collect_body sumdata chunk_len ds) true (Some T) true SelNone init =
                   foldM (vis (fun _ : cstate => ds) (collect_body sumdata chunk_len ds) true) cs init) by exact E.
      change (mk_cstate 0 [] empty_chunk) with init. rewrite E1, (loop_frames sumdata chunk_len ds T l cs init El Es (En eq_refl)).
      destruct (collect_fold sumdata chunk_len sh (frames l) Hchunk Hg) as (css & cur & Ef & Ec & Hcur & Hcss & Hp).
      rewrite Ef. cbn [bind s_done s_cur]. destruct (deactivate_tag ds T l Hne Hc El) as (ds1 & Ed & Hd). rewrite Ed. cbn [bind].
      assert (Eo : match outs with
                   | None => Ok T
                   | Some [t] => Ok t
                   | Some os => match nth_error os k with Some t => Ok t | None => Err IndexError end
                   end = Ok out).
      { destruct outs as [[|o [|o' os]]|]; [destruct k; discriminate|congruence|now rewrite Hout|congruence]. }
      rewrite Eo. cbn [bind]. specialize (Hcur Hf).
      assert (Em : exists os, mapM (collect_chunk argsort sumdata period offset) (List.map (chunk_of sumdata) css ++ [chunk_of sumdata cur]) = Ok os /\
                 Forall2 (collects period offset sumdata) (css ++ [cur]) os).
      { assert (Hall : Forall (fun k => k <> [] /\ good_frames sh k) (css ++ [cur])).
        { apply Forall_forall. intros g Hin. assert (Hsub : incl g (frames l)).
          { rewrite <- Ec. intros x Hx. apply in_app_or in Hin as [Hin|[->|[]]]; apply in_or_app; [left|now right]. apply in_concat. eauto. }
          split.
          - apply in_app_or in Hin as [Hin|[->|[]]]; [|exact Hcur]. rewrite Forall_forall in Hcss. now apply Hcss.
          - apply Forall_forall. intros x Hx. unfold good_frames in Hg. rewrite Forall_forall in Hg. apply Hg, Hsub, Hx. }
        change [chunk_of sumdata cur] with (List.map (chunk_of sumdata) [cur]). rewrite <- map_app.
        induction Hall as [|g gs [H1 H2] _ IH]; cbn [List.map mapM]; [exists []; split; [reflexivity|constructor]|].
        destruct (collect_chunk_ok argsort Hsort sumdata period offset sh g H2 H1) as (o & Eo' & Ho). rewrite Eo'. cbn [bind].
        destruct IH as (os & Eos & Hos). rewrite Eos. cbn [bind]. exists (o :: os). split; [reflexivity|]. now constructor. }
      destruct Em as (os & Em & Hos). rewrite Em. cbn [bind].
      destruct (add_chunks_spec out label os ds1) as (news & Hn & Hu & Ho).
      eexists. split; [reflexivity|]. exists (css ++ [cur]), news. rewrite El'. split; [|split; [|split; [|split]]].
      + split; [rewrite concat_app; cbn [concat]; rewrite app_nil_r; exact Ec|].
        unfold positive in Hp. destruct chunk_len as [c|]; [|now rewrite Hp]. destruct (Z.ltb_spec 0 c) as [L|L].
        * right. destruct Hp as [Hp1 Hp2]. split; [exact L|]. rewrite removelast_last, last_last. split.
          -- eapply Forall_impl; [|exact Hp1]. cbn beta. intros; lia.
          -- assert (length cur <> 0%nat) by (destruct cur; [congruence|discriminate]). split; [lia|].
             rewrite <- Ec, (group_count css cur (Z.to_nat c)); [now rewrite Z2Nat.id by lia|lia|exact Hp1|lia].
        * left. split; [lia|]. now rewrite Hp.
      + clear - Hos Hn. revert news Hn. induction Hos as [|g o gs os Hg Hos IH]; intros news Hn; inversion Hn; subst; constructor; auto.
        destruct H1 as (-> & ? & ?). auto.
      + assert (B1 : below ds1 T = List.map (set_status false) l) by (unfold below; now rewrite Hd, String.eqb_refl).
        destruct (String.eqb_spec T out) as [->|Hto]; [now rewrite Hu, B1|]. rewrite app_nil_r, <- B1. unfold below. now rewrite Ho.
      + intros Hto. rewrite Hu. f_equal. unfold below. rewrite Hd. destruct (String.eqb_spec out T); [congruence|reflexivity].
      + intros t H1 H2. rewrite Ho, Hd by auto. destruct (String.eqb_spec t T); [contradiction|reflexivity].
  Qed.

  (** ** C29, C30: one tag, into itself or into another tag. *)
  Theorem C29_one_tag ds T tag sh :
    let out := match tag with Some t => if String.eqb t "" then T else t | None => T end in
    T <> ""%string -> has_char "," T = false -> has_char "," out = false -> aget T ds <> None ->
    frames (below ds T) <> [] -> good_frames sh (frames (below ds T)) ->
    exists ds', collect argsort sumdata chunk_len period offset (Some T) tag label ds = Ok ds' /\ collected ds T out ds'.
  Proof.
    intros out Hne Hc Hco Hl Hf Hg. unfold collect, tag_iterator. destruct (String.eqb_spec T "") as [|_]; [contradiction|].
    cbn [bind]. rewrite (split_on_none "," T Hc). cbn [collect_tags].
    match goal with |- context [collect_tag _ _ _ _ _ ?o _ _ _ _] => set (outs := o) end.
    destruct (collect_tag_ok outs 0 ds T out sh) as (ds' & E & H); auto.
    - subst outs out. destruct tag as [t|]; [|reflexivity]. destruct (String.eqb t ""); [reflexivity|]. now rewrite (split_on_none "," t Hco).
    - rewrite E. exists ds'. auto.
  Qed.

  (** Several tags, each into itself. *)
  Definition collected_here (old new : list (dset cdata)) : Prop :=
    exists css news,
      split_into chunk_len (frames old) css /\
      Forall2 (fun fs n => collects period offset sumdata fs (ds_data n) /\ ds_status n = true /\ ds_label n = label) css news /\
      new = List.map (set_status false) old ++ news.

  Lemma collect_tags_ok ts : forall k ds,
    NoDup ts ->
    Forall (fun T => T <> ""%string /\ has_char "," T = false /\ aget T ds <> None /\ frames (below ds T) <> [] /\
                     exists sh, good_frames sh (frames (below ds T))) ts ->
    exists ds', collect_tags argsort sumdata chunk_len period offset None label k ts ds = Ok ds' /\
      (forall T, In T ts -> collected_here (below ds T) (below ds' T)) /\
      forall t, ~ In t ts -> aget t ds' = aget t ds.
  Proof.
    induction ts as [|T ts IH]; intros k ds Hnd H; cbn [collect_tags].
    - exists ds. split; [reflexivity|]. split; [intros T []|auto].
    - inversion H as [|? ? (H1 & H2 & H3 & H4 & sh & H5) Hts]; subst. inversion Hnd as [|? ? Hnin Hnd']; subst.
      destruct (collect_tag_ok None k ds T T sh eq_refl H1 H2 H3 H4 H5) as (ds1 & E & css & news & C1 & C2 & C3 & _ & C5).
      rewrite E. cbn [bind]. destruct (IH (S k) ds1 Hnd') as (ds' & E' & I1 & I2).
      + apply Forall_forall. intros U HU. assert (HUT : U <> T) by (intros ->; contradiction). unfold below. rewrite (C5 U HUT HUT).
        rewrite Forall_forall in Hts. exact (Hts U HU).
      + exists ds'. split; [exact E'|]. split.
        * intros U [<-|HU].
          -- exists css, news. split; [exact C1|]. split; [exact C2|]. rewrite String.eqb_refl in C3. rewrite <- C3. unfold below. now rewrite I2.
          -- assert (HUT : U <> T) by (intros ->; contradiction). specialize (I1 U HU). unfold below at 1 in I1. rewrite (C5 U HUT HUT) in I1. exact I1.
        * intros t Ht. rewrite I2 by (intros Hi; apply Ht; now right). apply C5; intros ->; apply Ht; now left.
  Qed.

  Theorem C29_all_tags ds :
    NoDup (List.map fst ds) ->
    Forall (fun T => T <> ""%string /\ has_char "," T = false) (List.map fst ds) ->
    (forall T, exists sh, good_frames sh (frames (below ds T))) ->
    exists ds', collect argsort sumdata chunk_len period offset None None label ds = Ok ds' /\
      forall T, if existsb ds_status (below ds T) then collected_here (below ds T) (below ds' T)
                else aget T ds' = aget T ds.
  Proof.
    intros Hnd Hk Hg. unfold collect. rewrite C16_tags by exact Hk. cbn [bind].
    fold (below ds). set (ts := List.filter _ _).
    assert (Hin : forall T, In T ts <-> In T (List.map fst ds) /\ existsb ds_status (below ds T) = true) by (intros T; apply filter_In).
    destruct (collect_tags_ok ts 0 ds) as (ds' & E & H1 & H2).
    - now apply NoDup_filter.
    - apply Forall_forall. intros T HT. apply Hin in HT as [HT Ha]. rewrite Forall_forall in Hk. destruct (Hk T HT) as [K1 K2].
      split; [exact K1|]. split; [exact K2|]. split; [destruct (aget_key ds T HT) as [l Hl]; congruence|]. split; [|apply Hg].
      now apply frames_nonempty.
    - exists ds'. split; [exact E|]. intros T. destruct (existsb ds_status (below ds T)) eqn:Ex.
      + apply H1. apply Hin. split; [|exact Ex]. unfold below in Ex. destruct (aget T ds) eqn:Ea; [|discriminate]. eapply key_aget; eauto.
      + apply H2. rewrite Hin. intros [_ Hc]. congruence.
  Qed.

  (** ** C30: a positive chunk length. *)
  Theorem C30_chunks ds T c sh :
    chunk_len = Some c -> (0 < c)%Z ->
    T <> ""%string -> has_char "," T = false -> aget T ds <> None ->
    frames (below ds T) <> [] -> good_frames sh (frames (below ds T)) ->
    let n := Z.of_nat (length (frames (below ds T))) in
    exists ds' css news, collect argsort sumdata chunk_len period offset (Some T) None label ds = Ok ds' /\
      concat css = frames (below ds T) /\
      Z.of_nat (length css) = ((n + c - 1) / c)%Z /\
      (forall i k, nth_error css i = Some k -> (1 <= Z.of_nat (length k) <= c)%Z /\ ((S i < length css)%nat -> Z.of_nat (length k) = c)) /\
      Forall2 (fun fs n => collects period offset sumdata fs (ds_data n) /\ ds_status n = true) css news /\
      below ds' T = List.map (set_status false) (below ds T) ++ news /\
      forall t, t <> T -> aget t ds' = aget t ds.
  Proof.
    intros Ec Hc H1 H2 H3 H4 H5 n. destruct (C29_one_tag ds T None sh H1 H2 H2 H3 H4 H5) as (ds' & E & css & news & (C1 & C1') & C2 & C3 & _ & C5).
    exists ds', css, news. split; [exact E|]. split; [exact C1|]. rewrite Ec in C1'.
    destruct C1' as [[? _]|(_ & D1 & D2 & D3)]; [lia|]. split; [exact D3|].
    assert (Hne : css <> []) by (intros ->; cbn in D2; lia).
    destruct (exists_last Hne) as (front & lst & ->). rewrite removelast_last, last_last in *. split; [|split; [|split]].
    - intros i k Hi. rewrite app_length. cbn [length]. destruct (Nat.lt_ge_cases i (length front)) as [L|L].
      + rewrite nth_error_app1 in Hi by exact L. apply nth_error_In in Hi. rewrite Forall_forall in D1. specialize (D1 k Hi). cbn beta in D1. lia.
      + rewrite nth_error_app2 in Hi by exact L. destruct (i - length front)%nat as [|m] eqn:Em; [|destruct m; discriminate].
        injection Hi as ->. split; [exact D2|]. lia.
    - clear - C2. induction C2; constructor; tauto.
    - now rewrite String.eqb_refl in C3.
    - intros t Ht. now apply C5.
  Qed.
End Command.

(** ** Error branches *)

(** A nonzero time is the stamp. *)
Theorem C29_stamp_is_time f t0 t : c_time (snd f) = Some t0 -> ~ (t0 == 0)%Q -> (has_stamp f t <-> t = t0).
Proof.
  intros E H. split; [|intros ->; now apply stamp_time].
  intros [t' E' _|t' n E' Z|t' n E' Z]; rewrite E in E'; injection E' as <-; [reflexivity|contradiction|contradiction].
Qed.

Section Errors.
  Context (argsort : list Q -> list nat) (sumdata : bool) (chunk_len : option Z)
          (period : option Q) (offset : Q) (label : string).
  Implicit Type ds : dspace cdata.

  Lemma collect_tag_iter ds T l outs k :
    T <> ""%string -> has_char "," T = false -> aget T ds = Some l ->
    collect_tag argsort sumdata chunk_len period offset outs label k T ds =
    let* st := foldM (fun f => collect_one sumdata chunk_len (fst f) (snd f)) (frames l) init in
    let* ds1 := deactivate_all ds (Some T) in
    let* out := match outs with
                | None => Ok T
                | Some [t] => Ok t
                | Some os => match nth_error os k with Some t => Ok t | None => Err IndexError end
                end in
    let* os := mapM (collect_chunk argsort sumdata period offset) (s_done st ++ [s_cur st]) in
    Ok (add_chunks out label os ds1).
  Proof.
    intros Hne Hc El. unfold collect_tag.
    destruct (iterate_selected (fun _ : cstate => ds) (collect_body sumdata chunk_len ds) true (Some T) None [T] (all_of ds) init) as (cs & Es & En & E).
    - apply (names_list ds [T]); [discriminate|exact Hne|repeat constructor; exact Hc].
    - apply picks_none_wf.
    - apply picks_all_under. constructor; [|constructor]. eapply key_aget; eauto.
    - intros i r st st' _ t _. reflexivity.
    - rewrite <- (loop_frames sumdata chunk_len ds T l cs init El Es (En eq_refl)), <- E. reflexivity.
  Qed.

  (** A dataset without a time (such as the result of an earlier [collect]) is
      an error; nothing is collected. *)
  Theorem C29_no_time ds T tag :
    T <> ""%string -> has_char "," T = false ->
    Exists (fun f => c_time (snd f) = None) (frames (below ds T)) ->
    collect argsort sumdata chunk_len period offset (Some T) tag label ds = Err KeyError.
  Proof.
    intros Hne Hc Hex. unfold collect, tag_iterator. destruct (String.eqb_spec T "") as [|_]; [contradiction|].
    cbn [bind]. rewrite (split_on_none "," T Hc). cbn [collect_tags].
    unfold below in Hex. destruct (aget T ds) as [l|] eqn:El; [|inversion Hex].
    rewrite (collect_tag_iter ds T l _ _ Hne Hc El).
    replace (foldM _ (frames l) init) with (@Err cstate KeyError); [reflexivity|]. symmetry. revert Hex.
    generalize init. induction (frames l) as [|f fs IH]; intros st Hex; [inversion Hex|]. cbn [foldM].
    assert (Hk : forall e, collect_one sumdata chunk_len (fst f) (snd f) st = Err e -> e = KeyError).
    { intros e. unfold collect_one. destruct (if _ : bool then _ else _) as [[? ?] ?]. unfold time_stamp.
      destruct (c_time (snd f)); [|cbn; congruence]. destruct (negb _); [cbn; congruence|]. destruct (c_frame (snd f)); [|cbn; congruence].
      destruct (negb _); cbn; congruence. }
    destruct (collect_one sumdata chunk_len (fst f) (snd f) st) as [st'|e] eqn:E1; [|cbn [bind]; now rewrite (Hk e eq_refl)].
    cbn [bind]. inversion Hex as [? ? Hf|? ? Hf]; subst; [exfalso|now apply IH].
    unfold collect_one in E1. destruct (if _ : bool then _ else _) as [[? ?] ?]. unfold time_stamp in E1. rewrite Hf in E1. discriminate.
  Qed.

  (** A tag without active datasets gets an empty dataset. *)
  Theorem C29_nothing_active ds T l :
    T <> ""%string -> has_char "," T = false -> aget T ds = Some l -> frames l = [] -> argsort [] = [] ->
    exists ds' n, collect argsort sumdata chunk_len period offset (Some T) None label ds = Ok ds' /\
      below ds' T = List.map (set_status false) l ++ [n] /\ ds_status n = true /\
      c_vals (ds_data n) = mk_nda [0%nat] [] /\ c_grid (ds_data n) = [mk_nda [0%nat] []].
  Proof.
    intros Hne Hc El Hf Ha. unfold collect, tag_iterator. destruct (String.eqb_spec T "") as [|_]; [contradiction|].
    cbn [bind]. rewrite (split_on_none "," T Hc). cbn [collect_tags].
    rewrite (collect_tag_iter ds T l _ _ Hne Hc El), Hf. cbn [foldM bind s_done s_cur init app].
    destruct (deactivate_tag ds T l Hne Hc El) as (ds1 & Ed & Hd). rewrite Ed. cbn [bind mapM].
    unfold collect_chunk at 1. cbn [k_vals k_time k_grid empty_chunk stack_arrays bind List.map]. rewrite Ha. cbn [pick flat_map length].
    set (o := mk_cdata _ _ _ _).
    destruct (add_chunks_spec T label [o] ds1) as (news & Hn & Hu & _). destruct news as [|n [|n' news]]; [inversion Hn| |inversion_clear Hn as [|? ? ? ? _ Hn']; inversion Hn'].
    assert (Hn1 : ds_data n = o /\ ds_status n = true /\ ds_label n = label) by (now inversion_clear Hn). destruct Hn1 as (H1 & H2 & _).
    exists (add_chunks T label [o] ds1), n. split; [reflexivity|]. split; [|split; [exact H2|]].
    - rewrite Hu. f_equal. unfold below. now rewrite Hd, String.eqb_refl.
    - rewrite H1. subst o. destruct sumdata; split; reflexivity.
  Qed.

  Lemma loop_values fs : forall st, Forall (fun f => exists t, has_stamp f t) fs ->
    exists st', foldM (fun f => collect_one sumdata None (fst f) (snd f)) fs st = Ok st' /\ s_done st' = s_done st /\
      k_vals (s_cur st') = k_vals (s_cur st) ++ List.map (fval sumdata) fs.
  Proof.
    induction fs as [|f fs IH]; intros st H; [exists st; rewrite app_nil_r; auto|]. inversion_clear H as [|? ? (t & Ht) H']. cbn [foldM].
    unfold collect_one at 1. apply time_stamp_spec in Ht. rewrite Ht. cbn [bind].
    match goal with |- context [foldM _ _ ?s] => destruct (IH s H') as (st' & -> & D & V) end. exists st'. split; [reflexivity|]. split; [exact D|].
    rewrite V. cbn [s_cur k_vals]. rewrite <- app_assoc. reflexivity.
  Qed.

  Lemma stack_differ (l : list (nda Q)) a b : In a l -> In b l -> shape a <> shape b -> stack_arrays l = Err ValueError.
  Proof.
    intros Ha Hb N. destruct l as [|c l]; [destruct Ha|]. unfold stack_arrays. destruct (forallb _ (c :: l)) eqn:E; [|reflexivity]. exfalso.
    rewrite forallb_forall in E. pose proof (E a Ha) as Ea. pose proof (E b Hb) as Eb. cbv beta in Ea, Eb.
    destruct (list_eq_dec Nat.eq_dec (shape a) (shape c)); [|discriminate]. destruct (list_eq_dec Nat.eq_dec (shape b) (shape c)); [|discriminate]. congruence.
  Qed.
End Errors.

(** Arrays of different shapes (with [--sumdata]: of different numbers of components)
    cannot be collected together; nothing is collected. *)
Theorem C29_shapes argsort (sumdata : bool) period offset label (ds : dspace cdata) T f g :
  T <> ""%string -> has_char "," T = false ->
  Forall (fun f => exists t, has_stamp f t) (frames (below ds T)) ->
  In f (frames (below ds T)) -> In g (frames (below ds T)) ->
  (if sumdata then last (shape (c_vals (snd f))) 0%nat <> last (shape (c_vals (snd g))) 0%nat
   else shape (c_vals (snd f)) <> shape (c_vals (snd g))) ->
  collect argsort sumdata None period offset (Some T) None label ds = Err ValueError.
Proof.
  intros Hne Hc Hs Hf Hg N. unfold collect, tag_iterator. destruct (String.eqb_spec T "") as [|_]; [contradiction|].
  cbn [bind]. rewrite (split_on_none "," T Hc). cbn [collect_tags].
  unfold below in Hs, Hf, Hg. destruct (aget T ds) as [l|] eqn:El; [|destruct Hf].
  rewrite (collect_tag_iter argsort sumdata None period offset label ds T l _ _ Hne Hc El).
  destruct (loop_values sumdata (frames l) init Hs) as (st & -> & D & V). cbn [bind].
  destruct (deactivate_tag ds T l Hne Hc El) as (ds1 & -> & _). cbn [bind]. rewrite D. cbn [init s_done app mapM].
  unfold collect_chunk at 1. rewrite V. cbn [init s_cur empty_chunk k_vals app].
  rewrite (stack_differ _ (fval sumdata f) (fval sumdata g)); [reflexivity|now apply in_map|now apply in_map|].
  unfold fval. destruct sumdata; [|exact N]. unfold sum_cells, tabulate. cbn [shape]. intros E. apply N. congruence.
Qed.

(** ** Examples *)

(** An [argsort] satisfying the specification. *)
Definition sort_pos (l : list Q) : list nat :=
  List.map snd (isort (fun a b => Qle_bool (fst a) (fst b)) (combine l (seq 0 (length l)))).

Lemma sort_pos_ok : is_argsort sort_pos.
Proof.
  intros l. unfold sort_pos. set (qle := fun a b : Q * nat => Qle_bool (fst a) (fst b)). set (c := combine l (seq 0 (length l))).
  assert (Hc : forall x k, In (x, k) c -> nth k l 0%Q = x).
  { intros x k H. unfold c in H. apply In_nth_error in H as [i Hi].
    assert (Hm : nth_error (combine l (seq 0 (length l))) i = match nth_error l i with Some y => Some (y, i) | None => None end).
    { clear. assert (G : forall s, nth_error (combine l (seq s (length l))) i = match nth_error l i with Some y => Some (y, (s + i)%nat) | None => None end).
      { revert i. induction l as [|y l IH]; intros [|i] s; try reflexivity.
        - cbn. now rewrite Nat.add_0_r.
        - cbn [length seq combine nth_error]. rewrite IH. destruct (nth_error l i); [|reflexivity]. do 2 f_equal. lia. }
      now rewrite G. }
    rewrite Hm in Hi. destruct (nth_error l i) as [y|] eqn:Ey; [|discriminate]. injection Hi as -> ->. now apply nth_error_nth. }
  split.
  - apply perm_trans with (List.map snd c).
    + apply Permutation_map. symmetry. apply isort_perm.
    + unfold c. assert (E : forall s, List.map snd (combine l (seq s (length l))) = seq s (length l)).
      { clear. induction l as [|x l IH]; intros s; [reflexivity|]. cbn [length seq combine List.map]. now rewrite IH. }
      now rewrite E.
  - rewrite map_map. assert (Hs : StronglySorted (fun a b => qle a b = true) (isort qle c)).
    { apply (isort_sorted qle (fun _ => True)).
      - intros x y _ _. unfold qle. rewrite !Qle_bool_iff. destruct (Qlt_le_dec (fst x) (fst y)); [left; now apply Qlt_le_weak|now right].
      - intros x y z _ _ _. unfold qle. rewrite !Qle_bool_iff. apply Qle_trans.
      - apply Forall_forall. auto. }
    assert (Hin : forall p, In p (isort qle c) -> nth (snd p) l 0%Q = fst p).
    { intros [x k] H. cbn. apply Hc. eapply Permutation_in; [symmetry; apply isort_perm|exact H]. }
    revert Hin. induction Hs as [|p s Hs IH Hp]; intros Hin; cbn [List.map]; constructor.
    + apply IH. intros; apply Hin; now right.
    + apply Forall_forall. intros y Hy. apply in_map_iff in Hy as (q & <- & Hq).
      rewrite (Hin p) by (now left). rewrite (Hin q) by (now right). rewrite Forall_forall in Hp. apply Qle_bool_iff. exact (Hp q Hq).
Qed.

Definition ex_fr (t f : Q) (a b : Q) : cdata := mk_cdata (Some t) (Some f) [mk_nda [3%nat] [0; 1; 2]%Q] (mk_nda [2; 1]%nat [a; b]).
Definition ex_in (i : nat) (b : bool) (x : cdata) : dset cdata := mk_dset i "" b "" x.
Definition ex_col : dspace cdata :=
  [("elc"%string, [ex_in 1 true (ex_fr 3 3 10 11); ex_in 2 true (ex_fr 1 1 20 21); ex_in 3 false (ex_fr 9 9 0 0); ex_in 4 true (ex_fr 2 2 30 31)]);
   ("ion"%string, [ex_in 5 true (ex_fr 1 1 40 41)])].

Example C29_ex_hyp :
  has_char "," "elc" = false /\ aget "elc"%string ex_col <> None /\ frames (below ex_col "elc") <> [] /\
  good_frames [2; 1]%nat (frames (below ex_col "elc")).
Proof.
  split; [reflexivity|]. split; [discriminate|]. split; [discriminate|].
  assert (G : forall i t f a b, ~ (t == 0)%Q -> (exists s, has_stamp (i, ex_fr t f a b) s) /\ c_grid (ex_fr t f a b) <> [] /\
            shape (c_vals (ex_fr t f a b)) = [2; 1]%nat /\ wf (c_vals (ex_fr t f a b))).
  { intros i t f a b Ht. split; [exists t; apply stamp_time; [reflexivity|exact Ht]|]. split; [discriminate|]. split; reflexivity. }
  cbv [good_frames frames below ex_col aget String.eqb Ascii.eqb Bool.eqb length seq combine List.filter ds_status ex_in snd fst List.map ds_data].
  repeat (constructor; [apply G; discriminate|]). constructor.
Qed.

Definition outs_of (r : res (dspace cdata)) (t : string) : list (bool * list garr * nda Q) :=
  match r with Ok ds => List.map (fun d => (ds_status d, c_grid (ds_data d), c_vals (ds_data d))) (below ds t) | Err _ => [] end.

(** Times 3, 1, 2 in file order are collected as 1, 2, 3, each with its own
    values; the inactive dataset is left out. *)
Example C29_ex :
  skipn 4 (outs_of (collect sort_pos false None None 0 (Some "elc"%string) None "c" ex_col) "elc") =
  [(true, [mk_nda [3%nat] [1; 2; 3]%Q; mk_nda [3%nat] [0; 1; 2]%Q], mk_nda [3; 2; 1]%nat [20; 21; 30; 31; 10; 11]%Q)].
Proof. vm_compute. reflexivity. Qed.

Example C29_sum_ex :
  skipn 4 (outs_of (collect sort_pos true None None 0 (Some "elc"%string) None "c" ex_col) "elc") =
  [(true, [mk_nda [3%nat] [1; 2; 3]%Q], mk_nda [3; 1]%nat [41; 61; 21]%Q)].
Proof. vm_compute. reflexivity. Qed.

(** A frame of another shape among the others. *)
Example C29_shapes_ex :
  collect sort_pos false None None 0 (Some "elc"%string) None "c"
    [("elc"%string, [ex_in 1 true (ex_fr 3 3 10 11); ex_in 2 true (mk_cdata (Some 1%Q) None [mk_nda [2%nat] [0; 1]%Q] (mk_nda [1; 1]%nat [5%Q]))])] = Err ValueError.
Proof. vm_compute. reflexivity. Qed.

(** Chunks of two: [3, 1] and [2]. *)
Example C30_ex :
  skipn 4 (outs_of (collect sort_pos false (Some 2%Z) None 0 (Some "elc"%string) None "c" ex_col) "elc") =
  [(true, [mk_nda [2%nat] [1; 3]%Q; mk_nda [3%nat] [0; 1; 2]%Q], mk_nda [2; 2; 1]%nat [20; 21; 10; 11]%Q);
   (true, [mk_nda [1%nat] [2]%Q; mk_nda [3%nat] [0; 1; 2]%Q], mk_nda [1; 2; 1]%nat [30; 31]%Q)].
Proof. vm_compute. reflexivity. Qed.

(** ** What does not hold *)

(** A dataset at time zero is not placed by its time: with times 1/2 and 0 the
    second one (frame 0, position 1) is stamped 1 and comes last. *)
Theorem C29_time_zero_refuted :
  exists (ds : dspace cdata) ds',
    List.map (fun f => c_time (snd f)) (frames (below ds "elc")) = [Some (1 # 2); Some 0]%Q /\
    collect sort_pos false None None 0 (Some "elc"%string) None "c" ds = Ok ds' /\
    exists o, In o (below ds' "elc") /\ ds_status o = true /\
      c_grid (ds_data o) = [mk_nda [2%nat] [1 # 2; 1]%Q; mk_nda [3%nat] [0; 1; 2]%Q].
Proof.
  exists [("elc"%string, [ex_in 1 true (ex_fr (1 # 2) 5 10 11); ex_in 2 true (ex_fr 0 0 20 21)])]. eexists.
  split; [reflexivity|]. split; [vm_compute; reflexivity|]. eexists. split; [right; right; now left|]. split; reflexivity.
Qed.

(** Collecting twice fails: the result of the first has no time. *)
Theorem C29_twice_refuted :
  exists (ds ds' : dspace cdata),
    collect sort_pos false None None 0 None None "c" ds = Ok ds' /\
    collect sort_pos false None None 0 None None "c" ds' = Err KeyError.
Proof. exists ex_col. eexists. split; [vm_compute; reflexivity|]. vm_compute. reflexivity. Qed.

(** A negative chunk length starts with an empty chunk. *)
Theorem C30_negative_refuted :
  exists (ds ds' : dspace cdata) o,
    collect sort_pos false (Some (-1)%Z) None 0 (Some "ion"%string) None "c" ds = Ok ds' /\
    In o (below ds' "ion") /\ ds_status o = true /\ shape (c_vals (ds_data o)) = [0%nat].
Proof.
  exists ex_col. eexists. eexists. split; [vm_compute; reflexivity|]. split; [right; left; reflexivity|]. split; reflexivity.
Qed.

Print Assumptions C29_one_tag.
Print Assumptions C29_all_tags.
Print Assumptions C29_stamp_is_time.
Print Assumptions C29_no_time.
Print Assumptions C29_nothing_active.
Print Assumptions C29_shapes.
Print Assumptions C29_time_zero_refuted.
Print Assumptions C29_twice_refuted.
Print Assumptions C30_chunks.
Print Assumptions C30_negative_refuted.
