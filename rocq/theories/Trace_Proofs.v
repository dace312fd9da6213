(** * Proofs about Trace_Model *)
From Coq Require Import String Ascii List Arith ZArith Bool Lia Reals Lra Permutation Sorted.
From Verif Require Import Prelude PreludeFacts NdArray Gkyl_Model Gkyl_Spec Gkyl_Proofs Gkyl_Props Msgpack_Model Msgpack_Spec Msgpack_Props
  Dg_Poly Dg_Model Dg_Sem Dg_Props5 Dg_Props6 DgCmd_Model Tools_Arr Calc_Model Draw_Model Show_Model Show_Spec Show_Proofs Show_Props
  Part_Proofs Amount_Model Amount_Spec Amount_Proofs Amount_Props Trace_Model Trace_Spec.
Import ListNotations.
Open Scope string_scope. Open Scope list_scope. Open Scope nat_scope.

Lemma mapM_each {A B} (f : A -> res B) (l : list A) (g : nat -> B) :
  (forall i a, nth_error l i = Some a -> f a = Ok (g i)) -> mapM f l = Ok (List.map g (seq 0 (length l))).
Proof.
  revert g. induction l as [|a l IH]; intros g H; [reflexivity|]. cbn [mapM length seq List.map].
  rewrite (H 0 a eq_refl). cbn [bind]. rewrite (IH (fun i => g (S i))) by (intros i x Hx; apply (H (S i) x Hx)).
  cbn [bind]. now rewrite <- seq_shift, map_map.
Qed.

Lemma mapM_total {A B} (f : A -> res B) (l : list A) : (forall a, In a l -> exists b, f a = Ok b) -> exists bs, mapM f l = Ok bs.
Proof.
  induction l as [|a l IH]; intros H; [now exists []|]. destruct (H a (or_introl eq_refl)) as (b & E).
  destruct IH as (bs & Es); [intros x Hx; apply H; now right|]. exists (b :: bs). cbn [mapM]. now rewrite E, Es.
Qed.

(** One element fails in this way, and the others do or succeed. *)
Lemma mapM_fails {A B} (f : A -> res B) (e : exn) (l : list A) :
  (forall a, In a l -> (exists b, f a = Ok b) \/ f a = Err e) -> (exists a, In a l /\ f a = Err e) -> mapM f l = Err e.
Proof.
  induction l as [|a l IH]; intros H (x & Hx & Ex); [destruct Hx|]. cbn [mapM].
  destruct (H a (or_introl eq_refl)) as [(b & E)|E]; rewrite E; [|reflexivity]. cbn [bind].
  rewrite IH; [reflexivity|intros y Hy; apply H; now right|].
  destruct Hx as [->|Hx]; [congruence|]. now exists x.
Qed.

Lemma nth_error_combine_seq {A} (l : list A) k : forall a, nth_error (combine (seq a (length l)) l) k = option_map (fun x => (a + k, x)) (nth_error l k).
Proof.
  revert k. induction l as [|x l IH]; intros [|k] a; cbn [length seq combine nth_error option_map]; try reflexivity.
  - now rewrite Nat.add_0_r.
  - rewrite IH. destruct (nth_error l k); cbn [option_map]; [|reflexivity]. now rewrite Nat.add_succ_r.
Qed.

Definition own_names : list string := ["polyOrder"; "poly_order"; "basisType"; "basis_type"; "is_modal"].
Lemma time_other : ~ In "time" own_names.
Proof. cbn. intuition discriminate. Qed.
Lemma frame_other : ~ In "frame" own_names.
Proof. cbn. intuition discriminate. Qed.
Lemma own_order : In "poly_order" own_names.
Proof. cbn. tauto. Qed.
Lemma own_basis : In "basis_type" own_names.
Proof. cbn. tauto. Qed.
Lemma own_modal : In "is_modal" own_names.
Proof. cbn. tauto. Qed.

Section Trace.
  Context (dec : nat -> list Z -> R) (root : nat -> nat -> nat) (stored : nat -> nat -> res (list (list R)))
          (word : list Z -> R) (argsort : list R -> list nat).

  Lemma open_meta_file f g : open_meta dec f = Ok g -> open_file dec f = Ok (file_data g).
  Proof. unfold open_meta, open_file. destruct (is_compatible f); [|discriminate]. intros ->. reflexivity. Qed.

  (** The stages of one file. *)
  Lemma stages f io text g z : open_meta dec f = Ok g -> interpolate_integrate dec root stored f io text = Ok z ->
    exists y, interpolate_data rops rdot evalR root stored io (file_data g) = Ok y /\
      integrate (dd_dims (i_data y)) (AxStr text) (List.map (fun a => flat a) (dd_grid (i_data y)), dd_values (i_data y)) = Ok z.
  Proof.
    intros Hg H. unfold interpolate_integrate in H. rewrite (open_meta_file _ _ Hg) in H. cbn [bind] in H.
    apply bind_ok in H as (y & Ey & Ez). now exists y.
  Qed.

  (** All but the last stage. *)
  Lemma run_stages files io text (Z : nat -> list (list R) * nda R) :
    (forall i f, nth_error files i = Some f -> interpolate_integrate dec root stored f io text = Ok (Z i)) ->
    (forall f, In f files -> exists g, open_meta dec f = Ok g) ->
    exists gs, List.Forall2 (fun f g => open_meta dec f = Ok g) files gs /\
      trace dec root stored word argsort files io text =
        (let* ts := mapM (fun p : nat * loaded (F := R) (M := mval) => stamp word (fst p) (l_ctx (snd p))) (combine (seq 0 (length gs)) gs) in
         collect_stamped argsort ts (List.map Z (seq 0 (length files)))).
  Proof.
    intros Hz Hg. destruct (mapM_total _ _ Hg) as (gs & Eg). pose proof (proj1 (mapM_ok _ _ _) Eg) as F2.
    exists gs. split; [exact F2|]. unfold trace. rewrite Eg. cbn [bind].
    pose proof (Forall2_length _ _ _ F2) as Lg.
    assert (St : forall i g, nth_error gs i = Some g -> exists y, interpolate_data rops rdot evalR root stored io (file_data g) = Ok y /\
      integrate (dd_dims (i_data y)) (AxStr text) (List.map (fun a => flat a) (dd_grid (i_data y)), dd_values (i_data y)) = Ok (Z i)).
    { intros i g Hi. destruct (nth_error files i) as [f|] eqn:Ef.
      - apply (stages f io text); [|now apply Hz]. clear - F2 Ef Hi. revert i Ef Hi. induction F2 as [|x y l l' Hxy _ IH]; intros [|i] Ef Hi; cbn in *; try discriminate.
        + congruence.
        + eauto.
      - apply nth_error_None in Ef. assert (i < length gs) by (apply nth_error_Some; congruence). lia. }
    destruct (mapM_total (fun g => interpolate_data rops rdot evalR root stored io (file_data g)) gs) as (ys & Ey).
    { intros g Hi. apply In_nth_error in Hi as (i & Hi). destruct (St i g Hi) as (y & E & _). now exists y. }
    rewrite Ey. cbn [bind]. pose proof (proj1 (mapM_ok _ _ _) Ey) as F3. pose proof (Forall2_length _ _ _ F3) as Ly.
    rewrite (mapM_each _ ys Z).
    - cbn [bind]. now rewrite <- Ly, <- Lg.
    - intros i y Hy. destruct (nth_error gs i) as [g|] eqn:Ei.
      + destruct (St i g Ei) as (y' & E1 & E2).
        assert (E3 : interpolate_data rops rdot evalR root stored io (file_data g) = Ok y).
        { clear - F3 Ei Hy. revert i Ei Hy. induction F3 as [|a b l l' Hab _ IH]; intros [|i] Ei Hy; cbn in *; try discriminate.
          - congruence.
          - eauto. }
        rewrite E1 in E3. inversion E3; subst y'. exact E2.
      + apply nth_error_None in Ei. assert (i < length ys) by (apply nth_error_Some; congruence). lia.
  Qed.

  (** ** Time stamps *)
  Lemma truthy_number v t : number word v t -> t <> 0%R -> truthy word v = Ok (Some t).
  Proof. intros H Ht. unfold truthy, nonzero. destruct H; destruct (Req_EM_T _ 0); [contradiction|reflexivity|contradiction|reflexivity|contradiction|reflexivity]. Qed.
  Lemma truthy_nothing v : nothing word v -> truthy word v = Ok None.
  Proof.
    intros [->|H]; [reflexivity|]. unfold truthy, nonzero. inversion H as [z E1 E2|w E1 E2|w E1 E2]; subst v; rewrite ?E2.
    all: destruct (Req_EM_T 0 0); [reflexivity|contradiction].
  Qed.

  (** What a file has in its metadata. *)
  Definition reads (d : list (mkey * mval)) (ctx : list (string * mval)) : Prop :=
    forall k, ~ In k own_names ->
      (forall v, entry d k v -> aget k ctx = Some v) /\ ((forall v, ~ entry d k v) -> aget k ctx = None).

  Lemma stamp_stamped i d ctx t : reads d ctx -> stamped word i d t -> stamp word i ctx = Ok t.
  Proof.
    intros Hr H. destruct (Hr "time" time_other) as (Rt & _). destruct (Hr "frame" frame_other) as (Rf & _).
    unfold stamp. inversion H as [v t' Ev Hn Ht|v v' t' Ev Hv Ef Hn Ht|v v' Ev Hv Ef Hv']; subst; rewrite (Rt _ Ev).
    - rewrite (truthy_number _ _ Hn Ht). reflexivity.
    - rewrite (truthy_nothing _ Hv). cbn [bind]. rewrite (Rf _ Ef), (truthy_number _ _ Hn Ht). reflexivity.
    - rewrite (truthy_nothing _ Hv). cbn [bind]. rewrite (Rf _ Ef), (truthy_nothing _ Hv'). reflexivity.
  Qed.
  Lemma stamp_unstamped i d ctx : reads d ctx -> unstamped word d -> stamp word i ctx = Err KeyError.
  Proof.
    intros Hr H. destruct (Hr "time" time_other) as (Rt & Nt). destruct (Hr "frame" frame_other) as (_ & Nf).
    unfold stamp. destruct H as [H|(v & Ev & Hv & H)].
    - now rewrite (Nt H).
    - rewrite (Rt _ Ev), (truthy_nothing _ Hv). cbn [bind]. now rewrite (Nf H).
  Qed.

  Lemma last_assign_none {M} k (l : list (string * M)) : (forall w, ~ In (k, w) l) -> last_assign k l = None.
  Proof.
    intros H. unfold last_assign. destruct (find (fun kv => String.eqb k (fst kv)) (rev l)) as [[k' w]|] eqn:E; [|reflexivity].
    apply find_some in E as (E1 & E2). cbn [fst] in E2. apply String.eqb_eq in E2. subst k'. apply in_rev in E1. destruct (H w E1).
  Qed.

  Lemma open_reads rt meta d fd f : good_field rt (width_of rt) meta fd -> described meta d -> Part_Proofs.stores rt meta fd f ->
    0 < fd_nc fd -> Forall (fun n => 0 < n) (fd_cells fd) ->
    exists g, open_meta dec f = Ok g /\ reads d (l_ctx g).
  Proof.
    intros Hg Hd Hs Hn Hc. unfold open_meta. rewrite (stores_compatible rt meta fd f Hs).
    rewrite (stores_whole (rnum dec) unpack (MBool true) rt meta fd f Hg (described_readable _ _ Hd) Hs) by assumption.
    destruct Hd as [[-> ->]|He].
    - destruct (C02_documented_file R mval (rnum dec) unpack (MBool true) rt [] fd [] Hg (or_introl eq_refl)) as (_ & g & El & _ & _ & _ & _ & _ & _ & Hk & _).
      exists g. split; [exact El|]. intros k _. split; [intros v []|]. intros _. now rewrite Hk.
    - destruct (C118_metadata (rnum dec) rt meta d fd [] He Hg) as (g & El & Hk). exists g. split; [exact El|].
      intros k Hr. split.
      + intros v Hv. destruct (C118_entry (rnum dec) rt meta d fd [] He Hg k v Hv Hr) as (g' & El' & E). rewrite El in El'. now inversion El'; subst g'.
      + intros Hno. rewrite Hk. unfold meta_lookup. rewrite last_assign_none; [reflexivity|].
        intros w Hw. apply in_assigns in Hw as [(k' & Hk' & Hn')|(-> & _)]; [|exact (Hr own_modal)].
        apply in_named in Hk'. apply norm_inv in Hn' as [->|[(-> & _)|(-> & _)]]; [exact (Hno w Hk')|exact (Hr own_order)|exact (Hr own_basis)].
  Qed.

  (** ** Collecting *)
  Lemma collect_rows ts (Z : nat -> list (list R) * nda R) N sh : ordered ts (argsort ts) -> length ts = N -> 0 < N -> fst (Z 0) <> [] ->
    (forall i, i < N -> shape (snd (Z i)) = sh) ->
    exists v, collect_stamped argsort ts (List.map Z (seq 0 N)) = Ok (List.map (fun k => nth k ts 0%R) (argsort ts) :: fst (Z 0), v) /\
      holds (N :: sh) v (fun idx => val (snd (Z (nth (hd 0 idx) (argsort ts) 0))) (tl idx)).
  Proof.
    intros (Hp & _) Lt PN Hz Hsh. unfold collect_stamped.
    assert (Lo : length (argsort ts) = N) by (rewrite (Permutation_length Hp), seq_length; exact Lt).
    assert (Bo : forall j, j < N -> nth j (argsort ts) 0 < N).
    { intros j Hj. assert (I : In (nth j (argsort ts) 0) (argsort ts)) by (apply nth_In; lia). apply (Permutation_in _ Hp) in I. apply in_seq in I. lia. }
    set (l := List.map (fun z : list (list R) * nda R => snd z) (List.map Z (seq 0 N))).
    assert (Ll : length l = N) by (unfold l; now rewrite !map_length, seq_length).
    assert (El : exists a l', l = a :: l' /\ shape a = sh).
    { unfold l. destruct N as [|N']; [lia|]. cbn [seq List.map]. eexists. eexists. split; [reflexivity|]. apply Hsh. lia. }
    assert (Nl : forall k a, k < N -> nth k l a = snd (Z k)).
    { intros k a Hk. unfold l. rewrite map_map, (nth_indep _ a (snd (Z 0))) by (rewrite map_length, seq_length; exact Hk).
      rewrite (map_nth (fun x => snd (Z x))), seq_nth by exact Hk. reflexivity. }
    assert (Es : stack l = Ok (tabulate (N :: sh) (fun idx => val (nth (hd 0 idx) l (mk_nda [] [])) (tl idx)))).
    { destruct El as (a & l' & El & Sa). unfold stack. rewrite El. cbv beta iota.
      rewrite <- El. replace (forallb _ l) with true.
      - rewrite Sa, Ll. f_equal. unfold tabulate. f_equal. apply map_ext_in. intros idx Hi. apply Dg_Props6.in_indices in Hi.
        inversion Hi as [|i n i' sh' Hin Hr]; subst. cbn [hd tl]. now rewrite !Nl by lia.
      - symmetry. apply forallb_forall. intros b Hb. unfold l in Hb. rewrite map_map in Hb. apply in_map_iff in Hb as (i & <- & Hi). apply in_seq in Hi.
        rewrite Sa, (Hsh i) by lia. now destruct (list_eq_dec Nat.eq_dec sh sh). }
    rewrite Es. cbn [bind].
    replace (hd [] _) with (fst (Z 0)).
    2:{ destruct N as [|N']; [lia|]. cbn [seq List.map filter]. destruct (fst (Z 0)) as [|x l0]; [contradiction|]. reflexivity. }
    eexists. split; [reflexivity|]. unfold pick_rows. cbn [shape tabulate tl]. rewrite Lo.
    split; [apply wf_tabulate|]. split; [reflexivity|]. intros idx Hi. rewrite get_tabulate by exact Hi. f_equal.
    inversion Hi as [|i n i' sh' Hin Hr]; subst. cbn [hd tl]. unfold val at 1. rewrite get_tabulate by (constructor; [now apply Bo|exact Hr]). cbn [hd tl].
    now rewrite Nl by (now apply Bo).
  Qed.

  (** Arrays of different shapes. *)
  Lemma collect_mixed ts (Z : nat -> list (list R) * nda R) N i j : i < N -> j < N -> shape (snd (Z i)) <> shape (snd (Z j)) ->
    collect_stamped argsort ts (List.map Z (seq 0 N)) = Err ValueError.
  Proof.
    intros Hi Hj D. unfold collect_stamped. set (l := List.map (fun z : list (list R) * nda R => snd z) (List.map Z (seq 0 N))).
    assert (Hin : forall k, k < N -> In (snd (Z k)) l).
    { intros k Hk. unfold l. rewrite map_map. apply in_map_iff. exists k. split; [reflexivity|]. apply in_seq. lia. }
    unfold stack. destruct l as [|a l'] eqn:El; [destruct (Hin i Hi)|].
    destruct (forallb _ (a :: l')) eqn:E; [|reflexivity]. exfalso. rewrite forallb_forall in E. apply D.
    pose proof (E _ (Hin i Hi)) as Ei. pose proof (E _ (Hin j Hj)) as Ej. cbv beta in Ei, Ej.
    destruct (list_eq_dec Nat.eq_dec (shape (snd (Z i))) (shape a)); [|discriminate]. destruct (list_eq_dec Nat.eq_dec (shape (snd (Z j))) (shape a)); [|discriminate]. congruence.
  Qed.
End Trace.
