(** * More lemmas about the data space: visits, status, labels, commands. *)
From Coq Require Import String Ascii List Arith ZArith Bool Sorted Lia.
From Verif Require Import Prelude PreludeFacts NdArray DataSpace_Model DataSpace_Spec DataSpace_Proofs.
Import ListNotations.
Open Scope list_scope.

(** ** Read-only visits *)
Section Visits.
  Context {X : Type}.
  Implicit Type ds : dspace X.

  Notation vspace := (fun st : dspace X * list (nat * ref) => fst st).
  Notation vbody := (fun i r (st : dspace X * list (nat * ref)) => Ok (fst st, snd st ++ [(i, r)])).

  Lemma vis_pure only c ds acc : lookup ds (snd c) <> None ->
    vis vspace vbody only c (ds, acc) =
    Ok (ds, acc ++ if negb only || is_active ds (snd c) then [c] else []).
  Proof.
    intros H. unfold vis, visit, is_active. cbn [fst]. destruct (lookup ds (snd c)) as [d|]; [|congruence].
    destruct (negb only || ds_status d); [destruct c; reflexivity|now rewrite app_nil_r].
  Qed.

  Lemma fold_pure only cs ds acc : (forall c, In c cs -> lookup ds (snd c) <> None) ->
    foldM (vis vspace vbody only) cs (ds, acc) =
    Ok (ds, acc ++ List.filter (fun c => negb only || is_active ds (snd c)) cs).
  Proof.
    revert acc. induction cs as [|c cs IH]; intros acc H; cbn [foldM List.filter]; [now rewrite app_nil_r|].
    rewrite vis_pure by (apply H; now left). cbn [bind]. rewrite IH by (intros; apply H; now right).
    rewrite <- app_assoc. destruct (negb only || is_active ds (snd c)); reflexivity.
  Qed.

  Lemma picks_lt n index ps k : picks n index ps -> In k ps -> (k < n)%nat.
  Proof.
    intros H Hk. destruct H as [|zs ps Hne F|a b ps Hs|a b c ps Hc Hs].
    - apply in_seq in Hk. lia.
    - clear Hne. induction F as [|z p zs ps [H1 H2] F IH]; [destruct Hk|]. destruct Hk as [->|Hk]; [lia|auto].
    - eapply is_slice_lt; eauto.
    - eapply is_slice_lt; eauto.
  Qed.

  Lemma lookup_lt ds t k l : aget t ds = Some l -> (k < length l)%nat -> lookup ds (t, k) <> None.
  Proof. intros H Hk. unfold lookup. cbn. rewrite H. now apply nth_error_Some. Qed.

  Lemma selected_lookup ds index ts pos r :
    picks_under ds index ts pos -> In r (selected ts pos) -> lookup ds r <> None.
  Proof.
    intros H Hr. apply in_flat_map in Hr as (t & Ht & Hr). apply in_map_iff in Hr as (k & <- & Hk).
    destruct (H t Ht) as (l & Hl & Hp). eapply lookup_lt; eauto. eapply picks_lt; eauto.
  Qed.

  Lemma keeps_pure : keeps vspace vbody (fun _ => True).
  Proof. intros i r st st' [= <-] t _. reflexivity. Qed.

  Lemma keeps_weaken {St} (space : St -> dspace X) body (U V : string -> Prop) :
    (forall t, V t -> U t) -> keeps space body U -> keeps space body V.
  Proof. intros H K i r st st' E t Ht. eapply K; eauto. Qed.

  Lemma visits_selected ds tag index only ts pos :
    names ds tag ts -> (exists n ps, picks n index ps) -> picks_under ds index ts pos ->
    exists vs, visits ds tag false only (sel_of_index index) = Ok vs /\
      List.map snd vs = List.filter (fun r => negb only || is_active ds r) (selected ts pos) /\
      (index = None -> Forall (fun v => fst v = snd (snd v)) vs).
  Proof.
    intros Hn Hw Hp.
    destruct (iterate_selected vspace vbody only tag index ts pos (ds, [])) as (cs & Es & En & E); auto.
    { intros i r st st' [= <-] t _. reflexivity. }
    unfold visits. rewrite E. rewrite fold_pure.
    - cbn [bind snd app]. eexists; split; [reflexivity|]. split.
      + rewrite <- Es. clear. induction cs as [|c cs IH]; [reflexivity|]. cbn [List.filter List.map].
        destruct (negb only || is_active ds (snd c)); cbn [List.map]; now rewrite IH.
      + intros Hi. specialize (En Hi). rewrite Forall_forall in *. intros v Hv. apply filter_In in Hv. now apply En.
    - intros c Hc. eapply selected_lookup; eauto. rewrite <- Es. apply in_map_iff. eauto.
  Qed.

  (** Failing visits. *)
  Lemma visits_loop_shape only tr s ts ds acc :
    (tr = true \/ exists a b k, s = ISlice a b k) ->
    (forall a b, s <> ISlice a b (Some 0%Z)) ->
    (exists acc', loop_tags vspace vbody only tr s ts (ds, acc) = Ok (ds, acc')) \/
    loop_tags vspace vbody only tr s ts (ds, acc) = Err Quit.
  Proof.
    intros Htr H0. revert acc. induction ts as [|t ts IH]; intros acc; cbn [loop_tags]; [left; eauto|].
    match goal with |- context [bind ?m _] => assert (E : (exists acc', m = Ok (ds, acc')) \/ m = Err Quit) end.
    2:{ destruct E as [[acc' ->] | ->]; [apply IH|right; reflexivity]. }
    cbn [fst]. destruct s as [a b k|zs].
    - destruct (aget t ds) as [l|] eqn:El; [|right; reflexivity].
      destruct (slice_list_ok (length l) a b k) as [ps Eps]. { intros ->. now apply (H0 a b). }
      rewrite Eps. cbn [bind]. rewrite loop_slice_fold. left. rewrite fold_pure; [eauto|].
      intros c Hc. unfold enum_from in Hc. destruct c as [i r]. apply in_combine_r in Hc.
      apply in_map_iff in Hc as (p & <- & Hpp). cbn [snd]. eapply lookup_lt; eauto.
      exact (is_slice_lt _ _ _ _ _ _ (slice_list_spec _ _ _ _ _ Eps) Hpp).
    - destruct Htr as [->|(a & b & k & H)]; [|discriminate].
      clear IH. revert acc. induction zs as [|z zs IH]; intros acc; cbn [loop_list fst]; [left; eauto|].
      destruct (aget t ds) as [l|] eqn:El; [|right; reflexivity].
      destruct (norm_index (length l) z) as [p|] eqn:Ez; [|right; reflexivity].
      assert (Hlk : lookup ds (t, p) <> None).
      { apply (lookup_lt _ _ _ l); auto. apply norm_index_ok in Ez. lia. }
      pose proof (vis_pure only (0%nat, (t, p)) ds acc Hlk) as Ev. unfold vis in Ev. cbn [fst snd] in Ev. rewrite Ev.
      cbn [bind]. apply IH. intros; discriminate.
  Qed.

  Lemma visits_loop_bad only tr s ts ds acc t :
    (tr = true \/ exists a b k, s = ISlice a b k) ->
    (forall a b, s <> ISlice a b (Some 0%Z)) ->
    s <> IList [] -> In t ts -> bad s ds t ->
    loop_tags vspace vbody only tr s ts (ds, acc) = Err Quit.
  Proof.
    intros Htr H0 Hnil Hin Hb. revert acc. induction ts as [|u ts IH]; intros acc; [destruct Hin|].
    destruct Hin as [->|Hin].
    - cbn [loop_tags fst]. clear IH. destruct s as [a b k|zs].
      + destruct Hb as [->|[]]. reflexivity.
      + destruct Htr as [->|(a & b & k & H)]; [|discriminate].
        match goal with |- bind ?m _ = _ => assert (E : m = Err Quit) end; [|now rewrite E].
        destruct Hb as [Hb|(l & z & Hl & Hz & Ez)].
        * destruct zs; cbn [loop_list fst]; [|now rewrite Hb].
          congruence.
        * clear Hnil. revert acc. induction zs as [|w zs IH]; intros acc; [destruct Hz|]. cbn [loop_list fst]. rewrite Hl.
          destruct Hz as [->|Hz]; [now rewrite Ez|].
          destruct (norm_index (length l) w) as [p|] eqn:Ew; [|reflexivity].
          assert (Hlk : lookup ds (t, p) <> None).
          { apply (lookup_lt _ _ _ l); auto. apply norm_index_ok in Ew. lia. }
          pose proof (vis_pure only (0%nat, (t, p)) ds acc Hlk) as Ev. unfold vis in Ev. cbn [fst snd] in Ev. rewrite Ev.
          cbn [bind]. apply IH; auto. intros; discriminate.
    - destruct (visits_loop_shape only tr s [u] ds acc Htr H0) as [[acc' E]|E]; cbn [loop_tags] in *.
      + match goal with |- bind ?m _ = _ => destruct m as [[x y]|] end; cbn [bind] in *; [|discriminate].
        injection E as -> ->. apply IH; auto.
      + match goal with |- bind ?m _ = _ => destruct m as [[x y]|] end; cbn [bind] in *; [discriminate|congruence].
  Qed.
End Visits.

(** ** Status *)
Section StatusFacts.
  Context {X : Type}.
  Implicit Type ds : dspace X.

  Definition in_refs (r : ref) (l : list ref) : bool := if in_dec ref_eq_dec r l then true else false.

  Lemma in_refs_spec r l : in_refs r l = true <-> In r l.
  Proof. unfold in_refs. destruct (in_dec ref_eq_dec r l); split; auto; discriminate. Qed.

  Lemma set_status_id (d : dset X) : set_status (ds_status d) d = d.
  Proof. destruct d; reflexivity. Qed.

  Notation sbody b := (fun (_ : nat) r ds => Ok (modify ds r (set_status b))).

  Lemma fold_status b (cs : list (nat * ref)) ds :
    exists ds', foldM (vis (fun ds : dspace X => ds) (sbody b) false) cs ds = Ok ds' /\
      List.map fst ds' = List.map fst ds /\
      (forall t, lens ds' t = lens ds t) /\
      forall r, lookup ds' r = option_map (fun d => if in_refs r (List.map snd cs) then set_status b d else d) (lookup ds r).
  Proof.
    revert ds. induction cs as [|c cs IH]; intros ds; cbn [foldM].
    - exists ds. repeat split; auto. intros r. cbn. destruct (lookup ds r); reflexivity.
    - assert (E : vis (fun ds : dspace X => ds) (sbody b) false c ds = Ok (modify ds (snd c) (set_status b))).
      { unfold vis, visit. cbn [negb orb]. unfold modify, lookup. destruct (aget (fst (snd c)) ds) as [l|]; [|reflexivity].
        destruct (nth_error l (snd (snd c))); reflexivity. }
      rewrite E. cbn [bind]. destruct (IH (modify ds (snd c) (set_status b))) as (ds' & E' & K & L & H).
      exists ds'. split; [exact E'|]. split; [now rewrite K, keys_modify|]. split.
      { intros t. rewrite L. apply length_modify. }
      intros r. rewrite H, lookup_modify. cbn [List.map].
      unfold in_refs. destruct (ref_eq_dec r (snd c)) as [->|Hne].
      + destruct (in_dec ref_eq_dec (snd c) (snd c :: List.map snd cs)) as [_|N]; [|exfalso; apply N; now left].
        destruct (lookup ds (snd c)) as [d|]; [|reflexivity]. simpl.
        destruct (in_dec ref_eq_dec (snd c) (List.map snd cs)); reflexivity.
      + destruct (in_dec ref_eq_dec r (List.map snd cs)) as [Hi|Hi], (in_dec ref_eq_dec r (snd c :: List.map snd cs)) as [Hj|Hj];
          auto; exfalso.
        * apply Hj. now right.
        * destruct Hj as [Hj|Hj]; [congruence|auto].
  Qed.

  Lemma set_all_selected b ds tag index ts pos :
    names ds tag ts -> (exists n ps, picks n index ps) -> picks_under ds index ts pos ->
    exists ds', set_all b ds tag (sel_of_index index) = Ok ds' /\
      List.map fst ds' = List.map fst ds /\ (forall t, lens ds' t = lens ds t) /\
      forall r, lookup ds' r = option_map (fun d => if in_refs r (selected ts pos) then set_status b d else d) (lookup ds r).
  Proof.
    intros Hn Hw Hp. unfold set_all.
    destruct (iterate_selected (fun ds : dspace X => ds) (sbody b) false tag index ts pos ds) as (cs & Es & _ & E); auto.
    { intros i r st st' [= <-] t _. unfold lens. apply length_modify. }
    rewrite E, <- Es. apply fold_status.
  Qed.

  Lemma aget_key ds t : In t (List.map fst ds) -> exists l, aget t ds = Some l.
  Proof.
    induction ds as [|[u l] ds IH]; simpl; [intros []|]. destruct (String.eqb_spec t u); [eauto|].
    intros [->|H]; [congruence|auto].
  Qed.

  Lemma key_aget ds t l : aget t ds = Some l -> In t (List.map fst ds).
  Proof.
    induction ds as [|[u m] ds IH]; simpl; [discriminate|]. destruct (String.eqb_spec t u); auto.
  Qed.

  Definition all_of ds (t : string) : list nat := match aget t ds with Some l => seq 0 (length l) | None => [] end.

  Lemma picks_all_under ds ts : Forall (fun t => In t (List.map fst ds)) ts -> picks_under ds None ts (all_of ds).
  Proof.
    intros H t Ht. rewrite Forall_forall in H. destruct (aget_key ds t (H t Ht)) as [l Hl]. exists l. split; auto.
    unfold all_of. rewrite Hl. constructor.
  Qed.

  Lemma picks_none_wf : exists n ps, picks n None ps.
  Proof. exists 0%nat, (seq 0 0). constructor. Qed.

  Lemma in_all_of ds ts r : In r (selected ts (all_of ds)) <-> In (fst r) ts /\ lookup ds r <> None.
  Proof.
    unfold selected. rewrite in_flat_map. split.
    - intros (t & Ht & Hr). apply in_map_iff in Hr as (k & <- & Hk). simpl. split; auto.
      unfold all_of in Hk. destruct (aget t ds) as [l|] eqn:E; [|destruct Hk]. apply in_seq in Hk.
      eapply lookup_lt; eauto. lia.
    - intros [H1 H2]. destruct r as [t k]. exists t. split; auto. apply in_map_iff. exists k. split; auto.
      unfold all_of. unfold lookup in H2. cbn in H2. destruct (aget t ds) as [l|]; [|congruence].
      apply in_seq. apply nth_error_Some in H2. lia.
  Qed.

  Lemma deactivate_all_all ds :
    exists ds', deactivate_all ds None = Ok ds' /\
      List.map fst ds' = List.map fst ds /\ (forall t, lens ds' t = lens ds t) /\
      forall r, lookup ds' r = option_map (set_status false) (lookup ds r).
  Proof.
    destruct (set_all_selected false ds None None (List.map fst ds) (all_of ds)) as (ds' & E & K & L & H).
    - constructor.
    - apply picks_none_wf.
    - apply picks_all_under. apply Forall_forall. auto.
    - exists ds'. split; [exact E|]. split; [exact K|]. split; [exact L|]. intros r. rewrite H.
      destruct (lookup ds r) as [d|] eqn:Er; [|reflexivity]. simpl. unfold in_refs.
      destruct (in_dec ref_eq_dec r (selected (List.map fst ds) (all_of ds))) as [_|N]; [reflexivity|].
      exfalso. apply N. apply in_all_of. split; [|congruence]. unfold lookup in Er.
      destruct (aget (fst r) ds) eqn:El; [|discriminate]. eapply key_aget; eauto.
  Qed.

  Lemma names_transfer ds ds' tag ts : List.map fst ds' = List.map fst ds -> names ds tag ts -> names ds' tag ts.
  Proof. intros K H. destruct H; [rewrite <- K; constructor|now constructor]. Qed.

  Lemma picks_transfer ds ds' index ts pos : (forall t, lens ds' t = lens ds t) ->
    picks_under ds index ts pos -> picks_under ds' index ts pos.
  Proof.
    intros L H t Ht. destruct (H t Ht) as (l & Hl & Hp). specialize (L t). unfold lens in L. rewrite Hl in L.
    destruct (aget t ds') as [l'|]; [|discriminate]. simpl in L. injection L as L. exists l'. split; auto. now rewrite L.
  Qed.
End StatusFacts.
