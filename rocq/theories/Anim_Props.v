(** * C94: the frames of an animation *)
From Coq Require Import String Ascii List Arith ZArith QArith Bool Lia Lqa Permutation Sorted.
From Verif Require Import Prelude PreludeFacts NdArray Sort GData_Model DataSpace_Model DataSpace_Spec DataSpace_Proofs DataSpace_Proofs2 DataSpace_Proofs3
  DataSpace_Props Multi_Model Multi_Proofs Multi_Proofs2 Range_Model Range_Props Anim_Model Anim_Proofs.
Import ListNotations.
Open Scope list_scope.

Section Anim.
  Context {A : Type} (vals : gdata A -> list Q) (dims : gdata A -> nat) (time : blk A -> option Q) (fmt : Q -> string).
  Implicit Types (ds : dspace (blk A)) (r : ref).

  (** ** Limits of an animation of all datasets: given ones win. *)
  Definition or_else (x : option Q) (y : Q) : option Q := match x with Some _ => x | None => Some y end.
  Definition plain_lims (o : aopts) ds (l : list ref) (st : lims) : Prop :=
    let g := a_lims o in
    (a_float o = true -> st = g) /\
    (a_float o = false -> ranged vals dims o ds l (fun lo hi one =>
       if one then st = mk_lims (or_else (l_ymin g) lo) (or_else (l_ymax g) hi) (l_zmin g) (l_zmax g)
       else st = mk_lims (l_ymin g) (l_ymax g) (or_else (l_zmin g) lo) (or_else (l_zmax g) hi))).

  Lemma refs_active ds use ts : names ds use ts -> Forall (fun t => In t (List.map fst ds)) ts -> refs_of ds use = Ok (active_all ds ts).
  Proof. intros Hn Hk. unfold refs_of. destruct (visits_all ds use ts Hn Hk) as (vs & E & Es). rewrite E. cbn [bind]. now rewrite Es. Qed.

  Lemma active_lookup ds ts : has_all ds (active_all ds ts).
  Proof. intros r Hr E. apply in_active_all in Hr as (_ & H). unfold is_active in H. rewrite E in H. discriminate H. Qed.

  Lemma start_spec o ds ts :
    names ds (a_use o) ts -> Forall (fun t => In t (List.map fst ds)) ts -> a_group o = false ->
    (a_float o = false -> active_all ds ts <> [] /\ have_values vals ds (active_all ds ts) /\ good_cutoff (a_cutoff o)) ->
    exists st, start_lims vals dims o ds = Ok st /\ plain_lims o ds (active_all ds ts) st.
  Proof.
    intros Hn Hk G H. unfold start_lims, plain_lims. rewrite G. destruct (a_float o) eqn:Fl; cbn [negb andb].
    - exists (a_lims o). split; [reflexivity|]. split; [reflexivity|discriminate].
    - destruct (H eq_refl) as (N & V & C). rewrite (refs_active ds (a_use o) ts Hn Hk). cbn [bind].
      destruct (range_exists vals dims o ds _ N V C) as (lo & hi & l' & r & d & El & Ed & E & R). rewrite E. cbn [bind].
      eexists. split; [reflexivity|]. split; [discriminate|]. intros _. exists lo, hi, l', r, d. split; [exact El|]. split; [exact Ed|]. split; [exact R|].
      destruct (dims (b_data (ds_data d)) =? 1)%nat; reflexivity.
  Qed.

  Definition shown_ok (o : aopts) (P : list (list acall) -> Prop) (out : aout) : Prop :=
    (given (a_saveframes o) = None -> a_show o = true -> exists fs, P fs /\ o_shown out = Some [Ok fs]) /\
    (given (a_saveframes o) <> None \/ a_show o = false -> o_shown out = None).

  Lemma shown_spec o color ds st fl P movies files :
    (exists fs st', run vals dims time fmt o color false ds st fl = Ok (fs, st') /\ P fs) ->
    shown_ok o P (mk_aout movies files (shown vals dims time fmt o color false ds st [fl])).
  Proof.
    intros (fs & st' & E & HP). unfold shown_ok, shown. cbn [o_shown List.map]. rewrite E. cbn [bind].
    destruct (given (a_saveframes o)); [split; [discriminate|reflexivity]|]. destruct (a_show o); split.
    - intros _ _. exists fs. auto.
    - intros [H|H]; [congruence|discriminate H].
    - intros _ H. discriminate H.
    - reflexivity.
  Qed.

  (** One frame for each active dataset, in order; all with the same limits. *)
  Theorem C94_plain o ds ts :
    names ds (a_use o) ts -> Forall (fun t => In t (List.map fst ds)) ts ->
    a_group o = false -> a_multiblock o = false ->
    let rs := active_all ds ts in
    (a_float o = false -> rs <> [] /\ have_values vals ds rs /\ good_cutoff (a_cutoff o)) ->
    exists out st, animate vals dims time fmt o ds = Ok (ds, out) /\ plain_lims o ds rs st /\
      let P fs := Forall2 (fun r calls => frame_ok time fmt o (a_color o) false ds st [r] calls) rs fs in
      written o "anim.mp4" P (o_movies out) (o_frames out) /\ shown_ok o P out.
  Proof.
    intros Hn Hk G M rs H. unfold animate. destruct (start_spec o ds ts Hn Hk G H) as (st & Est & PL). rewrite Est. cbn [bind].
    rewrite G, M, (refs_active ds (a_use o) ts Hn Hk). cbn [bind]. fold rs.
    assert (MF : a_multiblock o && a_float o = false) by now rewrite M.
    assert (Fl : Forall (fun l => l <> [] /\ has_all ds l) (List.map (fun r => [r]) rs)).
    { rewrite Forall_map. apply Forall_forall. intros r Hr. split; [discriminate|]. intros r' [<-|[]]. now apply (active_lookup ds ts). }
    destruct (run_fixed vals dims time fmt o (a_color o) false ds st _ MF Fl) as (fs & E & F2).
    assert (F3 : Forall2 (fun r calls => frame_ok time fmt o (a_color o) false ds st [r] calls) rs fs).
    { clear - F2. revert fs F2. induction rs as [|r rs IH]; intros fs F2; inversion F2; subst; constructor; auto. }
    destruct (one_anim_spec vals dims time fmt o (a_color o) false "anim.mp4" ds st (List.map (fun r => [r]) rs)
      (fun fs => Forall2 (fun r calls => frame_ok time fmt o (a_color o) false ds st [r] calls) rs fs) (fun s => s = st)) as (movies & files & st' & Eo & -> & W);
      [intros _; exists fs, st; auto|reflexivity|].
    rewrite Eo. cbn [bind]. eexists _, st. split; [reflexivity|]. split; [exact PL|]. cbv zeta. split; [exact W|].
    apply shown_spec. exists fs, st. auto.
  Qed.

  (** Without datasets there is no common range. *)
  Theorem C94_no_datasets o ds ts :
    names ds (a_use o) ts -> Forall (fun t => In t (List.map fst ds)) ts ->
    a_group o = false -> a_float o = false -> a_cutoff o = None -> active_all ds ts = [] ->
    animate vals dims time fmt o ds = Err UnboundLocalError.
  Proof.
    intros Hn Hk G Fl C E. unfold animate, start_lims. rewrite G, Fl. cbn [negb andb]. rewrite (refs_active ds (a_use o) ts Hn Hk), E. cbn [bind].
    unfold range_of. cbn [List.map]. now rewrite C.
  Qed.

  (** ** Several blocks in a frame *)

  Lemma frames_set ds ds' zs : set_frame ds = Ok (ds', zs) ->
    StronglySorted Z.lt zs /\
    forall r, is_active ds r = true -> In (fst r) (List.map fst ds) ->
      exists d z, lookup ds' r = Some d /\ b_frame (ds_data d) = Some z /\ In z zs.
  Proof.
    unfold set_frame. intros H. apply bind_ok in H as (rs & _ & H).
    destruct (List.map _ rs) as [|f fs]; [discriminate|]. apply bind_ok in H as (frames & _ & H).
    apply bind_ok in H as (ds1 & H & E). injection E as <- <-. split; [apply unique_Z_sorted|]. intros r Ha Hr.
    assert (Kp : keeps (fun ds : dspace (blk A) => ds) (frame_body frames) (fun t => In t (List.map fst ds))).
    { intros i q st st' Hb t _. unfold frame_body in Hb. destruct (nth_error frames i) as [z|]; [|discriminate]. injection Hb as <-.
      assert (Sm : sim st (modify st q (fun d => set_data (set_b_frame z (ds_data d)) d))) by (apply sim_modify; reflexivity). apply Sm. }
    destruct (iterate_selected (fun ds : dspace (blk A) => ds) (frame_body frames) true None None (List.map fst ds) (all_of ds) ds)
      as (cs & Es & _ & EE); [constructor|apply picks_none_wf|apply picks_all_under; apply Forall_forall; auto|exact Kp|].
    change (iterate (fun ds : dspace (blk A) => ds) (frame_body frames) true None true SelNone ds = Ok ds1) in H.
    assert (H' : foldM (vis (fun ds : dspace (blk A) => ds) (frame_body frames) true) cs ds = Ok ds1) by (rewrite <- EE; exact H). clear EE H.
    assert (Hin : In r (List.map snd cs)).
    { rewrite Es. apply in_all_of. split; [exact Hr|]. unfold is_active in Ha. intros N. rewrite N in Ha. discriminate Ha. }
    assert (G : forall cs x y, foldM (vis (fun ds : dspace (blk A) => ds) (frame_body frames) true) cs x = Ok y ->
      is_active x r = true ->
      (In r (List.map snd cs) \/ exists d z, lookup x r = Some d /\ b_frame (ds_data d) = Some z /\ In z (unique_Z frames)) ->
      exists d z, lookup y r = Some d /\ b_frame (ds_data d) = Some z /\ In z (unique_Z frames)).
    { clear. induction cs as [|(i, q) cs IH]; intros x y H Ha Hi; cbn [foldM] in H.
      - injection H as <-. destruct Hi as [[]|Hi]. exact Hi.
      - apply bind_ok in H as (x1 & H1 & H2). unfold vis, visit in H1. cbn [fst snd] in H1.
        destruct (ref_eq_dec r q) as [<-|Ne].
        + unfold is_active in Ha. destruct (lookup x r) as [d|] eqn:Ed; [|discriminate Ha]. rewrite Ha in H1. cbn [negb orb] in H1.
          unfold frame_body in H1. destruct (nth_error frames i) as [z|] eqn:Ez; [|discriminate H1]. injection H1 as <-.
          assert (L : lookup (modify x r (fun d => set_data (set_b_frame z (ds_data d)) d)) r = Some (set_data (set_b_frame z (ds_data d)) d)).
          { rewrite lookup_modify. destruct (ref_eq_dec r r); [|congruence]. now rewrite Ed. }
          apply (IH _ _ H2); [unfold is_active; rewrite L; exact Ha|]. right. eexists _, z. split; [exact L|]. split; [reflexivity|].
          apply unique_Z_in. eapply nth_error_In; eauto.
        + assert (L : lookup x1 r = lookup x r).
          { destruct (lookup x q) as [d|]; [|now injection H1 as <-]. destruct (negb true || ds_status d); [|now injection H1 as <-].
            unfold frame_body in H1. destruct (nth_error frames i); [|discriminate H1]. injection H1 as <-. rewrite lookup_modify. now destruct (ref_eq_dec r q). }
          apply (IH _ _ H2); [unfold is_active in *; now rewrite L|]. rewrite L. destruct Hi as [[Hq|Hi]|Hi]; [cbn in Hq; congruence|now left|now right]. }
    apply (G cs ds ds1 H'); auto.
  Qed.

  Definition in_frame ds (z : Z) r : bool :=
    match lookup ds r with Some d => match b_frame (ds_data d) with Some f => (f =? z)%Z | None => false end | None => false end.

  Lemma of_frame_spec ds z rs : (forall r, In r rs -> exists d f, lookup ds r = Some d /\ b_frame (ds_data d) = Some f) ->
    of_frame ds z rs = Ok (List.filter (in_frame ds z) rs).
  Proof.
    induction rs as [|r rs IH]; intros H; [reflexivity|]. cbn [of_frame List.filter]. destruct (H r) as (d & f & Ed & Ef); [now left|].
    unfold in_frame at 1. rewrite Ed, Ef, IH by (intros q Hq; apply H; now right). cbn [bind]. reflexivity.
  Qed.

  Lemma split_by_frame ds zs rs : NoDup zs ->
    (forall r, In r rs -> exists d z, lookup ds r = Some d /\ b_frame (ds_data d) = Some z /\ In z zs) ->
    Permutation (concat (List.map (fun z => List.filter (in_frame ds z) rs) zs)) rs.
  Proof.
    intros N. induction rs as [|r rs IH]; intros H.
    - cbn [List.filter]. clear. induction zs; [constructor|exact IHzs].
    - assert (IHp : Permutation (concat (List.map (fun z => List.filter (in_frame ds z) rs) zs)) rs) by (apply IH; intros q Hq; apply H; now right).
      destruct (H r) as (d & z & Ed & Ez & Hz); [now left|]. apply Permutation_trans with (r :: concat (List.map (fun z => List.filter (in_frame ds z) rs) zs)); [|now constructor]. clear IHp IH H.
      apply in_split in Hz as (z1 & z2 & ->).
      assert (Off : forall ws, ~ In z ws -> List.map (fun z => List.filter (in_frame ds z) (r :: rs)) ws = List.map (fun z => List.filter (in_frame ds z) rs) ws).
      { intros ws Hw. apply map_ext_in. intros w Hin. cbn [List.filter]. unfold in_frame at 1. rewrite Ed, Ez.
        destruct (Z.eqb_spec z w); [subst; contradiction|reflexivity]. }
      apply NoDup_remove_2 in N. rewrite in_app_iff in N.
      rewrite !map_app, !concat_app. cbn [List.map concat]. rewrite !Off by tauto.
      cbn [List.filter]. unfold in_frame at 2. rewrite Ed, Ez, Z.eqb_refl. cbn [app]. symmetry. apply Permutation_middle.
  Qed.

  Lemma Forall2_imp {X Y} (R R' : X -> Y -> Prop) l l' : (forall x y, R x y -> R' x y) -> Forall2 R l l' -> Forall2 R' l l'.
  Proof. intros H. induction 1; constructor; auto. Qed.

  (** One frame for each frame number in increasing order, with the active
      datasets of that number; each is shown exactly once. *)
  Theorem C94_multiblock o ds ts ds' zs :
    names ds (a_use o) ts -> Forall (fun t => In t (List.map fst ds)) ts ->
    a_group o = false -> a_multiblock o = true -> set_frame ds = Ok (ds', zs) ->
    let rs := active_all ds ts in
    let fl := List.map (fun z => List.filter (in_frame ds' z) rs) zs in
    have_values vals ds rs -> good_cutoff (a_cutoff o) ->
    (forall l, In l fl -> l <> []) ->
    StronglySorted Z.lt zs /\ Permutation (concat fl) rs /\
    exists out st color, animate vals dims time fmt o ds = Ok (ds', out) /\
      (a_float o = false -> plain_lims o ds rs st) /\
      (given (a_color o) <> None -> color = a_color o) /\
      (given (a_color o) = None -> exists r l d, hd [] fl = r :: l /\ lookup ds r = Some d /\
         color = if (dims (b_data (ds_data d)) =? 1)%nat then Some "tab:blue"%string else a_color o) /\
      let P fs := Forall2 (fun l calls => exists st', (a_float o = false -> st' = st) /\ (a_float o = true -> own_range vals dims o ds' l st') /\
                                                     frame_ok time fmt o color false ds' st' l calls) fl fs in
      written o "anim.mp4" P (o_movies out) (o_frames out) /\ shown_ok o P out.
  Proof.
    intros Hn Hk G M SF rs fl HV C NE. destruct (frames_set ds ds' zs SF) as (Ss & HF). destruct (set_frame_sim ds ds' zs SF) as (Sm & _).
    assert (HF' : forall r, In r rs -> exists d z, lookup ds' r = Some d /\ b_frame (ds_data d) = Some z /\ In z zs).
    { intros r Hr. apply in_active_all in Hr as (Ht & Ha). apply HF; [exact Ha|]. rewrite Forall_forall in Hk. now apply Hk. }
    assert (NDz : NoDup zs). { clear - Ss. induction Ss as [|z zs Ss IH F]; constructor; auto. intros Hz. rewrite Forall_forall in F. specialize (F z Hz). lia. }
    split; [exact Ss|]. split; [now apply split_by_frame|].
    assert (Nr : rs <> []).
    { intros E. unfold set_frame in SF. destruct zs as [|z zs'].
      - apply bind_ok in SF as (rs0 & _ & SF). destruct (List.map _ rs0) as [|f fs] eqn:Ef; [discriminate|]. apply bind_ok in SF as (frames & Em & SF).
        apply bind_ok in SF as (ds1 & _ & SF). injection SF as _ SF.
        assert (NF : frames <> []) by (destruct frames; [|discriminate]; cbn [mapM] in Em; apply bind_ok in Em as (x & _ & Em); apply bind_ok in Em as (y & _ & Em); discriminate Em).
        destruct frames as [|z frames]; [congruence|]. assert (I : In z (unique_Z (z :: frames))) by (apply unique_Z_in; now left). rewrite SF in I. destruct I.
      - apply (NE (List.filter (in_frame ds' z) rs)); [now left|]. now rewrite E. }
    unfold animate. destruct (start_spec o ds ts Hn Hk G) as (st & Est & PL); [auto|]. rewrite Est. cbn [bind]. rewrite G, M, SF. cbn [bind].
    rewrite (sim_refs ds ds' (a_use o) ts Sm Hn Hk). fold rs. cbn [bind].
    assert (EF : mapM (fun z => of_frame ds' z rs) zs = Ok fl).
    { unfold fl. clear - HF'. induction zs as [|z zs IH]; [reflexivity|].
      assert (Q : forall ws, mapM (fun z => of_frame ds' z rs) ws = Ok (List.map (fun z => List.filter (in_frame ds' z) rs) ws)).
      { induction ws as [|w ws IHw]; [reflexivity|]. cbn [mapM List.map]. rewrite of_frame_spec; [|intros r Hr; destruct (HF' r Hr) as (d & f & Ed & Ef & _); eauto].
        cbn [bind]. rewrite IHw. reflexivity. }
      apply Q. }
    rewrite EF. cbn [bind].
    assert (HV' : have_values vals ds' rs).
    { intros r Hr. destruct (HV r Hr) as (d & Ed & Hd). destruct (sim_lookup ds ds' r d Sm Ed) as (d' & Ed' & St). exists d'. split; [exact Ed'|].
      unfold strip in St. congruence. }
    assert (Sub : forall l, In l fl -> have_values vals ds' l).
    { intros l Hl r Hr. apply HV'. unfold fl in Hl. apply in_map_iff in Hl as (z & <- & _). now apply filter_In in Hr. }
    assert (Ecol : exists color,
      match given (a_color o) with
      | Some _ => Ok (a_color o)
      | None => match fl with
                | (r :: _) :: _ => Ok (if (fst (set_of vals dims ds' r) =? 1)%nat then Some "tab:blue"%string else a_color o)
                | _ => Err IndexError
                end
      end = Ok color /\ (given (a_color o) <> None -> color = a_color o) /\
      (given (a_color o) = None -> exists r l d, hd [] fl = r :: l /\ lookup ds r = Some d /\
         color = if (dims (b_data (ds_data d)) =? 1)%nat then Some "tab:blue"%string else a_color o)).
    { destruct (given (a_color o)); [exists (a_color o); split; [reflexivity|]; split; [reflexivity|discriminate]|].
      assert (P0 : Permutation (concat fl) rs) by now apply split_by_frame.
      destruct fl as [|l fl0] eqn:Efl; [apply Permutation_nil in P0; congruence|].
      destruct l as [|r l]; [exfalso; apply (NE []); [now left|reflexivity]|].
      eexists. split; [reflexivity|]. split; [congruence|]. intros _.
      destruct (Sub (r :: l) (or_introl eq_refl) r (or_introl eq_refl)) as (d' & Ed' & _).
      destruct (sim_lookup_back ds ds' r d' Sm Ed') as (d & Ed & St). exists r, l, d. split; [reflexivity|]. split; [exact Ed|].
      unfold set_of. rewrite Ed'. cbn [fst]. unfold strip in St. now replace (b_data (ds_data d')) with (b_data (ds_data d)) by congruence. }
    destruct Ecol as (color & Ec & Ec1 & Ec2). rewrite Ec. cbn [bind].
    set (P := fun fs => Forall2 (fun l calls => exists st', (a_float o = false -> st' = st) /\ (a_float o = true -> own_range vals dims o ds' l st') /\
                                                     frame_ok time fmt o color false ds' st' l calls) fl fs).
    assert (R : forall s, (a_float o = false -> s = st) -> exists fs s', run vals dims time fmt o color false ds' s fl = Ok (fs, s') /\ (a_float o = false -> s' = st) /\ P fs).
    { intros s Hs. destruct (a_float o) eqn:Fl.
      - destruct (run_float vals dims time fmt o color false ds' fl s) as (fs & s' & E & F2).
        + now rewrite M, Fl.
        + exact C.
        + apply Forall_forall. intros l Hl. split; [now apply NE|now apply Sub].
        + exists fs, s'. split; [exact E|]. split; [discriminate|]. unfold P. revert F2. apply Forall2_imp. intros l calls (s0 & H1 & H2). exists s0. split; [discriminate|]. auto.
      - rewrite (Hs eq_refl). destruct (run_fixed vals dims time fmt o color false ds' st fl) as (fs & E & F2).
        + now rewrite M, Fl.
        + apply Forall_forall. intros l Hl. split; [now apply NE|]. now apply (have_lookup vals), Sub.
        + exists fs, st. split; [exact E|]. split; [reflexivity|]. unfold P. revert F2. apply Forall2_imp. intros l calls H. exists st. split; [reflexivity|]. split; [discriminate|exact H]. }
    destruct (one_anim_spec vals dims time fmt o color false "anim.mp4" ds' st fl P (fun s => a_float o = false -> s = st)) as (movies & files & st' & Eo & I & W);
      [apply R|reflexivity|].
    rewrite Eo. cbn [bind]. eexists _, st, color. split; [reflexivity|]. split; [auto|]. split; [exact Ec1|]. split; [exact Ec2|]. cbv zeta. split; [exact W|].
    apply shown_spec. destruct (R st' I) as (fs & s' & E & _ & HP). exists fs, s'. auto.
  Qed.
End Anim.
