(** * C94: one animation for each tag *)
From Coq Require Import String Ascii List Arith ZArith QArith Bool Lia Lqa Permutation Sorted.
From Verif Require Import Prelude PreludeFacts NdArray Sort GData_Model DataSpace_Model DataSpace_Spec DataSpace_Proofs DataSpace_Proofs2 DataSpace_Proofs3
  DataSpace_Props Multi_Model Multi_Proofs Multi_Proofs2 Range_Model Range_Props Anim_Model Anim_Proofs Anim_Props.
Import ListNotations.
Open Scope list_scope.

Section Anim.
  Context {A : Type} (vals : gdata A -> list Q) (dims : gdata A -> nat) (time : blk A -> option Q) (fmt : Q -> string).
  Implicit Types (ds : dspace (blk A)) (r : ref).

  (** The tags an animation is made for: those with active datasets, or the
      ones named. *)
  Definition plain_tag (t : string) : Prop := t <> ""%string /\ has_char "," t = false.
  Definition groups ds (use : option string) (ts : list string) : Prop :=
    use = None /\ Forall plain_tag (List.map fst ds) /\
      ts = List.filter (fun t => match active_all ds [t] with [] => false | _ => true end) (List.map fst ds) \/
    names ds use ts /\ use <> None /\ Forall plain_tag ts.

  Lemma one_name ds t : plain_tag t -> names ds (Some t) [t].
  Proof. intros (N & C). change t with (join "," [t]) at 1. constructor; [discriminate|exact N|constructor; [exact C|constructor]]. Qed.

  Lemma active_tags_spec ds keys : Forall plain_tag keys -> Forall (fun t => In t (List.map fst ds)) keys ->
    active_tags ds keys = Ok (List.filter (fun t => match active_all ds [t] with [] => false | _ => true end) keys).
  Proof.
    induction keys as [|t keys IH]; intros P K; [reflexivity|]. inversion P; inversion K; subst. cbn [active_tags List.filter].
    destruct (visits_all ds (Some t) [t]) as (vs & E & Es); [now apply one_name|constructor; auto|]. rewrite E. cbn [bind]. rewrite IH by assumption. cbn [bind].
    rewrite <- Es. destruct vs; reflexivity.
  Qed.

  Lemma groups_tags ds use ts : groups ds use ts -> tag_iterator ds use true = Ok ts /\ Forall plain_tag ts.
  Proof.
    intros [(-> & P & ->)|(N & Nu & P)].
    - split; [apply active_tags_spec; [exact P|apply Forall_forall; auto]|]. apply Forall_forall. intros t Ht. apply filter_In in Ht as (Ht & _).
      rewrite Forall_forall in P. now apply P.
    - split; [|exact P]. inversion N; subst; [congruence|]. cbn [tag_iterator]. destruct (String.eqb_spec (join "," ts) ""); [contradiction|]. now rewrite split_join.
  Qed.

  (** ** Limits of the animation of a tag: its own range along the axis of the
      values; a range of y found for a one-dimensional tag is forgotten. *)
  Definition tag_lims (o : aopts) ds (t : string) (st : lims) : Prop :=
    ranged vals dims o ds (active_all ds [t]) (fun lo hi one =>
      if one then l_ymin st = Some lo /\ l_ymax st = Some hi
      else l_zmin st = Some lo /\ l_zmax st = Some hi /\
           (l_ymin st = l_ymin (a_lims o) /\ l_ymax st = l_ymax (a_lims o) \/ l_ymin st = None /\ l_ymax st = None)).

  Definition tag_frames (o : aopts) ds (n : nat) (t : string) (st : lims) (fs : list (list acall)) : Prop :=
    Forall2 (fun r calls => frame_ok time fmt o (a_color o) true ds st [r] calls) (firstn n (active_all ds [t])) fs.

  Lemma min_size_spec ds ts : Forall plain_tag ts -> Forall (fun t => In t (List.map fst ds)) ts -> forall n,
    exists m, min_size ds ts n = Ok m /\
      (m = None <-> n = None /\ ts = []) /\
      (forall k, m = Some k -> (forall t, In t ts -> (k <= length (active_all ds [t]))%nat) /\ (forall j, n = Some j -> (k <= j)%nat) /\
         ((exists t, In t ts /\ k = length (active_all ds [t])) \/ n = Some k)).
  Proof.
    induction ts as [|t ts IH]; intros P K n; cbn [min_size].
    - exists n. split; [reflexivity|]. split; [tauto|]. intros k ->. split; [intros t []|]. split; [intros j [= <-]; lia|now right].
    - inversion P as [|? ? P1 P2]; inversion K as [|? ? K1 K2]; subst.
      assert (E : get_num_datasets ds (Some t) true = Ok (length (active_all ds [t]))).
      { rewrite (C16_count ds (Some t) [t]); [reflexivity|now apply one_name|]. constructor; [|constructor].
        clear - K1. induction ds as [|(k, w) ds IHd]; [destruct K1|]. cbn in *. destruct (String.eqb_spec t k) as [->|Ne]; [discriminate|].
        destruct K1 as [->|K1]; [congruence|]. now apply IHd. }
      rewrite E. cbn [bind]. set (k := length (active_all ds [t])) in *.
      destruct (IH P2 K2 (Some (match n with Some n => Nat.min n k | None => k end))) as (m & Em & Hn & Hm). exists m. split; [exact Em|]. split.
      + split; [intros ->; destruct Hn as (Hn & _); destruct (Hn eq_refl); discriminate|intros (_ & H); discriminate H].
      + intros q Hq. destruct (Hm q Hq) as (M1 & M2 & M3). specialize (M2 _ eq_refl). split; [|split].
        * intros u [<-|Hu]; [|now apply M1]. fold k. destruct n; lia.
        * intros j ->. lia.
        * destruct M3 as [(u & Hu & ->)|M3]; [left; exists u; split; [now right|reflexivity]|]. injection M3 as M3. destruct n as [j|].
          -- destruct (Nat.min_spec j k) as [(Hjk & Hmin)|(Hjk & Hmin)]; [right; f_equal; lia|left; exists t; split; [now left|]; fold k; lia].
          -- left. exists t. split; [now left|]. auto.
  Qed.

  Lemma tag_anims_spec o ds n :
    a_multiblock o && a_float o = false -> good_cutoff (a_cutoff o) -> forall ts yset st,
    Forall plain_tag ts -> Forall (fun t => In t (List.map fst ds)) ts ->
    Forall (fun t => active_all ds [t] <> [] /\ have_values vals ds (active_all ds [t])) ts ->
    Forall (fun t => (n <= length (active_all ds [t]))%nat) ts ->
    (yset = false -> l_ymin st = l_ymin (a_lims o) /\ l_ymax st = l_ymax (a_lims o)) ->
    exists movies files anims st', tag_anims vals dims time fmt o ds n ts yset st = Ok (movies, files, anims, st') /\
      anims = List.map (fun t => List.map (fun r => [r]) (firstn n (active_all ds [t]))) ts /\
      (exists per, Forall2 (fun t mf => exists s, tag_lims o ds t s /\
           written o ("anim_" ++ t ++ ".mp4") (tag_frames o ds n t s) (fst mf) (snd mf)) ts per /\
         movies = flat_map fst per /\ files = flat_map snd per) /\
      (forall ts' t, ts = ts' ++ [t] -> tag_lims o ds t st').
  Proof.
    intros M Ct. induction ts as [|t ts IH]; intros yset st P K V L Iy; cbn [tag_anims].
    - exists [], [], [], st. split; [reflexivity|]. split; [reflexivity|]. split; [exists []; split; [constructor|auto]|]. intros [|? ?] ? E; discriminate E.
    - inversion P as [|? ? P1 P2]; inversion K as [|? ? K1 K2]; inversion V as [|? ? (V0 & V1) V2]; inversion L as [|? ? L1 L2]; subst.
      rewrite (refs_active ds (Some t) [t]); [|now apply one_name|constructor; auto]. cbn [bind].
      destruct (range_exists vals dims o ds _ V0 V1 Ct) as (lo & hi & l' & r & d & El & Ed & E & R). rewrite E. cbn [bind].
      set (one := (dims (b_data (ds_data d)) =? 1)%nat).
      set (st1 := if one then mk_lims (Some lo) (Some hi) (l_zmin st) (l_zmax st)
                  else mk_lims (if yset then None else l_ymin st) (if yset then None else l_ymax st) (Some lo) (Some hi)).
      assert (TL : tag_lims o ds t st1).
      { exists lo, hi, l', r, d. split; [exact El|]. split; [exact Ed|]. split; [exact R|]. fold one. unfold st1. destruct one; cbn; [auto|].
        split; [reflexivity|]. split; [reflexivity|]. destruct yset; [right; auto|left; now apply Iy]. }
      assert (Iy1 : (if one then true else yset) = false -> l_ymin st1 = l_ymin (a_lims o) /\ l_ymax st1 = l_ymax (a_lims o)).
      { unfold st1. destruct one; [discriminate|]. intros ->. cbn. now apply Iy. }
      rewrite Nat.min_l by exact L1. rewrite firstn_map.
      set (fl := List.map (fun r => [r]) (firstn n (active_all ds [t]))).
      assert (Fl : Forall (fun l => l <> [] /\ has_all ds l) fl).
      { unfold fl. rewrite Forall_map. apply Forall_forall. intros q Hq. split; [discriminate|]. intros q' [<-|[]]. apply (active_lookup ds [t]).
        rewrite <- (firstn_skipn n (active_all ds [t])). apply in_or_app. now left. }
      destruct (run_fixed vals dims time fmt o (a_color o) true ds st1 fl M Fl) as (fs & Er & F2).
      assert (F3 : tag_frames o ds n t st1 fs).
      { unfold tag_frames. unfold fl in F2. clear - F2. revert fs F2. induction (firstn n (active_all ds [t])) as [|q rs IH]; intros fs F2; inversion F2; subst; constructor; auto. }
      destruct (one_anim_spec vals dims time fmt o (a_color o) true ("anim_" ++ t ++ ".mp4") ds st1 fl (tag_frames o ds n t st1) (fun s => s = st1))
        as (movies & files & s' & Eo & -> & W); [intros _; exists fs, st1; auto|reflexivity|].
      rewrite Eo. cbn [bind]. destruct (IH (if one then true else yset) st1 P2 K2 V2 L2 Iy1) as (m2 & f2 & an & st2 & E2 & Ea & (per & F4 & Em & Ef) & Lst).
      fold one. rewrite E2. cbn [bind]. eexists _, _, _, _. split; [reflexivity|]. split; [cbn [List.map]; now rewrite Ea|]. split.
      + exists ((movies, files) :: per). split; [constructor; [exists st1; auto|exact F4]|]. cbn [flat_map fst snd]. now rewrite Em, Ef.
      + intros [|t0 ts'] u Eu.
        * injection Eu as -> ->. cbn [tag_anims] in E2. injection E2 as _ _ _ <-. exact TL.
        * injection Eu as -> ->. now apply (Lst ts' u).
  Qed.

  (** An animation for each tag with as many frames as the tag with the fewest
      datasets has; frame [i] of a tag is its [i]-th active dataset.  What is
      shown, after the command, has the limits of the last tag. *)
  Theorem C94_grouptags o ds ts :
    groups ds (a_use o) ts -> Forall (fun t => In t (List.map fst ds)) ts -> ts <> [] ->
    a_group o = true -> a_multiblock o && a_float o = false -> good_cutoff (a_cutoff o) ->
    Forall (fun t => active_all ds [t] <> [] /\ have_values vals ds (active_all ds [t])) ts ->
    exists out n, animate vals dims time fmt o ds = Ok (ds, out) /\
      (exists t, In t ts /\ n = length (active_all ds [t])) /\ (forall t, In t ts -> (n <= length (active_all ds [t]))%nat) /\
      (exists per, Forall2 (fun t mf => exists st, tag_lims o ds t st /\
           written o ("anim_" ++ t ++ ".mp4") (tag_frames o ds n t st) (fst mf) (snd mf)) ts per /\
         o_movies out = flat_map fst per /\ o_frames out = flat_map snd per) /\
      (given (a_saveframes o) <> None \/ a_show o = false -> o_shown out = None) /\
      (given (a_saveframes o) = None -> a_show o = true -> exists st sh, o_shown out = Some sh /\
         (forall ts' t, ts = ts' ++ [t] -> tag_lims o ds t st) /\
         Forall2 (fun t fr => exists fs, fr = Ok fs /\ tag_frames o ds n t st fs) ts sh).
  Proof.
    intros Hg K NE G M Ct V. destruct (groups_tags ds (a_use o) ts Hg) as (Et & P). unfold animate, start_lims. rewrite G. cbn [negb]. rewrite andb_false_r. cbn [bind].
    rewrite Et. cbn [bind]. destruct (min_size_spec ds ts P K None) as (m & Em & Hn & Hm). rewrite Em. cbn [bind].
    destruct m as [n|]; [|destruct Hn as (Hn & _); destruct (Hn eq_refl) as (_ & Hts); congruence].
    destruct (Hm n eq_refl) as (M1 & _ & M3).
    destruct (tag_anims_spec o ds n M Ct ts false (a_lims o) P K V) as (movies & files & anims & st & E & Ea & Per & Lst).
    { apply Forall_forall. exact M1. } { auto. }
    rewrite E. cbn [bind]. eexists _, n. split; [reflexivity|]. split; [destruct M3 as [M3|M3]; [exact M3|discriminate M3]|]. split; [exact M1|].
    split; [exact Per|]. cbn [o_shown].
    assert (Esh : match ts with [] => if a_show o then Some [] else None | _ :: _ => shown vals dims time fmt o (a_color o) true ds st anims end
                  = shown vals dims time fmt o (a_color o) true ds st anims) by (destruct ts; [congruence|reflexivity]).
    rewrite Esh. unfold shown. split.
    - intros [H|H]; [destruct (given (a_saveframes o)); [reflexivity|congruence]|]. rewrite H. now destruct (given (a_saveframes o)).
    - intros Sf Sh. rewrite Sf, Sh. eexists st, _. split; [reflexivity|]. split; [exact Lst|]. rewrite Ea, map_map. clear - M.
      induction ts as [|t ts IH]; constructor; [|exact IH].
      set (fl := List.map (fun r => [r]) (firstn n (active_all ds [t]))).
      assert (Fl : Forall (fun l => l <> [] /\ has_all ds l) fl).
      { unfold fl. rewrite Forall_map. apply Forall_forall. intros q Hq. split; [discriminate|]. intros q' [<-|[]]. apply (active_lookup ds [t]).
        rewrite <- (firstn_skipn n (active_all ds [t])). apply in_or_app. now left. }
      destruct (run_fixed vals dims time fmt o (a_color o) true ds st fl M Fl) as (fs & Er & F2). exists fs. rewrite Er. split; [reflexivity|].
      unfold tag_frames. unfold fl in F2. clear - F2. revert fs F2. induction (firstn n (active_all ds [t])) as [|q rs IH]; intros fs F2; inversion F2; subst; constructor; auto.
  Qed.
End Anim.
