(** * C85: frame numbers are taken from the file names. *)
From Coq Require Import String Ascii List Arith ZArith QArith Bool Sorted Permutation Lia DecimalString.
From Verif Require Import Prelude PreludeFacts NdArray GData_Model Select_Model DataSpace_Model
  DataSpace_Spec DataSpace_Proofs DataSpace_Proofs2 DataSpace_Proofs3 Sort Multi_Model Multi_Proofs.
Import ListNotations.
Open Scope list_scope.

(** The name of the output of frame [n]: a stem, the frame number in decimal
    notation [w], then either the extension or an underscore. *)
Definition names_frame (stem w : string) (n : N) (file : string) : Prop :=
  digits_val w = Some n /\
  exists rest, file = (stem ++ w ++ rest)%string /\
    (starts_with ".gkyl" rest = true \/ starts_with "_" rest = true).

(** A dataset with its frame number written, nothing else changed. *)
Definition with_frame {A} (d : dset (blk A)) (z : Z) : dset (blk A) :=
  mk_dset (ds_id d) (ds_file d) (ds_status d) (ds_label d)
    (mk_blk (b_data (ds_data d)) (Some z) (b_nbrs (ds_data d))).

Lemma names_frame_split stem w n f : names_frame stem w n f ->
  exists c w' f', w = String c w' /\ f = (stem ++ String c f')%string.
Proof.
  intros [Hw (rest & -> & _)]. destruct w as [|c w]; [discriminate|]. exists c, w, (w ++ rest)%string. auto.
Qed.

Lemma frame_number_named stem w n f :
  contains ".gkyl" stem = false -> names_frame stem w n f ->
  frame_number (Some (String.length stem)) f = Ok (Z.of_N n).
Proof.
  intros Hs [Hw (rest & -> & Hr)]. unfold frame_number.
  assert (Hdot : has_char "." w = false).
  { apply (digits_no _ _ n); auto. unfold digit_char. simpl. intros H. repeat (destruct H as [H|H]; [discriminate|]). exact H. }
  assert (Hund : has_char "_" w = false).
  { apply (digits_no _ _ n); auto. unfold digit_char. simpl. intros H. repeat (destruct H as [H|H]; [discriminate|]). exact H. }
  destruct w as [|c w]; [discriminate|].
  assert (Hc : has_char c ".gkyl" = false).
  { assert (Hd : digit_char c).
    { eapply (digit_uint (String c w)); [eapply digits_val_digits; eauto|]. cbn [has_char]. now rewrite Ascii.eqb_refl. }
    unfold digit_char in Hd. simpl in Hd. repeat (destruct Hd as [<-|Hd]; [reflexivity|]). destruct Hd. }
  change ((stem ++ String c w ++ rest)%string) with ((stem ++ String c (w ++ rest))%string).
  rewrite before_app by auto. rewrite drop_app.
  change (String c (w ++ rest)%string) with ((String c w ++ rest)%string).
  destruct rest as [|e rest]; [destruct Hr; discriminate|].
  assert (He : has_char e ".gkyl" = false \/ e = "."%char).
  { destruct Hr as [Hr|Hr]; cbn [starts_with] in Hr; apply andb_true_iff in Hr as [Hr _]; apply Ascii.eqb_eq in Hr; subst e; auto. }
  assert (Eb : before ".gkyl" (String c w ++ String e rest)
               = (String c w ++ before ".gkyl" (String e rest))%string).
  { assert (Hw' : has_char "." (String c w) = false) by exact Hdot. clear - Hw'.
    induction (String c w) as [|a u IH]; [reflexivity|]. cbn [has_char] in Hw'. apply orb_false_iff in Hw' as [H1 H2].
    change ((String a u ++ String e rest)%string) with (String a (u ++ String e rest)).
    cbn [before]. assert (E : starts_with ".gkyl" (String a (u ++ String e rest)) = false).
    { cbn [starts_with]. destruct (Ascii.eqb "." a) eqn:E; [|reflexivity]. apply Ascii.eqb_eq in E. subst. discriminate. }
    rewrite E. cbn. now rewrite IH. }
  rewrite Eb.
  assert (Eh : hd ""%string (split_on "_" (String c w ++ before ".gkyl" (String e rest))) = String c w).
  { destruct Hr as [Hr|Hr].
    - cbn [before]. rewrite Hr. replace ((String c w ++ "")%string) with (String c w).
      + rewrite split_on_none by exact Hund. reflexivity.
      + clear. induction (String c w); [reflexivity|]. cbn. now rewrite <- IHs.
    - cbn [starts_with] in Hr. apply andb_true_iff in Hr as [Hr _]. apply Ascii.eqb_eq in Hr. subst e.
      change (before ".gkyl" (String "_" rest)) with (String "_" (before ".gkyl" rest)).
      rewrite split_on_app by exact Hund. reflexivity. }
  rewrite Eh. now apply digits_py_int.
Qed.

Lemma single_refs {A} t (l : list (dset (blk A))) :
  Forall (fun d => ds_status d = true) l ->
  refs_of [(t, l)] None = Ok (List.map (pair t) (seq 0 (length l))).
Proof.
  intros H. unfold refs_of.
  destruct (visits_all [(t, l)] None [t]) as (vs & E & Es); [constructor|constructor; [now left|constructor]|].
  rewrite E. cbn [bind]. f_equal. rewrite Es. unfold active_all, selected, all_of. cbn [flat_map aget].
  rewrite String.eqb_refl, app_nil_r.
  assert (G : forall l0, (forall r, In r l0 -> is_active [(t, l)] r = true) -> List.filter (is_active [(t, l)]) l0 = l0).
  { induction l0 as [|r l0 IH]; intros Hr; [reflexivity|]. cbn [List.filter]. rewrite Hr by now left. f_equal. apply IH.
    intros; apply Hr; now right. }
  apply G. intros r Hr. apply in_map_iff in Hr as (k & <- & Hk). apply in_seq in Hk.
  unfold is_active, lookup. cbn [fst snd aget]. rewrite String.eqb_refl.
  destruct (nth_error l k) as [d|] eqn:Ed; [|apply nth_error_None in Ed; lia].
  rewrite Forall_forall in H. apply H. eapply nth_error_In; eauto.
Qed.

(** C85: for one tag of active datasets whose names share a stem and do not all
    have the same leading digit in the frame number, every dataset gets the
    frame number of its own file name, nothing else changes, and the frames
    are returned in increasing order without repetition. *)
Theorem C85_frames {A} t (l : list (dset (blk A))) stem (ws : list string) (ns : list N) :
  contains ".gkyl" stem = false ->
  Forall (fun d => ds_status d = true) l ->
  length ws = length l -> length ns = length l ->
  (forall k d w n, nth_error l k = Some d -> nth_error ws k = Some w -> nth_error ns k = Some n ->
     names_frame stem w n (ds_file d)) ->
  (exists w w', In w ws /\ In w' ws /\ String.get 0 w <> String.get 0 w') ->
  exists frames, set_frame [(t, l)] = Ok ([(t, map2 (fun d n => with_frame d (Z.of_N n)) l ns)], frames) /\
    StronglySorted Z.lt frames /\ forall z, In z frames <-> exists n, In n ns /\ z = Z.of_N n.
Proof.
  intros Hst Hact Hlw Hln Hnm (w1 & w2 & Hw1 & Hw2 & Hd).
  unfold set_frame. rewrite single_refs by auto. cbn [bind]. rewrite map_map.
  set (files := List.map _ (seq 0 (length l))).
  assert (Efl : files = List.map (fun d => ds_file d) l).
  { unfold files. apply nth_error_ext. intros k. rewrite !nth_error_map, nth_error_seq.
    destruct (k <? length l)%nat eqn:Ek; cbn [option_map].
    - unfold lookup. cbn [fst snd aget]. rewrite String.eqb_refl. cbn [Nat.add].
      apply Nat.ltb_lt in Ek. destruct (nth_error l k) eqn:E; [reflexivity|]. apply nth_error_None in E. lia.
    - apply Nat.ltb_ge in Ek. apply nth_error_None in Ek. now rewrite Ek. }
  clearbody files. subst files.
  assert (Hparts : forall k w, nth_error ws k = Some w -> exists d c w' f', nth_error l k = Some d /\ w = String c w' /\
            ds_file d = (stem ++ String c f')%string).
  { intros k w Hk. destruct (nth_error l k) as [d|] eqn:Ed.
    2:{ apply nth_error_None in Ed. assert (k < length ws)%nat by (apply nth_error_Some; congruence). lia. }
    destruct (nth_error ns k) as [n|] eqn:En.
    2:{ apply nth_error_None in En. assert (k < length ws)%nat by (apply nth_error_Some; congruence). lia. }
    destruct (names_frame_split _ _ _ _ (Hnm k d w n Ed Hk En)) as (c & w' & f' & H1 & H2). eauto 8. }
  assert (Hall : Forall (fun f => exists b f', f = (stem ++ String b f')%string) (List.map (fun d => ds_file d) l)).
  { apply Forall_forall. intros f Hf. apply in_map_iff in Hf as (d & <- & Hin). apply In_nth_error in Hin as [k Hk].
    destruct (nth_error ws k) as [w|] eqn:Ew.
    2:{ apply nth_error_None in Ew. assert (k < length l)%nat by (apply nth_error_Some; congruence). lia. }
    destruct (Hparts k w Ew) as (d' & c & w' & f' & H1 & H2 & H3). rewrite Hk in H1. injection H1 as <-. eauto. }
  destruct (List.map (fun d => ds_file d) l) as [|f fs] eqn:Ef.
  { destruct l; [|discriminate]. destruct ws; [destruct Hw1|discriminate]. }
  assert (Hsh : exists a s, shortest f fs = (stem ++ String a s)%string).
  { pose proof (shortest_in f fs) as Hi. rewrite Forall_forall in Hall. destruct (Hall _ Hi) as (b & f' & E). eauto. }
  destruct Hsh as (a & s & Hsh). rewrite Hsh.
  assert (Hex : exists b f', In (stem ++ String b f')%string (f :: fs) /\ a <> b).
  { apply In_nth_error in Hw1 as [k1 Hk1]. apply In_nth_error in Hw2 as [k2 Hk2].
    destruct (Hparts k1 w1 Hk1) as (d1 & c1 & w1' & f1 & A1 & A2 & A3).
    destruct (Hparts k2 w2 Hk2) as (d2 & c2 & w2' & f2 & B1 & B2 & B3).
    assert (Hc : c1 <> c2) by (subst; cbn in Hd; congruence).
    assert (In1 : In (stem ++ String c1 f1)%string (f :: fs)).
    { rewrite <- Ef, <- A3. apply in_map. eapply nth_error_In; eauto. }
    assert (In2 : In (stem ++ String c2 f2)%string (f :: fs)).
    { rewrite <- Ef, <- B3. apply in_map. eapply nth_error_In; eauto. }
    destruct (ascii_dec a c1) as [->|]; [exists c2, f2|exists c1, f1]; auto. }
  rewrite (first_difference_spec stem a s (f :: fs)) by auto.
  rewrite <- Ef in *. clear Hex Hsh Hall Ef f fs a s.
  assert (Efr : mapM (frame_number (Some (String.length stem))) (List.map (fun d => ds_file d) l) = Ok (List.map Z.of_N ns)).
  { clear - Hst Hlw Hln Hnm. revert ws ns Hlw Hln Hnm. induction l as [|d l IH]; intros ws ns Hlw Hln Hnm.
    - destruct ns; [reflexivity|discriminate].
    - destruct ws as [|w ws]; [discriminate|]. destruct ns as [|n ns]; [discriminate|]. cbn [List.map mapM].
      rewrite (frame_number_named stem w n) by (auto; apply (Hnm 0%nat); reflexivity). cbn [bind].
      rewrite (IH ws ns); auto. intros k. apply (Hnm (S k)). }
  rewrite Efr. cbn [bind].
  change (fun i r ds => match nth_error (List.map Z.of_N ns) i with
                        | Some z => Ok (modify ds r (fun d => set_data (set_b_frame z (ds_data d)) d))
                        | None => Err IndexError end)
    with (@frame_body A (List.map Z.of_N ns)).
  assert (Eit : exists ds', iterate (fun ds => ds) (frame_body (List.map Z.of_N ns)) true None true SelNone [(t, l)] = Ok ds' /\
            ds' = [(t, map2 (fun d n => with_frame d (Z.of_N n)) l ns)]).
  { unfold iterate. cbn [andb sel_truthy parse_sel bind tags_of List.map fst loop_tags aget]. rewrite String.eqb_refl.
    rewrite slice_all. cbn [bind]. rewrite loop_slice_fold.
    destruct (write_frames t (List.map Z.of_N ns) 0 (length l) [(t, l)] l) as (ds' & E & K & H); auto.
    - cbn. now rewrite String.eqb_refl.
    - rewrite map_length. lia.
    - exists ds'. rewrite E. cbn [bind]. split; [reflexivity|].
      destruct ds' as [|[t' l'] [|? ?]]; try discriminate. injection K as ->. f_equal. f_equal.
      apply nth_error_ext. intros k. specialize (H (t, k)). unfold lookup in H. cbn [fst snd aget] in H.
      rewrite String.eqb_refl in H. rewrite H. rewrite nth_error_map, nth_error_map2.
      cbn [andb Nat.leb Nat.add]. destruct (nth_error ns k) as [n|] eqn:En; cbn [option_map].
      + assert (Hk : (k < length l)%nat) by (rewrite <- Hln; apply nth_error_Some; congruence).
        apply Nat.ltb_lt in Hk. rewrite Hk. cbn. destruct (nth_error l k); reflexivity.
      + destruct (nth_error l k) eqn:El; [|reflexivity]. apply nth_error_None in En.
        assert (k < length l)%nat by (apply nth_error_Some; congruence). lia. }
  destruct Eit as (ds' & Eit & ->). rewrite Eit. cbn [bind].
  eexists. split; [reflexivity|]. split; [apply unique_Z_sorted|].
  intros z. rewrite unique_Z_in, in_map_iff. split; intros (n & H1 & H2); eauto.
Qed.

(** Names for the examples. *)
Definition ex_blk (f : string) (active : bool) : dset (blk nat) :=
  mk_dset 0 f active "" (mk_blk empty_gdata None []).

(** Two blocks in frames 9 and 10, with the block number after the frame. *)
Example C85_ex : exists frames,
  set_frame [("default"%string, [ex_blk "two_9_b0.gkyl" true; ex_blk "two_9_b1.gkyl" true;
                                 ex_blk "two_10_b0.gkyl" true; ex_blk "two_10_b1.gkyl" true])]
  = Ok ([("default"%string, [with_frame (ex_blk "two_9_b0.gkyl" true) 9; with_frame (ex_blk "two_9_b1.gkyl" true) 9;
                      with_frame (ex_blk "two_10_b0.gkyl" true) 10; with_frame (ex_blk "two_10_b1.gkyl" true) 10])], frames)
  /\ frames = [9; 10]%Z.
Proof.
  destruct (C85_frames "default" [ex_blk "two_9_b0.gkyl" true; ex_blk "two_9_b1.gkyl" true;
              ex_blk "two_10_b0.gkyl" true; ex_blk "two_10_b1.gkyl" true] "two_" ["9"; "9"; "10"; "10"]%string [9; 9; 10; 10]%N)
    as (frames & E & _).
  - reflexivity.
  - repeat constructor.
  - reflexivity.
  - reflexivity.
  - intros k d w n Hd Hw Hn.
    destruct k as [|[|[|[|k]]]]; cbn in Hd, Hw, Hn; try (destruct k; discriminate);
      injection Hd as <-; injection Hw as <-; injection Hn as <-; (split; [reflexivity|]);
      eexists; (split; [reflexivity|]); right; reflexivity.
  - exists "9"%string, "10"%string. cbn. split; [tauto|]. split; [tauto|]. discriminate.
  - exists frames. split; [exact E|]. vm_compute in E. now injection E as <-.
Qed.

(** The same without the condition on the leading digits fails in each of
    these ways: frames 11 and 101 both become frame 1; frames 1 and 10 stop
    with an error; a single file stops with an error; two blocks of one frame
    become two frames.  Inactive datasets and several tags shift the numbers:
    they are written by the position of the dataset within its tag. *)
Theorem C85_refuted :
  (exists ds fr, set_frame [("default"%string, [ex_blk "s_11.gkyl" true; ex_blk "s_101.gkyl" true])] = Ok (ds, fr) /\
     option_map (fun d => b_frame (ds_data d)) (lookup ds ("default"%string, 0%nat)) = Some (Some 1%Z) /\
     option_map (fun d => b_frame (ds_data d)) (lookup ds ("default"%string, 1%nat)) = Some (Some 1%Z) /\ fr = [1%Z]) /\
  set_frame [("default"%string, [ex_blk "s_1.gkyl" true; ex_blk "s_10.gkyl" true])] = Err ValueError /\
  set_frame [("default"%string, [ex_blk "s_7.gkyl" true])] = Err TypeError /\
  (exists ds, set_frame [("default"%string, [ex_blk "s_3_b0.gkyl" true; ex_blk "s_3_b1.gkyl" true])] = Ok (ds, [0; 1]%Z)) /\
  (exists ds fr, set_frame [("default"%string, [ex_blk "s_1.gkyl" false; ex_blk "s_2.gkyl" true; ex_blk "s_3.gkyl" true;
                                              ex_blk "s_4.gkyl" true])] = Err IndexError /\
     set_frame [("a"%string, [ex_blk "s_1.gkyl" true]); ("b"%string, [ex_blk "s_2.gkyl" true])] = Ok (ds, fr) /\
     option_map (fun d => b_frame (ds_data d)) (lookup ds ("b"%string, 0%nat)) = Some (Some 1%Z)).
Proof.
  split.
  - eexists _, _. split; [reflexivity|]. repeat split; reflexivity.
  - split; [reflexivity|]. split; [reflexivity|]. split; [eexists; reflexivity|].
    eexists _, _. split; [reflexivity|]. split; [reflexivity|]. reflexivity.
Qed.

Print Assumptions C85_frames.
Print Assumptions C85_refuted.
