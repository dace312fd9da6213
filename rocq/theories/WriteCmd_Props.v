(** * C48: the files written by the [write] command. *)
From Coq Require Import String Ascii List Arith ZArith NArith Bool Lia.
From Verif Require Import Prelude PreludeFacts NdArray GData_Model Write_Model Write_Props DataSpace_Model
  DataSpace_Spec DataSpace_Proofs DataSpace_Proofs2 DataSpace_Proofs3 DataSpace_Props WriteCmd_Model.
Import ListNotations.
Open Scope list_scope.

(** The active datasets of the tags [ts], in order. *)
Definition active_in {X} (ds : dspace X) (ts : list string) : list ref :=
  List.filter (is_active ds) (selected ts (fun t => match aget t ds with Some l => seq 0 (length l) | None => [] end)).

Section C48.
  Context {X : Type}.
  Implicit Type ds : dspace X.

  (** The name written for a dataset at position [i]. *)
  Definition numbered (several : bool) (fn md : string) (i : nat) : string :=
    if several then (fn ++ "_" ++ show_N (N.of_nat i) ++ "." ++ md)%string else (fn ++ "." ++ md)%string.

  Lemma out_name_keeps file a md : has_char "." md = false -> md <> ""%string ->
    out_name file (a ++ "." ++ md) (extension_of md) = (a ++ "." ++ md)%string.
  Proof.
    intros Hd Hne. unfold out_name, extension_of. destruct (String.eqb_spec md ""); [congruence|].
    destruct (a ++ "." ++ md)%string as [|c s] eqn:E; [destruct a; discriminate|]. rewrite <- E.
    change ("." ++ md)%string with (String "." md). rewrite split_on_app_sep, last_app_nonnil by apply split_on_nonnil.
    rewrite (split_on_none "." md) by auto. cbn [last]. now rewrite String.eqb_refl.
  Qed.

  Lemma write_files_run ds use filename mode ts fn md :
    names ds use ts -> Forall (fun t => aget t ds <> None) ts ->
    name_and_mode filename mode = (fn, md) -> has_char "." md = false -> md <> ""%string ->
    write_files ds use filename mode =
    Ok (List.map (fun r => (r, numbered (1 <? length (active_in ds ts))%nat fn md (snd r))) (active_in ds ts)).
  Proof.
    intros Hn Hk Hnm Hd Hne. unfold write_files. rewrite Hnm.
    rewrite (C16_count ds use ts Hn Hk). cbn [bind]. fold (active_in ds ts).
    destruct (C16_enum ds use true ts Hn Hk) as (vs & Ev & Es & Ef). rewrite Ev. cbn [bind].
    change (List.filter _ _) with (active_in ds ts) in Es. rewrite <- Es. f_equal. rewrite map_map.
    apply map_ext_in. intros v Hv. rewrite Forall_forall in Ef. specialize (Ef v Hv). destruct v as [i [t k]]. cbn [fst snd] in Ef |- *. subst i. unfold numbered. f_equal.
    destruct (_ <? _)%nat.
    - replace (fn ++ "_" ++ show_N (N.of_nat k) ++ "." ++ md)%string
        with ((fn ++ "_" ++ show_N (N.of_nat k)) ++ "." ++ md)%string by now rewrite !app_assoc_str.
      now apply out_name_keeps.
    - now apply out_name_keeps.
  Qed.

  (** What the name and mode are: a name without dots is used with [--mode], a
      name with one extension decides the mode. *)
  Theorem C48_name_and_mode :
    (forall fn mode, has_char "." fn = false -> name_and_mode fn mode = (fn, mode)) /\
    (forall fn ext mode, has_char "." fn = false -> has_char "." ext = false ->
       name_and_mode (fn ++ "." ++ ext) mode = (fn, ext)).
  Proof.
    split.
    - intros fn mode H. unfold name_and_mode. now rewrite split_on_none.
    - intros fn ext mode H1 H2. unfold name_and_mode. change ("." ++ ext)%string with (String "." ext).
      rewrite split_on_app_sep, !split_on_none by auto. reflexivity.
  Qed.

  (** Every active dataset of the used tags is written once, in order, and a
      single one gets the plain name. *)
  Theorem C48_all_written ds use filename mode ts fn md :
    names ds use ts -> Forall (fun t => aget t ds <> None) ts ->
    name_and_mode filename mode = (fn, md) -> has_char "." md = false -> md <> ""%string ->
    exists fs, write_files ds use filename mode = Ok fs /\ List.map fst fs = active_in ds ts /\
      Forall (fun p => snd p = if (1 <? length (active_in ds ts))%nat
                               then (fn ++ "_" ++ show_N (N.of_nat (snd (fst p))) ++ "." ++ md)%string
                               else (fn ++ "." ++ md)%string) fs.
  Proof.
    intros Hn Hk Hnm Hd Hne. eexists. split; [apply (write_files_run ds use filename mode ts fn md); auto|]. split.
    - rewrite map_map. cbn [fst]. apply map_id.
    - apply Forall_forall. intros p Hp. apply in_map_iff in Hp as (r & <- & _). reflexivity.
  Qed.

  Lemma str_app_inj_l (a b c : string) : (a ++ b = a ++ c)%string -> b = c.
  Proof. induction a; simpl; [auto|]. intros [= H]. auto. Qed.

  Lemma str_app_inj_r (a b c : string) : (a ++ c = b ++ c)%string -> a = b.
  Proof.
    revert b. induction a as [|x a IH]; intros [|y b] H; auto.
    - apply (f_equal String.length) in H. cbn in H. rewrite str_length_app in H. lia.
    - apply (f_equal String.length) in H. cbn in H. rewrite str_length_app in H. lia.
    - cbn in H. injection H as -> H. f_equal. auto.
  Qed.

  Lemma numbered_inj fn md i j : numbered true fn md i = numbered true fn md j -> i = j.
  Proof.
    unfold numbered. intros H. apply str_app_inj_l in H. apply (str_app_inj_l "_") in H. apply str_app_inj_r in H.
    pose proof (py_int_show_N (N.of_nat i)) as P. rewrite H, py_int_show_N in P. injection P as P. lia.
  Qed.

  (** With one tag no file is written twice. *)
  Theorem C48_one_tag_distinct ds t filename mode fn md :
    names ds (Some t) [t] -> aget t ds <> None ->
    name_and_mode filename mode = (fn, md) -> has_char "." md = false -> md <> ""%string ->
    exists fs, write_files ds (Some t) filename mode = Ok fs /\ NoDup (List.map snd fs).
  Proof.
    intros Hn Hk Hnm Hd Hne. eexists. split.
    { apply (write_files_run ds (Some t) filename mode [t] fn md); auto. }
    rewrite map_map. cbn [snd].
    assert (Hnd : NoDup (active_in ds [t])).
    { apply (NoDup_active_all ds [t]). constructor; [auto|constructor]. }
    assert (Ht : forall r, In r (active_in ds [t]) -> fst r = t).
    { intros r Hr. apply (in_active_all ds [t]) in Hr as [[Hr|[]] _]. auto. }
    destruct (active_in ds [t]) as [|r1 [|r2 rs]] eqn:E.
    - constructor.
    - constructor; [auto|constructor].
    - change (1 <? length (r1 :: r2 :: rs))%nat with true. revert Hnd Ht. generalize (r1 :: r2 :: rs).
      induction l as [|r l IH]; intros Hnd Ht; [constructor|]. inversion Hnd as [|? ? Hni Hnd']; subst. cbn [List.map]. constructor.
      + rewrite in_map_iff. intros (r' & He & Hr'). apply numbered_inj in He. apply Hni.
        replace r with r'; [exact Hr'|]. destruct r as [u k], r' as [u' k']. cbn in He. subst k'.
        pose proof (Ht (u, k) (or_introl eq_refl)) as H1. pose proof (Ht (u', k) (or_intror Hr')) as H2. cbn in H1, H2. congruence.
      + apply IH; auto. intros; apply Ht; now right.
  Qed.

  (** With several tags two datasets get the same file exactly when they have
      the same position in their tags. *)
  Theorem C48_several_tags ds use filename mode ts fn md :
    names ds use ts -> Forall (fun t => aget t ds <> None) ts ->
    name_and_mode filename mode = (fn, md) -> has_char "." md = false -> md <> ""%string ->
    (1 < length (active_in ds ts))%nat ->
    exists fs, write_files ds use filename mode = Ok fs /\
      forall p q, In p fs -> In q fs -> (snd p = snd q <-> snd (fst p) = snd (fst q)).
  Proof.
    intros Hn Hk Hnm Hd Hne Hl. eexists. split; [apply (write_files_run ds use filename mode ts fn md); auto|].
    intros p q Hp Hq. apply in_map_iff in Hp as (r & <- & _). apply in_map_iff in Hq as (r' & <- & _).
    cbn [fst snd]. apply Nat.ltb_lt in Hl. rewrite Hl. split; [apply numbered_inj|congruence].
  Qed.

  (** With [--single] everything goes to one file under distinct variable
      names. *)
  Theorem C48_single ds use filename mode ts fn md :
    names ds use ts -> Forall (fun t => aget t ds <> None) ts -> NoDup ts ->
    name_and_mode filename mode = (fn, md) ->
    exists vs, write_single ds use filename mode = Ok ((fn ++ "." ++ md)%string, vs) /\
      List.map fst vs = active_in ds ts /\ NoDup (List.map snd vs).
  Proof.
    intros Hn Hk Hnd Hnm. unfold write_single. rewrite Hnm. rewrite (C16_count ds use ts Hn Hk). cbn [bind].
    destruct (C16_enum ds use true ts Hn Hk) as (vs & Ev & Es & Ef). rewrite Ev. cbn [bind].
    change (List.filter _ _) with (active_in ds ts) in Es. eexists. split; [reflexivity|]. split.
    { rewrite map_map. exact Es. }
    rewrite map_map. cbn [snd].
    assert (Hnr : NoDup (List.map snd vs)) by (rewrite Es; now apply NoDup_active_all).
    clear Es Ev. induction vs as [|v vs IH]; [constructor|]. cbn [List.map] in *. inversion Hnr as [|? ? Hni Hnr']; subst.
    inversion Ef as [|? ? Hv Ef']; subst. constructor; [|auto].
    rewrite in_map_iff. intros (w & He & Hw). apply Hni. apply in_map_iff. exists w. split; [|exact Hw].
    rewrite Forall_forall in Ef'. specialize (Ef' w Hw). clear IH Hni Hnr Hnr' Ef Hw.
    destruct w as [kw [tw iw]], v as [kv [tv iv]]. cbn [fst snd] in *. subst kw kv.
    assert (S : forall t i, split_on "_" (t ++ "_" ++ show_N (N.of_nat i)) = split_on "_" t ++ [show_N (N.of_nat i)]).
    { intros t i. change ("_" ++ show_N (N.of_nat i))%string with (String "_" (show_N (N.of_nat i))).
      rewrite split_on_app_sep. f_equal. apply split_on_none. apply show_N_has. unfold digit_char. cbn. intuition discriminate. }
    apply (f_equal (split_on "_")) in He. rewrite !S in He. apply app_inj_tail in He as [H1 H2].
    assert (E1 : tw = tv) by (rewrite <- (join_split "_" tw), H1; apply join_split).
    assert (E2 : iw = iv).
    { pose proof (py_int_show_N (N.of_nat iw)) as P. rewrite H2, py_int_show_N in P. injection P as P. lia. }
    now rewrite E1, E2.
  Qed.
End C48.

(** With several tags output is overwritten. *)
Theorem C48_several_tags_distinct_refuted :
  exists (ds : dspace nat) fs, write_files ds None "out" "txt" = Ok fs /\ ~ NoDup (List.map snd fs).
Proof.
  exists ex_ds. eexists. split; [vm_compute; reflexivity|]. cbn. intros H.
  inversion H as [|? ? H1 _]; subst. apply H1. right. now left.
Qed.

(** A dot in the directory part loses the rest of the name. *)
Theorem C48_directory_kept_refuted :
  exists (ds : dspace nat) fs r, write_files ds (Some "ion"%string) "../data/out.txt" "gkyl" = Ok fs /\ In (r, "_0.txt"%string) fs.
Proof. exists ex_ds. do 2 eexists. split; [vm_compute; reflexivity|]. now left. Qed.

Example C48_ex :
  write_files ex_ds (Some "elc"%string) "out.txt" "gkyl" = Ok [(("elc", 0%nat), "out_0.txt"); (("elc", 2%nat), "out_2.txt")]%string /\
  (exists vs, write_single ex_ds None "all" "bp" = Ok ("all.bp"%string, vs) /\ List.map snd vs = ["elc_0"; "elc_2"; "ion_0"; "ion_1"]%string).
Proof. split; [vm_compute; reflexivity|]. eexists. split; vm_compute; reflexivity. Qed.

Print Assumptions C48_one_tag_distinct.
Print Assumptions C48_single.
