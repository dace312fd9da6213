(** * C88, C89: loops over several iterators at once; agyro, mom_agyro and energetics. *)
From Coq Require Import String Ascii List Arith ZArith Bool Lia.
From Verif Require Import Prelude PreludeFacts NdArray Tools_Arr Tools_Model DataSpace_Model DataSpace_Spec
  DataSpace_Proofs DataSpace_Proofs2 DataSpace_Proofs3 DataSpace_Props Zip_Model Zip_Proofs.
Import ListNotations.
Open Scope list_scope.

(** The datasets an iterator over the tags [ts] passes, in order. *)
Definition passed {X} (ds : dspace X) (ts : list string) : list ref :=
  List.filter (is_active ds) (selected ts (fun t => match aget t ds with Some l => seq 0 (length l) | None => [] end)).

(** The datasets of a tag. *)
Definition under {X} (ds : dspace X) (t : string) : list (dset X) :=
  match aget t ds with Some l => l | None => [] end.

Section C88.
  Context {X : Type}.
  Implicit Type ds : dspace X.

  Lemma start_ready ds out use ts : names ds use ts -> known ds ts -> ~ In out (tl ts) -> ready out ds (start ds use).
  Proof.
    intros N K O. unfold start. rewrite (tags_of_names _ _ _ N). split; [exact K|]. split; [intros p []|]. right. split; [reflexivity|exact O].
  Qed.
  Lemma start_ahead ds use ts : names ds use ts -> ahead ds (start ds use) = passed ds ts.
  Proof. intros N. unfold start. rewrite (tags_of_names _ _ _ N). reflexivity. Qed.

  Lemma zip_loop_turns f out label ds use uses ts tss :
    names ds use ts -> Forall2 (names ds) uses tss -> known ds ts -> Forall (known ds) tss ->
    ~ In out (tl ts) -> Forall (fun ts => ~ In out (tl ts)) tss ->
    zip_loop f out label use uses ds = foldM (zip_body f out label) (turns (passed ds ts) (List.map (passed ds) tss)) ds.
  Proof.
    intros N Ns K Ks O Os. unfold zip_loop. rewrite (tags_of_names _ _ _ N).
    rewrite zip_tags_spec; auto.
    - f_equal. f_equal. rewrite map_map. clear -Ns. induction Ns as [|u ts us tss H _ IH]; [reflexivity|].
      cbn [List.map]. now rewrite IH, (start_ahead _ _ _ H).
    - clear -Ns Ks Os. induction Ns as [|u ts us tss H _ IH]; [constructor|]. inversion Ks; inversion Os; subst.
      cbn [List.map]. constructor; [eapply start_ready; eauto|auto].
  Qed.

  Lemma row_lookup ds tss k rs : row k (List.map (passed ds) tss) = Some rs ->
    exists dl, Forall2 (fun r d => lookup ds r = Some d) rs dl.
  Proof.
    revert rs. induction tss as [|ts tss IH]; intros rs; cbn [List.map row].
    - intros [= <-]. exists []. constructor.
    - destruct (nth_error (passed ds ts) k) as [r|] eqn:En; [|discriminate].
      destruct (row k (List.map (passed ds) tss)) as [rs'|]; [|discriminate]. intros [= <-].
      destruct (IH _ eq_refl) as [dl F]. apply nth_error_In, filter_In in En as [_ Ha].
      unfold is_active in Ha. destruct (lookup ds r) as [d|] eqn:Ed; [|discriminate]. exists (d :: dl). constructor; auto.
  Qed.

  Lemma turns_lookup ds ts tss rs : In rs (turns (passed ds ts) (List.map (passed ds) tss)) ->
    exists k dl, row k (List.map (passed ds) (ts :: tss)) = Some rs /\ Forall2 (fun r d => lookup ds r = Some d) rs dl.
  Proof.
    intros H. apply In_nth_error in H as [k H]. rewrite turns_row in H. exists k.
    destruct (row_lookup ds (ts :: tss) k rs H) as [dl F]. eauto.
  Qed.

  Lemma lookups_fun ds rs dl dl' : Forall2 (fun r d => lookup ds r = Some d) rs dl ->
    Forall2 (fun r d => lookup ds r = Some d) rs dl' -> dl' = dl.
  Proof.
    intros F. revert dl'. induction F as [|r d rs dl H _ IH]; intros dl' F'; inversion F'; subst; [reflexivity|].
    f_equal; [congruence|auto].
  Qed.

  (** Result number [k] is computed from the datasets number [k] of the
      iterators, as long as all of them have one; the results are put behind the
      datasets of [out]; nothing else changes, not even a status. *)
  Theorem C88_zip (f : list X -> res X) (g : list X -> X) out label ds use uses ts tss :
    names ds use ts -> Forall2 (names ds) uses tss ->
    (forall t, In t ts \/ Exists (In t) tss -> aget t ds <> None) ->
    ~ In out (tl ts) -> Forall (fun ts => ~ In out (tl ts)) tss ->
    (forall k rs dl, row k (List.map (passed ds) (ts :: tss)) = Some rs -> Forall2 (fun r d => lookup ds r = Some d) rs dl ->
       f (List.map ds_data dl) = Ok (g (List.map ds_data dl))) ->
    exists ds' news, zip_loop f out label use uses ds = Ok ds' /\
      (forall t, t <> out -> aget t ds' = aget t ds) /\ under ds' out = under ds out ++ news /\
      forall k, match row k (List.map (passed ds) (ts :: tss)) with
                | None => nth_error news k = None
                | Some rs => exists n dl, nth_error news k = Some n /\ Forall2 (fun r d => lookup ds r = Some d) rs dl /\
                    ds_data n = g (List.map ds_data dl) /\ ds_file n = ""%string /\ ds_status n = true /\ ds_label n = label
                end.
  Proof.
    intros N Ns K O Os Hf. rewrite (zip_loop_turns f out label ds use uses ts tss); auto.
    2:{ intros t Ht. apply K. now left. }
    2:{ apply Forall_forall. intros l Hl t Ht. apply K. right. apply Exists_exists. eauto. }
    destruct (fold_bodies f out label g (turns (passed ds ts) (List.map (passed ds) tss)) ds) as (ds' & news & E1 & E2 & E3 & _ & _ & E6).
    { intros rs Hrs. destruct (turns_lookup _ _ _ _ Hrs) as (k & dl & Hk & F). exists dl. split; [exact F|]. eapply Hf; eauto. }
    exists ds', news. split; [exact E1|]. split; [exact E2|]. split; [exact E3|].
    intros k. cbn [List.map]. rewrite <- turns_row.
    assert (F := E6). clear -F. revert k. induction F as [|rs n rows news (dl & H1 & H2) _ IH]; intros k; [destruct k; reflexivity|].
    destruct k as [|k]; cbn [nth_error]; [|apply IH]. exists n, dl. split; [reflexivity|]. split; [exact H1|exact H2].
  Qed.

  (** The first turn whose computation fails ends the command with its error. *)
  Theorem C88_zip_error (f : list X -> res X) (g : list X -> X) out label ds use uses ts tss k rs dl e :
    names ds use ts -> Forall2 (names ds) uses tss ->
    (forall t, In t ts \/ Exists (In t) tss -> aget t ds <> None) ->
    ~ In out (tl ts) -> Forall (fun ts => ~ In out (tl ts)) tss ->
    (forall j rs dl, (j < k)%nat -> row j (List.map (passed ds) (ts :: tss)) = Some rs ->
       Forall2 (fun r d => lookup ds r = Some d) rs dl -> f (List.map ds_data dl) = Ok (g (List.map ds_data dl))) ->
    row k (List.map (passed ds) (ts :: tss)) = Some rs -> Forall2 (fun r d => lookup ds r = Some d) rs dl ->
    f (List.map ds_data dl) = Err e ->
    zip_loop f out label use uses ds = Err e.
  Proof.
    intros N Ns K O Os Hf Hk F E. rewrite (zip_loop_turns f out label ds use uses ts tss); auto.
    2:{ intros t Ht. apply K. now left. }
    2:{ apply Forall_forall. intros l Hl t Ht. apply K. right. apply Exists_exists. eauto. }
    cbn [List.map] in Hk. rewrite <- turns_row in Hk. destruct (nth_error_split _ _ Hk) as (l1 & l2 & El & Len).
    rewrite El. eapply fold_bodies_error; eauto.
    intros rs' Hin. apply In_nth_error in Hin as [j Hj].
    assert (Lj : (j < length l1)%nat) by (apply nth_error_Some; congruence).
    assert (Hj' : nth_error (turns (passed ds ts) (List.map (passed ds) tss)) j = Some rs') by (rewrite El, nth_error_app1; auto).
    rewrite turns_row in Hj'. change (passed ds ts :: List.map (passed ds) tss) with (List.map (passed ds) (ts :: tss)) in Hj'.
    destruct (row_lookup ds (ts :: tss) j rs' Hj') as [dl' F']. exists dl'. split; [exact F'|]. eapply Hf; eauto. lia.
  Qed.

  (** An unknown first tag ends the command before anything is computed; the
      other tags are looked at only if the first yields something. *)
  Theorem C88_unknown (f : list X -> res X) out label ds t uses :
    t <> ""%string -> has_char "," t = false -> aget t ds = None -> zip_loop f out label (Some t) uses ds = Err Quit.
  Proof.
    intros H1 H2 H3. unfold zip_loop. rewrite (tags_of_names _ _ _ (names_one ds t H1 H2)). cbn [zip_tags]. now rewrite H3.
  Qed.
  Theorem C88_first_empty (f : list X -> res X) out label ds t uses :
    t <> ""%string -> has_char "," t = false -> aget t ds <> None -> (forall d, In d (under ds t) -> ds_status d = false) ->
    zip_loop f out label (Some t) uses ds = Ok ds.
  Proof.
    intros H1 H2 H3 H4. unfold zip_loop. rewrite (tags_of_names _ _ _ (names_one ds t H1 H2)). cbn [zip_tags].
    unfold under in H4. destruct (aget t ds) as [l|] eqn:El; [|congruence].
    assert (G : forall ps, zip_pos f out label t ps (List.map (start ds) uses) ds = Ok (false, List.map (start ds) uses, ds)).
    { induction ps as [|p ps IH]; [reflexivity|]. cbn [zip_pos]. unfold lookup. cbn [fst snd]. rewrite El.
      destruct (nth_error l p) as [d|] eqn:Ed; [|exact IH]. rewrite (H4 d) by (eapply nth_error_In; eauto). exact IH. }
    rewrite G. reflexivity.
  Qed.

  (** ** The pair commands of C54 are such loops *)
  Lemma passed_one ds t : t <> ""%string -> has_char "," t = false -> aget t ds <> None -> active_refs ds t = Ok (passed ds [t]).
  Proof.
    intros H1 H2 H3. unfold active_refs. destruct (aget t ds) as [l|] eqn:El; [|congruence].
    destruct (visits_all ds (Some t) [t]) as (vs & Ev & Es).
    - now apply names_one.
    - constructor; [eapply key_aget; eauto|constructor].
    - rewrite Ev. cbn [bind]. now rewrite Es.
  Qed.

  Theorem C54_iterators (f : X -> X -> res X) ds t1 t2 out label :
    t1 <> ""%string -> t2 <> ""%string -> has_char "," t1 = false -> has_char "," t2 = false ->
    aget t1 ds <> None -> aget t2 ds <> None ->
    pair_command f t1 t2 out label ds =
    let* ds' := zip_loop (fun l => match l with [a; b] => f a b | _ => Err TypeError end) out label (Some t1) [Some t2] ds in
    deactivate_each [Some t1; Some t2] ds'.
  Proof.
    intros N1 N2 C1 C2 A1 A2. unfold pair_command. rewrite !passed_one by auto. cbn [bind].
    rewrite (zip_loop_turns _ out label ds (Some t1) [Some t2] [t1] [[t2]]).
    2:{ now apply names_one. }
    2:{ constructor; [now apply names_one|constructor]. }
    2:{ intros t [<-|[]]; auto. }
    2:{ constructor; [|constructor]. intros t [<-|[]]; auto. }
    2:{ intros []. }
    2:{ constructor; [intros []|constructor]. }
    cbn [List.map]. 
    assert (Em : (match passed ds [t1] with [] => Ok [] | _ :: _ => Ok (passed ds [t2]) end : res (list ref))
                 = Ok (match passed ds [t1] with [] => [] | _ => passed ds [t2] end)) by (destruct (passed ds [t1]); reflexivity).
    rewrite Em. cbn [bind].
    assert (Ec : combine (passed ds [t1]) (match passed ds [t1] with [] => [] | _ => passed ds [t2] end)
                 = combine (passed ds [t1]) (passed ds [t2])) by (destruct (passed ds [t1]); reflexivity).
    rewrite Ec. clear Em Ec.
    assert (G : forall a b st,
      pair_loop f out label (combine a b) st =
      foldM (zip_body (fun l => match l with [a; b] => f a b | _ => Err TypeError end) out label) (turns a [b]) st).
    { clear. induction a as [|r a IH]; intros b st; [reflexivity|]. destruct b as [|r' b]; [reflexivity|].
      cbn [combine pair_loop turns heads foldM]. unfold zip_body at 1, gather. cbn [mapM].
      destruct (lookup st r) as [d|]; [|reflexivity]. cbn [bind]. destruct (lookup st r') as [d'|]; [|reflexivity].
      cbn [bind]. destruct (f (ds_data d) (ds_data d')) as [y|]; [|reflexivity]. cbn [bind]. apply IH. }
    rewrite G. destruct (foldM _ _ ds) as [ds1|]; [|reflexivity]. cbn [bind deactivate_each].
    destruct (deactivate_all ds1 (Some t1)) as [ds2|]; [|reflexivity]. cbn [bind].
    destruct (deactivate_all ds2 (Some t2)); reflexivity.
  Qed.
End C88.

(** Three active datasets of "a" (one more is inactive), two of "b": two sums,
    added behind the two datasets the tag "b" already has; the second iterator
    has listed "b" before and does not see them. *)
Definition ex_sum (l : list nat) : res nat := match l with [a; b] => Ok (a + b)%nat | _ => Err TypeError end.
Definition ex_space : dspace nat :=
  [("a"%string, [mk_dset 0%nat "f0" true "" 1%nat; mk_dset 1%nat "f1" false "" 50%nat; mk_dset 2%nat "f2" true "" 2%nat; mk_dset 3%nat "f3" true "" 3%nat]);
   ("b"%string, [mk_dset 4%nat "g0" true "" 10%nat; mk_dset 5%nat "g1" true "" 20%nat])].

Example C88_zip_ex :
  names ex_space (Some "a"%string) ["a"%string] /\ names ex_space (Some "b"%string) ["b"%string] /\
  row 1 (List.map (passed ex_space) [["a"%string]; ["b"%string]]) = Some [("a"%string, 2%nat); ("b"%string, 1%nat)] /\
  row 2 (List.map (passed ex_space) [["a"%string]; ["b"%string]]) = None /\
  option_map (List.map (fun d => (ds_status d, ds_data d)))
    (match zip_loop ex_sum "b" "s" (Some "a"%string) [Some "b"%string] ex_space with Ok ds => aget "b"%string ds | Err _ => None end)
  = Some [(true, 10%nat); (true, 20%nat); (true, 11%nat); (true, 22%nat)].
Proof.
  split; [apply names_one; [discriminate|reflexivity]|]. split; [apply names_one; [discriminate|reflexivity]|].
  repeat split; reflexivity.
Qed.

(** The hypothesis about the tags is needed: when results are added under a tag
    that one of the iterators reaches later, the loop uses its own results. *)
Example C88_zip_own :
  option_map (List.map ds_data)
    (match zip_loop ex_sum "b" "s" (Some "a,b"%string) [Some "a,b"%string] ex_space with Ok ds => aget "b"%string ds | Err _ => None end)
  = Some [10%nat; 20%nat; 2%nat; 4%nat; 6%nat; 20%nat; 40%nat; 4%nat; 8%nat; 12%nat].
Proof. reflexivity. Qed.

Example C88_zip_error_ex :
  zip_loop (fun l => match l with [a; b] => if (b =? 20)%nat then Err ZeroDivisionError else Ok (a + b)%nat | _ => Err TypeError end)
    "out" "s" (Some "a"%string) [Some "b"%string] ex_space = Err ZeroDivisionError.
Proof. reflexivity. Qed.

Example C88_unknown_ex :
  zip_loop ex_sum "out" "s" (Some "c"%string) [Some "b"%string] ex_space = Err Quit /\
  zip_loop ex_sum "out" "s" (Some "z"%string) [Some "nothing"%string]
    [("z"%string, [mk_dset 0%nat "f" false "" 7%nat])] = Ok [("z"%string, [mk_dset 0%nat "f" false "" 7%nat])].
Proof. split; reflexivity. Qed.

Example C54_iterators_ex :
  pair_command (fun a b => Ok (a * b)%nat) "a" "b" "out" "s" ex_space =
  let* ds' := zip_loop (fun l => match l with [a; b] => Ok (a * b)%nat | _ => Err TypeError end) "out" "s" (Some "a"%string) [Some "b"%string] ex_space in
  deactivate_each [Some "a"%string; Some "b"%string] ds'.
Proof. reflexivity. Qed.

Print Assumptions C88_zip. Print Assumptions C88_zip_error. Print Assumptions C88_unknown. Print Assumptions C88_first_empty.
Print Assumptions C54_iterators.
