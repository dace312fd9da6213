(** * Lemmas about loops over several iterators. *)
From Coq Require Import String Ascii List Arith ZArith Bool Lia.
From Verif Require Import Prelude PreludeFacts NdArray Tools_Arr Tools_Model DataSpace_Model DataSpace_Spec DataSpace_Proofs DataSpace_Proofs2 Zip_Model.
Import ListNotations.
Open Scope list_scope.

(** ** Rows of several lists: what [zip] yields when nothing changes *)
Fixpoint heads {A} (ls : list (list A)) : option (list A * list (list A)) :=
  match ls with
  | [] => Some ([], [])
  | [] :: _ => None
  | (a :: l) :: ls' => match heads ls' with None => None | Some (hs, ts) => Some (a :: hs, l :: ts) end
  end.
Fixpoint turns {A} (l : list A) (ls : list (list A)) : list (list A) :=
  match l with
  | [] => []
  | a :: l' => match heads ls with None => [] | Some (hs, ts) => (a :: hs) :: turns l' ts end
  end.

(** Specification: the entries number [k] of all the lists, if all have one. *)
Fixpoint row {A} (k : nat) (ls : list (list A)) : option (list A) :=
  match ls with
  | [] => Some []
  | l :: ls' => match nth_error l k, row k ls' with Some a, Some r => Some (a :: r) | _, _ => None end
  end.

Lemma heads_row {A} (ls : list (list A)) :
  match heads ls with
  | None => row 0 ls = None /\ (forall k, row k ls = None)
  | Some (hs, ts) => row 0 ls = Some hs /\ forall k, row (S k) ls = row k ts
  end.
Proof.
  induction ls as [|l ls IH]; [split; reflexivity|]. destruct l as [|a l].
  - cbn. split; [reflexivity|]. intros []; reflexivity.
  - cbn [heads]. destruct (heads ls) as [[hs ts]|].
    + destruct IH as [H0 HS]. cbn [row nth_error]. rewrite H0. split; [reflexivity|]. intros k. cbn [row nth_error]. now rewrite HS.
    + destruct IH as [_ H]. split; [cbn; now rewrite H|]. intros k. cbn [row]. rewrite H. destruct (nth_error _ _); reflexivity.
Qed.

Lemma turns_row {A} (l : list A) ls k : nth_error (turns l ls) k = row k (l :: ls).
Proof.
  revert ls k. induction l as [|a l IH]; intros ls k.
  - cbn. destruct k; reflexivity.
  - cbn [turns]. pose proof (heads_row ls) as H. destruct (heads ls) as [[hs ts]|].
    + destruct H as [H0 HS]. destruct k as [|k]; cbn [nth_error row].
      * now rewrite H0.
      * rewrite IH. cbn [row]. now rewrite HS.
    + destruct H as [_ H]. cbn [row]. rewrite H. destruct k; cbn; [reflexivity|]. destruct (nth_error l k); reflexivity.
Qed.

Section Zip.
  Context {X : Type}.
  Implicit Type ds : dspace X.

  Lemma is_active_lookup ds r : is_active ds r = match lookup ds r with Some d => ds_status d | None => false end.
  Proof. reflexivity. Qed.

  (** ** One iterator *)
  Local Notation refs t := (@List.map nat ref (@pair string nat t)).
  Lemma filter_selected (P : ref -> bool) t ts pos :
    @List.filter ref P (selected (t :: ts) pos) = (@List.filter ref P (refs t (pos t)) ++ @List.filter ref P (selected ts pos))%list.
  Proof. exact (filter_app P (refs t (pos t)) (selected ts pos)). Qed.

  Definition ahead ds (g : gen) : list ref :=
    List.filter (is_active ds) (refs (g_tag g) (g_pos g) ++ selected (g_tags g) (all_of ds)).

  Lemma next_pos_spec ds t ps :
    match next_pos ds t ps with
    | None => List.filter (is_active ds) (refs t ps) = []
    | Some (p, ps') => List.filter (is_active ds) (refs t ps) = (t, p) :: List.filter (is_active ds) (refs t ps') /\
                       (forall q, In q ps' -> In q ps)
    end.
  Proof.
    induction ps as [|p ps IH]; [reflexivity|]. cbn [next_pos List.map List.filter]. rewrite is_active_lookup.
    destruct (lookup ds (t, p)) as [d|].
    - destruct (ds_status d); [split; [reflexivity|intros; now right]|].
      destruct (next_pos ds t ps) as [[q qs]|]; [|exact IH]. destruct IH as [E I]. split; [exact E|intros; right; auto].
    - destruct (next_pos ds t ps) as [[q qs]|]; [|exact IH]. destruct IH as [E I]. split; [exact E|intros; right; auto].
  Qed.

  Definition pending ds (g : gen) : Prop := forall p, In p (g_pos g) -> lookup ds (g_tag g, p) <> None.
  Definition known ds (ts : list string) : Prop := forall t, In t ts -> aget t ds <> None.

  Lemma next_tag_spec ds ts : known ds ts ->
    match List.filter (is_active ds) (selected ts (all_of ds)) with
    | [] => next_tag ds ts = Ok None
    | r :: rs => exists g', next_tag ds ts = Ok (Some (r, g')) /\ ahead ds g' = rs /\ pending ds g' /\
                   (forall t, In t (g_tags g') -> In t (tl ts))
    end.
  Proof.
    induction ts as [|t ts IH]; intros K; [reflexivity|].
    rewrite filter_selected. cbn [next_tag].
    assert (Kt := K t (or_introl eq_refl)). destruct (aget t ds) as [l|] eqn:El; [|congruence].
    assert (Ea : all_of ds t = seq 0 (length l)) by (unfold all_of; now rewrite El). rewrite Ea.
    assert (Hp : forall q, In q (seq 0 (length l)) -> lookup ds (t, q) <> None).
    { intros q Hq. apply in_seq in Hq. unfold lookup. cbn. rewrite El. apply nth_error_Some. lia. }
    pose proof (next_pos_spec ds t (seq 0 (length l))) as H.
    destruct (next_pos ds t (seq 0 (length l))) as [[p ps]|].
    - destruct H as [-> I]. cbn [app]. eexists. split; [reflexivity|].
      split; [unfold ahead; cbn [g_tag g_pos g_tags]; now rewrite (@filter_app ref)|].
      split; [intros q Hq; apply Hp, I, Hq|]. cbn. auto.
    - rewrite H. cbn [app]. assert (K' : known ds ts) by (intros u Hu; apply K; now right). specialize (IH K').
      destruct (List.filter (is_active ds) (selected ts (all_of ds))) as [|r rs]; [exact IH|].
      destruct IH as (g' & E & A & P & T). exists g'. repeat split; auto. cbn [tl]. intros u Hu. apply T in Hu.
      destruct ts; [destruct Hu|now right].
  Qed.

  Lemma in_tl {A} (a : A) l : In a (tl l) -> In a l.
  Proof. destruct l; [intros []|now right]. Qed.

  Lemma next_spec ds g : known ds (g_tags g) -> pending ds g ->
    match ahead ds g with
    | [] => next ds g = Ok None
    | r :: rs => exists g', next ds g = Ok (Some (r, g')) /\ ahead ds g' = rs /\ pending ds g' /\
                   (forall t, In t (g_tags g') -> In t (g_tags g)) /\
                   (g_pos g = [] -> forall t, In t (g_tags g') -> In t (tl (g_tags g)))
    end.
  Proof.
    intros K P. unfold ahead, next. rewrite (@filter_app ref).
    pose proof (next_pos_spec ds (g_tag g) (g_pos g)) as H.
    destruct (next_pos ds (g_tag g) (g_pos g)) as [[p ps]|] eqn:En.
    - destruct H as [-> I]. cbn [app]. eexists. split; [reflexivity|].
      split; [unfold ahead; cbn [g_tag g_pos g_tags]; now rewrite (@filter_app ref)|].
      split; [intros q Hq; apply P, I, Hq|]. cbn [g_tags]. split; [auto|].
      intros E. rewrite E in En. discriminate.
    - rewrite H. cbn [app]. pose proof (next_tag_spec ds (g_tags g) K) as N.
      destruct (List.filter (is_active ds) (selected (g_tags g) (all_of ds))) as [|r rs]; [exact N|].
      destruct N as (g' & E & A & P' & T). exists g'. repeat split; auto. intros t Ht. apply in_tl; auto.
  Qed.

  (** ** Several iterators *)
  Section Body.
    Context (f : list X -> res X) (out label : string).

    (** Adding to [out] cannot change what the iterator will yield. *)
    Definition safe ds (g : gen) : Prop := known ds (g_tags g) /\ pending ds g /\ ~ In out (g_tags g).
    (** ... from the next element on. *)
    Definition ready ds (g : gen) : Prop :=
      known ds (g_tags g) /\ pending ds g /\ (~ In out (g_tags g) \/ g_pos g = [] /\ ~ In out (tl (g_tags g))).

    Lemma safe_ready ds g : safe ds g -> ready ds g.
    Proof. intros (A & B & C). split; [exact A|]. split; [exact B|]. now left. Qed.

    Lemma nexts_spec ds gs : Forall (ready ds) gs ->
      match heads (List.map (ahead ds) gs) with
      | None => nexts ds gs = Ok None
      | Some (hs, ts) => exists gs', nexts ds gs = Ok (Some (hs, gs')) /\ List.map (ahead ds) gs' = ts /\ Forall (safe ds) gs'
      end.
    Proof.
      induction gs as [|g gs IH]; intros F; [exists []; repeat split; constructor|].
      inversion F as [|? ? R F']; subst. specialize (IH F'). cbn [List.map nexts].
      destruct R as (K & P & O). pose proof (next_spec ds g K P) as N.
      destruct (ahead ds g) as [|r rs]; [cbn [heads]; rewrite N; reflexivity|].
      destruct N as (g' & E & A & P' & T & T'). rewrite E. cbn [bind heads].
      assert (Sg : safe ds g').
      { split; [intros t Ht; apply K, T, Ht|]. split; [exact P'|]. intros Hin. destruct O as [O|[O1 O2]].
        - apply O, T, Hin.
        - apply O2, (T' O1), Hin. }
      destruct (heads (List.map (ahead ds) gs)) as [[hs ts]|].
      - destruct IH as (gs' & E' & A' & S'). rewrite E'. cbn [bind]. exists (g' :: gs').
        split; [reflexivity|]. split; [cbn [List.map]; now rewrite A, A'|]. constructor; auto.
      - rewrite IH. reflexivity.
    Qed.

    Definition ext ds ds' : Prop := exists ns : list (dset X), ds' = fold_left (fun d n => add d out n) ns ds.
    Lemma ext_refl ds : ext ds ds.
    Proof. exists []. reflexivity. Qed.
    Lemma ext_step ds ds' n : ext (add ds out n) ds' -> ext ds ds'.
    Proof. intros [ns ->]. exists (n :: ns). reflexivity. Qed.

    Lemma active_add ds n r : lookup ds r <> None -> is_active (add ds out n) r = is_active ds r.
    Proof.
      intros H. rewrite !is_active_lookup. destruct (lookup ds r) as [d|] eqn:E; [|congruence].
      now rewrite (lookup_add_old _ _ _ _ _ E).
    Qed.

    Lemma filter_add ds n l : (forall r, In r l -> lookup ds r <> None) ->
      List.filter (is_active (add ds out n)) l = List.filter (is_active ds) l.
    Proof.
      intros H. induction l as [|r l IH]; [reflexivity|]. cbn [List.filter].
      rewrite active_add by (apply H; now left). rewrite IH by (intros; apply H; now right). reflexivity.
    Qed.

    Lemma selected_add ds n ts : ~ In out ts -> selected ts (all_of (add ds out n)) = selected ts (all_of ds).
    Proof.
      intros H. unfold selected. induction ts as [|t ts IH]; [reflexivity|]. cbn [flat_map].
      rewrite IH by (intros Hi; apply H; now right). f_equal. f_equal. unfold all_of. rewrite aget_add.
      destruct (String.eqb_spec t out) as [->|]; [exfalso; apply H; now left|reflexivity].
    Qed.

    Lemma ahead_add ds n g : safe ds g -> ahead (add ds out n) g = ahead ds g.
    Proof.
      intros (K & P & O). unfold ahead. rewrite selected_add by exact O. apply filter_add.
      intros r Hr. apply in_app_or in Hr as [Hr|Hr].
      - apply in_map_iff in Hr as (p & <- & Hp). apply P, Hp.
      - apply in_all_of in Hr as [_ Hr]. exact Hr.
    Qed.

    Lemma lookup_add_some ds n r : lookup ds r <> None -> lookup (add ds out n) r <> None.
    Proof. destruct (lookup ds r) as [d|] eqn:E; [|congruence]. rewrite (lookup_add_old _ _ _ _ _ E). discriminate. Qed.
    Lemma known_add ds n ts : known ds ts -> known (add ds out n) ts.
    Proof. intros K t Ht. rewrite aget_add. destruct (String.eqb t out); [discriminate|auto]. Qed.
    Lemma safe_add ds n g : safe ds g -> safe (add ds out n) g.
    Proof.
      intros (K & P & O). split; [now apply known_add|]. split; [|exact O].
      intros p Hp. apply lookup_add_some, P, Hp.
    Qed.

    Lemma body_add rs ds ds' : zip_body f out label rs ds = Ok ds' -> exists n, ds' = add ds out n.
    Proof.
      unfold zip_body. destruct (gather ds rs) as [xs|]; [|discriminate]. cbn [bind].
      destruct (f xs) as [y|]; [|discriminate]. cbn [bind]. intros [= <-]. eauto.
    Qed.

    (** [K] is what is done when the first iterator leaves the tag. *)
    Lemma zip_pos_spec t ps M : forall (K : list gen -> dspace X -> res (dspace X)) gs ds,
      (forall p, In p ps -> lookup ds (t, p) <> None) -> Forall (ready ds) gs ->
      (forall gs' ds', ext ds ds' -> Forall (ready ds') gs' ->
         K gs' ds' = foldM (zip_body f out label) (turns M (List.map (ahead ds') gs')) ds') ->
      (let* s := zip_pos f out label t ps gs ds in
       match s with (true, _, ds') => Ok ds' | (false, gs', ds') => K gs' ds' end)
      = foldM (zip_body f out label)
          (turns (List.filter (is_active ds) (refs t ps) ++ M) (List.map (ahead ds) gs)) ds.
    Proof.
      induction ps as [|p ps IH]; intros K gs ds Hp F HK.
      - cbn [zip_pos bind List.map List.filter app]. apply HK; [apply ext_refl|exact F].
      - cbn [zip_pos List.map List.filter]. rewrite is_active_lookup.
        destruct (lookup ds (t, p)) as [d|] eqn:Ed; [|exfalso; apply (Hp p); [now left|exact Ed]].
        assert (Hp' : forall q, In q ps -> lookup ds (t, q) <> None) by (intros; apply Hp; now right).
        destruct (ds_status d); [|apply IH; auto].
        pose proof (nexts_spec ds gs F) as N. cbn [app turns].
        destruct (heads (List.map (ahead ds) gs)) as [[hs ts]|].
        + destruct N as (gs' & -> & A & Sg). cbn [bind foldM].
          match goal with |- _ = bind ?m _ => change m with (zip_body f out label ((t, p) :: hs) ds) end.
          destruct (zip_body f out label ((t, p) :: hs) ds) as [ds1|e] eqn:Eb; [|reflexivity].
          cbn [bind]. destruct (body_add _ _ _ Eb) as [n ->].
          rewrite (IH K gs' (add ds out n)).
          * rewrite filter_add.
            2:{ intros r Hr. apply in_map_iff in Hr as (q & <- & Hq). apply Hp', Hq. }
            f_equal. f_equal. rewrite <- A. clear -Sg. induction Sg as [|g l Hg _ IH]; [reflexivity|].
            cbn [List.map]. now rewrite ahead_add, IH.
          * intros q Hq. apply lookup_add_some, Hp', Hq.
          * eapply Forall_impl; [|exact Sg]. intros g Hg. apply safe_ready, safe_add, Hg.
          * intros gs2 ds2 E2. apply HK. eapply ext_step; eauto.
        + rewrite N. reflexivity.
    Qed.

    Lemma ext_known ds ds' ts : ext ds ds' -> known ds ts -> known ds' ts.
    Proof.
      intros [ns ->]. revert ds. induction ns as [|n ns IH]; intros ds K; [exact K|]. cbn [fold_left].
      apply IH. now apply known_add.
    Qed.
    Lemma ext_selected ds ds' ts : ext ds ds' -> ~ In out ts ->
      List.filter (is_active ds') (selected ts (all_of ds')) = List.filter (is_active ds) (selected ts (all_of ds)).
    Proof.
      intros [ns ->] O. revert ds. induction ns as [|n ns IH]; intros ds; [reflexivity|]. cbn [fold_left].
      rewrite IH, selected_add by exact O. apply filter_add. intros r Hr. now apply in_all_of in Hr as [_ Hr].
    Qed.

    Lemma zip_tags_spec ts : forall gs ds,
      known ds ts -> ~ In out (tl ts) -> Forall (ready ds) gs ->
      zip_tags f out label ts gs ds =
      foldM (zip_body f out label) (turns (List.filter (is_active ds) (selected ts (all_of ds))) (List.map (ahead ds) gs)) ds.
    Proof.
      induction ts as [|t ts IH]; intros gs ds K O F; [reflexivity|].
      cbn [zip_tags]. assert (Kt := K t (or_introl eq_refl)).
      rewrite filter_selected.
      destruct (aget t ds) as [l|] eqn:El; [|congruence].
      assert (Ea : all_of ds t = seq 0 (length l)) by (unfold all_of; now rewrite El). rewrite Ea.
      set (M := List.filter (is_active ds) (selected ts (all_of ds))).
      apply (zip_pos_spec t (seq 0 (length l)) M (fun gs' ds' => zip_tags f out label ts gs' ds')).
      - intros q Hq. apply in_seq in Hq. unfold lookup. cbn. rewrite El. apply nth_error_Some. lia.
      - exact F.
      - intros gs' ds' E F'. cbn [tl] in O. rewrite IH; auto.
        + unfold M. now rewrite (ext_selected ds ds' ts E O).
        + eapply ext_known; [exact E|]. intros u Hu. apply K. now right.
        + intros Hi. apply O. now apply in_tl.
    Qed.

    (** ** What the turns add *)
    Lemma fold_bodies (g : list X -> X) (rows : list (list ref)) ds :
      (forall rs, In rs rows -> exists dl, Forall2 (fun r d => lookup ds r = Some d) rs dl /\
         f (List.map ds_data dl) = Ok (g (List.map ds_data dl))) ->
      exists ds' news, foldM (zip_body f out label) rows ds = Ok ds' /\
        (forall t, t <> out -> aget t ds' = aget t ds) /\
        match aget out ds' with Some l => l | None => [] end = match aget out ds with Some l => l | None => [] end ++ news /\
        (rows <> [] -> aget out ds' <> None) /\ (rows = [] -> ds' = ds) /\
        Forall2 (fun rs n => exists dl, Forall2 (fun r d => lookup ds r = Some d) rs dl /\
           ds_data n = g (List.map ds_data dl) /\ ds_file n = ""%string /\ ds_status n = true /\ ds_label n = label) rows news.
    Proof.
      assert (G : forall rows st l0,
        (forall r d, lookup ds r = Some d -> lookup st r = Some d) ->
        (forall t, t <> out -> aget t st = aget t ds) ->
        match aget out st with Some l => l | None => [] end = match aget out ds with Some l => l | None => [] end ++ l0 ->
        (forall rs, In rs rows -> exists dl, Forall2 (fun r d => lookup ds r = Some d) rs dl /\
           f (List.map ds_data dl) = Ok (g (List.map ds_data dl))) ->
        exists ds' news, foldM (zip_body f out label) rows st = Ok ds' /\
          (forall t, t <> out -> aget t ds' = aget t ds) /\
          match aget out ds' with Some l => l | None => [] end = match aget out ds with Some l => l | None => [] end ++ l0 ++ news /\
          (aget out st <> None \/ rows <> [] -> aget out ds' <> None) /\ (rows = [] -> ds' = st) /\
          Forall2 (fun rs n => exists dl, Forall2 (fun r d => lookup ds r = Some d) rs dl /\
             ds_data n = g (List.map ds_data dl) /\ ds_file n = ""%string /\ ds_status n = true /\ ds_label n = label) rows news).
      { clear rows. induction rows as [|rs rows IH]; intros st l0 Hst Ho Hout Hf.
        - exists st, []. rewrite app_nil_r. repeat split; auto. intros [H|H]; [exact H|congruence].
        - destruct (Hf rs (or_introl eq_refl)) as (dl & Fd & Ef). cbn [foldM].
          assert (Eg : gather st rs = Ok (List.map ds_data dl)).
          { unfold gather. clear -Fd Hst. induction Fd as [|r d rs dl H _ IH]; [reflexivity|]. cbn [mapM List.map].
            now rewrite (Hst _ _ H), IH. }
          unfold zip_body at 1. rewrite Eg. cbn [bind]. rewrite Ef. cbn [bind].
          set (n := mk_dset (next_id st) ""%string true label (g (List.map ds_data dl))).
          destruct (IH (add st out n) (l0 ++ [n])) as (ds' & news & E1 & E2 & E3 & E4 & E5 & E6).
          + intros r d H. now apply lookup_add_old, Hst.
          + intros t Ht. rewrite aget_add. destruct (String.eqb_spec t out); [congruence|auto].
          + rewrite aget_add, String.eqb_refl, Hout. now rewrite app_assoc.
          + intros; apply Hf; now right.
          + exists ds', (n :: news). split; [exact E1|]. split; [exact E2|]. split; [rewrite E3; now rewrite <- !app_assoc|].
            split; [intros _; apply E4; left; rewrite aget_add, String.eqb_refl; discriminate|].
            split; [discriminate|]. constructor; [|exact E6]. exists dl. repeat split; auto. }
      intros Hf. destruct (G rows ds []) as (ds' & news & E1 & E2 & E3 & E4 & E5 & E6); auto.
      { now rewrite app_nil_r. }
      exists ds', news. repeat split; auto.
    Qed.

    Lemma fold_bodies_error (rows1 : list (list ref)) rs rows2 (g : list X -> X) ds dl e :
      (forall rs, In rs rows1 -> exists dl, Forall2 (fun r d => lookup ds r = Some d) rs dl /\
         f (List.map ds_data dl) = Ok (g (List.map ds_data dl))) ->
      Forall2 (fun r d => lookup ds r = Some d) rs dl -> f (List.map ds_data dl) = Err e ->
      foldM (zip_body f out label) (rows1 ++ rs :: rows2) ds = Err e.
    Proof.
      intros H Fd Ef. rewrite foldM_app.
      assert (G : forall rows st, (forall r d, lookup ds r = Some d -> lookup st r = Some d) ->
        (forall rs, In rs rows -> exists dl, Forall2 (fun r d => lookup ds r = Some d) rs dl /\
           f (List.map ds_data dl) = Ok (g (List.map ds_data dl))) ->
        exists st', foldM (zip_body f out label) rows st = Ok st' /\ forall r d, lookup ds r = Some d -> lookup st' r = Some d).
      { clear. induction rows as [|rs rows IH]; intros st Hst Hf; [exists st; split; [reflexivity|exact Hst]|].
        destruct (Hf rs (or_introl eq_refl)) as (dl & Fd & Ef). cbn [foldM].
        assert (Eg : gather st rs = Ok (List.map ds_data dl)).
        { unfold gather. clear -Fd Hst. induction Fd as [|r d rs dl H _ IH]; [reflexivity|]. cbn [mapM List.map].
          now rewrite (Hst _ _ H), IH. }
        unfold zip_body at 1. rewrite Eg. cbn [bind]. rewrite Ef. cbn [bind]. apply IH.
        - intros r d Hr. now apply lookup_add_old, Hst.
        - intros; apply Hf; now right. }
      destruct (G rows1 ds) as (st & -> & Hst); auto. cbn [bind foldM].
      assert (Eg : gather st rs = Ok (List.map ds_data dl)).
      { unfold gather. clear -Fd Hst. induction Fd as [|r d rs dl H _ IH]; [reflexivity|]. cbn [mapM List.map].
        now rewrite (Hst _ _ H), IH. }
      unfold zip_body. rewrite Eg. cbn [bind]. rewrite Ef. reflexivity.
    Qed.
  End Body.
End Zip.
