(** * Property C27: where [ev] writes. *)
From Coq Require Import String Ascii List Arith ZArith QArith Qabs Bool Lia.
From Verif Require Import Prelude PreludeFacts NdArray GData_Model Select_Model DataSpace_Model DataSpace_Spec
  DataSpace_Proofs DataSpace_Proofs2 DataSpace_Proofs3 DataSpace_Props Ev_Model Ev_Arith Ev_Spec Ev_Props Ev_Props2.
Import ListNotations.
Open Scope list_scope.

Lemma split_join_space toks :
  Forall (fun s => s <> ""%string /\ has_char " " s = false) toks -> tokens (join " " toks) = toks.
Proof.
  intros H. unfold tokens. destruct toks as [|s toks]; [reflexivity|].
  rewrite split_join; [|discriminate|].
  - clear - H. induction H as [|x l [Hx _] _ IH]; [reflexivity|]. cbn [List.filter].
    destruct (String.eqb_spec x ""); [contradiction|]. cbn [negb]. now rewrite IH.
  - eapply Forall_impl; [|exact H]. cbn beta. tauto.
Qed.

Lemma filter_nil {A} (f : A -> bool) l : (forall a, In a l -> f a = false) -> List.filter f l = [].
Proof.
  induction l as [|a l IH]; intros H; [reflexivity|]. cbn [List.filter]. rewrite (H a) by now left.
  apply IH. intros b Hb. apply H. now right.
Qed.

Section Machine.
  Context {G V M X : Type}.
  Context (psel : X -> option string -> res (G * V)) (meta : X -> list (string * M)) (meta_val : M -> V)
          (no_grid : G) (parse_float : string -> option V) (py_eval : string -> res V) (str_val : string -> V)
          (mcmp : M -> M -> res bool)
          (cmds : string -> option (nat * (list G -> list V -> res (G * V))))
          (push_data : X -> G -> V -> res X) (new_data : list (string * M) -> X).
  Local Notation group := (@group G V M).
  Local Notation entry := (@entry G V M).
  Local Notation mstate := (@mstate G V M).
  Local Notation read_token := (read_token psel meta meta_val no_grid parse_float py_eval str_val).
  Local Notation read_ref := (read_ref psel meta meta_val no_grid).
  Local Notation read_one := (read_one psel meta meta_val no_grid).
  Local Notation read_body := (read_body psel meta meta_val no_grid).
  Local Notation step := (step psel meta meta_val no_grid parse_float py_eval str_val mcmp cmds).
  Local Notation run := (run psel meta meta_val no_grid parse_float py_eval str_val mcmp cmds).
  Local Notation meaning := (meaning psel meta meta_val no_grid parse_float py_eval str_val mcmp cmds).
  Local Notation wf_expr := (wf_expr psel meta meta_val no_grid parse_float py_eval str_val cmds).
  Local Notation ev := (ev psel meta meta_val no_grid parse_float py_eval str_val mcmp cmds push_data new_data).
  Local Notation add_results := (add_results push_data new_data).
  Local Notation write_body := (@write_body G V M X push_data).
  Implicit Types (g : group) (ds : dspace X).

  Definition under ds (t : string) : list (dset X) := match aget t ds with Some l => l | None => [] end.

  (** The datasets [news] hold the results [out]. *)
  Definition holds (label : string) (out : group) (news : list (dset X)) : Prop :=
    Forall2 (fun (e : entry) n =>
      push_data (new_data (e_ctx e)) (e_grid e) (e_val e) = Ok (ds_data n) /\
      ds_status n = true /\ ds_label n = label) out news.

  Lemma add_results_spec t label out ds ds' :
    add_results t label out ds = Ok ds' ->
    exists news, holds label out news /\ under ds' t = under ds t ++ news /\
      (forall t', t' <> t -> aget t' ds' = aget t' ds) /\
      (forall r d, lookup ds r = Some d -> lookup ds' r = Some d).
  Proof.
    revert ds. induction out as [|e out IH]; intros ds H; cbn [Ev_Model.add_results] in H.
    - injection H as <-. exists []. split; [constructor|]. rewrite app_nil_r. auto.
    - destruct (push_data (new_data (e_ctx e)) (e_grid e) (e_val e)) as [x|] eqn:Ep; [|discriminate]. cbn [bind] in H.
      apply IH in H as (news & Hn & Hu & Ho & Hl).
      exists (mk_dset (next_id ds) "" true label x :: news). split; [constructor; auto|]. split; [|split].
      + rewrite Hu. unfold under. rewrite aget_add, String.eqb_refl. rewrite <- app_assoc. reflexivity.
      + intros t' Ht. rewrite Ho by auto. rewrite aget_add. destruct (String.eqb_spec t' t); [contradiction|reflexivity].
      + intros r d Hr. apply Hl. now apply lookup_add_old.
  Qed.

  Lemma add_results_ok t label out ds :
    Forall (fun e : entry => exists x, push_data (new_data (e_ctx e)) (e_grid e) (e_val e) = Ok x) out ->
    exists ds', add_results t label out ds = Ok ds'.
  Proof.
    intros H. revert ds. induction H as [|e out [x Ex] _ IH]; intros ds; [now exists ds|].
    cbn [Ev_Model.add_results]. rewrite Ex. cbn [bind]. apply IH.
  Qed.

  (** ** With a tag: new datasets under that tag, nothing else changes. *)
  Theorem C27_new_tag chain T label all ds ds' :
    T <> ""%string -> ev chain (Some T) label all ds = Ok ds' ->
    exists tags st out rest news,
      tag_iterator ds None (negb all) = Ok tags /\
      run ds tags (negb all) (tokens chain) (mk_mstate [] 0 None) = Ok st /\ stack st = out :: rest /\
      holds (match label with Some l => l | None => chain end) out news /\
      under ds' T = under ds T ++ news /\
      (forall t, t <> T -> aget t ds' = aget t ds) /\
      (forall r d, lookup ds r = Some d -> lookup ds' r = Some d).
  Proof.
    intros HT H. unfold Ev_Model.ev in H. destruct (tag_iterator ds None (negb all)) as [tags|]; [|discriminate].
    cbn [bind] in H. destruct (run ds tags (negb all) (tokens chain) (mk_mstate [] 0 None)) as [st|] eqn:Er; [|discriminate].
    cbn [bind] in H. destruct (stack st) as [|out rest] eqn:Es; [discriminate|].
    destruct (out_id st) as [[t i]|]; [|discriminate]. destruct (String.eqb_spec T ""); [contradiction|].
    apply add_results_spec in H as (news & H1 & H2 & H3 & H4). exists tags, st, out, rest, news.
    split; [reflexivity|]. split; [exact Er|]. split; [exact Es|]. auto.
  Qed.

  (** ** A chain without datasets is rejected. *)
  Lemma run_no_ref ds tags oa toks st st' :
    Forall (fun s => is_ref tags s = false) toks -> run ds tags oa toks st = Ok st' ->
    nsel st' = nsel st /\ out_id st' = out_id st.
  Proof.
    intros H. revert st. induction H as [|s toks Hs _ IH]; intros st E; cbn [Ev_Model.run] in E.
    - injection E as <-. auto.
    - destruct (step ds tags oa s st) as [st1|] eqn:E1; [|discriminate]. cbn [bind] in E. destruct (IH _ E) as [-> ->].
      clear - E1 Hs. unfold Ev_Model.step in E1. destruct (read_token ds tags oa s) as [[[g i]|]|] eqn:Er; [| |discriminate]; cbn [bind] in E1.
      + unfold Ev_Model.read_token in Er. rewrite Hs in Er.
        assert (i = None) as ->.
        { destruct (has_char "(" s || has_char "[" s); [destruct (py_eval s); [|discriminate]; cbn [bind] in Er; congruence|].
          destruct (has_char ":" s || has_char "," s); [congruence|]. destruct (parse_float s); congruence. }
        cbn in E1. injection E1 as <-. auto.
      + destruct (cmds s) as [[n f]|]; [|discriminate]. destruct (length (stack st) <? n)%nat; [discriminate|].
        destruct (n =? 0)%nat; [discriminate|]. destruct (apply_cmd mcmp f (firstn n (stack st))); [|discriminate].
        injection E1 as <-. auto.
  Qed.

  Theorem C27_no_dataset chain tag label all ds tags :
    tag_iterator ds None (negb all) = Ok tags -> Forall (fun s => is_ref tags s = false) (tokens chain) ->
    exists e, ev chain tag label all ds = Err e.
  Proof.
    intros Ht Hs. unfold Ev_Model.ev. rewrite Ht. cbn [bind].
    destruct (run ds tags (negb all) (tokens chain) (mk_mstate [] 0 None)) as [st|e] eqn:E; [|now exists e].
    cbn [bind]. destruct (run_no_ref _ _ _ _ _ _ Hs E) as [_ Eo]. cbn in Eo. rewrite Eo.
    destruct (stack st); eauto.
  Qed.

  (** ** Several selections and no tag: all datasets are deactivated and the
      results are added under the last tag read. *)
  Theorem C27_several chain label all ds tags st out rest t i :
    tag_iterator ds None (negb all) = Ok tags ->
    run ds tags (negb all) (tokens chain) (mk_mstate [] 0 None) = Ok st -> stack st = out :: rest ->
    nsel st <> 1%nat -> out_id st = Some (Some t, i) ->
    Forall (fun e : entry => exists x, push_data (new_data (e_ctx e)) (e_grid e) (e_val e) = Ok x) out ->
    exists ds' news, ev chain None label all ds = Ok ds' /\
      holds (match label with Some l => l | None => chain end) out news /\
      under ds' t = List.map (set_status false) (under ds t) ++ news /\
      (forall t', t' <> t -> under ds' t' = List.map (set_status false) (under ds t')) /\
      (forall r d, lookup ds r = Some d -> lookup ds' r = Some (set_status false d)).
  Proof.
    intros Ht Hr Hs Hn Ho Hp. unfold Ev_Model.ev. rewrite Ht. cbn [bind]. rewrite Hr. cbn [bind]. rewrite Hs, Ho.
    destruct (Nat.eqb_spec (nsel st) 1); [contradiction|].
    destruct (deactivate_all_all ds) as (ds1 & -> & K & L & Lk). cbn [bind].
    destruct (add_results_ok t (match label with Some l => l | None => chain end) out ds1 Hp) as [ds' E]. rewrite E.
    apply add_results_spec in E as (news & H1 & H2 & H3 & H4).
    assert (U : forall t', under ds1 t' = List.map (set_status false) (under ds t')).
    { intros t'. apply nth_error_ext. intros k. rewrite nth_error_map. specialize (Lk (t', k)). unfold lookup in Lk. cbn [fst snd] in Lk.
      unfold under. destruct (aget t' ds1), (aget t' ds); cbn [option_map] in Lk; try (rewrite Lk; reflexivity); try (destruct k; cbn in *; congruence); rewrite <- Lk; destruct k; reflexivity. }
    exists ds', news. split; [reflexivity|]. split; [exact H1|]. split; [now rewrite H2, U|]. split.
    - intros t' Htt. unfold under at 1. rewrite (H3 t' Htt). apply U.
    - intros r d Hd. apply H4. rewrite Lk, Hd. reflexivity.
  Qed.

  (** ** One selection and no tag: overwriting in place. *)

  Lemma fold_read ds key comp only cs t0 g0 :
    (forall c, In c cs -> lookup ds (snd c) <> None) ->
    let R := List.filter (fun r => negb only || is_active ds r) (List.map snd cs) in
    foldM (vis (fun _ : option string * group => ds) (read_body ds key comp) only) cs (t0, g0) =
    let* es := mapM (fun r => match lookup ds r with Some d => read_one key comp d | None => Err KeyError end) R in
    Ok (match rev R with [] => t0 | r :: _ => Some (fst r) end, g0 ++ es).
  Proof.
    revert t0 g0. induction cs as [|c cs IH]; intros t0 g0 Hl R; subst R.
    - cbn. now rewrite app_nil_r.
    - cbn [foldM List.map]. unfold vis at 1. unfold visit. destruct (lookup ds (snd c)) as [d|] eqn:Ed; [|exfalso; apply (Hl c); [now left|exact Ed]].
      assert (Ea : is_active ds (snd c) = ds_status d) by (unfold is_active; now rewrite Ed).
      cbn [List.filter]. rewrite Ea. destruct (negb only || ds_status d).
      + unfold Ev_Model.read_body. rewrite Ed. cbn [mapM]. rewrite Ed. destruct (read_one key comp d) as [e|]; [|reflexivity]. cbn [bind fst snd].
        fold (read_body ds key comp). rewrite IH by (intros; apply Hl; now right).
        destruct (mapM _ _) as [es|] eqn:Em; [|reflexivity]. cbn [bind]. rewrite <- app_assoc. cbn [app rev]. f_equal. f_equal.
        destruct (rev (List.filter (fun r => negb only || is_active ds r) (List.map snd cs))); reflexivity.
      + cbn [bind]. rewrite IH by (intros; apply Hl; now right). reflexivity.
  Qed.

  Lemma keeps_read ds key comp U : keeps (fun _ : option string * group => ds) (read_body ds key comp) U.
  Proof. intros i r st st' _ t _. reflexivity. Qed.

  Lemma read_ref_spec ds tags oa s ts pos :
    let named := in_list (tok_head s) tags in
    names ds (if named then Some (tok_head s) else None) ts ->
    (exists n ps, picks n (tok_set s) ps) -> picks_under ds (tok_set s) ts pos ->
    let R := List.filter (fun r => named || negb oa || is_active ds r) (selected ts pos) in
    read_ref ds tags oa s =
    let* es := mapM (fun r => match lookup ds r with Some d => read_one (tok_key s) (tok_comp s) d | None => Err KeyError end) R in
    Ok (es, (match rev R with [] => if named then Some (tok_head s) else None | r :: _ => Some (fst r) end, tok_set s)).
  Proof.
    intros named Hn Hp Hu R. unfold Ev_Model.read_ref. fold named.
    destruct (iterate_selected (fun _ : option string * group => ds) (read_body ds (tok_key s) (tok_comp s))
                (if named then false else oa) (if named then Some (tok_head s) else None) (tok_set s) ts pos
                (if named then Some (tok_head s) else None, []) Hn Hp Hu (keeps_read ds _ _ _)) as (cs & Ecs & _ & E).
    rewrite E, fold_read.
    - rewrite Ecs. assert (ER : List.filter (fun r => negb (if named then false else oa) || is_active ds r) (selected ts pos) = R).
      { subst R. apply filter_ext. intros r. destruct named; reflexivity. }
      rewrite ER. destruct (mapM _ R) as [es|]; [|reflexivity]. cbn [bind app fst snd]. reflexivity.
    - intros c Hc. apply (selected_lookup ds (tok_set s) ts pos); auto. rewrite <- Ecs. now apply in_map.
  Qed.

  Lemma run_one_ref ds tags oa toks st st' i :
    (forall s, In s toks -> is_ref tags s = true -> exists g, read_ref ds tags oa s = Ok (g, i)) ->
    id_eqb i i = true ->
    run ds tags oa toks st = Ok st' ->
    (nsel st = 0%nat /\ out_id st = None) \/ (nsel st = 1%nat /\ out_id st = Some i) ->
    (nsel st' = 1%nat /\ out_id st' = Some i) \/
    (nsel st' = nsel st /\ out_id st' = out_id st /\ Forall (fun s => is_ref tags s = false) toks).
  Proof.
    intros Hr Hi. revert st. induction toks as [|s toks IH]; intros st E Inv; cbn [Ev_Model.run] in E.
    - injection E as <-. right. auto.
    - destruct (step ds tags oa s st) as [st1|] eqn:E1; [|discriminate]. cbn [bind] in E.
      assert (K : (is_ref tags s = true /\ nsel st1 = 1%nat /\ out_id st1 = Some i) \/
                  (is_ref tags s = false /\ nsel st1 = nsel st /\ out_id st1 = out_id st)).
      { destruct (is_ref tags s) eqn:Es.
        - left. split; [reflexivity|]. destruct (Hr s (or_introl eq_refl) Es) as [g Eg].
          unfold Ev_Model.step, Ev_Model.read_token in E1. rewrite Es, Eg in E1. cbn [bind] in E1. unfold note_id in E1.
          destruct Inv as [[I1 I2]|[I1 I2]]; rewrite I1, I2 in E1; [|rewrite Hi in E1]; injection E1 as <-; cbn; auto.
        - right. split; [reflexivity|]. apply (run_no_ref ds tags oa [s] st st1); [constructor; auto|].
          cbn [Ev_Model.run]. rewrite E1. reflexivity. }
      destruct K as [(Es & K1 & K2)|(Es & K1 & K2)].
      + destruct (IH (fun s' H => Hr s' (or_intror H)) st1 E (or_intror (conj K1 K2))) as [A|(A & B & _)]; [auto|].
        left. rewrite A, B. auto.
      + destruct (IH (fun s' H => Hr s' (or_intror H)) st1 E) as [A|(A & B & C)].
        * rewrite K1, K2. exact Inv.
        * auto.
        * right. rewrite A, B, K1, K2. auto.
  Qed.

  Lemma id_eqb_refl i : id_eqb i i = true.
  Proof. destruct i as [[t|] [x|]]; cbn; rewrite ?String.eqb_refl; reflexivity. Qed.

  (** The loop that overwrites. *)
  Lemma lens_modify ds r f t : lens (modify ds r f) t = lens ds t.
  Proof. apply length_modify. Qed.

  Lemma fold_write (top : group) only cs ds k :
    NoDup (List.map snd cs) -> (forall c, In c cs -> lookup ds (snd c) <> None) ->
    let R := List.filter (fun r => negb only || is_active ds r) (List.map snd cs) in
    (forall i r d, nth_error R i = Some r -> lookup ds r = Some d ->
       exists e x, nth_error top (k + i) = Some e /\ push_data (ds_data d) (e_grid e) (e_val e) = Ok x) ->
    exists ds' k', foldM (vis (fun s : dspace X * nat => fst s) (write_body top) only) cs (ds, k) = Ok (ds', k') /\
      List.map fst ds' = List.map fst ds /\ (forall t, lens ds' t = lens ds t) /\
      (forall i r, nth_error R i = Some r -> exists d e x, lookup ds r = Some d /\ nth_error top (k + i) = Some e /\
         push_data (ds_data d) (e_grid e) (e_val e) = Ok x /\ lookup ds' r = Some (set_data x d)) /\
      (forall r, ~ In r R -> lookup ds' r = lookup ds r).
  Proof.
    revert ds k. induction cs as [|c cs IH]; intros ds k Hd Hl R Hp; subst R.
    - exists ds, k. split; [reflexivity|]. split; [auto|]. split; [auto|]. split; [|auto]. intros [|i] r; discriminate.
    - inversion Hd as [|? ? Hc Hd']; subst. cbn [foldM]. unfold vis at 1. unfold visit. cbn [fst].
      destruct (lookup ds (snd c)) as [d|] eqn:Ed; [|exfalso; apply (Hl c); [now left|exact Ed]].
      cbn [List.map List.filter] in *. assert (Ea : is_active ds (snd c) = ds_status d) by (unfold is_active; now rewrite Ed).
      rewrite Ea in *. destruct (negb only || ds_status d) eqn:En.
      + destruct (Hp 0%nat (snd c) d eq_refl Ed) as (e & x & Ee & Ex). rewrite Nat.add_0_r in Ee.
        unfold Ev_Model.write_body. cbn [fst snd]. rewrite Ed, Ee, Ex. cbn [bind]. fold (write_body top).
        set (ds1 := modify ds (snd c) (set_data x)).
        assert (Lk : forall r, r <> snd c -> lookup ds1 r = lookup ds r).
        { intros r Hr. unfold ds1. rewrite lookup_modify. destruct (ref_eq_dec r (snd c)); [contradiction|reflexivity]. }
        assert (Lc : lookup ds1 (snd c) = Some (set_data x d)).
        { unfold ds1. rewrite lookup_modify, Ed. destruct (ref_eq_dec (snd c) (snd c)); [reflexivity|congruence]. }
        assert (Hne : forall r, In r (List.map snd cs) -> r <> snd c) by (intros r Hr ->; contradiction).
        assert (FE : List.filter (fun r => negb only || is_active ds1 r) (List.map snd cs) =
                     List.filter (fun r => negb only || is_active ds r) (List.map snd cs)).
        { apply filter_ext_in. intros r Hr. unfold is_active. now rewrite Lk by auto. }
        destruct (IH ds1 (S k) Hd') as (ds' & k' & E & K & L & W & F).
        * intros c' Hc'. rewrite Lk by (apply Hne; now apply in_map). apply Hl. now right.
        * rewrite FE. intros i r d' Hi Hd1. assert (In r (List.map snd cs)) by (eapply nth_error_In, filter_In in Hi; tauto).
          rewrite Lk in Hd1 by auto. destruct (Hp (S i) r d' Hi Hd1) as (e' & x' & E1 & E2). exists e', x'. split; [|auto].
          rewrite <- E1. f_equal. lia.
        * rewrite FE in *. exists ds', k'. split; [exact E|]. split; [rewrite K; apply keys_modify|]. split; [intros t; rewrite L; apply lens_modify|]. split.
          -- intros [|i] r Hi.
             ++ injection Hi as <-. exists d, e, x. rewrite Nat.add_0_r. split; [auto|]. split; [auto|]. split; [auto|]. rewrite F; [exact Lc|].
                intros Hin. apply filter_In in Hin as [Hin _]. contradiction.
             ++ cbn [nth_error] in Hi. destruct (W i r Hi) as (d' & e' & x' & W1 & W2 & W3 & W4).
                assert (In r (List.map snd cs)) by (eapply nth_error_In, filter_In in Hi; tauto).
                exists d', e', x'. rewrite Lk in W1 by auto. split; [auto|]. split; [rewrite <- W2; f_equal; lia|]. auto.
          -- intros r Hr. rewrite F by (intros C; apply Hr; now right). apply Lk. intros ->. apply Hr. now left.
      + cbn [bind]. destruct (IH ds k Hd') as (ds' & k' & E & K & L & W & F); [intros c' Hc'; apply Hl; now right|exact Hp|].
        exists ds', k'. auto 10.
  Qed.

  Lemma keeps_write top U : keeps (fun s : dspace X * nat => fst s) (write_body top) U.
  Proof.
    intros i r st st' H t _. unfold Ev_Model.write_body in H. destruct (lookup (fst st) r) as [d|]; [|now injection H as <-].
    destruct (nth_error top (snd st)) as [e|]; [|discriminate]. destruct (push_data _ _ _); [|discriminate].
    injection H as <-. cbn [fst]. apply lens_modify.
  Qed.

  Lemma selected_single (f : ref -> bool) keys pos T :
    NoDup keys -> In T keys -> (forall r, In r (selected keys pos) -> f r = true -> fst r = T) ->
    List.filter f (selected keys pos) = List.filter f (selected [T] pos).
  Proof.
    intros Hd Hin Hf. unfold selected at 2. cbn [flat_map]. rewrite app_nil_r.
    induction keys as [|k keys IH]; [destruct Hin|]. inversion Hd as [|? ? Hk Hd']; subst.
    unfold selected in *. cbn [flat_map] in *. rewrite filter_app.
    destruct (string_dec k T) as [->|Hne].
    - rewrite (filter_nil f (flat_map _ keys)); [now rewrite app_nil_r|]. intros r Hr. destruct (f r) eqn:E; [|reflexivity]. exfalso.
      assert (fst r = T) by (apply Hf; [apply in_or_app; now right|auto]). apply in_flat_map in Hr as (t & Ht & Hr).
      apply in_map_iff in Hr as (p & <- & _). cbn in *. subst. contradiction.
    - match goal with |- (?a ++ _)%list = _ => assert (Z : a = []) end.
      { apply filter_nil. intros r Hr. destruct (f r) eqn:E; [|reflexivity]. exfalso. apply Hne.
        assert (fst r = T) by (apply Hf; [apply in_or_app; now left|auto]). apply in_map_iff in Hr as (p & <- & _). exact H. }
      rewrite Z. cbn [app]. apply IH; auto; [destruct Hin as [->|]; [contradiction|auto]|]. intros r Hr. apply Hf. apply in_or_app. now right.
  Qed.

  (** The number of results of a well-formed expression. *)
  Lemma all_ok_map {A} (f : A -> res group) l gs : all_ok (List.map f l) = Ok gs -> Forall2 (fun a g => f a = Ok g) l gs.
  Proof.
    revert gs. induction l as [|a l IH]; intros gs H; cbn [List.map all_ok] in H; [injection H as <-; constructor|].
    destruct (f a) eqn:Ea; [|discriminate]. cbn [bind] in H. destruct (all_ok (List.map f l)); [|discriminate].
    injection H as <-. constructor; auto.
  Qed.

  Lemma meaning_le ds tags oa e out n :
    wf_expr ds tags oa e -> meaning ds tags oa e = Ok out ->
    (forall s g i, In s (leaves e) -> read_token ds tags oa s = Ok (Some (g, i)) -> (length g <= n)%nat) ->
    (length out <= n)%nat.
  Proof.
    revert out. induction e as [s|op args IH] using expr_ind'; intros out Hw Hm Hl.
    - destruct Hw as [[g i] E]. cbn [Ev_Props2.meaning] in Hm. rewrite E in Hm. cbn [bind] in Hm. injection Hm as <-.
      apply (Hl s g i); [now left|exact E].
    - cbn [Ev_Props2.wf_expr] in Hw. destruct Hw as (_ & Hne & (f & Hf) & Hw). cbn [Ev_Props2.meaning] in Hm.
      destruct (all_ok (List.map (meaning ds tags oa) args)) as [gs|] eqn:Eg; [|discriminate]. cbn [bind] in Hm. rewrite Hf in Hm.
      apply all_ok_map in Eg.
      assert (Hg : gs <> []) by (intros ->; inversion Eg; congruence).
      destruct (apply_cmd_result mcmp f gs out Hg Hm) as [[_ Ex] _]. apply Exists_exists in Ex as (g & Hin & <-).
      clear - IH Hw Hl Eg Hin. induction Eg as [|a g0 args gs Ha Eg IHe]; [destruct Hin|].
      inversion IH as [|? ? I1 I2]; subst. destruct Hw as [W1 W2]. destruct Hin as [->|Hin].
      + apply I1; auto. intros s g' i Hs. apply Hl. cbn [leaves flat_map]. apply in_or_app. now left.
      + apply IHe; auto. intros s g' i Hs. apply Hl. cbn [leaves flat_map]. apply in_or_app. now right.
  Qed.

  Lemma meaning_ge ds tags oa e out s g i :
    wf_expr ds tags oa e -> meaning ds tags oa e = Ok out ->
    In s (leaves e) -> read_token ds tags oa s = Ok (Some (g, i)) -> (length g <= length out)%nat.
  Proof.
    revert out. induction e as [s'|op args IH] using expr_ind'; intros out Hw Hm Hs Er.
    - destruct Hs as [->|[]]. cbn [Ev_Props2.meaning] in Hm. rewrite Er in Hm. injection Hm as <-. lia.
    - cbn [Ev_Props2.wf_expr] in Hw. destruct Hw as (_ & Hne & (f & Hf) & Hw). cbn [Ev_Props2.meaning] in Hm.
      destruct (all_ok (List.map (meaning ds tags oa) args)) as [gs|] eqn:Eg; [|discriminate]. cbn [bind] in Hm. rewrite Hf in Hm.
      apply all_ok_map in Eg.
      assert (Hg : gs <> []) by (intros ->; inversion Eg; congruence).
      destruct (apply_cmd_result mcmp f gs out Hg Hm) as [[Al _] _]. cbn [leaves] in Hs. apply in_flat_map in Hs as (a & Ha & Hs).
      clear - IH Hw Eg Al Ha Hs Er. induction Eg as [|a' g0 args gs Ha' Eg IHe]; [destruct Ha|].
      inversion IH as [|? ? I1 I2]; subst. inversion Al as [|? ? A1 A2]; subst. destruct Hw as [W1 W2]. destruct Ha as [->|Ha].
      + specialize (I1 g0 W1 Ha' Hs Er). lia.
      + apply IHe; auto.
  Qed.

  Lemma op_not_ref ds tags oa s : read_token ds tags oa s = Ok None -> is_ref tags s = false.
  Proof.
    unfold Ev_Model.read_token. destruct (is_ref tags s); [|reflexivity].
    destruct (read_ref ds tags oa s) as [[g i]|]; cbn [bind]; discriminate.
  Qed.

  Lemma ref_leaf ds tags oa e s :
    wf_expr ds tags oa e -> In s (postfix e) -> is_ref tags s = true -> In s (leaves e).
  Proof.
    intros Hw Hs Hr. induction e as [s'|op args IH] using expr_ind'; [exact Hs|].
    cbn [Ev_Props2.wf_expr] in Hw. destruct Hw as (Ho & _ & _ & Hw). cbn [postfix leaves] in *.
    apply in_app_or in Hs as [Hs|[<-|[]]].
    - apply in_flat_map in Hs as (a & Ha & Hs). apply in_flat_map. exists a. split; [exact Ha|].
      clear - IH Hw Ha Hs Hr. induction args as [|b args IHa]; [destruct Ha|]. inversion IH as [|? ? I1 I2]; subst.
      destruct Hw as [W1 W2]. destruct Ha as [->|Ha]; auto.
    - apply op_not_ref in Ho. congruence.
  Qed.

  Lemma leaf_in_postfix e s : In s (leaves e) -> In s (postfix e).
  Proof.
    induction e as [s'|op args IH] using expr_ind'; [auto|]. cbn [postfix leaves]. intros H. apply in_or_app. left.
    apply in_flat_map in H as (a & Ha & Hs). apply in_flat_map. exists a. split; [exact Ha|].
    rewrite Forall_forall in IH. auto.
  Qed.

  (** The chain is the reverse Polish form of an expression all of whose
      dataset references have the same head and the same set index; they select
      the datasets [R], all under one tag.  Then exactly the datasets [R] are
      overwritten, the [i]-th by the [i]-th value of the expression. *)
  Theorem C27_in_place chain label all ds tags e head index ts pos T out :
    tag_iterator ds None (negb all) = Ok tags ->
    tokens chain = postfix e -> wf_expr ds tags (negb all) e -> meaning ds tags (negb all) e = Ok out ->
    (forall s, In s (tokens chain) -> is_ref tags s = true -> tok_head s = head /\ tok_set s = index) ->
    (exists s, In s (tokens chain) /\ is_ref tags s = true) ->
    let named := in_list head tags in
    names ds (if named then Some head else None) ts ->
    (exists n ps, picks n index ps) -> picks_under ds index ts pos -> NoDup ts -> NoDup (pos T) ->
    let R := List.filter (fun r => named || all || is_active ds r) (selected ts pos) in
    R <> [] -> T <> ""%string -> has_char "," T = false -> (forall r, In r R -> fst r = T) ->
    (named = true -> all = false -> forall r, In r R -> is_active ds r = true) ->
    (forall d e, exists x, push_data d (e_grid (e : entry)) (e_val e) = Ok x) ->
    exists ds', ev chain None label all ds = Ok ds' /\ length out = length R /\
      List.map fst ds' = List.map fst ds /\ (forall t, length (under ds' t) = length (under ds t)) /\
      (forall i r, nth_error R i = Some r -> exists d e x, lookup ds r = Some d /\ nth_error out i = Some e /\
         push_data (ds_data d) (e_grid e) (e_val e) = Ok x /\ lookup ds' r = Some (set_data x d)) /\
      (forall r, ~ In r R -> lookup ds' r = lookup ds r).
  Proof.
    intros Ht Htok Hw Hm Hone Hex named Hn Hp Hu Hnd HndT R HR HT HcT HRT Hact Hpush.
    unfold Ev_Model.ev. rewrite Ht. cbn [bind]. rewrite Htok.
    pose proof (C24_postfix psel meta meta_val no_grid parse_float py_eval str_val mcmp cmds ds tags (negb all) e (mk_mstate [] 0 None) Hw) as P.
    rewrite Hm in P. destruct P as (st & Er & Es). rewrite Er. cbn [bind]. cbn [stack] in Es. rewrite Es.
    (* what the references read *)
    assert (Hlast : exists r, hd_error (rev R) = Some r /\ fst r = T).
    { destruct (rev R) as [|r l] eqn:E; [exfalso; apply HR; rewrite <- (rev_involutive R), E; reflexivity|].
      exists r. split; [reflexivity|]. apply HRT. rewrite in_rev, E. now left. }
    assert (Hread : forall s, In s (tokens chain) -> is_ref tags s = true ->
              read_ref ds tags (negb all) s =
              let* es := mapM (fun r => match lookup ds r with Some d => read_one (tok_key s) (tok_comp s) d | None => Err KeyError end) R in
              Ok (es, (Some T, index))).
    { intros s Hs Hr. destruct (Hone s Hs Hr) as [Eh Ei]. rewrite (read_ref_spec ds tags (negb all) s ts pos).
      - rewrite Eh, Ei. fold named. assert (ER : List.filter (fun r => named || negb (negb all) || is_active ds r) (selected ts pos) = R)
          by (apply filter_ext; intros r; now rewrite negb_involutive).
        rewrite ER. destruct Hlast as (r & Hr1 & Hr2). destruct (rev R) as [|r' l]; [discriminate|]. injection Hr1 as ->.
        rewrite Hr2. reflexivity.
      - rewrite Eh. exact Hn.
      - rewrite Ei. exact Hp.
      - rewrite Ei. exact Hu. }
    assert (Hgrp : forall s, In s (tokens chain) -> is_ref tags s = true ->
              exists g, read_ref ds tags (negb all) s = Ok (g, (Some T, index)) /\ length g = length R).
    { intros s Hs Hr. rewrite (Hread s Hs Hr).
      assert (Hrt : exists r, read_token ds tags (negb all) s = Ok (Some r)).
      { rewrite Htok in Hs. pose proof (ref_leaf ds tags (negb all) e s Hw Hs Hr) as Hleaf. clear - Hw Hleaf.
        induction e as [s'|op args IH] using expr_ind'; [destruct Hleaf as [->|[]]; exact Hw|].
        cbn [leaves] in Hleaf. apply in_flat_map in Hleaf as (a & Ha & Hs). cbn [Ev_Props2.wf_expr] in Hw. destruct Hw as (_ & _ & _ & Hw).
        clear - IH Hw Ha Hs. induction args as [|b args IHa]; [destruct Ha|]. inversion IH as [|? ? I1 I2]; subst.
        destruct Hw as [W1 W2]. destruct Ha as [->|Ha]; auto. }
      destruct Hrt as [r Hrt]. unfold Ev_Model.read_token in Hrt. rewrite Hr, (Hread s Hs Hr) in Hrt.
      destruct (mapM _ R) as [es|] eqn:Em; [|discriminate]. cbn [bind]. exists es. split; [reflexivity|].
      apply mapM_ok, Forall2_length in Em. auto. }
    destruct (run_one_ref ds tags (negb all) (postfix e) (mk_mstate [] 0 None) st (Some T, index)) as [[En Eo]|(_ & _ & C)].
    - intros s Hs Hr. destruct (Hgrp s) as (g & Eg & _); [now rewrite Htok|exact Hr|eauto].
    - apply id_eqb_refl.
    - exact Er.
    - left. auto.
    - rewrite Eo, En. cbn [Nat.eqb].
      (* number of results *)
      assert (Lout : length out = length R).
      { assert (HRl : (0 < length R)%nat) by (destruct R; [congruence|cbn; lia]). apply Nat.le_antisymm.
        - apply (meaning_le ds tags (negb all) e out (length R) Hw Hm). intros s g i Hs Hr.
          assert (Hst : In s (tokens chain)) by (rewrite Htok; now apply leaf_in_postfix).
          unfold Ev_Model.read_token in Hr. destruct (is_ref tags s) eqn:E.
          + destruct (Hgrp s Hst E) as (g' & Eg & Lg). rewrite Eg in Hr. cbn [bind] in Hr. injection Hr as <- _. lia.
          + assert (length g = 1%nat); [|lia].
            destruct (has_char "(" s || has_char "[" s); [destruct (py_eval s); [|discriminate]; cbn [bind] in Hr; injection Hr as <- _; reflexivity|].
            destruct (has_char ":" s || has_char "," s); [injection Hr as <- _; reflexivity|].
            destruct (parse_float s); [injection Hr as <- _; reflexivity|discriminate].
        - destruct Hex as (s & Hs & Hr). destruct (Hgrp s Hs Hr) as (g & Eg & Lg). rewrite <- Lg.
          apply (meaning_ge ds tags (negb all) e out s g (Some (Some T, index)) Hw Hm).
          + apply (ref_leaf ds tags (negb all)); auto. now rewrite <- Htok.
          + unfold Ev_Model.read_token. rewrite Hr, Eg. reflexivity. }
      (* the loop *)
      assert (HinT : In T ts).
      { destruct R as [|r l] eqn:ER; [congruence|]. assert (Hin : In r R) by (rewrite ER; now left). rewrite <- (HRT r (or_introl eq_refl)).
        unfold R in Hin. apply filter_In in Hin as [Hin _]. apply in_flat_map in Hin as (t & Htt & Hin).
        apply in_map_iff in Hin as (p & <- & _). exact Htt. }
      assert (HnT : names ds (Some T) [T]).
      { change (Some T) with (Some (join "," [T])). constructor; [discriminate|exact HT|constructor; auto]. }
      assert (HuT : picks_under ds index [T] pos) by (intros t [<-|[]]; auto).
      destruct (iterate_selected (fun s : dspace X * nat => fst s) (write_body out) (negb all) (Some T) index [T] pos (ds, 0%nat)
                  HnT Hp HuT (keeps_write out _)) as (cs & Ecs & _ & Ei).
      rewrite Ei.
      assert (ER : List.filter (fun r => negb (negb all) || is_active ds r) (List.map snd cs) = R).
      { rewrite Ecs, negb_involutive. unfold R in *. rewrite (selected_single _ ts pos T Hnd HinT).
        - destruct named eqn:En'.
          + destruct all; [reflexivity|]. cbn [orb]. apply filter_ext_in. intros r Hr. apply Hact; auto.
            apply filter_In. split; [|reflexivity]. unfold selected. apply in_flat_map. exists T. split; [auto|].
            unfold selected in Hr. cbn [flat_map] in Hr. now rewrite app_nil_r in Hr.
          + reflexivity.
        - intros r Hr Hf. apply HRT. apply filter_In. split; [exact Hr|exact Hf]. }
      destruct (fold_write out (negb all) cs ds 0) as (ds' & k' & E & K & L & W & F).
      + rewrite Ecs. unfold selected. cbn [flat_map]. rewrite app_nil_r. clear - HndT.
        induction HndT as [|p l Hp _ IH]; constructor; [|exact IH]. intros C. apply in_map_iff in C as (q & [= ->] & Hq). contradiction.
      + intros c Hc. apply (selected_lookup ds index [T] pos (snd c) HuT). rewrite <- Ecs. now apply in_map.
      + rewrite ER. intros i r d Hi _. assert (Hlt : (i < length out)%nat) by (rewrite Lout; apply nth_error_Some; congruence).
        cbn [Nat.add]. destruct (nth_error out i) as [en|] eqn:Ee; [|apply nth_error_None in Ee; lia].
        destruct (Hpush (ds_data d) en) as [x Ex]. eauto.
      + rewrite ER in *. rewrite E. cbn [bind fst]. exists ds'. split; [reflexivity|]. split; [exact Lout|]. split; [exact K|]. split.
        * intros t. specialize (L t). unfold lens in L. unfold under. destruct (aget t ds'), (aget t ds); cbn in L; congruence.
        * auto.
    - exfalso. rewrite Forall_forall in C. destruct Hex as (s & Hs & Hr). rewrite Htok in Hs. rewrite (C s Hs) in Hr. discriminate.
  Qed.
End Machine.
