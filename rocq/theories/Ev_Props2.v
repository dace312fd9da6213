(** * Properties C24-C27: the stack machine of [ev]. *)
From Coq Require Import String Ascii List Arith ZArith QArith Qabs Bool Lia.
From Verif Require Import Prelude PreludeFacts NdArray GData_Model Select_Model DataSpace_Model DataSpace_Spec
  DataSpace_Proofs DataSpace_Proofs2 DataSpace_Proofs3 DataSpace_Props Ev_Model Ev_Arith Ev_Spec Ev_Props.
Import ListNotations.
Open Scope list_scope.

Lemma max_largest {E} (gs : list (list E)) : gs <> [] ->
  largest_size gs (fold_right Nat.max 0%nat (List.map (@length E) gs)).
Proof.
  induction gs as [|g gs IH]; [congruence|]. intros _. cbn [List.map fold_right].
  destruct gs as [|g' gs].
  - cbn. rewrite Nat.max_0_r. split; repeat constructor.
  - destruct IH as [H1 H2]; [discriminate|]. split.
    + constructor; [lia|]. eapply Forall_impl; [|exact H1]. cbn beta. intros a Ha. lia.
    + destruct (Nat.max_spec (length g) (fold_right Nat.max 0%nat (List.map (@length E) (g' :: gs)))) as [[_ ->]|[_ ->]].
      * right. exact H2.
      * now left.
Qed.

Lemma largest_unique {E} (gs : list (list E)) n m : largest_size gs n -> largest_size gs m -> n = m.
Proof.
  intros [F1 E1] [F2 E2]. rewrite Forall_forall in F1, F2. apply Exists_exists in E1 as (g1 & I1 & L1).
  apply Exists_exists in E2 as (g2 & I2 & L2). specialize (F1 _ I2). specialize (F2 _ I1). lia.
Qed.

Section Machine.
  Context {G V M X : Type}.
  Context (psel : X -> option string -> res (G * V)) (meta : X -> list (string * M)) (meta_val : M -> V)
          (no_grid : G) (parse_float : string -> option V) (py_eval : string -> res V) (str_val : string -> V)
          (mcmp : M -> M -> res bool)
          (cmds : string -> option (nat * (list G -> list V -> res (G * V))))
          (push_data : X -> G -> V -> res X) (new_data : list (string * M) -> X).
  Local Notation group := (@group G V M).
  Local Notation entry := (@entry G V M).
  Local Notation mstate := (@mstate G V M).
  Local Notation read_token := (read_token psel meta meta_val no_grid parse_float py_eval str_val).
  Local Notation read_ref := (read_ref psel meta meta_val no_grid).
  Local Notation apply_cmd := (apply_cmd mcmp).
  Local Notation apply_one := (apply_one mcmp).
  Local Notation step := (step psel meta meta_val no_grid parse_float py_eval str_val mcmp cmds).
  Local Notation run := (run psel meta meta_val no_grid parse_float py_eval str_val mcmp cmds).
  Local Notation ev := (ev psel meta meta_val no_grid parse_float py_eval str_val mcmp cmds push_data new_data).
  Implicit Types (g : group) (ds : dspace X).

  (** ** C25 *)
  Lemma pick_set_uses i g e : pick_set i g = Ok e <-> uses i g e.
  Proof.
    unfold pick_set, uses. destruct (Nat.lt_ge_cases i (length g)) as [L|L].
    - rewrite Nat.min_l by lia. split.
      + destruct (nth_error g i); [|discriminate]. intros [= <-]. now left.
      + intros [-> | [? _]]; [reflexivity|lia].
    - rewrite Nat.min_r by lia. split.
      + destruct (nth_error g (length g - 1)) as [e'|] eqn:E; [|discriminate]. intros [= <-]. right. split; [exact L|].
        destruct (exists_last (l := g)) as (g' & x & ->); [intros ->; destruct (0 - 1)%nat; discriminate|].
        rewrite app_length in E. cbn in E. rewrite Nat.add_sub, nth_error_app2, Nat.sub_diag in E by lia.
        injection E as ->. eauto.
      + intros [H|[_ [g' ->]]].
        * exfalso. assert (i < length g)%nat by (apply nth_error_Some; congruence). lia.
        * rewrite app_length. cbn. rewrite Nat.add_sub, nth_error_app2, Nat.sub_diag by lia. reflexivity.
  Qed.

  Lemma uses_ex i g : g <> [] -> exists e, uses i g e.
  Proof.
    intros H. unfold uses. destruct (nth_error g i) as [e|] eqn:E; [eauto|].
    apply nth_error_None in E. destruct (exists_last H) as (g' & x & ->). exists x. right. eauto.
  Qed.

  (** What one operator does to the operands [args] (in written order) taken
      from the stack. *)
  Definition operator_result (f : list G -> list V -> res (G * V)) (args : list group) (out : group) : Prop :=
    largest_size args (length out) /\
    forall i (e : entry), nth_error out i = Some e ->
      exists es : list entry, Forall2 (uses i) args es /\
        f (rev (List.map e_grid es)) (rev (List.map e_val es)) = Ok (e_grid e, e_val e).

  Lemma apply_cmd_result f args out : args <> [] -> apply_cmd f (rev args) = Ok out ->
    largest_size args (length out) /\
    forall i (e : entry), nth_error out i = Some e ->
      exists es : list entry, Forall2 (uses i) args es /\
        f (rev (List.map e_grid es)) (rev (List.map e_val es)) = Ok (e_grid e, e_val e) /\
        merge_ctx mcmp (rev (List.map e_ctx es)) = Ok (e_ctx e).
  Proof.
    intros Hne H. unfold apply_cmd in H. apply mapM_ok in H.
    assert (Hl : length out = fold_right Nat.max 0%nat (List.map (@length entry) (rev args))).
    { apply Forall2_length in H. rewrite seq_length in H. auto. }
    split.
    - rewrite Hl. destruct (max_largest (rev args)) as [H1 H2].
      + intros E. apply Hne. rewrite <- (rev_involutive args), E. reflexivity.
      + split.
        * apply Forall_rev in H1. now rewrite rev_involutive in H1.
        * apply Exists_exists in H2 as (g & Ig & Lg). apply Exists_exists. exists g. split; [now apply in_rev|exact Lg].
    - intros i e He.
      assert (Hi : nth_error (seq 0 (fold_right Nat.max 0%nat (List.map (@length entry) (rev args)))) i = Some i).
      { rewrite nth_error_seq, <- Hl. destruct (Nat.ltb_spec i (length out)) as [L|L]; [reflexivity|].
        apply nth_error_None in L. congruence. }
      pose proof (Forall2_nth_error _ _ _ _ _ _ H Hi He) as Ha. unfold apply_one in Ha.
      destruct (mapM (pick_set i) (rev args)) as [es|] eqn:E; [|discriminate]. cbn [bind] in Ha.
      destruct (f (List.map e_grid es) (List.map e_val es)) as [[gr v]|] eqn:Ef; [|discriminate].
      destruct (merge_ctx mcmp (List.map e_ctx es)) as [c|] eqn:Em; [|discriminate]. cbn [bind] in Ha.
      injection Ha as <-. apply mapM_ok in E.
      exists (rev es). split.
      + assert (F : Forall2 (uses i) (rev args) es).
        { clear - E. induction E; constructor; auto. now apply pick_set_uses. }
        clear - F. rewrite <- (rev_involutive args). remember (rev args) as l. clear Heql args.
        induction F; cbn [rev]; [constructor|]. apply Forall2_app; [assumption|]. constructor; [assumption|constructor].
      + rewrite <- !map_rev, rev_involutive. split; [exact Ef|exact Em].
  Qed.

  Lemma firstn_rev_args (args : list group) rest n : length args = n -> firstn n (rev args ++ rest) = rev args.
  Proof. intros <-. apply firstn_app_exact. now rewrite rev_length. Qed.
  Lemma skipn_rev_args (args : list group) rest n : length args = n -> skipn n (rev args ++ rest) = rest.
  Proof. intros <-. apply skipn_app_exact. now rewrite rev_length. Qed.

  Lemma step_cmd ds tags oa s n f args rest k o :
    read_token ds tags oa s = Ok None -> cmds s = Some (n, f) -> (0 < n)%nat -> length args = n ->
    step ds tags oa s (mk_mstate (rev args ++ rest) k o) =
    let* out := apply_cmd f (rev args) in Ok (mk_mstate (out :: rest) k o).
  Proof.
    intros Hr Hc Hn Hl. unfold step. rewrite Hr. cbn [bind]. rewrite Hc. cbn [stack nsel out_id].
    replace (length (rev args ++ rest) <? n)%nat with false.
    2:{ symmetry. apply Nat.ltb_ge. rewrite app_length, rev_length. lia. }
    replace (n =? 0)%nat with false by (symmetry; apply Nat.eqb_neq; lia).
    rewrite firstn_rev_args, skipn_rev_args by auto. reflexivity.
  Qed.

  (** The operator takes its operands from the stack, the last-written one on
      top, and pushes one group: as many results as the largest operand has
      datasets, the [i]-th computed from the [i]-th dataset of each operand
      (its last one if it has fewer).  The rest of the stack is untouched. *)
  Theorem C25_operator ds tags oa s n f args rest k o st' :
    read_token ds tags oa s = Ok None -> cmds s = Some (n, f) -> (0 < n)%nat -> length args = n ->
    step ds tags oa s (mk_mstate (rev args ++ rest) k o) = Ok st' ->
    exists out, stack st' = out :: rest /\ nsel st' = k /\ out_id st' = o /\ operator_result f args out.
  Proof.
    intros Hr Hc Hn Hl H. rewrite (step_cmd _ _ _ _ n f) in H; auto.
    destruct (apply_cmd f (rev args)) as [out|] eqn:E; [|discriminate]. cbn [bind] in H. injection H as <-.
    exists out. split; [reflexivity|]. split; [reflexivity|]. split; [reflexivity|].
    destruct (apply_cmd_result f args out) as [H1 H2]; auto.
    - destruct args; [cbn in Hl; lia|discriminate].
    - split; [exact H1|]. intros i e He. destruct (H2 i e He) as (es & F & Ef & _). eauto.
  Qed.

  (** Two inputs whose metadata can be compared key by key. *)
  Definition comparable (c c' : list (string * M)) : Prop :=
    forall k v v', In (k, v) c -> In (k, v') c' -> exists b, mcmp v v' = Ok b.

  Lemma aget_In k v (l : list (string * M)) : aget k l = Some v -> In (k, v) l.
  Proof.
    induction l as [|[q w] l IH]; cbn; [discriminate|]. destruct (String.eqb_spec k q) as [->|]; [|auto].
    intros [= ->]. now left.
  Qed.

  Lemma aset_In kv k v (l : list (string * M)) : In kv (aset k v l) -> kv = (k, v) \/ In kv l.
  Proof.
    induction l as [|[q w] l IH]; cbn [aset]; [intros [<-|[]]; auto|]. destruct (String.eqb k q).
    - intros [<-|H]; [auto|right; now right].
    - intros [<-|H]; [right; now left|]. destruct (IH H); [auto|right; now right].
  Qed.

  Lemma adel_In kv k (l : list (string * M)) : In kv (adel k l) -> In kv l.
  Proof.
    induction l as [|[q w] l IH]; cbn [adel]; [auto|]. destruct (String.eqb k q); [right; auto|].
    intros [<-|H]; [now left|right; auto].
  Qed.

  Lemma merge_keys_In l st st' kv :
    merge_keys mcmp l st = Ok st' -> In kv (fst st') -> In kv (fst st) \/ In kv l.
  Proof.
    revert st. induction l as [|[k0 v0] l IH]; intros st H Hi; cbn [merge_keys] in H.
    - injection H as <-. auto.
    - destruct (merge_key mcmp st (k0, v0)) as [st1|] eqn:E; [|discriminate]. cbn [bind] in H.
      destruct (IH _ H Hi) as [H1|H1]; [|right; now right].
      unfold merge_key in E. cbn [fst snd] in E. destruct (aget k0 (fst st)) as [w|].
      + destruct (mcmp v0 w) as [b|]; [|discriminate]. cbn [bind] in E. injection E as <-.
        left. now destruct b.
      + injection E as <-. cbn [fst] in H1. destruct (aset_In _ _ _ _ H1) as [->|?]; [right; now left|auto].
  Qed.

  (** Every entry of a result comes from an input. *)
  Lemma merge_ctx_In ctxs c kv : merge_ctx mcmp ctxs = Ok c -> In kv c -> exists c0, In c0 ctxs /\ In kv c0.
  Proof.
    unfold merge_ctx. intros H Hi. destruct (merge_keys mcmp (concat ctxs) ([], [])) as [st|] eqn:E; [|discriminate].
    cbn [bind] in H. injection H as <-.
    assert (Hi' : In kv (fst st)).
    { revert Hi. generalize (fst st). generalize (snd st). intros rm. induction rm as [|k rm IH]; intros o Hi; [exact Hi|].
      cbn [fold_left] in Hi. apply IH in Hi. now apply adel_In in Hi. }
    destruct (merge_keys_In _ _ _ _ E Hi') as [[]|Hc]. apply in_concat in Hc as (c0 & ? & ?). eauto.
  Qed.

  Lemma merge_keys_ok l st :
    (forall k v v', In (k, v) l -> In (k, v') (fst st) \/ In (k, v') l -> exists b, mcmp v v' = Ok b) ->
    exists st', merge_keys mcmp l st = Ok st'.
  Proof.
    revert st. induction l as [|[k0 v0] l IH]; intros st H; cbn [merge_keys]; [eauto|].
    assert (E : exists st1, merge_key mcmp st (k0, v0) = Ok st1 /\ forall kv, In kv (fst st1) -> kv = (k0, v0) \/ In kv (fst st)).
    { unfold merge_key. cbn [fst snd]. destruct (aget k0 (fst st)) as [w|] eqn:Ew.
      - destruct (H k0 v0 w) as [b Eb]; [now left|left; now apply aget_In|]. rewrite Eb. cbn [bind]. eexists. split; [reflexivity|].
        destruct b; auto.
      - eexists. split; [reflexivity|]. intros kv Hk. cbn [fst] in Hk. now apply aset_In in Hk. }
    destruct E as (st1 & -> & Hs). cbn [bind]. apply IH. intros k v v' Hv Hv'. apply (H k v v'); [now right|].
    destruct Hv' as [Hv'|Hv']; [|right; now right]. destruct (Hs _ Hv') as [[= -> ->]|?]; [right; now left|auto].
  Qed.

  (** What is already there is compared with every later entry of its key. *)
  Lemma merge_keys_compared l st st' k v v' :
    merge_keys mcmp l st = Ok st' -> aget k (fst st) = Some v -> In (k, v') l -> exists b, mcmp v' v = Ok b.
  Proof.
    revert st. induction l as [|[k0 v0] l IH]; intros st H Hv Hi; [destruct Hi|]. cbn [merge_keys] in H.
    destruct (merge_key mcmp st (k0, v0)) as [st1|] eqn:E; [|discriminate]. cbn [bind] in H.
    unfold merge_key in E. cbn [fst snd] in E. destruct (aget k0 (fst st)) as [w|] eqn:Ew.
    - destruct (mcmp v0 w) as [b|] eqn:Ec; [|discriminate]. cbn [bind] in E. injection E as <-.
      destruct Hi as [[= -> ->]|Hi]; [exists b; congruence|]. apply (IH _ H); [now destruct b|exact Hi].
    - injection E as <-. destruct Hi as [[= -> ->]|Hi]; [congruence|]. apply (IH _ H); [|exact Hi]. cbn [fst].
      rewrite aget_aset. destruct (String.eqb_spec k k0); [congruence|exact Hv].
  Qed.

  Lemma merge_keys_app l l' st :
    merge_keys mcmp (l ++ l') st = (let* st1 := merge_keys mcmp l st in merge_keys mcmp l' st1).
  Proof.
    revert st. induction l as [|kv l IH]; intros st; [reflexivity|]. cbn [merge_keys app].
    destruct (merge_key mcmp st kv); [|reflexivity]. cbn [bind]. apply IH.
  Qed.

  Lemma merge_keys_new l st st' k : merge_keys mcmp l st = Ok st' -> aget k (fst st) = None -> aget k l = None -> aget k (fst st') = None.
  Proof.
    revert st. induction l as [|[k0 v0] l IH]; intros st H Hs Hl; cbn [merge_keys] in H; [now injection H as <-|].
    destruct (merge_key mcmp st (k0, v0)) as [st1|] eqn:E; [|discriminate]. cbn [bind] in H. cbn [aget] in Hl.
    destruct (String.eqb_spec k k0) as [->|Hk]; [discriminate|].
    apply (IH st1 H); [|exact Hl]. unfold merge_key in E. cbn [fst snd] in E. destruct (aget k0 (fst st)) as [w|].
    - destruct (mcmp v0 w) as [b|]; [|discriminate]. cbn [bind] in E. injection E as <-. now destruct b.
    - injection E as <-. cbn [fst]. rewrite aget_aset. destruct (String.eqb_spec k k0); [congruence|exact Hs].
  Qed.

  (** The first value of a key is compared with all later ones. *)
  Lemma merge_ctx_compared l1 c l2 c' l3 mc k v v' :
    merge_ctx mcmp (l1 ++ c :: l2 ++ c' :: l3) = Ok mc ->
    Forall (fun c => aget k c = None) l1 -> aget k c = Some v -> In (k, v') c' ->
    exists b, mcmp v' v = Ok b.
  Proof.
    unfold merge_ctx. intros H Hn Hc Hc'.
    destruct (merge_keys mcmp (concat (l1 ++ c :: l2 ++ c' :: l3)) ([], [])) as [st|] eqn:E; [|discriminate]. clear H.
    rewrite concat_app in E. cbn [concat] in E. rewrite concat_app in E. cbn [concat] in E.
    rewrite merge_keys_app in E. destruct (merge_keys mcmp (concat l1) ([], [])) as [st1|] eqn:E1; [|discriminate]. cbn [bind] in E.
    assert (N1 : aget k (fst st1) = None).
    { apply (merge_keys_new _ _ _ _ E1); [reflexivity|]. clear - Hn. induction Hn as [|c l Hc _ IH]; [reflexivity|].
      cbn [concat]. clear - Hc IH. induction c as [|[q w] c IHc]; [exact IH|]. cbn [app aget] in *. destruct (String.eqb k q); [discriminate|auto]. }
    clear E1. revert st1 E N1. induction c as [|[q w] c IHc]; intros st1 E N1; [discriminate|]. cbn [app merge_keys] in E.
    destruct (merge_key mcmp st1 (q, w)) as [st2|] eqn:E2; [|discriminate]. cbn [bind] in E. cbn [aget] in Hc.
    unfold merge_key in E2. cbn [fst snd] in E2. destruct (String.eqb_spec k q) as [->|Hk].
    - injection Hc as ->. rewrite N1 in E2. injection E2 as <-.
      apply (merge_keys_compared _ _ _ q v v' E).
      + cbn [fst]. rewrite aget_aset, String.eqb_refl. reflexivity.
      + apply in_or_app. right. apply in_or_app. right. apply in_or_app. now left.
    - apply (IHc Hc st2 E). destruct (aget q (fst st1)) as [u|] eqn:Eu.
      + destruct (mcmp w u) as [b|]; [|discriminate]. cbn [bind] in E2. injection E2 as <-. now destruct b.
      + injection E2 as <-. cbn [fst]. rewrite aget_aset. destruct (String.eqb_spec k q); [congruence|exact N1].
  Qed.

  Lemma merge_ctx_ok ctxs : (forall c c', In c ctxs -> In c' ctxs -> comparable c c') -> exists c, merge_ctx mcmp ctxs = Ok c.
  Proof.
    intros H. unfold merge_ctx. destruct (merge_keys_ok (concat ctxs) ([], [])) as [st' E].
    - intros k v v' Hv [[]|Hv']. apply in_concat in Hv as (c & Hc & Hv). apply in_concat in Hv' as (c' & Hc' & Hv').
      apply (H c c' Hc Hc' k v v' Hv Hv').
    - rewrite E. cbn [bind]. eauto.
  Qed.

  (** It succeeds when no operand is empty, the function does and the metadata
      of the inputs can be compared; it fails if the function fails on some
      combination or if an operand is empty while another is not. *)
  Theorem C25_succeeds f args :
    args <> [] -> Forall (fun g => g <> []) args ->
    (forall i (es : list entry), Forall2 (uses i) args es -> exists gv, f (rev (List.map e_grid es)) (rev (List.map e_val es)) = Ok gv) ->
    (forall i (es : list entry) a b, Forall2 (uses i) args es -> In a es -> In b es -> comparable (e_ctx a) (e_ctx b)) ->
    exists out, apply_cmd f (rev args) = Ok out.
  Proof.
    intros Hne Hg Hf Hcm. unfold apply_cmd.
    match goal with |- exists out, mapM ?h ?l = Ok out => assert (T : forall i, exists e, h i = Ok e) end.
    { intros i. assert (Hx : exists es, Forall2 (uses i) args es).
      { clear - Hg. induction Hg as [|g gs H _ [es IH]]; [exists []; constructor|].
        destruct (uses_ex i g H) as [e He]. exists (e :: es). now constructor. }
      destruct Hx as [es F]. destruct (Hf i es F) as [[gr v] Ef].
      assert (Em : mapM (pick_set i) (rev args) = Ok (rev es)).
      { apply mapM_ok. clear - F. induction F; cbn [rev]; [constructor|]. apply Forall2_app; auto.
        constructor; [now apply pick_set_uses|constructor]. }
      unfold apply_one. rewrite Em. cbn [bind]. rewrite !map_rev, Ef.
      destruct (merge_ctx_ok (rev (List.map e_ctx es))) as [c Ecx]; [|rewrite Ecx; cbn [bind]; eauto].
      intros c c' Hc Hc'. apply in_rev, in_map_iff in Hc as (a & <- & Ha). apply in_rev, in_map_iff in Hc' as (b & <- & Hb).
      exact (Hcm i es a b F Ha Hb). }
    induction (seq 0 _) as [|i l IH]; [exists []; reflexivity|]. destruct (T i) as [e E]. destruct IH as [es E'].
    exists (e :: es). cbn [mapM]. rewrite E. cbn [bind]. rewrite E'. reflexivity.
  Qed.

  Theorem C25_function_fails f args out i (es : list entry) e :
    args <> [] -> apply_cmd f (rev args) = Ok out -> (i < length out)%nat -> Forall2 (uses i) args es ->
    f (rev (List.map e_grid es)) (rev (List.map e_val es)) <> Err e.
  Proof.
    intros Hne H Hi F. destruct (apply_cmd_result f args out Hne H) as [_ H2].
    destruct (nth_error out i) as [x|] eqn:Ex; [|apply nth_error_None in Ex; lia].
    destruct (H2 i x Ex) as (es' & F' & Ef & _).
    enough (es = es') by (subst; congruence). clear - F F'. revert es' F'. induction F as [|g a gs es Hg F IH]; intros es' F'.
    - now inversion F'.
    - inversion F' as [|? b ? es2 Hb F2]; subst. f_equal; auto. apply pick_set_uses in Hg, Hb. congruence.
  Qed.

  (** ** C26 *)
  Section Merge.
    Context (Hm : forall a b c, mcmp a b = Ok c -> (c = true <-> a = b)).

    (** The first value of a key. *)
    Lemma merge_inv (l : list (string * M)) out rm st :
      merge_keys mcmp l (out, rm) = Ok st ->
      forall k,
        aget k (fst st) = match aget k out with Some v => Some v | None => aget k l end /\
        (In k (snd st) <-> In k rm \/
           exists v v', aget k (fst st) = Some v /\ In (k, v') l /\ v' <> v).
    Proof.
      revert out rm. induction l as [|[k0 v0] l IH]; intros out rm H k.
      - injection H as <-. cbn. split; [destruct (aget k out); reflexivity|]. split; [auto|]. intros [H|(v & v' & _ & [] & _)]; auto.
      - cbn [merge_keys] in H.
        destruct (merge_key mcmp (out, rm) (k0, v0)) as [[out' rm']|] eqn:Em; [|discriminate]. cbn [bind] in H.
        assert (Hs : (forall q, aget q out' = match aget q out with Some v => Some v | None => if String.eqb q k0 then Some v0 else None end) /\
                  (forall q, In q rm' <-> In q rm \/ (q = k0 /\ exists w, aget k0 out = Some w /\ w <> v0))).
        { unfold merge_key in Em. cbn [fst snd] in Em. destruct (aget k0 out) as [w|] eqn:Ew.
          - destruct (mcmp v0 w) as [b|] eqn:Ec; [|discriminate]. cbn [bind] in Em. apply Hm in Ec. destruct b.
            + injection Em as <- <-. assert (v0 = w) by now apply Ec. subst w. split.
              * intros q. destruct (aget q out) eqn:Eq; [reflexivity|]. destruct (String.eqb_spec q k0); [congruence|reflexivity].
              * intros q. split; [auto|]. intros [H'|[_ (w & [= <-] & H')]]; [auto|congruence].
            + injection Em as <- <-. assert (v0 <> w) by (intros E; apply Ec in E; congruence). split.
              * intros q. destruct (aget q out) eqn:Eq; [reflexivity|]. destruct (String.eqb_spec q k0); [congruence|reflexivity].
              * intros q. rewrite in_app_iff. cbn. split.
                -- intros [H'|[->|[]]]; [auto|]. right. split; [auto|]. exists w. split; auto.
                -- intros [H'|[-> _]]; auto.
          - injection Em as <- <-. split.
            + intros q. rewrite aget_aset. destruct (String.eqb_spec q k0) as [->|]; [now rewrite Ew|]. destruct (aget q out); reflexivity.
            + intros q. split; [auto|]. intros [H'|[_ (w & [=] & _)]]; auto. }
        destruct Hs as (Ho & Hr). destruct (IH out' rm' H k) as [I1 I2].
        assert (E1 : aget k (fst st) = match aget k out with Some v => Some v | None => aget k ((k0, v0) :: l) end).
        { rewrite I1, Ho. cbn [aget]. destruct (aget k out); [reflexivity|]. destruct (String.eqb k k0); reflexivity. }
        split; [exact E1|]. rewrite I2, Hr. split.
        + intros [[H'|[-> (w & Ew & Hw)]]|(v & v' & Hv & Hi & Hne)]; [auto| |].
          * right. exists w, v0. rewrite E1, Ew. split; [reflexivity|]. split; [now left|auto].
          * right. exists v, v'. split; [auto|]. split; [now right|auto].
        + intros [H'|(v & v' & Hv & [[= -> ->]|Hi] & Hne)]; [auto| |].
          * rewrite E1 in Hv. destruct (aget k out) as [w|] eqn:Ew.
            -- injection Hv as ->. left. right. split; [auto|]. exists v. auto.
            -- cbn [aget] in Hv. rewrite String.eqb_refl in Hv. congruence.
          * right. exists v, v'. auto.
    Qed.

    Lemma aget_fold_adel k (rm : list string) (o : list (string * M)) :
      aget k (fold_left (fun o k => adel k o) rm o) = if existsb (String.eqb k) rm then None else aget k o.
    Proof.
      revert o. induction rm as [|q rm IH]; intros o; cbn [fold_left existsb]; [reflexivity|]. rewrite IH, aget_adel.
      destruct (String.eqb k q); cbn [orb]; [|reflexivity]. destruct (existsb (String.eqb k) rm); reflexivity.
    Qed.

    Lemma In_aget k v (l : list (string * M)) : NoDup (List.map fst l) -> In (k, v) l -> aget k l = Some v.
    Proof.
      induction l as [|[q w] l IH]; cbn; [intros _ []|]. intros Hn. inversion Hn as [|? ? Hq Hn']; subst. intros [[= -> ->]|H].
      - now rewrite String.eqb_refl.
      - destruct (String.eqb_spec k q) as [->|]; [|auto]. exfalso. apply Hq. apply in_map_iff. exists (q, v). auto.
    Qed.
    Lemma aget_some_in k v (l : list (string * M)) : In (k, v) l -> exists w, aget k l = Some w.
    Proof.
      induction l as [|[q w] l IH]; cbn; [intros []|]. destruct (String.eqb_spec k q); [eauto|].
      intros [[= -> ->]|H]; [congruence|auto].
    Qed.

    (** A value is the first one of its key or has been compared with it. *)
    Lemma merge_first l st st' k v v' :
      merge_keys mcmp l st = Ok st' -> aget k (fst st') = Some v -> In (k, v') l -> v' = v \/ exists b, mcmp v' v = Ok b.
    Proof.
      intros H Hv Hi. destruct (in_split _ _ Hi) as (l1 & l2 & El). rewrite El in H.
      rewrite merge_keys_app in H. destruct (merge_keys mcmp l1 st) as [st1|] eqn:E1; [|discriminate]. cbn [bind] in H.
      destruct (aget k (fst st1)) as [w|] eqn:Ew.
      - assert (w = v).
        { pose proof (merge_inv ((k, v') :: l2) (fst st1) (snd st1) st') as HI. rewrite <- surjective_pairing in HI.
          destruct (HI H k) as [HI1 _]. rewrite Ew in HI1. congruence. }
        subst w. right. apply (merge_keys_compared ((k, v') :: l2) st1 st' k v v' H Ew). now left.
      - left. pose proof (merge_inv ((k, v') :: l2) (fst st1) (snd st1) st') as HI. rewrite <- surjective_pairing in HI.
        destruct (HI H k) as [HI1 _]. rewrite Ew in HI1. cbn [aget] in HI1. rewrite String.eqb_refl in HI1. congruence.
    Qed.

    Lemma merge_spec (ctxs : list (list (string * M))) mc k v :
      Forall (fun c => NoDup (List.map fst c)) ctxs ->
      merge_ctx mcmp ctxs = Ok mc ->
      aget k mc = Some v <->
      (exists c, In c ctxs /\ aget k c = Some v) /\ (forall c v', In c ctxs -> aget k c = Some v' -> v' = v).
    Proof.
      intros Hn Hmc. rewrite Forall_forall in Hn. unfold merge_ctx in Hmc.
      destruct (merge_keys mcmp (concat ctxs) ([], [])) as [[out rm]|] eqn:E0; [|discriminate]. cbn [bind fst snd] in Hmc.
      injection Hmc as <-. pose proof (merge_inv _ _ _ _ E0 k) as H. cbn [fst snd] in H. destruct H as [H1 H2].
      cbn [aget] in H1. rewrite aget_fold_adel.
      assert (Hb : existsb (String.eqb k) rm = true <-> In k rm).
      { rewrite existsb_exists. split; [intros (q & Hq & E); apply String.eqb_eq in E; now subst|].
        intros H; exists k. split; [auto|apply String.eqb_refl]. }
      split.
      - destruct (existsb (String.eqb k) rm) eqn:E; [discriminate|]. intros Ho.
        assert (Hnr : ~ In k rm) by (intros C; apply Hb in C; congruence).
        rewrite H1 in Ho. split.
        + apply aget_In in Ho. apply in_concat in Ho as (c & Hc & Hi). exists c. split; [auto|]. apply In_aget; auto.
        + intros c v' Hc Hg.
          assert (Hin : In (k, v') (concat ctxs)) by (apply in_concat; exists c; split; [auto|now apply aget_In]).
          destruct (merge_first (concat ctxs) ([], []) _ k v v' E0) as [Q|[b Eb]]; [now cbn [fst]; rewrite H1|exact Hin|exact Q|].
          pose proof (Hm _ _ _ Eb) as Hb'. destruct b; [now apply Hb'|]. exfalso. apply Hnr, H2. right. exists v, v'.
          split; [congruence|]. split; [exact Hin|]. intros Q. apply Hb' in Q. discriminate.
      - intros [(c & Hc & Hg) Hall].
        assert (Hin : In (k, v) (concat ctxs)) by (apply in_concat; exists c; split; [auto|now apply aget_In]).
        destruct (aget_some_in _ _ _ Hin) as [w Ew].
        assert (w = v).
        { apply aget_In, in_concat in Ew as (c' & Hc' & Hi'). apply (Hall c'); [auto|]. apply In_aget; auto. }
        subst w. destruct (existsb (String.eqb k) rm) eqn:E; [|now rewrite H1].
        exfalso. assert (Hr : In k rm) by now apply Hb.
        apply H2 in Hr as [[]|(u & v' & Hu & Hi & Hne)]. rewrite H1, Ew in Hu. injection Hu as <-.
        apply Hne. apply in_concat in Hi as (c' & Hc' & Hi'). apply (Hall c'); [auto|]. apply In_aget; auto.
    Qed.

    (** Metadata of a result: exactly what the datasets it was computed from
        agree on. *)
    Theorem C26_metadata ds tags oa s n f args rest k o st' :
      read_token ds tags oa s = Ok None -> cmds s = Some (n, f) -> (0 < n)%nat -> length args = n ->
      (forall g (e : entry), In g args -> In e g -> NoDup (List.map fst (e_ctx e))) ->
      step ds tags oa s (mk_mstate (rev args ++ rest) k o) = Ok st' ->
      exists out, stack st' = out :: rest /\
        forall i (e : entry), nth_error out i = Some e ->
          exists es : list entry, Forall2 (uses i) args es /\
            forall key v,
              aget key (e_ctx e) = Some v <->
              (exists a, In a es /\ aget key (e_ctx a) = Some v) /\
              (forall a v', In a es -> aget key (e_ctx a) = Some v' -> v' = v).
    Proof.
      intros Hr Hc Hn Hl Hd H. rewrite (step_cmd _ _ _ _ n f) in H; auto.
      destruct (apply_cmd f (rev args)) as [out|] eqn:E; [|discriminate]. cbn [bind] in H. injection H as <-.
      exists out. split; [reflexivity|]. intros i e He.
      destruct (apply_cmd_result f args out) as [_ H2]; auto. { destruct args; [cbn in Hl; lia|discriminate]. }
      destruct (H2 i e He) as (es & F & _ & Ec). exists es. split; [exact F|]. intros key v.
      assert (Hnd : Forall (fun c => NoDup (List.map fst c)) (rev (List.map e_ctx es))).
      { apply Forall_forall. intros c Hc'. rewrite <- in_rev in Hc'. apply in_map_iff in Hc' as (a & <- & Ha).
        clear - F Hd Ha. induction F as [|g b gs es Hu F IH]; [destruct Ha|]. destruct Ha as [->|Ha].
        - apply (Hd g); [now left|]. destruct Hu as [Hu|[_ [g' ->]]]; [eapply nth_error_In; eauto|apply in_or_app; right; now left].
        - apply IH; auto. intros g' e' Hg'. apply Hd. now right. }
      rewrite (merge_spec _ _ key v Hnd Ec). split; intros [(c & Hc1 & Hc2) Hall].
      - rewrite <- in_rev in Hc1. apply in_map_iff in Hc1 as (a & <- & Ha). split; [eauto|].
        intros b v' Hb. apply Hall. rewrite <- in_rev. now apply in_map.
      - split; [exists (e_ctx c); split; [rewrite <- in_rev; now apply in_map|auto]|].
        intros b v' Hb. rewrite <- in_rev in Hb. apply in_map_iff in Hb as (a & <- & Ha). now apply Hall.
    Qed.
  End Merge.

  (** A result exists only if the last-written input with a key could be
      compared with every earlier one that has it. *)
  Theorem C26_compared f args out i (es l1 l2 l3 : list entry) (a b : entry) k v v' :
    args <> [] -> apply_cmd f (rev args) = Ok out -> (i < length out)%nat -> Forall2 (uses i) args es ->
    es = l1 ++ b :: l2 ++ a :: l3 -> (forall x, In x l3 -> aget k (e_ctx x) = None) ->
    aget k (e_ctx a) = Some v -> aget k (e_ctx b) = Some v' ->
    exists c, mcmp v' v = Ok c.
  Proof.
    intros Hne H Hi F El Hn Ha Hb. destruct (apply_cmd_result f args out Hne H) as [_ H2].
    destruct (nth_error out i) as [x|] eqn:Ex; [|apply nth_error_None in Ex; lia].
    destruct (H2 i x Ex) as (es' & F' & _ & Ec).
    assert (es = es').
    { clear - F F'. revert es' F'. induction F as [|g a gs es Hg F IH]; intros es' F'.
      - now inversion F'.
      - inversion F' as [|? b ? es2 Hb F2]; subst. f_equal; auto. apply pick_set_uses in Hg, Hb. congruence. }
    subst es' es. rewrite map_app, rev_app_distr in Ec. cbn [List.map rev] in Ec.
    rewrite map_app, rev_app_distr in Ec. cbn [List.map rev] in Ec. rewrite <- !app_assoc in Ec. cbn [app] in Ec.
    apply (merge_ctx_compared (rev (List.map e_ctx l3)) (e_ctx a) (rev (List.map e_ctx l2)) (e_ctx b) (rev (List.map e_ctx l1)) (e_ctx x) k v v' Ec).
    - apply Forall_forall. intros c Hc. apply in_rev, in_map_iff in Hc as (y & <- & Hy). auto.
    - exact Ha.
    - now apply aget_In.
  Qed.

  (** ** C24 *)
  Section Expr.
    Context (ds : dspace X) (tags : list string) (oa : bool).

    (** Leaves are data, operators are not and have the right number of
        operands. *)
    Fixpoint wf_expr (e : expr) : Prop :=
      match e with
      | Leaf s => exists r, read_token ds tags oa s = Ok (Some r)
      | Node op args =>
          read_token ds tags oa op = Ok None /\ args <> [] /\
          (exists f, cmds op = Some (length args, f)) /\
          fold_right (fun a P => wf_expr a /\ P) True args
      end.

    (** The meaning of an expression: leaves are read, operators are applied to
        the meanings of their operands ([apply_cmd] is characterised by
        [C25_operator]); the first failure, from left to right, is the
        failure of the whole. *)
    Fixpoint all_ok (l : list (res group)) : res (list group) :=
      match l with [] => Ok [] | r :: l' => let* g := r in let* gs := all_ok l' in Ok (g :: gs) end.
    Fixpoint meaning (e : expr) : res group :=
      match e with
      | Leaf s => let* r := read_token ds tags oa s in
                  match r with Some (g, _) => Ok g | None => Err NameError end
      | Node op args =>
          let* gs := all_ok (List.map meaning args) in
          match cmds op with Some (_, f) => apply_cmd f (rev gs) | None => Err NameError end
      end.

    Lemma run_app t1 t2 st : run ds tags oa (t1 ++ t2) st = let* st' := run ds tags oa t1 st in run ds tags oa t2 st'.
    Proof. revert st; induction t1 as [|t t1 IH]; intros st; [reflexivity|]. cbn [run app].
      destruct (step ds tags oa t st); [apply IH|reflexivity]. Qed.

    Fixpoint expr_ind' (P : expr -> Prop) (HL : forall s, P (Leaf s))
        (HN : forall op args, Forall P args -> P (Node op args)) (e : expr) : P e :=
      match e with
      | Leaf s => HL s
      | Node op args => HN op args ((fix all l := match l return Forall P l with
                                                 | [] => Forall_nil P
                                                 | a :: l' => Forall_cons a (expr_ind' P HL HN a) (all l')
                                                 end) args)
      end.

    (** Evaluating the postfix form pushes exactly the value of the expression,
        from any stack, which is otherwise left alone; it fails exactly if the
        expression has no value. *)
    Theorem C24_postfix e st :
      wf_expr e ->
      match meaning e with
      | Ok g => exists st', run ds tags oa (postfix e) st = Ok st' /\ stack st' = g :: stack st
      | Err x => run ds tags oa (postfix e) st = Err x
      end.
    Proof.
      revert st. induction e as [s|op args IH] using expr_ind'; intros st Hw.
      - cbn [wf_expr] in Hw. destruct Hw as [[g i] E]. cbn [postfix run meaning]. unfold step. rewrite E. cbn [bind].
        destruct (note_id st i) as [n o]. eexists; split; [reflexivity|reflexivity].
      - cbn [wf_expr] in Hw. destruct Hw as (Ho & Hne & (f & Hf) & Hw). cbn [postfix meaning]. rewrite run_app, Hf.
        assert (A : match all_ok (List.map meaning args) with
                    | Ok gs => length gs = length args /\
                        exists st1, run ds tags oa (flat_map postfix args) st = Ok st1 /\ stack st1 = rev gs ++ stack st
                    | Err x => run ds tags oa (flat_map postfix args) st = Err x
                    end).
        { clear Ho Hne Hf. revert st. induction IH as [|a args Pa _ IHl]; intros st; cbn [List.map all_ok flat_map].
          - split; [reflexivity|]. exists st. split; reflexivity.
          - destruct Hw as [Wa Hw]. rewrite run_app. specialize (Pa st Wa). destruct (meaning a) as [g|x]; cbn [bind].
            + destruct Pa as (st1 & E1 & S1). rewrite E1. cbn [bind]. specialize (IHl Hw st1).
              destruct (all_ok (List.map meaning args)) as [gs|x]; cbn [bind]; [|exact IHl].
              destruct IHl as (L & st2 & E2 & S2). split; [cbn; congruence|]. exists st2. split; [exact E2|].
              rewrite S2, S1. cbn [rev]. rewrite <- app_assoc. reflexivity.
            + rewrite Pa. reflexivity. }
        destruct (all_ok (List.map meaning args)) as [gs|x]; cbn [bind].
        + destruct A as (Lg & [stk n o] & E1 & S1). cbn [stack] in S1. subst stk. rewrite E1. cbn [bind run].
          rewrite (step_cmd ds tags oa op (length args) f gs (stack st) n o); auto.
          2:{ destruct args; [congruence|cbn; lia]. }
          destruct (apply_cmd f (rev gs)) as [out|x]; cbn [bind]; [|reflexivity]. eexists; split; reflexivity.
        + rewrite A. reflexivity.
    Qed.
  End Expr.
End Machine.
