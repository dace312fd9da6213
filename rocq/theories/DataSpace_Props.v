(** * C16-C19, C53, C54: iterating over datasets, their status and labels, and
    the commands that loop over them. *)
From Coq Require Import String Ascii List Arith ZArith Bool Sorted Lia.
From Verif Require Import Prelude PreludeFacts NdArray DataSpace_Model DataSpace_Spec DataSpace_Proofs
  DataSpace_Proofs2 DataSpace_Proofs3.
Import ListNotations.
Open Scope list_scope.

(** A small data space used by the examples: two tags, one inactive dataset. *)
Definition ex_d (i : nat) (f : string) (b : bool) (x : nat) : dset nat := mk_dset i f b "" x.
Definition ex_ds : dspace nat :=
  [("elc"%string, [ex_d 1 "a_0.gkyl" true 10; ex_d 2 "a_1.gkyl" false 20; ex_d 3 "a_2.gkyl" true 30]);
   ("ion"%string, [ex_d 4 "b_0.gkyl" true 40; ex_d 5 "b_1.gkyl" true 50])].

Section C16.
  Context {X : Type}.
  Implicit Type ds : dspace X.

  (** The datasets visited are exactly the picked ones that are active (all
      picked ones without [only_active]), tag by tag in the order named and
      within a tag in the order of the index. *)
  Theorem C16_visits ds tag index only ts pos :
    names ds tag ts -> (exists n ps, picks n index ps) -> picks_under ds index ts pos ->
    exists vs, visits ds tag false only (sel_of_index index) = Ok vs /\
      List.map snd vs = List.filter (fun r => negb only || is_active ds r) (selected ts pos).
  Proof. intros H1 H2 H3. destruct (visits_selected ds tag index only ts pos) as (vs & E & Es & _); eauto. Qed.

  (** Without an index everything is picked and [enum] numbers the datasets by
      their position within the tag. *)
  Theorem C16_enum ds tag only ts :
    names ds tag ts -> Forall (fun t => aget t ds <> None) ts ->
    exists vs, visits ds tag true only SelNone = Ok vs /\
      List.map snd vs = List.filter (fun r => negb only || is_active ds r)
        (selected ts (fun t => match aget t ds with Some l => seq 0 (length l) | None => [] end)) /\
      Forall (fun v => fst v = snd (snd v)) vs.
  Proof.
    intros Hn Hk.
    destruct (visits_selected ds tag None only ts (all_of ds)) as (vs & E & Es & En).
    - exact Hn.
    - apply picks_none_wf.
    - apply picks_all_under. rewrite Forall_forall in *. intros t Ht. specialize (Hk t Ht).
      destruct (aget t ds) eqn:Ea; [eapply key_aget; eauto|congruence].
    - exists vs. split; [|split; auto]. exact E.
  Qed.

  (** [enum] cannot be combined with a selection: a number other than 0, any
      slice, any string but the empty one. *)
  Theorem C16_enum_with_select_rejected ds tag only s :
    match s with SelNone => False | SelInt i => i <> 0%Z | SelSlice _ _ _ => True | SelStr t => t <> ""%string end ->
    visits ds tag true only s = Err Quit.
  Proof.
    intros H. assert (E : sel_truthy s = true).
    { destruct s; cbn; auto; try contradiction.
      - apply negb_true_iff, Z.eqb_neq. exact H.
      - apply negb_true_iff, String.eqb_neq. exact H. }
    unfold visits, iterate. rewrite E. reflexivity.
  Qed.

  (** A tag that is not there aborts; nothing is silently skipped. *)
  Theorem C16_unknown_tag_aborts ds tag index only ts t :
    names ds tag ts -> (exists n ps, picks n index ps) -> In t ts -> aget t ds = None ->
    visits ds tag false only (sel_of_index index) = Err Quit.
  Proof.
    intros Hn (n & ps & Hp) Hin Ha. unfold visits, iterate. cbn [andb]. cbn [fst].
    rewrite (tags_of_names _ _ _ Hn). destruct (picks_parse _ _ _ Hp) as (s & E & Htr & Hc). rewrite E. cbn [bind].
    rewrite (visits_loop_bad only (sel_truthy (sel_of_index index)) s ts ds [] t); auto.
    - intros a b ->. specialize (Hc n ps Hp t). cbn in Hc. destruct Hc as (c & (ps' & Hs & _) & _). 
      unfold slice_list in Hs. cbn in Hs. discriminate.
    - intros ->. destruct Hp; cbn [sel_of_index] in E; try discriminate.
      + rewrite parse_list in E by auto. destruct zs; [congruence|discriminate].
      + rewrite parse_slice in E. discriminate.
      + rewrite parse_step in E. discriminate.
    - now left.
  Qed.

  (** An index out of range aborts. *)
  Theorem C16_out_of_range_aborts ds tag only ts t l zs z :
    names ds tag ts -> In t ts -> aget t ds = Some l -> In z zs ->
    ~ (- Z.of_nat (length l) <= z < Z.of_nat (length l))%Z ->
    visits ds tag false only (SelStr (join "," (List.map show_Z zs))) = Err Quit.
  Proof.
    intros Hn Hin Ha Hz Hout. unfold visits, iterate. cbn [andb fst].
    rewrite (tags_of_names _ _ _ Hn).
    assert (Hne : zs <> []) by (intros ->; destruct Hz).
    rewrite parse_list by auto. cbn [bind].
    rewrite (visits_loop_bad only _ (IList zs) ts ds [] t); auto.
    - left. destruct (sel_truthy _) eqn:E; auto. cbn in E. apply negb_false_iff, String.eqb_eq in E.
      exfalso. clear -E Hne. destruct zs as [|y zs]; [congruence|]. cbn [List.map join] in E.
      assert (Hs : show_Z y <> ""%string).
      { intros Ey. pose proof (py_int_show_Z y) as P. rewrite Ey in P. discriminate. }
      destruct (List.map show_Z zs); [congruence|]. now apply (str_app_nonempty (show_Z y)) in E.
    - intros a b; discriminate.
    - congruence.
    - right. exists l, z. split; [auto|]. split; [auto|]. apply norm_index_err. unfold from_end. destruct (Z.ltb_spec z 0); lia.
  Qed.

  (** The number of datasets of a tag is the number of active ones. *)
  Theorem C16_count ds tag ts :
    names ds tag ts -> Forall (fun t => aget t ds <> None) ts ->
    get_num_datasets ds tag true =
    Ok (length (List.filter (is_active ds)
         (selected ts (fun t => match aget t ds with Some l => seq 0 (length l) | None => [] end)))).
  Proof.
    intros Hn Hk. unfold get_num_datasets.
    assert (Hp : picks_under ds None ts (all_of ds)).
    { apply picks_all_under. rewrite Forall_forall in *. intros t Ht. specialize (Hk t Ht).
      destruct (aget t ds) eqn:Ea; [eapply key_aget; eauto|congruence]. }
    destruct (iterate_selected (fun st : dspace X * nat => fst st) (fun _ _ st => Ok (fst st, S (snd st)))
                true tag None ts (all_of ds) (ds, 0%nat)) as (cs & Es & _ & E).
    - exact Hn.
    - apply picks_none_wf.
    - exact Hp.
    - intros i r st st' [= <-] t _. reflexivity.
    - change (sel_of_index None) with SelNone in E. rewrite E. fold (all_of ds). rewrite <- Es.
      assert (G : forall cs n, (forall c, In c cs -> lookup ds (snd c) <> None) ->
        foldM (vis (fun st : dspace X * nat => fst st) (fun _ _ st => Ok (fst st, S (snd st))) true) cs (ds, n)
        = Ok (ds, (n + length (List.filter (is_active ds) (List.map snd cs)))%nat)).
      { clear. induction cs as [|c cs IH]; intros n H; cbn [foldM List.map List.filter].
        - cbn. f_equal. f_equal. lia.
        - unfold vis at 1, visit. cbn [fst snd].
          assert (Ha : is_active ds (snd c) = match lookup ds (snd c) with Some d => ds_status d | None => false end) by reflexivity.
          destruct (lookup ds (snd c)) as [d|] eqn:Ed; [|exfalso; apply (H c); [now left|auto]].
          rewrite Ha. cbn [negb orb]. destruct (ds_status d); cbn [bind]; rewrite IH by (intros; apply H; now right).
          + cbn [length]. f_equal. f_equal. lia.
          + reflexivity. }
      rewrite G. { reflexivity. }
      intros c Hc. eapply selected_lookup; [exact Hp|]. rewrite <- Es. apply in_map_iff. eauto.
  Qed.

  (** The tag iterator lists the given tags, or, with none given, the tags that
      have an active dataset, in order. *)
  Theorem C16_tags ds :
    Forall (fun t => t <> ""%string /\ has_char "," t = false) (List.map fst ds) ->
    tag_iterator ds None true =
    Ok (List.filter (fun t => existsb ds_status (match aget t ds with Some l => l | None => [] end)) (List.map fst ds)).
  Proof.
    intros Hk. unfold tag_iterator. cbn.
    assert (G : forall ks, (forall k, In k ks -> In k (List.map fst ds)) ->
      active_tags ds ks = Ok (List.filter (fun t => existsb ds_status (match aget t ds with Some l => l | None => [] end)) ks)).
    { induction ks as [|k ks IH]; intros H; [reflexivity|]. cbn [active_tags List.filter].
      assert (Hin : In k (List.map fst ds)) by (apply H; now left).
      rewrite Forall_forall in Hk. destruct (Hk k Hin) as [Hne Hc].
      destruct (visits_all ds (Some k) [k]) as (vs & Ev & Es).
      - change k with (join "," [k]) at 1. constructor; [discriminate|exact Hne|repeat constructor; auto].
      - constructor; [auto|constructor].
      - rewrite Ev. cbn [bind]. rewrite IH by (intros; apply H; now right). cbn [bind]. f_equal.
        destruct (aget_key ds k Hin) as [l Hl]. rewrite Hl.
        assert (Hvs : vs = [] <-> existsb ds_status l = false).
        { rewrite <- not_true_iff_false, existsb_exists. split.
          - intros -> (d & Hd & Hs). apply In_nth_error in Hd as [p Hp].
            assert (Hx : In (k, p) (active_all ds [k])).
            { apply in_active_all. split; [now left|]. unfold is_active, lookup. cbn. now rewrite Hl, Hp. }
            rewrite <- Es in Hx. destruct Hx.
          - intros Hn. destruct vs as [|v vs]; [reflexivity|]. exfalso. apply Hn.
            assert (Hx : In (snd v) (active_all ds [k])) by (rewrite <- Es; now left).
            apply in_active_all in Hx as [[Hx|[]] Ha]. unfold is_active, lookup in Ha. rewrite <- Hx, Hl in Ha.
            destruct (nth_error l (snd (snd v))) as [d|] eqn:Ed; [|discriminate]. exists d. split; auto. eapply nth_error_In; eauto. }
        destruct (existsb ds_status l) eqn:Ex.
        + destruct vs; [|reflexivity]. destruct Hvs as [Hv _]. specialize (Hv eq_refl). discriminate.
        + destruct Hvs as [_ Hv]. rewrite (Hv eq_refl). reflexivity. }
    apply G. auto.
  Qed.
End C16.

(** The number 0 given as an integer (not a string) is not an index. *)
Theorem C16_integer_zero_refuted :
  exists ds : dspace nat, visits ds (Some "elc"%string) false true (SelInt 0) = Err TypeError /\
                          visits ds (Some "elc"%string) false true (SelStr "0") = Ok [(0%nat, ("elc"%string, 0%nat))].
Proof. exists ex_ds. split; reflexivity. Qed.

Example C16_ex :
  names ex_ds (Some "ion,elc"%string) ["ion"; "elc"]%string /\
  picks 2 (Some "0:2"%string) [0; 1]%nat /\ picks 3 (Some "0:2"%string) [0; 1]%nat /\
  visits ex_ds (Some "ion,elc"%string) false true (SelStr "0:2") =
    Ok [(0, ("ion", 0)); (1, ("ion", 1)); (0, ("elc", 0))]%nat%string /\
  visits ex_ds None false true (SelStr "-1,0") = Ok [(0, ("elc", 2)); (0, ("elc", 0)); (0, ("ion", 1)); (0, ("ion", 0))]%nat%string /\
  visits ex_ds None false true (SelStr "2") = Err Quit /\
  visits ex_ds (Some "elc,gas"%string) false true SelNone = Err Quit /\
  visits ex_ds None true false SelNone =
    Ok [(0, ("elc", 0)); (1, ("elc", 1)); (2, ("elc", 2)); (0, ("ion", 0)); (1, ("ion", 1))]%nat%string /\
  get_num_datasets ex_ds None true = Ok 4%nat /\
  tag_iterator ex_ds None true = Ok ["elc"; "ion"]%string.
Proof.
  assert (Hsl : forall n, (2 <= n)%nat -> is_slice n (Some 0%Z) (Some 2%Z) 1 [0; 1]%nat).
  { intros n Hn. split.
    - intros k. unfold in_slice, from_end. cbn. split.
      + intros [<-|[<-|[]]]; (split; [lia|]); (split; [lia|]); apply Z.divide_1_l.
      + intros (H1 & H2 & _). assert (k = 0 \/ k = 1)%nat as [-> | ->] by lia; auto.
    - cbn. constructor; [constructor; [constructor|constructor]|constructor; [lia|constructor]]. }
  split; [|split; [|split]].
  - apply (names_list ex_ds ["ion"; "elc"]%string); [discriminate|discriminate|constructor; [reflexivity|constructor; [reflexivity|constructor]]].
  - apply (picks_slice 2 (Some 0%Z) (Some 2%Z)). apply Hsl. lia.
  - apply (picks_slice 3 (Some 0%Z) (Some 2%Z)). apply Hsl. lia.
  - repeat split; vm_compute; reflexivity.
Qed.

(** ** C17: activate and deactivate *)
Section C17.
  Context {X : Type}.
  Implicit Type ds : dspace X.

  Definition same_shape ds ds' : Prop :=
    List.map fst ds' = List.map fst ds /\
    forall t, option_map (@length (dset X)) (aget t ds') = option_map (@length (dset X)) (aget t ds).

  (** [activate]: exactly the picked datasets are active afterwards. *)
  Theorem C17_activate ds tag index ts pos :
    names ds tag ts -> (exists n ps, picks n index ps) -> picks_under ds index ts pos ->
    exists ds', cmd_activate ds tag index false = Ok ds' /\ same_shape ds ds' /\
      forall r d, lookup ds r = Some d ->
        exists b, lookup ds' r = Some (set_status b d) /\ (b = true <-> In r (selected ts pos)).
  Proof.
    intros Hn Hw Hp. unfold cmd_activate.
    destruct (deactivate_all_all ds) as (ds1 & E1 & K1 & L1 & H1). rewrite E1. cbn [bind].
    destruct (set_all_selected true ds1 tag index ts pos) as (ds2 & E2 & K2 & L2 & H2).
    - eapply names_transfer; eauto.
    - exact Hw.
    - eapply picks_transfer; eauto.
    - exists ds2. split; [exact E2|]. split.
      { split; [now rewrite K2|]. intros t. fold (lens ds2 t). fold (lens ds t). now rewrite L2. }
      intros r d Hd. exists (in_refs r (selected ts pos)). split; [|apply in_refs_spec].
      rewrite H2, H1, Hd. cbn [option_map]. destruct (in_refs r (selected ts pos)); reflexivity.
  Qed.

  (** [activate --focused] and [deactivate]: the picked ones change, the rest
      keep their status. *)
  Lemma set_all_picked b ds tag index ts pos :
    names ds tag ts -> (exists n ps, picks n index ps) -> picks_under ds index ts pos ->
    exists ds', set_all b ds tag (sel_of_index index) = Ok ds' /\ same_shape ds ds' /\
      forall r d, lookup ds r = Some d ->
        (In r (selected ts pos) -> lookup ds' r = Some (set_status b d)) /\
        (~ In r (selected ts pos) -> lookup ds' r = Some d).
  Proof.
    intros Hn Hw Hp. destruct (set_all_selected b ds tag index ts pos) as (ds2 & E2 & K2 & L2 & H2); auto.
    exists ds2. split; [exact E2|]. split; [split; [exact K2|exact L2]|].
    intros r d Hd. rewrite H2, Hd. cbn [option_map]. split; intros Hin.
    - apply in_refs_spec in Hin. now rewrite Hin.
    - rewrite <- in_refs_spec in Hin. destruct (in_refs r (selected ts pos)); [congruence|reflexivity].
  Qed.

  Theorem C17_activate_focused ds tag index ts pos :
    names ds tag ts -> (exists n ps, picks n index ps) -> picks_under ds index ts pos ->
    exists ds', cmd_activate ds tag index true = Ok ds' /\ same_shape ds ds' /\
      forall r d, lookup ds r = Some d ->
        (In r (selected ts pos) -> lookup ds' r = Some (set_status true d)) /\
        (~ In r (selected ts pos) -> lookup ds' r = Some d).
  Proof. apply set_all_picked. Qed.

  Theorem C17_deactivate ds tag index ts pos :
    names ds tag ts -> (exists n ps, picks n index ps) -> picks_under ds index ts pos ->
    exists ds', cmd_deactivate ds tag index false = Ok ds' /\ same_shape ds ds' /\
      forall r d, lookup ds r = Some d ->
        (In r (selected ts pos) -> lookup ds' r = Some (set_status false d)) /\
        (~ In r (selected ts pos) -> lookup ds' r = Some d).
  Proof. apply set_all_picked. Qed.

  (** [deactivate --focused] leaves no dataset active, whatever is picked. *)
  Theorem C17_deactivate_focused ds tag index ts pos :
    names ds tag ts -> (exists n ps, picks n index ps) -> picks_under ds index ts pos ->
    exists ds', cmd_deactivate ds tag index true = Ok ds' /\ same_shape ds ds' /\
      forall r, lookup ds' r = option_map (set_status false) (lookup ds r).
  Proof.
    intros Hn Hw Hp. unfold cmd_deactivate. change (activate_all ds None) with (deactivate_all ds None).
    destruct (deactivate_all_all ds) as (ds1 & E1 & K1 & L1 & H1). rewrite E1. cbn [bind].
    destruct (set_all_selected false ds1 tag index ts pos) as (ds2 & E2 & K2 & L2 & H2).
    - eapply names_transfer; eauto.
    - exact Hw.
    - eapply picks_transfer; eauto.
    - exists ds2. split; [exact E2|]. split.
      { split; [now rewrite K2|]. intros t. fold (lens ds2 t). fold (lens ds t). now rewrite L2. }
      intros r. rewrite H2, H1. destruct (lookup ds r); [|reflexivity]. cbn [option_map].
      destruct (in_refs r (selected ts pos)); reflexivity.
  Qed.
End C17.

(** The help text of [deactivate --focused] promises that everything else is
    active afterwards; it is not. *)
Theorem C17_deactivate_focused_keeps_others_refuted :
  exists (ds ds' : dspace nat) r, cmd_deactivate ds (Some "ion"%string) (Some "0"%string) true = Ok ds' /\
    r <> ("ion"%string, 0%nat) /\ is_active ds r = true /\ is_active ds' r = false.
Proof. exists ex_ds. eexists. exists ("elc"%string, 0%nat). split; [vm_compute; reflexivity|]. split; [discriminate|]. split; reflexivity. Qed.

Example C17_ex :
  exists ds1 ds2 ds3, cmd_activate ex_ds (Some "elc"%string) (Some "1"%string) false = Ok ds1 /\
    get_num_datasets ds1 None true = Ok 1%nat /\ is_active ds1 ("elc"%string, 1%nat) = true /\
    cmd_activate ex_ds (Some "elc"%string) (Some "1"%string) true = Ok ds2 /\ get_num_datasets ds2 None true = Ok 5%nat /\
    cmd_deactivate ex_ds None (Some "0"%string) false = Ok ds3 /\ get_num_datasets ds3 None true = Ok 2%nat.
Proof. do 3 eexists. repeat split; vm_compute; reflexivity. Qed.

(** ** C18: operation histories *)

(** The operations of a command chain. *)
Inductive op (X : Type) :=
| OpAdd (tag : string) (d : dset X)
| OpActivate (tag index : option string) (focused : bool)
| OpDeactivate (tag index : option string) (focused : bool)
| OpLabels
| OpCommand (f : X -> res X) (use tag : option string) (label : string)
| OpPair (f : X -> X -> res X) (tag1 tag2 out label : string).
Arguments OpAdd {X}. Arguments OpActivate {X}. Arguments OpDeactivate {X}. Arguments OpLabels {X}.
Arguments OpCommand {X}. Arguments OpPair {X}.

Definition run_op {X} (o : op X) (ds : dspace X) : res (dspace X) :=
  match o with
  | OpAdd t d => Ok (add ds t d)
  | OpActivate t i f => cmd_activate ds t i f
  | OpDeactivate t i f => cmd_deactivate ds t i f
  | OpLabels => set_unique_labels ds
  | OpCommand f use t l => command f use t l ds
  | OpPair f a b o l => pair_command f a b o l ds
  end.

Section C18.
  Context {X : Type}.
  Implicit Type ds : dspace X.

  (** Every dataset is still there, under the same tag and position. *)
  Definition kept ds ds' : Prop :=
    forall r d, lookup ds r = Some d ->
      exists d', lookup ds' r = Some d' /\ ds_id d' = ds_id d /\ ds_file d' = ds_file d.

  Lemma kept_refl ds : kept ds ds.
  Proof. intros r d H. eauto. Qed.

  Lemma kept_trans ds1 ds2 ds3 : kept ds1 ds2 -> kept ds2 ds3 -> kept ds1 ds3.
  Proof.
    intros H1 H2 r d H. destruct (H1 r d H) as (d' & E & A & B). destruct (H2 r d' E) as (d'' & E' & A' & B').
    exists d''. split; [auto|]. split; congruence.
  Qed.

  Lemma kept_modify ds r f : (forall d, ds_id (f d) = ds_id d /\ ds_file (f d) = ds_file d) -> kept ds (modify ds r f).
  Proof.
    intros Hf r' d H. rewrite lookup_modify. destruct (ref_eq_dec r' r) as [->|]; [|eauto].
    rewrite H. exists (f d). split; [reflexivity|]. apply Hf.
  Qed.

  Lemma kept_add ds t d : kept ds (add ds t d).
  Proof. intros r x H. exists x. split; [now apply lookup_add_old|auto]. Qed.

  Lemma kept_set_all b ds tag s ds' : set_all b ds tag s = Ok ds' -> kept ds ds'.
  Proof.
    unfold set_all. apply (iterate_rel (fun ds : dspace X => ds) _ _ kept).
    - apply kept_refl.
    - apply kept_trans.
    - intros _ r x y [= <-]. apply kept_modify. intros d; split; reflexivity.
  Qed.

  Lemma kept_op o ds ds' : run_op o ds = Ok ds' -> kept ds ds'.
  Proof.
    destruct o as [t d|t i f|t i f| |f use t l|f a b o l]; cbn [run_op].
    - intros [= <-]. apply kept_add.
    - unfold cmd_activate. destruct f; cbn [bind]; [apply kept_set_all|].
      destruct (deactivate_all ds None) as [ds1|] eqn:E; [|discriminate]. cbn [bind]. intros H.
      eapply kept_trans; [eapply kept_set_all; exact E|eapply kept_set_all; exact H].
    - unfold cmd_deactivate. destruct f; cbn [bind]; [|apply kept_set_all].
      destruct (activate_all ds None) as [ds1|] eqn:E; [|discriminate]. cbn [bind]. intros H.
      eapply kept_trans; [eapply kept_set_all; exact E|eapply kept_set_all; exact H].
    - unfold set_unique_labels. destruct (visits ds None false true SelNone) as [[|v vs]|]; cbn [bind]; try discriminate.
      match goal with |- bind ?m _ = _ -> _ => destruct m as [st|] eqn:E end; [|discriminate]. cbn [bind]. intros [= <-].
      revert E. generalize (make_labels (List.map (fun f => split_on "_" (drop_extension f))
        (List.map (fun v => match lookup ds (snd v) with Some d => ds_file d | None => ""%string end) (v :: vs)))).
      intros labs E.
      apply (iterate_rel (fun st : dspace X * list string => fst st) _ _ (fun a b => kept (fst a) (fst b))) in E.
      + exact E.
      + intros; apply kept_refl.
      + intros ? ? ?; apply kept_trans.
      + intros _ r x y H. destruct (snd x); [discriminate|]. injection H as <-. cbn [fst]. apply kept_modify. intros d; split; reflexivity.
    - unfold command. apply (iterate_rel (fun ds : dspace X => ds) _ _ kept).
      + apply kept_refl.
      + apply kept_trans.
      + intros i r x y. unfold cmd_body. destruct (lookup x r) as [d|]; [|discriminate].
        destruct (f (ds_data d)) as [y'|]; [|discriminate]. cbn [bind].
        assert (M : kept x (modify x r (set_data y'))) by (apply kept_modify; intros; split; reflexivity).
        destruct t as [t|]; [|now intros [= <-]].
        destruct (String.eqb t ""); intros [= <-]; [exact M|apply kept_add].
    - unfold pair_command. destruct (active_refs ds a) as [ra|]; [|discriminate]. cbn [bind].
      match goal with |- bind ?m _ = _ -> _ => destruct m as [rb|]; [|discriminate] end. cbn [bind].
      destruct (pair_loop f o l (combine ra rb) ds) as [ds1|] eqn:E1; [|discriminate]. cbn [bind].
      destruct (deactivate_all ds1 (Some a)) as [ds2|] eqn:E2; [|discriminate]. cbn [bind]. intros E3.
      apply kept_trans with ds1; [|eapply kept_trans; eapply kept_set_all; [exact E2|exact E3]].
      revert ds E1. generalize (combine ra rb). induction l0 as [|[r1 r2] ps IH]; intros ds; cbn [pair_loop].
      + intros [= <-]. apply kept_refl.
      + destruct (lookup ds r1), (lookup ds r2); try discriminate.
        destruct (f _ _); [|discriminate]. cbn [bind]. intros H. eapply kept_trans; [apply kept_add|apply (IH _ H)].
  Qed.

  Fixpoint run_ops (os : list (op X)) ds : res (dspace X) :=
    match os with
    | [] => Ok ds
    | o :: os' => let* ds' := run_op o ds in run_ops os' ds'
    end.

  (** Whatever happens after a dataset was added, it stays where it is. *)
  Theorem C18_never_lost ds os ds' r d :
    run_ops os ds = Ok ds' -> lookup ds r = Some d ->
    exists d', lookup ds' r = Some d' /\ ds_id d' = ds_id d /\ ds_file d' = ds_file d.
  Proof.
    intros H. enough (kept ds ds') by auto. revert ds H. induction os as [|o os IH]; intros ds; cbn [run_ops].
    - intros [= <-]. apply kept_refl.
    - destruct (run_op o ds) as [ds1|] eqn:E; [|discriminate]. cbn [bind]. intros H.
      eapply kept_trans; [eapply kept_op; eauto|auto].
  Qed.

  (** A dataset is added behind those of its tag; nothing else changes, and a
      new tag comes last. *)
  Theorem C18_add ds t d :
    let l := match aget t ds with Some l => l | None => [] end in
    lookup (add ds t d) (t, length l) = Some d /\
    (forall r, r <> (t, length l) -> lookup (add ds t d) r = lookup ds r) /\
    List.map fst (add ds t d) = (if existsb (String.eqb t) (List.map fst ds) then List.map fst ds
                                 else List.map fst ds ++ [t]).
  Proof.
    intros l. split; [|split].
    - pose proof (lookup_add_new ds t d) as H. unfold l. destruct (aget t ds); exact H.
    - intros r Hr. destruct (lookup ds r) as [x|] eqn:E; [now apply lookup_add_old|].
      apply lookup_add_other; auto. unfold l in Hr. destruct (aget t ds); exact Hr.
    - unfold add. destruct (aget t ds) as [l'|] eqn:E.
      + pose proof E as E0. apply key_aget in E. replace (existsb (String.eqb t) (List.map fst ds)) with true.
        2:{ symmetry. apply existsb_exists. exists t. split; auto. apply String.eqb_refl. }
        now apply aset_keys with (w := l').
      + replace (existsb (String.eqb t) (List.map fst ds)) with false.
        * clear l. induction ds as [|[k v] ds IH]; [reflexivity|]. cbn [aget] in E. cbn [aset].
          rewrite (String.eqb_sym t k) in *. destruct (String.eqb k t) eqn:Ek; [discriminate|]. cbn. now rewrite IH.
        * symmetry. rewrite <- not_true_iff_false, existsb_exists. intros (k & Hk & Ht). apply String.eqb_eq in Ht. subst k.
          destruct (aget_key ds t Hk) as [l' Hl']. congruence.
  Qed.

  (** A new dataset is none of the objects there are. *)
  Theorem C18_new_object ds r d : lookup ds r = Some d -> ds_id d <> next_id ds.
  Proof.
    unfold lookup. destruct (aget (fst r) ds) as [l|] eqn:E; [|discriminate]. intros H. apply nth_error_In in H.
    assert (Hi : In d (flat_map snd ds)).
    { apply in_flat_map. exists (fst r, l). split; [|exact H]. clear - E. induction ds as [|[k v] ds IH]; [discriminate|].
      cbn [aget] in E. destruct (String.eqb_spec (fst r) k) as [->|]; [injection E as ->; now left|right; auto]. }
    assert (L : (ds_id d <= fold_right Nat.max 0%nat (List.map ds_id (flat_map snd ds)))%nat).
    { clear - Hi. induction (flat_map snd ds) as [|x l IH]; [destruct Hi|]. cbn. destruct Hi as [->|Hi]; [lia|].
      specialize (IH Hi). lia. }
    unfold next_id. lia.
  Qed.
End C18.

Example C18_ex :
  exists ds', run_ops [OpActivate (Some "elc") (Some "0,1") false; OpCommand (fun x => Ok (x + 1)%nat) None (Some "new") "l";
                       OpAdd "elc" (ex_d 9 "c" true 0); OpDeactivate None None true]%string ex_ds = Ok ds' /\
    lookup ds' ("elc"%string, 1%nat) = Some (ex_d 2 "a_1.gkyl" false 20) /\
    lookup ds' ("elc"%string, 3%nat) = Some (ex_d 9 "c" false 0) /\
    lookup ds' ("new"%string, 1%nat) = Some (mk_dset 7 "" false "l" 21)%string%nat.
Proof. eexists. split; [vm_compute; reflexivity|]. repeat split; vm_compute; reflexivity. Qed.

(** ** C19: automatic labels *)
Section C19.
  Context {X : Type}.
  Implicit Type ds : dspace X.

  (** The parts of the file name of a dataset. *)
  Definition stem_parts (d : dset X) : list string := split_on "_" (drop_extension (ds_file d)).

  (** Names with the same number of parts get the same label only if they are
      equal up to the extension; nothing but labels of active datasets changes. *)
  Theorem C19_labels ds m :
    NoDup (List.map fst ds) -> (exists r, is_active ds r = true) ->
    (forall r d, lookup ds r = Some d -> ds_status d = true -> length (stem_parts d) = m) ->
    exists ds' lab, set_unique_labels ds = Ok ds' /\ List.map fst ds' = List.map fst ds /\
      (forall r, lookup ds' r = option_map (fun d => if ds_status d then set_label (lab r) d else d) (lookup ds r)) /\
      (forall r1 r2 d1 d2, lookup ds r1 = Some d1 -> lookup ds r2 = Some d2 ->
         ds_status d1 = true -> ds_status d2 = true ->
         (lab r1 = lab r2 <-> drop_extension (ds_file d1) = drop_extension (ds_file d2))).
  Proof.
    intros Hnd Hex Hm. destruct (set_unique_labels_run ds Hnd Hex) as (ds' & E & K & H).
    set (act := active_all ds (List.map fst ds)) in *. set (nms := List.map (file_parts ds) act) in *.
    exists ds', (fun r => lab_of (inc_parts nms (file_parts ds r))). split; [exact E|]. split; [exact K|]. split; [exact H|].
    intros r1 r2 d1 d2 H1 H2 S1 S2.
    assert (P : forall r d, lookup ds r = Some d -> file_parts ds r = stem_parts d).
    { intros r d Hr. unfold file_parts, stem_parts. now rewrite Hr. }
    assert (Hin : forall r d, lookup ds r = Some d -> ds_status d = true -> In (file_parts ds r) nms).
    { intros r d Hr Hs. apply in_map. apply in_active_all. split.
      - unfold lookup in Hr. destruct (aget (fst r) ds) eqn:Ea; [|discriminate]. eapply key_aget; eauto.
      - unfold is_active. now rewrite Hr. }
    split; intros Eq.
    - apply labels_inj with (m := m) in Eq.
      + rewrite (P _ _ H1), (P _ _ H2) in Eq. unfold stem_parts in Eq.
        apply (f_equal (join "_")) in Eq. rewrite !join_split in Eq. exact Eq.
      + apply Forall_forall. intros nm Hnm. apply in_map_iff in Hnm as (r & <- & Hr).
        apply in_active_all in Hr as [_ Hr]. unfold is_active in Hr. destruct (lookup ds r) as [d|] eqn:Ed; [|discriminate].
        rewrite (P _ _ Ed). eapply Hm; eauto.
      + apply Forall_forall. intros nm Hnm. apply in_map_iff in Hnm as (r & <- & Hr). apply split_on_no_sep.
      + eauto.
      + eauto.
    - f_equal. f_equal. rewrite (P _ _ H1), (P _ _ H2). unfold stem_parts. now rewrite Eq.
  Qed.

  (** The extension is what follows the last dot. *)
  Theorem C19_extension stem ext : has_char "." ext = false -> drop_extension (stem ++ "." ++ ext) = stem.
  Proof. apply drop_extension_spec. Qed.

  (** With no active dataset the command fails. *)
  Theorem C19_none_active ds : NoDup (List.map fst ds) -> (forall r, is_active ds r = false) ->
    set_unique_labels ds = Err ValueError.
  Proof.
    intros Hnd H. unfold set_unique_labels. destruct (visits_all ds None (List.map fst ds)) as (vs & Ev & Es).
    - constructor.
    - apply Forall_forall; auto.
    - rewrite Ev. cbn [bind]. destruct vs as [|v vs]; [reflexivity|]. exfalso.
      assert (Hv : In (snd v) (active_all ds (List.map fst ds))) by (rewrite <- Es; now left).
      apply in_active_all in Hv as [_ Hv]. now rewrite H in Hv.
  Qed.
End C19.

(** For names with different numbers of parts the labels can coincide. *)
Theorem C19_different_lengths_refuted :
  exists (ds ds' : dspace nat) d1 d2, set_unique_labels ds = Ok ds' /\
    lookup ds' ("t"%string, 0%nat) = Some d1 /\ lookup ds' ("t"%string, 1%nat) = Some d2 /\
    drop_extension (ds_file d1) <> drop_extension (ds_file d2) /\ ds_label d1 = ds_label d2.
Proof.
  exists [("t"%string, [ex_d 1 "x_0.gkyl" true 0; ex_d 2 "x.gkyl" true 0])].
  do 3 eexists. split; [vm_compute; reflexivity|]. split; [reflexivity|]. split; [reflexivity|]. split; [vm_compute; discriminate|reflexivity].
Qed.

Example C19_ex :
  exists ds', set_unique_labels ex_ds = Ok ds' /\
    List.map (fun p => List.map ds_label (snd p)) ds' = [["a_0"; ""; "a_2"]; ["b_0"; "b_1"]]%string.
Proof. eexists. split; vm_compute; reflexivity. Qed.

(** ** C53: commands over datasets *)
Section C53.
  Context {X : Type}.
  Implicit Type ds : dspace X.

  Lemma known_keys ds ts : Forall (fun t => aget t ds <> None) ts ->
    Forall (fun t => In t (List.map fst ds)) ts.
  Proof.
    intros Hk. rewrite Forall_forall in *. intros t Ht. specialize (Hk t Ht).
    destruct (aget t ds) eqn:Ea; [eapply key_aget; eauto|congruence].
  Qed.

  Lemma foldM_ext {A S} (f g : A -> S -> res S) l s : (forall a s, f a s = g a s) -> foldM f l s = foldM g l s.
  Proof. intros H. revert s. induction l as [|a l IH]; intros s; cbn [foldM]; [reflexivity|]. rewrite H. destruct (g a s); [apply IH|reflexivity]. Qed.

  Lemma modify_const ds r d f : lookup ds r = Some d -> modify ds r f = modify ds r (fun _ => f d).
  Proof.
    unfold lookup, modify. destruct (aget (fst r) ds) as [l|]; [|discriminate]. intros ->. reflexivity.
  Qed.

  (** Without [--tag]: the computation is applied exactly once to every active
      dataset of the used tags and to nothing else; all else stays. *)
  Theorem C53_in_place (f : X -> res X) (g : X -> X) ds use tag label ts :
    names ds use ts -> NoDup ts -> Forall (fun t => aget t ds <> None) ts ->
    tag = None \/ tag = Some ""%string ->
    (forall r d, In (fst r) ts -> lookup ds r = Some d -> ds_status d = true -> f (ds_data d) = Ok (g (ds_data d))) ->
    exists ds', command f use tag label ds = Ok ds' /\ List.map fst ds' = List.map fst ds /\
      (forall t, option_map (@length (dset X)) (aget t ds') = option_map (@length (dset X)) (aget t ds)) /\
      forall r d, lookup ds r = Some d ->
        (In (fst r) ts -> ds_status d = true -> lookup ds' r = Some (set_data (g (ds_data d)) d)) /\
        (~ In (fst r) ts \/ ds_status d = false -> lookup ds' r = Some d).
  Proof.
    intros Hn Hnd Hk Htag Hf. unfold command.
    destruct (iterate_selected (fun ds : dspace X => ds) (cmd_body f tag label) true use None ts (all_of ds) ds)
      as (cs & Es & _ & E).
    - exact Hn.
    - apply picks_none_wf.
    - apply picks_all_under. now apply known_keys.
    - intros i r st st' Hb t _. revert Hb. unfold cmd_body. destruct (lookup st r) as [d|]; [|discriminate].
      destruct (f (ds_data d)) as [y|]; [|discriminate]. cbn [bind].
      destruct Htag as [-> | ->]; intros [= <-]; apply length_modify.
    - change (sel_of_index None) with SelNone in E.
      rewrite E.
      set (h := fun d : dset X => let* y := f (ds_data d) in Ok (set_data y d)).
      destruct (fold_modify h cs ds (fun d => set_data (g (ds_data d)) d)) as (ds' & E' & K & L & H).
      + intros d d'. unfold h. destruct (f (ds_data d)); [|discriminate]. intros [= <-]. reflexivity.
      + rewrite Es. apply NoDup_selected; auto. apply NoDup_all_of.
      + intros c d Hc Hd Hs. unfold h.
        assert (Hi : In (snd c) (selected ts (all_of ds))) by (rewrite <- Es; apply in_map_iff; eauto).
        apply in_all_of in Hi as [Hi _]. rewrite (Hf _ _ Hi Hd Hs). reflexivity.
      + exists ds'. split; [|split; [exact K|split; [exact L|]]].
        * rewrite <- E'. apply foldM_ext. intros c st. unfold vis, visit.
          destruct (lookup st (snd c)) as [d|] eqn:Ed; [|reflexivity]. destruct (negb true || ds_status d); [|reflexivity].
          unfold cmd_body, h. rewrite Ed. destruct (f (ds_data d)) as [y|]; [|reflexivity]. cbn [bind].
          rewrite <- (modify_const st (snd c) d (set_data y)) by auto.
          destruct Htag as [-> | ->]; reflexivity.
        * intros r d Hd. rewrite H, Hd. cbn [option_map].
          assert (Hi : in_refs r (List.map snd cs) = true <-> In (fst r) ts).
          { rewrite in_refs_spec, Es, in_all_of. rewrite Hd. split; [tauto|]. intros Hx; split; [auto|discriminate]. }
          split.
          -- intros H1 H2. apply Hi in H1. now rewrite H1, H2.
          -- intros [H1|H1]; [|now rewrite H1, andb_false_r].
             destruct (in_refs r (List.map snd cs)); [|reflexivity]. exfalso. apply H1, Hi. reflexivity.
  Qed.

  (** If the computation fails for an active dataset of a used tag, so does the
      command. *)
  Theorem C53_in_place_error (f : X -> res X) ds use tag label ts r d e :
    names ds use ts -> NoDup ts -> Forall (fun t => aget t ds <> None) ts ->
    tag = None \/ tag = Some ""%string ->
    In (fst r) ts -> lookup ds r = Some d -> ds_status d = true -> f (ds_data d) = Err e ->
    exists r' d' e', In (fst r') ts /\ lookup ds r' = Some d' /\ ds_status d' = true /\
      f (ds_data d') = Err e' /\ command f use tag label ds = Err e'.
  Proof.
    intros Hn Hnd Hk Htag Hr Hd Hs Hf. unfold command.
    destruct (iterate_selected (fun ds : dspace X => ds) (cmd_body f tag label) true use None ts (all_of ds) ds)
      as (cs & Es & _ & E).
    - exact Hn.
    - apply picks_none_wf.
    - apply picks_all_under. now apply known_keys.
    - intros i q st st' Hb t _. revert Hb. unfold cmd_body. destruct (lookup st q) as [d0|]; [|discriminate].
      destruct (f (ds_data d0)) as [y|]; [|discriminate]. cbn [bind].
      destruct Htag as [-> | ->]; intros [= <-]; apply length_modify.
    - change (sel_of_index None) with SelNone in E. rewrite E.
      assert (Hin : In r (List.map snd cs)).
      { rewrite Es. apply in_all_of. split; [auto|congruence]. }
      assert (Hts : forall c, In c cs -> In (fst (snd c)) ts).
      { intros c Hc. assert (Hi : In (snd c) (selected ts (all_of ds))) by (rewrite <- Es; apply in_map_iff; eauto).
        apply in_all_of in Hi as [Hi _]. exact Hi. }
      assert (Hndc : NoDup (List.map snd cs)) by (rewrite Es; apply NoDup_selected; auto; apply NoDup_all_of).
      clear E Es.
      assert (G : forall cs st, NoDup (List.map snd cs) -> In r (List.map snd cs) -> (forall c, In c cs -> In (fst (snd c)) ts) ->
        (forall c, In c cs -> lookup st (snd c) = lookup ds (snd c)) ->
        exists r' d' e', In (fst r') ts /\ lookup ds r' = Some d' /\ ds_status d' = true /\
          f (ds_data d') = Err e' /\ foldM (vis (fun ds : dspace X => ds) (cmd_body f tag label) true) cs st = Err e').
      { clear cs Hin Hts Hndc. induction cs as [|c cs IH]; intros st Hc Hin Hts Hst; [destruct Hin|].
        cbn [foldM List.map] in *. inversion Hc as [|? ? Hni Hc']; subst.
        pose proof (Hst c (or_introl eq_refl)) as Hc0.
        assert (Ev : vis (fun ds : dspace X => ds) (cmd_body f tag label) true c st =
          match lookup st (snd c) with
          | None => Ok st
          | Some d => if negb true || ds_status d then cmd_body f tag label (fst c) (snd c) st else Ok st
          end) by reflexivity.
        rewrite Ev, Hc0. clear Ev.
        destruct (lookup ds (snd c)) as [d0|] eqn:Ed0.
        2:{ destruct Hin as [Hin|Hin]; [congruence|]. cbn [bind]. apply IH; auto; intros; [apply Hts|apply Hst]; now right. }
        cbn [negb orb]. destruct (ds_status d0) eqn:Es0.
        2:{ destruct Hin as [Hin|Hin]; [rewrite Hin in Ed0; congruence|]. cbn [bind]. apply IH; auto; intros; [apply Hts|apply Hst]; now right. }
        destruct (f (ds_data d0)) as [y|e0] eqn:Ef.
        2:{ exists (snd c), d0, e0. split; [apply Hts; now left|]. split; [auto|]. split; [auto|]. split; [auto|].
            unfold cmd_body. rewrite Hc0, Ef. reflexivity. }
        destruct Hin as [Hin|Hin]. { subst r. rewrite Ed0 in Hd. injection Hd as ->. congruence. }
        assert (Eb : cmd_body f tag label (fst c) (snd c) st = Ok (modify st (snd c) (set_data y))).
        { unfold cmd_body. rewrite Hc0, Ef. cbn [bind]. destruct Htag as [-> | ->]; reflexivity. }
        rewrite Eb. cbn [bind]. apply IH; auto.
        - intros; apply Hts; now right.
        - intros c' Hc''. rewrite lookup_modify. destruct (ref_eq_dec (snd c') (snd c)) as [Ec|_].
          + exfalso. apply Hni. rewrite <- Ec. apply in_map_iff; eauto.
          + apply Hst. now right. }
      apply G; auto.
  Qed.

  (** With [--tag T]: one result per active dataset of the used tags is added
      behind the datasets of [T], in order; every existing dataset stays as it
      is.  [T] must not come after another used tag. *)
  Theorem C53_new_tag (f : X -> res X) (g : X -> X) ds use T label ts :
    names ds use ts -> Forall (fun t => aget t ds <> None) ts ->
    T <> ""%string -> ~ In T (tl ts) ->
    (forall r d, In (fst r) ts -> lookup ds r = Some d -> ds_status d = true -> f (ds_data d) = Ok (g (ds_data d))) ->
    exists ds' news, command f use (Some T) label ds = Ok ds' /\
      (forall t, t <> T -> aget t ds' = aget t ds) /\
      match aget T ds' with Some l => l | None => [] end = match aget T ds with Some l => l | None => [] end ++ news /\
      Forall2 (fun r n => exists d, lookup ds r = Some d /\ ds_data n = g (ds_data d) /\
                          ds_file n = ""%string /\ ds_status n = true /\ ds_label n = label)
        (List.filter (is_active ds) (selected ts (fun t => match aget t ds with Some l => seq 0 (length l) | None => [] end)))
        news.
  Proof.
    intros Hn Hk HT Htl Hf. unfold command, iterate. cbn [andb sel_truthy parse_sel bind].
    rewrite (tags_of_names _ _ _ Hn). fold (all_of ds).
    assert (K : keeps (fun ds : dspace X => ds) (cmd_body f (Some T) label) (fun t => t <> T)).
    { intros i r st st' Hb t Ht. revert Hb. unfold cmd_body. destruct (lookup st r) as [d|]; [|discriminate].
      destruct (f (ds_data d)) as [y|]; [|discriminate]. cbn [bind].
      destruct (String.eqb_spec T ""); [congruence|]. intros [= <-]. unfold lens. rewrite aget_add.
      destruct (String.eqb_spec t T); [congruence|reflexivity]. }
    assert (Hc : forall t, In t ts -> exists n, lens ds t = Some n /\ cands (ISlice None None None) t n (enum_from 0 t (all_of ds t))).
    { intros t Ht. rewrite Forall_forall in Hk. specialize (Hk t Ht). unfold lens, all_of. destruct (aget t ds) as [l|]; [|congruence].
      exists (length l). split; [reflexivity|]. exists (seq 0 (length l)). split; [apply slice_all|reflexivity]. }
    assert (E : exists cs, List.map snd cs = selected ts (all_of ds) /\
      loop_tags (fun ds : dspace X => ds) (cmd_body f (Some T) label) true false (ISlice None None None) ts ds
      = foldM (vis (fun ds : dspace X => ds) (cmd_body f (Some T) label) true) cs ds).
    { destruct ts as [|t ts]; [exists []; split; reflexivity|].
      exists (concat (List.map (fun t => enum_from 0 t (all_of ds t)) (t :: ts))). split.
      - clear. unfold selected. induction (t :: ts) as [|u us IH]; [reflexivity|]. cbn [List.map concat flat_map].
        now rewrite map_app, IH, enum_from_snd.
      - cbn [List.map]. apply loop_tags_slice with (U := fun t => t <> T); auto.
        + cbn [tl] in Htl. apply Forall_forall. intros u Hu ->. auto.
        + apply Hc. now left.
        + assert (Hc' : forall u, In u ts -> exists n, lens ds u = Some n /\ cands (ISlice None None None) u n (enum_from 0 u (all_of ds u))).
          { intros; apply Hc; now right. }
          clear -Hc'. induction ts as [|u us IH]; constructor; [apply Hc'; now left|apply IH; intros; apply Hc'; now right]. }
    destruct E as (cs & Es & ->). rewrite <- Es.
    assert (Hcs : forall c, In c cs -> In (fst (snd c)) ts /\ lookup ds (snd c) <> None).
    { intros c Hcin. apply in_all_of. rewrite <- Es. apply in_map_iff. eauto. }
    clear Es.
    assert (G : forall cs st (l0 : list (dset X)),
      (forall c, In c cs -> In (fst (snd c)) ts /\ lookup ds (snd c) <> None) ->
      (forall r d, lookup ds r = Some d -> lookup st r = Some d) ->
      (forall t, t <> T -> aget t st = aget t ds) ->
      match aget T st with Some l => l | None => [] end = match aget T ds with Some l => l | None => [] end ++ l0 ->
      exists ds' news, foldM (vis (fun ds : dspace X => ds) (cmd_body f (Some T) label) true) cs st = Ok ds' /\
        (forall t, t <> T -> aget t ds' = aget t ds) /\
        match aget T ds' with Some l => l | None => [] end = match aget T ds with Some l => l | None => [] end ++ l0 ++ news /\
        Forall2 (fun r n => exists d, lookup ds r = Some d /\ ds_data n = g (ds_data d) /\
                            ds_file n = ""%string /\ ds_status n = true /\ ds_label n = label)
          (List.filter (is_active ds) (List.map snd cs)) news).
    { clear cs Hcs. induction cs as [|c cs IH]; intros st l0 Hcs Hst Ho HlT; cbn [foldM List.map List.filter].
      - exists st, []. rewrite app_nil_r. repeat split; auto.
      - destruct (Hcs c (or_introl eq_refl)) as [Hin Hlk].
        assert (Ha : is_active ds (snd c) = match lookup ds (snd c) with Some d => ds_status d | None => false end) by reflexivity.
        destruct (lookup ds (snd c)) as [d|] eqn:Ed; [|congruence]. rewrite Ha.
        assert (Ev : vis (fun ds : dspace X => ds) (cmd_body f (Some T) label) true c st =
          match lookup st (snd c) with
          | None => Ok st
          | Some d => if negb true || ds_status d then cmd_body f (Some T) label (fst c) (snd c) st else Ok st
          end) by reflexivity.
        rewrite Ev, (Hst _ _ Ed). clear Ev. cbn [negb orb]. destruct (ds_status d) eqn:Esd.
        + set (n := mk_dset (next_id st) ""%string true label (g (ds_data d))).
          assert (Eb : cmd_body f (Some T) label (fst c) (snd c) st = Ok (add st T n)).
          { unfold cmd_body. rewrite (Hst _ _ Ed), (Hf _ _ Hin Ed Esd). cbn [bind].
            destruct (String.eqb_spec T ""); [congruence|reflexivity]. }
          rewrite Eb. cbn [bind].
          destruct (IH (add st T n) (l0 ++ [n])) as (ds' & news & E1 & E2 & E3 & E4).
          * intros; apply Hcs; now right.
          * intros r x Hx. now apply lookup_add_old, Hst.
          * intros t Ht. rewrite aget_add. destruct (String.eqb_spec t T); [congruence|auto].
          * rewrite aget_add, String.eqb_refl, HlT. now rewrite app_assoc.
          * exists ds', (n :: news). split; [exact E1|]. split; [exact E2|]. split.
            { rewrite E3. now rewrite <- !app_assoc. }
            constructor; [|exact E4]. exists d. repeat split; auto.
        + cbn [bind]. apply IH; auto. intros; apply Hcs; now right. }
    destruct (G cs ds []) as (ds' & news & E1 & E2 & E3 & E4); auto.
    { now rewrite app_nil_r. }
    exists ds', news. repeat split; auto.
  Qed.
End C53.

(** When the new tag already exists after another used tag, the command also
    processes its own results. *)
Theorem C53_existing_tag_refuted :
  exists (ds ds' : dspace nat) f, command f None (Some "ion"%string) "" ds = Ok ds' /\
    Forall (fun t => aget t ds <> None) (List.map fst ds) /\
    get_num_datasets ds None true = Ok 4%nat /\
    exists n, lookup ds' ("ion"%string, 6%nat) = Some n /\ ds_data n = 12%nat /\ f 10%nat = Ok 11%nat /\ f 11%nat = Ok 12%nat.
Proof.
  exists ex_ds. eexists. exists (fun x => Ok (S x)). split; [vm_compute; reflexivity|].
  split; [constructor; [vm_compute; discriminate|constructor; [vm_compute; discriminate|constructor]]|].
  split; [reflexivity|]. eexists. repeat split; reflexivity.
Qed.

Example C53_ex :
  (exists ds', command (fun x => Ok (x + 1)%nat) (Some "elc"%string) None "" ex_ds = Ok ds' /\
     List.map (fun p => List.map ds_data (snd p)) ds' = [[11; 20; 31]; [40; 50]]%nat) /\
  (exists ds', command (fun x => Ok (x + 1)%nat) None (Some "elc"%string) "" ex_ds = Ok ds' /\
     List.map (fun p => List.map ds_data (snd p)) ds' = [[10; 20; 30; 11; 31; 41; 51]; [40; 50]]%nat) /\
  command (fun x => if (x =? 30)%nat then Err ValueError else Ok x) None None "" ex_ds = Err ValueError.
Proof. repeat split; try (eexists; split; vm_compute; reflexivity). Qed.

(** ** C54: commands over pairs of datasets *)
Section C54.
  Context {X : Type}.
  Implicit Type ds : dspace X.

  (** The active datasets of a tag, in order. *)
  Definition actives ds (t : string) : list (dset X) :=
    List.filter ds_status (match aget t ds with Some l => l | None => [] end).

  Lemma names_one ds t : t <> ""%string -> has_char "," t = false -> names ds (Some t) [t].
  Proof. intros H1 H2. change t with (join "," [t]) at 1. constructor; [discriminate|exact H1|repeat constructor; auto]. Qed.

  Lemma active_refs_run ds t : t <> ""%string -> has_char "," t = false -> aget t ds <> None ->
    exists rs, active_refs ds t = Ok rs /\ Forall2 (fun r d => fst r = t /\ lookup ds r = Some d) rs (actives ds t).
  Proof.
    intros H1 H2 H3. unfold active_refs. destruct (aget t ds) as [l|] eqn:El; [|congruence].
    destruct (visits_all ds (Some t) [t]) as (vs & Ev & Es).
    - now apply names_one.
    - constructor; [eapply key_aget; eauto|constructor].
    - rewrite Ev. cbn [bind]. exists (List.map snd vs). split; [reflexivity|]. rewrite Es.
      unfold active_all, actives, selected. cbn [flat_map]. rewrite app_nil_r. unfold all_of. rewrite El.
      assert (G : forall k l1 l2, l = l1 ++ l2 -> k = length l1 ->
        Forall2 (fun r d => fst r = t /\ lookup ds r = Some d)
          (List.filter (is_active ds) (List.map (pair t) (seq k (length l2)))) (List.filter ds_status l2)).
      { intros k l1 l2. revert k l1. induction l2 as [|d l2 IH]; intros k l1 Hl Hk; [constructor|].
        cbn [length seq List.map List.filter].
        assert (Hd : lookup ds (t, k) = Some d).
        { unfold lookup. cbn. rewrite El, Hl, nth_error_app2, Hk, Nat.sub_diag by lia. reflexivity. }
        unfold is_active at 1. rewrite Hd.
        specialize (IH (S k) (l1 ++ [d])).
        destruct (ds_status d); [constructor; [auto|]|]; (apply IH; [now rewrite <- app_assoc|rewrite app_length; simpl; lia]). }
      apply (G 0%nat [] l); reflexivity.
  Qed.

  Lemma deactivate_one ds t : t <> ""%string -> has_char "," t = false -> aget t ds <> None ->
    exists ds', deactivate_all ds (Some t) = Ok ds' /\ List.map fst ds' = List.map fst ds /\
      (forall r, lookup ds' r = option_map (fun d => if String.eqb (fst r) t then set_status false d else d) (lookup ds r)).
  Proof.
    intros H1 H2 H3.
    assert (Hk : Forall (fun t => In t (List.map fst ds)) [t]) by (apply known_keys; constructor; auto).
    destruct (set_all_selected false ds (Some t) None [t] (all_of ds)) as (ds' & E & K & _ & H).
    - now apply names_one.
    - apply picks_none_wf.
    - now apply picks_all_under.
    - exists ds'. split; [exact E|]. split; [exact K|]. intros r. rewrite H.
      destruct (lookup ds r) as [d|] eqn:Ed; [|reflexivity]. cbn [option_map].
      destruct (String.eqb_spec (fst r) t) as [Er|Er].
      + assert (Hi : In r (selected [t] (all_of ds))) by (apply in_all_of; split; [now left|congruence]).
        apply in_refs_spec in Hi. now rewrite Hi.
      + destruct (in_refs r (selected [t] (all_of ds))) eqn:Ei; [|reflexivity].
        apply in_refs_spec, in_all_of in Ei as [[Ei|[]] _]. congruence.
  Qed.

  (** One result per pair of active datasets (as many as the shorter list),
      from the k-th active dataset of each tag; the results are active, the
      inputs are inactive afterwards, and all other datasets stay. *)
  Theorem C54_pairs (f : X -> X -> res X) (g : X -> X -> X) ds t1 t2 out label :
    t1 <> ""%string -> t2 <> ""%string -> has_char "," t1 = false -> has_char "," t2 = false ->
    aget t1 ds <> None -> aget t2 ds <> None -> out <> t1 -> out <> t2 ->
    (forall d1 d2, In (d1, d2) (combine (actives ds t1) (actives ds t2)) ->
       f (ds_data d1) (ds_data d2) = Ok (g (ds_data d1) (ds_data d2))) ->
    exists ds' news, pair_command f t1 t2 out label ds = Ok ds' /\
      match aget out ds' with Some l => l | None => [] end = match aget out ds with Some l => l | None => [] end ++ news /\
      Forall2 (fun p n => ds_data n = g (ds_data (fst p)) (ds_data (snd p)) /\ ds_file n = ""%string /\
                          ds_status n = true /\ ds_label n = label)
        (combine (actives ds t1) (actives ds t2)) news /\
      (forall r d, lookup ds r = Some d ->
         lookup ds' r = Some (if String.eqb (fst r) t1 || String.eqb (fst r) t2 then set_status false d else d)).
  Proof.
    intros N1 N2 C1 C2 A1 A2 O1 O2 Hf. unfold pair_command.
    destruct (active_refs_run ds t1) as (ra & Ea & Fa); auto.
    destruct (active_refs_run ds t2) as (rb & Eb & Fb); auto.
    rewrite Ea. cbn [bind]. rewrite Eb.
    assert (Em : (match ra with [] => Ok [] | _ :: _ => Ok rb end : res (list ref)) = Ok (match ra with [] => [] | _ => rb end)) by (destruct ra; reflexivity).
    rewrite Em. cbn [bind].
    assert (Ec : combine ra (match ra with [] => [] | _ => rb end) = combine ra rb) by (destruct ra; reflexivity).
    rewrite Ec.
    assert (Fc : Forall2 (fun p q => lookup ds (fst p) = Some (fst q) /\ lookup ds (snd p) = Some (snd q))
                   (combine ra rb) (combine (actives ds t1) (actives ds t2))).
    { clear -Fa Fb. revert rb Fb. generalize (actives ds t2). induction Fa as [|r d rs dl [_ Hr] _ IH]; intros l2 rb Fb; [constructor|].
      destruct Fb as [|r' d' rs' dl' [_ Hr'] Fb]; [constructor|]. cbn [combine]. constructor; [split; auto|]. apply IH; auto. }
    assert (G : forall ps qs st (l0 : list (dset X)),
      Forall2 (fun p q => lookup ds (fst p) = Some (fst q) /\ lookup ds (snd p) = Some (snd q)) ps qs ->
      (forall d1 d2, In (d1, d2) qs -> f (ds_data d1) (ds_data d2) = Ok (g (ds_data d1) (ds_data d2))) ->
      (forall r d, lookup ds r = Some d -> lookup st r = Some d) ->
      (forall t, t <> out -> aget t st = aget t ds) ->
      match aget out st with Some l => l | None => [] end = match aget out ds with Some l => l | None => [] end ++ l0 ->
      exists ds' news, pair_loop f out label ps st = Ok ds' /\
        (forall r d, lookup ds r = Some d -> lookup ds' r = Some d) /\
        (forall t, t <> out -> aget t ds' = aget t ds) /\
        match aget out ds' with Some l => l | None => [] end = match aget out ds with Some l => l | None => [] end ++ l0 ++ news /\
        Forall2 (fun p n => ds_data n = g (ds_data (fst p)) (ds_data (snd p)) /\ ds_file n = ""%string /\
                            ds_status n = true /\ ds_label n = label) qs news).
    { clear. intros ps qs st l0 F. revert st l0. induction F as [|[r1 r2] [d1 d2] ps qs [H1 H2] F IH]; intros st l0 Hf Hst Ho Hout.
      - exists st, []. rewrite app_nil_r. repeat split; auto.
      - cbn [pair_loop]. cbn in H1, H2. rewrite (Hst _ _ H1), (Hst _ _ H2).
        rewrite (Hf d1 d2) by now left. cbn [bind].
        set (n := mk_dset (next_id st) ""%string true label (g (ds_data d1) (ds_data d2))).
        destruct (IH (add st out n) (l0 ++ [n])) as (ds' & news & E1 & E2 & E3 & E4 & E5).
        + intros; apply Hf; now right.
        + intros r x Hx. now apply lookup_add_old, Hst.
        + intros t Ht. rewrite aget_add. destruct (String.eqb_spec t out); [congruence|auto].
        + rewrite aget_add, String.eqb_refl, Hout. now rewrite app_assoc.
        + exists ds', (n :: news). split; [exact E1|]. split; [exact E2|]. split; [exact E3|]. split.
          { rewrite E4. now rewrite <- !app_assoc. }
          constructor; [|exact E5]. repeat split; reflexivity. }
    destruct (G _ _ ds [] Fc Hf) as (ds1 & news & E1 & E2 & E3 & E4 & E5); auto. { now rewrite app_nil_r. }
    rewrite E1. cbn [bind].
    destruct (deactivate_one ds1 t1) as (ds2 & D1 & K1 & L1); auto. { rewrite E3; auto. }
    rewrite D1. cbn [bind].
    assert (Hkey : forall (a b : dspace X) t, List.map fst b = List.map fst a -> aget t a <> None -> aget t b <> None).
    { intros a b t Hk Ha. destruct (aget t a) as [l|] eqn:E; [|congruence]. apply key_aget in E. rewrite <- Hk in E.
      destruct (aget_key b t E) as [l' Hl']. rewrite Hl'. discriminate. }
    destruct (deactivate_one ds2 t2) as (ds3 & D2 & K2 & L2); auto.
    { eapply Hkey; [exact K1|]. rewrite E3; auto. }
    rewrite D2. exists ds3, news. split; [reflexivity|]. split; [|split; [exact E5|]].
    - assert (Ho : forall k, lookup ds3 (out, k) = lookup ds1 (out, k)).
      { intros k. rewrite L2, L1. cbn [fst].
        destruct (String.eqb_spec out t1); [congruence|]. destruct (String.eqb_spec out t2); [congruence|].
        destruct (lookup ds1 (out, k)); reflexivity. }
      assert (Hl : match aget out ds3 with Some l => l | None => [] end = match aget out ds1 with Some l => l | None => [] end).
      { apply nth_error_ext. intros k. specialize (Ho k). unfold lookup in Ho. cbn [fst snd] in Ho.
        destruct (aget out ds3), (aget out ds1); auto; rewrite ?Ho; destruct k; auto. }
      rewrite Hl. exact E4.
    - intros r d Hd. rewrite L2, L1, (E2 _ _ Hd). cbn [option_map]. f_equal.
      destruct (String.eqb (fst r) t1), (String.eqb (fst r) t2); reflexivity.
  Qed.
End C54.

Example C54_ex :
  exists ds', pair_command (fun a b => Ok (a + b)%nat) "elc" "ion" "sum" "" ex_ds = Ok ds' /\
    List.map (fun p => List.map (fun d => (ds_data d, ds_status d)) (snd p)) ds' =
    [[(10, false); (20, false); (30, false)]; [(40, false); (50, false)]; [(50, true); (80, true)]]%nat.
Proof. eexists. split; vm_compute; reflexivity. Qed.

Print Assumptions C16_visits.
Print Assumptions C16_enum.
Print Assumptions C16_unknown_tag_aborts.
Print Assumptions C16_out_of_range_aborts.
Print Assumptions C16_count.
Print Assumptions C16_tags.
Print Assumptions C17_activate.
Print Assumptions C17_deactivate.
Print Assumptions C17_deactivate_focused.
Print Assumptions C18_never_lost.
Print Assumptions C18_add.
Print Assumptions C18_new_object.
Print Assumptions C19_labels.
Print Assumptions C53_in_place.
Print Assumptions C53_new_tag.
Print Assumptions C54_pairs.
