(** * Lemmas on the text of figures *)
From Coq Require Import String Ascii List Arith ZArith QArith Lqa Lia Bool.
From Verif Require Import Prelude PreludeFacts DataSpace_Proofs Write_Model Label_Model Label_Spec.
Import ListNotations.
Open Scope list_scope.

(** ** Reading events *)

Lemma fm_app {A} (f : event -> list A) a b : flat_map f (a ++ b) = flat_map f a ++ flat_map f b.
Proof. apply flat_map_app. Qed.

Lemma xlabels_app k a b : xlabels k (a ++ b) = xlabels k a ++ xlabels k b.
Proof. apply flat_map_app. Qed.
Lemma ylabels_app k a b : ylabels k (a ++ b) = ylabels k a ++ ylabels k b.
Proof. apply flat_map_app. Qed.
Lemma titles_app k a b : titles k (a ++ b) = titles k a ++ titles k b.
Proof. apply flat_map_app. Qed.
Lemma lines_of_app k a b : lines_of k (a ++ b) = lines_of k a ++ lines_of k b.
Proof. apply flat_map_app. Qed.
Lemma contours_of_app k a b : contours_of k (a ++ b) = contours_of k a ++ contours_of k b.
Proof. apply flat_map_app. Qed.
Lemma bars_of_app k a b : bars_of k (a ++ b) = bars_of k a ++ bars_of k b.
Proof. apply flat_map_app. Qed.
Lemma texts_of_app k a b : texts_of k (a ++ b) = texts_of k a ++ texts_of k b.
Proof. apply flat_map_app. Qed.
Lemma xlims_of_app k a b : xlims_of k (a ++ b) = xlims_of k a ++ xlims_of k b.
Proof. apply flat_map_app. Qed.
Lemma ylims_of_app k a b : ylims_of k (a ++ b) = ylims_of k a ++ ylims_of k b.
Proof. apply flat_map_app. Qed.
Lemma suptitles_app a b : suptitles (a ++ b) = suptitles a ++ suptitles b.
Proof. apply flat_map_app. Qed.
Lemma supxs_app a b : supxs (a ++ b) = supxs a ++ supxs b.
Proof. apply flat_map_app. Qed.
Lemma supys_app a b : supys (a ++ b) = supys a ++ supys b.
Proof. apply flat_map_app. Qed.
Lemma switched_off_app k a b : switched_off k (a ++ b) = switched_off k a || switched_off k b.
Proof. apply existsb_app. Qed.
Lemma legends_of_app k a b : legends_of k (a ++ b) = (legends_of k a + legends_of k b)%nat.
Proof. unfold legends_of. now rewrite flat_map_app, app_length. Qed.

Lemma fm_nil {A} (f : event -> list A) l : Forall (fun e => f e = []) l -> flat_map f l = [].
Proof. induction 1 as [|e l He H IH]; [reflexivity|]. simpl. now rewrite He, IH. Qed.

Lemma ex_app (f : event -> bool) a b : existsb f (a ++ b) = existsb f a || existsb f b.
Proof. apply existsb_app. Qed.

Lemma ex_nil (f : event -> bool) l : Forall (fun e => f e = false) l -> existsb f l = false.
Proof. induction 1 as [|e l He H IH]; [reflexivity|]. simpl. now rewrite He, IH. Qed.

Definition no_text (e : event) : Prop :=
  match e with
  | SupTitle _ | SupX _ | SupY _ | Title _ _ | Xlabel _ _ | Ylabel _ _ | AxisOff _ => False
  | _ => True
  end.

Lemma no_text_x k l : Forall no_text l -> xlabels k l = [].
Proof. intros H. apply fm_nil. eapply Forall_impl; [|exact H]. intros []; simpl; tauto. Qed.
Lemma no_text_y k l : Forall no_text l -> ylabels k l = [].
Proof. intros H. apply fm_nil. eapply Forall_impl; [|exact H]. intros []; simpl; tauto. Qed.
Lemma no_text_t k l : Forall no_text l -> titles k l = [].
Proof. intros H. apply fm_nil. eapply Forall_impl; [|exact H]. intros []; simpl; tauto. Qed.
Lemma no_text_st l : Forall no_text l -> suptitles l = [].
Proof. intros H. apply fm_nil. eapply Forall_impl; [|exact H]. intros []; simpl; tauto. Qed.
Lemma no_text_sx l : Forall no_text l -> supxs l = [].
Proof. intros H. apply fm_nil. eapply Forall_impl; [|exact H]. intros []; simpl; tauto. Qed.
Lemma no_text_sy l : Forall no_text l -> supys l = [].
Proof. intros H. apply fm_nil. eapply Forall_impl; [|exact H]. intros []; simpl; tauto. Qed.
Lemma no_text_off k l : Forall no_text l -> switched_off k l = false.
Proof. intros H. apply ex_nil. eapply Forall_impl; [|exact H]. intros []; simpl; tauto. Qed.

Lemma Ok_inj {A} (a b : A) : Ok a = Ok b -> a = b.
Proof. congruence. Qed.

Section Text.
  Context (fmt2 fmt3 : Q -> string) (pfloat : string -> option Q).
  Notation events := (label_events fmt2 fmt3 pfloat).
  Notation loop_ev := (comp_loop fmt3 pfloat).
  Notation draw := (draw_one fmt3 pfloat).

  Lemma draw_no_text o nd axes lines k label st evs st' lab :
    draw o nd axes lines k label st = Ok (evs, st', lab) -> Forall no_text evs.
  Proof.
    destruct st as [[col bar] leg]. unfold draw_one. destruct nd as [|[|[|nd]]]; try discriminate.
    - intros [= <- _ _]. repeat constructor.
    - intros H. apply bind_ok in H as ([[e [[c b] g]] lb] & H1 & H2). injection H2 as <- _ _.
      apply Forall_app. split.
      + destruct (l_contour o).
        { apply bind_ok in H1 as (lv & _ & H1). injection H1 as <- _ _ _ _. repeat constructor. }
        destruct (l_quiver o); [injection H1 as <- _ _ _ _; repeat constructor|].
        destruct (l_stream o); [injection H1 as <- _ _ _ _; repeat constructor|].
        destruct (l_lineouts o) as [z|]; [|injection H1 as <- _ _ _ _; repeat constructor].
        apply bind_ok in H1 as (t & _ & H1). destruct (lines =? 1)%nat; [discriminate|].
        injection H1 as <- _ _ _ _. apply Forall_app. split; [|repeat constructor].
        clear. induction lines; simpl; constructor; simpl; auto.
      + destruct (negb c && b && negb (l_stream o)); repeat constructor.
  Qed.

  Lemma format_no_text o nd k label leg : Forall no_text (format_one o nd k label leg).
  Proof.
    unfold format_one. rewrite !Forall_app. repeat split.
    - repeat constructor.
    - destruct leg; [|constructor]. destruct ((nd =? 1)%nat && negb (label =? "")%string); repeat constructor.
    - destruct (l_logx o); repeat constructor.
    - destruct (l_logy o); repeat constructor.
    - destruct (l_xmin o), (l_xmax o); repeat constructor.
    - destruct (l_ymin o), (l_ymax o); repeat constructor.
  Qed.

  Lemma loop_no_text o nd n axes lines cs : forall st evs,
    loop_ev o nd n axes lines cs st = Ok evs -> Forall no_text evs.
  Proof.
    induction cs as [|c cs IH]; intros st evs; cbn [comp_loop].
    - intros [= <-]. constructor.
    - intros H. apply bind_ok in H as ([[e st'] lab] & H1 & H). apply bind_ok in H as (rest & H2 & H).
      apply Ok_inj in H. subst evs. apply Forall_app. split; [eapply draw_no_text; eauto|].
      apply Forall_app. split; [apply format_no_text|]. eapply IH; eauto.
  Qed.

  Lemma events_parts o nd n axes lines have num nax evs :
    events o nd n axes lines have num nax = Ok evs ->
    exists x y rest, x_label fmt2 o axes = Ok x /\ y_label fmt2 o nd axes = Ok y /\
      loop_ev o nd n axes lines (seq 0 n) (l_coloured o, l_colorbar o, l_legend o) = Ok rest /\
      evs = label_axes o have num nax x y ++ rest.
  Proof.
    unfold label_events. intros H. apply bind_ok in H as (x & Hx & H). apply bind_ok in H as (y & Hy & H).
    apply bind_ok in H as (r & Hr & H). injection H as <-. exists x, y, r. auto.
  Qed.

  (** ** Axis labels *)

  Lemma x_label_is o axes x : x_label fmt2 o axes = Ok x ->
    match l_xlabel o with
    | Some s => x = s
    | None => exists base, nth_error axes (match l_lineouts o with Some 1%Z => 1 | _ => 0 end) = Some base /\
                           described fmt2 base (l_xshift o) (l_xscale o) x
    end.
  Proof.
    unfold x_label. destruct (l_xlabel o) as [s|]; [now intros [= <-]|]. intros H.
    apply bind_ok in H as (b & Hb & H). unfold at_axis in Hb.
    destruct (nth_error axes _) as [b'|]; [|discriminate]. injection Hb as ->.
    exists b. split; [reflexivity|]. injection H as <-.
    destruct (Qeq_bool (l_xshift o) 0) eqn:E1, (Qeq_bool (l_xscale o) 1) eqn:E2; cbn [negb andb];
      (apply Qeq_bool_iff in E1 || apply Qeq_bool_neq in E1); (apply Qeq_bool_iff in E2 || apply Qeq_bool_neq in E2).
    - now apply d_plain.
    - now apply d_scale.
    - now apply d_shift.
    - now apply d_both.
  Qed.


  (** ** The new axes *)

  Lemma pick_seq {A} (g : nat -> list A) k v s n :
    (forall j, g j = if (j =? k)%nat then v else []) ->
    flat_map g (seq s n) = if (s <=? k)%nat && (k <? s + n)%nat then v else [].
  Proof.
    intros Hg. revert s. induction n as [|n IH]; intros s; cbn [seq flat_map].
    - destruct (Nat.leb_spec s k), (Nat.ltb_spec k (s + 0)); try reflexivity; lia.
    - rewrite IH, Hg.
      destruct (Nat.eqb_spec s k), (Nat.leb_spec (S s) k), (Nat.ltb_spec k (S s + n)), (Nat.leb_spec s k),
        (Nat.ltb_spec k (s + S n)); try lia; cbn [andb app]; try reflexivity; try apply app_nil_r.
  Qed.

  Lemma fm_fm {A} (f : event -> list A) (g : nat -> list event) l :
    flat_map f (flat_map g l) = flat_map (fun k => flat_map f (g k)) l.
  Proof. induction l as [|a l IH]; [reflexivity|]. cbn [flat_map]. now rewrite flat_map_app, IH. Qed.

  Lemma fm_sup {A} (f : event -> list A) c s :
    flat_map f (sup c s) = match filled s with Some t => f (c t) | None => [] end.
  Proof. unfold sup. destruct (filled s); simpl; [apply app_nil_r|reflexivity]. Qed.

  Lemma fm_off {A} (f : event -> list A) l : (forall k, f (AxisOff k) = []) -> flat_map f (List.map AxisOff l) = [].
  Proof. intros H. apply fm_nil. apply Forall_forall. intros e He. apply in_map_iff in He as (k & <- & _). apply H. Qed.

  Lemma fm_sub {A} (f : event -> list A) o k v n :
    (forall j, flat_map f (sub_labels o j) = if (j =? k)%nat then v else []) ->
    flat_map f (flat_map (sub_labels o) (seq 0 n)) = if (k <? n)%nat then v else [].
  Proof. intros H. rewrite fm_fm, (pick_seq _ k v) by exact H. reflexivity. Qed.

  Lemma sub_none {A} (f : event -> list A) o n :
    (forall j, flat_map f (sub_labels o j) = []) -> flat_map f (flat_map (sub_labels o) (seq 0 n)) = [].
  Proof. intros H. rewrite fm_fm. induction (seq 0 n) as [|a l IH]; [reflexivity|]. cbn [flat_map]. now rewrite H, IH. Qed.

  Definition text_of (s : option string) : string := match s with Some t => t | None => ""%string end.

  Lemma filled_unless s : match filled s with Some t => [t] | None => [] end = unless_empty (text_of s).
  Proof. destruct s as [t|]; [|reflexivity]. unfold filled, unless_empty. simpl. now destruct (String.eqb t ""). Qed.

  Ltac sub_tac := intros j; unfold sub_labels; rewrite ?flat_map_app;
    destruct (filled (Some (sub_text _ _))) as [t|] eqn:E; cbn; rewrite ?app_nil_r; reflexivity.

  Lemma axes_new o num nax x y k :
    l_squeeze o = false ->
    let l := label_axes o false num nax x y in
    supxs l = unless_empty x /\ supys l = unless_empty (text_of y) /\ suptitles l = unless_empty (text_of (l_title o)) /\
    xlabels k l = (if (k <? nax)%nat then [sub_text (l_sub_xlabels o) k] else []) /\
    ylabels k l = (if (k <? nax)%nat then [sub_text (l_sub_ylabels o) k] else []) /\
    titles k l = (if (k <? nax)%nat then unless_empty (sub_text (l_sub_titles o) k) else []) /\
    switched_off k l = (num <=? k)%nat && (k <? nax)%nat.
  Proof.
    intros Hs. cbv zeta. unfold label_axes. rewrite Hs.
    split; [|split; [|split; [|split; [|split; [|split]]]]].
    - rewrite !supxs_app. unfold supxs. rewrite fm_off by reflexivity. rewrite !fm_sup, sub_none by sub_tac.
      replace (unless_empty x) with (unless_empty (text_of (Some x))) by reflexivity. rewrite <- filled_unless.
      destruct (filled (l_title o)), (filled (Some x)), (filled y); reflexivity.
    - rewrite !supys_app. unfold supys. rewrite fm_off by reflexivity. rewrite !fm_sup, sub_none by sub_tac.
      rewrite <- filled_unless.
      destruct (filled (l_title o)), (filled (Some x)), (filled y); reflexivity.
    - rewrite !suptitles_app. unfold suptitles. rewrite fm_off by reflexivity. rewrite !fm_sup, sub_none by sub_tac.
      rewrite <- filled_unless.
      destruct (filled (l_title o)), (filled (Some x)), (filled y); reflexivity.
    - rewrite !xlabels_app. unfold xlabels. rewrite fm_off by reflexivity. rewrite !fm_sup.
      rewrite (fm_sub _ o k [sub_text (l_sub_xlabels o) k]).
      + destruct (filled (l_title o)), (filled (Some x)), (filled y); reflexivity.
      + intros j. unfold sub_labels. rewrite flat_map_app. cbn [flat_map].
        destruct (Nat.eqb_spec j k) as [->|]; destruct (filled (Some (sub_text _ _))); reflexivity.
    - rewrite !ylabels_app. unfold ylabels. rewrite fm_off by reflexivity. rewrite !fm_sup.
      rewrite (fm_sub _ o k [sub_text (l_sub_ylabels o) k]).
      + destruct (filled (l_title o)), (filled (Some x)), (filled y); reflexivity.
      + intros j. unfold sub_labels. rewrite flat_map_app. cbn [flat_map].
        destruct (Nat.eqb_spec j k) as [->|]; destruct (filled (Some (sub_text _ _))); reflexivity.
    - rewrite !titles_app. unfold titles. rewrite fm_off by reflexivity. rewrite !fm_sup.
      rewrite (fm_sub _ o k (unless_empty (sub_text (l_sub_titles o) k))).
      + destruct (filled (l_title o)), (filled (Some x)), (filled y); reflexivity.
      + intros j. unfold sub_labels. rewrite flat_map_app. cbn [flat_map].
        pose proof (filled_unless (Some (sub_text (l_sub_titles o) j))) as E. cbn [text_of] in E.
        destruct (Nat.eqb_spec j k) as [->|Hj].
        * rewrite <- E. destruct (filled (Some (sub_text _ _))); cbn; [|reflexivity]. now rewrite Nat.eqb_refl.
        * destruct (filled (Some (sub_text _ _))); cbn; [|reflexivity].
          destruct (Nat.eqb_spec j k); [contradiction|reflexivity].
    - rewrite !switched_off_app.
      assert (Z : forall c s, (forall t, switched_off k [c t] = false) -> switched_off k (sup c s) = false).
      { intros c s Hc. unfold sup. destruct (filled s); [apply Hc|reflexivity]. }
      rewrite !Z by reflexivity. unfold switched_off at 2.
      rewrite (ex_nil _ (flat_map (sub_labels o) (seq 0 nax))).
      + rewrite !orb_false_r. unfold switched_off. clear. revert num.
        intros num. apply eq_true_iff_eq. rewrite existsb_exists. split.
        * intros (e & He & Hk). apply in_map_iff in He as (j & <- & Hj). apply in_seq in Hj.
          apply Nat.eqb_eq in Hk. subst j. apply andb_true_iff. split; [apply Nat.leb_le|apply Nat.ltb_lt]; lia.
        * intros Hk. apply andb_true_iff in Hk as [H1 H2]. apply Nat.leb_le in H1. apply Nat.ltb_lt in H2.
          exists (AxisOff k). split; [|apply Nat.eqb_refl]. apply in_map. apply in_seq. lia.
      + apply Forall_forall. intros e He. apply in_flat_map in He as (j & _ & He). unfold sub_labels in He.
        apply in_app_or in He as [He|He].
        * destruct He as [<-|[<-|[]]]; reflexivity.
        * destruct (filled (Some (sub_text _ _))); [|destruct He]. destruct He as [<-|[]]. reflexivity.
  Qed.

  (** ** The components *)

  (** The state a component leaves makes no difference to the next one. *)
  Lemma draw_again o nd axes lines k label st evs st' lab :
    draw o nd axes lines k label st = Ok (evs, st', lab) ->
    forall k2 label2, draw o nd axes lines k2 label2 st' = draw o nd axes lines k2 label2 st.
  Proof.
    destruct st as [[col bar] leg]. unfold draw_one. destruct nd as [|[|[|nd]]]; try discriminate.
    - intros [= _ <- _]. reflexivity.
    - intros H k2 label2. apply bind_ok in H as ([[e [[c b] g]] lb] & H1 & H2).
      assert (st' = (c, b, g)) as -> by congruence. clear H2. revert H1.
      destruct (l_contour o).
      { destruct (contour_levels pfloat o) as [lv|x]; cbn [bind]; [|discriminate]. intros [= _ <- <- <- _].
        destruct (lone lv); reflexivity. }
      destruct (l_quiver o); [now intros [= _ <- <- <- _]|].
      destruct (l_stream o); [now intros [= _ <- <- <- _]|].
      destruct (l_lineouts o) as [z|]; [|now intros [= _ <- <- <- _]].
      destruct (at_axis axes _) as [other|x]; cbn [bind]; [|discriminate].
      destruct (Nat.eqb_spec lines 1); [discriminate|]. intros [= _ <- <- <- _]. cbn [bind].
      destruct (Nat.eqb lines 0); reflexivity.
  Qed.

  Definition panel_of (o : lopts) (c : nat) : nat := if l_squeeze o then 0%nat else (c + l_start o)%nat.

  (** What is done for component [c] alone. *)
  Definition comp_ev (o : lopts) (nd n : nat) (axes : list string) (lines c : nat) (st : lstate) : res (list event) :=
    match draw o nd axes lines (panel_of o c) (comp_label o n c) st with
    | Ok (e, st', lab) => Ok (e ++ format_one o nd (panel_of o c) lab (snd st'))
    | Err x => Err x
    end.

  Lemma comp_ev_again o nd n axes lines k label st evs st' lab :
    draw o nd axes lines k label st = Ok (evs, st', lab) ->
    forall c, comp_ev o nd n axes lines c st' = comp_ev o nd n axes lines c st.
  Proof. intros H c. unfold comp_ev. now rewrite (draw_again _ _ _ _ _ _ _ _ _ _ H). Qed.

  Lemma loop_comps o nd n axes lines cs : forall st evs,
    loop_ev o nd n axes lines cs st = Ok evs ->
    exists ess, Forall2 (fun c e => comp_ev o nd n axes lines c st = Ok e) cs ess /\ evs = concat ess.
  Proof.
    induction cs as [|c cs IH]; intros st evs; cbn [comp_loop].
    - intros [= <-]. exists []. split; [constructor|reflexivity].
    - fold (panel_of o c). intros H. apply bind_ok in H as ([[e st'] lab] & H1 & H).
      apply bind_ok in H as (rest & H2 & H). apply Ok_inj in H. subst evs.
      apply IH in H2 as (ess & F & ->). exists ((e ++ format_one o nd (panel_of o c) lab (snd st')) :: ess). split.
      + constructor.
        * unfold comp_ev. now rewrite H1.
        * clear - F H1. induction F; constructor; auto. now rewrite <- (comp_ev_again _ _ n _ _ _ _ _ _ _ _ H1).
      + cbn [concat]. now rewrite app_assoc.
  Qed.

  (** All events of a component are on its panel. *)
  Definition on (k : nat) (e : event) : Prop :=
    match e with
    | Title j _ | Xlabel j _ | Ylabel j _ | AxisOff j | Line j _ | Contour j _ | Arrow j | Stream j | Mesh j
    | Bar j _ | Legend j | Text j _ | Grid j _ | LogX j | LogY j | Xlim j _ _ | Ylim j _ _ => j = k
    | _ => False
    end.

  Lemma draw_on o nd axes lines k label st evs st' lab :
    draw o nd axes lines k label st = Ok (evs, st', lab) -> Forall (on k) evs.
  Proof.
    destruct st as [[col bar] leg]. unfold draw_one. destruct nd as [|[|[|nd]]]; try discriminate.
    - intros [= <- _ _]. repeat constructor.
    - intros H. apply bind_ok in H as ([[e [[c b] g]] lb] & H1 & H2). apply Ok_inj in H2.
      assert (evs = e ++ (if negb c && b && negb (l_stream o)
                    then [Bar k (match c_label fmt3 o with Some s => s | None => ""%string end)] else [])) as -> by congruence.
      apply Forall_app. split.
      + destruct (l_contour o).
        { apply bind_ok in H1 as (lv & _ & H1). injection H1 as <- _ _ _ _. repeat constructor. }
        destruct (l_quiver o); [injection H1 as <- _ _ _ _; repeat constructor|].
        destruct (l_stream o); [injection H1 as <- _ _ _ _; repeat constructor|].
        destruct (l_lineouts o) as [z|]; [|injection H1 as <- _ _ _ _; repeat constructor].
        apply bind_ok in H1 as (t & _ & H1). destruct (lines =? 1)%nat; [discriminate|].
        injection H1 as <- _ _ _ _. apply Forall_app. split; [|repeat constructor].
        clear. induction lines; simpl; constructor; simpl; auto.
      + destruct (negb c && b && negb (l_stream o)); repeat constructor.
  Qed.

  Lemma format_on o nd k label leg : Forall (on k) (format_one o nd k label leg).
  Proof.
    unfold format_one. rewrite !Forall_app. repeat split.
    - repeat constructor.
    - destruct leg; [|constructor]. destruct ((nd =? 1)%nat && negb (label =? "")%string); repeat constructor.
    - destruct (l_logx o); repeat constructor.
    - destruct (l_logy o); repeat constructor.
    - destruct (l_xmin o), (l_xmax o); repeat constructor.
    - destruct (l_ymin o), (l_ymax o); repeat constructor.
  Qed.

  Lemma comp_ev_on o nd n axes lines c st e : comp_ev o nd n axes lines c st = Ok e -> Forall (on (panel_of o c)) e.
  Proof.
    unfold comp_ev. destruct (draw _ _ _ _ _ _ _) as [[[e' st'] lab]|x] eqn:E; [|discriminate].
    intros H. apply Ok_inj in H. subst e. apply Forall_app. split; [eapply draw_on; eauto|apply format_on].
  Qed.
End Text.
