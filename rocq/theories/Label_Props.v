(** * C95: the text on a figure *)
From Coq Require Import String Ascii List Arith ZArith QArith Lqa Lia Bool.
From Verif Require Import Prelude PreludeFacts DataSpace_Proofs Write_Model Label_Model Label_Spec Label_Proofs.
Import ListNotations.
Open Scope list_scope.

Section Axes.
  Context (fmt2 fmt3 : Q -> string) (pfloat : string -> option Q).
  Notation events := (label_events fmt2 fmt3 pfloat).

  (** The x axis: the label given, else the name of the coordinate on that axis
      with what was done to it; set once on the panel or on the figure. *)
  Theorem C95_x_label o nd n axes lines num nax evs :
    events o nd n axes lines false num nax = Ok evs ->
    exists x,
      match l_xlabel o with
      | Some s => x = s
      | None => exists base, nth_error axes (match l_lineouts o with Some 1%Z => 1 | _ => 0 end) = Some base /\
                             described fmt2 base (l_xshift o) (l_xscale o) x
      end /\
      (if l_squeeze o then xlabels 0 evs = [x] /\ supxs evs = [] else supxs evs = unless_empty x).
  Proof.
    intros H. apply events_parts in H as (x & y & r & Hx & _ & Hr & ->). exists x.
    split; [now apply x_label_is|]. pose proof (loop_no_text _ _ _ _ _ _ _ _ _ _ Hr) as N.
    destruct (l_squeeze o) eqn:Q.
    - rewrite xlabels_app, supxs_app, (no_text_x _ r), (no_text_sx r) by exact N.
      unfold label_axes. rewrite Q. now destruct (l_title o).
    - rewrite supxs_app, (no_text_sx r), app_nil_r by exact N. now apply axes_new.
  Qed.

  (** The y axis of a 2-D plot: the label given is used.  The one made up is
      right exactly in the cases listed: the code looks at the shift and the
      scale of the x axis. *)
  Theorem C95_y_label o n axes lines num nax evs :
    l_lineouts o = None ->
    events o 2 n axes lines false num nax = Ok evs ->
    exists y,
      match l_ylabel o with
      | Some s => y = s
      | None => exists base, nth_error axes 1 = Some base /\
          (described fmt2 base (l_yshift o) (l_yscale o) y <->
             (~ l_yshift o == 0 /\ ~ l_yscale o == 1) \/
             (~ l_yshift o == 0 /\ l_yscale o == 1 /\ ~ l_xshift o == 0) \/
             (l_yshift o == 0 /\ ~ l_yscale o == 1 /\ l_xshift o == 0 /\ ~ l_xscale o == 1) \/
             (l_yshift o == 0 /\ l_yscale o == 1 /\ l_xshift o == 0 /\ l_xscale o == 1))
      end /\
      (if l_squeeze o then ylabels 0 evs = [y] /\ supys evs = [] else supys evs = unless_empty y).
  Proof.
    intros L H. apply events_parts in H as (x & y & r & _ & Hy & Hr & ->).
    pose proof (loop_no_text _ _ _ _ _ _ _ _ _ _ Hr) as N. exists (text_of y). split.
    - revert Hy. unfold y_label. rewrite L. destruct (l_ylabel o) as [s|]; [now intros [= <-]|]. intros H.
      apply bind_ok in H as (b & Hb & H). unfold at_axis in Hb.
      destruct (nth_error axes 1) as [b'|]; [|discriminate]. injection Hb as ->.
      exists b. split; [reflexivity|]. injection H as <-. cbn [text_of].
      assert (A : forall a b c, (a ++ b = a ++ c -> b = c)%string) 
        by (intros a; induction a as [|ch a IHa]; simpl; [auto|intros ? ? [= E]; auto]).
      assert (A0 : forall a b, (a = a ++ b -> b = "")%string).
      { intros a c Ha. apply (A a). rewrite <- Ha. clear. induction a as [|ch a IHa]; simpl; [reflexivity|now rewrite <- IHa]. }
      assert (PB : forall t u, (b ++ " + " ++ t <> b ++ " $\times$ " ++ u)%string) by
        (intros t u E; apply A in E; discriminate).
      assert (P0 : forall t, (b <> b ++ " + " ++ t)%string) by (intros t E; apply A0 in E; discriminate).
      assert (T0 : forall t, (b <> b ++ " $\times$ " ++ t)%string) by (intros t E; apply A0 in E; discriminate).
      unfold times.
      destruct (Qeq_bool (l_yshift o) 0) eqn:E1, (Qeq_bool (l_yscale o) 1) eqn:E2,
        (Qeq_bool (l_xshift o) 0) eqn:E3, (Qeq_bool (l_xscale o) 1) eqn:E4; cbn [negb andb];
        repeat match goal with
               | E : Qeq_bool _ _ = true |- _ => apply Qeq_bool_iff in E
               | E : Qeq_bool _ _ = false |- _ => apply Qeq_bool_neq in E
               end;
        (split; [intros D; inversion D as [? ? D'|? ? D'|? ? D'|? ? D']; subst;
                 try (exfalso; match goal with
                      | E : b = _ |- _ => solve [exact (P0 _ E) | exact (T0 _ E)]
                      | E : _ = b |- _ => solve [exact (P0 _ (eq_sym E)) | exact (T0 _ (eq_sym E))]
                      | E : _ = _ |- _ => solve [exact (PB _ _ E) | exact (PB _ _ (eq_sym E))] end);
                 tauto
                |intros K; try (exfalso; tauto); try (now constructor)]).
    - destruct (l_squeeze o) eqn:Q.
      + rewrite ylabels_app, supys_app, (no_text_y _ r), (no_text_sy r) by exact N.
        unfold label_axes. rewrite Q. now destruct (l_title o).
      + rewrite supys_app, (no_text_sy r), app_nil_r by exact N. now apply axes_new.
  Qed.

  (** 1-D plots and line-outs have no y label unless one is given. *)
  Theorem C95_no_y_label o nd n axes lines num nax evs :
    l_ylabel o = None -> nd <> 2%nat \/ l_lineouts o <> None ->
    events o nd n axes lines false num nax = Ok evs ->
    supys evs = [] /\ (l_squeeze o = true -> ylabels 0 evs = [""%string]).
  Proof.
    intros Y C H. apply events_parts in H as (x & y & r & _ & Hy & Hr & ->).
    pose proof (loop_no_text _ _ _ _ _ _ _ _ _ _ Hr) as N.
    assert (y = None) as ->.
    { revert Hy. unfold y_label. rewrite Y. destruct (l_lineouts o); [now intros [= <-]|].
      destruct (Nat.eqb_spec nd 2); [|now intros [= <-]]. destruct C; congruence. }
    rewrite ylabels_app, supys_app, (no_text_y _ r), (no_text_sy r), !app_nil_r by exact N.
    destruct (l_squeeze o) eqn:Q.
    - unfold label_axes. rewrite Q. now destruct (l_title o).
    - split; [|discriminate]. now apply (axes_new o num nax x None 0).
  Qed.

  (** The panels of a new figure: the title of the figure, and for each panel
      its own title and labels from the comma-separated lists, nothing where a
      list is too short; panels that no component needs are switched off, no
      others. *)
  Theorem C95_panels o nd n axes lines num nax evs ts xs ys :
    l_squeeze o = false ->
    (forall l, In l [ts; xs; ys] -> l <> [] /\ Forall (fun s => has_char "," s = false) l) ->
    l_sub_titles o = Some (join "," ts) -> l_sub_xlabels o = Some (join "," xs) ->
    l_sub_ylabels o = Some (join "," ys) ->
    events o nd n axes lines false num nax = Ok evs ->
    suptitles evs = match l_title o with Some t => unless_empty t | None => [] end /\
    forall k, (k < nax)%nat ->
      xlabels k evs = [nth k xs ""%string] /\ ylabels k evs = [nth k ys ""%string] /\
      titles k evs = unless_empty (nth k ts ""%string) /\
      (switched_off k evs = true <-> (num <= k)%nat).
  Proof.
    intros Q W Ht Hx Hy H. apply events_parts in H as (x & y & r & _ & _ & Hr & ->).
    pose proof (loop_no_text _ _ _ _ _ _ _ _ _ _ Hr) as N.
    assert (G : forall l k, In l [ts; xs; ys] -> sub_text (Some (join "," l)) k = nth k l ""%string).
    { intros l k Hl. destruct (W l Hl) as [Hne Hl']. unfold sub_text, filled.
      destruct (String.eqb_spec (join "," l) "") as [E|E].
      - destruct l as [|a [|b l]]; [congruence| |].
        + change (join "," [a]) with a in E. subst a. now destruct k as [|[|k]].
        + exfalso. change (join "," (a :: b :: l)) with (a ++ String "," (join "," (b :: l)))%string in E.
          destruct a; discriminate.
      - rewrite (split_join ","%char) by auto. destruct (Nat.ltb_spec k (length l)); [reflexivity|].
        symmetry. now apply nth_overflow. }
    split.
    - rewrite suptitles_app, (no_text_st r), app_nil_r by exact N.
      rewrite (proj1 (proj2 (proj2 (axes_new o num nax x y 0 Q)))). now destruct (l_title o).
    - intros k Hk. rewrite xlabels_app, ylabels_app, titles_app, switched_off_app.
      rewrite (no_text_x _ r), (no_text_y _ r), (no_text_t _ r), (no_text_off _ r), !app_nil_r, orb_false_r by exact N.
      destruct (axes_new o num nax x y k Q) as (_ & _ & _ & E1 & E2 & E3 & E4). rewrite E1, E2, E3, E4, Hx, Hy, Ht.
      rewrite !G by (simpl; tauto). destruct (Nat.ltb_spec k nax) as [_|]; [|lia]. repeat split; auto.
      + rewrite andb_true_r. apply Nat.leb_le.
      + rewrite andb_true_r. apply Nat.leb_le.
  Qed.

  (** Without the lists the panels have no text of their own. *)
  Theorem C95_bare_panels o nd n axes lines num nax evs k :
    l_squeeze o = false ->
    l_sub_titles o = None -> l_sub_xlabels o = None -> l_sub_ylabels o = None -> (k < nax)%nat ->
    events o nd n axes lines false num nax = Ok evs ->
    xlabels k evs = [""%string] /\ ylabels k evs = [""%string] /\ titles k evs = [].
  Proof.
    intros Q Ht Hx Hy Hk H. apply events_parts in H as (x & y & r & _ & _ & Hr & ->).
    pose proof (loop_no_text _ _ _ _ _ _ _ _ _ _ Hr) as N.
    rewrite xlabels_app, ylabels_app, titles_app.
    rewrite (no_text_x _ r), (no_text_y _ r), (no_text_t _ r), !app_nil_r by exact N.
    destruct (axes_new o num nax x y k Q) as (_ & _ & _ & E1 & E2 & E3 & _). rewrite E1, E2, E3, Hx, Hy, Ht.
    destruct (Nat.ltb_spec k nax); [|lia]. repeat split.
  Qed.

  (** One panel for all: it has the title, and nothing else is labelled or
      switched off. *)
  Theorem C95_one_panel o nd n axes lines num nax evs :
    l_squeeze o = true -> events o nd n axes lines false num nax = Ok evs ->
    titles 0 evs = match l_title o with Some t => [t] | None => [] end /\ suptitles evs = [] /\
    forall k, switched_off k evs = false /\
      (k <> 0%nat -> xlabels k evs = [] /\ ylabels k evs = [] /\ titles k evs = []).
  Proof.
    intros Q H. apply events_parts in H as (x & y & r & _ & _ & Hr & ->).
    pose proof (loop_no_text _ _ _ _ _ _ _ _ _ _ Hr) as N.
    rewrite titles_app, suptitles_app, (no_text_t _ r), (no_text_st r), !app_nil_r by exact N.
    unfold label_axes. rewrite Q. split; [now destruct (l_title o)|]. split; [now destruct (l_title o)|].
    intros k. rewrite xlabels_app, ylabels_app, titles_app, switched_off_app.
    rewrite (no_text_x _ r), (no_text_y _ r), (no_text_t _ r), (no_text_off _ r), !app_nil_r, orb_false_r by exact N.
    split; [now destruct (l_title o)|]. intros Hk. destruct k as [|k]; [congruence|]. now destruct (l_title o).
  Qed.

  (** Drawing into a figure that has axes leaves its labels, titles and
      switched-off panels alone. *)
  Theorem C95_labels_kept o nd n axes lines num nax evs :
    events o nd n axes lines true num nax = Ok evs ->
    suptitles evs = [] /\ supxs evs = [] /\ supys evs = [] /\
    forall k, xlabels k evs = [] /\ ylabels k evs = [] /\ titles k evs = [] /\ switched_off k evs = false.
  Proof.
    intros H. apply events_parts in H as (x & y & r & _ & _ & Hr & ->).
    pose proof (loop_no_text _ _ _ _ _ _ _ _ _ _ Hr) as N. cbn [label_axes app].
    rewrite (no_text_st r), (no_text_sx r), (no_text_sy r) by exact N. repeat split;
      auto using no_text_x, no_text_y, no_text_t, no_text_off.
  Qed.
End Axes.
