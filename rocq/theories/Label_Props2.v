(** * C95: labels of components, colour bars, legends and limits *)
From Coq Require Import String Ascii List Arith ZArith QArith Lqa Lia Bool.
From Verif Require Import Prelude PreludeFacts DataSpace_Proofs Write_Model Label_Model Label_Spec Label_Proofs Label_Proofs2.
Import ListNotations.
Open Scope list_scope.

Section Comps.
  Context (fmt2 fmt3 : Q -> string) (pfloat : string -> option Q).
  Notation events := (label_events fmt2 fmt3 pfloat).
  Notation ev := (comp_ev fmt3 pfloat).
  Notation draw := (draw_one fmt3 pfloat).
  Notation st0 o := (l_coloured o, l_colorbar o, l_legend o).

  (** A curve on each panel: it carries the label of its component, the legend
      is shown if asked for, and there is never a colour bar. *)
  Theorem C95_curves o n axes lines have num nax evs c :
    events o 1 n axes lines have num nax = Ok evs -> l_squeeze o = false -> (c < n)%nat ->
    let k := (c + l_start o)%nat in
    exists lab, is_label (l_prefix o) n c lab /\
      lines_of k evs = [Some lab] /\ contours_of k evs = [] /\ bars_of k evs = [] /\
      legends_of k evs = (if l_legend o && negb (String.eqb lab "") then 1%nat else 0%nat) /\
      texts_of k evs = (if l_legend o && String.eqb lab "" then [""%string] else []).
  Proof.
    intros H Q Hc. cbv zeta. destruct (panel_shows _ _ _ _ _ _ _ _ _ _ _ _ _ H Q Hc) as (e & E & V1 & V2 & V3 & V4 & V5 & _).
    exists (comp_label o n c). split; [apply comp_label_is; lia|].
    unfold comp_ev, panel_of in E. rewrite Q in E. cbn [draw_one] in E. apply Ok_inj in E. subst e.
    destruct (format_shows o 1 (c + l_start o) (comp_label o n c) (l_legend o)) as (F1 & F2 & F3 & F4 & F5 & _).
    cbn [snd] in *. rewrite V1, V2, V3, V4, V5.
    rewrite lines_of_app, contours_of_app, bars_of_app, texts_of_app, legends_of_app, F1, F2, F3, F4, F5.
    unfold lines_of, contours_of, bars_of, texts_of, legends_of. cbn [flat_map app length Nat.add Nat.eqb negb orb].
    rewrite Nat.eqb_refl. repeat split.
    - now rewrite andb_true_r.
    - destruct (l_legend o); [|reflexivity]. simpl.
      destruct (String.eqb_spec (comp_label o n c) ""); [now f_equal|reflexivity].
  Qed.

  (** All curves on one panel, in the order of the components. *)
  Theorem C95_curves_together o n axes lines have num nax evs :
    events o 1 n axes lines have num nax = Ok evs -> l_squeeze o = true ->
    exists labs, Forall2 (is_label (l_prefix o) n) (seq 0 n) labs /\
      lines_of 0 evs = List.map Some labs /\ bars_of 0 evs = [] /\
      legends_of 0 evs = (if l_legend o then length (filter (fun s => negb (String.eqb s "")) labs) else 0%nat).
  Proof.
    intros H Q. apply split_view in H as (ess & F & V).
    destruct (local_all pfloat 0) as (L1 & _ & L3 & _ & L5 & _). unfold lines_of, bars_of, legends_of.
    rewrite (V _ _ _ L1), (V _ _ _ L3), (V _ _ _ L5). clear V L1 L3 L5.
    exists (List.map (comp_label o n) (seq 0 n)).
    assert (B : Forall (fun c => (c < n)%nat) (seq 0 n)) by (apply Forall_forall; intros c Hc; apply in_seq in Hc; lia).
    split.
    { clear F. induction B; simpl; constructor; auto. apply comp_label_is. lia. }
    clear B. induction F as [|c e cs ess E F IH]; cbn [flat_map List.map filter].
    { now destruct (l_legend o). }
    unfold comp_ev, panel_of in E. rewrite Q in E. cbn [draw_one] in E. apply Ok_inj in E. subst e.
    destruct IH as (I1 & I2 & I3). rewrite I1, I2, app_length, I3. cbn [snd].
    destruct (format_shows o 1 0 (comp_label o n c) (l_legend o)) as (F1 & _ & F3 & _ & F5 & _).
    rewrite !flat_map_app. fold (lines_of 0 (format_one o 1 0 (comp_label o n c) (l_legend o))).
    fold (bars_of 0 (format_one o 1 0 (comp_label o n c) (l_legend o))). rewrite F1, F3, app_length.
    fold (legends_of 0 (format_one o 1 0 (comp_label o n c) (l_legend o))). rewrite F5. cbn [flat_map app Nat.eqb].
    split; [reflexivity|]. split; [reflexivity|]. rewrite andb_true_r.
    destruct (l_legend o); [|reflexivity]. cbn [andb]. now destruct (String.eqb (comp_label o n c) "").
  Qed.

  (** Different components have different labels. *)
  Theorem C95_labels_differ prefix n c d s t :
    (1 < n)%nat -> is_label prefix n c s -> is_label prefix n d t -> c <> d -> s <> t.
  Proof.
    intros Hn Ls Lt Hcd ->. apply Hcd.
    inversion Ls as [|us p _ Ep Hu Hp Q]; [lia|]. inversion Lt as [|us' p' _ Ep' Hu' Hp' Q']; [lia|].
    assert (p = p') as <-.
    { pose proof (lstrip_under us p Hu Hp) as A. pose proof (lstrip_under us' p' Hu' Hp') as B.
      rewrite <- Ep in A. rewrite <- Ep' in B. congruence. }
    assert (X : (if (p =? "")%string then ("c" ++ show_Z (Z.of_nat c))%string else (p ++ "_c" ++ show_Z (Z.of_nat c))%string)
              = (if (p =? "")%string then ("c" ++ show_Z (Z.of_nat d))%string else (p ++ "_c" ++ show_Z (Z.of_nat d))%string))
      by congruence.
    clear - X. destruct (p =? "")%string.
    - injection X as X. apply show_Z_inj in X. lia.
    - apply app_cancel in X. injection X as X. apply show_Z_inj in X. lia.
  Qed.

  (** Limits are set on the panel of every component if one of the two bounds
      is given, in any kind of plot. *)
  Theorem C95_limits o nd n axes lines have num nax evs c :
    events o nd n axes lines have num nax = Ok evs -> l_squeeze o = false -> (c < n)%nat ->
    let k := (c + l_start o)%nat in
    xlims_of k evs = (match l_xmin o, l_xmax o with None, None => [] | a, b => [(a, b)] end) /\
    ylims_of k evs = (match l_ymin o, l_ymax o with None, None => [] | a, b => [(a, b)] end).
  Proof.
    intros H Q Hc. cbv zeta. destruct (panel_shows _ _ _ _ _ _ _ _ _ _ _ _ _ H Q Hc) as (e & E & _ & _ & _ & _ & _ & V6 & V7).
    unfold comp_ev, panel_of in E. rewrite Q in E.
    destruct (draw _ _ _ _ _ _ _) as [[[e' st'] lab]|x] eqn:D; [|discriminate]. apply Ok_inj in E. subst e.
    rewrite V6, V7, xlims_of_app, ylims_of_app.
    destruct (format_shows o nd (c + l_start o) lab (snd st')) as (_ & _ & _ & _ & _ & F6 & F7). rewrite F6, F7.
    assert (N : xlims_of (c + l_start o) e' = [] /\ ylims_of (c + l_start o) e' = []).
    { clear - D. revert D. unfold draw_one. destruct nd as [|[|[|nd]]]; try discriminate.
      - intros [= <- _ _]. split; reflexivity.
      - intros H. apply bind_ok in H as ([[e [[c0 b] g]] lb] & H1 & H2). apply Ok_inj in H2.
        assert (e' = e ++ (if negb c0 && b && negb (l_stream o) then
          [Bar (c + l_start o) (match c_label fmt3 o with Some s => s | None => ""%string end)] else [])) as -> by congruence.
        rewrite xlims_of_app, ylims_of_app.
        assert (B : forall k, xlims_of k (if negb c0 && b && negb (l_stream o) then
          [Bar (c + l_start o) (match c_label fmt3 o with Some s => s | None => ""%string end)] else []) = [] /\
          ylims_of k (if negb c0 && b && negb (l_stream o) then
          [Bar (c + l_start o) (match c_label fmt3 o with Some s => s | None => ""%string end)] else []) = []).
        { intros k. destruct (negb c0 && b && negb (l_stream o)); split; reflexivity. }
        rewrite (proj1 (B _)), (proj2 (B _)), !app_nil_r. revert H1.
        destruct (l_contour o).
        { intros H1. apply bind_ok in H1 as (lv & _ & H1). injection H1 as <- _ _ _ _. split; reflexivity. }
        destruct (l_quiver o); [intros [= <- _ _ _ _]; split; reflexivity|].
        destruct (l_stream o); [intros [= <- _ _ _ _]; split; reflexivity|].
        destruct (l_lineouts o) as [z|]; [|intros [= <- _ _ _ _]; split; reflexivity].
        intros H1. apply bind_ok in H1 as (t & _ & H1). destruct (lines =? 1)%nat; [discriminate|].
        injection H1 as <- _ _ _ _. rewrite xlims_of_app, ylims_of_app. clear.
        split; induction lines; simpl; auto. }
    destruct N as [-> ->]. unfold lims. destruct (l_xmin o), (l_xmax o), (l_ymin o), (l_ymax o); split; reflexivity.
  Qed.

  (** Two-dimensional plots other than line-outs: one colour bar per panel, for
      the values, unless a colour is given, it is switched off, the plot is of
      streamlines, or there is a single contour level; the label of the
      component is a text. *)
  Theorem C95_fields o n axes lines have num nax evs c :
    events o 2 n axes lines have num nax = Ok evs -> l_squeeze o = false -> (c < n)%nat ->
    l_contour o || l_quiver o || l_stream o = true \/ l_lineouts o = None ->
    let k := (c + l_start o)%nat in
    exists lab bar, is_label (l_prefix o) n c lab /\ is_bar_label fmt3 (l_clabel o) (l_zscale o) bar /\
      lines_of k evs = [] /\ legends_of k evs = 0%nat /\
      texts_of k evs = (if l_legend o then [lab] else []) /\
      (l_contour o = false -> contours_of k evs = []) /\
      (l_contour o = true -> exists lv, contour_levels pfloat o = Ok lv /\ contours_of k evs = [lv]) /\
      bars_of k evs = (if l_coloured o || negb (l_colorbar o) || l_stream o then []
                       else match contours_of k evs with [LAt [_]] => [] | _ => [bar] end).
  Proof.
    intros H Q Hc M. cbv zeta. destruct (panel_shows _ _ _ _ _ _ _ _ _ _ _ _ _ H Q Hc) as (e & E & V1 & V2 & V3 & V4 & V5 & _).
    exists (comp_label o n c), (match c_label fmt3 o with Some s => s | None => ""%string end).
    split; [apply comp_label_is; lia|]. split; [apply c_label_is|].
    unfold comp_ev, panel_of in E. rewrite Q in E.
    destruct (draw _ _ _ _ _ _ _) as [[[e' st'] lab]|x] eqn:D; [|discriminate]. apply Ok_inj in E. subst e.
    destruct (format_shows o 2 (c + l_start o) lab (snd st')) as (F1 & F2 & F3 & F4 & F5 & _).
    rewrite V1, V2, V3, V4, V5, lines_of_app, contours_of_app, bars_of_app, texts_of_app, legends_of_app, F1, F2, F3, F4, F5.
    clear H V1 V2 V3 V4 V5 F1 F2 F3 F4 F5. revert D. unfold draw_one. intros H.
    apply bind_ok in H as ([[e [[c0 b] g]] lb] & H1 & H2). apply Ok_inj in H2.
    assert (X : e' = e ++ (if negb c0 && b && negb (l_stream o) then
          [Bar (c + l_start o) (match c_label fmt3 o with Some s => s | None => ""%string end)] else []) /\
          st' = (c0, b, g) /\ lab = lb) by (repeat split; congruence).
    destruct X as (-> & -> & ->). clear H2. cbn [snd Nat.eqb negb orb andb]. rewrite !andb_true_r.
    rewrite lines_of_app, contours_of_app, bars_of_app, texts_of_app, legends_of_app.
    assert (B : forall t : bool,
      let l := (if t then [Bar (c + l_start o) (match c_label fmt3 o with Some s => s | None => ""%string end)] else []) in
      lines_of (c + l_start o) l = [] /\ contours_of (c + l_start o) l = [] /\ texts_of (c + l_start o) l = [] /\
      legends_of (c + l_start o) l = 0%nat /\
      bars_of (c + l_start o) l = if t then [match c_label fmt3 o with Some s => s | None => ""%string end] else []).
    { intros []; cbv zeta; repeat split. unfold bars_of. cbn [flat_map app]. now rewrite Nat.eqb_refl. }
    destruct (B (negb c0 && b && negb (l_stream o))) as (B1 & B2 & B3 & B4 & B5). cbv zeta in B1, B2, B3, B4, B5.
    rewrite B1, B2, B3, B4, B5. clear B B1 B2 B3 B4 B5. rewrite andb_false_r. cbn [andb].
    revert H1. destruct (l_contour o).
    { intros H1. apply bind_ok in H1 as (lv & Hlv & H1). injection H1 as <- <- <- <- <-.
      unfold lines_of, contours_of, bars_of, texts_of, legends_of. cbn [flat_map app length Nat.add].
      rewrite Nat.eqb_refl. cbn [app]. split; [reflexivity|]. split; [reflexivity|]. split; [reflexivity|].
      split; [discriminate|]. split; [intros _; exists lv; auto|].
      destruct (l_coloured o), (l_colorbar o), (l_stream o), lv as [z|[|q [|q' l]]]; reflexivity. }
    cbn [orb] in M.
    assert (G : forall e0, (e0 = Arrow (c + l_start o) \/ e0 = Stream (c + l_start o) \/ e0 = Mesh (c + l_start o)) ->
      Ok ([e0], st0 o, comp_label o n c) = Ok (e, (c0, b, g), lb) ->
      (lines_of (c + l_start o) e ++ []) ++ [] = [] /\ (legends_of (c + l_start o) e + 0 + 0)%nat = 0%nat /\
      (texts_of (c + l_start o) e ++ []) ++ (if g then [lb] else []) = (if l_legend o then [comp_label o n c] else []) /\
      (false = false -> (contours_of (c + l_start o) e ++ []) ++ [] = []) /\
      (false = true -> exists lv, contour_levels pfloat o = Ok lv /\ (contours_of (c + l_start o) e ++ []) ++ [] = [lv]) /\
      (bars_of (c + l_start o) e ++ (if negb c0 && b && negb (l_stream o) then
         [match c_label fmt3 o with Some s => s | None => ""%string end] else [])) ++ [] =
      (if l_coloured o || negb (l_colorbar o) || l_stream o then [] else
         match (contours_of (c + l_start o) e ++ []) ++ [] with [LAt [_]] => [] | _ =>
         [match c_label fmt3 o with Some s => s | None => ""%string end] end)).
    { intros e0 He0 [= <- <- <- <- <-].
      assert (lines_of (c + l_start o) [e0] = [] /\ legends_of (c + l_start o) [e0] = 0%nat /\
        texts_of (c + l_start o) [e0] = [] /\ contours_of (c + l_start o) [e0] = [] /\ bars_of (c + l_start o) [e0] = [])
        as (-> & -> & -> & -> & ->) by (destruct He0 as [->|[->| ->]]; repeat split).
      cbn [app]. split; [reflexivity|]. split; [reflexivity|]. split; [reflexivity|]. split; [reflexivity|].
      split; [discriminate|].
      rewrite app_nil_r. destruct (l_coloured o), (l_colorbar o), (l_stream o); reflexivity. }
    destruct (l_quiver o). { intros H1. apply (G _ (or_introl eq_refl) H1). }
    destruct (l_stream o) eqn:ES. { intros H1. apply (G _ (or_intror (or_introl eq_refl)) H1). }
    cbn [orb] in M. destruct M as [M|M]; [discriminate|]. rewrite M. intros H1.
    apply (G _ (or_intror (or_intror eq_refl)) H1).
  Qed.

  (** Line-outs: a curve for each line without a label, and one colour bar for
      the lines: with the label given (and the scale of the values, if any) or
      the name of the other coordinate; no legend. *)
  Theorem C95_lineouts o n axes lines have num nax evs c l other :
    events o 2 n axes lines have num nax = Ok evs -> l_squeeze o = false -> (c < n)%nat ->
    l_contour o = false -> l_quiver o = false -> l_stream o = false -> l_lineouts o = Some l ->
    nth_error axes (if (l =? 0)%Z then 1 else 0) = Some other ->
    let k := (c + l_start o)%nat in
    exists bar, is_bar_label fmt3 (l_clabel o) (l_zscale o) bar /\
      lines_of k evs = repeat None lines /\ legends_of k evs = 0%nat /\ texts_of k evs = [] /\
      bars_of k evs = [if String.eqb bar "" then other else bar].
  Proof.
    intros H Q Hc M1 M2 M3 M4 M5. cbv zeta.
    destruct (panel_shows _ _ _ _ _ _ _ _ _ _ _ _ _ H Q Hc) as (e & E & V1 & V2 & V3 & V4 & V5 & _).
    exists (match c_label fmt3 o with Some s => s | None => ""%string end). split; [apply c_label_is|].
    unfold comp_ev, panel_of in E. rewrite Q in E.
    unfold draw_one in E. rewrite M1, M2, M3, M4 in E. unfold at_axis in E. rewrite M5 in E. cbn [bind] in E.
    destruct (lines =? 1)%nat; [discriminate|]. cbn [bind] in E. rewrite !andb_false_r in E. cbn [andb app] in E.
    apply Ok_inj in E. subst e. rewrite app_nil_r in *. cbn [snd] in *.
    rewrite V1, V3, V4, V5, lines_of_app, bars_of_app, texts_of_app, legends_of_app.
    match goal with |- context [format_one o 2 ?k ?t false] => destruct (format_shows o 2 k t false) as (F1 & F2 & F3 & F4 & F5 & _) end.
    rewrite F1, F3, F4, F5. clear. cbn [andb]. rewrite !app_nil_r.
    rewrite lines_of_app, bars_of_app, texts_of_app, legends_of_app.
    assert (R : forall k, lines_of k (repeat (Line k None) lines) = repeat None lines /\
      bars_of k (repeat (Line k None) lines) = [] /\ texts_of k (repeat (Line k None) lines) = [] /\
      legends_of k (repeat (Line k None) lines) = 0%nat).
    { intros k. induction lines as [|m (I1 & I2 & I3 & I4)]; [repeat split|].
      unfold lines_of, bars_of, texts_of, legends_of in *. cbn [repeat flat_map app]. rewrite Nat.eqb_refl, I1, I2, I3, I4.
      repeat split. }
    destruct (R (c + l_start o)%nat) as (-> & -> & -> & ->).
    unfold lines_of, bars_of, texts_of, legends_of. cbn [flat_map app length Nat.add]. rewrite Nat.eqb_refl, !app_nil_r.
    repeat split. unfold filled. destruct (c_label fmt3 o) as [s|]; [now destruct (String.eqb s "")|reflexivity].
  Qed.

  (** A single line cannot be drawn. *)
  Theorem C95_single_line o n axes have num nax l x y :
    (0 < n)%nat -> (1 < length axes)%nat ->
    l_contour o = false -> l_quiver o = false -> l_stream o = false -> l_lineouts o = Some l ->
    x_label fmt2 o axes = Ok x -> y_label fmt2 o 2 axes = Ok y ->
    events o 2 n axes 1 have num nax = Err ZeroDivisionError.
  Proof.
    intros Hn Ha M1 M2 M3 M4 Hx Hy. unfold label_events. rewrite Hx, Hy. cbn [bind].
    destruct n as [|n]; [lia|]. cbn [seq comp_loop]. unfold draw_one. rewrite M1, M2, M3, M4. unfold at_axis.
    destruct axes as [|a [|b axes]]; simpl in Ha; try lia.
    destruct (l =? 0)%Z; reflexivity.
  Qed.
End Comps.
