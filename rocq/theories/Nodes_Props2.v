(** * C108: the figure of gk_nodes *)
From Coq Require Import String Ascii List Arith ZArith Reals Lia Lra Bool.
From Verif Require Import Prelude PreludeFacts NdArray Ev_Model Tools_Arr Gk_Model Gk_Proofs Distf_Model Nodes_Model Nodes_Props.
Import ListNotations.
Open Scope string_scope.
Open Scope list_scope.
Open Scope nat_scope.

Section Figure.
  Context (read : string -> res node_file) (read_psi : string -> res (list (list R) * nda R))
    (read_wall : string -> res (list (R * R))) (py_float : string -> res R) (glob : string -> nat) (colours : list string).
  Notation draws o := (gk_nodes read read_psi read_wall py_float glob colours o).

  Definition some_text (o : option string) (s : string) : Prop := o = Some s /\ s <> "".

  Lemma given_some o s : some_text o s <-> Nodes_Model.given o = Some s.
  Proof. unfold some_text, Nodes_Model.given. destruct o as [[|c t]|]; split; try (intros H; discriminate H); [intros ([= <-] & H); now elim H|intros (H & _); exact H|intros [= <-]; split; [reflexivity|discriminate]|intros (H & _); discriminate H]. Qed.

  Lemma draw_blocks_ok o file several bs fcs : Forall2 (good read file) bs fcs -> forall k,
    exists a d, draw_blocks read colours o file several k bs = Ok (a, d) /\
      (forall r z, (exists x, In x a /\ dot x r z) <-> shown fcs r z) /\
      (forall p q, (exists x, In x a /\ joined x p q) <->
         (exists f cells i j, In (f, cells) fcs /\ node cells i /\ node cells j /\ next_to i j /\ place f i (fst p) (snd p) /\ place f j (fst q) (snd q))) /\
      List.map nd_tag d = concat (map2 (fun b fc => List.map (fun t => tag_of_block several t b) (if length (snd fc) =? 1 then ["nodes"] else ["edges"; "nodes"])) bs fcs).
  Proof.
    induction 1 as [|b [f cells] bs fcs (Rd & NG) _ IH]; intros k.
    - exists [], []. split; [reflexivity|]. split; [|split; [|reflexivity]].
      + intros r z. split; [intros (x & [] & _)|intros (f & c & i & [] & _)].
      + intros p q. split; [intros (x & [] & _)|intros (f & c & i & j & [] & _)].
    - cbn [fst snd] in *. destruct (C108_block read file colours o several k f cells b Rd NG) as (a & d & E & D & J & _ & T). destruct (IH (S k)) as (a' & d' & E' & D' & J' & T').
      exists (a ++ a'), (d ++ d'). cbn [draw_blocks]. rewrite E. cbn [bind]. rewrite E'. split; [reflexivity|]. split; [|split].
      + intros r z. split.
        * intros (x & Hx & Hd). apply in_app_or in Hx as [Hx|Hx].
          -- destruct (proj1 (D r z) (ex_intro _ x (conj Hx Hd))) as (idx & Hn & Pl). exists f, cells, idx. split; [now left|auto].
          -- destruct (proj1 (D' r z) (ex_intro _ x (conj Hx Hd))) as (f' & c' & idx & Hi & H). exists f', c', idx. split; [now right|exact H].
        * intros (f' & c' & idx & [Ei|Hi] & H).
          -- injection Ei as <- <-. destruct (proj2 (D r z) (ex_intro _ idx H)) as (x & Hx & Hd). exists x. split; [apply in_or_app; now left|exact Hd].
          -- destruct (proj2 (D' r z)) as (x & Hx & Hd); [exists f', c', idx; auto|]. exists x. split; [apply in_or_app; now right|exact Hd].
      + intros p q. split.
        * intros (x & Hx & Hd). apply in_app_or in Hx as [Hx|Hx].
          -- destruct (proj1 (J p q) (ex_intro _ x (conj Hx Hd))) as (i & j & H). exists f, cells, i, j. split; [now left|auto].
          -- destruct (proj1 (J' p q) (ex_intro _ x (conj Hx Hd))) as (f' & c' & i & j & Hi & H). exists f', c', i, j. split; [now right|exact H].
        * intros (f' & c' & i & j & [Ei|Hi] & H).
          -- injection Ei as <- <-. destruct (proj2 (J p q)) as (x & Hx & Hd); [exists i, j; exact H|]. exists x. split; [apply in_or_app; now left|exact Hd].
          -- destruct (proj2 (J' p q)) as (x & Hx & Hd); [exists f', c', i, j; auto|]. exists x. split; [apply in_or_app; now right|exact Hd].
      + cbn [map2 concat snd]. rewrite map_app, T, T'. reflexivity.
  Qed.

  Lemma push_tag tag g v e : push tag g v = Ok e -> nd_tag e = tag /\ nd_grid e = g /\ nd_values e = v /\ shape v = nd_cells e ++ [nd_comps e].
  Proof.
    unfold push. intros H. destruct (rev (shape v)) as [|nc lead] eqn:Er; [discriminate H|]. apply bind_ok in H as (? & _ & H). apply bind_ok in H as (? & _ & H). injection H as <-. cbn. repeat split.
    rewrite <- (rev_involutive (shape v)), Er. reflexivity.
  Qed.

  Lemma psi_artists o f a d : draw_psi read_psi o f = Ok (a, d) -> (forall x r z, In x a -> ~ dot x r z) /\ (forall x p q, In x a -> ~ joined x p q) /\ List.map nd_tag d = ["psi"].
  Proof.
    unfold draw_psi. intros H. apply bind_ok in H as ((g, v) & _ & H). destruct (no_contour o).
    - apply bind_ok in H as (l & _ & H). apply bind_ok in H as ((x0, y0) & _ & H). apply bind_ok in H as (e & Ee & H). injection H as <- <-. split; [|split].
      + intros x r z [<-|Hx] Hd; [inversion Hd|]. destruct (single l); [destruct Hx|]. destruct Hx as [<-|[]]; inversion Hd.
      + intros x r z [<-|Hx] Hd; [inversion Hd|]. destruct (single l); [destruct Hx|]. destruct Hx as [<-|[]]; inversion Hd.
      + cbn. now rewrite (proj1 (push_tag _ _ _ _ Ee)).
    - apply bind_ok in H as ((x0, y0) & _ & H). apply bind_ok in H as (e & Ee & H). injection H as <- <-. split; [|split].
      + intros x r z [<-|[<-|[]]] Hd; inversion Hd.
      + intros x r z [<-|[<-|[]]] Hd; inversion Hd.
      + cbn. now rewrite (proj1 (push_tag _ _ _ _ Ee)).
  Qed.

  (** The figure: a dot at every node of every block, lines between neighbours of the
      same block, one dataset of nodes (and, unless in one dimension, one of edges) per
      block and one of the flux, if it is asked for; the size is that of the extent. *)
  Theorem C108_figure o bs fcs fig : get_block_indices glob (no_multib o) (nodes_name o) = Ok bs -> Forall2 (good read (nodes_name o)) bs fcs -> draws o = Ok fig ->
    (forall r z, (exists x, In x (fg_artists fig) /\ dot x r z) <-> shown fcs r z) /\
    (forall p q, (exists x, In x (fg_artists fig) /\ joined x p q) <->
       (exists f cells i j, In (f, cells) fcs /\ node cells i /\ node cells j /\ next_to i j /\ place f i (fst p) (snd p) /\ place f j (fst q) (snd q))) /\
    (forall psi, (some_text (no_psi o) psi -> List.map nd_tag (fg_data fig) =
        concat (map2 (fun b fc => List.map (fun t => tag_of_block (1 <? length bs) t b) (if length (snd fc) =? 1 then ["nodes"] else ["edges"; "nodes"])) bs fcs) ++ ["psi"])) /\
    ((forall psi, ~ some_text (no_psi o) psi) -> List.map nd_tag (fg_data fig) =
        concat (map2 (fun b fc => List.map (fun t => tag_of_block (1 <? length bs) t b) (if length (snd fc) =? 1 then ["nodes"] else ["edges"; "nodes"])) bs fcs)) /\
    exists e, extents read (nodes_name o) bs no_extent = Ok e /\ (fg_width fig, fg_height fig, fg_axes fig, fg_cax fig) = layout o e.
  Proof.
    intros Eb Hg H. unfold gk_nodes in H. rewrite Eb in H. cbn [bind] in H. apply bind_ok in H as (e & Ee & H). destruct (layout o e) as (((w, h), ax), cax) eqn:El.
    destruct (draw_blocks_ok o (nodes_name o) (1 <? length bs) bs fcs Hg 0) as (a & d & E & D & J & T). rewrite E in H. cbn [bind] in H.
    apply bind_ok in H as ((pa, pd) & Ep & H). apply bind_ok in H as (wa & Ew & H). apply bind_ok in H as (xl & _ & H). apply bind_ok in H as (yl & _ & H). injection H as <-. cbn [fg_artists fg_data fg_width fg_height fg_axes fg_cax].
    assert (P : (forall x r z, In x (pa ++ wa) -> ~ dot x r z) /\ (forall x p q, In x (pa ++ wa) -> ~ joined x p q)).
    { assert (Pw : forall x, In x wa -> exists l, x = Wall l). { intros x Hx. destruct (Nodes_Model.given (no_wall o)); [|injection Ew as <-; destruct Hx]. apply bind_ok in Ew as (l & _ & Ew). injection Ew as <-. destruct Hx as [<-|[]]. eauto. }
      assert (Pp : (forall x r z, In x pa -> ~ dot x r z) /\ (forall x p q, In x pa -> ~ joined x p q)).
      { destruct (Nodes_Model.given (no_psi o)); [apply psi_artists in Ep; tauto|]. injection Ep as <- <-. split; intros x ? ? []. }
      split; intros x ? ? Hx Hd; apply in_app_or in Hx as [Hx|Hx]; [eapply (proj1 Pp); eauto|destruct (Pw x Hx) as (l & ->); inversion Hd|eapply (proj2 Pp); eauto|destruct (Pw x Hx) as (l & ->); inversion Hd]. }
    split; [|split; [|split; [|split]]].
    - intros r z. rewrite <- D. split; intros (x & Hx & Hd); exists x; (split; [|exact Hd]); [apply in_app_or in Hx as [Hx|Hx]; [exact Hx|now elim (proj1 P x r z Hx)]|apply in_or_app; now left].
    - intros p q. rewrite <- J. split; intros (x & Hx & Hd); exists x; (split; [|exact Hd]); [apply in_app_or in Hx as [Hx|Hx]; [exact Hx|now elim (proj2 P x p q Hx)]|apply in_or_app; now left].
    - intros psi Hp. apply given_some in Hp. rewrite Hp in Ep. apply psi_artists in Ep as (_ & _ & Tp). rewrite map_app, T, Tp. reflexivity.
    - intros Hp. destruct (Nodes_Model.given (no_psi o)) as [s|] eqn:Es; [elim (Hp s); now apply given_some|]. injection Ep as <- <-. now rewrite app_nil_r, T.
    - exists e. split; [exact Ee|]. now rewrite El.
  Qed.

  (** It succeeds whenever the node files are good and nothing else is asked for. *)
  (** The flux, the wall and the limits of the axes are those asked for. *)
  Theorem C108_rest o fig : draws o = Ok fig ->
    (forall f, some_text (no_wall o) f -> exists l, read_wall (in_path o f) = Ok l /\ In (Wall l) (fg_artists fig)) /\
    ((forall f, ~ some_text (no_wall o) f) -> forall l, ~ In (Wall l) (fg_artists fig)) /\
    (forall f, some_text (no_psi o) f -> exists pa pd, draw_psi read_psi o f = Ok (pa, pd) /\ incl pa (fg_artists fig) /\ incl pd (fg_data fig)) /\
    ((forall f, ~ some_text (no_psi o) f) -> ~ In Colorbar (fg_artists fig)) /\
    (forall s, some_text (no_xlim o) s -> exists x0 x1, fg_xlim fig = Some (x0, x1) /\ exists a b more, split_on "," s = a :: b :: more /\ py_float a = Ok x0 /\ py_float b = Ok x1) /\
    (forall s, some_text (no_ylim o) s -> exists y0 y1, fg_ylim fig = Some (y0, y1) /\ exists a b more, split_on "," s = a :: b :: more /\ py_float a = Ok y0 /\ py_float b = Ok y1) /\
    ((forall s, ~ some_text (no_xlim o) s) -> fg_xlim fig = None) /\ ((forall s, ~ some_text (no_ylim o) s) -> fg_ylim fig = None).
  Proof.
    intros H. unfold gk_nodes in H. apply bind_ok in H as (bs & Eb & H). apply bind_ok in H as (e & Ee & H). destruct (layout o e) as (((w, h), ax), cax).
    apply bind_ok in H as ((a, d) & Ed & H). apply bind_ok in H as ((pa, pd) & Ep & H). apply bind_ok in H as (wa & Ew & H). apply bind_ok in H as (xl & Ex & H). apply bind_ok in H as (yl & Ey & H). injection H as <-. cbn [fg_artists fg_data fg_xlim fg_ylim].
    assert (N : forall q : option string, (forall s, ~ some_text q s) -> Nodes_Model.given q = None). { intros q Hq. destruct (Nodes_Model.given q) as [s|] eqn:E; [elim (Hq s); now apply given_some|reflexivity]. }
    assert (L : forall q v, limits py_float q = Ok v -> (forall s, some_text q s -> exists x0 x1, v = Some (x0, x1) /\ exists a b more, split_on "," s = a :: b :: more /\ py_float a = Ok x0 /\ py_float b = Ok x1) /\ ((forall s, ~ some_text q s) -> v = None)).
    { intros q v Eq. split.
      - intros s Hs. apply given_some in Hs. unfold limits in Eq. rewrite Hs in Eq. destruct (split_on "," s) as [|p [|p' m]] eqn:Esp; [discriminate Eq|apply bind_ok in Eq as (? & _ & Eq); discriminate Eq|].
        apply bind_ok in Eq as (x & Epx & Eq). apply bind_ok in Eq as (y & Epy & Eq). injection Eq as <-. exists x, y. split; [reflexivity|]. exists p, p', m. auto.
      - intros Hn. unfold limits in Eq. rewrite (N q Hn) in Eq. now injection Eq as <-. }
    assert (Bl : forall bs' k a' d', draw_blocks read colours o (nodes_name o) (1 <? length bs) k bs' = Ok (a', d') -> forall x, In x a' -> (forall l, x <> Wall l) /\ x <> Colorbar).
    { induction bs' as [|b bs' IH]; intros k a' d' E x Hx; cbn [draw_blocks] in E; [injection E as <- <-; destruct Hx|]. apply bind_ok in E as ((a1, d1) & E1 & E). apply bind_ok in E as ((a2, d2) & E2 & E). injection E as <- <-.
      apply in_app_or in Hx as [Hx|Hx]; [|exact (IH _ _ _ E2 x Hx)]. unfold draw_block in E1. apply bind_ok in E1 as (((cd, r), z) & _ & E1). destruct (2 <? length (shape r)); [discriminate E1|]. destruct (cd =? 1).
      - apply bind_ok in E1 as (q & _ & E1). injection E1 as <- <-. destruct Hx as [<-|[<-|[]]]; split; intros; discriminate.
      - apply bind_ok in E1 as (sx & _ & E1). apply bind_ok in E1 as (sy & _ & E1). apply bind_ok in E1 as (q & _ & E1). apply bind_ok in E1 as (q' & _ & E1). injection E1 as <- <-. destruct Hx as [<-|[<-|[<-|[]]]]; split; intros; discriminate. }
    assert (Pl : forall f pa' pd', draw_psi read_psi o f = Ok (pa', pd') -> forall x, In x pa' -> forall l, x <> Wall l).
    { intros f pa' pd' E x Hx l. unfold draw_psi in E. apply bind_ok in E as ((g, v) & _ & E). destruct (no_contour o).
      - apply bind_ok in E as (lv & _ & E). apply bind_ok in E as ((x1, y1) & _ & E). apply bind_ok in E as (q & _ & E). injection E as <- <-. destruct Hx as [<-|Hx]; [discriminate|]. destruct (single lv); [destruct Hx|destruct Hx as [<-|[]]; discriminate].
      - apply bind_ok in E as ((x1, y1) & _ & E). apply bind_ok in E as (q & _ & E). injection E as <- <-. destruct Hx as [<-|[<-|[]]]; discriminate. }
    split; [|split; [|split; [|split; [|split; [|split; [|split]]]]]].
    - intros f Hf. apply given_some in Hf. rewrite Hf in Ew. apply bind_ok in Ew as (l & El & Ew). injection Ew as <-. exists l. split; [exact El|]. apply in_or_app. right. apply in_or_app. right. now left.
    - intros Hf l Hl. rewrite (N _ Hf) in Ew. injection Ew as <-. apply in_app_or in Hl as [Hl|Hl]; [now elim (proj1 (Bl _ _ _ _ Ed _ Hl) l)|]. rewrite app_nil_r in Hl. destruct (Nodes_Model.given (no_psi o)) as [f|]; [|injection Ep as <- <-; destruct Hl]. now elim (Pl _ _ _ Ep _ Hl l).
    - intros f Hf. apply given_some in Hf. rewrite Hf in Ep. exists pa, pd. split; [exact Ep|]. split; intros x Hx; apply in_or_app; right; [apply in_or_app; now left|exact Hx].
    - intros Hf Hc. rewrite (N _ Hf) in Ep. injection Ep as <- <-. apply in_app_or in Hc as [Hc|Hc]; [now elim (proj2 (Bl _ _ _ _ Ed _ Hc))|]. cbn [app] in Hc. destruct (Nodes_Model.given (no_wall o)) as [f|]; [|injection Ew as <-; destruct Hc]. apply bind_ok in Ew as (l & _ & Ew). injection Ew as <-. destruct Hc as [Hc|[]]; discriminate Hc.
    - exact (proj1 (L _ _ Ex)).
    - exact (proj1 (L _ _ Ey)).
    - exact (proj2 (L _ _ Ex)).
    - exact (proj2 (L _ _ Ey)).
  Qed.

  Theorem C108_succeeds o bs fcs : get_block_indices glob (no_multib o) (nodes_name o) = Ok bs -> Forall2 (good read (nodes_name o)) bs fcs ->
    no_psi o = None -> no_wall o = None -> no_xlim o = None -> no_ylim o = None -> exists fig, draws o = Ok fig.
  Proof.
    intros Eb Hg E1 E2 E3 E4. unfold gk_nodes. rewrite Eb, E1, E2, E3, E4. cbn [bind]. destruct (extents_ok _ _ _ _ Hg no_extent) as (e & -> & _). cbn [bind]. destruct (layout o e) as (((w, h), ax), cax).
    destruct (draw_blocks_ok o (nodes_name o) (1 <? length bs) bs fcs Hg 0) as (a & d & -> & _). cbn. eexists. reflexivity.
  Qed.

  (** Colours: those of the cycle in turn, or always the first. *)
  Theorem C108_colours o file several bs fcs a d : Forall2 (good read file) bs fcs -> draw_blocks read colours o file several 0 bs = Ok (a, d) ->
    exists parts, a = concat parts /\ length parts = length bs /\
      forall m part b f cells, nth_error parts m = Some part -> nth_error bs m = Some b -> nth_error fcs m = Some (f, cells) ->
        (forall r z, (exists x, In x part /\ dot x r z) <-> (exists idx, node cells idx /\ place f idx r z)) /\
        forall x c, In x part -> line_colour x = Some c -> c = (if no_unicolor o then nth 0 colours "" else nth (m mod length colours) colours "").
  Proof.
    intros H E. cut (exists parts, a = concat parts /\ length parts = length bs /\
      forall m part b f cells, nth_error parts m = Some part -> nth_error bs m = Some b -> nth_error fcs m = Some (f, cells) ->
        (forall r z, (exists x, In x part /\ dot x r z) <-> (exists idx, node cells idx /\ place f idx r z)) /\
        forall x c, In x part -> line_colour x = Some c -> c = colour colours o (0 + m)); [intros G; exact G|].
    revert E. generalize 0. intros k. revert k a d. induction H as [|b [f cells] bs fcs (Rd & NG) _ IH]; intros k a d E.
    - injection E as <- <-. exists []. split; [reflexivity|]. split; [reflexivity|]. intros [|m] ? ? ? ? Hm; discriminate Hm.
    - cbn [draw_blocks] in E. apply bind_ok in E as ((a1, d1) & E1 & E). apply bind_ok in E as ((a2, d2) & E2 & E). injection E as <- <-. destruct (IH (S k) a2 d2 E2) as (parts & -> & Lp & Hp).
      exists (a1 :: parts). split; [reflexivity|]. split; [cbn; now rewrite Lp|]. intros [|m] part b' f' c' Hm Hb Hf.
      + injection Hm as <-. injection Hb as <-. injection Hf as <- <-. cbn [fst snd] in *. destruct (C108_block read file colours o several k f cells b Rd NG) as (a3 & d3 & E3 & D & _ & C & _). rewrite E3 in E1. injection E1 as <- <-. split; [exact D|]. rewrite Nat.add_0_r. exact C.
      + replace (k + S m) with (S k + m) by lia. exact (Hp m part b' f' c' Hm Hb Hf).
  Qed.

  (** ** Which files are read *)

  (** The file of the nodes of a block: the given one, with the number of the block for
      [*], below the path unless absolute; otherwise named after simulation and block. *)
  Definition block_file (o : nodes_options) (b : Z) (f : string) : Prop :=
    (exists g, some_text (no_nodes o) g /\ f = replace "*" (show_Z b) (if starts_with "/" g then g else (no_path o ++ "/" ++ g)%string)) \/
    ((forall g, ~ some_text (no_nodes o) g) /\ no_multib o = "-10" /\ f = (no_path o ++ "/" ++ no_name o ++ "-nodes.gkyl")%string) \/
    ((forall g, ~ some_text (no_nodes o) g) /\ no_multib o <> "-10" /\ f = (no_path o ++ "/" ++ no_name o ++ "_b" ++ show_Z b ++ "-nodes.gkyl")%string).

  Lemma star_app s t : has_char "*" (s ++ t)%string = has_char "*" s || has_char "*" t.
  Proof. induction s as [|c s IH]; [reflexivity|]. cbn [String.append has_char]. rewrite IH. apply orb_assoc. Qed.

  Theorem C108_name o b : has_char "*" (no_path o) = false -> has_char "*" (no_name o) = false -> block_file o b (replace "*" (show_Z b) (nodes_name o)).
  Proof.
    intros Hp Hn. unfold nodes_name, block_file. destruct (Nodes_Model.given (no_nodes o)) as [g|] eqn:Eg.
    - left. exists g. split; [now apply given_some|reflexivity].
    - right. assert (N : forall g, ~ some_text (no_nodes o) g) by (intros g Hg; apply given_some in Hg; congruence). destruct (String.eqb_spec (no_multib o) "-10") as [Em|Em].
      + left. split; [exact N|]. split; [exact Em|]. apply replace_none. rewrite !star_app, Hp, Hn. reflexivity.
      + right. split; [exact N|]. split; [exact Em|]. rewrite replace_app by exact Hp. f_equal. rewrite (replace_app "*" _ "/") by reflexivity. f_equal. rewrite replace_app by exact Hn. f_equal.
  Qed.

  (** Other node files do not matter. *)
  Theorem C108_files read' o bs : get_block_indices glob (no_multib o) (nodes_name o) = Ok bs ->
    (forall b, In b bs -> read (replace "*" (show_Z b) (nodes_name o)) = read' (replace "*" (show_Z b) (nodes_name o))) ->
    draws o = gk_nodes read' read_psi read_wall py_float glob colours o.
  Proof.
    intros Eb H. unfold gk_nodes. rewrite Eb. cbn [bind].
    assert (L : forall b, In b bs -> load_nodes read (nodes_name o) b = load_nodes read' (nodes_name o) b) by (intros b Hb; unfold load_nodes; now rewrite H).
    assert (E : forall e, extents read (nodes_name o) bs e = extents read' (nodes_name o) bs e).
    { clear H Eb. revert L. induction bs as [|b l IH]; intros L e; [reflexivity|]. cbn [extents]. unfold one_extent. destruct e as (((r0, r1), z0), z1). rewrite (L b (or_introl eq_refl)).
      destruct (load_nodes read' (nodes_name o) b) as [((c, r), z)|]; [|reflexivity]. cbn [bind]. destruct (amin (flat r)); [|reflexivity]. cbn [bind]. destruct (amax (flat r)); [|reflexivity]. cbn [bind]. destruct (amin (flat z)); [|reflexivity]. cbn [bind]. destruct (amax (flat z)); [|reflexivity]. cbn [bind]. apply IH. intros b' Hb'. apply L. now right. }
    rewrite E. assert (D : forall sv k, draw_blocks read colours o (nodes_name o) sv k bs = draw_blocks read' colours o (nodes_name o) sv k bs).
    { intros sv. clear H Eb E. revert L. induction bs as [|b l IH]; intros L k; [reflexivity|]. cbn [draw_blocks]. unfold draw_block. rewrite (L b (or_introl eq_refl)). rewrite IH by (intros b' Hb'; apply L; now right). reflexivity. }
    rewrite D. reflexivity.
  Qed.

  (** ** Size of the figure *)

  (** Without shifts a length along the radius and one along the height are drawn at the
      same scale, and beside the axes there is room for the colour bar. *)
  Theorem C108_scale o r0 r1 z0 z1 w h ax cax : (r0 <= r1)%R -> (z0 < z1)%R -> no_indent o = 0%R -> no_add o = 0%R -> layout o (r0, r1, z0, z1) = (w, h, ax, cax) ->
    ((w * b_width ax) / (r1 - r0) = (h * b_height ax) / (z1 - z0) \/ r0 = r1)%R /\
    (b_left ax + b_width ax = 0.82 /\ b_left cax = 0.83 /\ b_left cax + b_width cax = 0.85)%R /\
    (b_bottom ax = 0.08 /\ b_bottom ax + b_height ax = 0.96 /\ b_bottom cax = b_bottom ax /\ b_height cax = b_height ax)%R.
  Proof.
    intros Hr Hz Ei Ea H. unfold layout in H. rewrite Ei, Ea in H. injection H as <- <- <- <-. cbn [b_left b_width b_bottom b_height].
    set (a := ((r1 - r0) / (z1 - z0))%R). assert (Pa : (0 <= a)%R) by (apply Rmult_le_pos; [lra|]; left; apply Rinv_0_lt_compat; lra). assert (Pd : (0 < 8.36 * a + 2.5)%R) by lra.
    split; [|split; [lra|lra]]. destruct (Req_dec r0 r1) as [E|N]; [now right|]. left. rewrite Rplus_0_r. replace ((8.36 * a + 2.5) * (8.36 * a / (8.36 * a + 2.5)))%R with (8.36 * a)%R by (field; lra). replace ((8.36 + 1.14) * 0.88)%R with 8.36%R by lra. unfold a. field. lra.
  Qed.

  (** The axes stay inside the figure only up to a width of about 1.36 heights. *)
  Theorem C108_left_edge o r0 r1 z0 z1 w h ax cax : (r0 <= r1)%R -> (z0 < z1)%R -> no_indent o = 0%R -> no_add o = 0%R -> layout o (r0, r1, z0, z1) = (w, h, ax, cax) ->
    ((0 <= b_left ax)%R <-> (1.5048 * (r1 - r0) <= 2.05 * (z1 - z0))%R).
  Proof.
    intros Hr Hz Ei Ea H. unfold layout in H. rewrite Ei, Ea in H. injection H as _ _ <- _. cbn [b_left].
    assert (Ir : ((r1 - r0) / (z1 - z0) * (z1 - z0) = r1 - r0)%R) by (field; lra). assert (Pa : (0 <= (r1 - r0) / (z1 - z0))%R) by (apply Rmult_le_pos; [lra|]; left; apply Rinv_0_lt_compat; lra). revert Ir Pa. generalize ((r1 - r0) / (z1 - z0))%R. intros a Ir Pa.
    assert (Pd : (0 < 8.36 * a + 2.5)%R) by lra. assert (Iw : (8.36 * a / (8.36 * a + 2.5) * (8.36 * a + 2.5) = 8.36 * a)%R) by (field; lra). revert Iw. generalize (8.36 * a / (8.36 * a + 2.5))%R. intros u Iw. rewrite <- Ir.
    assert (Q : (0 <= 0.82 - u)%R <-> (1.5048 * a <= 2.05)%R) by (split; intros Hq; nra). rewrite Rplus_0_r. rewrite Q. split; intros Hq; nra.
  Qed.

  (** ** The poloidal flux *)

  Theorem C108_psi o f gx gy v nx ny : read_psi (in_path o f) = Ok ([gx; gy], v) -> shape v = [nx; ny] -> wf v -> 2 <= length gx -> 2 <= length gy ->
    (forall s, some_text (no_clevels o) s -> has_char ":" s = false) ->
    exists a l d, draw_psi read_psi o f = Ok (a :: l, [d]) /\ nd_tag d = "psi" /\ nd_values d = match a with Contour _ _ w _ | Mesh _ _ w => w | _ => v end /\
      (no_contour o = false -> exists w, a = Mesh gx gy w /\ l = [Colorbar] /\ shape w = [ny; nx] /\ forall i j, i < nx -> j < ny -> get w [j; i] = get v [i; j]) /\
      (no_contour o = true -> exists x y w n, a = Contour x y w n /\ shape w = [ny; nx] /\ (forall i j, i < nx -> j < ny -> get w [j; i] = get v [i; j]) /\
         (length x = length gx - 1 /\ forall i, i < length x -> (nth i x 0 = (nth i gx 0 + nth (S i) gx 0) / 2)%R) /\
         (length y = length gy - 1 /\ forall i, i < length y -> (nth i y 0 = (nth i gy 0 + nth (S i) gy 0) / 2)%R) /\
         (l = [] <-> exists t, n = Texts [t])).
  Proof.
    intros Er Es W Lx Ly Hl. unfold draw_psi. rewrite Er. cbn [bind List.map].
    assert (Vt : shape (transpose 0%R v) = [ny; nx] /\ forall i j, i < nx -> j < ny -> get (transpose 0%R v) [j; i] = get v [i; j]).
    { split; [unfold transpose; cbn [shape tabulate]; now rewrite Es|]. intros i j Hi Hj. unfold transpose. rewrite get_tabulate by (rewrite Es; repeat (apply Forall2_cons; [assumption|]); apply Forall2_nil). cbn [rev app]. destruct (get_in v [i; j] W) as (x & ->); [rewrite Es; repeat (apply Forall2_cons; [assumption|]); apply Forall2_nil|]. reflexivity. }
    assert (M : forall g, 2 <= length g -> length (mids g) = length g - 1 /\ forall i, i < length (mids g) -> (nth i (mids g) 0 = (nth i g 0 + nth (S i) g 0) / 2)%R).
    { intros g Hg. unfold mids. assert (A : forall g : list R, 1 <= length g -> length (map2 (fun a b : R => (0.5 * (a + b))%R) (removelast g) (tl g)) = length g - 1 /\ forall i, i < length g - 1 -> (nth i (map2 (fun a b : R => (0.5 * (a + b))%R) (removelast g) (tl g)) 0 = (nth i g 0 + nth (S i) g 0) / 2)%R).
      { clear. induction g as [|a g IH]; intros L; [cbn in L; lia|]. destruct g as [|b g]; [split; [reflexivity|intros i Hi; cbn in Hi; lia]|]. destruct (IH ltac:(cbn; lia)) as (I1 & I2). change (removelast (a :: b :: g)) with (a :: removelast (b :: g)). cbn [tl]. cbn [tl] in I1, I2.
        destruct g as [|c g].
        - cbn [removelast map2 length]. split; [reflexivity|]. intros [|i] Hi; [cbn [nth]; lra|cbn in Hi; lia].
        - cbn [map2]. change (map2 (fun a b : R => (0.5 * (a + b))%R) (removelast (b :: c :: g)) (c :: g)) with (map2 (fun a b : R => (0.5 * (a + b))%R) (removelast (b :: c :: g)) (c :: g)). split; [cbn [length] in *; rewrite I1; lia|].
          intros [|i] Hi; [cbn [nth]; lra|]. cbn [nth]. rewrite I2 by (cbn [length] in *; lia). reflexivity. }
      destruct (A g ltac:(lia)) as (A1 & A2). split; [exact A1|]. intros i Hi. apply A2. lia. }
    assert (Pushed : forall x y : list R, x <> [] -> y <> [] -> exists d, push "psi" [mk_nda [length x] x; mk_nda [length y] y] (transpose 0%R v) = Ok d /\ nd_tag d = "psi" /\ nd_values d = transpose 0%R v).
    { intros x y Nx Ny. destruct (push_ok "psi" [mk_nda [length x] x; mk_nda [length y] y] (transpose 0%R v) nx [ny]) as (d & E & T & _ & V & _); [now rewrite (proj1 Vt)|cbn; lia|repeat constructor; assumption|]. exists d. auto. }
    destruct (no_contour o) eqn:Ec.
    - assert (Lv : exists n, psi_levels o = Ok n). { unfold psi_levels. destruct (Nodes_Model.given (no_clevels o)) as [s|] eqn:Eg; [|eexists; reflexivity]. apply given_some in Eg. rewrite (Hl s Eg). eexists. reflexivity. }
      destruct Lv as (n & ->). cbn [bind two]. destruct (M gx Lx) as (X1 & X2). destruct (M gy Ly) as (Y1 & Y2).
      destruct (Pushed (mids gx) (mids gy)) as (d & -> & T & V); [intros E0; rewrite E0 in X1; cbn in X1; lia|intros E0; rewrite E0 in Y1; cbn in Y1; lia|]. cbn [bind]. eexists _, _, d. split; [reflexivity|]. split; [exact T|]. split; [exact V|]. split; [discriminate|].
      intros _. eexists _, _, _, n. split; [reflexivity|]. split; [apply Vt|]. split; [apply Vt|]. split; [auto|]. split; [auto|]. unfold single. destruct n as [|[|t [|]]]; split; try (intros E0; discriminate E0); try (intros (t' & E0); discriminate E0); [intros _; eauto|reflexivity].
    - cbn [two bind]. destruct (Pushed gx gy) as (d & -> & T & V); [intros ->; cbn in Lx; lia|intros ->; cbn in Ly; lia|]. cbn [bind]. eexists _, _, d. split; [reflexivity|]. split; [exact T|]. split; [exact V|]. split; [|discriminate]. intros _. eexists. split; [reflexivity|]. split; [reflexivity|]. exact Vt.
  Qed.

  (** The levels: the texts between commas, empty ones left out, or a number of levels. *)
  Theorem C108_levels o : 
    (forall n s, no_clevels o = n -> some_text n s -> has_char ":" s = false -> psi_levels o = Ok (Texts (List.filter (fun t => negb (String.eqb t "")) (split_on "," s)))) /\
    ((forall s, ~ some_text (no_clevels o) s) -> psi_levels o = Ok (Number (no_cnlevels o))).
  Proof.
    unfold psi_levels. split.
    - intros n s <- Hs Hc. apply given_some in Hs. now rewrite Hs, Hc.
    - intros N. destruct (Nodes_Model.given (no_clevels o)) as [s|] eqn:E; [elim (N s); now apply given_some|reflexivity].
  Qed.

  (** Levels as start:end:number, which the help offers, always fail. *)
  Theorem C108_range_of_levels o f s g v : some_text (no_clevels o) s -> has_char ":" s = true -> no_contour o = true -> some_text (no_psi o) f -> read_psi (in_path o f) = Ok (g, v) ->
    forall fig, draws o <> Ok fig.
  Proof.
    intros Hs Hc Hk Hf Hr fig H. unfold gk_nodes in H. apply bind_ok in H as (bs & _ & H). apply bind_ok in H as (e & _ & H). destruct (layout o e) as (((w, h), ax), cax). apply bind_ok in H as ((a, d) & _ & H). apply bind_ok in H as ((pa, pd) & Ep & H).
    apply given_some in Hf. rewrite Hf in Ep. unfold draw_psi in Ep. rewrite Hr, Hk in Ep. cbn [bind] in Ep. apply bind_ok in Ep as (l & El & _). unfold psi_levels in El. apply given_some in Hs. rewrite Hs, Hc in El. discriminate El.
  Qed.

  (** Limits need two numbers. *)
  Theorem C108_limits l s : some_text l s -> 
    (forall a b rest x y, split_on "," s = a :: b :: rest -> py_float a = Ok x -> py_float b = Ok y -> limits py_float l = Ok (Some (x, y))) /\
    (has_char "," s = false -> forall r, limits py_float l <> Ok r).
  Proof.
    intros Hs. apply given_some in Hs. unfold limits. rewrite Hs. split.
    - intros a b rest x y E Ea Eb. rewrite E, Ea, Eb. reflexivity.
    - intros Hc r. rewrite (split_on_none "," s Hc). intros H. apply bind_ok in H as (? & _ & H). discriminate H.
  Qed.

  (** The bounds of the dataset of nodes are only those of its first line, and it has
      one axis: the second is counted as components. *)
  Theorem C108_bounds o file several k f cells b a d : read (replace "*" (show_Z b) file) = Ok f -> node_grid f cells -> 2 <= length cells ->
    draw_block read colours o file several k b = Ok (a, d) ->
    exists d' e lo up, d = d' ++ [e] /\ length (nd_cells e) = 1 /\ nd_lower e = [lo] /\ nd_upper e = [up] /\
      (exists i z, node cells (0 :: i) /\ place f (0 :: i) lo z) /\ (exists i z, node cells (0 :: i) /\ place f (0 :: i) up z) /\
      forall i r z, node cells (0 :: i) -> place f (0 :: i) r z -> (lo <= r <= up)%R.
  Proof.
    intros Rd NG L2. pose proof NG as [L Hs _ _]. destruct (load_ok read file f cells b Rd NG) as (r & z & fr & fz & El & (Wr & Sr & Vr) & (Wz & Sz & Vz) & Hp).
    unfold draw_block. rewrite El. cbn [bind]. destruct (2 <? length (shape r)); [discriminate|]. destruct (Nat.eqb_spec (length cells) 1); [lia|].
    intros H. apply bind_ok in H as (sx & _ & H). apply bind_ok in H as (sy & _ & H). apply bind_ok in H as (e0 & _ & H). apply bind_ok in H as (e & He & H). injection H as <- <-. exists [e0], e.
    assert (Epl : exists n1 n2, plane cells = [n1; n2] /\ 2 <= n1 /\ 2 <= n2).
    { destruct cells as [|c1 [|c2 [|c3 [|]]]]; cbn in L, L2; try lia; pose proof (Forall_inv Hs) as H1; cbv beta in H1; pose proof (Forall_inv (Forall_inv_tail Hs)) as H2; cbv beta in H2; [exists c1, c2; auto|]. pose proof (Forall_inv (Forall_inv_tail (Forall_inv_tail Hs))) as H3. cbv beta in H3. exists c1, c3. auto. }
    destruct Epl as (n1 & n2 & Epl & N1 & N2). rewrite Epl in *.
    assert (Frow : forall x, In x (firstn (prod [n2]) (flat r)) <-> exists i y, node cells (0 :: i) /\ place f (0 :: i) x y).
    { assert (Row : forall j, j < n2 -> nth_error (firstn (prod [n2]) (flat r)) j = Some (fr [0; j])).
      { intros j Hj. assert (R0 : in_range [n1; n2] [0; j]) by (repeat (apply Forall2_cons; [lia|]); apply Forall2_nil). pose proof (Vr _ R0) as E. unfold get in E. rewrite Sr in E. cbn [ravel] in E. replace (0 <? n1) with true in E by (symmetry; apply Nat.ltb_lt; lia). destruct (Nat.ltb_spec j n2); [|lia]. cbn [option_map] in E. change (prod []) with 1 in E. change (0 * prod [n2]) with 0 in E. rewrite Nat.mul_1_r, Nat.add_0_r, Nat.add_0_l in E.
        rewrite <- E. replace (prod [n2]) with n2 by (unfold prod; cbn; lia). clear -Hj. revert n2 Hj. generalize (flat r). induction j as [|j IH]; intros l n2 Hj; destruct n2, l; try lia; try reflexivity. cbn. apply IH. lia. }
      intros x. split.
      - intros Hx. apply In_nth_error in Hx as (j & Hj). assert (Lj : j < n2). { assert (K : nth_error (firstn (prod [n2]) (flat r)) j <> None) by now rewrite Hj. apply nth_error_Some in K. rewrite firstn_length in K. unfold prod in K. cbn in K. lia. }
        rewrite (Row j Lj) in Hj. injection Hj as <-. assert (R0 : in_range [n1; n2] [0; j]) by (repeat (apply Forall2_cons; [lia|]); apply Forall2_nil).
        assert (Pl := Hp _ R0). assert (Hn : node cells (lift cells [0; j])) by (apply lift_node; [exact L|exact Hs|now rewrite Epl]). destruct cells as [|c1 [|c2 [|c3 [|]]]]; cbn in L, L2; try lia; cbn [lift] in *; [exists [j], (fz [0; j])|exists [0; j], (fz [0; j])]; auto.
      - intros (i & y & Hn & Pl). destruct (node_lift cells (0 :: i) L Hn) as (p & Rp & Ep). rewrite Epl in Rp. inversion Rp as [|i0 ? p1 ? Hi H1]; subst. inversion H1 as [|j ? p2 ? Hj H2]; subst. inversion H2; subst.
        assert (i0 = 0) as -> by (destruct cells as [|c1 [|c2 [|c3 [|]]]]; cbn in L, L2; try lia; cbn [lift] in Ep; congruence). rewrite <- Ep in Pl. destruct (place_fun _ _ _ _ _ _ (Hp _ Rp) Pl) as (<- & _). eapply nth_error_In. now apply Row. }
    unfold push in He. rewrite Sz in He. cbn [rev app length seq mapM bind] in He. unfold rows in He. rewrite Sr in He. destruct n1 as [|n1]; [lia|]. cbn [seq List.map nth_error flat Nat.mul skipn] in He.
    assert (Ne : firstn (prod [n2]) (flat r) <> []). { intros E0. apply (f_equal (@length R)) in E0. rewrite firstn_length in E0. unfold wf in Wr. rewrite Wr, Sr in E0. unfold prod in E0. cbn in E0. nia. }
    destruct (amin_ok _ Ne) as (lo & E1 & I1 & M1). destruct (amax_ok _ Ne) as (up & E2 & I2 & M2). rewrite E1 in He. cbn [bind] in He. rewrite E2 in He. cbn [bind] in He. injection He as <-. exists lo, up. split; [reflexivity|]. cbn [nd_cells nd_lower nd_upper length]. split; [reflexivity|]. split; [reflexivity|]. split; [reflexivity|].
    split; [now apply Frow|]. split; [now apply Frow|]. intros i x y Hn Pl. split; [apply M1|apply M2]; apply Frow; eauto.
  Qed.
End Figure.

(** ** Examples: a block of two by two nodes and one in three dimensions *)

Definition square : node_file := mk_nf (mk_nda [2; 2; 3] [1; 5; 0; 2; 5; 0; 0; 6; 0; 3; 7; 0]%R) (Some 1%Z).
Definition cube : node_file := mk_nf (mk_nda [2; 2; 2; 3] [3; 4; 1; 0; 0; 0; 6; 8; 1; 0; 0; 0; 3; 4; 2; 0; 0; 0; 6; 8; 2; 0; 0; 0]%R) None.
Example square_grid : node_grid square [2; 2].
Proof. split; [cbn; lia|repeat constructor|reflexivity|]. exists 3. split; [reflexivity|]. split; [lia|]. intros _. lia. Qed.
Example cube_grid : node_grid cube [2; 2; 2].
Proof. split; [cbn; lia|repeat constructor|reflexivity|]. exists 3. split; [reflexivity|]. split; [lia|]. intros _. lia. Qed.
Example square_place : node [2; 2] [1; 0] /\ place square [1; 0] 0 6.
Proof. split; [split; [repeat (apply Forall2_cons; [lia|]); apply Forall2_nil|discriminate]|]. apply Cylindrical; [intros [H|H]; discriminate H|reflexivity|reflexivity]. Qed.
Example cube_place : node [2; 2; 2] [0; 0; 0] /\ place cube [0; 0; 0] 5 1.
Proof. split; [split; [repeat (apply Forall2_cons; [lia|]); apply Forall2_nil|reflexivity]|]. eapply Cartesian; [now left|reflexivity|reflexivity|reflexivity|lra|lra]. Qed.

Definition two_blocks (f : string) : res node_file :=
  if String.eqb f "run//sim_b0-nodes.gkyl" then Ok square else if String.eqb f "run//sim_b1-nodes.gkyl" then Ok cube else Err OSError.
Definition all_blocks : nodes_options := mk_no "sim" "run/" "-1" None None None false None 11 None None 0 0 false.
Definition count2 (f : string) : nat := if String.eqb f "run//sim_b*-nodes.gkyl" then 2 else 0.

Example two_blocks_good : exists bs, get_block_indices count2 (no_multib all_blocks) (nodes_name all_blocks) = Ok bs /\ Forall2 (good two_blocks (nodes_name all_blocks)) bs [(square, [2; 2]); (cube, [2; 2; 2])].
Proof. eexists. split; [reflexivity|]. constructor; [split; [reflexivity|exact square_grid]|]. constructor; [split; [reflexivity|exact cube_grid]|]. constructor. Qed.

Example two_blocks_figure read_psi read_wall py_float colours : exists fig, gk_nodes two_blocks read_psi read_wall py_float count2 colours all_blocks = Ok fig /\
  List.map nd_tag (fg_data fig) = ["edges_b0"; "nodes_b0"; "edges_b1"; "nodes_b1"] /\ (exists x, In x (fg_artists fig) /\ joined x (1, 5)%R (0, 6)%R) /\ exists x, In x (fg_artists fig) /\ joined x (5, 1)%R (5, 2)%R.
Proof.
  destruct two_blocks_good as (bs & Eb & Hg). destruct (C108_succeeds two_blocks read_psi read_wall py_float count2 colours all_blocks bs _ Eb Hg eq_refl eq_refl eq_refl eq_refl) as (fig & E). exists fig. split; [exact E|].
  destruct (C108_figure _ _ _ _ _ _ _ _ _ _ Eb Hg E) as (_ & J & _ & T & _). assert (bs = [0%Z; 1%Z]) as -> by (vm_compute in Eb; congruence). split; [apply T; intros psi (H & _); discriminate H|]. split; apply J.
  - exists square, [2; 2], [0; 0], [1; 0]. split; [now left|]. split; [split; [repeat (apply Forall2_cons; [lia|]); apply Forall2_nil|discriminate]|]. split; [apply square_place|]. split; [apply next2; now left|]. split; [|apply square_place]. apply Cylindrical; [intros [H|H]; discriminate H|reflexivity|reflexivity].
  - exists cube, [2; 2; 2], [0; 0; 0], [1; 0; 0]. split; [right; now left|]. split; [apply cube_place|]. split; [split; [repeat (apply Forall2_cons; [lia|]); apply Forall2_nil|reflexivity]|]. split; [apply next3; now left|]. split; [apply cube_place|]. eapply Cartesian; [now left|reflexivity|reflexivity|reflexivity|cbn; lra|cbn; lra].
Qed.

(** A node of the first block lies outside the bounds of its dataset. *)
Theorem C108_bounds_refuted : exists read file cells f r z idx a d' e lo,
  read (replace "*" "0" file) = Ok f /\ node_grid f cells /\ draw_block read [] all_blocks file false 0 0 = Ok (a, d' ++ [e]) /\
  node cells idx /\ place f idx r z /\ nd_lower e = [lo] /\ (r < lo)%R.
Proof.
  exists two_blocks, "run//sim_b*-nodes.gkyl", [2; 2], square, 0%R, 6%R, [1; 0].
  destruct (C108_block two_blocks "run//sim_b*-nodes.gkyl" [] all_blocks false 0 square [2; 2] 0 eq_refl square_grid) as (a & d & E & _).
  destruct (C108_bounds two_blocks [] all_blocks "run//sim_b*-nodes.gkyl" false 0 square [2; 2] 0 a d eq_refl square_grid ltac:(cbn; lia) E) as (d' & e & lo & up & -> & _ & El & _ & (i & z & Hn & Pl) & _).
  exists a, d', e, lo. split; [reflexivity|]. split; [exact square_grid|]. split; [exact E|]. split; [apply square_place|]. split; [apply square_place|]. split; [exact El|].
  destruct Hn as (Hr & _). inversion Hr as [|? ? ? ? _ H1]; subst. inversion H1 as [|j ? q ? Hj H2]; subst. inversion H2; subst. inversion Pl as [? ? ? ? C|? ? _ E0 _]; subst; [destruct C as [C|C]; discriminate C|]. destruct j as [|[|]]; [| |lia]; cbn in E0; injection E0 as <-; lra.
Qed.

Print Assumptions C108_figure.
Print Assumptions C108_extent.
Print Assumptions C108_rest.
Print Assumptions C108_scale.
Print Assumptions C108_left_edge.
Print Assumptions C108_psi.
Print Assumptions C108_bounds_refuted.
