(** * Lemmas on labels of components and on what a panel shows *)
From Coq Require Import String Ascii List Arith ZArith QArith Lqa Lia Bool.
From Verif Require Import Prelude PreludeFacts DataSpace_Proofs Write_Model Write_Props Label_Model Label_Spec Label_Proofs.
Import ListNotations.
Open Scope list_scope.

(** ** Labels *)

Lemma str_assoc a b c : ((a ++ b) ++ c = a ++ (b ++ c))%string.
Proof. induction a as [|x a IH]; simpl; [reflexivity|now rewrite IH]. Qed.

Lemma str_last c s : has_char c s = false -> s <> ""%string -> exists t b, s = (t ++ String b "")%string /\ b <> c.
Proof.
  induction s as [|a s IH]; [congruence|]. simpl. intros H _. apply orb_false_iff in H as [Ha H].
  destruct s as [|a' s].
  - exists ""%string, a. split; [reflexivity|]. intros ->. now rewrite Ascii.eqb_refl in Ha.
  - destruct (IH H ltac:(discriminate)) as (t & b & E & Hb). exists (String a t), b. split; [|exact Hb].
    simpl. now rewrite <- E.
Qed.

Lemma split_under s : exists us p, s = (us ++ p)%string /\
  Forall (eq "_"%char) (list_ascii_of_string us) /\ String.get 0 p <> Some "_"%char.
Proof.
  induction s as [|a s (us & p & -> & Hu & Hp)].
  - exists ""%string, ""%string. repeat split; [constructor|discriminate].
  - destruct (Ascii.eqb_spec a "_") as [->|Ha].
    + exists (String "_" us), p. repeat split; auto. constructor; auto.
    + exists ""%string, (String a (us ++ p))%string. repeat split; [constructor|]. simpl. congruence.
Qed.

Lemma lstrip_under us p : Forall (eq "_"%char) (list_ascii_of_string us) -> String.get 0 p <> Some "_"%char ->
  lstrip "_" (us ++ p) = p.
Proof.
  induction us as [|a us IH]; simpl; intros Hu Hp.
  - destruct p as [|b p]; [reflexivity|]. simpl in *. destruct (Ascii.eqb_spec b "_") as [->|]; [congruence|reflexivity].
  - inversion Hu as [|? ? Ha Hu']; subst. now rewrite Ascii.eqb_refl, IH.
Qed.

Lemma comp_label_is o n c : (0 < n)%nat -> is_label (l_prefix o) n c (comp_label o n c).
Proof.
  intros Hn. unfold comp_label. destruct (Nat.ltb_spec 1 n) as [H|H].
  - destruct (split_under (l_prefix o)) as (us & p & E & Hu & Hp).
    destruct (str_last "_" (show_Z (Z.of_nat c))) as (t & b & Et & Hb).
    { apply show_Z_has; [|discriminate]. unfold digit_char. simpl. intros K.
      repeat (destruct K as [K|K]; [discriminate|]). exact K. }
    { apply show_Z_nonempty. }
    pose proof (lab_several (l_prefix o) n c us p H E Hu Hp) as L.
    replace (strip "_" (l_prefix o ++ "_c" ++ show_Z (Z.of_nat c))) with
      (if (p =? "")%string then ("c" ++ show_Z (Z.of_nat c))%string else (p ++ "_c" ++ show_Z (Z.of_nat c))%string);
      [exact L|]. clear L. unfold strip. rewrite E.
    destruct (String.eqb_spec p "") as [->|Hne].
    + replace ((us ++ "") ++ "_c" ++ show_Z (Z.of_nat c))%string
        with ((us ++ "_") ++ ("c" ++ show_Z (Z.of_nat c)))%string by (now rewrite !str_assoc).
      rewrite lstrip_under.
      * rewrite Et. change ("c" ++ t ++ String b "")%string with ((String "c" t) ++ String b "")%string.
        symmetry. now apply rstrip_keeps.
      * clear - Hu. induction us as [|a us IH]; simpl in *; [repeat constructor|].
        inversion Hu; subst. constructor; auto.
      * simpl. discriminate.
    + rewrite str_assoc, lstrip_under; [|exact Hu|destruct p; [congruence|exact Hp]].
      rewrite Et. replace (p ++ "_c" ++ t ++ String b "")%string with ((p ++ "_c" ++ t) ++ String b "")%string
        by (now rewrite !str_assoc). symmetry. now apply rstrip_keeps.
  - assert (n = 1%nat) as -> by lia. now apply lab_one.
Qed.

Lemma app_cancel a b c : (a ++ b = a ++ c -> b = c)%string.
Proof. induction a as [|x a IH]; simpl; [auto|]. intros [= E]. auto. Qed.

Lemma show_Z_inj a b : show_Z a = show_Z b -> a = b.
Proof. intros E. pose proof (py_int_show_Z a) as Ha. rewrite E, py_int_show_Z in Ha. congruence. Qed.

Lemma comp_label_distinct o n c d : (1 < n)%nat -> comp_label o n c = comp_label o n d -> c = d.
Proof.
  intros Hn E. pose proof (comp_label_is o n c ltac:(lia)) as Lc. pose proof (comp_label_is o n d ltac:(lia)) as Ld.
  rewrite E in Lc. inversion Lc as [|us p _ Ep Hu Hp Q]; [lia|]. inversion Ld as [|us' p' _ Ep' Hu' Hp' Q']; [lia|].
  assert (p = p') as <-.
  { pose proof (lstrip_under us p Hu Hp) as A. pose proof (lstrip_under us' p' Hu' Hp') as B.
    rewrite <- Ep in A. rewrite <- Ep' in B. congruence. }
  destruct (p =? "")%string.
  - injection Q' as Q'. apply show_Z_inj in Q'. lia.
  - apply app_cancel in Q'. injection Q' as Q'. apply show_Z_inj in Q'. lia.
Qed.

Lemma c_label_is fmt3 o : is_bar_label fmt3 (l_clabel o) (l_zscale o)
  (match c_label fmt3 o with Some s => s | None => ""%string end).
Proof.
  unfold c_label. destruct (Qeq_bool (l_zscale o) 1) eqn:E.
  - apply Qeq_bool_iff in E. now apply bl_plain.
  - apply Qeq_bool_neq in E. unfold filled. destruct (l_clabel o) as [s|] eqn:L.
    + destruct (String.eqb_spec s "") as [->|Hs]; [apply bl_alone; auto|]. now apply (bl_both _ _ _ s).
    + apply bl_alone; auto.
Qed.

Section Comps.
  Context (fmt2 fmt3 : Q -> string) (pfloat : string -> option Q).
  Notation events := (label_events fmt2 fmt3 pfloat).
  Notation ev := (comp_ev fmt3 pfloat).
  Notation st0 o := (l_coloured o, l_colorbar o, l_legend o).

  (** ** From the figure to the events of one component *)

  Definition local {A} (f : event -> list A) (k : nat) : Prop :=
    (forall e j, on j e -> j <> k -> f e = []) /\ (forall e, ~ no_text e -> f e = []).

  Lemma labels_text o have num nax x y : Forall (fun e => ~ no_text e) (label_axes o have num nax x y).
  Proof.
    unfold label_axes. destruct have; [constructor|]. destruct (l_squeeze o).
    - destruct (l_title o); repeat (constructor; [simpl; tauto|]); constructor.
    - rewrite !Forall_app. assert (S : forall c s, (forall t, ~ no_text (c t)) -> Forall (fun e => ~ no_text e) (sup c s)).
      { intros c s Hc. unfold sup. destruct (filled s); repeat constructor. apply Hc. }
      split; [|split; [|split; [|split]]]; try (apply S; simpl; tauto).
      + apply Forall_forall. intros e He. apply in_map_iff in He as (j & <- & _). simpl. tauto.
      + apply Forall_forall. intros e He. apply in_flat_map in He as (j & _ & He). unfold sub_labels in He.
        apply in_app_or in He as [He|He].
        * destruct He as [<-|[<-|[]]]; simpl; tauto.
        * destruct (filled (Some (sub_text _ _))); [|destruct He]. destruct He as [<-|[]]. simpl. tauto.
  Qed.

  Lemma text_none {A} (f : event -> list A) k l : local f k -> Forall (fun e => ~ no_text e) l -> flat_map f l = [].
  Proof. intros [_ H2] H. apply fm_nil. eapply Forall_impl; [|exact H]. auto. Qed.

  Lemma other_none {A} (f : event -> list A) k j l : local f k -> j <> k -> Forall (on j) l -> flat_map f l = [].
  Proof. intros [H1 _] Hj H. apply fm_nil. eapply Forall_impl; [|exact H]. eauto. Qed.

  Lemma split_view o nd n axes lines have num nax evs :
    events o nd n axes lines have num nax = Ok evs ->
    exists ess, Forall2 (fun c e => ev o nd n axes lines c (st0 o) = Ok e) (seq 0 n) ess /\
      forall A (f : event -> list A) k, local f k -> flat_map f evs = flat_map (flat_map f) ess.
  Proof.
    intros H. apply events_parts in H as (x & y & r & _ & _ & Hr & ->).
    apply loop_comps in Hr as (ess & F & ->). exists ess. split; [exact F|]. intros A f k L.
    rewrite flat_map_app, (text_none f k) by (auto using labels_text). simpl.
    clear. induction ess as [|a ess IH]; [reflexivity|]. simpl. now rewrite flat_map_app, IH.
  Qed.

  Lemma panel_view o nd n axes lines have num nax evs c :
    events o nd n axes lines have num nax = Ok evs -> l_squeeze o = false -> (c < n)%nat ->
    exists e, ev o nd n axes lines c (st0 o) = Ok e /\
      forall A (f : event -> list A), local f (c + l_start o)%nat -> flat_map f evs = flat_map f e.
  Proof.
    intros H Q Hc. apply split_view in H as (ess & F & V).
    assert (G : forall s m, Forall2 (fun c e => ev o nd n axes lines c (st0 o) = Ok e) (seq s m) ess ->
      (s <= c < s + m)%nat -> exists e, ev o nd n axes lines c (st0 o) = Ok e /\
        forall A (f : event -> list A), local f (c + l_start o)%nat -> flat_map (flat_map f) ess = flat_map f e).
    { clear F V. induction ess as [|e ess IH]; intros s m F Hsm.
      - destruct m; [lia|inversion F].
      - destruct m as [|m]; [lia|]. cbn [seq] in F. inversion F as [|? ? ? ? F1 F2]; subst.
        destruct (Nat.eq_dec s c) as [->|Hne].
        + exists e. split; [exact F1|]. intros A f L. cbn [flat_map].
          assert (T : flat_map (flat_map f) ess = []); [|now rewrite T, app_nil_r].
          clear - F2 L Q. assert (B : forall s m, (c < s)%nat ->
            Forall2 (fun c e => ev o nd n axes lines c (st0 o) = Ok e) (seq s m) ess -> flat_map (flat_map f) ess = []).
          { clear - L Q. induction ess as [|a ess IH]; [reflexivity|]. intros s m Hs F. destruct m; [inversion F|].
            cbn [seq] in F. inversion F as [|? ? ? ? F1 F2]; subst. cbn [flat_map]. rewrite (IH _ _ (Nat.lt_lt_succ_r _ _ Hs) F2), app_nil_r.
            apply comp_ev_on in F1. unfold panel_of in F1. rewrite Q in F1.
            apply (other_none f (c + l_start o)%nat (s + l_start o)%nat); [exact L|lia|exact F1]. }
          apply (B _ _ (Nat.lt_succ_diag_r c) F2).
        + destruct (IH _ _ F2 ltac:(lia)) as (e' & E' & V). exists e'. split; [exact E'|]. intros A f L.
          cbn [flat_map]. rewrite V by exact L.
          apply comp_ev_on in F1. unfold panel_of in F1. rewrite Q in F1.
          rewrite (other_none f (c + l_start o)%nat (s + l_start o)%nat); [reflexivity|exact L|lia|exact F1]. }
    destruct (G _ _ F ltac:(lia)) as (e & E & V'). exists e. split; [exact E|]. intros A f L.
    rewrite (V A f _ L). now apply V'.
  Qed.

  Lemma local_all k :
    local (fun e => match e with Line j s => if (j =? k)%nat then [s] else [] | _ => [] end) k /\
    local (fun e => match e with Contour j s => if (j =? k)%nat then [s] else [] | _ => [] end) k /\
    local (fun e => match e with Bar j s => if (j =? k)%nat then [s] else [] | _ => [] end) k /\
    local (fun e => match e with Text j s => if (j =? k)%nat then [s] else [] | _ => [] end) k /\
    local (fun e => match e with Legend j => if (j =? k)%nat then [tt] else [] | _ => [] end) k /\
    local (fun e => match e with Xlim j a b => if (j =? k)%nat then [(a, b)] else [] | _ => [] end) k /\
    local (fun e => match e with Ylim j a b => if (j =? k)%nat then [(a, b)] else [] | _ => [] end) k.
  Proof.
    repeat split; intros []; simpl; try reflexivity; try tauto; intros j -> Hj;
      destruct (Nat.eqb_spec j k); congruence.
  Qed.

  (** What the figure shows on a panel is what the component does there. *)
  Lemma panel_shows o nd n axes lines have num nax evs c :
    events o nd n axes lines have num nax = Ok evs -> l_squeeze o = false -> (c < n)%nat ->
    let k := (c + l_start o)%nat in
    exists e, ev o nd n axes lines c (st0 o) = Ok e /\
      lines_of k evs = lines_of k e /\ contours_of k evs = contours_of k e /\ bars_of k evs = bars_of k e /\
      texts_of k evs = texts_of k e /\ legends_of k evs = legends_of k e /\
      xlims_of k evs = xlims_of k e /\ ylims_of k evs = ylims_of k e.
  Proof.
    intros H Q Hc. cbv zeta. destruct (panel_view _ _ _ _ _ _ _ _ _ _ H Q Hc) as (e & E & V). exists e.
    destruct (local_all (c + l_start o)) as (L1 & L2 & L3 & L4 & L5 & L6 & L7).
    split; [exact E|]. unfold lines_of, contours_of, bars_of, texts_of, legends_of, xlims_of, ylims_of.
    rewrite (V _ _ L1), (V _ _ L2), (V _ _ L3), (V _ _ L4), (V _ _ L5), (V _ _ L6), (V _ _ L7). repeat split.
  Qed.

  Definition lims (a b : option Q) : list (option Q * option Q) :=
    match a, b with None, None => [] | _, _ => [(a, b)] end.

  Lemma format_shows o nd k label leg :
    let e := format_one o nd k label leg in
    lines_of k e = [] /\ contours_of k e = [] /\ bars_of k e = [] /\
    texts_of k e = (if leg && ((negb (nd =? 1)%nat) || (label =? "")%string) then [label] else []) /\
    legends_of k e = (if leg && (nd =? 1)%nat && negb (label =? "")%string then 1%nat else 0%nat) /\
    xlims_of k e = lims (l_xmin o) (l_xmax o) /\ ylims_of k e = lims (l_ymin o) (l_ymax o).
  Proof.
    cbv zeta. unfold format_one.
    repeat (rewrite ?lines_of_app, ?contours_of_app, ?bars_of_app, ?texts_of_app, ?legends_of_app, ?xlims_of_app, ?ylims_of_app).
    destruct (l_logx o), (l_logy o), (l_xmin o), (l_xmax o), (l_ymin o), (l_ymax o), leg, ((nd =? 1)%nat), ((label =? "")%string);
      unfold lines_of, contours_of, bars_of, texts_of, legends_of, xlims_of, ylims_of, lims;
      cbn [flat_map app andb orb negb length Nat.add]; rewrite ?Nat.eqb_refl; repeat split.
  Qed.
End Comps.
