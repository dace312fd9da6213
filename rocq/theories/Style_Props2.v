(** * C101 continued: the settings of a plot *)
From Coq Require Import String Ascii List Arith Bool Lia.
From Verif Require Import Prelude PreludeFacts Listing_Props Style_Model Style_Props.
Import ListNotations.
Open Scope list_scope.
Open Scope string_scope.

Section Plot.
  Context {A W : Type} (validate : string -> value A -> res W).
  Context (style_use : string -> @settings W -> res (@settings W)) (use_xkcd : @settings W -> @settings W).
  Context (default_path : string).

  (** ** Specification *)

  (** What the options of a plot ask for. *)
  Inductive asked (o : plot_options) : string -> string -> Prop :=
  | AskJet : o_jet o = true -> asked o "image.cmap" "jet"
  | AskMap : o_jet o = false -> o_cmap o <> "" -> asked o "image.cmap" (o_cmap o)
  | AskDiverging : o_jet o = false -> o_cmap o = "" -> o_diverging o = true -> asked o "image.cmap" "RdBu_r"
  | AskColor : o_color o <> "" -> asked o "lines.color" (o_color o)
  | AskWidth w : o_linewidth o = Some w -> asked o "lines.linewidth" w
  | AskLine : o_linestyle o <> "" -> asked o "lines.linestyle" (o_linestyle o).

  (** What a plot wants a key to be: what its options ask for, else what rcParams say. *)
  Definition wanted (d : dict A) (o : plot_options) (k : string) (v : value A) : Prop :=
    (exists s, asked o k s /\ v = Text s) \/ ((forall s, ~ asked o k s) /\ In (k, v) d).

  (** [rc'] has what is wanted, and is [rc] elsewhere. *)
  Definition follows (rc rc' : @settings W) (wants : string -> value A -> Prop) : Prop :=
    forall k, (forall v, wants k v -> exists w, validate k v = Ok w /\ rc' k = Some w) /\ ((forall v, ~ wants k v) -> rc' k = rc k).

  (** ** Proofs *)

  Lemma rc_set_ok rc k v rc' : rc_set validate rc k v = Ok rc' -> exists w, validate k v = Ok w /\ rc' k = Some w /\ forall k', k' <> k -> rc' k' = rc k'.
  Proof.
    intros H. apply bind_ok in H as (w & Hw & H). injection H as <-. exists w. split; [exact Hw|]. rewrite String.eqb_refl. split; [reflexivity|].
    intros k' Hk. apply String.eqb_neq in Hk. now rewrite Hk.
  Qed.

  Lemma rc_all_ok d : NoDup (List.map fst d) -> forall rc rc', rc_all validate rc d = Ok rc' -> follows rc rc' (fun k v => In (k, v) d).
  Proof.
    induction d as [|(a, x) d IH]; intros N rc rc' H.
    - injection H as <-. intros k. split; [intros v []|reflexivity].
    - cbn [rc_all] in H. apply bind_ok in H as (rc1 & H1 & H2). inversion N as [|? ? Na Nd]; subst. apply (IH Nd) in H2. apply rc_set_ok in H1 as (w & Hw & Ha & Ho).
      intros k. destruct (H2 k) as (F1 & F2). split.
      + intros v [E|Hv]; [|auto]. injection E as -> ->. exists w. split; [exact Hw|]. rewrite F2; [exact Ha|]. intros v' Hv'. apply Na. change k with (fst (k, v')). now apply in_map.
      + intros Hn. rewrite F2 by (intros v Hv; apply (Hn v); now right). apply Ho. intros ->. apply (Hn x). now left.
  Qed.

  Lemma rc_all_err d k v e : In (k, v) d -> validate k v = Err e -> forall rc, exists e', rc_all validate rc d = Err e'.
  Proof.
    intros Hin He. induction d as [|(a, x) d IH]; [destruct Hin|]. intros rc. cbn [rc_all]. destruct Hin as [E|Hin].
    - injection E as -> ->. unfold rc_set. rewrite He. cbn. now exists e.
    - destruct (rc_set validate rc a x) as [rc1|e1]; cbn; [now apply IH|now exists e1].
  Qed.

  (** One step: an option that sets a key. *)
  Lemma follows_step (rc rc1 rc2 : @settings W) wants k0 s (K : follows rc rc1 wants) : rc_set validate rc1 k0 (Text s) = Ok rc2 ->
    follows rc rc2 (fun k v => (k = k0 /\ v = Text s) \/ (k <> k0 /\ wants k v)).
  Proof.
    intros H. apply rc_set_ok in H as (w & Hw & Ha & Ho). intros k. destruct (string_dec k k0) as [->|N].
    - split; [intros v [(_ & ->)|(Nk & _)]; [now exists w|now elim Nk]|]. intros Hn. elim (Hn (Text s)). now left.
    - rewrite Ho by exact N. destruct (K k) as (K1 & K2). split; [intros v [(E & _)|(_ & Hv)]; [contradiction|auto]|]. intros Hn. apply K2. intros v Hv. apply (Hn v). now right.
  Qed.

  Lemma follows_ext rc rc' (w1 w2 : string -> value A -> Prop) : (forall k v, w1 k v <-> w2 k v) -> follows rc rc' w1 -> follows rc rc' w2.
  Proof.
    intros E F k. destruct (F k) as (F1 & F2). split; [intros v Hv; apply F1; now apply E|]. intros Hn. apply F2. intros v Hv. apply (Hn v). now apply E.
  Qed.

  (** What the options change after the settings the plot starts from. *)
  Lemma options_ok D o rc rc1 rc' (H1 : follows rc rc1 (fun k v => In (k, v) D)) :
    (let* rc2 := if negb (String.eqb (o_cmap o) "") then rc_set validate rc1 "image.cmap" (Text (o_cmap o))
      else if o_diverging o then rc_set validate rc1 "image.cmap" (Text "RdBu_r") else Ok rc1 in
     let* rc3 := if o_jet o then rc_set validate rc2 "image.cmap" (Text "jet") else Ok rc2 in
     let* rc4 := rc_if validate rc3 (o_color o) "lines.color" in
     let* rc5 := match o_linewidth o with Some w => rc_set validate rc4 "lines.linewidth" (Text w) | None => Ok rc4 end in
     rc_if validate rc5 (o_linestyle o) "lines.linestyle") = Ok rc' -> follows rc rc' (wanted D o).
  Proof.
    intros H.
    apply bind_ok in H as (rc2 & H2 & H). apply bind_ok in H as (rc3 & H3 & H).
    assert (K3 : follows rc rc3 (fun k v => (exists s, asked o k s /\ k = "image.cmap" /\ v = Text s) \/ ((k = "image.cmap" -> forall s, ~ asked o k s) /\ In (k, v) D))).
    { destruct (o_jet o) eqn:Ej.
      - assert (K2 : exists w2, follows rc rc2 w2 /\ forall k v, k <> "image.cmap" -> (w2 k v <-> In (k, v) D)).
        { destruct (negb (o_cmap o =? "")); [|destruct (o_diverging o); [|injection H2 as <-; exists (fun k v => In (k, v) D); split; [exact H1|reflexivity]]];
            (eexists; split; [exact (follows_step _ _ _ _ _ _ H1 H2)|]; cbn; intros k v Hk; intuition). }
        destruct K2 as (w2 & K2 & E2). apply (follows_step _ _ _ _ _ _ K2) in H3. apply (follows_ext _ _ _ _) with (2 := H3). intros k v. split.
        + intros [(-> & ->)|(Hk & Hv)]; [left; exists "jet"; auto using AskJet|]. right. split; [contradiction|now apply E2].
        + intros [(s & Ha & -> & ->)|(Hn & Hv)]; [left; split; [reflexivity|]; inversion Ha; subst; congruence|].
          destruct (string_dec k "image.cmap") as [->|Nk]; [elim (Hn eq_refl "jet"); now apply AskJet|right; split; [exact Nk|now apply E2]].
      - injection H3 as <-. destruct (String.eqb_spec (o_cmap o) "") as [Ec|Nc]; cbn [negb] in H2; [destruct (o_diverging o) eqn:Edv|].
        + apply (follows_step _ _ _ _ _ _ H1) in H2. apply (follows_ext _ _ _ _) with (2 := H2). intros k v. split.
          * intros [(-> & ->)|(Hk & Hv)]; [left; exists "RdBu_r"; auto using AskDiverging|]. right. split; [contradiction|exact Hv].
          * intros [(s & Ha & -> & ->)|(Hn & Hv)]; [left; split; [reflexivity|]; inversion Ha; subst; congruence|].
            destruct (string_dec k "image.cmap") as [->|Nk]; [elim (Hn eq_refl "RdBu_r"); now apply AskDiverging|now right].
        + injection H2 as <-. apply (follows_ext _ _ _ _) with (2 := H1). intros k v. split.
          * intros Hv. right. split; [|exact Hv]. intros -> s Ha. inversion Ha; subst; congruence.
          * intros [(s & Ha & -> & ->)|(_ & Hv)]; [|exact Hv]. inversion Ha; subst; congruence.
        + apply (follows_step _ _ _ _ _ _ H1) in H2. apply (follows_ext _ _ _ _) with (2 := H2). intros k v. split.
          * intros [(-> & ->)|(Hk & Hv)]; [left; exists (o_cmap o); auto using AskMap|]. right. split; [contradiction|exact Hv].
          * intros [(s & Ha & -> & ->)|(Hn & Hv)]; [left; split; [reflexivity|]; inversion Ha; subst; congruence|].
            destruct (string_dec k "image.cmap") as [->|Nk]; [elim (Hn eq_refl (o_cmap o)); now apply AskMap|now right]. }
    clear H1 H2 H3. apply bind_ok in H as (rc4 & H4 & H). apply bind_ok in H as (rc5 & H5 & H6).
    assert (K4 : follows rc rc4 (fun k v => (exists s, asked o k s /\ In k ["image.cmap"; "lines.color"] /\ v = Text s) \/ ((In k ["image.cmap"; "lines.color"] -> forall s, ~ asked o k s) /\ In (k, v) D))).
    { unfold rc_if in H4. destruct (String.eqb_spec (o_color o) "") as [Ec|Nc].
      - injection H4 as <-. apply (follows_ext _ _ _ _) with (2 := K3). intros k v. cbn [In]. split.
        + intros [(s & Ha & -> & ->)|(Hn & Hv)]; [left; eauto|]. right. split; [|exact Hv]. intros [<-|[<-|[]]]; [now apply Hn|]. intros s Ha. inversion Ha; subst; congruence.
        + intros [(s & Ha & [<-|[<-|[]]] & ->)|(Hn & Hv)]; [left; eauto|inversion Ha; subst; congruence|]. right. split; [|exact Hv]. intros ->. apply Hn. now left.
      - apply (follows_step _ _ _ _ _ _ K3) in H4. apply (follows_ext _ _ _ _) with (2 := H4). intros k v. cbn [In]. split.
        + intros [(-> & ->)|(Hk & [(s & Ha & -> & ->)|(Hn & Hv)])]; [left; exists (o_color o); auto using AskColor|left; eauto|]. right. split; [|exact Hv]. intros [<-|[<-|[]]]; [now apply Hn|now elim Hk].
        + intros [(s & Ha & [<-|[<-|[]]] & ->)|(Hn & Hv)].
          * right. split; [discriminate|]. left. eauto.
          * left. split; [reflexivity|]. inversion Ha; subst; congruence.
          * right. assert (Nk : k <> "lines.color") by (intros ->; apply (Hn (or_intror (or_introl eq_refl)) (o_color o)); now apply AskColor). split; [exact Nk|]. right. split; [intros ->; apply Hn; now left|exact Hv]. }
    assert (K5 : follows rc rc5 (fun k v => (exists s, asked o k s /\ In k ["image.cmap"; "lines.color"; "lines.linewidth"] /\ v = Text s) \/ ((In k ["image.cmap"; "lines.color"; "lines.linewidth"] -> forall s, ~ asked o k s) /\ In (k, v) D))).
    { destruct (o_linewidth o) as [w|] eqn:Ew.
      - apply (follows_step _ _ _ _ _ _ K4) in H5. apply (follows_ext _ _ _ _) with (2 := H5). intros k v. cbn [In]. split.
        + intros [(-> & ->)|(Hk & [(s & Ha & Hi & ->)|(Hn & Hv)])]; [left; exists w; split; [now apply AskWidth|auto]|left; exists s; cbn in Hi; tauto|].
          right. split; [|exact Hv]. cbn in Hn. intros [<-|[<-|[<-|[]]]]; [now apply Hn; left|now apply Hn; right; left|now elim Hk].
        + intros [(s & Ha & Hi & ->)|(Hn & Hv)].
          * destruct (string_dec k "lines.linewidth") as [->|Nk]; [left; split; [reflexivity|]; inversion Ha; subst; congruence|]. right. split; [exact Nk|]. left. exists s. cbn. split; [exact Ha|]. split; [|reflexivity]. intuition.
          * right. assert (Nk : k <> "lines.linewidth") by (intros ->; apply (Hn (or_intror (or_intror (or_introl eq_refl))) w); now apply AskWidth). split; [exact Nk|]. right. split; [|exact Hv]. cbn. intros Hi. apply Hn. tauto.
      - injection H5 as <-. apply (follows_ext _ _ _ _) with (2 := K4). intros k v. cbn [In]. split.
        + intros [(s & Ha & Hi & ->)|(Hn & Hv)]; [left; exists s; tauto|]. right. split; [|exact Hv]. intros [<-|[<-|[<-|[]]]]; [now apply Hn; left|now apply Hn; right; left|]. intros s Ha. inversion Ha; subst; congruence.
        + intros [(s & Ha & Hi & ->)|(Hn & Hv)]; [|right; split; [|exact Hv]; intros Hi; apply Hn; tauto].
          left. exists s. split; [exact Ha|]. split; [|reflexivity]. destruct Hi as [Hi|[Hi|[<-|[]]]]; auto. inversion Ha; subst; congruence. }
    unfold rc_if in H6. destruct (String.eqb_spec (o_linestyle o) "") as [Ec|Nc].
    - injection H6 as <-. apply (follows_ext _ _ _ _) with (2 := K5). intros k v. unfold wanted. split.
      + intros [(s & Ha & _ & ->)|(Hn & Hv)]; [left; eauto|]. right. split; [|exact Hv]. intros s Ha.
        assert (Hi : In k ["image.cmap"; "lines.color"; "lines.linewidth"]) by (inversion Ha; subst; cbn; auto; congruence). exact (Hn Hi s Ha).
      + intros [(s & Ha & ->)|(Hn & Hv)]; [left|right; auto]. exists s. split; [exact Ha|]. split; [|reflexivity]. inversion Ha; subst; cbn; auto; congruence.
    - apply (follows_step _ _ _ _ _ _ K5) in H6. apply (follows_ext _ _ _ _) with (2 := H6). intros k v. unfold wanted. split.
      + intros [(-> & ->)|(Hk & [(s & Ha & _ & ->)|(Hn & Hv)])]; [left; exists (o_linestyle o); auto using AskLine|left; eauto|]. right. split; [|exact Hv]. intros s Ha.
        assert (Hi : In k ["image.cmap"; "lines.color"; "lines.linewidth"]) by (inversion Ha; subst; cbn; auto; congruence). exact (Hn Hi s Ha).
      + intros [(s & Ha & ->)|(Hn & Hv)].
        * destruct (string_dec k "lines.linestyle") as [->|Nk]; [left; split; [reflexivity|]; inversion Ha; subst; congruence|]. right. split; [exact Nk|]. left. exists s. split; [exact Ha|]. split; [|reflexivity]. inversion Ha; subst; cbn; auto; congruence.
        * right. split; [intros ->; apply (Hn (o_linestyle o)); now apply AskLine|]. right. auto.
  Qed.

  (** After the settings of a plot without style file (and without xkcd), every key
      that the options or rcParams mention has the wanted value, options first, and
      all other keys are as before. *)
  Theorem C101_plot d o rc rc' : NoDup (List.map fst d) -> d <> [] -> o_style o = "" -> o_xkcd o = false ->
    plot_settings validate style_use use_xkcd default_path d o rc = Ok rc' -> follows rc rc' (wanted d o).
  Proof.
    intros N Nd Es Ex H. unfold plot_settings in H. rewrite Es, Ex in H. cbn [String.eqb negb] in H.
    apply bind_ok in H as (rc1 & H1 & H). destruct d as [|kv d]; [now elim Nd|]. exact (options_ok _ o rc rc1 rc' (rc_all_ok _ N _ _ H1) H).
  Qed.

  (** A plot starts from its style file if it has one, and from the default one if
      rcParams are empty; then only what its options ask for changes, and rcParams do
      not count. *)
  Theorem C101_style_file d o rc f : (f <> "" /\ o_style o = f \/ o_style o = "" /\ d = [] /\ f = default_path) -> o_xkcd o = false ->
    (forall e, style_use f rc = Err e -> plot_settings validate style_use use_xkcd default_path d o rc = Err e) /\
    (forall rc1 rc', style_use f rc = Ok rc1 -> plot_settings validate style_use use_xkcd default_path d o rc = Ok rc' -> follows rc1 rc' (wanted [] o)).
  Proof.
    intros Hf Ex.
    assert (E : exists g, plot_settings validate style_use use_xkcd default_path d o rc = (let* rc1 := style_use f rc in g rc1) /\
      forall rc1 rc', g rc1 = Ok rc' -> follows rc1 rc' (wanted [] o)).
    { unfold plot_settings. rewrite Ex. destruct Hf as [(Nf & <-)|(-> & -> & ->)].
      - apply String.eqb_neq in Nf. rewrite Nf. cbn [negb]. eexists. split; [reflexivity|]. cbv beta. intros rc1 rc' H. refine (options_ok [] o rc1 rc1 rc' _ H). intros k. split; [intros v []|reflexivity].
      - cbn [String.eqb negb]. eexists. split; [reflexivity|]. cbv beta. intros rc1 rc' H. refine (options_ok [] o rc1 rc1 rc' _ H). intros k. split; [intros v []|reflexivity]. }
    destruct E as (g & -> & Hg). split; [intros e ->; reflexivity|]. intros rc1 rc' -> H. cbn [bind] in H. now apply Hg.
  Qed.

  (** One bad entry of rcParams stops every plot that has no style file of its own. *)
  Theorem C101_bad_entry d o rc k v e : In (k, v) d -> validate k v = Err e -> o_style o = "" ->
    exists e', plot_settings validate style_use use_xkcd default_path d o rc = Err e'.
  Proof.
    intros Hin He Es. unfold plot_settings. rewrite Es. cbn [String.eqb negb]. destruct d as [|kv d]; [destruct Hin|].
    destruct (rc_all_err _ _ _ _ Hin He rc) as (e' & E). exists e'. rewrite E. reflexivity.
  Qed.

  (** What was plotted before does not matter for the keys that rcParams or the
      options mention. *)
  Theorem C101_reset d o rc1 rc2 r1 r2 k v : NoDup (List.map fst d) -> d <> [] -> o_style o = "" -> o_xkcd o = false ->
    plot_settings validate style_use use_xkcd default_path d o rc1 = Ok r1 -> plot_settings validate style_use use_xkcd default_path d o rc2 = Ok r2 ->
    wanted d o k v -> r1 k = r2 k.
  Proof.
    intros N Nd Es Ex H1 H2 Hw. destruct (C101_plot d o rc1 r1 N Nd Es Ex H1 k) as (F1 & _). destruct (C101_plot d o rc2 r2 N Nd Es Ex H2 k) as (F2 & _).
    destruct (F1 v Hw) as (w1 & E1 & ->). destruct (F2 v Hw) as (w2 & E2 & ->). congruence.
  Qed.
End Plot.

(** ** The style file of the package *)

Definition package_file : string := text
  ["figure.facecolor : white"; "lines.linewidth : 2"; "font.size : 12"; "axes.labelsize : large"; "axes.titlesize : 14"; "axes.xmargin : 0";
   "image.interpolation : none"; "image.cmap : inferno"; "image.origin : lower"; "grid.linewidth : 0.5"; "grid.linestyle : :"]
  "axes.prop_cycle : cycler('color', [(0, 0.4470, 0.7410), (0.8500, 0.3250, 0.0980), (0.9290, 0.6940, 0.1250), (0.4940, 0.1840, 0.5560), (0.4660, 0.6740, 0.1880), (0.3010, 0.7450, 0.9330), (0.6350, 0.0780, 0.1840)])".

Example C101_package_example : start (fun s => Ok s) None package_file =
  Ok [("figure.facecolor", Text "white"); ("lines.linewidth", Text "2"); ("font.size", Text "12"); ("axes.labelsize", Text "large"); ("axes.titlesize", Text "14"); ("axes.xmargin", Text "0");
      ("image.interpolation", Text "none"); ("image.cmap", Text "inferno"); ("image.origin", Text "lower"); ("grid.linewidth", Text "0.5"); ("grid.linestyle", Text ":");
      ("axes.prop_cycle", Cycle "[(0, 0.4470, 0.7410), (0.8500, 0.3250, 0.0980), (0.9290, 0.6940, 0.1250), (0.4940, 0.1840, 0.5560), (0.4660, 0.6740, 0.1880), (0.3010, 0.7450, 0.9330), (0.6350, 0.0780, 0.1840)]")].
Proof. reflexivity. Qed.

Definition no_options : plot_options :=
  {| o_style := ""; o_cmap := ""; o_diverging := false; o_jet := false; o_xkcd := false; o_color := ""; o_linewidth := None; o_linestyle := "" |}.

(** Options of one plot stay for later plots if rcParams say nothing about them:
    with the style file of the package, the line style does. *)
Theorem C101_later_plots_refuted : exists d rc1 rc2,
  start (fun s => Ok s) None package_file = Ok d /\
  let plot := plot_settings (fun _ (v : value string) => Ok v) (fun _ rc => Ok rc) (fun rc => rc) "" d in
  plot {| o_style := ""; o_cmap := ""; o_diverging := false; o_jet := false; o_xkcd := false; o_color := ""; o_linewidth := None; o_linestyle := "dashed" |} (fun _ => None) = Ok rc1 /\
  plot no_options rc1 = Ok rc2 /\ rc2 "lines.linestyle" = Some (Text "dashed").
Proof. eexists _, _, _. split; [reflexivity|]. cbn zeta. split; [reflexivity|]. split; reflexivity. Qed.

(** A comment or a blank line, which style files may have, becomes a key; as it is
    no setting of Matplotlib, every plot fails. *)
Theorem C101_comments_refuted : exists file d,
  load_style (fun _ => Err ValueError) [] file = Ok d /\ In ("lines.linewidth", Text "3") d /\
  forall (validate : string -> value unit -> res unit), validate "# thick lines" (Text "") = Err KeyError ->
  forall use xkcd path rc o, o_style o = "" -> exists e, plot_settings validate use xkcd path d o rc = Err e.
Proof.
  exists (text ["# thick lines"; "lines.linewidth : 3"] ""). eexists. split; [reflexivity|]. split; [right; now left|].
  intros validate H use xkcd path rc o Es. eapply C101_bad_entry; [now left|exact H|exact Es].
Qed.

(** Only the exact spelling [cycler('color', ...)] is understood: without the blank
    the evaluated text lacks its first character, with [color=] it lacks three. *)
Theorem C101_spelling_refuted : exists without_blank with_name,
  spells without_blank "axes.prop_cycle" "cycler('color',['r', 'g'])" /\ spells with_name "axes.prop_cycle" "cycler(color=['r', 'g'])" /\
  forall (A : Type) (eval : string -> res A) d, 
    load_line eval d without_blank = (let* a := eval "'r', 'g']" in Ok (set "axes.prop_cycle" (Cycle a) d)) /\
    load_line eval d with_name = (let* a := eval "', 'g']" in Ok (set "axes.prop_cycle" (Cycle a) d)).
Proof.
  exists "axes.prop_cycle: cycler('color',['r', 'g'])", "axes.prop_cycle: cycler(color=['r', 'g'])".
  split; [apply C101_line; reflexivity|]. split; [apply C101_line; reflexivity|]. split; reflexivity.
Qed.

Example C101_line_example : spells "  grid.linestyle : :  " "grid.linestyle" ":".
Proof. apply C101_line. reflexivity. Qed.

Print Assumptions C101_plot.
Print Assumptions C101_print.
Print Assumptions C101_style_file.

Example C101_style_file_example :
  let use := fun f (rc : @settings (value string)) => if String.eqb f "dark" then Ok (fun k => if String.eqb k "image.cmap" then Some (Text "gray") else rc k) else Err OSError in
  let o c := {| o_style := "dark"; o_cmap := c; o_diverging := false; o_jet := false; o_xkcd := false; o_color := ""; o_linewidth := Some "3"; o_linestyle := "" |} in
  exists r1 r2, plot_settings (fun _ v => Ok v) use (fun rc => rc) "" [("image.cmap", Text "hot")] (o "") (fun _ => None) = Ok r1 /\
    plot_settings (fun _ v => Ok v) use (fun rc => rc) "" [] (o "viridis") (fun _ => None) = Ok r2 /\
    r1 "image.cmap" = Some (Text "gray") /\ r1 "lines.linewidth" = Some (Text "3") /\ r2 "image.cmap" = Some (Text "viridis").
Proof. eexists _, _. split; [reflexivity|]. split; [reflexivity|]. repeat split. Qed.
