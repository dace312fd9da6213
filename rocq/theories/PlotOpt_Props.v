(** * C117: the options of the plot and animate commands *)
From Coq Require Import String Ascii List Arith ZArith QArith Lqa Lia Bool.
From Verif Require Import Prelude PreludeFacts NdArray DataSpace_Model DataSpace_Proofs Range_Model Range_Props PlotCmd_Model
  Label_Model Label_Spec Label_Proofs Label_Props3 PlotOpt_Model.
Import ListNotations.
Open Scope string_scope.
Open Scope list_scope.

(** ** Two numbers in one text *)

(** [s] starts with the fields [a] and [b] of a comma-separated list. *)
Definition two_fields (s a b : string) : Prop :=
  has_char "," a = false /\ has_char "," b = false /\
  (s = (a ++ "," ++ b)%string \/ exists t, s = (a ++ "," ++ b ++ "," ++ t)%string).

Lemma two_fields_split s a b : two_fields s a b <-> exists t, split_on "," s = a :: b :: t.
Proof.
  split.
  - intros (Ha & Hb & [->|(t & ->)]).
    + exists []. cbn [append]. rewrite split_on_app by exact Ha. now rewrite split_on_none.
    + exists (split_on "," t). cbn [append]. rewrite split_on_app by exact Ha. now rewrite split_on_app.
  - intros (t & E).
    assert (F : Forall (fun x => has_char "," x = false) (split_on "," s)).
    { clear. induction s as [|c s IH]; cbn [split_on]; [now constructor|].
      destruct (Ascii.eqb c ",") eqn:C; [now constructor|].
      destruct (split_on "," s) as [|h t]; [constructor; [|constructor]; cbn [has_char]; now rewrite C|].
      inversion IH; subst. constructor; [cbn [has_char]; now rewrite C|assumption]. }
    pose proof (join_split "," s) as J. rewrite E in F, J. inversion F as [|? ? Ha F']; subst. inversion F' as [|? ? Hb _]; subst.
    split; [exact Ha|]. split; [exact Hb|]. destruct t as [|h t]; [left; reflexivity|right].
    exists (join "," (h :: t)). reflexivity.
Qed.

Lemma one_field s : (exists x, split_on "," s = [x]) <-> has_char "," s = false.
Proof.
  split; [|intros H; exists s; now apply split_on_none].
  intros (x & E). pose proof (join_split "," s) as J. rewrite E in J. cbn [join] in J. subst x.
  destruct (has_char "," s) eqn:H; [|reflexivity]. exfalso. clear - E H.
  assert (L : (2 <= length (split_on "," s))%nat); [|rewrite E in L; cbn in L; lia]. clear E.
  induction s as [|c s IH]; [discriminate H|]. cbn [has_char] in H. cbn [split_on]. destruct (Ascii.eqb c ",") eqn:C.
  - pose proof (split_on_nonnil "," s). destruct (split_on "," s); [congruence|cbn; lia].
  - cbn [orb] in H. specialize (IH H). destruct (split_on "," s) as [|h t]; cbn in *; lia.
Qed.

Section Opt.
  Context (pfloat : string -> option Q) (show : Q -> string).

  (** [--xlim], [--ylim], [--zlim]: the first two fields take the place of the
      separate limits, whatever these are; further fields have no effect.
      Without text, or with an empty one, the separate limits stay. *)
  Theorem C117_limits lim mm r :
    both_limits pfloat lim mm = Ok r <->
    ((lim = None \/ lim = Some "") /\ r = mm) \/
    (exists s sa sb a b, lim = Some s /\ two_fields s sa sb /\ pfloat sa = Some a /\ pfloat sb = Some b /\ r = (Some a, Some b)).
  Proof.
    unfold both_limits, given. split.
    - destruct lim as [[|c s]|]; [intros [= <-]; auto| |intros [= <-]; auto]. intros H. right.
      unfold part, PlotOpt_Model.to_float in H.
      destruct (split_on "," (String c s)) as [|sa [|sb t]] eqn:E; cbn [nth_error bind] in H.
      + discriminate H.
      + destruct (pfloat sa); discriminate H.
      + destruct (pfloat sa) as [a|] eqn:Ea; [|discriminate H]. cbn [bind] in H. destruct (pfloat sb) as [b|] eqn:Eb; [|discriminate H].
        injection H as <-. exists (String c s), sa, sb, a, b. split; [reflexivity|]. split; [apply two_fields_split; eauto|auto].
    - intros [([->| ->] & ->)|(s & sa & sb & a & b & -> & T & Ea & Eb & ->)]; [reflexivity|reflexivity|].
      assert (s <> "") by (intros ->; destruct T as (_ & _ & [T|(t & T)]); destruct sa; discriminate T).
      apply two_fields_split in T as (t & E). destruct s as [|c s]; [congruence|].
      unfold part, PlotOpt_Model.to_float. rewrite E. cbn [nth_error bind]. rewrite Ea. cbn [bind]. now rewrite Eb.
  Qed.

  (** Otherwise the command fails: IndexError for a single number, ValueError
      for a text that is no number. *)
  Theorem C117_limits_bad s mm : s <> "" ->
    (has_char "," s = false -> forall a, pfloat s = Some a -> both_limits pfloat (Some s) mm = Err IndexError) /\
    (has_char "," s = false -> pfloat s = None -> both_limits pfloat (Some s) mm = Err ValueError) /\
    (forall sa sb, two_fields s sa sb -> pfloat sa = None \/ pfloat sb = None -> both_limits pfloat (Some s) mm = Err ValueError).
  Proof.
    intros Hs. unfold both_limits, given. destruct s as [|c s]; [congruence|]. unfold part, PlotOpt_Model.to_float. split; [|split].
    - intros H a Ha. rewrite (split_on_none _ _ H). cbn [nth_error bind]. now rewrite Ha.
    - intros H Ha. rewrite (split_on_none _ _ H). cbn [nth_error bind]. now rewrite Ha.
    - intros sa sb T Hn. apply two_fields_split in T as (t & E). rewrite E. cbn [nth_error bind].
      destruct (pfloat sa); [|reflexivity]. cbn [bind]. destruct Hn as [Hn|Hn]; [discriminate Hn|]. now rewrite Hn.
  Qed.

  (** [--figsize]: two whole numbers. *)
  Theorem C117_figsize s a b : two_fields s (show_Z a) (show_Z b) -> figsize_of (Some s) = Ok (Some (a, b)).
  Proof.
    intros H. apply two_fields_split in H as (t & E). assert (s <> "") by (intros ->; discriminate E).
    unfold figsize_of, given, part. destruct s as [|c s]; [congruence|]. rewrite E. cbn [nth_error bind].
    rewrite !py_int_show_Z. reflexivity.
  Qed.
  Theorem C117_figsize_bad s : s <> "" -> has_char "," s = false ->
    figsize_of (Some s) = Err IndexError \/ figsize_of (Some s) = Err ValueError.
  Proof.
    intros Hs H. unfold figsize_of, given, part. destruct s as [|c s]; [congruence|]. rewrite (split_on_none _ _ H). cbn [nth_error bind].
    destruct (py_int (String c s)) as [z|e] eqn:E; cbn [bind]; [now left|]. right.
    assert (e = ValueError); [|now subst]. clear - E. unfold py_int in E.
    repeat match type of E with context [match ?x with _ => _ end] => destruct x end; congruence.
  Qed.

  (** ** Aspect ratio and lineouts *)

  (** A positive [--aspect] is set, with or without [--fix-aspect], which alone
      means 1; without either none is set. *)
  Theorem C117_aspect fix_ : 
    (forall s q, s <> "" -> s <> "equal" -> s <> "auto" -> pfloat s = Some q -> 0 < q -> aspect_set pfloat fix_ (Some s) = Ok (Some q)) /\
    (forall s q, s <> "" -> s <> "equal" -> s <> "auto" -> pfloat s = Some q -> q <= 0 -> aspect_set pfloat fix_ (Some s) = Err ValueError) /\
    aspect_set pfloat true None = Ok (Some 1) /\ aspect_set pfloat false None = Ok None.
  Proof.
    repeat split; intros s q Hs H1 H2 Ep Hq; unfold aspect_set, given; destruct s as [|c s]; try congruence;
      apply String.eqb_neq in H1; apply String.eqb_neq in H2; rewrite H1, H2; unfold PlotOpt_Model.to_float; rewrite Ep; cbn [bind].
    - destruct (Qle_bool q 0) eqn:L; [|reflexivity]. apply Qle_bool_iff in L. lra.
    - apply Qle_bool_iff in Hq. now rewrite Hq.
  Qed.

  Theorem C117_lineouts k : lineouts_of (Some (show_Z k)) = Ok (Some k) /\ lineouts_of None = Ok None.
  Proof.
    split; [|reflexivity]. unfold lineouts_of, given. pose proof (show_Z_nonempty k). destruct (show_Z k) eqn:E; [congruence|].
    rewrite <- E, py_int_show_Z. reflexivity.
  Qed.

  (** ** What every dataset is drawn with *)

  Section Data.
    Context {X : Type} (vals : X -> list Q) (ncomps : X -> nat).
    Notation sets_in l := (List.map (fun e : nat * ref * dset X => vals (ds_data (snd e))) l).

    (** The limits that are asked for as the command line says it: the text if
        there is one, else the two separate limits. *)
    Definition asked (lim : option string) (mm r : option Q * option Q) : Prop :=
      ((lim = None \/ lim = Some "") /\ r = mm) \/
      (exists s sa sb a b, lim = Some s /\ two_fields s sa sb /\ pfloat sa = Some a /\ pfloat sb = Some b /\ r = (Some a, Some b)).

    Definition range_wanted (c : copts) : Prop :=
      c_globalrange c = true \/ (c_multiblock c = true /\ c_cutoff c = None) \/ (exists q, c_cutoff c = Some q /\ ~ q == 0).

    Lemma range_wanted_bool c :
      (c_globalrange c || c_multiblock c && match c_cutoff c with None => true | Some _ => false end)
      || match cutoff_of (c_cutoff c) with Some _ => true | None => false end = true <-> range_wanted c.
    Proof.
      unfold range_wanted, cutoff_of. destruct (c_globalrange c); cbn [orb]; [tauto|].
      destruct (c_cutoff c) as [q|].
      - rewrite andb_false_r. cbn [orb]. destruct (Qeq_bool q 0) eqn:E.
        + apply Qeq_bool_iff in E. split; [discriminate|]. intros [H|[(_ & H)|(q' & [= <-] & H)]]; try discriminate H. contradiction.
        + split; [|reflexivity]. intros _. right. right. exists q. split; [reflexivity|]. intros H. apply Qeq_bool_iff in H. congruence.
      - rewrite andb_true_r. cbn [orb]. rewrite orb_false_r. split; [auto|]. intros [H|[(H & _)|(q & H & _)]]; [discriminate H|exact H|discriminate H].
    Qed.

    (** Limits of x and y are those asked for.  A limit of z that is asked for
        is used; one that is not asked for is the end of the common range of the
        scaled values if such a range is wanted, and left open otherwise. *)
    Theorem C117_used o (l : list (nat * ref * dset X)) v :
      prepare pfloat show vals ncomps o l = Ok v ->
      asked (r_xlim o) (r_x o) (v_x v) /\ asked (r_ylim o) (r_y o) (v_y v) /\
      exists z, asked (r_zlim o) (c_zmin (r_cmd o), c_zmax (r_cmd o)) z /\
        (forall a, fst z = Some a -> fst (v_z v) = Some a) /\ (forall b, snd z = Some b -> snd (v_z v) = Some b) /\
        (~ range_wanted (r_cmd o) -> v_z v = z) /\
        (range_wanted (r_cmd o) -> exists lo hi, plot_range (c_zscale (r_cmd o)) (c_cutoff (r_cmd o)) (sets_in l) = Ok (lo, hi) /\
           (fst z = None -> fst (v_z v) = lo) /\ (snd z = None -> snd (v_z v) = hi)).
    Proof.
      unfold prepare. intros H.
      apply bind_ok in H as (li & _ & H). apply bind_ok in H as (x & Hx & H). apply bind_ok in H as (y & Hy & H).
      apply bind_ok in H as (z & Hz & H). apply bind_ok in H as (z' & Hz' & H). injection H as <-. cbn [v_x v_y v_z].
      split; [now apply C117_limits|]. split; [now apply C117_limits|]. exists z. split; [now apply C117_limits|].
      unfold limits_of in Hz'. cbv zeta in Hz'. cbn [with_z c_globalrange c_multiblock c_cutoff c_zscale c_zmin c_zmax] in Hz'.
      pose proof (range_wanted_bool (r_cmd o)) as RW.
      destruct ((c_globalrange (r_cmd o) || _) || _).
      - apply bind_ok in Hz' as ((lo, hi) & Er & Hz'). injection Hz' as <-. cbn [fst snd].
        destruct z as (z0, z1). cbn [fst snd]. split; [intros a ->; reflexivity|]. split; [intros a ->; reflexivity|]. split; [intros N; exfalso; apply N; now apply RW|].
        intros _. exists lo, hi. split; [exact Er|]. split; intros ->; reflexivity.
      - injection Hz' as <-. destruct z as (z0, z1). cbn [fst snd]. split; [auto|]. split; [auto|]. split; [auto|]. intros W. apply RW in W. discriminate W.
    Qed.

    (** The other options pass through: [--no-legend] alone decides about the
        legend, [--subplots] gives the number of components of all datasets. *)
    Theorem C117_passed o (l : list (nat * ref * dset X)) v :
      prepare pfloat show vals ncomps o l = Ok v ->
      v_legend v = negb (r_nolegend o) /\
      v_args v = (r_arg o ++ if r_scatter o then "." else "")%string /\
      (c_subplots (r_cmd o) = true -> v_num_axes v = Some (fold_right Nat.add 0%nat (List.map (fun e => ncomps (ds_data (snd e))) l))) /\
      (c_subplots (r_cmd o) = false -> v_num_axes v = None) /\
      (forall s, r_clevels o = Some s -> v_clevels v = Some s) /\
      (c_multiblock (r_cmd o) = false \/ r_contour o = false -> v_clevels v = r_clevels o).
    Proof.
      unfold prepare. intros H.
      apply bind_ok in H as (li & _ & H). apply bind_ok in H as (x & Hx & H). apply bind_ok in H as (y & Hy & H).
      apply bind_ok in H as (z & Hz & H). apply bind_ok in H as (z' & Hz' & H). injection H as <-. cbn [v_legend v_args v_num_axes v_clevels].
      split; [reflexivity|]. split.
      { unfold args_of. destruct (r_scatter o); [reflexivity|]. induction (r_arg o) as [|c s IH]; [reflexivity|]. cbn [append]. now rewrite <- IH. }
      split; [intros ->; reflexivity|]. split; [intros ->; reflexivity|]. unfold clevels_of. split.
      - intros s ->. rewrite andb_false_r. reflexivity.
      - intros [->| ->]; [reflexivity|]. rewrite andb_false_r. reflexivity.
    Qed.

    (** All datasets are drawn with the same limits, those of [C117_used]. *)
    Lemma loop_limits o several zmin zmax : forall l file_name start p calls fn p',
      plot_loop (X:=X) ncomps o several zmin zmax l file_name start p = Ok (calls, fn, p') ->
      Forall (fun c => pc_zmin c = zmin /\ pc_zmax c = zmax) calls.
    Proof.
      induction l as [|((i, r), d) l IH]; intros file_name start p calls fn p' H; cbn [plot_loop] in H.
      - injection H as <- _ _. constructor.
      - apply bind_ok in H as (num & _ & H). destruct (open_fig num p) as (p1, k). apply bind_ok in H as (f1 & _ & H).
        apply bind_ok in H as (((cs, f2), p2) & H1 & H). injection H as <- _ _. constructor; [split; reflexivity|]. eapply IH. exact H1.
    Qed.

    Lemma limits_again c z l z' :
      limits_of vals (with_z c z) l = Ok z' -> limits_of (X:=X) vals (with_z c z') l = Ok z'.
    Proof.
      unfold limits_of. cbv zeta. cbn [with_z c_globalrange c_multiblock c_cutoff c_zscale c_zmin c_zmax].
      destruct (_ || _).
      - intros H. apply bind_ok in H as ((lo, hi) & Er & H). rewrite Er. cbn [bind]. injection H as <-. cbn [fst snd].
        destruct (fst z), (snd z), lo, hi; reflexivity.
      - intros _. now destruct z'.
    Qed.

    Theorem C117_same_limits o ds p v calls p' shown :
      plot_full pfloat show vals ncomps o ds p = Ok (v, (calls, p', shown)) ->
      Forall (fun c => pc_zmin c = fst (v_z v) /\ pc_zmax c = snd (v_z v)) calls.
    Proof.
      unfold plot_full. intros H. apply bind_ok in H as (l & El & H). apply bind_ok in H as (v' & Ev & H). apply bind_ok in H as (out & Ec & H).
      injection H as -> ->. unfold plot_cmd in Ec. cbn [with_z c_use] in Ec. rewrite El in Ec. cbn [bind] in Ec.
      unfold prepare in Ev.
      apply bind_ok in Ev as (li & _ & Ev). apply bind_ok in Ev as (x & _ & Ev). apply bind_ok in Ev as (y & _ & Ev).
      apply bind_ok in Ev as (z & _ & Ev). apply bind_ok in Ev as (z' & Hz' & Ev). injection Ev as <-. cbn [v_z] in *.
      rewrite (limits_again _ _ _ _ Hz') in Ec. cbn [bind] in Ec. destruct z' as (lo, hi). cbn [fst snd] in *.
      apply bind_ok in Ec as (n & _ & Ec). apply bind_ok in Ec as (((cs, f), p1) & Hl & Ec). injection Ec as <- _ _.
      eapply loop_limits. exact Hl.
    Qed.

    (** ** Contour levels of several blocks *)

    (** [--multiblock --contour] without levels and z limits: ten levels at
        equal distances from the smallest to the largest scaled value of all
        blocks, provided these differ and their text reads as the same number. *)
    Theorem C117_block_levels o (l : list (nat * ref * dset X)) v lopt :
      prepare pfloat show vals ncomps o l = Ok v ->
      c_multiblock (r_cmd o) = true -> r_contour o = true -> r_clevels o = None ->
      c_cutoff (r_cmd o) = None -> r_zlim o = None -> c_zmin (r_cmd o) = None -> c_zmax (r_cmd o) = None ->
      l <> [] -> Forall (fun s => s <> []) (sets_in l) ->
      (forall s q, In s (sets_in l) -> In q s ->
         pfloat (show (q * c_zscale (r_cmd o))) = Some (q * c_zscale (r_cmd o)) /\ has_char ":" (show (q * c_zscale (r_cmd o))) = false) ->
      l_cnlevels lopt = None -> l_clevels lopt = v_clevels v ->
      exists lo hi,
        v_z v = (Some lo, Some hi) /\
        (forall s q, In s (sets_in l) -> In q s -> lo <= q * c_zscale (r_cmd o) <= hi) /\
        (exists s q, In s (sets_in l) /\ In q s /\ lo = q * c_zscale (r_cmd o)) /\
        (exists s q, In s (sets_in l) /\ In q s /\ hi = q * c_zscale (r_cmd o)) /\
        (lo < hi -> exists ls, contour_levels pfloat lopt = Ok (LAt ls) /\ equally_spaced lo hi 10 ls) /\
        (lo == hi -> contour_levels pfloat lopt = Err ValueError).
    Proof.
      intros H Mb Co Cl Cu Zl Z0 Z1 NE F RT Ln Ll.
      destruct (C117_used _ _ _ H) as (_ & _ & z & Az & _ & _ & _ & W).
      assert (RW : range_wanted (r_cmd o)) by (right; left; auto). destruct (W RW) as (lo & hi & Er & A & B).
      assert (Ez : z = (None, None)).
      { destruct Az as [(_ & ->)|(s & ? & ? & ? & ? & E & _)]; [now rewrite Z0, Z1|congruence]. }
      subst z. specialize (A eq_refl). specialize (B eq_refl).
      assert (NE' : sets_in l <> []) by (destruct l; [congruence|discriminate]).
      destruct (C92_range (c_zscale (r_cmd o)) (sets_in l) NE' F) as (lo' & hi' & E & R & L & U).
      rewrite Cu in Er. rewrite E in Er. injection Er as <- <-.
      exists lo', hi'. split; [destruct (v_z v); cbn in A, B; congruence|]. split; [exact R|]. split; [exact L|]. split; [exact U|].
      assert (Ec : v_clevels v = Some (show lo' ++ ":" ++ show hi' ++ ":" ++ show_Z (Z.of_nat 10))%string).
      { unfold prepare in H.
        apply bind_ok in H as (li & _ & H). apply bind_ok in H as (x & _ & H). apply bind_ok in H as (y & _ & H).
        apply bind_ok in H as (z & _ & H). apply bind_ok in H as (z' & _ & H). injection H as <-. cbn [v_z v_clevels] in *.
        unfold clevels_of. rewrite Mb, Co, Cl, A, B. reflexivity. }
      assert (RL : pfloat (show lo') = Some lo' /\ has_char ":" (show lo') = false) by (destruct L as (s & q & Hs & Hq & ->); now apply (RT s)).
      assert (RU : pfloat (show hi') = Some hi' /\ has_char ":" (show hi') = false) by (destruct U as (s & q & Hs & Hq & ->); now apply (RT s)).
      destruct (C95_levels_range pfloat lopt (show lo') (show hi') lo' hi' 10) as (G & Bd); try apply RL; try apply RU; [exact Ln|now rewrite Ll|lia|].
      split; [intros Lt; apply G; now right|]. intros Eq. apply Bd; [lia|lra].
    Qed.
  End Data.
End Opt.

(** ** Positional arguments *)

Definition made_of_text (c : curve) : Prop :=
  (exists a, cv_y c = PChr a) /\ (cv_x c = None \/ exists a, cv_x c = Some (PChr a)).

Lemma groups_chars n : forall s, (length s <= n)%nat ->
  Forall made_of_text (curves_of (groups (List.map PChr s))) /\
  length (curves_of (groups (List.map PChr s))) = ((length s + 2) / 3)%nat.
Proof.
  induction n as [|n IH]; intros s L.
  - destruct s; [|cbn in L; lia]. split; [constructor|reflexivity].
  - destruct s as [|a [|b [|c s]]].
    + split; [constructor|reflexivity].
    + split; [|reflexivity]. cbn. constructor; [|constructor]. split; [eexists; reflexivity|left; reflexivity].
    + split; [|reflexivity]. cbn. constructor; [|constructor]. split; [eexists; reflexivity|left; reflexivity].
    + cbn [List.map groups curves_of curve_of length]. destruct (IH s) as (F & Ls); [cbn in L; lia|]. split.
      * constructor; [|exact F]. split; [eexists; reflexivity|right; eexists; reflexivity].
      * rewrite Ls. replace (S (S (S (length s))) + 2)%nat with (1 * 3 + (length s + 2))%nat by lia. rewrite Nat.div_add_l by lia. reflexivity.
Qed.

(** Without [--arg] and [--scatter] the data are drawn with matplotlib's own
    format, with one character with this one; each further three characters add
    a curve that consists of text. *)
Theorem C117_format :
  plotted "" = [mk_curve (Some PX) PY None] /\
  (forall c, plotted (String c "") = [mk_curve (Some PX) PY (Some c)]) /\
  (forall c s, exists more, plotted (String c s) = mk_curve (Some PX) PY (Some c) :: more /\
     Forall made_of_text more /\ length more = ((String.length s + 2) / 3)%nat).
Proof.
  split; [reflexivity|]. split; [reflexivity|]. intros c s. unfold plotted, chars.
  cbn [list_ascii_of_string List.map groups curves_of curve_of]. eexists. split; [reflexivity|].
  destruct (groups_chars (length (list_ascii_of_string s)) (list_ascii_of_string s) (le_n _)) as (F & L).
  split; [exact F|]. rewrite L. do 2 f_equal. clear. induction s as [|c s IH]; [reflexivity|]. cbn. now rewrite IH.
Qed.

(** [--scatter] is the format "." unless there is also [--arg], whose first
    character wins. *)
Theorem C117_scatter :
  plotted (args_of "" true) = [mk_curve (Some PX) PY (Some "."%char)] /\
  (forall c s scatter, exists more, plotted (args_of (String c s) scatter) = mk_curve (Some PX) PY (Some c) :: more /\
     (scatter = true -> more <> [])).
Proof.
  split; [reflexivity|]. intros c s sc. destruct C117_format as (_ & _ & F). unfold args_of. destruct sc.
  - destruct (F c (s ++ ".")%string) as (more & E & _ & L). exists more. split; [exact E|]. intros _ ->. cbn [length] in L.
    assert (P : (1 <= String.length (s ++ "."))%nat) by (clear; induction s; cbn; lia).
    assert (G : (3 <= String.length (s ++ ".") + 2)%nat) by lia.
    apply (Nat.div_le_mono _ _ 3%nat) in G; [|lia]. change (3 / 3)%nat with 1%nat in G. rewrite <- L in G. lia.
  - destruct (F c s) as (more & E & _). exists more. split; [exact E|discriminate].
Qed.

(** On 2-D data only lineouts and arrows go with [--arg] or [--scatter]. *)
Theorem C117_two_dims b arg scatter : b = BContour \/ b = BStream \/ b = BMesh ->
  ((arg <> "" \/ scatter = true) -> call2 b (args_of arg scatter) = Err TypeError) /\
  (call2 b (args_of "" false) = Ok []).
Proof.
  intros Hb. split.
  - intros H. assert (N : exists c s, args_of arg scatter = String c s).
    { unfold args_of. destruct arg as [|c s]; destruct scatter; try (eexists; eexists; reflexivity). destruct H; congruence. }
    destruct N as (c & s & E). rewrite E. destruct Hb as [->|[->| ->]]; reflexivity.
  - destruct Hb as [->|[->| ->]]; reflexivity.
Qed.

(** ** Keywords *)

(** A keyword has an effect on the call exactly if it is a parameter. *)
Theorem C117_keywords {V} (k : string) :
  (~ In k plot_params -> forall (kw : list (string * V)) v, bound (aset k v kw) = bound kw) /\
  (In k plot_params -> forall (kw : list (string * V)) v w, bound (aset k v kw) = bound (aset k w kw) -> v = w).
Proof.
  unfold bound. split.
  - intros N kw v. apply map_ext_in. intros p Hp. rewrite aget_aset. destruct (String.eqb_spec p k); [subst; contradiction|reflexivity].
  - intros I kw v w H. induction plot_params as [|p l IH]; [destruct I|]. cbn [List.map] in H. injection H as H0 H1.
    destruct I as [->|I]; [|now apply IH]. rewrite !aget_aset, String.eqb_refl in H0. now injection H0.
Qed.

(** ** Examples *)

Definition pf_ex (s : string) : option Q := match py_int s with Ok z => Some (inject_Z z) | Err _ => None end.

Definition no_cmd (mb : bool) (cutoff zmin zmax : option Q) : copts :=
  mk_copts None FigNone false mb false None None None None false zmin zmax 2 false cutoff true.
Definition raw (xlim zlim : option string) (contour : bool) (clevels : option string) (arg : string) (scatter : bool) (c : copts) : ropts :=
  mk_ropts xlim None zlim (None, Some 9) (None, None) contour clevels false arg scatter None c.
Definition show_ex (q : Q) : string := show_Z (Qnum q).
Definition blocks_of (a b : list Q) : list (nat * ref * dset (list Q)) :=
  [(0%nat, ("default", 0%nat), mk_dset 0 "" true "" a); (1%nat, ("default", 1%nat), mk_dset 1 "" true "" b)].
Definition prep (o : ropts) (l : list (nat * ref * dset (list Q))) : res pvals := prepare pf_ex show_ex (fun x => x) (fun _ => 2%nat) o l.
Definition lev (s : option string) : lopts :=
  mk_lopts None None None None None None None 0 1 0 1 1 false 0 "" true None s false false None
    false true false true false false None None None None.

(** --xlim wins over --xmax, --zmin over the common range. *)
Example C117_limits_ex :
  prep (raw (Some "1,5,7") None false None "" false (no_cmd true None (Some 3) None)) (blocks_of [3; 1] [2; 4]) =
    Ok (mk_pvals (Some 1, Some 5) (None, None) (Some 3, Some 8) None true "" None None) /\
  prep (raw None None false None "" true (no_cmd false None None None)) (blocks_of [3; 1] [2; 4]) =
    Ok (mk_pvals (None, Some 9) (None, None) (None, None) None true "." None None) /\
  prep (raw (Some "5") None false None "" true (no_cmd false None None None)) [] = Err IndexError /\
  prep (raw (Some "x,5") None false None "" true (no_cmd false None None None)) [] = Err ValueError /\
  two_fields "1,5,7" "1" "5" /\ ~ two_fields "5" "5" "".
Proof.
  repeat split; try reflexivity.
  - right. exists "7". reflexivity.
  - intros (_ & _ & [H|(t & H)]); discriminate H.
Qed.

Example C117_small_ex :
  figsize_of (Some "12,8") = Ok (Some (12, 8)%Z) /\ figsize_of (Some "12") = Err IndexError /\ figsize_of (Some "wide") = Err ValueError /\
  aspect_set pf_ex false (Some "3") = Ok (Some 3) /\ aspect_set pf_ex true (Some "-3") = Err ValueError /\
  lineouts_of (Some "1") = Ok (Some 1%Z) /\
  plotted "o" = [mk_curve (Some PX) PY (Some "o"%char)] /\
  call2 BMesh (args_of "" true) = Err TypeError /\ call2 BQuiver "o" = Ok [].
Proof. repeat split. Qed.

Definition block_cmd : ropts := raw None None true None "" false (no_cmd true None None None).

(** Two blocks with values up to 4, scaled by 2. *)
Example C117_block_levels_ex :
  exists v, prep block_cmd (blocks_of [3; 1] [2; 4]) = Ok v /\ v_clevels v = Some "2:8:10" /\
    exists ls, contour_levels pf_ex (lev (v_clevels v)) = Ok (LAt ls) /\ equally_spaced 2 8 10 ls.
Proof.
  eexists. split; [reflexivity|]. split; [reflexivity|].
  edestruct (C117_block_levels pf_ex show_ex (fun x => x) (fun _ : list Q => 2%nat) block_cmd (blocks_of [3; 1] [2; 4]))
    as (lo & hi & Ez & _ & _ & _ & G & _); [reflexivity|reflexivity|reflexivity|reflexivity|reflexivity|reflexivity|reflexivity|reflexivity
      |discriminate| | | | |].
  - repeat constructor; discriminate.
  - intros s q [<-|[<-|[]]] [<-|[<-|[]]]; split; reflexivity.
  - exact (eq_refl (l_cnlevels (lev (Some "2:8:10")))).
  - reflexivity.
  - injection Ez as <- <-. apply G. reflexivity.
Qed.

(** All datasets are drawn with the limits that are worked out. *)
Example C117_same_limits_ex :
  exists v calls p shown,
    plot_full pf_ex show_ex (fun x => x) (fun _ : list Q => 2%nat) block_cmd
      [("default", [mk_dset 0 "" true "" [3; 1]; mk_dset 1 "" true "" [2; 4]])] (mk_py [] None []) = Ok (v, (calls, p, shown)) /\
    List.map pc_zmin calls = [Some 2; Some 2] /\ List.map pc_zmax calls = [Some 8; Some 8] /\ v_z v = (Some 2, Some 8).
Proof. eexists _, _, _, _. vm_compute. repeat split. Qed.

(** ** What does not hold *)

(** The format is not passed on as a whole: the example of the help text draws
    stars without a line, and a further curve from the rest of the text. *)
Theorem C117_format_refuted : exists arg, arg = "*--" /\
  plotted (args_of arg false) = [mk_curve (Some PX) PY (Some "*"%char); mk_curve None (PChr "-") (Some "-"%char)].
Proof. exists "*--". split; reflexivity. Qed.

(** [--multiblock --contour] without levels need not get any: not with
    [-cogr 0], and not if all values are the same. *)
Theorem C117_block_levels_refuted :
  (exists o l v, prep o l = Ok v /\ c_multiblock (r_cmd o) = true /\ r_contour o = true /\ r_clevels o = None /\ l <> [] /\
     c_cutoff (r_cmd o) = Some 0 /\ v_clevels v = Some "None:None:10" /\ contour_levels pf_ex (lev (v_clevels v)) = Err ValueError) /\
  (exists o l v, prep o l = Ok v /\ c_multiblock (r_cmd o) = true /\ r_contour o = true /\ r_clevels o = None /\ l <> [] /\
     c_cutoff (r_cmd o) = None /\ contour_levels pf_ex (lev (v_clevels v)) = Err ValueError).
Proof.
  split.
  - exists (raw None None true None "" false (no_cmd true (Some 0) None None)), (blocks_of [3; 1] [2; 4]).
    eexists. split; [reflexivity|]. repeat split. discriminate.
  - exists block_cmd, (blocks_of [3; 3] [3]). eexists. split; [reflexivity|]. repeat split. discriminate.
Qed.

(** [--transpose] and [--arrowstyle] change nothing that the drawing reads. *)
Theorem C117_no_effect : forall (V : Type) k, In k ["transpose"; "arrowstyle"] ->
  forall (kw : list (string * V)) v, bound (aset k v kw) = bound kw.
Proof.
  intros V k Hk. apply C117_keywords. intros I. cbn [In] in Hk.
  assert (E : existsb (String.eqb k) plot_params = true) by (apply existsb_exists; exists k; split; [exact I|apply String.eqb_refl]).
  destruct Hk as [<-|[<-|[]]]; discriminate E.
Qed.

Print Assumptions C117_limits.
Print Assumptions C117_limits_bad.
Print Assumptions C117_figsize.
Print Assumptions C117_figsize_bad.
Print Assumptions C117_aspect.
Print Assumptions C117_lineouts.
Print Assumptions C117_used.
Print Assumptions C117_passed.
Print Assumptions C117_same_limits.
Print Assumptions C117_block_levels.
Print Assumptions C117_format.
Print Assumptions C117_scatter.
Print Assumptions C117_two_dims.
Print Assumptions C117_keywords.
Print Assumptions C117_format_refuted.
Print Assumptions C117_block_levels_refuted.
Print Assumptions C117_no_effect.
