(** * C20-C23: command words, load options, wildcards and the load queue. *)
From Coq Require Import String Ascii List Arith ZArith NArith Bool Sorted Permutation Lia.
From Coq Require Import DecimalString.
From Verif Require Import Prelude PreludeFacts Sort Cli_Model DataSpace_Proofs Write_Props.
Import ListNotations.
Open Scope list_scope.

(** ** C20 *)
Definition prefix_of (w x : string) : Prop := exists t, x = (w ++ t)%string.

Lemma starts_with_prefix w x : starts_with w x = true <-> prefix_of w x.
Proof.
  revert x. induction w as [|a w IH]; intros x; simpl.
  - split; [intros _; now exists x|auto].
  - destruct x as [|b x].
    + split; [discriminate|]. intros [t H]. discriminate.
    + rewrite andb_true_iff, IH. split.
      * intros [H1 [t ->]]. apply Ascii.eqb_eq in H1. subst. now exists t.
      * intros [t H]. injection H as -> ->. split; [apply Ascii.eqb_refl|now exists t].
Qed.

Lemma is_cmd_in cmds w : is_cmd cmds w = true <-> In w cmds.
Proof.
  unfold is_cmd. rewrite existsb_exists. split.
  - intros (x & Hx & E). apply String.eqb_eq in E. now subst.
  - intros H. exists w. split; auto. apply String.eqb_refl.
Qed.

Section C20.
  Context (cmds : list string) (glob : string -> list string).
  Context (Hnd : NoDup cmds).

  (** A full name runs that command. *)
  Theorem C20_full_name w q : In w cmds -> get_command cmds glob w q = Ok (w, q).
  Proof. intros H. apply is_cmd_in in H. unfold get_command. now rewrite H. Qed.

  Lemma not_cmd w : ~ In w cmds -> is_cmd cmds w = false.
  Proof. rewrite <- is_cmd_in. destruct (is_cmd cmds w); congruence. Qed.

  (** A prefix of exactly one command runs it. *)
  Theorem C20_abbreviation w q m :
    ~ In w cmds -> In m cmds -> prefix_of w m -> (forall x, In x cmds -> prefix_of w x -> x = m) ->
    get_command cmds glob w q = Ok (m, q).
  Proof.
    intros Hw Hm Hp Hu. unfold get_command. rewrite not_cmd by auto.
    replace (List.filter (fun x => starts_with w x) cmds) with [m]; [reflexivity|].
    assert (Hin : In m (List.filter (fun x => starts_with w x) cmds)) by (apply filter_In; split; auto; now apply starts_with_prefix).
    assert (Hall : forall x, In x (List.filter (fun x => starts_with w x) cmds) -> x = m).
    { intros x Hx. apply filter_In in Hx as [H1 H2]. apply Hu; auto. now apply starts_with_prefix. }
    assert (Hn : NoDup (List.filter (fun x => starts_with w x) cmds)) by now apply NoDup_filter.
    destruct (List.filter _ cmds) as [|a [|b l]].
    - destruct Hin.
    - f_equal. symmetry. apply Hall. now left.
    - exfalso. inversion Hn as [|? ? Hni _]; subst. apply Hni. left.
      rewrite (Hall a), (Hall b); auto; [right; now left|now left].
  Qed.

  (** A prefix of several is rejected. *)
  Theorem C20_ambiguous w q m m' :
    ~ In w cmds -> In m cmds -> In m' cmds -> m <> m' -> prefix_of w m -> prefix_of w m' ->
    get_command cmds glob w q = Err ClickFail.
  Proof.
    intros Hw Hm Hm' Hne Hp Hp'. unfold get_command. rewrite not_cmd by auto.
    assert (H1 : In m (List.filter (fun x => starts_with w x) cmds)) by (apply filter_In; split; auto; now apply starts_with_prefix).
    assert (H2 : In m' (List.filter (fun x => starts_with w x) cmds)) by (apply filter_In; split; auto; now apply starts_with_prefix).
    destruct (List.filter _ cmds) as [|a [|b l]]; [destruct H1| |reflexivity].
    exfalso. destruct H1 as [->|[]], H2 as [->|[]]. congruence.
  Qed.

  Lemma no_match w : ~ (exists x, In x cmds /\ prefix_of w x) -> List.filter (fun x => starts_with w x) cmds = [].
  Proof.
    intros H. destruct (List.filter (fun x => starts_with w x) cmds) as [|a l] eqn:E; auto. exfalso. apply H.
    assert (Ha : In a (List.filter (fun x => starts_with w x) cmds)) by (rewrite E; now left).
    apply filter_In in Ha as [H1 H2]. exists a. split; auto. now apply starts_with_prefix.
  Qed.

  Lemma no_prefix_no_cmd w : ~ (exists x, In x cmds /\ prefix_of w x) -> ~ In w cmds.
  Proof. intros H Hw. apply H. exists w. split; auto. exists ""%string. now rewrite str_app_nil. Qed.

  (** Otherwise a name matching a file is queued and loaded. *)
  Theorem C20_file w q :
    ~ (exists x, In x cmds /\ prefix_of w x) -> glob w <> [] -> In "load"%string cmds ->
    get_command cmds glob w q = Ok ("load"%string, q ++ [w]).
  Proof.
    intros Hw Hg Hl. unfold get_command. rewrite not_cmd by now apply no_prefix_no_cmd. rewrite no_match by auto.
    destruct (glob w); [congruence|]. apply is_cmd_in in Hl. now rewrite Hl.
  Qed.

  (** A file is no use where load is not a command. *)
  Theorem C20_no_load w q :
    ~ (exists x, In x cmds /\ prefix_of w x) -> ~ In "load"%string cmds -> get_command cmds glob w q = Err ClickFail.
  Proof.
    intros Hw Hl. unfold get_command. rewrite not_cmd by now apply no_prefix_no_cmd. rewrite no_match by auto.
    rewrite (not_cmd "load") by exact Hl. now destruct (glob w).
  Qed.

  (** Anything else is rejected. *)
  Theorem C20_neither w q :
    ~ (exists x, In x cmds /\ prefix_of w x) -> glob w = [] -> get_command cmds glob w q = Err ClickFail.
  Proof.
    intros Hw Hg. unfold get_command. rewrite not_cmd by now apply no_prefix_no_cmd. rewrite no_match by auto. now rewrite Hg.
  Qed.

  (** Only file words queue anything. *)
  Theorem C20_queue w q c q' :
    get_command cmds glob w q = Ok (c, q') ->
    q' = q \/ (q' = q ++ [w] /\ c = "load"%string /\ glob w <> [] /\ ~ (exists x, In x cmds /\ prefix_of w x)).
  Proof.
    unfold get_command. destruct (is_cmd cmds w) eqn:E; [intros [= <- <-]; now left|].
    destruct (List.filter (fun x => starts_with w x) cmds) as [|a [|b l]] eqn:Ef; [|intros [= <- <-]; now left|discriminate].
    destruct (glob w) eqn:Eg; [discriminate|]. destruct (is_cmd cmds "load"); [|discriminate]. intros [= <- <-]. right.
    repeat split; auto; [discriminate|]. intros (x & Hx & Hp).
    assert (Hi : In x (List.filter (fun x => starts_with w x) cmds)) by (apply filter_In; split; auto; now apply starts_with_prefix).
    rewrite Ef in Hi. destruct Hi.
  Qed.
End C20.

(** The registered commands (pgkyl.py 139-178; click turns underscores into
    dashes). *)
Definition pgkyl_commands : list string :=
  ["activate"; "agyro"; "mom-agyro"; "animate"; "collect"; "current"; "deactivate"; "differentiate"; "energetics";
   "euler"; "mhd"; "ev"; "extractinput"; "fft"; "gk-nodes"; "gk-distf"; "grid"; "growth"; "info"; "integrate";
   "interpolate"; "laguerrecompose"; "listoutputs"; "load"; "magsq"; "mask"; "gk-energy-balance";
   "gk-particle-balance"; "plot"; "pr"; "relchange"; "select"; "style"; "tenmoment"; "trajectory"; "val2coord";
   "velocity"; "write"; "transformframe"; "pkpm"]%string.

Example C20_ex :
  NoDup pgkyl_commands /\ In "load"%string pgkyl_commands /\
  get_command pgkyl_commands (fun _ => []) "interp" [] = Ok ("interpolate"%string, []) /\
  get_command pgkyl_commands (fun _ => []) "int" [] = Err ClickFail /\
  get_command pgkyl_commands (fun _ => ["pr"%string]) "pr" [] = Ok ("pr"%string, []) /\
  get_command pgkyl_commands (fun w => [w]) "a_0.gkyl" ["x"%string] = Ok ("load", ["x"; "a_0.gkyl"])%string /\
  get_command pgkyl_commands (fun w => []) "a_0.gkyl" [] = Err ClickFail.
Proof.
  split; [|split; [|repeat split]].
  - assert (H : nodup string_dec pgkyl_commands = pgkyl_commands) by (vm_compute; reflexivity).
    rewrite <- H. apply NoDup_nodup.
  - apply is_cmd_in. reflexivity.
Qed.

(** ** C21 *)

(** The rule: local if given, else global. *)
Definition prefer (loc glob : option string) : option string :=
  match loc with Some l => Some l | None => glob end.

(** Options as given on the command line: no empty strings. *)
Definition proper (o : option string) : Prop := o <> Some ""%string.

Lemma given_proper o : proper o -> given o = o.
Proof. destruct o as [[|]|]; [intros H; now contradict H|reflexivity|reflexivity]. Qed.

Theorem C21_cuts : forall loc glob,
  Forall proper (o_cuts loc) -> Forall proper (o_cuts glob) -> length (o_cuts loc) = length (o_cuts glob) ->
  length (l_cuts (load_options loc glob)) = length (o_cuts loc) /\
  forall k l g, nth_error (o_cuts loc) k = Some l -> nth_error (o_cuts glob) k = Some g ->
    nth_error (l_cuts (load_options loc glob)) k = Some (prefer l g).
Proof.
  intros loc glob Hl Hg Hlen.
  assert (E : l_cuts (load_options loc glob) = List.map (fun p => pick_cut (fst p) (snd p)) (combine (o_cuts loc) (o_cuts glob))).
  { unfold load_options. destruct (given (o_c2p_vel loc)), (given (o_c2p_vel glob)); reflexivity. }
  rewrite E. split.
  - rewrite map_length, combine_length. lia.
  - clear E. revert Hl Hg Hlen. generalize (o_cuts glob). induction (o_cuts loc) as [|a la IH]; intros [|b lb] Hl Hg Hlen k l g H1 H2;
      try (destruct k; discriminate).
    inversion Hl; subst. inversion Hg; subst. destruct k as [|k]; cbn in *.
    + injection H1 as ->. injection H2 as ->. f_equal. unfold pick_cut. rewrite !given_proper by auto.
      destruct l, g; reflexivity.
    + apply IH; auto.
Qed.

(** Variable names: the local list, else the global one, else the default; a
    single entry may list several names separated by commas. *)
Theorem C21_varnames : forall loc glob,
  let vs := match o_varname loc with [] => match o_varname glob with [] => ["CartGridField"%string] | g => g end | l => l end in
  (length vs <> 1%nat -> l_vars (load_options loc glob) = vs) /\
  (forall ns, ns <> [] -> Forall (fun n => has_char "," n = false) ns -> vs = [join "," ns] -> l_vars (load_options loc glob) = ns).
Proof.
  intros loc glob vs.
  assert (E : l_vars (load_options loc glob) = match vs with [v] => split_on "," v | _ => vs end).
  { unfold load_options. destruct (given (o_c2p_vel loc)), (given (o_c2p_vel glob)); cbn [l_vars];
      unfold vs; destruct (o_varname loc), (o_varname glob); reflexivity. }
  rewrite E. split.
  - intros H. destruct vs as [|a [|b l]]; [reflexivity| |reflexivity]. simpl in H. lia.
  - intros ns Hne Hn ->. apply (split_join ","); auto.
Qed.

(** Mapping files; both velocity-mapping options must not be given together. *)
Theorem C21_mapping_files : forall loc glob,
  proper (o_c2p loc) -> proper (o_c2p glob) -> proper (o_c2p_vel loc) -> proper (o_c2p_vel glob) ->
  o_c2p_vel loc = None \/ o_c2p_vel glob = None ->
  l_mapc2p (load_options loc glob) = prefer (o_c2p loc) (o_c2p glob) /\
  l_mapc2p_vel (load_options loc glob) = prefer (o_c2p_vel loc) (o_c2p_vel glob).
Proof.
  intros loc glob H1 H2 H3 H4 H5. unfold load_options. rewrite !given_proper by auto.
  destruct (o_c2p_vel loc) eqn:E3, (o_c2p_vel glob) eqn:E4, (o_c2p loc) eqn:E1, (o_c2p glob) eqn:E2;
    cbn; try (split; reflexivity); destruct H5; discriminate.
Qed.

(** If both are given, the local velocity mapping is used as position mapping
    and there is no velocity mapping. *)
Theorem C21_both_velocity_mappings : forall loc glob l g,
  o_c2p_vel loc = Some l -> o_c2p_vel glob = Some g -> l <> ""%string -> g <> ""%string ->
  l_mapc2p (load_options loc glob) = Some l /\ l_mapc2p_vel (load_options loc glob) = None.
Proof.
  intros loc glob l g H1 H2 H3 H4. unfold load_options. rewrite H1, H2.
  destruct l; [congruence|]. destruct g; [congruence|]. cbn. split; reflexivity.
Qed.

Theorem C21_velocity_mapping_refuted : exists loc glob,
  l_mapc2p_vel (load_options loc glob) <> prefer (o_c2p_vel loc) (o_c2p_vel glob) /\
  l_mapc2p (load_options loc glob) <> prefer (o_c2p loc) (o_c2p glob).
Proof.
  exists (mk_options [] [] (Some "p"%string) (Some "v"%string)), (mk_options [] [] None (Some "w"%string)).
  split; discriminate.
Qed.

Example C21_ex :
  load_options (mk_options [Some "1"; None; None]%string ["a,b"]%string (Some "m"%string) None)
               (mk_options [Some "2"; Some "0:3"; None]%string ["z"]%string (Some "n"%string) (Some "v"%string))
  = mk_load_args [Some "1"; Some "0:3"; None]%string ["a"; "b"]%string (Some "m"%string) (Some "v"%string).
Proof. reflexivity. Qed.

(** ** C22 *)

(** [f] is frame [n] of [stem]: the number written in digits, possibly with
    leading zeros. *)
Definition frame_of (f stem : string) (n : N) : Prop :=
  exists ds ext, f = (stem ++ "_" ++ ds ++ "." ++ ext)%string /\ digits_val ds = Some n /\ has_char "_" ext = false.

(** [a] comes before [b] in [l]. *)
Definition before_in {A} (l : list A) (a b : A) : Prop := exists l1 l2 l3, l = l1 ++ a :: l2 ++ b :: l3.

Lemma digits_val_no_char c ds n : ~ digit_char c -> digits_val ds = Some n -> has_char c ds = false.
Proof.
  intros Hc H. unfold digits_val in H. destruct ds as [|a s]; [reflexivity|]. 
  assert (G : forall s u, NilEmpty.uint_of_string s = Some u -> has_char c s = false).
  { clear -Hc. induction s as [|a s IH]; intros u H; [reflexivity|]. cbn in H.
    destruct (NilEmpty.uint_of_string s) as [v|] eqn:E; [|destruct a as [[] [] [] [] [] [] [] []]; discriminate].
    cbn [has_char]. rewrite (IH v eq_refl), orb_false_r. apply Ascii.eqb_neq. intros <-. apply Hc. unfold digit_char.
    destruct a as [[] [] [] [] [] [] [] []]; cbn in H; try discriminate; cbn; tauto. }
  destruct (NilEmpty.uint_of_string (String a s)) as [u|] eqn:E; [|discriminate]. eapply G; eauto.
Qed.

Lemma crush_frame f stem n : frame_of f stem n ->
  exists e, crush f = Ok (List.map KStr (split_on "_" stem) ++ [KInt (Z.of_N n); KStr e]).
Proof.
  intros (ds & ext & -> & Hd & He). unfold crush.
  assert (Hu : has_char "_" (ds ++ "." ++ ext) = false).
  { rewrite !has_char_app, He, (digits_val_no_char "_" ds n); auto. unfold digit_char. cbn. intuition discriminate. }
  change (stem ++ "_" ++ ds ++ "." ++ ext)%string with (stem ++ String "_" (ds ++ "." ++ ext))%string.
  rewrite split_on_app_sep, (split_on_none "_" _ Hu). rewrite last_last, removelast_last.
  change ("." ++ ext)%string with (String "." ext).
  rewrite split_on_app by (apply digits_val_no_char with n; auto; unfold digit_char; cbn; intuition discriminate).
  destruct (split_on "." ext) as [|e es] eqn:Es; [now apply split_on_nonnil in Es|].
  rewrite (digits_py_int _ _ Hd). cbn [bind]. eauto.
Qed.

(** String comparison. *)
Lemma str_cmp_refl s : String.compare s s = Eq.
Proof. induction s; simpl; auto. unfold Ascii.compare. rewrite N.compare_refl. exact IHs. Qed.

Lemma str_cmp_eq s t : String.compare s t = Eq -> s = t.
Proof.
  revert t. induction s as [|a s IH]; intros [|b t]; simpl; try discriminate; auto.
  unfold Ascii.compare. destruct (N.compare_spec (N_of_ascii a) (N_of_ascii b)) as [E| |]; try discriminate.
  intros H. f_equal; auto. now rewrite <- (ascii_N_embedding a), E, ascii_N_embedding.
Qed.

Lemma str_cmp_opp s t : String.compare t s = CompOpp (String.compare s t).
Proof.
  revert t. induction s as [|a s IH]; intros [|b t]; simpl; auto. unfold Ascii.compare.
  rewrite (N.compare_antisym (N_of_ascii a) (N_of_ascii b)). destruct (N.compare _ _); simpl; auto.
Qed.

Lemma str_cmp_lt_trans s t u : String.compare s t = Lt -> String.compare t u = Lt -> String.compare s u = Lt.
Proof.
  revert t u. induction s as [|a s IH]; intros [|b t] [|c u]; simpl; try discriminate; auto. unfold Ascii.compare.
  destruct (N.compare_spec (N_of_ascii a) (N_of_ascii b)) as [E1|L1|], (N.compare_spec (N_of_ascii b) (N_of_ascii c)) as [E2|L2|];
    try discriminate; intros H1 H2.
  - rewrite E1, E2, N.compare_refl. eauto.
  - rewrite E1. apply N.compare_lt_iff in L2. now rewrite L2.
  - rewrite <- E2. apply N.compare_lt_iff in L1. now rewrite L1.
  - assert (L : (N_of_ascii a < N_of_ascii c)%N) by (eapply N.lt_trans; eauto). apply N.compare_lt_iff in L. now rewrite L.
Qed.

Lemma kcmp_opp a b c : kcmp a b = Some c -> kcmp b a = Some (CompOpp c).
Proof.
  revert b c. induction a as [|x a IH]; intros [|y b] c; cbn [kcmp]; try (intros [= <-]; reflexivity).
  destruct x as [s|m], y as [t|n]; try discriminate.
  - rewrite (str_cmp_opp s t). destruct (String.compare s t); cbn; [apply IH| |]; now intros [= <-].
  - rewrite (Z.compare_antisym m n). destruct (Z.compare m n); cbn; [apply IH| |]; now intros [= <-].
Qed.

Lemma kcmp_none a b : kcmp a b = None -> kcmp b a = None.
Proof. intros H. destruct (kcmp b a) as [c|] eqn:E; auto. apply kcmp_opp in E. congruence. Qed.

Lemma kleb_total a b : kcmp a b <> None -> kleb a b = true \/ kleb b a = true.
Proof.
  intros H. unfold kleb. destruct (kcmp a b) as [c|] eqn:E; [|congruence]. rewrite (kcmp_opp _ _ _ E). destruct c; auto.
Qed.

Lemma kleb_trans a b c : kcmp a c <> None -> kleb a b = true -> kleb b c = true -> kleb a c = true.
Proof.
  unfold kleb. revert b c. induction a as [|x a IH]; intros [|y b] [|z c] Hac H1 H2; cbn [kcmp] in *; try discriminate; auto.
  destruct x as [s|m], y as [t|n], z as [u|k]; try discriminate; try congruence.
  - destruct (String.compare s t) eqn:E1; try discriminate.
    + apply str_cmp_eq in E1. subst t. destruct (String.compare s u) eqn:E2; try discriminate; auto. eapply IH; eauto.
    + destruct (String.compare t u) eqn:E2; try discriminate.
      * apply str_cmp_eq in E2. subst u. now rewrite E1.
      * now rewrite (str_cmp_lt_trans _ _ _ E1 E2).
  - destruct (Z.compare_spec m n) as [->|L1|L1]; try discriminate.
    + destruct (Z.compare n k) eqn:E2; try discriminate; auto. eapply IH; eauto.
    + destruct (Z.compare_spec n k) as [->|L2|L2]; try discriminate.
      * apply Z.compare_lt_iff in L1. now rewrite L1.
      * assert (L : (m < k)%Z) by lia. apply Z.compare_lt_iff in L. now rewrite L.
Qed.

(** Every matching file that is not a restart file is loaded exactly once and
    no restart file is, whatever the names are. *)
Theorem C22_exactly_once : forall glob s,
  has_wildcard s = true ->
  Permutation (load_files glob s) (List.filter (fun f => negb (contains "restart" f)) (glob s)) /\
  Forall (fun f => contains "restart" f = false) (load_files glob s).
Proof.
  intros glob s Hw. unfold load_files. rewrite Hw.
  set (files := List.filter _ (glob s)).
  assert (G : Permutation (match sort_files files with Some l => l | None => files end) files).
  { unfold sort_files. destruct (mapM crush files) as [keys|] eqn:E; auto.
    destruct (forallb _ keys); auto.
    assert (Hl : length keys = length files).
    { clear -E. revert keys E. induction files as [|f l IH]; intros keys; cbn [mapM]; [intros [= <-]; reflexivity|].
      destruct (crush f); [|discriminate]. cbn [bind]. destruct (mapM crush l) as [ks|]; [|discriminate]. intros [= <-].
      cbn. now rewrite (IH ks). }
    assert (Hs : List.map snd (combine keys files) = files).
    { clear -Hl. revert keys Hl. induction files as [|f l IH]; intros [|k ks] Hl; try discriminate; auto. cbn. f_equal. apply IH. now injection Hl. }
    rewrite <- Hs at 2. apply Permutation_map. symmetry. apply isort_perm. }
  split; [exact G|]. apply Forall_forall. intros f Hf. apply (Permutation_in _ G) in Hf. apply filter_In in Hf as [_ Hf].
  now apply negb_true_iff.
Qed.

Lemma mapM_crush files keys : mapM crush files = Ok keys ->
  length keys = length files /\ forall k f, In (k, f) (combine keys files) -> crush f = Ok k.
Proof.
  revert keys. induction files as [|f l IH]; intros keys; cbn [mapM].
  - intros [= <-]. split; [reflexivity|]. intros k f [].
  - destruct (crush f) as [k0|] eqn:E0; [|discriminate]. cbn [bind]. destruct (mapM crush l) as [ks|]; [|discriminate]. intros [= <-].
    destruct (IH ks eq_refl) as [H1 H2]. split; [cbn; now rewrite H1|]. intros k f' [[= <- <-]|H]; auto.
Qed.

Lemma sorted_before {A} (R : A -> A -> Prop) l a b :
  StronglySorted R l -> In a l -> In b l -> ~ R b a -> a <> b -> before_in l a b.
Proof.
  intros H Ha Hb Hn Hne. induction H as [|x l H IH F]; [destruct Ha|]. destruct Ha as [->|Ha].
  - destruct Hb as [->|Hb]; [congruence|]. apply in_split in Hb as (l1 & l2 & ->). exists [], l1, l2. reflexivity.
  - destruct Hb as [->|Hb].
    + exfalso. apply Hn. rewrite Forall_forall in F. now apply F.
    + destruct (IH Ha Hb) as (l1 & l2 & l3 & ->). exists (x :: l1), l2, l3. reflexivity.
Qed.

Lemma before_map {A B} (f : A -> B) l a b : before_in l a b -> before_in (List.map f l) (f a) (f b).
Proof.
  intros (l1 & l2 & l3 & ->). exists (List.map f l1), (List.map f l2), (List.map f l3).
  rewrite map_app. cbn. now rewrite map_app.
Qed.

Lemma kcmp_same_prefix ps a b : kcmp (List.map KStr ps ++ a) (List.map KStr ps ++ b) = kcmp a b.
Proof. induction ps as [|p ps IH]; [reflexivity|]. cbn [List.map app kcmp]. now rewrite str_cmp_refl. Qed.

(** Comparable unless one list of parts is a strict prefix of the other. *)
Lemma kcmp_frames ps qs m n e e' :
  (forall l, l <> [] -> qs <> ps ++ l) -> (forall l, l <> [] -> ps <> qs ++ l) ->
  kcmp (List.map KStr ps ++ [KInt m; KStr e]) (List.map KStr qs ++ [KInt n; KStr e']) <> None.
Proof.
  revert qs. induction ps as [|p ps IH]; intros [|q qs] H1 H2; cbn [List.map app kcmp].
  - destruct (Z.compare m n); [|discriminate|discriminate]. destruct (String.compare e e'); discriminate.
  - exfalso. apply (H1 (q :: qs)); [discriminate|reflexivity].
  - exfalso. apply (H2 (p :: ps)); [discriminate|reflexivity].
  - destruct (String.compare p q) eqn:E; [|discriminate|discriminate]. apply str_cmp_eq in E. subst q. apply IH.
    + intros l Hl ->. apply (H1 l Hl). reflexivity.
    + intros l Hl ->. apply (H2 l Hl). reflexivity.
Qed.

Lemma split_prefix (a b : string) l : l <> [] -> split_on "_" b = split_on "_" a ++ l -> b = (a ++ "_" ++ join "_" l)%string.
Proof.
  intros Hl E. rewrite <- (join_split "_" b), E.
  rewrite <- (join_split "_" a) at 2. generalize (split_on_nonnil "_" a). generalize (split_on "_" a).
  induction l0 as [|x xs IH]; intros Hn; [congruence|]. destruct xs as [|y ys].
  - cbn [app join]. destruct l; [congruence|]. reflexivity.
  - change (join "_" ((x :: y :: ys) ++ l)) with (x ++ "_" ++ join "_" ((y :: ys) ++ l))%string.
    rewrite IH by discriminate.
    change (join "_" (x :: y :: ys)) with (x ++ "_" ++ join "_" (y :: ys))%string.
    now rewrite !str_app_assoc.
Qed.

(** Names of the form stem_number.ext, no stem continuing another one with an
    underscore: frames of the same stem are loaded in numeric order. *)
Theorem C22_frame_order : forall glob s f1 f2 stem n1 n2,
  has_wildcard s = true ->
  let files := List.filter (fun f => negb (contains "restart" f)) (glob s) in
  (forall f, In f files -> exists st n, frame_of f st n) ->
  (forall f g st st' n n' rest, In f files -> In g files -> frame_of f st n -> frame_of g st' n' ->
     st' <> (st ++ "_" ++ rest)%string) ->
  In f1 files -> In f2 files -> frame_of f1 stem n1 -> frame_of f2 stem n2 -> (n1 < n2)%N ->
  before_in (load_files glob s) f1 f2.
Proof.
  intros glob s f1 f2 stem n1 n2 Hw files Hfr Hpre I1 I2 F1 F2 Hlt.
  unfold load_files. rewrite Hw. fold files. clearbody files.
  assert (Hk : exists keys, mapM crush files = Ok keys).
  { clear -Hfr. induction files as [|f l IH]; cbn [mapM]; [eauto|].
    destruct (Hfr f (or_introl eq_refl)) as (st & n & Hf). destruct (crush_frame _ _ _ Hf) as [e ->]. cbn [bind].
    destruct IH as [ks ->]; [intros; apply Hfr; now right|]. cbn. eauto. }
  destruct Hk as [keys Hk]. unfold sort_files. rewrite Hk.
  destruct (mapM_crush _ _ Hk) as [Hl Hkf].
  assert (Hin : forall f, In f files -> exists k, In (k, f) (combine keys files)).
  { clear -Hl. revert keys Hl. induction files as [|g l IH]; intros [|k ks] Hl f Hf; try discriminate; [destruct Hf|].
    destruct Hf as [->|Hf]; [exists k; now left|]. injection Hl as Hl. destruct (IH ks Hl f Hf) as [k' Hk']. exists k'. now right. }
  assert (Hkey : forall k, In k keys -> exists f, In f files /\ crush f = Ok k).
  { intros k Hin'. assert (exists f, In (k, f) (combine keys files)) as [f Hf].
    { clear -Hl Hin'. revert files Hl. induction keys as [|k' ks IH]; intros [|g l] Hl; try discriminate; [destruct Hin'|].
      destruct Hin' as [->|Hi]; [exists g; now left|]. injection Hl as Hl. destruct (IH Hi l Hl) as [f Hf]. exists f. now right. }
    exists f. split; [eapply in_combine_r; eauto|auto]. }
  assert (Hcmp : forall k k', In k keys -> In k' keys -> kcmp k k' <> None).
  { intros k k' Hk1 Hk2. destruct (Hkey k Hk1) as (f & If & Cf). destruct (Hkey k' Hk2) as (g & Ig & Cg).
    destruct (Hfr f If) as (st & n & Ff). destruct (Hfr g Ig) as (st' & n' & Fg).
    destruct (crush_frame _ _ _ Ff) as [e Ef]. destruct (crush_frame _ _ _ Fg) as [e' Eg].
    rewrite Ef in Cf. rewrite Eg in Cg. injection Cf as <-. injection Cg as <-. apply kcmp_frames.
    - intros l Hl' E. apply split_prefix in E; auto. revert E. apply (Hpre f g st st' n n'); auto.
    - intros l Hl' E. apply split_prefix in E; auto. revert E. apply (Hpre g f st' st n' n); auto. }
  replace (forallb _ keys) with true.
  2:{ symmetry. apply forallb_forall. intros k Hk1. apply forallb_forall. intros k' Hk2.
      specialize (Hcmp k k' Hk1 Hk2). destruct (kcmp k k'); congruence. }
  destruct (Hin f1 I1) as [k1 P1]. destruct (Hin f2 I2) as [k2 P2].
  change f1 with (snd (k1, f1)). change f2 with (snd (k2, f2)). apply before_map.
  destruct (crush_frame _ _ _ F1) as [e1 E1]. destruct (crush_frame _ _ _ F2) as [e2 E2].
  rewrite (Hkf _ _ P1) in E1. rewrite (Hkf _ _ P2) in E2. injection E1 as ->. injection E2 as ->.
  assert (Hc : forall a b x y, kcmp (List.map KStr (split_on "_" stem) ++ [KInt (Z.of_N a); x])
                                    (List.map KStr (split_on "_" stem) ++ [KInt (Z.of_N b); y])
                       = if (a =? b)%N then kcmp [x] [y] else Some (a ?= b)%N).
  { intros a b x y. rewrite kcmp_same_prefix. cbn [kcmp]. rewrite N2Z.inj_compare.
    destruct (N.compare_spec a b) as [->|L|L]; [rewrite N.eqb_refl; destruct x, y; reflexivity| |]; destruct (N.eqb_spec a b); try lia; reflexivity. }
  apply sorted_before with (R := fun p q => kleb (fst p) (fst q) = true).
  - apply isort_sorted with (P := fun p : list kel * string => In (fst p) keys).
    + intros x y Hx Hy. apply kleb_total. auto.
    + intros x y z Hx Hy Hz. apply kleb_trans. auto.
    + apply Forall_forall. intros [k f] Hp. cbn. eapply in_combine_l; eauto.
  - eapply Permutation_in; [apply isort_perm|]. exact P1.
  - eapply Permutation_in; [apply isort_perm|]. exact P2.
  - cbn [fst]. unfold kleb. rewrite Hc. destruct (N.eqb_spec n2 n1); [lia|].
    destruct (N.compare_spec n2 n1); [lia|lia|discriminate].
  - intros E. apply (f_equal fst) in E. cbn [fst] in E. apply app_inv_head in E. injection E as E _. lia.
Qed.

Lemma kcmp_prefix_none ps l m n x y : l <> [] ->
  kcmp (List.map KStr ps ++ [KInt m; x]) (List.map KStr (ps ++ l) ++ [KInt n; y]) = None.
Proof.
  intros Hl. induction ps as [|p ps IH]; cbn [List.map app kcmp].
  - destruct l; [congruence|reflexivity].
  - rewrite str_cmp_refl. exact IH.
Qed.

(** If one stem continues another one with an underscore, sorting is off: the
    files are loaded in the order of the file system. *)
Theorem C22_sorting_off : forall glob s f g st n st' n' rest,
  has_wildcard s = true ->
  let files := List.filter (fun f => negb (contains "restart" f)) (glob s) in
  In f files -> In g files -> frame_of f st n -> frame_of g st' n' -> st' = (st ++ "_" ++ rest)%string ->
  load_files glob s = files.
Proof.
  intros glob s f g st n st' n' rest Hw files If Ig Ff Fg ->. unfold load_files. rewrite Hw. fold files. clearbody files.
  unfold sort_files. destruct (mapM crush files) as [keys|] eqn:Hk; [|reflexivity].
  destruct (mapM_crush _ _ Hk) as [Hl Hkf].
  assert (Hin : forall f, In f files -> exists k, In k keys /\ crush f = Ok k).
  { intros f0 Hf0. assert (exists k, In (k, f0) (combine keys files)) as [k Hkk].
    { clear -Hl Hf0. revert keys Hl. induction files as [|g l IH]; intros [|k ks] Hl; try discriminate; [destruct Hf0|].
      destruct Hf0 as [->|Hf]; [exists k; now left|]. injection Hl as Hl. destruct (IH Hf ks Hl) as [k' Hk']. exists k'. now right. }
    exists k. split; [eapply in_combine_l; eauto|auto]. }
  destruct (Hin f If) as (k & Ik & Ck). destruct (Hin g Ig) as (k' & Ik' & Ck').
  destruct (crush_frame _ _ _ Ff) as [e Ef]. destruct (crush_frame _ _ _ Fg) as [e' Eg].
  rewrite Ef in Ck. rewrite Eg in Ck'. injection Ck as <-. injection Ck' as <-.
  destruct (forallb _ keys) eqn:E; [|reflexivity]. exfalso.
  rewrite forallb_forall in E. specialize (E _ Ik). cbn beta in E. rewrite forallb_forall in E. specialize (E _ Ik'). cbn beta in E.
  change (st ++ "_" ++ rest)%string with (st ++ String "_" rest)%string in E.
  rewrite split_on_app_sep, kcmp_prefix_none in E by apply split_on_nonnil. discriminate.
Qed.

(** So numeric order is not guaranteed for all sets of frame files. *)
Theorem C22_always_numeric_refuted : exists glob s f1 f2,
  has_wildcard s = true /\ frame_of f1 "x" 9 /\ frame_of f2 "x" 10 /\
  (forall f, In f (glob s) -> exists st n, frame_of f st n) /\
  load_files glob s = [f2; f1; "x_elc_0.gkyl"%string].
Proof.
  exists (fun _ => ["x_10.gkyl"; "x_9.gkyl"; "x_elc_0.gkyl"]%string), "x_*"%string, "x_9.gkyl"%string, "x_10.gkyl"%string.
  split; [reflexivity|].
  assert (H9 : frame_of "x_9.gkyl" "x" 9) by (exists "9"%string, "gkyl"%string; repeat split).
  assert (H10 : frame_of "x_10.gkyl" "x" 10) by (exists "10"%string, "gkyl"%string; repeat split).
  split; [exact H9|]. split; [exact H10|]. split; [|reflexivity].
  intros f [<-|[<-|[<-|[]]]]; eauto. exists "x_elc"%string, 0%N, "0"%string, "gkyl"%string. repeat split.
Qed.

(** A bracket pattern is accepted as a file argument but not expanded. *)
Theorem C22_brackets_expanded_refuted : exists glob s,
  glob s = ["x_1.gkyl"; "x_2.gkyl"]%string /\
  get_command pgkyl_commands glob s [] = Ok ("load"%string, [s]) /\ load_files glob s = [s].
Proof.
  exists (fun _ => ["x_1.gkyl"; "x_2.gkyl"]%string), "x_[12].gkyl"%string. repeat split.
Qed.

Example C22_ex :
  load_files (fun _ => ["x_10.gkyl"; "x_restart.gkyl"; "x_9.gkyl"; "w_3.gkyl"; "x_009.bp"]%string) "*"%string
  = ["w_3.gkyl"; "x_009.bp"; "x_9.gkyl"; "x_10.gkyl"]%string.
Proof. vm_compute. reflexivity. Qed.

(** ** C23 *)
Section C23.
  Context (cmds : list string) (glob : string -> list string).

  (** A word that stands for a file (by C20). *)
  Definition is_file (w : string) : bool :=
    negb (existsb (fun x => starts_with w x) cmds).

  Lemma get_command_kind w q c q' : get_command cmds glob w q = Ok (c, q') ->
    (is_file w = true /\ c = "load"%string /\ q' = q ++ [w]) \/ (is_file w = false /\ q' = q /\ In c cmds).
  Proof.
    unfold get_command, is_file. destruct (is_cmd cmds w) eqn:E.
    - intros [= <- <-]. right. apply is_cmd_in in E. split; [|auto]. apply negb_false_iff, existsb_exists.
      exists w. split; auto. apply starts_with_prefix. exists ""%string. now rewrite str_app_nil.
    - destruct (List.filter (fun x => starts_with w x) cmds) as [|a l] eqn:Ef.
      + destruct (glob w); [discriminate|]. destruct (is_cmd cmds "load"); [|discriminate]. intros [= <- <-]. left.
        split; [|auto]. apply negb_true_iff, not_true_iff_false. rewrite existsb_exists. intros (x & Hx & Hs).
        assert (Hi : In x (List.filter (fun x => starts_with w x) cmds)) by (apply filter_In; auto). rewrite Ef in Hi. destruct Hi.
      + assert (Ha : In a (List.filter (fun x => starts_with w x) cmds)) by (rewrite Ef; now left).
        apply filter_In in Ha as [H1 H2]. destruct l; [|discriminate]. intros [= <- <-]. right.
        split; [|auto]. apply negb_false_iff, existsb_exists. eauto.
  Qed.

  Lemma resolve_queue ws q cs q' : resolve cmds glob ws q = Ok (cs, q') ->
    q' = q ++ List.filter is_file ws /\
    length (List.filter (String.eqb "load") cs) =
      (length (List.filter is_file ws) + length (List.filter (fun p => negb (is_file (fst p)) && String.eqb "load" (snd p)) (combine ws cs)))%nat /\
    length cs = length ws.
  Proof.
    revert q cs. induction ws as [|w ws IH]; intros q cs; cbn [resolve].
    - intros [= <- <-]. cbn. now rewrite app_nil_r.
    - destruct (get_command cmds glob w q) as [[c q1]|] eqn:E; [|discriminate]. cbn [bind].
      destruct (resolve cmds glob ws q1) as [[cs1 q2]|] eqn:E2; [|discriminate]. cbn [bind]. intros [= <- <-].
      destruct (IH q1 cs1 E2) as (H1 & H2 & H3). cbn [List.filter combine length fst snd].
      apply get_command_kind in E as [(Hf & -> & ->)|(Hf & -> & Hc)]; rewrite Hf; cbn [negb andb].
      + rewrite H1. rewrite String.eqb_refl. cbn [length]. rewrite <- app_assoc. split; [reflexivity|]. split; lia.
      + rewrite H1. destruct (String.eqb "load" c); cbn [length]; (split; [reflexivity|]; split; lia).
  Qed.

  Lemma skipn_nth {A} (l : list A) k a : nth_error l k = Some a -> skipn k l = a :: skipn (S k) l.
  Proof. revert l. induction k as [|k IH]; intros [|b l]; try discriminate; [intros [= ->]; reflexivity|]. intros H. apply (IH l H). Qed.

  Lemma invoke_loads cs q k :
    invoke cs q k = (if (length (List.filter (String.eqb "load") cs) <=? length q - k)%nat
                     then Ok (firstn (length (List.filter (String.eqb "load") cs)) (skipn k q)) else Err IndexError).
  Proof.
    revert k. induction cs as [|c cs IH]; intros k; cbn [invoke List.filter].
    - reflexivity.
    - rewrite (String.eqb_sym c "load"). destruct (String.eqb "load" c); [|apply IH]. cbn [length].
      destruct (nth_error q k) as [s|] eqn:E.
      + rewrite IH. assert (k < length q)%nat by (apply nth_error_Some; congruence).
        rewrite (skipn_nth _ _ _ E).
        destruct (Nat.leb_spec (length (List.filter (String.eqb "load") cs)) (length q - S k)),
                 (Nat.leb_spec (S (length (List.filter (String.eqb "load") cs))) (length q - k)); try lia; reflexivity.
      + apply nth_error_None in E. destruct (Nat.leb_spec (S (length (List.filter (String.eqb "load") cs))) (length q - k)); [lia|reflexivity].
  Qed.

  (** If no word runs [load] as a command, the chain loads exactly the file
      words, each once and in order. *)
  Theorem C23_files_in_order ws cs q :
    resolve cmds glob ws [] = Ok (cs, q) ->
    (forall k w, nth_error ws k = Some w -> nth_error cs k = Some "load"%string ->
       ~ exists x, In x cmds /\ prefix_of w x) ->
    chain cmds glob ws = Ok (List.filter is_file ws).
  Proof.
    intros H Hno. unfold chain. rewrite H. cbn [bind]. apply resolve_queue in H as (H1 & H2 & H3). cbn [app] in H1. subst q.
    rewrite invoke_loads.
    replace (length (List.filter (fun p => negb (is_file (fst p)) && String.eqb "load" (snd p)) (combine ws cs))) with 0%nat in H2.
    - rewrite Nat.add_0_r in H2. rewrite H2, Nat.sub_0_r, Nat.leb_refl. cbn [skipn]. now rewrite firstn_all.
    - symmetry. apply length_zero_iff_nil. destruct (List.filter _ (combine ws cs)) as [|[w c] l] eqn:E; [reflexivity|]. exfalso.
      assert (Hi : In (w, c) (List.filter (fun p => negb (is_file (fst p)) && String.eqb "load" (snd p)) (combine ws cs))) by (rewrite E; now left).
      apply filter_In in Hi as [Hi Hc]. apply andb_true_iff in Hc as [Hf Hc]. cbn [fst snd] in *. apply String.eqb_eq in Hc. subst c.
      apply In_nth_error in Hi as [k Hk].
      assert (Hwc : nth_error ws k = Some w /\ nth_error cs k = Some "load"%string).
      { clear -Hk. revert ws cs Hk. induction k as [|k IH]; intros [|a ws] [|b cs] Hk; try discriminate; cbn in *.
        - injection Hk as -> ->. auto.
        - auto. }
      destruct Hwc as [Hw Hcs]. apply (Hno k w Hw Hcs). apply negb_true_iff in Hf. unfold is_file in Hf. apply negb_false_iff in Hf.
      apply existsb_exists in Hf as (x & Hx & Hs). exists x. split; auto. now apply starts_with_prefix.
  Qed.

  (** A chain with an explicit [load] always fails: there are more loads than
      files. *)
  Theorem C23_explicit_load_fails ws cs q k w :
    resolve cmds glob ws [] = Ok (cs, q) ->
    nth_error ws k = Some w -> nth_error cs k = Some "load"%string -> (exists x, In x cmds /\ prefix_of w x) ->
    chain cmds glob ws = Err IndexError.
  Proof.
    intros H Hw Hc (x & Hx & Hp). unfold chain. rewrite H. cbn [bind]. apply resolve_queue in H as (H1 & H2 & H3). cbn [app] in H1. subst q.
    rewrite invoke_loads, H2, Nat.sub_0_r.
    assert (Hi : In (w, "load"%string) (List.filter (fun p => negb (is_file (fst p)) && String.eqb "load" (snd p)) (combine ws cs))).
    { apply filter_In. split.
      - clear -Hw Hc. revert ws cs Hw Hc. induction k as [|k IH]; intros [|a ws] [|b cs] Hw Hc; try discriminate; cbn in *.
        + injection Hw as ->. injection Hc as ->. now left.
        + right. auto.
      - cbn [fst snd]. apply andb_true_iff. split; [|reflexivity]. unfold is_file. rewrite negb_involutive. apply existsb_exists.
        exists x. split; auto. now apply starts_with_prefix. }
    destruct (List.filter _ (combine ws cs)) as [|p l]; [destruct Hi|]. cbn [length].
    destruct (Nat.leb_spec (length (List.filter is_file ws) + S (length l)) (length (List.filter is_file ws))); [lia|reflexivity].
  Qed.
End C23.

(** The datasets created by one load: every variable of every file once, the
    files of the first variable first. *)
Theorem C23_every_variable_of_every_file : forall vars files v f i j,
  nth_error vars i = Some v -> nth_error files j = Some f ->
  nth_error (load_pairs vars files) (i * length files + j) = Some (v, f) /\
  length (load_pairs vars files) = (length vars * length files)%nat.
Proof.
  intros vars files v f i j Hv Hf.
  assert (Hj : (j < length files)%nat) by (apply nth_error_Some; congruence).
  assert (L : forall vs, length (load_pairs vs files) = (length vs * length files)%nat).
  { induction vs as [|a vs IH]; [reflexivity|]. cbn [load_pairs flat_map length]. rewrite app_length, map_length. fold (load_pairs vs files). lia. }
  split; [|apply L]. revert i Hv. induction vars as [|a vars IH]; intros [|i] Hv; try discriminate; cbn [load_pairs flat_map].
  - injection Hv as ->. rewrite nth_error_app1 by (rewrite map_length; lia). cbn [Nat.mul Nat.add]. now rewrite nth_error_map, Hf.
  - rewrite nth_error_app2 by (rewrite map_length; lia). rewrite map_length.
    replace (S i * length files + j - length files)%nat with (i * length files + j)%nat by lia. apply IH, Hv.
Qed.

Example C23_ex :
  let glob := fun w => if String.eqb w "a.gkyl" || String.eqb w "b_*.gkyl" then ["x"%string] else [] in
  chain pgkyl_commands glob ["a.gkyl"; "interp"; "b_*.gkyl"; "a.gkyl"; "plot"]%string = Ok ["a.gkyl"; "b_*.gkyl"; "a.gkyl"]%string /\
  chain pgkyl_commands glob ["load"; "a.gkyl"; "plot"]%string = Err IndexError /\
  load_pairs ["p"; "q"]%string ["a"; "b"]%string = [("p", "a"); ("p", "b"); ("q", "a"); ("q", "b")]%string.
Proof. repeat split; vm_compute; reflexivity. Qed.

Print Assumptions C20_abbreviation.
Print Assumptions C20_queue.
Print Assumptions C21_cuts.
Print Assumptions C21_mapping_files.
Print Assumptions C22_exactly_once.
Print Assumptions C22_frame_order.
Print Assumptions C22_sorting_off.
Print Assumptions C23_files_in_order.
Print Assumptions C23_explicit_load_fails.
