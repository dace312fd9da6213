(** * C93: saved files of the plot command *)
From Coq Require Import String Ascii List Arith ZArith QArith Bool Lia Lqa.
From Verif Require Import Prelude PreludeFacts NdArray Sort DataSpace_Model DataSpace_Spec DataSpace_Proofs DataSpace_Proofs2 DataSpace_Proofs3
  Range_Model Range_Props PlotCmd_Model PlotCmd_Props PlotCmd_Props2.
Import ListNotations.
Open Scope list_scope.

Section Cmd.
  Context {X : Type} (vals : X -> list Q) (ncomps : X -> nat).
  Implicit Type ds : dspace X.

  Lemma on_disk_unique (p : pyplot) base (rs : list ref) (f : ref -> string) (tail : list (string * list ref)) r :
    py_files p = base ++ flat_map (fun r => List.map (fun nm => (nm, [r])) [f r]) rs ++ tail ->
    In r rs -> (forall r', In r' rs -> f r' = f r -> r' = r) -> (forall t, In t tail -> fst t <> f r) ->
    on_disk p (f r) = Some [r].
  Proof.
    intros E Hr U T. unfold on_disk. rewrite E, !fold_left_app. rewrite (on_disk_skip tail _ _ T).
    generalize (fold_left (fun acc g => if String.eqb (fst g) (f r) then Some (snd g) else acc) base None). clear E T.
    assert (Q : forall rs acc, (forall r', In r' rs -> f r' = f r -> r' = r) -> (In r rs \/ acc = Some [r]) ->
      fold_left (fun acc g => if String.eqb (fst g) (f r) then Some (snd g) else acc) (flat_map (fun r => List.map (fun nm => (nm, [r])) [f r]) rs) acc = Some [r]).
    { clear. induction rs as [|x rs IH]; intros acc U H; [destruct H as [[]|H]; exact H|]. cbn [flat_map List.map app fold_left fst snd].
      apply IH; [intros r' Hr'; apply U; now right|]. destruct (String.eqb_spec (f x) (f r)) as [Ex|Nx].
      - right. f_equal. f_equal. apply U; [now left|exact Ex].
      - destruct H as [[->|H]|H]; [congruence|now left|now right]. }
    intros o. apply Q; [exact U|now left].
  Qed.

  (** [--save] without [--figure]: if the text before the first dot of the file
      name is not empty and no other dataset has the same, the file of that
      name shows exactly that dataset. *)
  Theorem C93_saved o ds p ts calls p' shown :
    names ds (c_use o) ts -> Forall (fun t => In t (List.map fst ds)) ts ->
    c_multiblock o = false -> c_subplots o = false -> c_figure o = FigNone -> no_frames o ->
    c_save o = true -> given (c_saveas o) = None ->
    plot_cmd vals ncomps o ds p = Ok (calls, p', shown) ->
    let rs := active_all ds ts in
    have_files ds rs -> range_ok o (sets_of vals ds rs) ->
    forall r, In r rs -> file_stem ds r <> ""%string ->
      (forall r', In r' rs -> file_stem ds r' = file_stem ds r -> r' = r) ->
      on_disk p' (file_stem ds r) = Some [r].
  Proof.
    intros Hn Hk Om Os Of NF Sv Ga E rs HF HR r Hr Ne U.
    assert (NE : rs <> []) by (intros H; rewrite H in Hr; destruct Hr).
    destruct (C93_own_figures vals ncomps o ds p ts Hn Hk Om Os Of (or_intror NF) (fun _ _ => HF) HR (last rs r) NE) as (calls1 & p1 & sh & E1 & _ & _ & _ & _ & P).
    { fold rs. destruct (exists_last NE) as (l & x & ->). now rewrite !last_last. }
    rewrite E in E1. injection E1 as <- <- <-. rewrite Ga, Sv in P. destruct NF as (N1 & N2). rewrite N1, N2 in P. fold rs in P. cbn [orb] in P.
    apply (on_disk_unique p' (py_files p) rs (file_stem ds) [(""%string, [last rs r])] r); auto.
    intros t [<-|[]]. cbn. congruence.
  Qed.

  (** [--saveframes] without [--figure] and [--save]: one file for each dataset,
      named by its position within the tag; with one tag every dataset has its
      own. *)
  Theorem C93_frames o ds p ts prefix calls p' shown :
    names ds (c_use o) ts -> Forall (fun t => In t (List.map fst ds)) ts ->
    c_multiblock o = false -> c_subplots o = false -> c_figure o = FigNone -> not_saved o -> c_batch o = None ->
    c_saveframes o = Some prefix -> prefix <> ""%string ->
    plot_cmd vals ncomps o ds p = Ok (calls, p', shown) ->
    let rs := active_all ds ts in
    range_ok o (sets_of vals ds rs) ->
    forall r, In r rs -> (forall r', In r' rs -> snd r' = snd r -> r' = r) ->
      on_disk p' (prefix ++ "_" ++ show_Z (Z.of_nat (snd r)) ++ ".png") = Some [r] /\ shown = false.
  Proof.
    intros Hn Hk Om Os Of NS Nb Sf Np E rs HR r Hr U.
    assert (NE : rs <> []) by (intros H; rewrite H in Hr; destruct Hr).
    assert (G : given (c_saveframes o) = Some prefix) by (rewrite Sf; destruct prefix; [congruence|reflexivity]).
    pose proof (C93_calls vals ncomps o ds p ts calls p' shown Hn Hk E) as (Rf & _ & _ & Sh). split.
    - destruct (C93_own_figures vals ncomps o ds p ts Hn Hk Om Os Of (or_introl NS)) with (r0 := last rs r) as (calls1 & p1 & sh & E1 & _ & _ & _ & _ & P); auto.
      { intros A. destruct NS as (A' & _). congruence. }
      { fold rs. destruct (exists_last NE) as (l & x & ->). now rewrite !last_last. }
      rewrite E in E1. injection E1 as <- <- <-. destruct NS as (A & B). rewrite A, B, G, Nb in P. cbn [orb app] in P.
      apply (on_disk_unique p' (py_files p) rs (fun r => (prefix ++ "_" ++ show_Z (Z.of_nat (snd r)) ++ ".png")%string) [] r); auto.
      intros r' Hr' Eq. apply U; [exact Hr'|].
      assert (Q : forall (a b c : string), (a ++ b = a ++ c)%string -> b = c) by (clear; induction a as [|x a IH]; intros b c H; cbn in H; [exact H|injection H; auto]).
      apply Q in Eq. injection Eq as Eq.
      assert (Q2 : forall (a b c : string), (a ++ c = b ++ c)%string -> a = b).
      { clear. intros a b c H. apply (f_equal list_ascii_of_string) in H.
        assert (A : forall x y, list_ascii_of_string (x ++ y) = list_ascii_of_string x ++ list_ascii_of_string y)
          by (induction x as [|z x IH]; intros y; cbn; [reflexivity|now rewrite IH]).
        rewrite !A in H. apply app_inv_tail in H. rewrite <- (string_of_list_ascii_of_string a), H. apply string_of_list_ascii_of_string. }
      apply Q2 in Eq. apply (f_equal py_int) in Eq. rewrite !py_int_show_Z in Eq. injection Eq as Eq. lia.
    - destruct shown; [|reflexivity]. destruct Sh as (Sh & _). specialize (Sh eq_refl) as (_ & Sh).
      assert (NC : calls <> []). { intros ->. cbn in Rf. fold rs in Rf. congruence. }
      specialize (Sh NC) as (Sh & _). congruence.
  Qed.

  (** ** All datasets in one figure *)

  (** [--multiblock] uses figure 0, [--figure k] figure k, [--subplots] without
      [--figure] figure 0. *)
  Definition one_figure (o : copts) (k : Z) : Prop :=
    c_multiblock o = true /\ k = 0%Z \/
    c_multiblock o = false /\
      (c_figure o = FigInt k \/
       (exists s, c_figure o = FigStr s /\ ~ In s ["dataset"; "set"; "s"]%string /\ py_int s = Ok k) \/
       c_figure o = FigNone /\ c_subplots o = true /\ k = 0%Z).

  Lemma one_figure_num o k : one_figure o k -> forall i, fig_num (figure_of o i) = Ok (Some k).
  Proof.
    intros [(M & ->)|(M & H)] i; unfold figure_of; rewrite M; [reflexivity|]. unfold figure0.
    destruct H as [->|[(s & -> & N & P)|(-> & S1 & ->)]]; [reflexivity| |rewrite S1; reflexivity].
    cbn [per_dataset]. destruct (String.eqb_spec s "dataset"); [exfalso; apply N; left; congruence|].
    destruct (String.eqb_spec s "set"); [exfalso; apply N; right; left; congruence|].
    destruct (String.eqb_spec s "s"); [exfalso; apply N; right; right; left; congruence|]. cbn [orb fig_num]. now rewrite P.
  Qed.

  Lemma drawn_all k (l : list (nat * ref * dset X)) j :
    drawn_in (fun _ => k) j l = if (k =? j)%Z then List.map (fun e => snd (fst e)) l else [].
  Proof. induction l as [|e l IH]; cbn [drawn_in List.map]; [now destruct (k =? j)%Z|]. rewrite IH. now destruct (k =? j)%Z. Qed.

  Theorem C93_one_figure o ds p ts k :
    names ds (c_use o) ts -> Forall (fun t => In t (List.map fst ds)) ts ->
    one_figure o k -> no_frames o ->
    let rs := active_all ds ts in
    (c_save o = true -> given (c_saveas o) = None -> have_files ds rs) ->
    range_ok o (sets_of vals ds rs) -> rs <> [] ->
    exists calls p' shown, plot_cmd vals ncomps o ds p = Ok (calls, p', shown) /\
      List.map pc_ref calls = rs /\ Forall (fun c => pc_fig c = k) calls /\
      (c_subplots o = true -> forall n c, nth_error calls n = Some c ->
         pc_start c = list_sum (List.map (fun r => match lookup ds r with Some d => ncomps (ds_data d) | None => 0%nat end) (firstn n rs))) /\
      let all := (match fig_get k (py_figs p) with Some b => b | None => [] end ++ rs)%list in
      (forall j, fig_get j (py_figs p') = if (j =? k)%Z then Some all else fig_get j (py_figs p)) /\
      (not_saved o -> py_files p' = py_files p) /\
      (forall s, given (c_saveas o) = Some s -> py_files p' = py_files p ++ [(s, all)]) /\
      (c_save o = true -> given (c_saveas o) = None -> Forall (fun r => file_stem ds r <> ""%string) rs ->
       py_files p' = py_files p ++ [(join "_" (List.map (file_stem ds) rs), all)]).
  Proof.
    intros Hn Hk OF NF rs HF HR NE. unfold plot_cmd.
    destruct (seen_spec ds (c_use o) ts Hn Hk) as (l & El & F). fold rs in F. rewrite El. cbn [bind].
    destruct (entries vals ds rs l F) as (E1 & E2 & E3 & E4 & E5).
    assert (NEl : l <> []). { intros ->. inversion F as [Hr|]. congruence. }
    destruct (limits_exist vals o l NEl) as (zmin & zmax & Elim); [rewrite E1; exact HR|]. rewrite Elim. cbn [bind].
    destruct (num_exists ds) as (n & En).
    assert (En' : match l with [] => Ok 0%nat | _ :: _ => get_num_datasets ds None true end = Ok n) by (destruct l; [congruence|exact En]).
    rewrite En'. cbn [bind].
    destruct (shared_loop ncomps o (1 <? n)%nat zmin zmax (fun _ => k) (one_figure_num o k OF) NF l ""%string 0%nat p) as (calls & fn & p1 & EL & C & Fg & St & G & P2 & P3 & P4).
    { intros A B. apply E5. now apply HF. }
    rewrite EL. cbn [bind].
    assert (Rf : List.map pc_ref calls = rs).
    { rewrite <- E2. clear - C. induction C as [|e c l calls (A & _) C IH]; [reflexivity|]. cbn [List.map]. now rewrite A, IH. }
    set (all := (match fig_get k (py_figs p) with Some b => b | None => [] end ++ rs)%list).
    assert (G' : forall j, fig_get j (py_figs p1) = if (j =? k)%Z then Some all else fig_get j (py_figs p)).
    { intros j. rewrite G. unfold fig_after. rewrite drawn_all, E2. rewrite (Z.eqb_sym k j). destruct (Z.eqb_spec j k) as [->|]; [|reflexivity].
      unfold all. destruct rs; [congruence|reflexivity]. }
    assert (Cur : py_cur p1 = Some k). { destruct (exists_last NEl) as (l' & e & ->). exact (P3 l' e eq_refl). }
    assert (SV : forall f, savefig f p1 = mk_py (py_figs p1) (Some k) (py_files p ++ [(f, all)])).
    { intros f. unfold savefig. rewrite Cur. rewrite (G' k), Z.eqb_refl, P2. now rewrite Cur. }
    eexists calls, _, _. split; [reflexivity|]. split; [exact Rf|]. split.
    { clear - Fg. revert Fg. generalize calls. induction l as [|e l IH]; intros [|c cs] H; try discriminate H; [constructor|]. cbn in H. injection H as A B. constructor; auto. }
    split.
    { intros Su m c Hc. assert (Hm : nth_error (List.map pc_start calls) m = Some (pc_start c)) by (rewrite nth_error_map, Hc; reflexivity).
      rewrite (St Su), nth_error_map in Hm. destruct (nth_error (seq 0 (length l)) m) as [q|] eqn:Eq; [|discriminate Hm]. injection Hm as <-.
      assert (Lm : (m < length l)%nat). { rewrite <- (seq_length (length l) 0). apply nth_error_Some. congruence. }
      rewrite (nth_error_nth' _ 0%nat) in Eq by (rewrite seq_length; exact Lm). rewrite seq_nth in Eq by exact Lm. injection Eq as <-. cbn [Nat.add].
      f_equal. clear - F. revert m. induction F as [|r e rs l (d & Ed & ->) F IH]; intros [|m]; cbn [firstn List.map]; try reflexivity. cbn [snd]. rewrite Ed. f_equal. apply IH. }
    cbv zeta. fold all. split; [intros j; destruct (saving o); [rewrite SV|]; apply G'|].
    split; [|split].
    - intros (A & B). unfold saving. rewrite A, B. exact P2.
    - intros s A. unfold saving. rewrite A, orb_true_r, SV. cbn [py_files]. rewrite P4, A. destruct l; [congruence|reflexivity].
    - intros A B Hs. unfold saving. rewrite A, SV. cbn [orb py_files]. rewrite P4, B, A. do 3 f_equal.
      destruct l as [|e l]; [congruence|]. change (fold_left acc_name (e :: l) ""%string) with (fold_left acc_name l (stem (snd e))). rewrite acc_join; [now rewrite E3|].
      clear - Hs E3. destruct rs as [|r rs]; [discriminate E3|]. inversion Hs; subst. cbn in E3. injection E3 as A _. congruence.
  Qed.

  (** ** A figure for each position within a tag: [--figure dataset] *)

  Theorem C93_per_dataset o ds p ts s :
    names ds (c_use o) ts -> Forall (fun t => In t (List.map fst ds)) ts ->
    c_multiblock o = false -> c_figure o = FigStr s -> In s ["dataset"; "set"; "s"]%string -> no_frames o ->
    c_save o = true -> given (c_saveas o) = None ->
    let rs := active_all ds ts in
    have_files ds rs -> Forall (fun r => file_stem ds r <> ""%string) rs ->
    range_ok o (sets_of vals ds rs) ->
    forall rs' r0, rs = rs' ++ [r0] ->
    exists calls p' shown, plot_cmd vals ncomps o ds p = Ok (calls, p', shown) /\
      Forall (fun c => pc_fig c = Z.of_nat (snd (pc_ref c))) calls /\
      (* one file only, which shows the figure of the last dataset *)
      py_files p' = py_files p ++
        [(join "_" (List.map (file_stem ds) rs),
          (match fig_get (Z.of_nat (snd r0)) (py_figs p) with Some b => b | None => [] end ++
           List.filter (fun r => Nat.eqb (snd r) (snd r0)) rs)%list)].
  Proof.
    intros Hn Hk Om Of Hs NF Sv Ga rs HF HSt HR rs' r0 Elast.
    assert (NE : rs <> []) by (rewrite Elast; destruct rs'; discriminate). unfold plot_cmd.
    destruct (seen_spec ds (c_use o) ts Hn Hk) as (l & El & F). fold rs in F. rewrite El. cbn [bind].
    destruct (entries vals ds rs l F) as (E1 & E2 & E3 & E4 & E5).
    assert (NEl : l <> []). { intros ->. inversion F as [Hr|]. congruence. }
    destruct (limits_exist vals o l NEl) as (zmin & zmax & Elim); [rewrite E1; exact HR|]. rewrite Elim. cbn [bind].
    destruct (num_exists ds) as (n & En).
    assert (En' : match l with [] => Ok 0%nat | _ :: _ => get_num_datasets ds None true end = Ok n) by (destruct l; [congruence|exact En]).
    rewrite En'. cbn [bind].
    assert (FN : forall i, fig_num (figure_of o i) = Ok (Some (Z.of_nat i))).
    { intros i. unfold figure_of, figure0. rewrite Om, Of. cbn [per_dataset]. destruct Hs as [<-|[<-|[<-|[]]]]; reflexivity. }
    destruct (shared_loop ncomps o (1 <? n)%nat zmin zmax Z.of_nat FN NF l ""%string 0%nat p) as (calls & fn & p1 & EL & C & Fg & _ & G & P2 & P3 & P4).
    { intros A B. now apply E5. }
    rewrite EL. cbn [bind]. eexists calls, _, _. split; [reflexivity|]. split.
    { clear - C Fg E4. revert Fg E4. induction C as [|e c l calls (A & _) C IH]; intros Fg E4; constructor.
      - cbn in Fg. injection Fg as B _. rewrite B, A. rewrite (E4 e); [reflexivity|now left].
      - apply IH; [cbn in Fg; now injection Fg|]. intros e' He'. apply E4. now right. }
    unfold saving. rewrite Sv. cbn [orb].
    assert (Fin : exists l' e, l = l' ++ [e] /\ snd (fst e) = r0).
    { destruct (exists_last NEl) as (l' & e & ->). exists l', e. split; [reflexivity|]. rewrite map_app, Elast in E2. cbn [List.map] in E2. apply app_inj_tail in E2. apply E2. }
    destruct Fin as (l' & e & Ee & Er0). specialize (P3 l' e Ee).
    assert (Ie : fst (fst e) = snd r0). { rewrite <- Er0. apply E4. rewrite Ee. apply in_or_app. right. now left. }
    rewrite Ie in P3. unfold savefig. rewrite P3. cbn [py_files]. rewrite P2, P4, Ga, Sv. do 2 f_equal. f_equal.
    - destruct l as [|e1 l1]; [congruence|]. change (fold_left acc_name (e1 :: l1) ""%string) with (fold_left acc_name l1 (stem (snd e1))). rewrite acc_join; [now rewrite E3|].
      clear - HSt E3 NE. destruct rs as [|r rs]; [congruence|]. inversion HSt; subst. cbn in E3. injection E3 as A _. congruence.
    - rewrite G. unfold fig_after.
      assert (D : drawn_in Z.of_nat (Z.of_nat (snd r0)) l = List.filter (fun r => Nat.eqb (snd r) (snd r0)) rs).
      { rewrite <- E2. clear - E4. induction l as [|x l IH]; [reflexivity|]. cbn [drawn_in List.map List.filter].
        rewrite IH by (intros y Hy; apply E4; now right). rewrite (E4 x) by (now left).
        destruct (Z.eqb_spec (Z.of_nat (snd (snd (fst x)))) (Z.of_nat (snd r0))), (Nat.eqb_spec (snd (snd (fst x))) (snd r0)); try reflexivity; lia. }
      rewrite D. destruct (List.filter (fun r => Nat.eqb (snd r) (snd r0)) rs) as [|y ys] eqn:Ef; [|reflexivity]. exfalso.
      assert (I : In r0 (List.filter (fun r => Nat.eqb (snd r) (snd r0)) rs)).
      { apply filter_In. split; [rewrite Elast; apply in_or_app; right; now left|apply Nat.eqb_refl]. }
      rewrite Ef in I. destruct I.
  Qed.

  (** ** A computed dataset cannot be saved without [--saveas] *)

  Lemma loop_computed o several zmin zmax l : forall fn start p,
    c_save o = true -> given (c_saveas o) = None -> (forall i, exists num, fig_num (figure_of o i) = Ok num) ->
    Exists (fun e => ds_file (snd e) = ""%string) l -> plot_loop ncomps o several zmin zmax l fn start p = Err KeyError.
  Proof.
    induction l as [|((i, r), d) l IH]; intros fn start p A B FN H; [inversion H|]. cbn [plot_loop].
    destruct (FN i) as (num & ->). cbn [bind]. destruct (open_fig num p) as (q, k). unfold next_name. rewrite A, B.
    destruct (String.eqb_spec (ds_file d) ""); [reflexivity|]. cbn [bind]. rewrite IH; auto. inversion H; subst; [contradiction|assumption].
  Qed.

  Theorem C93_computed o ds p ts :
    names ds (c_use o) ts -> Forall (fun t => In t (List.map fst ds)) ts ->
    c_save o = true -> given (c_saveas o) = None ->
    (c_figure o = FigNone \/ c_multiblock o = true) ->
    range_ok o (sets_of vals ds (active_all ds ts)) ->
    (exists r d, In r (active_all ds ts) /\ lookup ds r = Some d /\ ds_file d = ""%string) ->
    plot_cmd vals ncomps o ds p = Err KeyError.
  Proof.
    intros Hn Hk Sv Ga HF HR (r & d & Hr & Hd & Hf). unfold plot_cmd.
    destruct (seen_spec ds (c_use o) ts Hn Hk) as (l & El & F). rewrite El. cbn [bind].
    destruct (entries vals ds _ l F) as (E1 & E2 & E3 & E4 & E5).
    assert (NEl : l <> []). { intros ->. inversion F as [Hr'|]. rewrite <- Hr' in Hr. destruct Hr. }
    destruct (limits_exist vals o l NEl) as (zmin & zmax & Elim); [rewrite E1; exact HR|]. rewrite Elim. cbn [bind].
    destruct (num_exists ds) as (n & En).
    assert (En' : match l with [] => Ok 0%nat | _ :: _ => get_num_datasets ds None true end = Ok n) by (destruct l; [congruence|exact En]).
    rewrite En'. cbn [bind]. rewrite loop_computed; auto.
    - intros i. unfold figure_of, figure0. destruct HF as [->| ->]; [|eexists; reflexivity].
      destruct (c_multiblock o); [eexists; reflexivity|]. destruct (c_subplots o); eexists; reflexivity.
    - clear - F Hr Hd Hf. induction F as [|r' e rs l (d' & Ed & ->) F IH]; [destruct Hr|]. destruct Hr as [->|Hr].
      + left. cbn. congruence.
      + right. now apply IH.
  Qed.
End Cmd.

(** ** Examples *)

Definition demo_opts (f : figopt) (sub save : bool) (as_ frames legend : option string) : copts :=
  mk_copts None f sub false save as_ frames None legend false None None 1 false None true.
Definition demo_ds : dspace (list Q) :=
  [("a", [mk_dset 0 "euler-n_0.gkyl" true "n0" [1; 2]; mk_dset 1 "euler-n_1.gkyl" true "n1" [3; 5; 4]])]%string.
Definition empty_py : pyplot := mk_py [] None [].
Notation run o ds := (plot_cmd (fun v : list Q => v) (@length Q) o ds empty_py).

(** Each dataset has a file, and the figure of the last one is written once
    more under an empty name. *)
Example C93_saved_ex :
  match run (demo_opts FigNone false true None None None) demo_ds with
  | Ok (calls, p, shown) =>
      List.map pc_fig calls = [1; 2]%Z /\ List.map pc_label calls = ["n0"; "n1"]%string /\
      on_disk p "euler-n_0" = Some [("a"%string, 0%nat)] /\ on_disk p "euler-n_1" = Some [("a"%string, 1%nat)] /\
      on_disk p "" = Some [("a"%string, 1%nat)] /\ shown = true
  | Err _ => False
  end.
Proof. vm_compute. repeat split. Qed.

Example C93_saved_hyps :
  names demo_ds None ["a"%string] /\ active_all demo_ds ["a"%string] = [("a"%string, 0%nat); ("a"%string, 1%nat)] /\
  range_ok (demo_opts FigNone false true None None None) (sets_of (fun v => v) demo_ds (active_all demo_ds ["a"%string])).
Proof. split; [constructor|]. split; [reflexivity|]. left. repeat split. Qed.

Example C93_frames_ex :
  match run (demo_opts FigNone false false None (Some "f"%string) None) demo_ds with
  | Ok (_, p, shown) => on_disk p "f_0.png" = Some [("a"%string, 0%nat)] /\ on_disk p "f_1.png" = Some [("a"%string, 1%nat)] /\ shown = false
  | Err _ => False
  end.
Proof. vm_compute. repeat split. Qed.

Example C93_one_figure_ex :
  match run (demo_opts FigNone true true None None (Some " left,right "%string)) demo_ds with
  | Ok (calls, p, _) =>
      List.map pc_start calls = [0; 2]%nat /\ List.map pc_label calls = ["left"; "right"]%string /\
      py_files p = [("euler-n_0_euler-n_1"%string, [("a"%string, 0%nat); ("a"%string, 1%nat)])]
  | Err _ => False
  end.
Proof. vm_compute. repeat split. Qed.

(** Figures 3 and 4 exist already; figure 3 is drawn over. *)
Example C93_one_figure_ex2 :
  match plot_cmd (fun v : list Q => v) (@length Q) (demo_opts (FigStr "3"%string) false false (Some "x.pdf"%string) None None) demo_ds
          (mk_py [(3%Z, [("b"%string, 0%nat)]); (4%Z, [])] (Some 4%Z) []) with
  | Ok (_, p, _) => on_disk p "x.pdf" = Some [("b"%string, 0%nat); ("a"%string, 0%nat); ("a"%string, 1%nat)] /\ fig_get 4 (py_figs p) = Some []
  | Err _ => False
  end.
Proof. vm_compute. repeat split. Qed.

Example C93_computed_ex :
  run (demo_opts FigNone false true None None None) [("a", [mk_dset 0 "" true "" [1%Q]])]%string = Err KeyError.
Proof. reflexivity. Qed.

(** A figure that is neither a number nor one of the three words. *)
Example C93_bad_figure_ex : run (demo_opts (FigStr "fig"%string) false false None None None) demo_ds = Err ValueError.
Proof. reflexivity. Qed.

(** ** What does not hold *)

Definition saved_alone (o : copts) (ds : dspace (list Q)) : Prop :=
  forall calls p shown, run o ds = Ok (calls, p, shown) ->
  forall r, In r (active_all ds (List.map fst ds)) -> exists name, on_disk p name = Some [r].

(** [--save] does not always leave a picture of every dataset: the name is cut
    at the first dot, so "./a.gkyl" and "./b.gkyl" both are saved as "". *)
Theorem C93_stem_refuted : exists o ds,
  c_save o = true /\ c_figure o = FigNone /\ c_saveas o = None /\
  NoDup (List.map ds_file (flat_map snd ds)) /\ (exists out, run o ds = Ok out) /\ ~ saved_alone o ds.
Proof.
  exists (demo_opts FigNone false true None None None), [("d", [mk_dset 0 "./a.gkyl" true "" [1%Q]; mk_dset 1 "./b.gkyl" true "" [2%Q]])]%string.
  split; [reflexivity|]. split; [reflexivity|]. split; [reflexivity|].
  split; [cbn; repeat constructor; cbn; intros H; repeat destruct H as [H|H]; try discriminate H; assumption|].
  match goal with |- (exists out, ?c = _) /\ _ => let v := eval vm_compute in c in assert (E : c = v) by (vm_compute; reflexivity) end.
  split; [eexists; exact E|]. intros H.
  specialize (H _ _ _ E ("d"%string, 0%nat)). destruct H as (name & H); [cbn; auto|]. clear E.
  unfold on_disk in H. cbn -[String.eqb] in H. destruct (String.eqb "" name); discriminate H.
Qed.

(** [--saveframes] numbers the datasets within their tags: with two tags the
    pictures of the second replace those of the first. *)
Theorem C93_frames_refuted : exists o ds,
  c_saveframes o = Some "f"%string /\ c_figure o = FigNone /\
  NoDup (List.map ds_file (flat_map snd ds)) /\ (exists out, run o ds = Ok out) /\ ~ saved_alone o ds.
Proof.
  exists (demo_opts FigNone false false None (Some "f"%string) None), [("d", [mk_dset 0 "a.gkyl" true "" [1%Q]]); ("e", [mk_dset 0 "b.gkyl" true "" [2%Q]])]%string.
  split; [reflexivity|]. split; [reflexivity|].
  split; [cbn; repeat constructor; cbn; intros H; repeat destruct H as [H|H]; try discriminate H; assumption|].
  match goal with |- (exists out, ?c = _) /\ _ => let v := eval vm_compute in c in assert (E : c = v) by (vm_compute; reflexivity) end.
  split; [eexists; exact E|]. intros H.
  specialize (H _ _ _ E ("d"%string, 0%nat)). destruct H as (name & H); [cbn; auto|]. clear E.
  unfold on_disk in H. cbn -[String.eqb] in H. destruct (String.eqb "f_0.png" name); discriminate H.
Qed.

(** [--figure dataset --save] draws every dataset in its own figure and saves
    the last figure only. *)
Theorem C93_per_dataset_refuted : exists o ds,
  c_save o = true /\ c_figure o = FigStr "dataset"%string /\ c_saveas o = None /\
  (exists calls p shown, run o ds = Ok (calls, p, shown) /\ NoDup (List.map pc_fig calls)) /\ ~ saved_alone o ds.
Proof.
  exists (demo_opts (FigStr "dataset"%string) false true None None None), demo_ds.
  split; [reflexivity|]. split; [reflexivity|]. split; [reflexivity|].
  match goal with |- (exists a b c, ?c0 = _ /\ _) /\ _ => let v := eval vm_compute in c0 in assert (E : c0 = v) by (vm_compute; reflexivity) end.
  split; [do 3 eexists; split; [exact E|cbn; repeat constructor; cbn; intros H; repeat destruct H as [H|H]; try discriminate H; assumption]|].
  intros H. specialize (H _ _ _ E ("a"%string, 0%nat)). destruct H as (name & H); [cbn; auto|]. clear E.
  unfold on_disk in H. cbn -[String.eqb] in H. destruct (String.eqb "euler-n_0_euler-n_1" name); discriminate H.
Qed.

(** The labels of [--legend] are not given out in the order the datasets are
    drawn: each tag starts again with the first. *)
Theorem C93_legend_refuted : exists o ds calls p shown,
  c_legend o = Some "first,second"%string /\ run o ds = Ok (calls, p, shown) /\
  length calls = 2%nat /\ List.map pc_label calls = ["first"; "first"]%string.
Proof.
  exists (demo_opts FigNone false false None None (Some "first,second"%string)), [("d", [mk_dset 0 "a.gkyl" true "" [1%Q]]); ("e", [mk_dset 0 "b.gkyl" true "" [2%Q]])]%string.
  match goal with |- exists a b c, _ /\ ?c0 = _ /\ _ => let v := eval vm_compute in c0 in assert (E : c0 = v) by (vm_compute; reflexivity) end.
  do 3 eexists. split; [reflexivity|]. split; [exact E|]. split; reflexivity.
Qed.

Print Assumptions C93_calls.
Print Assumptions C93_own_figures.
Print Assumptions C93_saved.
Print Assumptions C93_frames.
Print Assumptions C93_one_figure.
Print Assumptions C93_per_dataset.
Print Assumptions C93_computed.
Print Assumptions C93_stem_refuted.
Print Assumptions C93_frames_refuted.
Print Assumptions C93_per_dataset_refuted.
Print Assumptions C93_legend_refuted.
