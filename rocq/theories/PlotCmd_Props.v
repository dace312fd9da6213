(** * C93: figures, labels, limits and saved files of the plot command *)
From Coq Require Import String Ascii List Arith ZArith QArith Bool Lia.
From Verif Require Import Prelude PreludeFacts NdArray Sort DataSpace_Model DataSpace_Spec DataSpace_Proofs DataSpace_Proofs2 DataSpace_Proofs3
  Range_Model Range_Props PlotCmd_Model.
Import ListNotations.
Open Scope list_scope.

(** ** pyplot *)

Lemma fig_set_new k v m : fig_get k m = None -> fig_set k v m = m ++ [(k, v)].
Proof.
  induction m as [|(j, w) m IH]; cbn; [reflexivity|]. destruct (k =? j)%Z; [discriminate|]. intros H. now rewrite IH.
Qed.
Lemma fig_get_set k v m j : fig_get j (fig_set k v m) = if (j =? k)%Z then Some v else fig_get j m.
Proof.
  induction m as [|(i, w) m IH]; cbn; [reflexivity|].
  destruct (Z.eqb_spec k i); cbn.
  - subst i. destruct (Z.eqb_spec j k); reflexivity.
  - rewrite IH. destruct (Z.eqb_spec j i), (Z.eqb_spec j k); try reflexivity. lia.
Qed.
Lemma fig_get_above k m : (fold_right (fun jv z => Z.max (fst jv) z) 0%Z m < k)%Z -> fig_get k m = None.
Proof.
  induction m as [|(j, w) m IH]; cbn; [reflexivity|]. intros H. destruct (Z.eqb_spec k j); [lia|]. apply IH. lia.
Qed.
Lemma fig_get_next m : fig_get (next_fig m) m = None.
Proof. apply fig_get_above. unfold next_fig. lia. Qed.
Lemma next_fig_snoc m v : next_fig (m ++ [(next_fig m, v)]) = (next_fig m + 1)%Z.
Proof.
  unfold next_fig at 1. f_equal. 
  assert (Q : forall m z, fold_right (fun jv z => Z.max (fst jv) z) 0%Z (m ++ [(z, v)])
              = Z.max (fold_right (fun jv z => Z.max (fst jv) z) 0%Z m) (Z.max z 0)%Z).
  { clear. induction m as [|(j, w) m IH]; intros z; cbn [app fold_right fst]; [lia|]. rewrite IH. lia. }
  rewrite Q. unfold next_fig. 
  assert (0 <= fold_right (fun jv z => Z.max (fst jv) z) 0%Z m)%Z by (clear; induction m as [|(j, w) m IH]; cbn; lia). lia.
Qed.
Lemma fig_get_snoc m k v : fig_get k m = None -> fig_get k (m ++ [(k, v)]) = Some v.
Proof. intros H. rewrite <- (fig_set_new k v m H), fig_get_set, Z.eqb_refl. reflexivity. Qed.
Lemma fig_set_snoc m k v w : fig_get k m = None -> fig_set k w (m ++ [(k, v)]) = m ++ [(k, w)].
Proof.
  induction m as [|(j, u) m IH]; cbn; [now rewrite Z.eqb_refl|]. destruct (k =? j)%Z; [discriminate|]. intros H. now rewrite IH.
Qed.

(** ** The datasets the loop sees *)

Section Cmd.
  Context {X : Type} (vals : X -> list Q) (ncomps : X -> nat).
  Implicit Type ds : dspace X.

  (** The datasets of [rs] with their position within the tag. *)
  Definition entry ds (r : ref) (e : nat * ref * dset X) : Prop := exists d, lookup ds r = Some d /\ e = (snd r, r, d).

  Lemma seen_spec ds use ts : names ds use ts -> Forall (fun t => In t (List.map fst ds)) ts ->
    exists l, seen ds use = Ok l /\ Forall2 (entry ds) (active_all ds ts) l.
  Proof.
    intros Hn Hk. destruct (visits_selected ds use None true ts (all_of ds)) as (vs & E & Es & P); [exact Hn|apply picks_none_wf|now apply picks_all_under|].
    specialize (P eq_refl). unfold seen. change (visits ds use true true SelNone) with (visits ds use false true (sel_of_index None)). rewrite E. cbn [bind].
    change (List.filter _ _) with (active_all ds ts) in Es. rewrite <- Es.
    assert (L : forall v, In v vs -> lookup ds (snd v) <> None).
    { intros v Hv. assert (Hr : In (snd v) (active_all ds ts)) by (rewrite <- Es; now apply in_map).
      apply in_active_all in Hr as (_ & A). unfold is_active in A. intros N. rewrite N in A. discriminate A. }
    clear E Es. induction vs as [|(i, r) vs IH]; cbn [List.map mapM]; [exists []; split; [reflexivity|constructor]|].
    inversion P; subst. cbn in H1. destruct (lookup ds (snd (i, r))) as [d|] eqn:El; [|exfalso; apply (L (i, r)); [now left|exact El]].
    cbn [bind]. destruct IH as (l & E & F); [assumption|intros v Hv; apply L; now right|]. rewrite E. cbn [bind].
    eexists. split; [reflexivity|]. constructor; [|exact F]. exists d. cbn in *. subst i. auto.
  Qed.

  (** ** The loop, one figure per dataset *)

  Definition own_figures (o : copts) : Prop := c_multiblock o = false /\ c_subplots o = false /\ c_figure o = FigNone.

  (** The text before the first dot of the file name. *)
  Definition stem (d : dset X) : string := hd ""%string (split_on "." (ds_file d)).

  (** The files written for one dataset. *)
  Definition names_of (o : copts) (e : nat * ref * dset X) : list string :=
    (match given (c_saveas o) with Some s => [s] | None => if c_save o then [stem (snd e)] else [] end ++
     match given (c_saveframes o) with Some s => [(s ++ "_" ++ show_Z (Z.of_nat (fst (fst e))) ++ ".png")%string] | None => [] end ++
     match c_batch o with Some s => [(s ++ "_" ++ show_Z (Z.of_nat (fst (fst e))) ++ ".png")%string] | None => [] end)%list.

  Definition no_frames (o : copts) : Prop := given (c_saveframes o) = None /\ c_batch o = None.
  Definition not_saved (o : copts) : Prop := c_save o = false /\ given (c_saveas o) = None.

  Fixpoint number {A} (k : Z) (l : list A) : list (Z * A) :=
    match l with [] => [] | a :: l' => (k, a) :: number (k + 1) l' end.

  Definition shown_alone (l : list (nat * ref * dset X)) : list (list ref) := List.map (fun e => [snd (fst e)]) l.

  Definition call_ok (o : copts) several zmin zmax (e : nat * ref * dset X) (c : pcall) : Prop :=
    pc_ref c = snd (fst e) /\ pc_label c = label_of o several (fst (fst e)) (snd e) /\ pc_zmin c = zmin /\ pc_zmax c = zmax.

  Lemma own_loop o several zmin zmax : own_figures o ->
    forall l fn start p,
    (not_saved o \/ no_frames o /\ fn = ""%string) ->
    (c_save o = true -> given (c_saveas o) = None -> Forall (fun e => ds_file (snd e) <> ""%string) l) ->
    exists calls fn' p',
      plot_loop ncomps o several zmin zmax l fn start p = Ok (calls, fn', p') /\
      Forall2 (call_ok o several zmin zmax) l calls /\
      List.map pc_fig calls = List.map fst (number (next_fig (py_figs p)) l) /\
      py_figs p' = py_figs p ++ number (next_fig (py_figs p)) (shown_alone l) /\
      py_files p' = py_files p ++ flat_map (fun e => List.map (fun nm => (nm, [snd (fst e)])) (names_of o e)) l /\
      (l = [] -> p' = p) /\ (l <> [] -> py_cur p' = Some (next_fig (py_figs p) + Z.of_nat (length l) - 1)%Z) /\
      (saving o = true -> fn' = ""%string).
  Proof.
    intros (Om & Os & Of). assert (FO : forall i, figure_of o i = FigNone).
    { intros i. unfold figure_of, figure0, per_dataset. now rewrite Om, Of, Os. }
    induction l as [|((i, r), d) l IH]; intros fn start p HM HF.
    { exists [], fn, p. split; [reflexivity|]. split; [constructor|]. split; [reflexivity|]. split; [now rewrite app_nil_r|]. split; [now rewrite app_nil_r|].
      split; [reflexivity|]. split; [congruence|]. intros Sv. destruct HM as [(A & B)|(_ & ->)]; [|reflexivity].
      unfold saving in Sv. rewrite A, B in Sv. discriminate Sv. }
    set (m := py_figs p). set (k := next_fig m). assert (K : fig_get k m = None) by apply fig_get_next.
    assert (OP : open_fig None p = (mk_py (m ++ [(k, [])]) (Some k) (py_files p), k)).
    { unfold open_fig. fold m. fold k. rewrite K. now rewrite (fig_set_new k [] m K). }
    cbn [plot_loop]. rewrite FO. cbn [fig_num bind]. rewrite OP. cbv iota.
    unfold draw_into. cbn [py_figs py_cur py_files]. rewrite (fig_get_snoc m k [] K). cbn [app]. rewrite (fig_set_snoc m k [] [r] K).
    assert (SV : forall f fl, savefig f (mk_py (m ++ [(k, [r])]) (Some k) fl) = mk_py (m ++ [(k, [r])]) (Some k) (fl ++ [(f, [r])])).
    { intros f fl. unfold savefig. cbn [py_cur py_figs py_files]. now rewrite (fig_get_snoc m k [r] K). }
    assert (NX : next_fig (m ++ [(k, [r])]) = (k + 1)%Z) by apply next_fig_snoc.
    set (start' := if c_subplots o then (start + ncomps (ds_data d))%nat else start).
    assert (Fl : c_save o = true -> given (c_saveas o) = None -> Forall (fun e => ds_file (snd e) <> ""%string) l).
    { intros A B. specialize (HF A B). now inversion HF. }
    (* what one step does to the file name and the files *)
    assert (STEP : exists fn1 fn2, next_name o fn d = Ok fn1 /\
      (match c_batch o with
       | Some s => (frame_name s i, savefig (frame_name s i) (snd (match given (c_saveframes o) with
                  | Some s => (frame_name s i, savefig (frame_name s i) (if saving o && true then savefig fn1 (mk_py (m ++ [(k, [r])]) (Some k) (py_files p)) else mk_py (m ++ [(k, [r])]) (Some k) (py_files p)))
                  | None => (if saving o && true then ""%string else fn1, if saving o && true then savefig fn1 (mk_py (m ++ [(k, [r])]) (Some k) (py_files p)) else mk_py (m ++ [(k, [r])]) (Some k) (py_files p))
                  end)))
       | None => match given (c_saveframes o) with
                  | Some s => (frame_name s i, savefig (frame_name s i) (if saving o && true then savefig fn1 (mk_py (m ++ [(k, [r])]) (Some k) (py_files p)) else mk_py (m ++ [(k, [r])]) (Some k) (py_files p)))
                  | None => (if saving o && true then ""%string else fn1, if saving o && true then savefig fn1 (mk_py (m ++ [(k, [r])]) (Some k) (py_files p)) else mk_py (m ++ [(k, [r])]) (Some k) (py_files p))
                  end
       end) = (fn2, mk_py (m ++ [(k, [r])]) (Some k) (py_files p ++ List.map (fun nm => (nm, [r])) (names_of o (i, r, d)))) /\
      (not_saved o \/ no_frames o /\ fn2 = ""%string)).
    { destruct HM as [NS|(NF & ->)].
      - pose proof NS as (A & B). assert (Sv : saving o = false) by (unfold saving; now rewrite A, B).
        exists fn. unfold next_name, names_of. rewrite A, B, Sv. cbn [andb app fst snd].
        destruct (given (c_saveframes o)) as [s|], (c_batch o) as [b|]; cbn [app List.map fst snd]; rewrite ?SV, <- ?app_assoc, ?app_nil_r; cbn [app];
          eexists; (split; [reflexivity|]; split; [reflexivity|left; exact NS]).
      - pose proof NF as (A & B). unfold names_of, next_name, saving. rewrite A, B. cbn [app String.eqb fst snd].
        destruct (given (c_saveas o)) as [s|] eqn:G.
        + eexists _, _. split; [reflexivity|]. rewrite orb_true_r. cbn [andb app List.map]. rewrite SV. split; [reflexivity|]. right. split; [exact NF|reflexivity].
        + destruct (c_save o) eqn:Sv.
          * specialize (HF eq_refl eq_refl). inversion HF as [|? ? Hd _]; subst. cbn in Hd. apply String.eqb_neq in Hd. rewrite Hd.
            eexists _, _. split; [reflexivity|]. cbn [orb andb app List.map]. rewrite SV. split; [reflexivity|]. right. split; [exact NF|reflexivity].
          * eexists _, _. split; [reflexivity|]. cbn [orb andb app List.map]. rewrite app_nil_r. split; [reflexivity|]. right. split; [exact NF|reflexivity]. }
    destruct STEP as (fn1 & fn2 & EN & EF & HM'). rewrite EN. cbn [bind]. rewrite EF. cbn [fst snd].
    destruct (IH fn2 start' (mk_py (m ++ [(k, [r])]) (Some k) (py_files p ++ List.map (fun nm => (nm, [r])) (names_of o (i, r, d)))) HM' Fl)
      as (calls & fn' & p' & E & C & Fg & P1 & P2 & P3 & P4 & P5).
    rewrite E. cbn [bind]. eexists _, fn', p'. split; [reflexivity|]. cbn [py_figs py_files] in *. rewrite NX in *.
    split; [constructor; [repeat split|exact C]|]. split; [cbn [List.map number pc_fig fst]; now rewrite Fg|].
    split; [rewrite P1; cbn [shown_alone List.map number fst snd]; now rewrite <- app_assoc|].
    split; [rewrite P2; cbn [flat_map fst snd]; now rewrite <- app_assoc|].
    split; [discriminate|]. split; [|exact P5]. intros _. destruct l as [|e l].
    - rewrite P3 by reflexivity. cbn [py_cur length]. f_equal. lia.
    - rewrite P4 by discriminate. f_equal. cbn [length]. lia.
  Qed.

  (** ** The loop, figures by number *)

  Fixpoint drawn_in (kf : nat -> Z) (j : Z) (l : list (nat * ref * dset X)) : list ref :=
    match l with
    | [] => []
    | e :: l' => if (kf (fst (fst e)) =? j)%Z then snd (fst e) :: drawn_in kf j l' else drawn_in kf j l'
    end.
  (** The figure [j] after the datasets [l] have been drawn. *)
  Definition fig_after (kf : nat -> Z) (j : Z) (l : list (nat * ref * dset X)) (before : option (list ref)) : option (list ref) :=
    match drawn_in kf j l with
    | [] => before
    | rs => Some (match before with Some b => b | None => [] end ++ rs)
    end.

  Definition acc_name (fn : string) (e : nat * ref * dset X) : string :=
    if String.eqb fn "" then stem (snd e) else (fn ++ "_" ++ stem (snd e))%string.

  Lemma fig_get_open k p : let q := fst (open_fig (Some k) p) in
    snd (open_fig (Some k) p) = k /\ py_cur q = Some k /\ py_files q = py_files p /\
    (forall r j, fig_get j (py_figs (draw_into k r q)) =
       if (j =? k)%Z then Some (match fig_get k (py_figs p) with Some b => b | None => [] end ++ [r]) else fig_get j (py_figs p)).
  Proof.
    unfold open_fig. destruct (fig_get k (py_figs p)) as [b|] eqn:E; cbn [fst snd py_cur py_files py_figs]; (split; [reflexivity|]; split; [reflexivity|]; split; [reflexivity|]);
      intros r j; unfold draw_into; cbn [py_figs].
    - rewrite E, fig_get_set. reflexivity.
    - rewrite !fig_get_set, Z.eqb_refl. destruct (Z.eqb_spec j k); reflexivity.
  Qed.

  Lemma shared_loop o several zmin zmax kf :
    (forall i, fig_num (figure_of o i) = Ok (Some (kf i))) -> no_frames o ->
    forall l fn start p,
    (c_save o = true -> given (c_saveas o) = None -> Forall (fun e => ds_file (snd e) <> ""%string) l) ->
    exists calls fn' p',
      plot_loop ncomps o several zmin zmax l fn start p = Ok (calls, fn', p') /\
      Forall2 (call_ok o several zmin zmax) l calls /\
      List.map pc_fig calls = List.map (fun e => kf (fst (fst e))) l /\
      (c_subplots o = true -> List.map pc_start calls =
         List.map (fun n => (start + list_sum (List.map (fun e => ncomps (ds_data (snd e))) (firstn n l)))%nat) (seq 0 (length l))) /\
      (forall j, fig_get j (py_figs p') = fig_after kf j l (fig_get j (py_figs p))) /\
      py_files p' = py_files p /\
      (forall l' e, l = l' ++ [e] -> py_cur p' = Some (kf (fst (fst e)))) /\
      fn' = match given (c_saveas o), l with
            | Some s, _ :: _ => s
            | None, _ => if c_save o then fold_left acc_name l fn else fn
            | _, [] => fn
            end.
  Proof.
    intros FN (NF1 & NF2). induction l as [|((i, r), d) l IH]; intros fn start p HF.
    { exists [], fn, p. split; [reflexivity|]. split; [constructor|]. split; [reflexivity|]. split; [reflexivity|]. split; [reflexivity|]. split; [reflexivity|].
      split; [intros [|] e H; discriminate H|]. destruct (given (c_saveas o)); [reflexivity|]. destruct (c_save o); reflexivity. }
    cbn [plot_loop]. rewrite FN. cbn [bind]. destruct (fig_get_open (kf i) p) as (K & Cu & Fi & Gt).
    destruct (open_fig (Some (kf i)) p) as (q, k) eqn:OP. cbn [fst snd] in *. subst k. specialize (Gt r).
    rewrite NF1, NF2. cbn [fst snd].
    assert (FNn : (match figure_of o i with FigNone => true | _ => false end) = false).
    { specialize (FN i). destruct (figure_of o i); [discriminate FN|reflexivity|reflexivity]. }
    rewrite FNn, andb_false_r.
    assert (EN : exists fn1, next_name o fn d = Ok fn1 /\
      fn1 = match given (c_saveas o) with Some s => s | None => if c_save o then acc_name fn (i, r, d) else fn end).
    { unfold next_name. destruct (given (c_saveas o)); [eexists; split; reflexivity|]. destruct (c_save o) eqn:Sv; [|eexists; split; reflexivity].
      specialize (HF eq_refl eq_refl). inversion HF as [|? ? Hd _]; subst. cbn in Hd. apply String.eqb_neq in Hd. rewrite Hd.
      eexists. split; [reflexivity|]. unfold acc_name, stem. cbn [snd]. destruct (String.eqb fn ""); [reflexivity|apply app_assoc_str]. }
    destruct EN as (fn1 & EN & Efn). rewrite EN. cbn [bind].
    set (start' := if c_subplots o then (start + ncomps (ds_data d))%nat else start).
    destruct (IH fn1 start' (draw_into (kf i) r q)) as (calls & fn' & p' & E & C & Fg & St & G & P2 & P3 & P4).
    { intros A B. specialize (HF A B). now inversion HF. }
    rewrite E. cbn [bind]. eexists _, fn', p'. split; [reflexivity|]. split; [constructor; [repeat split|exact C]|].
    split; [cbn [List.map pc_fig fst snd]; now rewrite Fg|].
    split.
    { intros Su. cbn [List.map pc_start]. rewrite (St Su). cbn [length seq List.map firstn list_sum fold_right]. unfold start'. rewrite Su. f_equal; [cbn; lia|].
      rewrite <- seq_shift, map_map. apply map_ext. intros n. cbn [firstn List.map snd ds_data]. unfold list_sum. cbn [fold_right]. lia. }
    split.
    { intros j. rewrite G, Gt. unfold fig_after. cbn [drawn_in fst snd]. destruct (Z.eqb_spec j (kf i)) as [->|N].
      - rewrite Z.eqb_refl. destruct (drawn_in kf (kf i) l); [reflexivity|]. now rewrite <- app_assoc.
      - destruct (Z.eqb_spec (kf i) j); [lia|]. reflexivity. }
    split; [rewrite P2; exact Fi|].
    split.
    { intros l' e H. destruct l' as [|e' l']; cbn in H.
      - injection H as <- ->. cbn [fst snd]. cbn [plot_loop] in E. injection E as _ _ <-. exact Cu.
      - injection H as _ H. exact (P3 _ _ H). }
    rewrite P4, Efn. destruct (given (c_saveas o)); [destruct l; reflexivity|]. destruct (c_save o); reflexivity.
  Qed.

  Lemma acc_join l e : stem (snd e) <> ""%string -> fold_left acc_name l (stem (snd e)) = join "_" (List.map (fun e => stem (snd e)) (e :: l)).
  Proof.
    intros H. cbn [List.map].
    assert (Q : forall l s, s <> ""%string -> fold_left acc_name l s = fold_left lab_step (List.map (fun e => stem (snd e)) l) s).
    { clear. induction l as [|e l IH]; intros s Hs; [reflexivity|]. cbn [fold_left List.map]. change (acc_name s e) with (lab_step s (stem (snd e))). apply IH.
      unfold lab_step. destruct (String.eqb_spec s ""); [congruence|now apply str_app_nonempty]. }
    rewrite Q by exact H. now apply lab_fold_nonempty.
  Qed.
End Cmd.
