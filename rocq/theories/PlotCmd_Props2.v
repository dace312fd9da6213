(** * C93: theorems about the plot command *)
From Coq Require Import String Ascii List Arith ZArith QArith Bool Lia Lqa.
From Verif Require Import Prelude PreludeFacts NdArray Sort DataSpace_Model DataSpace_Spec DataSpace_Proofs DataSpace_Proofs2 DataSpace_Proofs3
  Range_Model Range_Props PlotCmd_Model PlotCmd_Props.
Import ListNotations.
Open Scope list_scope.

Lemma Forall2_app_l {A B} (P : A -> B -> Prop) l x m : Forall2 P (l ++ [x]) m -> exists m' y, m = m' ++ [y] /\ Forall2 P l m' /\ P x y.
Proof.
  revert m. induction l as [|a l IH]; intros m H; cbn in H.
  - inversion H as [|? y ? m' Hy Hm]; subst. inversion Hm; subst. exists [], y. auto.
  - inversion H as [|? b ? m' Hb Hm]; subst. destruct (IH _ Hm) as (m1 & y & -> & F & Py). exists (b :: m1), y. auto.
Qed.

Section Cmd.
  Context {X : Type} (vals : X -> list Q) (ncomps : X -> nat).
  Implicit Type ds : dspace X.

  (** ** Every mode: which datasets, labels and limits *)

  Lemma loop_calls o several zmin zmax l : forall fn start p calls fn' p',
    plot_loop ncomps o several zmin zmax l fn start p = Ok (calls, fn', p') -> Forall2 (call_ok o several zmin zmax) l calls.
  Proof.
    induction l as [|((i, r), d) l IH]; intros fn start p calls fn' p' H; cbn [plot_loop] in H; [injection H as <- <- <-; constructor|].
    apply bind_ok in H as (num & _ & H). destruct (open_fig num p) as (q, k). apply bind_ok in H as (fn1 & _ & H).
    apply bind_ok in H as (((calls1 & fn2) & p2) & E & H). injection H as <- <- <-. constructor; [repeat split|]. eapply IH. exact E.
  Qed.

  (** Texts of a legend, with blanks around them. *)
  Fixpoint blanks (n : nat) : string := match n with O => ""%string | S n' => String " " (blanks n') end.
  Definition padded (w s : string) : Prop :=
    (exists a b, w = blanks a ++ s ++ blanks b)%string /\ s <> ""%string /\
    String.get 0 s <> Some " "%char /\ String.get (String.length s - 1) s <> Some " "%char.

  Lemma lstrip_blanks n s : lstrip (blanks n ++ s) = lstrip s.
  Proof. induction n; cbn; auto. Qed.
  Lemma lstrip_head s : String.get 0 s <> Some " "%char -> lstrip s = s.
  Proof.
    destruct s as [|c s]; [reflexivity|]. cbn [String.get]. intros H. 
    destruct c as [[] [] [] [] [] [] [] []]; try reflexivity. now contradiction H.
  Qed.
  Lemma rstrip_blanks n : rstrip (blanks n) = ""%string.
  Proof. induction n; cbn; [reflexivity|]. now rewrite IHn. Qed.
  Lemma rstrip_tail s n : s <> ""%string -> String.get (String.length s - 1) s <> Some " "%char -> rstrip (s ++ blanks n) = s.
  Proof.
    induction s as [|c s IH]; [congruence|]. intros _ H. destruct s as [|c' s].
    - cbn [String.append rstrip]. rewrite rstrip_blanks. cbn in H. destruct (Ascii.eqb_spec c " "); [subst; now contradiction H|reflexivity].
    - change (String c (String c' s) ++ blanks n)%string with (String c (String c' s ++ blanks n)).
      cbn [rstrip]. rewrite IH; [reflexivity|discriminate|].
      intros G. apply H. replace (String.length (String c (String c' s)) - 1)%nat with (S (String.length (String c' s) - 1)) by (cbn; lia). exact G.
  Qed.
  Lemma strip_padded w s : padded w s -> strip w = s.
  Proof.
    intros ((a & b & ->) & NE & H & T). unfold strip. rewrite lstrip_blanks.
    assert (E : lstrip (s ++ blanks b) = (s ++ blanks b)%string).
    { apply lstrip_head. destruct s as [|c s]; [congruence|]. exact H. }
    rewrite E. now apply rstrip_tail.
  Qed.

  (** The label of the [i]-th dataset [d] of its tag. *)
  Definition right_label (o : copts) (several : Prop) (i : nat) (d : dset X) (lab : string) : Prop :=
    (forall ws ls s, c_legend o = Some (join "," ws) -> ws <> [] -> join "," ws <> ""%string ->
       Forall (fun w => has_char "," w = false) ws -> Forall2 padded ws ls -> nth_error ls i = Some s -> lab = s) /\
    (given (c_legend o) = None -> (several \/ c_forcelegend o = true) -> lab = ds_label d) /\
    (given (c_legend o) = None -> ~ several -> c_forcelegend o = false -> lab = ""%string).

  Lemma label_right o (several : bool) i d : right_label o (several = true) i d (label_of o several i d).
  Proof.
    unfold right_label, label_of, legend_labels. split; [|split].
    - intros ws ls s E NE NS NC F En. rewrite E. unfold given. destruct (join "," ws) as [|c j] eqn:Ej; [congruence|]. rewrite <- Ej.
      rewrite split_join by assumption. rewrite nth_error_map.
      assert (Q : forall i, nth_error ls i = Some s -> exists w, nth_error ws i = Some w /\ padded w s).
      { clear - F. induction F as [|w l ws ls P F IH]; intros [|i] H; try discriminate H; [injection H as ->; exists w; auto|]. exact (IH i H). }
      destruct (Q i En) as (w & -> & P). cbn [option_map]. now apply strip_padded.
    - intros G [->|H]; rewrite G; [reflexivity|]. rewrite H, orb_true_r. reflexivity.
    - intros G N H. rewrite G, H. destruct several; [now contradiction N|reflexivity].
  Qed.

  (** Whether a common range is asked for, and the limits then. *)
  Definition asks_range (o : copts) : Prop := c_globalrange o = true \/ c_multiblock o = true /\ c_cutoff o = None.
  Definition right_limits (o : copts) (sets : list (list Q)) (zmin zmax : option Q) : Prop :=
    (forall z, c_zmin o = Some z -> zmin = Some z) /\ (forall z, c_zmax o = Some z -> zmax = Some z) /\
    (~ asks_range o -> c_cutoff o = None -> zmin = c_zmin o /\ zmax = c_zmax o) /\
    (asks_range o -> c_cutoff o = None -> sets <> [] -> exists lo hi,
       (c_zmin o = None -> zmin = Some lo) /\ (c_zmax o = None -> zmax = Some hi) /\
       (forall s v, In s sets -> In v s -> lo <= v * c_zscale o <= hi) /\
       (exists s v, In s sets /\ In v s /\ lo = v * c_zscale o) /\ (exists s v, In s sets /\ In v s /\ hi = v * c_zscale o)) /\
    (forall c, c_cutoff o = Some c -> ~ c == 0 ->
       exists lo hi, plot_range (c_zscale o) (Some c) sets = Ok (lo, hi) /\
         (c_zmin o = None -> zmin = lo) /\ (c_zmax o = None -> zmax = hi)).

  Lemma limits_right o (l : list (nat * ref * dset X)) zmin zmax : limits_of vals o l = Ok (zmin, zmax) ->
    right_limits o (List.map (fun e => vals (ds_data (snd e))) l) zmin zmax.
  Proof.
    unfold limits_of. set (sets := List.map _ l).
    set (g := c_globalrange o || c_multiblock o && match c_cutoff o with None => true | Some _ => false end). intros H.
    assert (Ga : g = true <-> asks_range o).
    { unfold g, asks_range. destruct (c_globalrange o), (c_multiblock o), (c_cutoff o); cbn; split; intros A; auto;
        try (destruct A as [A|(A & B)]; discriminate); try discriminate A. }
    assert (RG : forall c, c_cutoff o = Some c -> ~ c == 0 -> cutoff_of (c_cutoff o) = Some c).
    { intros c E N. rewrite E. cbn [cutoff_of]. destruct (Qeq_bool c 0) eqn:Q; [apply Qeq_bool_iff in Q; contradiction|reflexivity]. }
    destruct (g || _) eqn:W.
    - apply bind_ok in H as ((lo & hi) & ER & H). injection H as <- <-.
      split; [now intros z ->|]. split; [now intros z ->|]. split; [|split].
      + intros NA Ec. rewrite Ec in W. cbn [cutoff_of] in W. rewrite orb_false_r in W. apply Ga in W. contradiction.
      + intros A Ec NE. rewrite Ec in ER.
        assert (Fs : Forall (fun v => v <> []) sets).
        { apply Forall_forall. intros v Hv ->. rewrite (C92_empty (c_zscale o) None sets) in ER; [discriminate ER|]. apply Exists_exists. eauto. }
        destruct (C92_range (c_zscale o) sets NE Fs) as (a & b & E & R1 & R2 & R3). rewrite E in ER. injection ER as <- <-.
        exists a, b. split; [now intros ->|]. split; [now intros ->|]. auto.
      + intros c Ec N. rewrite Ec in ER. exists lo, hi. split; [exact ER|]. split; [now intros ->|now intros ->].
    - injection H as <- <-. split; [auto|]. split; [auto|]. split; [auto|]. split.
      + intros A. apply Ga in A. rewrite A in W. discriminate W.
      + intros c Ec N. rewrite (RG c Ec N), orb_true_r in W. discriminate W.
  Qed.

  (** The active datasets are drawn in order, once each, with the label and the
      limits they should have. *)
  Theorem C93_calls o ds p ts calls p' shown :
    names ds (c_use o) ts -> Forall (fun t => In t (List.map fst ds)) ts ->
    plot_cmd vals ncomps o ds p = Ok (calls, p', shown) ->
    List.map pc_ref calls = active_all ds ts /\
    (exists zmin zmax, Forall (fun c => pc_zmin c = zmin /\ pc_zmax c = zmax) calls /\
       right_limits o (flat_map (fun r => match lookup ds r with Some d => [vals (ds_data d)] | None => [] end) (active_all ds ts)) zmin zmax) /\
    (forall c d, In c calls -> lookup ds (pc_ref c) = Some d ->
       right_label o (1 < length (active_all ds (List.map fst ds)))%nat (snd (pc_ref c)) d (pc_label c)) /\
    (shown = true <-> c_show o = true /\ (calls <> [] -> no_frames o)).
  Proof.
    intros Hn Hk H. unfold plot_cmd in H. destruct (seen_spec ds (c_use o) ts Hn Hk) as (l & El & F). rewrite El in H. cbn [bind] in H.
    apply bind_ok in H as ((zmin & zmax) & Elim & H). apply bind_ok in H as (n & En & H).
    apply bind_ok in H as (((calls1 & fn) & p1) & E & H). injection H as <- _ Esh.
    pose proof (loop_calls _ _ _ _ _ _ _ _ _ _ _ E) as C.
    assert (Rf : List.map pc_ref calls1 = active_all ds ts).
    { clear - C F. revert calls1 C. induction F as [|r e rs l (d & Ed & ->) F IH]; intros calls1 C; inversion C as [|? c ? ? (Hr & _) C']; subst; [reflexivity|].
      cbn [List.map]. rewrite Hr. cbn [fst snd]. f_equal. now apply IH. }
    assert (Num : l <> [] -> n = length (active_all ds (List.map fst ds))).
    { intros NE. destruct l as [|e l0]; [congruence|]. revert En. unfold get_num_datasets.
      assert (Q : get_num_datasets ds None true = Ok (length (active_all ds (List.map fst ds)))).
      { unfold get_num_datasets.
        destruct (iterate_selected (fun st : dspace X * nat => fst st) (fun _ _ st => Ok (fst st, S (snd st))) true None None (List.map fst ds) (all_of ds) (ds, 0%nat))
          as (cs & Es & _ & EE).
        - constructor.
        - apply picks_none_wf.
        - apply picks_all_under. apply Forall_forall. auto.
        - intros i r st st' [= <-] t _. reflexivity.
        - change (sel_of_index None) with SelNone in EE. rewrite EE. unfold active_all. rewrite <- Es.
          assert (V : forall cs k, (forall c, In c cs -> lookup ds (snd c) <> None) ->
            foldM (fun c (st : dspace X * nat) => visit (fun st => fst st) (fun _ _ st => Ok (fst st, S (snd st))) true (fst c) (snd c) st) cs (ds, k)
            = Ok (ds, (k + length (List.filter (is_active ds) (List.map snd cs)))%nat)).
          { clear. induction cs as [|(i, r) cs IH]; intros k Hl; cbn [foldM List.map List.filter snd fst]; [f_equal; f_equal; cbn; lia|].
            unfold visit at 1. cbn [fst snd]. destruct (lookup ds r) as [d|] eqn:Ed; [|exfalso; apply (Hl (i, r)); [now left|exact Ed]].
            unfold is_active at 1. rewrite Ed. cbn [negb orb]. destruct (ds_status d) eqn:Sd; cbn [bind].
            - rewrite IH by (intros c Hc; apply Hl; now right). f_equal. f_equal. cbn [length]. lia.
            - apply IH. intros c Hc. apply Hl. now right. }
          rewrite V; [reflexivity|]. intros c Hc. assert (Hr : In (snd c) (selected (List.map fst ds) (all_of ds))) by (rewrite <- Es; now apply in_map).
          apply in_all_of in Hr. apply Hr. }
      fold (get_num_datasets ds None true). rewrite Q. now intros [= <-]. }
    assert (Sets : List.map (fun e => vals (ds_data (snd e))) l =
                   flat_map (fun r => match lookup ds r with Some d => [vals (ds_data d)] | None => [] end) (active_all ds ts)).
    { clear - F. induction F as [|r e rs l (d & Ed & ->) F IH]; [reflexivity|]. cbn [List.map flat_map snd]. rewrite Ed. cbn [app]. now rewrite IH. }
    split; [exact Rf|]. split; [|split].
    - exists zmin, zmax. split; [|rewrite <- Sets; now apply limits_right].
      clear - C. induction C as [|e c l calls (_ & _ & A & B) C IH]; constructor; auto.
    - intros c d Hc Hd.
      assert (NE : l <> []). { intros ->. inversion C; subst. destruct Hc. }
      specialize (Num NE). subst n.
      assert (Q : exists e, In e l /\ call_ok o (1 <? length (active_all ds (List.map fst ds)))%nat zmin zmax e c).
      { clear - C Hc. induction C as [|e c' l calls P C IH]; [destruct Hc|]. destruct Hc as [->|Hc]; [exists e; split; [now left|exact P]|].
        destruct (IH Hc) as (e' & I & Q). exists e'. split; [now right|exact Q]. }
      destruct Q as (e & Ie & (Q1 & Q2 & _)).
      assert (W : exists r, entry ds r e).
      { clear - F Ie. induction F as [|r e' rs l P F IH]; [destruct Ie|]. destruct Ie as [->|Ie]; [exists r; exact P|exact (IH Ie)]. }
      destruct W as (r & d' & Ed' & ->). cbn [fst snd] in *. rewrite Q1 in *. rewrite Hd in Ed'. injection Ed' as <-. rewrite Q2.
      pose proof (label_right o (1 <? length (active_all ds (List.map fst ds)))%nat (snd r) d) as (A1 & A2 & A3). split; [exact A1|]. split.
      + intros G [S1|S1]; apply A2; auto. left. now apply Nat.ltb_lt.
      + intros G S1 S2. apply A3; auto. rewrite Nat.ltb_lt. exact S1.
    - rewrite <- Esh. assert (NL : l = [] <-> calls1 = []).
      { inversion C; subst; split; intros; congruence. }
      unfold no_frames. destruct (c_show o); cbn [andb]; [|split; [discriminate|intros (A & _); discriminate A]].
      destruct l as [|e l0].
      + split; [|reflexivity]. intros _. split; [reflexivity|]. intros A. exfalso. apply A. now apply NL.
      + assert (B : calls1 <> []) by (intros B; apply NL in B; discriminate B).
        destruct (given (c_saveframes o)) as [s|]; [|destruct (c_batch o) as [s|]]; cbn [negb].
        * split; [intros A; discriminate A|]. intros (_ & A). specialize (A B) as (A & _). discriminate A.
        * split; [intros A; discriminate A|]. intros (_ & A). specialize (A B) as (_ & A). discriminate A.
        * split; [|reflexivity]. intros _. split; [reflexivity|]. auto.
  Qed.

  (** ** When the command gets to the end *)

  (** The common range, if any, can be computed. *)
  Definition range_ok (o : copts) (sets : list (list Q)) : Prop :=
    c_globalrange o = false /\ c_multiblock o = false /\ c_cutoff o = None \/
    Forall (fun v => v <> []) sets /\ (c_cutoff o = None \/ exists c, c_cutoff o = Some c /\ 0 < c <= 1).

  Lemma limits_exist o (l : list (nat * ref * dset X)) : l <> [] -> range_ok o (List.map (fun e => vals (ds_data (snd e))) l) ->
    exists zmin zmax, limits_of vals o l = Ok (zmin, zmax).
  Proof.
    intros NE H. unfold limits_of. destruct H as [(A & B & C)|(F & C)].
    - rewrite A, B, C. cbn. eauto.
    - destruct (c_globalrange o || _ || _); [|eauto].
      assert (NE' : List.map (fun e : nat * ref * dset X => vals (ds_data (snd e))) l <> []) by (destruct l; [congruence|discriminate]).
      destruct C as [->|(c & -> & Hc)].
      + destruct (C92_range (c_zscale o) _ NE' F) as (lo & hi & E & _). rewrite E. cbn [bind]. eauto.
      + destruct (C92_cutoff (c_zscale o) _ c NE' F Hc) as (lo & hi & E & _). rewrite E. cbn [bind]. eauto.
  Qed.

  Lemma num_exists ds : exists n, get_num_datasets ds None true = Ok n.
  Proof.
    unfold get_num_datasets.
    destruct (iterate_selected (fun st : dspace X * nat => fst st) (fun _ _ st => Ok (fst st, S (snd st))) true None None (List.map fst ds) (all_of ds) (ds, 0%nat))
      as (cs & Es & _ & EE); [constructor|apply picks_none_wf|apply picks_all_under; apply Forall_forall; auto|intros i r st st' [= <-] t _; reflexivity|].
    change (sel_of_index None) with SelNone in EE. rewrite EE.
    assert (V : forall cs st, exists st', foldM (vis (fun st : dspace X * nat => fst st) (fun _ _ st => Ok (fst st, S (snd st))) true) cs st = Ok st').
    { clear. induction cs as [|c cs IH]; intros st; cbn [foldM]; [eauto|]. unfold vis at 1, visit. destruct (lookup (fst st) (snd c)) as [d|]; [|apply IH].
      destruct (negb true || ds_status d); cbn [bind]; apply IH. }
    destruct (V cs (ds, 0%nat)) as (st' & E). rewrite E. cbn [bind]. eauto.
  Qed.

  Definition sets_of ds (rs : list ref) : list (list Q) :=
    flat_map (fun r => match lookup ds r with Some d => [vals (ds_data d)] | None => [] end) rs.
  (** Every dataset drawn comes from a file, as [--save] needs. *)
  Definition have_files ds (rs : list ref) : Prop := forall r d, In r rs -> lookup ds r = Some d -> ds_file d <> ""%string.
  Definition file_stem ds (r : ref) : string := match lookup ds r with Some d => hd ""%string (split_on "." (ds_file d)) | None => ""%string end.

  Lemma entries ds rs l : Forall2 (entry ds) rs l ->
    List.map (fun e => vals (ds_data (snd e))) l = sets_of ds rs /\ List.map (fun e => snd (fst e)) l = rs /\
    List.map (fun e => stem (snd e)) l = List.map (file_stem ds) rs /\ (forall e, In e l -> fst (fst e) = snd (snd (fst e))) /\
    (have_files ds rs -> Forall (fun e => ds_file (snd e) <> ""%string) l).
  Proof.
    unfold sets_of. induction 1 as [|r e rs l (d & Ed & ->) F (A & B & C & D & G)]; [repeat split; auto; intros e []|].
    cbn [List.map flat_map snd fst]. unfold file_stem at 1. rewrite Ed. cbn [app]. rewrite A, B, C. repeat split.
    - intros e [<-|He]; [reflexivity|now apply D].
    - intros H. constructor; [apply (H r d); [now left|exact Ed]|]. apply G. intros r' d' Hr. apply H. now right.
  Qed.

  (** ** One figure for each dataset *)

  (** [on_disk] after writing. *)
  Lemma on_disk_last p nm c b : py_files p = b ++ [(nm, c)] -> on_disk p nm = Some c.
  Proof. intros E. unfold on_disk. rewrite E, fold_left_app. cbn. now rewrite String.eqb_refl. Qed.
  Lemma on_disk_skip files nm acc : (forall f, In f files -> fst f <> nm) ->
    fold_left (fun acc f => if String.eqb (fst f) nm then Some (snd f) else acc) files acc = (acc : option (list ref)).
  Proof.
    revert acc. induction files as [|f files IH]; intros acc H; [reflexivity|]. cbn [fold_left].
    destruct (String.eqb_spec (fst f) nm) as [E|_]; [exfalso; apply (H f); [now left|exact E]|]. apply IH. intros g Hg. apply H. now right.
  Qed.

  (** Without [--figure], [--subplots] and [--multiblock]: every dataset gets
      a figure of its own, which shows nothing else, the figures open before
      stay as they are; the files written are one for each dataset and name,
      and, when saving, once more the last figure under the empty name. *)
  Theorem C93_own_figures o ds p ts :
    names ds (c_use o) ts -> Forall (fun t => In t (List.map fst ds)) ts ->
    c_multiblock o = false -> c_subplots o = false -> c_figure o = FigNone ->
    (not_saved o \/ no_frames o) ->
    let rs := active_all ds ts in
    (c_save o = true -> given (c_saveas o) = None -> have_files ds rs) ->
    range_ok o (sets_of ds rs) ->
    forall r0, rs <> [] -> last rs r0 = r0 ->
    exists calls p' shown, plot_cmd vals ncomps o ds p = Ok (calls, p', shown) /\
      List.map pc_ref calls = rs /\
      py_figs p' = py_figs p ++ List.map (fun c => (pc_fig c, [pc_ref c])) calls /\
      NoDup (List.map pc_fig calls) /\ (forall c, In c calls -> fig_get (pc_fig c) (py_figs p) = None) /\
      py_files p' = py_files p ++
        flat_map (fun r =>
          List.map (fun nm => (nm, [r]))
            (match given (c_saveas o) with Some s => [s] | None => if c_save o then [file_stem ds r] else [] end ++
             match given (c_saveframes o) with Some s => [(s ++ "_" ++ show_Z (Z.of_nat (snd r)) ++ ".png")%string] | None => [] end ++
             match c_batch o with Some s => [(s ++ "_" ++ show_Z (Z.of_nat (snd r)) ++ ".png")%string] | None => [] end)) rs ++
        (if c_save o || match given (c_saveas o) with Some _ => true | None => false end then [(""%string, [r0])] else []).
  Proof.
    intros Hn Hk Om Os Of HM rs HF HR r0 NE Hlast. unfold plot_cmd.
    destruct (seen_spec ds (c_use o) ts Hn Hk) as (l & El & F). fold rs in F. rewrite El. cbn [bind].
    destruct (entries ds rs l F) as (E1 & E2 & E3 & E4 & E5).
    assert (NEl : l <> []). { intros ->. inversion F as [Hr|]. congruence. }
    destruct (limits_exist o l NEl) as (zmin & zmax & Elim); [rewrite E1; exact HR|]. rewrite Elim. cbn [bind].
    destruct (num_exists ds) as (n & En).
    assert (En' : match l with [] => Ok 0%nat | _ :: _ => get_num_datasets ds None true end = Ok n) by (destruct l; [congruence|exact En]).
    rewrite En'. cbn [bind].
    destruct (own_loop ncomps o (1 <? n)%nat zmin zmax (conj Om (conj Os Of)) l ""%string 0%nat p) as (calls & fn & p1 & EL & C & Fg & P1 & P2 & _ & P4 & P5).
    { destruct HM as [HM|HM]; [now left|right; auto]. }
    { intros A B. apply E5. now apply HF. }
    rewrite EL. cbn [bind].
    assert (Rf : List.map pc_ref calls = rs).
    { rewrite <- E2. clear - C. induction C as [|e c l calls (A & _) C IH]; [reflexivity|]. cbn [List.map]. now rewrite A, IH. }
    assert (FG : number (next_fig (py_figs p)) (shown_alone l) = List.map (fun c => (pc_fig c, [pc_ref c])) calls).
    { revert Fg Rf. rewrite <- E2. generalize (next_fig (py_figs p)). clear. revert calls.
      induction l as [|e l IH]; intros [|c calls] k Fg Rf; try discriminate Fg; [reflexivity|]. cbn [List.map number shown_alone fst snd] in *.
      injection Fg as A B. injection Rf as A' B'. rewrite A, A'. f_equal. now apply IH. }
    assert (Files : flat_map (fun e => List.map (fun nm => (nm, [snd (fst e)])) (names_of o e)) l =
      flat_map (fun r =>
          List.map (fun nm => (nm, [r]))
            (match given (c_saveas o) with Some s => [s] | None => if c_save o then [file_stem ds r] else [] end ++
             match given (c_saveframes o) with Some s => [(s ++ "_" ++ show_Z (Z.of_nat (snd r)) ++ ".png")%string] | None => [] end ++
             match c_batch o with Some s => [(s ++ "_" ++ show_Z (Z.of_nat (snd r)) ++ ".png")%string] | None => [] end)) rs).
    { clear - F. induction F as [|r e rs l (d & Ed & ->) F IH]; [reflexivity|]. cbn [flat_map]. rewrite IH. f_equal.
      unfold names_of, file_stem, stem. cbn [fst snd]. now rewrite Ed. }
    assert (Fin : exists l' e, l = l' ++ [e] /\ snd (fst e) = r0).
    { destruct (exists_last NEl) as (l' & e & ->). exists l', e. split; [reflexivity|]. rewrite <- Hlast, <- E2, map_app. cbn [List.map]. symmetry. apply last_last. }
    destruct Fin as (l' & e & EEl & Er0).
    assert (Cur : fig_get (next_fig (py_figs p) + Z.of_nat (length l) - 1)%Z (py_figs p1) = Some [r0]).
    { rewrite P1, EEl. unfold shown_alone. rewrite map_app, app_length. cbn [List.map length].
      assert (Q : forall k, number k (List.map (fun e : nat * ref * dset X => [snd (fst e)]) l' ++ [[snd (fst e)]]) =
                       number k (List.map (fun e : nat * ref * dset X => [snd (fst e)]) l') ++ [(k + Z.of_nat (length l'), [snd (fst e)])%Z]).
      { clear. induction l' as [|a l' IH]; intros k; cbn [List.map app number length]; [do 2 f_equal; lia|]. rewrite IH. do 3 f_equal. f_equal. lia. }
      rewrite Q, app_assoc, Er0.
      replace (next_fig (py_figs p) + Z.of_nat (length l' + 1) - 1)%Z with (next_fig (py_figs p) + Z.of_nat (length l'))%Z by lia.
      apply fig_get_snoc. 
      assert (G : forall m k j, (forall i, (k <= i < k + Z.of_nat (length m))%Z -> i <> j) -> forall b : list (Z * list ref), fig_get j b = None -> fig_get j (b ++ number k m) = None).
      { clear. induction m as [|x m IH]; intros k j H b Hb; cbn [number]; [now rewrite app_nil_r|].
        change ((k, x) :: number (k + 1) m) with ([(k, x)] ++ number (k + 1) m). rewrite app_assoc. apply IH.
        - intros i Hi. apply H. cbn [length]. lia.
        - assert (Nk : j <> k) by (intros ->; apply (H k); cbn [length]; lia).
          clear - Hb Nk. induction b as [|(i, w) b IH]; cbn in *; [destruct (Z.eqb_spec j k); [contradiction|reflexivity]|]. destruct (j =? i)%Z; [discriminate Hb|now apply IH]. }
      apply G; [rewrite map_length; lia|]. apply fig_get_above. unfold next_fig. lia. }
    eexists calls, _, _. split; [reflexivity|]. split; [exact Rf|].
    assert (Figs : py_figs (if saving o then savefig fn p1 else p1) = py_figs p1).
    { destruct (saving o); [|reflexivity]. unfold savefig. now rewrite (P4 NEl). }
    split; [rewrite Figs, P1, FG; reflexivity|]. split; [|split].
    - rewrite Fg. clear. generalize (next_fig (py_figs p)). induction l as [|e l IH]; intros k; cbn [number List.map fst]; [constructor|]. constructor; [|apply IH].
      assert (Q : forall (l : list (nat * ref * dset X)) j, (k < j)%Z -> ~ In k (List.map fst (number j l))).
      { clear. induction l as [|e l IH]; intros j H; cbn [number List.map fst]; [auto|]. intros [E|E]; [lia|]. apply (IH (j + 1)%Z); [lia|exact E]. }
      apply Q. lia.
    - intros c Hc. assert (Hk' : In (pc_fig c) (List.map fst (number (next_fig (py_figs p)) l))) by (rewrite <- Fg; now apply in_map).
      apply fig_get_above. clear - Hk'. revert Hk'. unfold next_fig. generalize (fold_right (fun jv z => Z.max (fst jv) z) 0%Z (py_figs p)). intros z.
      assert (Q : forall (l : list (nat * ref * dset X)) j k, In k (List.map fst (number j l)) -> (j <= k)%Z).
      { clear. induction l as [|e l IH]; intros j k; cbn [number List.map fst]; [intros []|]. intros [E|E]; [lia|]. apply IH in E. lia. }
      intros H. apply Q in H. lia.
    - fold (saving o). destruct (saving o) eqn:Sv.
      + rewrite (P5 eq_refl). unfold savefig. rewrite (P4 NEl). cbn [py_files]. rewrite Cur, P2, Files. now rewrite <- app_assoc.
      + rewrite P2, Files. now rewrite app_nil_r.
  Qed.
End Cmd.
