(** * C68 (command), C70: commands that replace datasets by new ones. *)
From Coq Require Import String Ascii List Arith ZArith Bool Sorted Lia.
From Verif Require Import Prelude PreludeFacts NdArray DataSpace_Model DataSpace_Spec DataSpace_Proofs
  DataSpace_Proofs2 DataSpace_Proofs3 DataSpace_Props Spawn_Model.
Import ListNotations.
Open Scope list_scope.

Section Spawn.
  Context {X : Type}.
  Implicit Type ds : dspace X.

  (** Number of datasets of a tag. *)
  Definition count ds (t : string) : nat := match aget t ds with Some l => length l | None => 0%nat end.

  Lemma lookup_add ds T n r :
    lookup (add ds T n) r = if ref_eq_dec r (T, count ds T) then Some n else lookup ds r.
  Proof.
    unfold lookup, count. rewrite aget_add. destruct r as [u k]; cbn [fst snd].
    destruct (String.eqb_spec u T) as [->|Hu].
    - destruct (ref_eq_dec _ _) as [E|E].
      + injection E as ->. destruct (aget T ds) as [l|]; [|reflexivity].
        rewrite nth_error_app2, Nat.sub_diag by lia. reflexivity.
      + destruct (aget T ds) as [l|].
        * destruct (Nat.lt_trichotomy k (length l)) as [L|[L|L]]; [now rewrite nth_error_app1|subst; congruence|].
          rewrite nth_error_app2 by lia. destruct (k - length l)%nat as [|m] eqn:Em; [lia|]. cbn.
          assert (nth_error l k = None) as -> by (apply nth_error_None; lia). now destruct m.
        * destruct k as [|k]; [congruence|]. cbn. now destruct k.
    - destruct (ref_eq_dec _ _) as [E|E]; [congruence|reflexivity].
  Qed.

  Lemma count_add ds T n t : count (add ds T n) t = if String.eqb t T then S (count ds T) else count ds t.
  Proof.
    unfold count. rewrite aget_add. destruct (String.eqb_spec t T) as [->|]; [|reflexivity].
    rewrite app_length. cbn. destruct (aget T ds); cbn; lia.
  Qed.

  Lemma count_modify ds r f t : count (modify ds r f) t = count ds t.
  Proof.
    unfold count. pose proof (length_modify ds r f t) as H.
    destruct (aget t (modify ds r f)), (aget t ds); cbn in H; congruence.
  Qed.

  (** What is new after adding results [ys]. *)
  Definition made (label : string) (y : X) (n : dset X) : Prop :=
    ds_data n = y /\ ds_file n = ""%string /\ ds_status n = true /\ ds_label n = label.

  Lemma add_all_spec T label ys ds :
    exists ns, Forall2 (made label) ys ns /\
      (forall t, count (add_all T label ys ds) t = if String.eqb t T then (count ds T + length ys)%nat else count ds t) /\
      (forall r, fst r <> T \/ (snd r < count ds T)%nat -> lookup (add_all T label ys ds) r = lookup ds r) /\
      (forall k, lookup (add_all T label ys ds) (T, count ds T + k)%nat = nth_error ns k).
  Proof.
    unfold add_all. revert ds. induction ys as [|y ys IH]; intros ds; cbn [fold_left].
    - exists []. split; [constructor|]. split; [|split].
      + intros t. destruct (String.eqb_spec t T) as [->|]; cbn; lia.
      + reflexivity.
      + intros k. unfold lookup, count. cbn [fst snd]. destruct (aget T ds) as [l|].
        * assert (nth_error l (length l + k)%nat = None) as -> by (apply nth_error_None; lia). now destruct k.
        * now destruct k.
    - set (n := mk_dset (next_id ds) ""%string true label y).
      destruct (IH (add ds T n)) as (ns & H1 & H2 & H3 & H4). exists (n :: ns).
      rewrite count_add, String.eqb_refl in H2, H3, H4.
      split; [constructor; [repeat split|exact H1]|]. split; [|split].
      + intros t. rewrite H2, count_add. destruct (String.eqb_spec t T) as [->|]; cbn; lia.
      + intros r Hr. rewrite H3 by (destruct Hr; [now left|right; lia]).
        rewrite lookup_add. destruct (ref_eq_dec r (T, count ds T)) as [->|]; [|reflexivity].
        cbn in Hr. destruct Hr; [congruence|lia].
      + intros [|k].
        * rewrite Nat.add_0_r. rewrite H3 by (right; cbn; lia). rewrite lookup_add.
          destruct (ref_eq_dec _ _); [reflexivity|congruence].
        * replace (count ds T + S k)%nat with (S (count ds T) + k)%nat by lia. rewrite H4. reflexivity.
  Qed.

  Lemma filter_nil {Y} (p : Y -> bool) l : (forall y, In y l -> p y = false) -> List.filter p l = [].
  Proof.
    induction l as [|y l IH]; intros H; [reflexivity|]. cbn. rewrite (H y) by (now left).
    apply IH. intros; apply H; now right.
  Qed.

  (** Tags without active datasets are passed over. *)
  Lemma loop_slice_inactive body t ps i ds :
    (forall p, In p ps -> is_active ds (t, p) = false) ->
    loop_slice (fun ds : dspace X => ds) body true t ps i ds = Ok ds.
  Proof.
    revert i. induction ps as [|p ps IH]; intros i H; [reflexivity|]. cbn [loop_slice].
    pose proof (H p (or_introl eq_refl)) as Hp. unfold is_active in Hp. unfold visit.
    destruct (lookup ds (t, p)) as [d|]; [rewrite Hp|]; cbn [negb orb bind]; apply IH; intros; apply H; now right.
  Qed.

  Lemma loop_tags_inactive body tr pre ts ds :
    (forall r, In (fst r) pre -> is_active ds r = false) -> Forall (fun t => aget t ds <> None) pre ->
    loop_tags (fun ds : dspace X => ds) body true tr (ISlice None None None) (pre ++ ts) ds
    = loop_tags (fun ds : dspace X => ds) body true tr (ISlice None None None) ts ds.
  Proof.
    intros Hi Hk. induction Hk as [|t pre Ht Hk IH]; [reflexivity|]. cbn [app loop_tags].
    destruct (aget t ds) as [l|]; [|congruence]. rewrite slice_all. cbn [bind].
    rewrite loop_slice_inactive by (intros p _; apply Hi; now left). cbn [bind].
    apply IH. intros r Hr. apply Hi. now right.
  Qed.

  (** Every active dataset of the used tags is deactivated; its results appear,
      in order, behind the datasets of [T]; nothing else changes.  [T] must not
      come after another used tag that has active datasets ([pre] are leading
      tags without active datasets). *)
  Theorem spawn_spec (f : X -> res (list X)) (g : X -> list X) T label use enum ds ts pre ts' :
    names ds use ts -> NoDup ts -> Forall (fun t => aget t ds <> None) ts ->
    ts = pre ++ ts' -> (forall r, In (fst r) pre -> is_active ds r = false) -> ~ In T (tl ts') ->
    (forall r d, In (fst r) ts -> lookup ds r = Some d -> ds_status d = true -> f (ds_data d) = Ok (g (ds_data d))) ->
    exists ds' rs nss, spawn_command f T label use enum ds = Ok ds' /\
      rs = List.filter (is_active ds) (selected ts (fun t => seq 0 (count ds t))) /\
      Forall2 (fun r ns => exists d, lookup ds r = Some d /\ Forall2 (made label) (g (ds_data d)) ns) rs nss /\
      (forall r d, lookup ds r = Some d -> lookup ds' r = Some (if in_refs r rs then set_status false d else d)) /\
      (forall k, lookup ds' (T, count ds T + k)%nat = nth_error (concat nss) k) /\
      (forall r, fst r <> T -> lookup ds r = None -> lookup ds' r = None).
  Proof.
    intros Hn Hnd Hk Hsplit Hina Htl Hf. unfold spawn_command, iterate.
    assert (Hen : enum && sel_truthy SelNone = false) by (now rewrite andb_false_r). rewrite Hen.
    cbn [parse_sel bind sel_truthy]. rewrite (tags_of_names _ _ _ Hn).
    assert (Hall : forall t, all_of ds t = seq 0 (count ds t)).
    { intros t. unfold all_of, count. destruct (aget t ds); reflexivity. }
    set (body := spawn_body f T label).
    assert (K : keeps (fun ds : dspace X => ds) body (fun t => t <> T)).
    { intros i r st st' Hb t Ht. revert Hb. unfold body, spawn_body. destruct (lookup st r) as [d|]; [|discriminate].
      destruct (f (ds_data d)) as [ys|]; [|discriminate]. cbn [bind]. intros [= <-]. unfold lens.
      rewrite length_modify. clear - Ht. unfold add_all. revert st. induction ys as [|y ys IH]; intros st; [reflexivity|].
      cbn [fold_left]. rewrite IH, aget_add. destruct (String.eqb_spec t T); [congruence|reflexivity]. }
    assert (Hkp : Forall (fun t => aget t ds <> None) pre /\ Forall (fun t => aget t ds <> None) ts').
    { subst ts. now apply Forall_app in Hk. }
    destruct Hkp as [Hkp Hk'].
    assert (Hc : forall t, In t ts' -> exists n, lens ds t = Some n /\ cands (ISlice None None None) t n (enum_from 0 t (all_of ds t))).
    { intros t Ht. rewrite Forall_forall in Hk'. specialize (Hk' t Ht). unfold lens, all_of. destruct (aget t ds) as [l|]; [|congruence].
      exists (length l). split; [reflexivity|]. exists (seq 0 (length l)). split; [apply slice_all|reflexivity]. }
    assert (E : exists cs, List.map snd cs = selected ts' (all_of ds) /\
      loop_tags (fun ds : dspace X => ds) body true false (ISlice None None None) ts ds
      = foldM (vis (fun ds : dspace X => ds) body true) cs ds).
    { rewrite Hsplit, loop_tags_inactive by auto.
      destruct ts' as [|t ts0]; [exists []; split; reflexivity|].
      exists (concat (List.map (fun t => enum_from 0 t (all_of ds t)) (t :: ts0))). split.
      - clear. unfold selected. induction (t :: ts0) as [|u us IH]; [reflexivity|]. cbn [List.map concat flat_map].
        now rewrite map_app, IH, enum_from_snd.
      - cbn [List.map]. apply loop_tags_slice with (U := fun t => t <> T); auto.
        + cbn [tl] in Htl. apply Forall_forall. intros u Hu ->. auto.
        + apply Hc. now left.
        + assert (Hc' : forall u, In u ts0 -> exists n, lens ds u = Some n /\ cands (ISlice None None None) u n (enum_from 0 u (all_of ds u))).
          { intros; apply Hc; now right. }
          clear -Hc'. induction ts0 as [|u us IH]; constructor; [apply Hc'; now left|apply IH; intros; apply Hc'; now right]. }
    destruct E as (cs & Es & ->).
    assert (Hsel : List.filter (is_active ds) (selected ts (fun t => seq 0 (count ds t)))
                 = List.filter (is_active ds) (List.map snd cs)).
    { rewrite Es, Hsplit. unfold selected. rewrite flat_map_app, filter_app.
      match goal with |- ?l ++ _ = _ => assert (E0 : l = []) end.
      { apply filter_nil. intros r Hr. apply Hina. apply in_flat_map in Hr as (t & Ht & Hr).
        apply in_map_iff in Hr as (k & <- & _). exact Ht. }
      rewrite E0. cbn [app]. f_equal. apply flat_map_ext. intros t. now rewrite Hall. }
    rewrite Hsel.
    assert (Hcs : forall c, In c cs -> In (fst (snd c)) ts /\ lookup ds (snd c) <> None).
    { intros c Hcin. assert (Hi : In (snd c) (selected ts' (all_of ds))) by (rewrite <- Es; apply in_map_iff; eauto).
      apply in_all_of in Hi as [Hi1 Hi2]. split; [subst ts; apply in_or_app; now right|exact Hi2]. }
    assert (Hndc : NoDup (List.map snd cs)).
    { rewrite Es. apply NoDup_selected; [|apply NoDup_all_of]. subst ts. clear - Hnd.
      induction pre as [|a pre IH]; [exact Hnd|]. cbn in Hnd. inversion Hnd; auto. }
    clear Es Hsel Hc K Hen.
    (* the part of the loop still to be done *)
    assert (G : forall cs st done,
      NoDup (List.map snd cs) ->
      (forall c, In c cs -> In (fst (snd c)) ts /\ lookup ds (snd c) <> None) ->
      (forall c, In c cs -> lookup st (snd c) = lookup ds (snd c)) ->
      (forall r d, lookup ds r = Some d -> lookup st r = Some (if in_refs r done then set_status false d else d)) ->
      (forall r, fst r <> T -> lookup ds r = None -> lookup st r = None) ->
      (count ds T <= count st T)%nat ->
      exists ds' nss, foldM (vis (fun ds : dspace X => ds) body true) cs st = Ok ds' /\
        Forall2 (fun r ns => exists d, lookup ds r = Some d /\ Forall2 (made label) (g (ds_data d)) ns)
          (List.filter (is_active ds) (List.map snd cs)) nss /\
        (forall r d, lookup ds r = Some d -> lookup ds' r
            = Some (if in_refs r (done ++ List.filter (is_active ds) (List.map snd cs)) then set_status false d else d)) /\
        (forall k, (k < count st T - count ds T)%nat -> lookup ds' (T, count ds T + k)%nat = lookup st (T, count ds T + k)%nat) /\
        (forall k, lookup ds' (T, count st T + k)%nat = nth_error (concat nss) k) /\
        (forall r, fst r <> T -> lookup ds r = None -> lookup ds' r = None)).
    { clear cs Hcs Hndc. induction cs as [|c cs IH]; intros st done Hnd' Hcs Hst Hold Hnone Hcnt; cbn [foldM List.map List.filter].
      - exists st, []. split; [reflexivity|]. split; [constructor|]. rewrite app_nil_r. split; [exact Hold|].
        split; [reflexivity|]. split; [|exact Hnone]. intros k. unfold lookup, count. cbn [fst snd concat].
        destruct (aget T st) as [l|]; [|now destruct k].
        assert (nth_error l (length l + k)%nat = None) as -> by (apply nth_error_None; lia). now destruct k.
      - inversion Hnd' as [|? ? Hni Hnd'']; subst.
        destruct (Hcs c (or_introl eq_refl)) as [Hin Hlk].
        assert (Ha : is_active ds (snd c) = match lookup ds (snd c) with Some d => ds_status d | None => false end) by reflexivity.
        destruct (lookup ds (snd c)) as [d|] eqn:Ed; [|congruence]. rewrite Ha.
        assert (Hstc : lookup st (snd c) = Some d) by (rewrite Hst by (now left); exact Ed).
        assert (Ev : vis (fun ds : dspace X => ds) body true c st =
          match lookup st (snd c) with
          | None => Ok st
          | Some d => if negb true || ds_status d then body (fst c) (snd c) st else Ok st
          end) by reflexivity.
        rewrite Ev, Hstc. clear Ev. cbn [negb orb]. destruct (ds_status d) eqn:Esd.
        + assert (Eb : body (fst c) (snd c) st
                       = Ok (modify (add_all T label (g (ds_data d)) st) (snd c) (set_status false))).
          { unfold body, spawn_body. rewrite Hstc, (Hf _ _ Hin Ed Esd). reflexivity. }
          rewrite Eb. cbn [bind].
          destruct (add_all_spec T label (g (ds_data d)) st) as (ns & N1 & N2 & N3 & N4).
          set (st1 := add_all T label (g (ds_data d)) st) in *.
          set (st2 := modify st1 (snd c) (set_status false)).
          assert (Hcin : forall r x, lookup st r = Some x -> lookup st1 r = Some x).
          { intros r x Hx. rewrite N3; [exact Hx|]. destruct (string_dec (fst r) T) as [Er|Er]; [right|now left].
            unfold lookup, count in *. rewrite Er in Hx. destruct (aget T st); [|discriminate].
            apply nth_error_Some. congruence. }
          assert (Hc1 : count st2 T = (count st T + length ns)%nat).
          { unfold st2. rewrite count_modify, N2, String.eqb_refl. now rewrite (Forall2_length _ _ _ N1). }
          assert (Hpos : forall k, (count ds T <= k)%nat -> (T, k) <> snd c).
          { intros k Hk1 Ec. rewrite <- Ec in Ed. unfold lookup, count in *. cbn in Ed. destruct (aget T ds); [|discriminate].
            assert (k < length l)%nat by (apply nth_error_Some; congruence). lia. }
          assert (Hst2 : forall r, r <> snd c -> lookup st2 r = lookup st1 r).
          { intros r Hr. unfold st2. rewrite lookup_modify. destruct (ref_eq_dec r (snd c)); [congruence|reflexivity]. }
          destruct (IH st2 (done ++ [snd c])) as (ds' & nss & E1 & E2 & E3 & E4 & E5 & E6); auto.
          * intros; apply Hcs; now right.
          * intros c' Hc'. rewrite Hst2.
            -- destruct (Hcs c' (or_intror Hc')) as [_ Hl']. rewrite <- (Hst c') by (now right).
               destruct (lookup st (snd c')) as [x|] eqn:Ex; [now apply Hcin|].
               exfalso. rewrite (Hst c') in Ex by (now right). congruence.
            -- intros Ec. apply Hni. rewrite <- Ec. apply in_map_iff; eauto.
          * intros r x Hx. unfold st2. rewrite lookup_modify.
            destruct (ref_eq_dec r (snd c)) as [->|Hne].
            -- rewrite (Hcin _ _ Hstc). cbn [option_map]. rewrite Ed in Hx. injection Hx as <-.
               assert (in_refs (snd c) (done ++ [snd c]) = true) as ->; [|reflexivity].
               apply in_refs_spec, in_or_app. right. now left.
            -- rewrite (Hcin _ _ (Hold _ _ Hx)). f_equal.
               assert (in_refs r (done ++ [snd c]) = in_refs r done) as ->; [|reflexivity].
               apply eq_true_iff_eq. rewrite !in_refs_spec, in_app_iff. cbn. intuition congruence.
          * intros r Hr Hx. unfold st2. rewrite lookup_modify.
            destruct (ref_eq_dec r (snd c)) as [->|Hne]; [congruence|]. rewrite N3 by (now left). auto.
          * rewrite Hc1. lia.
          * exists ds', (ns :: nss). split; [exact E1|]. split; [constructor; [exists d; auto|exact E2]|].
            split; [|split; [|split]].
            -- intros r x Hx. rewrite (E3 r x Hx). rewrite <- app_assoc. reflexivity.
            -- intros k Hk1. rewrite E4 by lia. rewrite Hst2 by (apply Hpos; lia). apply N3. right. cbn. lia.
            -- intros k. cbn [concat].
               destruct (Nat.lt_ge_cases k (length ns)) as [L|L].
               ++ rewrite nth_error_app1 by auto. rewrite <- N4.
                  replace (count st T + k)%nat with (count ds T + (count st T - count ds T + k))%nat by lia.
                  rewrite E4 by lia. apply Hst2, Hpos. lia.
               ++ rewrite nth_error_app2 by auto. rewrite <- E5, Hc1. f_equal. f_equal. lia.
            -- exact E6.
        + cbn [bind]. apply IH; auto.
          * intros; apply Hcs; now right.
          * intros; apply Hst; now right. }
    destruct (G cs ds []) as (ds' & nss & E1 & E2 & E3 & E4 & E5 & E6); auto.
    exists ds', (List.filter (is_active ds) (List.map snd cs)), nss. repeat split; auto.
  Qed.
End Spawn.

(** ** C68: the command *)
Section C68.
  Context {X : Type}.
  Implicit Type ds : dspace X.

  (** One dataset per active dataset of the used tags is added under the tag;
      the inputs are deactivated and stay in place; nothing else changes.  No
      sum over the datasets is formed, whatever the number of species. *)
  Theorem C68_command (f : X -> res X) (g : X -> X) tag label use ds ts :
    names ds use ts -> NoDup ts -> Forall (fun t => aget t ds <> None) ts -> ~ In tag (tl ts) ->
    (forall r d, In (fst r) ts -> lookup ds r = Some d -> ds_status d = true -> f (ds_data d) = Ok (g (ds_data d))) ->
    exists ds' rs ns, current_command f use tag label ds = Ok ds' /\
      (forall r, In r rs <-> In (fst r) ts /\ is_active ds r = true) /\ NoDup rs /\
      Forall2 (fun r n => exists d, lookup ds r = Some d /\ made label (g (ds_data d)) n) rs ns /\
      (forall r d, lookup ds r = Some d -> lookup ds' r = Some (if in_refs r rs then set_status false d else d)) /\
      (forall k, lookup ds' (tag, count ds tag + k)%nat = nth_error ns k) /\
      (forall r, fst r <> tag -> lookup ds r = None -> lookup ds' r = None).
  Proof.
    intros Hn Hnd Hk Htl Hf.
    destruct (spawn_spec (fun x => let* y := f x in Ok [y]) (fun x => [g x]) tag label use false ds ts [] ts)
      as (ds' & rs & nss & E & -> & F & H1 & H2 & H3); auto.
    { intros r []. }
    { intros r d Hr Hd Hs. rewrite (Hf r d Hr Hd Hs). reflexivity. }
    assert (Hall : forall t, seq 0 (count ds t) = all_of ds t).
    { intros t. unfold all_of, count. destruct (aget t ds); reflexivity. }
    assert (Hsel : selected ts (fun t => seq 0 (count ds t)) = selected ts (all_of ds)).
    { unfold selected. apply flat_map_ext. intros t. now rewrite Hall. }
    exists ds', (List.filter (is_active ds) (selected ts (fun t => seq 0 (count ds t)))), (concat nss).
    split; [exact E|]. rewrite Hsel in *. split; [|split; [|split; [|auto]]].
    - intros r. rewrite filter_In, in_all_of. split; [tauto|]. intros [Hr Ha]. repeat split; auto.
      unfold is_active in Ha. destruct (lookup ds r); discriminate.
    - apply NoDup_filter, NoDup_selected; auto. apply NoDup_all_of.
    - clear - F. induction F as [|r ns rs nss (d & Hd & Hm) F IH]; [constructor|].
      inversion Hm as [|? n ? ? Hn Hnil]; subst. inversion Hnil; subst. cbn [concat app]. constructor; eauto.
  Qed.
End C68.

(** When the tag already exists behind another used tag, the results are taken
    for inputs: with minus the flow as the current, the current of the
    electrons is negated twice. *)
Theorem C68_existing_tag_refuted :
  exists (ds ds' : dspace Z), current_command (fun x => Ok (- x)%Z) None "current" "J" ds = Ok ds' /\
    lookup ds ("elc"%string, 0%nat) <> None /\
    exists n, lookup ds' ("current"%string, 2%nat) = Some n /\ ds_status n = true /\
      option_map ds_data (lookup ds ("elc"%string, 0%nat)) = Some (ds_data n).
Proof.
  exists [("elc"%string, [mk_dset 1 "" true "" 5%Z]); ("current"%string, [mk_dset 2 "" false "" 7%Z])].
  eexists. split; [vm_compute; reflexivity|]. split; [discriminate|]. eexists. repeat split.
Qed.

Example C68_command_ex : exists ds',
  current_command (fun x => Ok (x + 1)%nat) None "current" "J" ex_ds = Ok ds' /\
  List.map (fun p => List.map (fun d => (ds_status d, ds_data d)) (snd p)) ds'
  = [[(false, 10); (false, 20); (false, 30)]; [(false, 40); (false, 50)]; [(true, 11); (true, 31); (true, 41); (true, 51)]]%nat.
Proof. eexists. split; vm_compute; reflexivity. Qed.

(** ** C70: val2coord *)

(** The option [-x] or [-y] names the columns [ks] out of [nc]: one column,
    counted from the end when negative, or a Python slice with positive step
    whose start is not before the first column and whose stop is not behind
    the last. *)
Inductive columns_of (nc : nat) : string -> list nat -> Prop :=
| col_one z : (0 <= from_end nc z < Z.of_nat nc)%Z -> columns_of nc (show_Z z) [Z.to_nat (from_end nc z)]
| col_slice a b ks :
    (forall i, a = Some i -> (- Z.of_nat nc <= i)%Z) -> (forall i, b = Some i -> (i <= Z.of_nat nc)%Z) ->
    is_slice nc a b 1 ks -> columns_of nc (show_opt a ++ ":" ++ show_opt b)%string ks
| col_step a b c ks :
    (forall i, a = Some i -> (- Z.of_nat nc <= i)%Z) -> (forall i, b = Some i -> (i <= Z.of_nat nc)%Z) ->
    (0 < c)%Z -> is_slice nc a b c ks ->
    columns_of nc (show_opt a ++ ":" ++ show_opt b ++ ":" ++ show_Z c)%string ks.

Lemma show_Z_not_empty z : String.eqb (show_Z z) "" = false.
Proof.
  apply String.eqb_neq. intros E. pose proof (py_int_show_Z z) as H. rewrite E in H. discriminate.
Qed.

Lemma end_parse (nc : nat) (o : option Z) (dflt : Z) :
  (if String.eqb (show_opt o) "" then Ok dflt
   else let* z := py_int (show_opt o) in Ok (if (z <? 0)%Z then (Z.of_nat nc + z)%Z else z))
  = Ok (match o with None => dflt | Some i => from_end nc i end).
Proof.
  destruct o as [i|]; [|reflexivity]. cbn [show_opt]. rewrite show_Z_not_empty, py_int_show_Z. cbn [bind].
  unfold from_end. destruct (i <? 0)%Z; f_equal; lia.
Qed.

Lemma range_list_nonneg lo hi c z : (0 < c)%Z -> (0 <= lo)%Z -> In z (range_list lo hi c) -> (0 <= z)%Z.
Proof.
  intros Hc Hl H. unfold range_list in H. apply in_map_iff in H as (k & <- & _). nia.
Qed.

(** The range used is the Python slice. *)
Lemma arange_slice nc a b c ks :
  (forall i, a = Some i -> (- Z.of_nat nc <= i)%Z) -> (forall i, b = Some i -> (i <= Z.of_nat nc)%Z) ->
  (0 < c)%Z -> is_slice nc a b c ks ->
  Forall2 (fun z k => norm_index nc z = Ok k)
    (range_list (match a with None => 0%Z | Some i => from_end nc i end)
                (match b with None => Z.of_nat nc | Some i => from_end nc i end) c) ks.
Proof.
  intros Ha Hb Hc Hs.
  pose proof (slice_list_is nc a b (Some c) ks ltac:(intros [= ->]; lia) Hs) as E.
  unfold slice_list, slice_indices in E.
  destruct (Z.eqb_spec c 0); [lia|]. destruct (Z.ltb_spec 0 c); [|lia]. cbn [bind] in E. injection E as E.
  set (lo := match a with None => 0%Z | Some i => from_end nc i end).
  set (hi := match b with None => Z.of_nat nc | Some i => from_end nc i end).
  set (lo' := match a with None => 0%Z | Some i => adjust_pos (Z.of_nat nc) i end) in E.
  set (hi' := match b with None => Z.of_nat nc | Some i => adjust_pos (Z.of_nat nc) i end) in E.
  assert (Hlo : (0 <= lo)%Z).
  { unfold lo, from_end. destruct a as [i|]; [|lia]. specialize (Ha i eq_refl). destruct (Z.ltb_spec i 0); lia. }
  assert (Hll : lo' = Z.min lo (Z.of_nat nc)).
  { unfold lo, lo', from_end, adjust_pos. destruct a as [i|]; [|lia]. specialize (Ha i eq_refl). destruct (Z.ltb_spec i 0); lia. }
  assert (Hhi : hi' = Z.max 0 hi /\ (hi <= Z.of_nat nc)%Z).
  { unfold hi, hi', from_end, adjust_pos. destruct b as [i|]; [|lia]. specialize (Hb i eq_refl). destruct (Z.ltb_spec i 0); lia. }
  destruct Hhi as [Hh Hhn].
  assert (Er : range_list lo hi c = range_list lo' hi' c).
  { destruct (Z.le_gt_cases (Z.of_nat nc) lo) as [L|L].
    - assert (forall x y, (y <= x)%Z -> range_list x y c = []) as Hempty.
      { intros x y Hxy. unfold range_list, range_len. destruct (Z.ltb_spec 0 c); [|lia].
        assert ((y - x + c - 1) / c <= 0)%Z by (apply Z.lt_succ_r, Z.div_lt_upper_bound; lia).
        rewrite Z.max_l by lia. reflexivity. }
      rewrite !Hempty; auto; lia.
    - replace lo' with lo by lia. destruct (Z.le_gt_cases 0 hi) as [L2|L2]; [now replace hi' with hi by lia|].
      assert (forall x y, (y <= x)%Z -> range_list x y c = []) as Hempty.
      { intros x y Hxy. unfold range_list, range_len. destruct (Z.ltb_spec 0 c); [|lia].
        assert ((y - x + c - 1) / c <= 0)%Z by (apply Z.lt_succ_r, Z.div_lt_upper_bound; lia).
        rewrite Z.max_l by lia. reflexivity. }
      rewrite !Hempty; auto; lia. }
  rewrite Er, <- E. clear Er.
  assert (Hlt : forall k, In k ks -> (k < nc)%nat) by (intros; eapply is_slice_lt; eauto).
  rewrite <- E in Hlt. clear E Hs.
  assert (Hnn : forall z, In z (range_list lo' hi' c) -> (0 <= z)%Z) by (intros; eapply range_list_nonneg with (lo := lo'); eauto; lia).
  induction (range_list lo' hi' c) as [|z zs IH]; [constructor|]. cbn [List.map]. constructor.
  - pose proof (Hnn z (or_introl eq_refl)). pose proof (Hlt (Z.to_nat z) (or_introl eq_refl)).
    unfold norm_index. destruct (Z.ltb_spec z 0); [lia|].
    destruct (Z.leb_spec 0 z); [|lia]. destruct (Z.ltb_spec z (Z.of_nat nc)); [reflexivity|lia].
  - apply IH; intros; [apply Hlt|apply Hnn]; now right.
Qed.

Lemma get_range_columns nc s ks : columns_of nc s ks ->
  exists zs, get_range s nc = Ok zs /\ Forall2 (fun z k => norm_index nc z = Ok k) zs ks.
Proof.
  intros H. unfold get_range. destruct H as [z Hz|a b ks Ha Hb Hs|a b c ks Ha Hb Hc Hs].
  - rewrite split_on_none by (apply show_Z_no; auto). cbn [length Nat.ltb Nat.leb].
    rewrite show_Z_no by auto. rewrite py_int_show_Z. cbn [bind]. eexists. split; [reflexivity|].
    constructor; [|constructor]. unfold norm_index, from_end in *.
    destruct (Z.ltb_spec z 0); match goal with |- context [(0 <=? ?e)%Z] => destruct (Z.leb_spec 0 e); [|lia] end;
      match goal with |- context [(?e <? Z.of_nat nc)%Z] => destruct (Z.ltb_spec e (Z.of_nat nc)); [reflexivity|lia] end.
  - assert (Hcm : has_char "," (show_opt a ++ ":" ++ show_opt b)%string = false).
    { rewrite !has_char_app, !show_opt_no by auto. reflexivity. }
    rewrite split_on_none by exact Hcm. cbn [length Nat.ltb Nat.leb].
    rewrite !has_char_app. change (has_char ":" ":") with true. rewrite orb_true_l, orb_true_r.
    change (show_opt a ++ ":" ++ show_opt b)%string with (show_opt a ++ String ":" (show_opt b))%string.
    rewrite split_on_app by (apply show_opt_no; auto). rewrite split_on_none by (apply show_opt_no; auto).
    rewrite !end_parse. cbn [bind]. destruct (Z.eqb_spec 1 0); [lia|].
    eexists. split; [reflexivity|]. apply arange_slice; auto. lia.
  - assert (Hcm : has_char "," (show_opt a ++ ":" ++ show_opt b ++ ":" ++ show_Z c)%string = false).
    { rewrite !has_char_app, !show_opt_no, show_Z_no by auto. reflexivity. }
    rewrite split_on_none by exact Hcm. cbn [length Nat.ltb Nat.leb].
    rewrite !has_char_app. change (has_char ":" ":") with true. rewrite orb_true_l, orb_true_r.
    change (show_opt a ++ ":" ++ show_opt b ++ ":" ++ show_Z c)%string
      with (show_opt a ++ String ":" (show_opt b ++ String ":" (show_Z c)))%string.
    rewrite !split_on_app by (apply show_opt_no; auto). rewrite split_on_none by (apply show_Z_no; auto).
    rewrite !end_parse. cbn [bind]. rewrite show_Z_not_empty, py_int_show_Z. cbn [bind].
    destruct (Z.eqb_spec c 0); [lia|].
    eexists. split; [reflexivity|]. apply arange_slice; auto.
Qed.

Lemma nth_combine {Y Z} (l : list Y) (m : list Z) k y z :
  nth_error l k = Some y -> nth_error m k = Some z -> nth_error (combine l m) k = Some (y, z).
Proof.
  revert m k; induction l; destruct m, k; cbn; try discriminate; auto. now intros [= ->] [= ->].
Qed.

Section C70.
  Context {A : Type}.

  Lemma column_ok (v : nda A) n nc z k :
    wf v -> shape v = [n; nc] -> norm_index nc z = Ok k ->
    exists w, column z v = Ok w /\ wf w /\ shape w = [n] /\ forall i, (i < n)%nat -> get w [i] = get v [i; k].
  Proof.
    intros Hw Hs Hk. unfold column. rewrite Hs. cbn [rev app removelast]. rewrite Hk. cbn [bind].
    assert (Hlt : (k < nc)%nat).
    { unfold norm_index in Hk. set (j := if (z <? 0)%Z then (z + Z.of_nat nc)%Z else z) in Hk.
      destruct (Z.leb_spec 0 j), (Z.ltb_spec j (Z.of_nat nc)); cbn in Hk; try discriminate. injection Hk as <-. lia. }
    set (sels := List.map (seq 0) [n] ++ [[k]]).
    assert (Hsel : Forall2 (fun s m => forall i, In i s -> (i < m)%nat) sels (shape v)).
    { rewrite Hs. constructor; [intros i Hi; apply in_seq in Hi; lia|].
      constructor; [intros i [<-|[]]; auto|constructor]. }
    pose proof (wf_take sels v Hw Hsel) as Hwt.
    assert (Hsh : shape (take sels v) = [n; 1%nat]) by (cbn; now rewrite seq_length).
    eexists. split; [reflexivity|]. split; [|split; [reflexivity|]].
    - unfold wf in *. rewrite Hsh in Hwt. cbn [shape flat] in *. rewrite Hwt. cbn. lia.
    - intros i Hi.
      assert (E : get (take sels v) [i; 0%nat] = get v [i; k]).
      { apply get_take; auto.
        - cbn. rewrite seq_length. constructor; [exact Hi|constructor; [lia|constructor]].
        - constructor; [|constructor; [reflexivity|constructor]].
          cbn [fst snd]. rewrite nth_error_seq. destruct (Nat.ltb_spec i n); [reflexivity|lia]. }
      rewrite <- E. unfold get. rewrite Hsh. cbn [shape flat ravel].
      destruct (Nat.ltb_spec i n); [|lia]. cbn. rewrite Nat.mul_1_r, Nat.add_0_r. reflexivity.
  Qed.

  Lemma close_ok (x : nda A) n : wf x -> shape x = [S n] ->
    exists w, close x = Ok w /\ wf w /\ shape w = [S (S n)] /\
      forall i, (i < S (S n))%nat -> get w [i] = get x [(i mod S n)%nat].
  Proof.
    intros Hw Hs. unfold close. rewrite Hs. unfold wf in Hw. rewrite Hs in Hw. cbn [prod fold_right] in Hw. rewrite Nat.mul_1_r in Hw.
    destruct (flat x) as [|a l] eqn:El; [cbn in Hw; lia|].
    eexists. split; [reflexivity|]. split; [|split; [reflexivity|]].
    - unfold wf. cbn [flat shape]. rewrite app_length, Hw. cbn [length prod fold_right]. lia.
    - intros i Hi. unfold get. rewrite Hs. cbn [shape flat]. rewrite El.
      assert (Hr : forall m j, (j < m)%nat -> ravel [m] [j] = Some j).
      { intros m j Hj. cbn [ravel]. rewrite (proj2 (Nat.ltb_lt j m) Hj). cbn [option_map prod fold_right]. f_equal. unfold prod. cbn. lia. }
      rewrite !Hr by (auto; apply Nat.mod_upper_bound; lia).
      destruct (Nat.eq_dec i (S n)) as [->|Hne].
      + rewrite Nat.mod_same by lia. rewrite nth_error_app2 by lia. replace (S n - length (a :: l))%nat with 0%nat by lia. reflexivity.
      + rewrite Nat.mod_small by lia. apply nth_error_app1. lia.
  Qed.

  (** What a new dataset holds: as coordinate the column [xc], as its only
      component the column [yc]; with [--periodic] the first row is repeated
      at the end. *)
  Definition made_of (v : nda A) (n : nat) (periodic : bool) (xc yc : nat) (out : @vdata A) : Prop :=
    exists x y m, out = ([x], y) /\ m = (if periodic then S n else n) /\
      wf x /\ wf y /\ shape x = [m] /\ shape y = [m; 1%nat] /\
      forall i, (i < m)%nat -> get x [i] = get v [(i mod n)%nat; xc] /\ get y [i; 0%nat] = get v [(i mod n)%nat; yc].

  Lemma one_column_ok (v : nda A) n nc periodic zx zy xc yc :
    wf v -> shape v = [S n; nc] -> norm_index nc zx = Ok xc -> norm_index nc zy = Ok yc ->
    exists out, one_column periodic v zx zy = Ok out /\ made_of v (S n) periodic xc yc out.
  Proof.
    intros Hw Hs Hx Hy. unfold one_column.
    destruct (column_ok v (S n) nc zx xc Hw Hs Hx) as (x & -> & Wx & Sx & Gx).
    destruct (column_ok v (S n) nc zy yc Hw Hs Hy) as (y & -> & Wy & Sy & Gy). cbn [bind].
    assert (F : forall (y' : nda A) m, wf y' -> shape y' = [m] ->
       let o := mk_nda (shape y' ++ [1%nat]) (flat y') in
       wf o /\ shape o = [m; 1%nat] /\ forall i, (i < m)%nat -> get o [i; 0%nat] = get y' [i]).
    { intros y' m Hw' Hs' o. unfold o. rewrite Hs'. unfold wf in *. rewrite Hs' in Hw'. cbn [shape flat app] in *.
      split; [rewrite Hw'; cbn; lia|]. split; [reflexivity|]. intros i Hi. unfold get. cbn [shape flat ravel]. rewrite Hs'. cbn [ravel].
      destruct (Nat.ltb_spec i m); [|lia]. cbn. now rewrite Nat.mul_1_r. }
    destruct periodic.
    - destruct (close_ok x n Wx Sx) as (x' & -> & Wx' & Sx' & Gx').
      destruct (close_ok y n Wy Sy) as (y' & -> & Wy' & Sy' & Gy'). cbn [bind].
      destruct (F y' _ Wy' Sy') as (W1 & S1 & G1).
      eexists. split; [reflexivity|]. do 3 eexists. split; [reflexivity|]. split; [reflexivity|].
      repeat (split; [assumption|]). intros i Hi.
      assert (i mod S n < S n)%nat by (apply Nat.mod_upper_bound; lia).
      rewrite G1, Gx', Gy', Gx, Gy by auto. auto.
    - cbn [bind]. destruct (F y _ Wy Sy) as (W1 & S1 & G1).
      eexists. split; [reflexivity|]. do 3 eexists. split; [reflexivity|]. split; [reflexivity|].
      repeat (split; [assumption|]). intros i Hi. rewrite G1, Gx, Gy by auto. now rewrite Nat.mod_small by auto.
  Qed.

  (** One dataset per y-column; the x-columns are paired with them one by one,
      or the only x-column is used for all. *)
  Theorem C70_columns (v : nda A) grid n nc xs ys kx ky periodic :
    wf v -> shape v = [S n; nc] -> columns_of nc xs kx -> columns_of nc ys ky ->
    length kx = 1%nat \/ length kx = length ky ->
    exists outs, val2coord (Some xs) (Some ys) periodic (grid, v) = Ok outs /\
      length outs = length ky /\
      forall j yc, nth_error ky j = Some yc ->
        exists xc out, nth_error kx (if (length kx =? 1)%nat then 0%nat else j) = Some xc /\
          nth_error outs j = Some out /\ made_of v (S n) periodic xc yc out.
  Proof.
    intros Hw Hs Hx Hy Hlen. unfold val2coord. cbn [snd]. rewrite Hs.
    destruct (get_range_columns _ _ _ Hx) as (zx & -> & Fx).
    destruct (get_range_columns _ _ _ Hy) as (zy & -> & Fy). cbn [bind].
    pose proof (Forall2_length _ _ _ Fx) as Lx. pose proof (Forall2_length _ _ _ Fy) as Ly.
    assert (Hok : (1 <? length zx)%nat && negb (length zx =? length zy)%nat = false).
    { destruct (Nat.ltb_spec 1 (length zx)); [|reflexivity]. destruct (Nat.eqb_spec (length zx) (length zy)); [reflexivity|lia]. }
    rewrite Hok.
    set (F := fun iy : nat * Z => match nth_error zx (if (1 <? length zx)%nat then fst iy else 0%nat) with
                                  | None => Err IndexError
                                  | Some xc => one_column periodic v xc (snd iy)
                                  end).
    set (P := fun (iy : nat * Z) (out : @vdata A) => forall yc, nth_error ky (fst iy) = Some yc ->
       exists xc, nth_error kx (if (length kx =? 1)%nat then 0%nat else fst iy) = Some xc /\ made_of v (S n) periodic xc yc out).
    assert (Hall : forall l, (forall iy, In iy l -> nth_error zy (fst iy) = Some (snd iy)) ->
       exists outs, mapM F l = Ok outs /\ Forall2 P l outs).
    { induction l as [|[j z] l IH]; intros Hl; [exists []; split; [reflexivity|constructor]|].
      pose proof (Hl (j, z) (or_introl eq_refl)) as Hj. cbn [fst snd] in Hj.
      destruct IH as (outs & El & Fl); [intros; apply Hl; now right|].
      assert (Hjl : (j < length zy)%nat) by (apply nth_error_Some; congruence).
      assert (Hky : exists yc, nth_error ky j = Some yc).
      { destruct (nth_error ky j) eqn:E; eauto. apply nth_error_None in E. lia. }
      destruct Hky as [yc Hyc].
      assert (Hp : exists p xc zc, p = (if (length kx =? 1)%nat then 0%nat else j) /\ p = (if (1 <? length zx)%nat then j else 0%nat) /\
         nth_error kx p = Some xc /\ nth_error zx p = Some zc /\ norm_index nc zc = Ok xc).
      { exists (if (length kx =? 1)%nat then 0%nat else j).
        assert (Hp1 : ((if (length kx =? 1)%nat then 0%nat else j) < length zx)%nat).
        { destruct (Nat.eqb_spec (length kx) 1); lia. }
        destruct (nth_error zx (if (length kx =? 1)%nat then 0%nat else j)) as [zc|] eqn:Ez; [|apply nth_error_None in Ez; lia].
        destruct (nth_error kx (if (length kx =? 1)%nat then 0%nat else j)) as [xc|] eqn:Ex; [|apply nth_error_None in Ex; lia].
        exists xc, zc. split; [reflexivity|]. split; [|split; [reflexivity|split; [reflexivity|]]].
        - destruct (Nat.eqb_spec (length kx) 1), (Nat.ltb_spec 1 (length zx)); lia.
        - eapply (Forall2_nth_error _ _ _ _ _ _ Fx); eauto. }
      destruct Hp as (p & xc & zc & Ep1 & Ep2 & Hkx & Hzx & Hnx).
      assert (Hny : norm_index nc z = Ok yc) by (eapply (Forall2_nth_error _ _ _ _ _ _ Fy); eauto).
      destruct (one_column_ok v n nc periodic zc z xc yc Hw Hs Hnx Hny) as (out & Eo & Ho).
      assert (EF : F (j, z) = Ok out).
      { unfold F. cbn [fst snd]. rewrite <- Ep2, Hzx. exact Eo. }
      exists (out :: outs). cbn [mapM]. rewrite EF, El. split; [reflexivity|]. constructor; [|exact Fl].
      intros yc' Hyc'. cbn [fst] in *. rewrite Hyc in Hyc'. injection Hyc' as <-. exists xc. rewrite <- Ep1. auto. }
    destruct (Hall (combine (seq 0 (length zy)) zy)) as (outs & E & FP).
    { intros [j z] Hin. cbn [fst snd]. clear - Hin.
      assert (G : forall s l, In (j, z) (combine (seq s (length l)) l) -> (s <= j)%nat /\ nth_error l (j - s) = Some z).
      { intros s l. revert s. induction l as [|w l IH]; intros s; cbn; [tauto|].
        intros [H|H].
        - injection H as -> ->. rewrite Nat.sub_diag. split; [lia|reflexivity].
        - apply IH in H as [H1 H2]. split; [lia|]. replace (j - s)%nat with (S (j - S s)) by lia. exact H2. }
      apply G in Hin as [_ H]. now rewrite Nat.sub_0_r in H. }
    exists outs. split; [exact E|].
    assert (Lo : length outs = length zy).
    { rewrite <- (Forall2_length _ _ _ FP), combine_length, seq_length. lia. }
    split; [lia|]. intros j yc Hyc.
    assert (Hj : (j < length zy)%nat) by (rewrite Ly; apply nth_error_Some; congruence).
    destruct (nth_error outs j) as [out|] eqn:Eo; [|apply nth_error_None in Eo; lia].
    destruct (nth_error zy j) as [z|] eqn:Ez; [|apply nth_error_None in Ez; lia].
    assert (Ec : nth_error (combine (seq 0 (length zy)) zy) j = Some (j, z)).
    { assert (Eseq : nth_error (seq 0 (length zy)) j = Some j) by (rewrite nth_error_seq; destruct (Nat.ltb_spec j (length zy)); [reflexivity|lia]).
      now apply nth_combine. }
    destruct (Forall2_nth_error _ _ _ _ _ _ FP Ec Eo yc Hyc) as (xc & H1 & H2). eauto.
  Qed.

  (** Several x-columns but another number of y-columns: the program ends. *)
  Theorem C70_mismatch (v : nda A) grid n nc xs ys kx ky periodic :
    wf v -> shape v = [S n; nc] -> columns_of nc xs kx -> columns_of nc ys ky ->
    (1 < length kx)%nat -> length kx <> length ky ->
    val2coord (Some xs) (Some ys) periodic (grid, v) = Err Quit.
  Proof.
    intros Hw Hs Hx Hy H1 H2. unfold val2coord. cbn [snd]. rewrite Hs.
    destruct (get_range_columns _ _ _ Hx) as (zx & -> & Fx).
    destruct (get_range_columns _ _ _ Hy) as (zy & -> & Fy). cbn [bind].
    pose proof (Forall2_length _ _ _ Fx) as Lx. pose proof (Forall2_length _ _ _ Fy) as Ly.
    destruct (Nat.ltb_spec 1 (length zx)); [|lia]. destruct (Nat.eqb_spec (length zx) (length zy)); [lia|]. reflexivity.
  Qed.

  (** A list of columns with commas cannot be given at all. *)
  Theorem C70_comma (v : nda A) grid n nc xs ys periodic :
    shape v = [S n; nc] -> has_char "," xs = true ->
    val2coord (Some xs) (Some ys) periodic (grid, v) = Err AttributeError.
  Proof.
    intros Hs Hc. unfold val2coord. cbn [snd]. rewrite Hs. unfold get_range at 1.
    assert (H : (1 <? length (split_on "," xs))%nat = true).
    { apply Nat.ltb_lt. clear - Hc. induction xs as [|a xs IH]; [discriminate|]. cbn [split_on has_char] in *.
      destruct (Ascii.eqb a ","%char) eqn:E.
      - cbn [length]. pose proof (split_on_nonnil "," xs). destruct (split_on "," xs); [congruence|cbn; lia].
      - cbn [orb] in Hc. specialize (IH Hc). destruct (split_on "," xs); cbn [length] in *; lia. }
    rewrite H. reflexivity.
  Qed.
End C70.

(** The tag of the results. *)
Definition has_active {X} (ds : dspace X) (t : string) : Prop := exists k, is_active ds (t, k) = true.
Inductive out_tag {X} (ds : dspace X) : option string -> string -> Prop :=
| out_given T : out_tag ds (Some T) T
| out_same t : (forall u, has_active ds u <-> u = t) -> out_tag ds None t
| out_other : (forall t, ~ forall u, has_active ds u <-> u = t) -> out_tag ds None "val2coord".

Section C70b.
  Context {A : Type}.
  Notation X := (@vdata A).
  Implicit Type ds : dspace X.

  Lemma has_active_list ds t :
    has_active ds t <-> existsb ds_status (match aget t ds with Some l => l | None => [] end) = true.
  Proof.
    unfold has_active, is_active, lookup. cbn [fst snd]. rewrite existsb_exists. split.
    - intros [k Hk]. destruct (aget t ds) as [l|]; [|discriminate].
      destruct (nth_error l k) as [d|] eqn:E; [|discriminate]. exists d. split; [eapply nth_error_In; eauto|auto].
    - intros (d & Hd & Hs). destruct (aget t ds) as [l|]; [|destruct Hd].
      apply In_nth_error in Hd as [k Hk]. exists k. now rewrite Hk.
  Qed.

  Lemma out_tag_tags ds tag T :
    NoDup (List.map fst ds) -> Forall (fun t => t <> ""%string /\ has_char "," t = false) (List.map fst ds) ->
    out_tag ds tag T ->
    exists tags, tag_iterator ds None true = Ok tags /\
      T = match tag with
          | Some t => t
          | None => match tags with [t] => t | _ => "val2coord"%string end
          end.
  Proof.
    intros Hnd Hks H. rewrite (C16_tags ds Hks). eexists. split; [reflexivity|].
    set (p := fun t => existsb ds_status (match aget t ds with Some l => l | None => [] end)).
    assert (Hp : forall t, p t = true -> In t (List.map fst ds)).
    { intros t Ht. unfold p in Ht. destruct (aget t ds) as [l|] eqn:E; [eapply key_aget; eauto|discriminate]. }
    assert (Hin : forall t, In t (List.filter p (List.map fst ds)) <-> has_active ds t).
    { intros t. rewrite filter_In, has_active_list. fold (p t). split; [tauto|]. intros Ht. split; auto. }
    assert (Hnf : NoDup (List.filter p (List.map fst ds))) by (now apply NoDup_filter).
    destruct H as [T|t Ht|Hno]; [reflexivity| |].
    - destruct (List.filter p (List.map fst ds)) as [|a [|b l]].
      + destruct (proj2 (Hin t)). now apply Ht.
      + assert (a = t) as ->; [|reflexivity]. apply Ht, Hin. now left.
      + assert (a = t) by (apply Ht, Hin; now left). assert (b = t) by (apply Ht, Hin; right; now left). subst.
        inversion Hnf as [|? ? Hni _]; subst. exfalso. apply Hni. now left.
    - destruct (List.filter p (List.map fst ds)) as [|a [|b l]]; try reflexivity.
      exfalso. apply (Hno a). intros u. rewrite <- Hin. cbn. intuition congruence.
  Qed.

  (** The command: every active dataset of the used tags is deactivated and
      its columns appear, in order, behind the datasets of the result's tag. *)
  Theorem C70_command use tag T xs ys label periodic ds ts pre ts' (g : X -> list X) :
    NoDup (List.map fst ds) -> Forall (fun t => t <> ""%string /\ has_char "," t = false) (List.map fst ds) ->
    out_tag ds tag T -> names ds use ts -> NoDup ts -> Forall (fun t => aget t ds <> None) ts ->
    ts = pre ++ ts' -> (forall r, In (fst r) pre -> is_active ds r = false) -> ~ In T (tl ts') ->
    (forall r d, In (fst r) ts -> lookup ds r = Some d -> ds_status d = true ->
       val2coord xs ys periodic (ds_data d) = Ok (g (ds_data d))) ->
    exists ds' rs nss, val2coord_command use tag xs ys label periodic ds = Ok ds' /\
      rs = List.filter (is_active ds) (selected ts (fun t => seq 0 (count ds t))) /\
      Forall2 (fun r ns => exists d, lookup ds r = Some d /\ Forall2 (made label) (g (ds_data d)) ns) rs nss /\
      (forall r d, lookup ds r = Some d -> lookup ds' r = Some (if in_refs r rs then set_status false d else d)) /\
      (forall k, lookup ds' (T, count ds T + k)%nat = nth_error (concat nss) k) /\
      (forall r, fst r <> T -> lookup ds r = None -> lookup ds' r = None).
  Proof.
    intros Hnd Hks HT Hn Hnt Hk Hs Hi Htl Hf.
    destruct (out_tag_tags ds tag T Hnd Hks HT) as (tags & Et & ET).
    unfold val2coord_command. rewrite Et. cbn [bind]. rewrite <- ET.
    eapply spawn_spec; eauto.
  Qed.
End C70b.

(** A table with three columns and two rows. *)
Definition ex_tab : @vdata nat := ([], mk_nda [2; 3]%nat [1; 2; 3; 11; 12; 13]%nat).
Definition ex_v2c : dspace (@vdata nat) :=
  [("a"%string, [mk_dset 1 "a_0.gkyl" true "" ex_tab; mk_dset 2 "a_1.gkyl" false "" ex_tab])].

Example C70_ex :
  columns_of 3 "0" [0%nat] /\ columns_of 3 "1:" [1; 2]%nat /\
  val2coord (Some "0"%string) (Some "1:"%string) true ex_tab
  = Ok [([mk_nda [3] [1; 11; 1]], mk_nda [3; 1] [2; 12; 2]);
        ([mk_nda [3] [1; 11; 1]], mk_nda [3; 1] [3; 13; 3])]%nat /\
  out_tag ex_v2c None "a" /\
  exists ds', val2coord_command None None (Some "0"%string) (Some "-1"%string) "" false ex_v2c = Ok ds' /\
    List.map (fun p => (fst p, List.map (fun d => (ds_status d, flat (snd (ds_data d)))) (snd p))) ds'
    = [("a"%string, [(false, [1; 2; 3; 11; 12; 13]); (false, [1; 2; 3; 11; 12; 13]); (true, [3; 13])])]%nat.
Proof.
  split; [apply (col_one 3 0); cbn; lia|]. split.
  { apply (col_slice 3 (Some 1%Z) None); [intros i [= <-]; lia|discriminate|].
    apply (slice_list_spec 3 (Some 1%Z) None None). reflexivity. }
  split; [reflexivity|]. split.
  - apply out_same. intros u. unfold has_active, is_active, lookup, ex_v2c. cbn [aget fst snd].
    destruct (String.eqb_spec u "a") as [->|Hne].
    + split; [reflexivity|]. intros _. exists 0%nat. reflexivity.
    + split; [intros [k Hk]; cbn in Hk; destruct (String.eqb_spec "a" u); try congruence; discriminate|congruence].
  - eexists. split; vm_compute; reflexivity.
Qed.

(** A stop behind the last column is not cut off as in Python (or as in the
    other selection options of postgkyl) but an error. *)
Theorem C70_stop_refuted : exists (d : @vdata nat) ks,
  is_slice 3 (Some 1%Z) (Some 5%Z) 1 ks /\ ks = [1; 2]%nat /\ shape (snd d) = [2; 3]%nat /\
  val2coord (Some "0"%string) (Some "1:5"%string) false d = Err IndexError.
Proof.
  exists ex_tab, [1; 2]%nat. split; [apply (slice_list_spec 3 (Some 1%Z) (Some 5%Z) None); reflexivity|].
  repeat split; reflexivity.
Qed.

(** A reversed slice selects nothing: no dataset is made. *)
Theorem C70_reversed_refuted : exists (d : @vdata nat) ks,
  is_slice 3 None None (-1) ks /\ ks = [2; 1; 0]%nat /\ shape (snd d) = [2; 3]%nat /\
  val2coord (Some "0"%string) (Some "::-1"%string) false d = Ok [].
Proof.
  exists ex_tab, [2; 1; 0]%nat. split; [apply (slice_list_spec 3 None None (Some (-1)%Z)); reflexivity|].
  repeat split; reflexivity.
Qed.

Print Assumptions C68_command.
Print Assumptions C68_existing_tag_refuted.
Print Assumptions C70_columns.
Print Assumptions C70_mismatch.
Print Assumptions C70_comma.
Print Assumptions C70_command.
Print Assumptions C70_stop_refuted.
Print Assumptions C70_reversed_refuted.
