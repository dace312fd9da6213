(** * Lemmas about automatic labels and about commands over datasets. *)
From Coq Require Import String Ascii List Arith ZArith Bool Sorted Lia.
From Verif Require Import Prelude PreludeFacts NdArray DataSpace_Model DataSpace_Spec DataSpace_Proofs DataSpace_Proofs2.
Import ListNotations.
Open Scope list_scope.

(** ** Labels *)

(** A label built from a list of parts. *)
Definition lab_step (lab p : string) : string := if String.eqb lab "" then p else (lab ++ "_" ++ p)%string.
Definition lab_of (ps : list string) : string := fold_left lab_step ps ""%string.

Fixpoint drop_empty (ps : list string) : list string :=
  match ps with
  | [] => []
  | p :: ps' => if String.eqb p "" then drop_empty ps' else ps
  end.

Lemma str_app_nonempty s t : s <> ""%string -> (s ++ t)%string <> ""%string.
Proof. destruct s; [congruence|discriminate]. Qed.

Lemma app_assoc_str (a b c : string) : ((a ++ b) ++ c = a ++ b ++ c)%string.
Proof. induction a; simpl; congruence. Qed.

Lemma lab_fold_nonempty ps s : s <> ""%string -> fold_left lab_step ps s = join "_" (s :: ps).
Proof.
  revert s. induction ps as [|p ps IH]; intros s Hs; [reflexivity|]. cbn [fold_left].
  assert (E : lab_step s p = (s ++ "_" ++ p)%string).
  { unfold lab_step. destruct (String.eqb_spec s ""); [congruence|reflexivity]. }
  rewrite E, IH by now apply str_app_nonempty.
  destruct ps as [|q ps]; [reflexivity|]. cbn [join]. now rewrite !app_assoc_str.
Qed.

Lemma lab_of_join ps : lab_of ps = join "_" (drop_empty ps).
Proof.
  unfold lab_of. induction ps as [|p ps IH]; [reflexivity|]. cbn [fold_left drop_empty].
  change (lab_step "" p) with p. destruct (String.eqb_spec p "") as [->|Hp]; [exact IH|].
  now apply lab_fold_nonempty.
Qed.

Lemma drop_empty_split ps : exists j, ps = repeat ""%string j ++ drop_empty ps.
Proof.
  induction ps as [|p ps [j IH]]; [exists 0%nat; reflexivity|]. simpl. destruct (String.eqb_spec p "") as [->|].
  - exists (S j). simpl. now rewrite <- IH.
  - exists 0%nat. reflexivity.
Qed.

Lemma drop_empty_head ps p qs : drop_empty ps = p :: qs -> p <> ""%string.
Proof. induction ps as [|q ps IH]; simpl; [discriminate|]. destruct (String.eqb_spec q ""); [auto|congruence]. Qed.

Lemma lab_of_inj ps qs :
  length ps = length qs ->
  Forall (fun p => has_char "_" p = false) ps -> Forall (fun p => has_char "_" p = false) qs ->
  lab_of ps = lab_of qs -> ps = qs.
Proof.
  intros Hl Fp Fq E. rewrite !lab_of_join in E.
  destruct (drop_empty_split ps) as [j Ej], (drop_empty_split qs) as [k Ek].
  assert (Gp : Forall (fun p => has_char "_" p = false) (drop_empty ps)).
  { rewrite Ej in Fp. apply Forall_app in Fp. apply Fp. }
  assert (Gq : Forall (fun p => has_char "_" p = false) (drop_empty qs)).
  { rewrite Ek in Fq. apply Forall_app in Fq. apply Fq. }
  assert (D : drop_empty ps = drop_empty qs).
  { destruct (drop_empty ps) as [|p dp] eqn:Dp, (drop_empty qs) as [|q dq] eqn:Dq; auto.
    - exfalso. apply drop_empty_head in Dq. destruct dq; simpl in E.
      + congruence.
      + symmetry in E. revert E. now apply str_app_nonempty.
    - exfalso. apply drop_empty_head in Dp. destruct dp; simpl in E.
      + congruence.
      + revert E. now apply str_app_nonempty.
    - apply (f_equal (split_on "_")) in E. rewrite !(split_join "_") in E by (auto; discriminate). exact E. }
  assert (Hjk : j = k).
  { rewrite Ej, Ek, !app_length, !repeat_length, D in Hl. lia. }
  rewrite Ej, Ek, D, Hjk. reflexivity.
Qed.

(** The included parts of a name. *)
Definition inc_at (nms : list (list string)) (i : nat) : bool :=
  match part (argmax_len nms) i with Some reference => include nms reference i | None => false end.
Definition inc_parts (nms : list (list string)) (nm : list string) : list string :=
  flat_map (fun i => if inc_at nms i then match part nm i with Some p => [p] | None => [] end else [])
           (seq 0 (length (argmax_len nms))).

Lemma map2_map {A B C} (f : A -> B -> C) (g : B -> A) l : map2 f (List.map g l) l = List.map (fun b => f (g b) b) l.
Proof. induction l; simpl; congruence. Qed.

Lemma make_labels_eq nms : make_labels nms = List.map (fun nm => lab_of (inc_parts nms nm)) nms.
Proof.
  unfold make_labels. set (big := argmax_len nms).
  assert (G : forall is g,
    fold_left (fun labels i =>
      match part big i with
      | Some reference => if include nms reference i
                          then map2 (fun lab nm => extend lab nm i) labels nms
                          else labels
      | None => labels
      end) is (List.map g nms)
    = List.map (fun nm => fold_left lab_step (flat_map (fun i => if inc_at nms i then match part nm i with Some p => [p] | None => [] end else []) is) (g nm)) nms).
  { induction is as [|i is IH]; intros g; [reflexivity|]. cbn [fold_left flat_map].
    set (g' := fun nm => if inc_at nms i then extend (g nm) nm i else g nm).
    transitivity (fold_left (fun labels i =>
      match part big i with
      | Some reference => if include nms reference i
                          then map2 (fun lab nm => extend lab nm i) labels nms
                          else labels
      | None => labels
      end) is (List.map g' nms)).
    - f_equal. unfold g', inc_at. fold big. destruct (part big i) as [rf|]; [|reflexivity].
      destruct (include nms rf i); [|reflexivity]. apply map2_map.
    - rewrite IH. apply map_ext. intros nm. rewrite fold_left_app. f_equal. unfold g', extend, lab_step.
      destruct (inc_at nms i); [|reflexivity]. destruct (part nm i); reflexivity. }
  apply (G (seq 0 (length big)) (fun _ => ""%string)).
Qed.

Lemma argmax_in nms : nms <> [] -> In (argmax_len nms) nms.
Proof.
  induction nms as [|a [|b nms] IH]; [congruence|now left|]. intros _.
  assert (H : In (argmax_len (b :: nms)) (b :: nms)) by (apply IH; discriminate).
  change (argmax_len (a :: b :: nms)) with (let m := argmax_len (b :: nms) in if (length m <=? length a)%nat then a else m).
  cbv zeta. destruct (_ <=? _)%nat; [now left|now right].
Qed.

Lemma include_false nms rf i nm p : include nms rf i = false -> In nm nms -> part nm i = Some p -> p = rf.
Proof.
  unfold include. intros H Hin Hp. rewrite <- not_true_iff_false, existsb_exists in H.
  destruct (String.eqb_spec p rf); auto. exfalso. apply H. exists nm. split; auto. rewrite Hp.
  destruct (String.eqb_spec p rf); [congruence|reflexivity].
Qed.

Lemma flat_map_singles {A} (inc : nat -> bool) (f g : nat -> option A) (is : list nat) :
  (forall i, In i is -> f i <> None /\ g i <> None) ->
  flat_map (fun i => if inc i then match f i with Some p => [p] | None => [] end else []) is =
  flat_map (fun i => if inc i then match g i with Some p => [p] | None => [] end else []) is ->
  forall i, In i is -> inc i = true -> f i = g i.
Proof.
  induction is as [|k is IH]; intros H E i Hi Hinc; [destruct Hi|]. cbn [flat_map] in E. destruct Hi as [<-|Hi].
  - rewrite Hinc in E. destruct (H k) as [H1 H2]; [now left|]. destruct (f k), (g k); try congruence. simpl in E. congruence.
  - apply IH; auto. { intros; apply H; now right. }
    destruct (inc k); [|exact E]. destruct (H k) as [H1 H2]; [now left|]. destruct (f k), (g k); try congruence.
    simpl in E. congruence.
Qed.

Lemma inc_parts_length nms nm m : length nm = m -> length (argmax_len nms) = m ->
  length (inc_parts nms nm) = length (List.filter (inc_at nms) (seq 0 m)).
Proof.
  intros Hn Hm. unfold inc_parts. rewrite Hm.
  assert (G : forall is, (forall i, In i is -> (i < m)%nat) ->
    length (flat_map (fun i => if inc_at nms i then match part nm i with Some p => [p] | None => [] end else []) is)
    = length (List.filter (inc_at nms) is)).
  { induction is as [|i is IH]; intros H; [reflexivity|]. cbn [flat_map List.filter]. rewrite app_length, IH by (intros; apply H; now right).
    destruct (inc_at nms i); [|reflexivity]. destruct (part nm i) eqn:E; [reflexivity|].
    apply nth_error_None in E. specialize (H i (or_introl eq_refl)). lia. }
  apply G. intros i Hi. apply in_seq in Hi. lia.
Qed.

Lemma inc_parts_no nms nm : Forall (fun p => has_char "_" p = false) nm -> Forall (fun p => has_char "_" p = false) (inc_parts nms nm).
Proof.
  intros H. rewrite Forall_forall in *. intros p Hp. unfold inc_parts in Hp. apply in_flat_map in Hp as (i & _ & Hp).
  destruct (inc_at nms i); [|destruct Hp]. destruct (part nm i) eqn:E; [|destruct Hp]. destruct Hp as [->|[]].
  apply H. eapply nth_error_In; eauto.
Qed.

Lemma split_on_no_sep c s : Forall (fun p => has_char c p = false) (split_on c s).
Proof.
  induction s as [|a s IH]; simpl; [repeat constructor|]. destruct (Ascii.eqb a c) eqn:E.
  - constructor; auto.
  - destruct (split_on c s); [repeat constructor; simpl; now rewrite E|].
    inversion IH; subst. constructor; auto. simpl. now rewrite E.
Qed.

Lemma labels_inj nms m nm nm' :
  Forall (fun nm => length nm = m) nms ->
  Forall (Forall (fun p => has_char "_" p = false)) nms ->
  In nm nms -> In nm' nms ->
  lab_of (inc_parts nms nm) = lab_of (inc_parts nms nm') -> nm = nm'.
Proof.
  intros Hm Hno Hin Hin' E.
  assert (Hbig : length (argmax_len nms) = m).
  { rewrite Forall_forall in Hm. apply Hm, argmax_in. intros ->. destruct Hin. }
  rewrite Forall_forall in Hm, Hno.
  apply lab_of_inj in E.
  - apply nth_error_ext. intros i. destruct (Nat.lt_ge_cases i m) as [Hi|Hi].
    2:{ transitivity (@None string); [|symmetry]; apply nth_error_None; rewrite Hm; auto. }
    destruct (inc_at nms i) eqn:Ei.
    + unfold inc_parts in E. rewrite Hbig in E.
      apply (flat_map_singles (inc_at nms) (part nm) (part nm') (seq 0 m)); auto.
      * intros j Hj. apply in_seq in Hj. unfold part. rewrite !nth_error_Some, !Hm by auto. lia.
      * apply in_seq. lia.
    + unfold inc_at in Ei. destruct (part (argmax_len nms) i) as [rf|] eqn:Er.
      2:{ apply nth_error_None in Er. lia. }
      destruct (nth_error nm i) as [p|] eqn:Ep; [|apply nth_error_None in Ep; rewrite Hm in Ep by auto; lia].
      destruct (nth_error nm' i) as [p'|] eqn:Ep'; [|apply nth_error_None in Ep'; rewrite Hm in Ep' by auto; lia].
      rewrite (include_false _ _ _ _ _ Ei Hin Ep), (include_false _ _ _ _ _ Ei Hin' Ep'). reflexivity.
  - rewrite !(inc_parts_length _ _ m); auto.
  - apply inc_parts_no. auto.
  - apply inc_parts_no. auto.
Qed.

Lemma str_length_app (a b : string) : String.length (a ++ b) = (String.length a + String.length b)%nat.
Proof. induction a; simpl; auto. Qed.

Lemma substring_app a b : substring 0 (String.length a) (a ++ b) = a.
Proof. induction a; simpl; [destruct b; reflexivity|congruence]. Qed.

Lemma drop_extension_spec stem ext : has_char "." ext = false -> drop_extension (stem ++ "." ++ ext) = stem.
Proof.
  intros He. unfold drop_extension.
  assert (E : last (split_on "." (stem ++ "." ++ ext)) ""%string = ext).
  { induction stem as [|a s IH]; cbn [String.append split_on].
    - rewrite Ascii.eqb_refl, split_on_none by auto. reflexivity.
    - cbn [String.append] in IH. destruct (Ascii.eqb a ".").
      + destruct (split_on "." (s ++ String "." ext)) eqn:E; [now apply split_on_nonnil in E|exact IH].
      + destruct (split_on "." (s ++ String "." ext)) as [|x [|y l]] eqn:E; [now apply split_on_nonnil in E| |exact IH].
        exfalso. apply (f_equal (@length _)) in E. revert E.
        clear. induction s as [|b s IH]; cbn [String.append split_on].
        * rewrite Ascii.eqb_refl. simpl. pose proof (split_on_nonnil "." ext). destruct (split_on "." ext); [congruence|]. simpl. lia.
        * destruct (Ascii.eqb b ".").
          -- simpl. pose proof (split_on_nonnil "." (s ++ String "." ext)). destruct (split_on "." (s ++ String "." ext)); [congruence|]. simpl. lia.
          -- destruct (split_on "." (s ++ String "." ext)) as [|x0 [|y0 l0]] eqn:E; [now apply split_on_nonnil in E|auto|simpl; lia]. }
  rewrite E. rewrite !str_length_app. 
  change (String.length ".") with 1%nat.
  replace (String.length stem + (1 + String.length ext) - (String.length ext + 1))%nat with (String.length stem) by lia.
  apply substring_app.
Qed.

(** ** Visiting all active datasets *)

Lemma NoDup_selected ts (pos : string -> list nat) : NoDup ts -> (forall t, NoDup (pos t)) -> NoDup (selected ts pos).
Proof.
  intros H Hp. induction H as [|t ts Ht H IH]; [constructor|]. cbn [selected flat_map].
  assert (G : forall l m : list ref, NoDup l -> NoDup m -> (forall x, In x l -> ~ In x m) -> NoDup (l ++ m)).
  { induction l as [|a l IHl]; intros m Hl Hm Hd; [exact Hm|]. inversion Hl; subst. simpl. constructor.
    - rewrite in_app_iff. intros [|Hx]; [auto|]. apply (Hd a); [now left|auto].
    - apply IHl; auto. intros; apply Hd; now right. }
  apply G; auto.
  - specialize (Hp t). induction Hp; simpl; constructor; auto. rewrite in_map_iff. intros (y & [= ->] & Hy). auto.
  - intros [u k] Hx Hy. apply in_map_iff in Hx as (k' & [= <- <-] & _). apply in_flat_map in Hy as (v & Hv & Hy).
    apply in_map_iff in Hy as (k'' & [= -> _] & _). auto.
Qed.

Lemma NoDup_all_of {X} (ds : dspace X) t : NoDup (all_of ds t).
Proof. unfold all_of. destruct (aget t ds); [apply seq_NoDup|constructor]. Qed.

Definition active_all {X} (ds : dspace X) (ts : list string) : list ref :=
  List.filter (is_active ds) (selected ts (all_of ds)).

Lemma in_active_all {X} (ds : dspace X) ts r :
  In r (active_all ds ts) <-> In (fst r) ts /\ is_active ds r = true.
Proof.
  unfold active_all. rewrite filter_In, in_all_of. split; [tauto|]. intros [H1 H2]. repeat split; auto.
  unfold is_active in H2. intros E. rewrite E in H2. discriminate.
Qed.

Lemma NoDup_active_all {X} (ds : dspace X) ts : NoDup ts -> NoDup (active_all ds ts).
Proof. intros H. apply NoDup_filter, NoDup_selected; auto. apply NoDup_all_of. Qed.

Lemma visits_all {X} (ds : dspace X) tag ts : names ds tag ts -> Forall (fun t => In t (List.map fst ds)) ts ->
  exists vs, visits ds tag false true SelNone = Ok vs /\ List.map snd vs = active_all ds ts.
Proof.
  intros Hn Hk. destruct (visits_selected ds tag None true ts (all_of ds)) as (vs & E & Es & _); auto.
  - apply picks_none_wf.
  - now apply picks_all_under.
  - exists vs. split; [exact E|]. rewrite Es. reflexivity.
Qed.

(** ** In-place commands *)
Section InPlace.
  Context {X : Type}.
  Implicit Type ds : dspace X.

  (** Folding a status-preserving modification over distinct references. *)
  Lemma fold_modify (h : dset X -> res (dset X)) (cs : list (nat * ref)) ds (g : dset X -> dset X) :
    (forall d d', h d = Ok d' -> ds_status d' = ds_status d) ->
    NoDup (List.map snd cs) ->
    (forall c d, In c cs -> lookup ds (snd c) = Some d -> ds_status d = true -> h d = Ok (g d)) ->
    let body := fun (_ : nat) r ds => match lookup ds r with
                                      | None => Err KeyError
                                      | Some d => let* d' := h d in Ok (modify ds r (fun _ => d'))
                                      end in
    exists ds', foldM (vis (fun ds : dspace X => ds) body true) cs ds = Ok ds' /\
      List.map fst ds' = List.map fst ds /\ (forall t, lens ds' t = lens ds t) /\
      forall r, lookup ds' r = option_map (fun d => if in_refs r (List.map snd cs) && ds_status d then g d else d) (lookup ds r).
  Proof.
    intros Hst Hnd Hg body. revert ds Hg. induction cs as [|c cs IH]; intros ds Hg; cbn [foldM].
    - exists ds. repeat split; auto. intros r. destruct (lookup ds r); reflexivity.
    - inversion Hnd as [|? ? Hni Hnd']; subst.
      unfold vis at 1, visit, body at 1. destruct (lookup ds (snd c)) as [d|] eqn:Ed.
      + cbn [negb orb]. destruct (ds_status d) eqn:Es.
        * rewrite (Hg c d (or_introl eq_refl) Ed Es). cbn [bind].
          destruct (IH Hnd' (modify ds (snd c) (fun _ => g d))) as (ds' & E & K & L & H).
          { intros c' d' Hc' Hd'. rewrite lookup_modify in Hd'.
            destruct (ref_eq_dec (snd c') (snd c)) as [Ec|_].
            - exfalso. apply Hni. rewrite <- Ec. apply in_map_iff. eauto.
            - eapply Hg; [right; exact Hc'|auto]. }
          exists ds'. split; [exact E|]. split; [now rewrite K, keys_modify|].
          split; [intros t; rewrite L; apply length_modify|].
          intros r. rewrite H, lookup_modify. cbn [List.map]. destruct (ref_eq_dec r (snd c)) as [->|Hne].
          -- rewrite Ed. simpl. f_equal. unfold in_refs.
             destruct (in_dec ref_eq_dec (snd c) (List.map snd cs)) as [Hi|_]; [contradiction|].
             destruct (in_dec ref_eq_dec (snd c) (snd c :: List.map snd cs)) as [_|N]; [|exfalso; apply N; now left].
             simpl. now rewrite Es.
          -- destruct (lookup ds r) as [d0|]; [|reflexivity]. cbn [option_map]. f_equal.
             replace (in_refs r (snd c :: List.map snd cs)) with (in_refs r (List.map snd cs)); [reflexivity|].
             unfold in_refs. destruct (in_dec ref_eq_dec r (List.map snd cs)) as [Hi|Hi], (in_dec ref_eq_dec r (snd c :: List.map snd cs)) as [Hj|Hj]; auto.
             ++ exfalso. apply Hj. now right.
             ++ exfalso. destruct Hj as [Hj|Hj]; [congruence|auto].
        * destruct (IH Hnd' ds) as (ds' & E & K & L & H). { intros c' d' Hc'. apply (Hg c' d'). now right. }
          cbn [bind]. exists ds'. split; [exact E|]. split; [exact K|]. split; [exact L|].
          intros r. rewrite H. destruct (lookup ds r) as [d0|] eqn:E0; [|reflexivity]. cbn [option_map List.map]. f_equal.
          unfold in_refs. destruct (in_dec ref_eq_dec r (List.map snd cs)) as [Hi|Hi], (in_dec ref_eq_dec r (snd c :: List.map snd cs)) as [Hj|Hj]; auto.
          -- exfalso. apply Hj. now right.
          -- destruct Hj as [Hj|Hj]; [|contradiction]. subst r. rewrite Ed in E0. injection E0 as ->. rewrite Es. reflexivity.
      + destruct (IH Hnd' ds) as (ds' & E & K & L & H). { intros c' d' Hc'. apply (Hg c' d'). now right. }
        cbn [bind]. exists ds'. split; [exact E|]. split; [exact K|]. split; [exact L|].
        intros r. rewrite H. destruct (lookup ds r) as [d0|] eqn:E0; [|reflexivity]. cbn [option_map List.map]. f_equal.
        unfold in_refs. destruct (in_dec ref_eq_dec r (List.map snd cs)) as [Hi|Hi], (in_dec ref_eq_dec r (snd c :: List.map snd cs)) as [Hj|Hj]; auto.
        -- exfalso. apply Hj. now right.
        -- destruct Hj as [Hj|Hj]; [|contradiction]. subst r. congruence.
  Qed.
End InPlace.

(** ** Setting labels *)
Section Labels.
  Context {X : Type}.
  Implicit Type ds : dspace X.

  Notation lspace := (fun st : dspace X * list string => fst st).
  Notation lbody := (fun (_ : nat) (r : ref) (st : dspace X * list string) =>
                       match snd st with
                       | [] => Err IndexError
                       | l :: ls => Ok (modify (fst st) r (set_label l), ls)
                       end).

  Lemma fold_labels (lab : ref -> string) (cs : list (nat * ref)) ds :
    NoDup (List.map snd cs) -> (forall c, In c cs -> lookup ds (snd c) <> None) ->
    exists ds', foldM (vis lspace lbody true) cs
                  (ds, List.map lab (List.filter (is_active ds) (List.map snd cs))) = Ok (ds', []) /\
      List.map fst ds' = List.map fst ds /\
      forall r, lookup ds' r =
        option_map (fun d => if in_refs r (List.map snd cs) && ds_status d then set_label (lab r) d else d) (lookup ds r).
  Proof.
    revert ds. induction cs as [|c cs IH]; intros ds Hnd Hlk; cbn [foldM List.map List.filter].
    - exists ds. repeat split; auto. intros r. destruct (lookup ds r); reflexivity.
    - inversion Hnd as [|? ? Hni Hnd']; subst.
      destruct (lookup ds (snd c)) as [d|] eqn:Ed; [|destruct (Hlk c); [now left|auto]].
      assert (Hinc : forall r, r <> snd c -> in_refs r (snd c :: List.map snd cs) = in_refs r (List.map snd cs)).
      { intros r Hne. unfold in_refs.
        destruct (in_dec ref_eq_dec r (List.map snd cs)) as [Hi|Hi], (in_dec ref_eq_dec r (snd c :: List.map snd cs)) as [Hj|Hj]; auto.
        - exfalso. apply Hj. now right.
        - exfalso. destruct Hj as [Hj|Hj]; [congruence|auto]. }
      unfold vis at 1, visit. cbn [fst]. rewrite Ed. cbn [negb orb].
      assert (Eact : is_active ds (snd c) = ds_status d) by (unfold is_active; now rewrite Ed).
      rewrite Eact.
      destruct (ds_status d) eqn:Es; cbn [List.map].
      + cbn [snd bind]. set (ds1 := modify ds (snd c) (set_label (lab (snd c)))).
        assert (Ea : List.filter (is_active ds) (List.map snd cs) = List.filter (is_active ds1) (List.map snd cs)).
        { apply filter_ext. intros r. unfold is_active, ds1. rewrite lookup_modify.
          destruct (ref_eq_dec r (snd c)) as [->|]; [|reflexivity]. now rewrite Ed. }
        rewrite Ea. destruct (IH ds1) as (ds' & E & K & H); auto.
        { intros c' Hc'. unfold ds1. rewrite lookup_modify. destruct (ref_eq_dec (snd c') (snd c)) as [Ec|_].
          - rewrite Ed. discriminate.
          - apply Hlk. now right. }
        exists ds'. split; [exact E|]. split; [rewrite K; apply keys_modify|].
        intros r. rewrite H. unfold ds1. rewrite lookup_modify. destruct (ref_eq_dec r (snd c)) as [->|Hne].
        * rewrite Ed. cbn [option_map]. f_equal.
          assert (E1 : in_refs (snd c) (List.map snd cs) = false).
          { unfold in_refs. destruct (in_dec ref_eq_dec (snd c) (List.map snd cs)); [contradiction|reflexivity]. }
          assert (E2 : in_refs (snd c) (snd c :: List.map snd cs) = true) by (apply in_refs_spec; now left).
          rewrite E1, E2, Es. reflexivity.
        * now rewrite Hinc.
      + cbn [bind]. destruct (IH ds) as (ds' & E & K & H); auto. { intros; apply Hlk; now right. }
        exists ds'. split; [exact E|]. split; [exact K|]. intros r. rewrite H.
        destruct (ref_eq_dec r (snd c)) as [->|Hne]; [|now rewrite Hinc].
        rewrite Ed. cbn [option_map]. now rewrite Es, !andb_false_r.
  Qed.

  Definition file_parts ds (r : ref) : list string :=
    split_on "_" (drop_extension (match lookup ds r with Some d => ds_file d | None => ""%string end)).

  Lemma set_unique_labels_run ds :
    NoDup (List.map fst ds) -> (exists r, is_active ds r = true) ->
    let act := active_all ds (List.map fst ds) in
    let nms := List.map (file_parts ds) act in
    exists ds', set_unique_labels ds = Ok ds' /\ List.map fst ds' = List.map fst ds /\
      forall r, lookup ds' r =
        option_map (fun d => if ds_status d then set_label (lab_of (inc_parts nms (file_parts ds r))) d else d) (lookup ds r).
  Proof.
    intros Hnd [r0 Hr0] act nms.
    assert (Hks : Forall (fun t => In t (List.map fst ds)) (List.map fst ds)) by (apply Forall_forall; auto).
    destruct (visits_all ds None (List.map fst ds)) as (vs & Ev & Es); auto; [constructor|].
    assert (Hkey : forall r d, lookup ds r = Some d -> In (fst r) (List.map fst ds)).
    { intros r d. unfold lookup. destruct (aget (fst r) ds) eqn:E; [|discriminate]. intros _. eapply key_aget; eauto. }
    assert (Hne : vs <> []).
    { intros ->. assert (In r0 act).
      { apply in_active_all. split; auto. unfold is_active in Hr0. destruct (lookup ds r0) eqn:E; [|discriminate]. eauto. }
      unfold act in H. rewrite <- Es in H. destruct H. }
    unfold set_unique_labels. rewrite Ev. cbn [bind]. destruct vs as [|v vs]; [congruence|].
    set (files := List.map _ (v :: vs)).
    assert (Enm : List.map (fun f => split_on "_" (drop_extension f)) files = nms).
    { unfold files, nms. rewrite map_map. change (fun x : nat * ref => split_on "_" (drop_extension (match lookup ds (snd x) with Some d => ds_file d | None => ""%string end)))
        with (fun x : nat * ref => file_parts ds (snd x)).
      rewrite <- map_map. now rewrite Es. }
    rewrite Enm. rewrite make_labels_eq.
    assert (El : List.map (fun nm => lab_of (inc_parts nms nm)) nms
                 = List.map (fun r => lab_of (inc_parts nms (file_parts ds r))) act).
    { unfold nms at 2. rewrite map_map. reflexivity. }
    rewrite El.
    destruct (iterate_selected lspace lbody true None None (List.map fst ds) (all_of ds)
               (ds, List.map (fun r => lab_of (inc_parts nms (file_parts ds r))) act)) as (cs & Ecs & _ & Ei).
    { constructor. }
    { apply picks_none_wf. }
    { now apply picks_all_under. }
    { intros i r st st' E t _. destruct (snd st); [discriminate|]. injection E as <-. cbn [fst]. apply length_modify. }
    change (sel_of_index None) with SelNone in Ei. rewrite Ei.
    destruct (fold_labels (fun r => lab_of (inc_parts nms (file_parts ds r))) cs ds) as (ds' & E & K & H).
    { rewrite Ecs. apply NoDup_selected; auto. apply NoDup_all_of. }
    { intros c Hc. assert (Hs : In (snd c) (selected (List.map fst ds) (all_of ds))) by (rewrite <- Ecs; apply in_map_iff; eauto).
      apply in_all_of in Hs. apply Hs. }
    rewrite Ecs in E. unfold act, active_all. rewrite E. cbn [bind fst]. exists ds'. split; [reflexivity|]. split; [exact K|].
    intros r. rewrite H. destruct (lookup ds r) as [d|] eqn:Ed; [|reflexivity]. cbn [option_map]. f_equal.
    assert (Hin : in_refs r (List.map snd cs) = true).
    { apply in_refs_spec. rewrite Ecs. apply in_all_of. split; [eauto|congruence]. }
    now rewrite Hin.
  Qed.
End Labels.
