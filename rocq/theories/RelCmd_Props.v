(** * C106: the command relchange *)
From Coq Require Import String Ascii List ZArith Bool Lia Reals Lra.
From Verif Require Import Prelude PreludeFacts NdArray DataSpace_Model DataSpace_Spec DataSpace_Proofs DataSpace_Proofs2 DataSpace_Proofs3 DataSpace_Props
  Tools_Arr Tools_Model Tools_Proofs2 RelCmd_Model.
Import ListNotations.
Open Scope string_scope. Open Scope list_scope.

(** ** Specification *)

Definition plain (t : string) : Prop := t <> ""%string /\ has_char "," t = false.

(** The tags worked on: the named ones, or all with an active dataset. *)
Definition chosen {X} (ds : dspace X) (use : option string) (ts : list string) : Prop :=
  use = None /\ Forall plain (List.map fst ds) /\
    ts = List.filter (fun t => existsb ds_status (match aget t ds with Some l => l | None => [] end)) (List.map fst ds) \/
  use = Some (join "," ts) /\ ts <> [] /\ Forall plain ts.

(** [p] is the place numbered [index], counted from the end if negative. *)
Definition placed (n : nat) (index : Z) (p : nat) : Prop :=
  (p < n)%nat /\ (index = Z.of_nat p \/ index = (Z.of_nat p - Z.of_nat n)%Z).

Section Spec.
  Context {X : Type}.
  Implicit Types (ds : dspace X) (d : dset X).

  (** What a dataset at place [k] is compared with: the reference [x], and after an
      active reference at [p] has been reached, the change of the reference to itself. *)
  Definition reference (g : X -> X -> X) (x : X) (active : bool) (p k : nat) : X :=
    if active && (p <? k)%nat then g x x else x.
End Spec.

(** ** Proofs *)

Lemma placed_index n index p : placed n index p -> norm_index n index = Ok p.
Proof.
  intros (Hp & H). unfold norm_index. destruct H as [-> | ->].
  - destruct (Z.ltb_spec (Z.of_nat p) 0); [lia|]. destruct (Z.leb_spec 0 (Z.of_nat p)); [|lia]. destruct (Z.ltb_spec (Z.of_nat p) (Z.of_nat n)); [|lia]. cbn [andb]. now rewrite Nat2Z.id.
  - destruct (Z.ltb_spec (Z.of_nat p - Z.of_nat n) 0); [|lia]. replace (Z.of_nat p - Z.of_nat n + Z.of_nat n)%Z with (Z.of_nat p) by lia.
    destruct (Z.leb_spec 0 (Z.of_nat p)); [|lia]. destruct (Z.ltb_spec (Z.of_nat p) (Z.of_nat n)); [|lia]. cbn [andb]. now rewrite Nat2Z.id.
Qed.

Lemma join_one_ne (ts : list string) : ts <> [] -> Forall plain ts -> join "," ts <> ""%string.
Proof. intros N P. destruct ts as [|t ts]; [contradiction|]. destruct (Forall_inv P) as (Ht & _). destruct ts; cbn; [exact Ht|]. destruct t; [contradiction|]. cbn. discriminate. Qed.

Section Proofs.
  Context {X : Type} (rel : X -> X -> res X).
  Implicit Types (ds : dspace X) (d : dset X).

  Lemma chosen_tags ds use ts : chosen ds use ts -> tag_iterator ds use true = Ok ts.
  Proof.
    intros [(-> & P & ->)|(-> & N & P)]; [now apply C16_tags|]. unfold tag_iterator. destruct (String.eqb_spec (join "," ts) "") as [E|_]; [now apply join_one_ne in E|].
    rewrite split_join; [reflexivity|exact N|]. eapply Forall_impl; [|exact P]. intros t (_ & H). exact H.
  Qed.

  Lemma one_name ds t : plain t -> names ds (Some t) [t].
  Proof. intros (N & C). change t with (join "," [t]) at 1. constructor; [discriminate|exact N|constructor; [exact C|constructor]]. Qed.

  Lemma selected_one ds t l : aget t ds = Some l -> selected [t] (all_of ds) = List.map (pair t) (seq 0 (length l)).
  Proof. intros E. cbn [selected flat_map]. rewrite app_nil_r. unfold all_of. now rewrite E. Qed.

  Section OneTag.
    Context (P : X -> Prop) (g : X -> X -> X) (ds : dspace X) (t : string) (l : list (dset X)) (p : nat) (d0 : dset X).
    Context (Hrel : forall x y, P x -> P y -> rel x y = Ok (g x y) /\ P (g x y)).
    Context (El : aget t ds = Some l) (E0 : nth_error l p = Some d0) (HP : Forall (fun d => P (ds_data d)) l).

    Let new (k : nat) (d : dset X) : dset X := set_data (g (reference g (ds_data d0) (ds_status d0) p k) (ds_data d)) d.
    Let F (k : nat) (r : ref) (d : dset X) : dset X := if String.eqb (fst r) t && (snd r <? k)%nat && ds_status d then new (snd r) d else d.
    Let inv (k : nat) (st : dspace X) : Prop :=
      List.map fst st = List.map fst ds /\ (forall u, lens st u = lens ds u) /\ forall r, lookup st r = option_map (F k r) (lookup ds r).

    Lemma lookup_t k : lookup ds (t, k) = nth_error l k.
    Proof. unfold lookup. cbn [fst snd]. now rewrite El. Qed.

    Lemma step k i st d : inv k st -> nth_error l k = Some d -> exists st', vis (fun ds => ds) (rel_body rel "" t p) true (i, (t, k)) st = Ok st' /\ inv (S k) st'.
    Proof.
      intros (K & L & H) Ed. unfold vis, visit. cbn [fst snd]. rewrite H, lookup_t, Ed. cbn [option_map].
      assert (EF : F k (t, k) d = d). { unfold F. cbn [fst snd]. rewrite Nat.ltb_irrefl, andb_false_r. reflexivity. }
      rewrite EF. cbn [negb orb]. destruct (ds_status d) eqn:Es.
      - unfold rel_body. cbn [String.eqb negb]. rewrite H, lookup_t, E0. cbn [option_map]. rewrite H, lookup_t, Ed. cbn [option_map]. rewrite EF.
        assert (ER : ds_data (F k (t, p) d0) = reference g (ds_data d0) (ds_status d0) p k).
        { unfold F, reference. cbn [fst snd]. rewrite String.eqb_refl. cbn [andb]. rewrite (andb_comm (ds_status d0)). destruct ((p <? k)%nat && ds_status d0) eqn:Eb; [|reflexivity].
          unfold new, reference. cbn [set_data ds_data]. rewrite Nat.ltb_irrefl, andb_false_r. reflexivity. }
        rewrite ER. assert (P0 : P (ds_data d0)) by (rewrite Forall_forall in HP; apply HP; eapply nth_error_In; eauto).
        assert (PR : P (reference g (ds_data d0) (ds_status d0) p k)). { unfold reference. destruct (_ && _); [apply Hrel; assumption|exact P0]. }
        assert (Pd : P (ds_data d)) by (rewrite Forall_forall in HP; apply HP; eapply nth_error_In; eauto).
        rewrite (proj1 (Hrel _ _ PR Pd)). cbn [bind]. eexists. split; [reflexivity|]. split; [now rewrite keys_modify|]. split; [intros u; unfold lens; rewrite length_modify; apply L|].
        intros r. rewrite lookup_modify. destruct (ref_eq_dec r (t, k)) as [->|Hne].
        + rewrite H, lookup_t, Ed. cbn [option_map]. rewrite EF. f_equal. unfold F. cbn [fst snd]. rewrite String.eqb_refl, Es. destruct (Nat.ltb_spec k (S k)); [|lia]. reflexivity.
        + rewrite H. destruct (lookup ds r) as [d'|]; [|reflexivity]. cbn [option_map]. f_equal. unfold F. destruct (String.eqb_spec (fst r) t) as [Ht|]; [|reflexivity]. cbn [andb].
          destruct (Nat.ltb_spec (snd r) k), (Nat.ltb_spec (snd r) (S k)); try reflexivity; try lia. exfalso. apply Hne. destruct r as [u j]. cbn in *. f_equal; [exact Ht|lia].
      - eexists. split; [reflexivity|]. split; [exact K|]. split; [exact L|]. intros r. rewrite H. destruct (lookup ds r) as [d'|] eqn:Er; [|reflexivity]. cbn [option_map]. f_equal. unfold F.
        destruct (String.eqb_spec (fst r) t) as [Ht|]; [|reflexivity]. cbn [andb]. destruct (Nat.ltb_spec (snd r) k), (Nat.ltb_spec (snd r) (S k)); try reflexivity; try lia.
        assert (r = (t, k)) as -> by (destruct r as [u j]; cbn in *; f_equal; [exact Ht|lia]). rewrite lookup_t, Ed in Er. injection Er as <-. rewrite Es. reflexivity.
    Qed.

    Lemma steps m : forall k cs st, List.map snd cs = List.map (pair t) (seq k m) -> (k + m)%nat = length l -> inv k st ->
      exists st', foldM (vis (fun ds => ds) (rel_body rel "" t p) true) cs st = Ok st' /\ inv (length l) st'.
    Proof.
      induction m as [|m IH]; intros k cs st Hc Hk Hi; cbn [seq List.map] in Hc.
      - destruct cs; [|discriminate]. replace k with (length l) in Hi by lia. exists st. split; [reflexivity|exact Hi].
      - destruct cs as [|[i r] cs]; [discriminate|]. cbn [List.map snd] in Hc. injection Hc as -> Hc. destruct (nth_error l k) as [d|] eqn:Ed; [|apply nth_error_None in Ed; lia].
        destruct (step k i st d Hi Ed) as (st1 & E1 & I1). cbn [foldM]. rewrite E1. cbn [bind]. apply (IH (S k) cs st1 Hc); [lia|exact I1].
    Qed.

    Lemma rel_tag_spec index : plain t -> placed (length l) index p ->
      exists ds', rel_tag rel index "" t ds = Ok ds' /\ List.map fst ds' = List.map fst ds /\ (forall u, lens ds' u = lens ds u) /\
        forall r, lookup ds' r = option_map (fun d => if String.eqb (fst r) t && ds_status d then new (snd r) d else d) (lookup ds r).
    Proof.
      intros Ht Hp. unfold rel_tag. rewrite El, (placed_index _ _ _ Hp). cbn [bind].
      destruct (iterate_selected (fun ds : dspace X => ds) (rel_body rel "" t p) true (Some t) None [t] (all_of ds) ds) as (cs & Es & _ & E); [now apply one_name|apply picks_none_wf| | |].
      { apply picks_all_under. constructor; [|constructor]. eapply key_aget; eauto. }
      { intros i r st st' Hb u _. unfold rel_body in Hb. cbn [String.eqb negb] in Hb. destruct (lookup st (t, p)); [|discriminate]. destruct (lookup st r); [|discriminate]. destruct (rel _ _) as [y|]; [|discriminate]. cbn [bind] in Hb. injection Hb as <-. unfold lens. apply length_modify. }
      change (sel_of_index None) with SelNone in E. rewrite E. rewrite (selected_one _ _ _ El) in Es.
      destruct (steps (length l) 0 cs ds Es eq_refl) as (ds' & E' & K & L & H).
      { split; [reflexivity|]. split; [reflexivity|]. intros r. destruct (lookup ds r) as [d|]; [|reflexivity]. cbn [option_map]. unfold F. rewrite andb_false_r. reflexivity. }
      exists ds'. split; [exact E'|]. split; [exact K|]. split; [exact L|]. intros r. rewrite H. destruct (lookup ds r) as [d|] eqn:Er; [|reflexivity]. cbn [option_map]. f_equal. unfold F.
      destruct (String.eqb_spec (fst r) t) as [Et|]; [|reflexivity]. cbn [andb]. replace (snd r <? length l)%nat with true; [reflexivity|]. symmetry. apply Nat.ltb_lt. apply nth_error_Some.
      destruct r as [u k]. cbn in Et. subst u. rewrite lookup_t in Er. cbn. congruence.
    Qed.
  End OneTag.

  (** Without a tag for the result every active dataset of the chosen tags becomes its
      change relative to the reference of its tag; but the reference is replaced as well
      when it is reached, so datasets behind an active reference are compared with the
      change of the reference to itself. Nothing else changes. *)
  Theorem C106_in_place (P : X -> Prop) (g : X -> X -> X) use index ds ts (refs : string -> dset X) (places : string -> nat) :
    (forall x y, P x -> P y -> rel x y = Ok (g x y) /\ P (g x y)) ->
    chosen ds use ts -> NoDup ts ->
    (forall t, In t ts -> exists l, aget t ds = Some l /\ placed (length l) index (places t) /\ nth_error l (places t) = Some (refs t) /\ Forall (fun d => P (ds_data d)) l) ->
    exists ds', relchange rel use index "" ds = Ok ds' /\ List.map fst ds' = List.map fst ds /\
      forall t k, lookup ds' (t, k) = option_map (fun d =>
        if existsb (String.eqb t) ts && ds_status d then set_data (g (reference g (ds_data (refs t)) (ds_status (refs t)) (places t) k) (ds_data d)) d else d) (lookup ds (t, k)).
  Proof.
    intros Hrel Hc Hnd Ht. unfold relchange. rewrite (chosen_tags _ _ _ Hc). cbn [bind].
    assert (Pl : Forall plain ts). { destruct Hc as [(_ & Pk & ->)|(_ & _ & Pk)]; [|exact Pk]. apply Forall_forall. intros t Hin. apply filter_In in Hin as (Hin & _). rewrite Forall_forall in Pk. auto. }
    assert (G : forall ts ds, NoDup ts -> Forall plain ts ->
      (forall t, In t ts -> exists l, aget t ds = Some l /\ placed (length l) index (places t) /\ nth_error l (places t) = Some (refs t) /\ Forall (fun d => P (ds_data d)) l) ->
      exists ds', rel_tags rel index "" ts ds = Ok ds' /\ List.map fst ds' = List.map fst ds /\
        forall t k, lookup ds' (t, k) = option_map (fun d =>
          if existsb (String.eqb t) ts && ds_status d then set_data (g (reference g (ds_data (refs t)) (ds_status (refs t)) (places t) k) (ds_data d)) d else d) (lookup ds (t, k)));
      [|now apply G].
    clear Hc Ht Hnd Pl ts ds. induction ts as [|t ts IH]; intros ds Hnd Pl Ht; cbn [rel_tags].
    - exists ds. split; [reflexivity|]. split; [reflexivity|]. intros t k. destruct (lookup ds (t, k)); reflexivity.
    - destruct (Ht t (or_introl eq_refl)) as (l & El & Hp & E0 & HP). destruct (rel_tag_spec P g ds t l (places t) (refs t) Hrel El E0 HP index (Forall_inv Pl) Hp) as (ds1 & E1 & K1 & L1 & H1).
      rewrite E1. cbn [bind]. inversion Hnd as [|? ? Hni Hnd']; subst.
      destruct (IH ds1 Hnd' (Forall_inv_tail Pl)) as (ds2 & E2 & K2 & H2).
      { intros u Hu. destruct (Ht u (or_intror Hu)) as (lu & Eu & Hpu & E0u & HPu). assert (Hut : u <> t) by (intros ->; contradiction).
        pose proof (L1 u) as Hl. unfold lens in Hl. rewrite Eu in Hl. destruct (aget u ds1) as [lu1|] eqn:Eu1; [|discriminate]. cbn [option_map] in Hl. injection Hl as Hl.
        assert (lu1 = lu) as ->; [|exists lu; auto]. apply nth_error_ext. intros j. pose proof (H1 (u, j)) as Hj. unfold lookup in Hj. cbn [fst snd] in Hj. rewrite Eu1, Eu in Hj. rewrite Hj.
        destruct (String.eqb_spec u t) as [|_]; [contradiction|]. cbn [andb]. destruct (nth_error lu j); reflexivity. }
      exists ds2. split; [exact E2|]. split; [now rewrite K2|]. intros u k. rewrite H2, H1. cbn [fst snd existsb]. destruct (lookup ds (u, k)) as [d|]; [|reflexivity]. cbn [option_map]. f_equal.
      destruct (String.eqb_spec u t) as [->|Hut]; cbn [orb andb].
      + replace (existsb (String.eqb t) ts) with false. { cbn [andb]. reflexivity. } symmetry. apply not_true_is_false. intros E. apply existsb_exists in E as (x & Hx & Ex). apply String.eqb_eq in Ex. subst x. contradiction.
      + reflexivity.
  Qed.

  (** With a tag for the result (there is one by default) the command fails as soon as it
      reaches an active dataset. *)
  Theorem C106_tag use index tag ds t ts l p : tag <> ""%string -> chosen ds use (t :: ts) -> aget t ds = Some l -> placed (length l) index p ->
    Exists (fun d => ds_status d = true) l -> relchange rel use index tag ds = Err TypeError.
  Proof.
    intros Ht Hc El Hp Ha. unfold relchange. rewrite (chosen_tags _ _ _ Hc). cbn [bind rel_tags]. unfold rel_tag. rewrite El, (placed_index _ _ _ Hp). cbn [bind].
    assert (Pt : plain t). { destruct Hc as [(_ & Pk & E)|(_ & _ & Pk)]; [|exact (Forall_inv Pk)]. rewrite Forall_forall in Pk. apply Pk. eapply key_aget; eauto. }
    assert (Eb : forall i r st, rel_body rel tag t p i r st = Err TypeError). { intros i r st. unfold rel_body. destruct (String.eqb_spec tag ""); [contradiction|reflexivity]. }
    destruct (iterate_selected (fun ds : dspace X => ds) (rel_body rel tag t p) true (Some t) None [t] (all_of ds) ds) as (cs & Es & _ & E); [now apply one_name|apply picks_none_wf| | |].
    { apply picks_all_under. constructor; [|constructor]. eapply key_aget; eauto. }
    { intros i r st st' Hb. rewrite Eb in Hb. discriminate. }
    change (sel_of_index None) with SelNone in E. rewrite E. rewrite (selected_one _ _ _ El) in Es.
    assert (G : forall m cs k, List.map snd cs = List.map (pair t) (seq k m) -> (k + m)%nat = length l -> (exists j d, (k <= j)%nat /\ nth_error l j = Some d /\ ds_status d = true) ->
      foldM (vis (fun ds => ds) (rel_body rel tag t p) true) cs ds = Err TypeError).
    { induction m as [|m IH]; intros cs' k Hcs Hk (j & d & Hj & Ed & Hs).
      - exfalso. assert (j < length l)%nat by (apply nth_error_Some; congruence). lia.
      - destruct cs' as [|[i r] cs']; [discriminate|]. cbn [seq List.map snd] in Hcs. injection Hcs as -> Hcs. cbn [foldM]. unfold vis at 1, visit. cbn [fst snd]. unfold lookup. cbn [fst snd]. rewrite El.
        destruct (nth_error l k) as [dk|] eqn:Ek; [|apply nth_error_None in Ek; lia]. cbn [negb orb]. destruct (ds_status dk) eqn:Esk; [now rewrite Eb|]. cbn [bind]. apply (IH cs' (S k) Hcs); [lia|].
        exists j, d. split; [|auto]. assert (j <> k) by (intros ->; congruence). lia. }
    rewrite (G (length l) cs 0%nat Es eq_refl); [reflexivity|]. apply Exists_exists in Ha as (d & Hd & Hs). apply In_nth_error in Hd as (j & Hj). exists j, d. split; [lia|auto].
  Qed.

  (** An unknown tag or a reference that is not there is an error before anything is done. *)
  Theorem C106_missing use index tag ds t ts : chosen ds use (t :: ts) ->
    (aget t ds = None -> relchange rel use index tag ds = Err KeyError) /\
    (forall l, aget t ds = Some l -> (index < - Z.of_nat (length l) \/ Z.of_nat (length l) <= index)%Z -> relchange rel use index tag ds = Err IndexError).
  Proof.
    intros Hc. unfold relchange. rewrite (chosen_tags _ _ _ Hc). cbn [bind rel_tags]. unfold rel_tag. split; [now intros ->|]. intros l El Hi. rewrite El. unfold norm_index.
    destruct (Z.ltb_spec index 0); destruct ((0 <=? _)%Z && _) eqn:E; try reflexivity; apply andb_true_iff in E as (E1 & E2); apply Z.leb_le in E1; apply Z.ltb_lt in E2; lia.
  Qed.

  (** No active dataset and no tag named: nothing happens. *)
  Theorem C106_nothing index tag ds : Forall plain (List.map fst ds) -> (forall t l, aget t ds = Some l -> Forall (fun d => ds_status d = false) l) ->
    relchange rel None index tag ds = Ok ds.
  Proof.
    intros P H. unfold relchange. rewrite C16_tags by exact P. cbn [bind].
    assert (E : List.filter (fun t => existsb ds_status (match aget t ds with Some l => l | None => [] end)) (List.map fst ds) = []).
    { generalize (List.map fst ds). intros ks. induction ks as [|k ks IH]; [reflexivity|]. cbn [List.filter]. destruct (aget k ds) as [l|] eqn:El; [|exact IH]. specialize (H _ _ El).
      replace (existsb ds_status l) with false; [exact IH|]. symmetry. clear -H. induction H as [|d l Hd H IH]; [reflexivity|]. cbn. now rewrite Hd. }
    rewrite E. reflexivity.
  Qed.
End Proofs.

(** With the tool itself: the reference datasets behind it are compared with is zero in
    every cell, if the reference was zero nowhere, so that the division fails for them. *)
Open Scope R_scope.
Theorem C106_zero cells m v0 f0 : shows cells m v0 f0 -> (forall x j, in_range cells x -> (j < m)%nat -> f0 x j <> 0) ->
  exists z, rel_change v0 v0 None = Ok z /\ shows cells m z (fun _ _ => 0).
Proof.
  intros S0 N. destruct (y_rel_none cells m m v0 v0 f0 f0 S0 S0 (le_n m)) as (z & E & W & Sh & Hz). exists z. split; [exact E|]. split; [exact W|]. split; [exact Sh|].
  intros x j Hx Hj. rewrite (Hz x j Hx Hj). f_equal. unfold Rdiv. rewrite Rminus_diag_eq by reflexivity. apply Rmult_0_l.
Qed.

Theorem C106_tool cells m use index (ds : dspace arr) ts (refs : string -> dset arr) (places : string -> nat) :
  chosen ds use ts -> NoDup ts ->
  (forall t, In t ts -> exists l, aget t ds = Some l /\ placed (length l) index (places t) /\ nth_error l (places t) = Some (refs t) /\ Forall (fun d => exists f, shows cells m (ds_data d) f) l) ->
  exists ds', relchange (fun x y => rel_change x y None) use index "" ds = Ok ds' /\
    forall t k d f f0, In t ts -> lookup ds (t, k) = Some d -> shows cells m (ds_data d) f -> shows cells m (ds_data (refs t)) f0 ->
      (ds_status d = false -> lookup ds' (t, k) = Some d) /\
      (ds_status d = true -> exists v, lookup ds' (t, k) = Some (set_data v d) /\
        ((k <= places t)%nat \/ ds_status (refs t) = false -> shows cells m v (fun x j => (f x j - f0 x j) / f0 x j)) /\
        ((places t < k)%nat -> ds_status (refs t) = true -> exists z, rel_change (ds_data (refs t)) (ds_data (refs t)) None = Ok z /\ rel_change z (ds_data d) None = Ok v)).
Proof.
  intros Hc Hn Ht. set (g := fun x y : arr => match rel_change x y None with Ok v => v | Err _ => x end).
  assert (R : forall x y : arr, (exists f, shows cells m x f) -> (exists f, shows cells m y f) -> rel_change x y None = Ok (g x y) /\ exists f, shows cells m (g x y) f).
  { intros x y (fx & Sx) (fy & Sy). destruct (y_rel_none cells m m y x fy fx Sy Sx (le_n m)) as (z & E & Hz). unfold g. rewrite E. split; [reflexivity|]. eexists. exact Hz. }
  destruct (C106_in_place (fun x y => rel_change x y None) (fun x => exists f, shows cells m x f) g use index ds ts refs places R Hc Hn Ht) as (ds' & E & _ & H).
  exists ds'. split; [exact E|]. intros t k d f f0 Hin Ed Sd S0. rewrite H, Ed. cbn [option_map].
  assert (Ei : existsb (String.eqb t) ts = true) by (apply existsb_exists; exists t; split; [exact Hin|apply String.eqb_refl]). rewrite Ei. cbn [andb].
  split; [now intros ->|]. intros ->. eexists. split; [reflexivity|]. unfold reference. split.
  - intros Hk. replace (ds_status (refs t) && (places t <? k)%nat) with false.
    + destruct (y_rel_none cells m m (ds_data d) (ds_data (refs t)) f f0 Sd S0 (le_n m)) as (z & Ez & Hz). unfold g. rewrite Ez. exact Hz.
    + symmetry. destruct Hk as [Hk| ->]; [|reflexivity]. destruct (Nat.ltb_spec (places t) k); [lia|]. apply andb_false_r.
  - intros Hk Hs. rewrite Hs. destruct (Nat.ltb_spec (places t) k); [|lia]. cbn [andb]. exists (g (ds_data (refs t)) (ds_data (refs t))).
    assert (S0' : exists f, shows cells m (ds_data (refs t)) f) by eauto. destruct (R _ _ S0' S0') as (E1 & E2). split; [exact E1|]. apply R; [exact E2|eauto].
Qed.

(** ** Examples *)
Definition ex_rel (x y : Z) : res Z := Ok (y - x)%Z.
Definition ex_rspace : dspace Z := [("a", [mk_dset 0 "" true "" 5%Z; mk_dset 1 "" true "" 7%Z; mk_dset 2 "" false "" 8%Z; mk_dset 3 "" true "" 9%Z])]%string.
Example ex_rel_cmd : relchange ex_rel None 1 "" ex_rspace = Ok [("a", [mk_dset 0 "" true "" (-2)%Z; mk_dset 1 "" true "" 0%Z; mk_dset 2 "" false "" 8%Z; mk_dset 3 "" true "" 9%Z])]%string.
Proof. vm_compute. reflexivity. Qed.
Example ex_rel_hyp : chosen ex_rspace None ["a"%string] /\ placed 4 (-3) 1 /\ placed 4 1 1.
Proof. split; [left; split; [reflexivity|]; split; [repeat constructor; discriminate|reflexivity]|]. unfold placed. lia. Qed.
Example ex_rel_default : relchange ex_rel None 0 "rel_change" ex_rspace = Err TypeError /\ relchange ex_rel (Some "b"%string) 0 "" ex_rspace = Err KeyError /\ relchange ex_rel None 4 "" ex_rspace = Err IndexError.
Proof. repeat split; vm_compute; reflexivity. Qed.

Print Assumptions C106_in_place.
Print Assumptions C106_tag.
Print Assumptions C106_missing.
Print Assumptions C106_nothing.
Print Assumptions C106_zero.
Print Assumptions C106_tool.
