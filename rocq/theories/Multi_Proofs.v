(** * Lemmas about frame numbers in file names. *)
From Coq Require Import String Ascii List Arith ZArith QArith Bool Sorted Permutation Lia DecimalString.
From Verif Require Import Prelude PreludeFacts NdArray GData_Model Select_Model DataSpace_Model
  DataSpace_Spec DataSpace_Proofs DataSpace_Proofs2 DataSpace_Proofs3 Sort Multi_Model.
Import ListNotations.
Open Scope list_scope.

(** ** Strings *)

Lemma drop_app a b : drop (String.length a) (a ++ b)%string = b.
Proof. induction a; simpl; auto. Qed.

Lemma starts_with_app p s t : starts_with p s = true -> starts_with p (s ++ t)%string = true.
Proof.
  revert s; induction p as [|a p IH]; intros s; [reflexivity|]. destruct s as [|b s]; simpl; [discriminate|].
  intros H. apply andb_true_iff in H as [H1 H2]. rewrite H1. simpl. auto.
Qed.

(** A pattern without the character [c] that starts [s ++ String c t] starts [s]. *)
Lemma starts_with_stop p s c t : has_char c p = false ->
  starts_with p (s ++ String c t)%string = true -> starts_with p s = true.
Proof.
  revert s; induction p as [|a p IH]; intros s; [reflexivity|]. simpl. intros H. apply orb_false_iff in H as [Ha Hp].
  destruct s as [|b s]; simpl.
  - intros H. apply andb_true_iff in H as [H _]. congruence.
  - intros H. apply andb_true_iff in H as [H1 H2]. rewrite H1. simpl. eauto.
Qed.

Lemma before_app p s c t : has_char c p = false -> contains p s = false ->
  before p (s ++ String c t)%string = (s ++ before p (String c t))%string.
Proof.
  intros Hc. induction s as [|a s IH]; [reflexivity|]. intros H.
  cbn [contains] in H. apply orb_false_iff in H as [H1 H2].
  cbn [String.append before]. change (String a (s ++ String c t)%string) with ((String a s) ++ String c t)%string.
  destruct (starts_with p (String a s ++ String c t)%string) eqn:E.
  - apply starts_with_stop in E; auto. congruence.
  - cbn. now rewrite IH.
Qed.

Lemma digit_uint w : is_digits w = true -> forall c, has_char c w = true -> digit_char c.
Proof.
  unfold is_digits. destruct w as [|a w]; [discriminate|]. revert a.
  assert (G : forall w u, NilEmpty.uint_of_string w = Some u -> forall c, has_char c w = true -> digit_char c).
  { induction w0 as [|a w0 IH]; intros u H c Hc; [discriminate|]. cbn [has_char] in Hc.
    simpl in H. destruct (NilEmpty.uint_of_string w0) as [u'|] eqn:E.
    - apply orb_true_iff in Hc as [Hc|Hc]; [|eapply IH; eauto]. apply Ascii.eqb_eq in Hc. subst a.
      unfold digit_char. destruct c as [[] [] [] [] [] [] [] []]; simpl in H; try discriminate; simpl; tauto.
    - unfold NilEmpty.uint_of_string in H. destruct a as [[] [] [] [] [] [] [] []]; simpl in H; discriminate. }
  intros a H. destruct (NilEmpty.uint_of_string (String a w)) eqn:E; [|discriminate]. eauto.
Qed.

Lemma digits_val_digits w n : digits_val w = Some n -> is_digits w = true.
Proof.
  unfold digits_val, is_digits. destruct w; [discriminate|].
  destruct (NilEmpty.uint_of_string _); [reflexivity|discriminate].
Qed.

Lemma digits_no c w n : digits_val w = Some n -> ~ digit_char c -> has_char c w = false.
Proof.
  intros H Hc. destruct (has_char c w) eqn:E; [|reflexivity]. exfalso. apply Hc.
  eapply digit_uint; eauto. eapply digits_val_digits; eauto.
Qed.

Lemma contains_nochar a p s : has_char a s = false -> contains (String a p) s = false.
Proof.
  induction s as [|b s IH]; intros H; [reflexivity|]. cbn [has_char] in H. apply orb_false_iff in H as [H1 H2].
  cbn [contains starts_with]. rewrite IH by auto. rewrite orb_false_r.
  destruct (Ascii.eqb a b) eqn:E; [|reflexivity]. apply Ascii.eqb_eq in E. subst. now rewrite Ascii.eqb_refl in H1.
Qed.

Lemma str_assoc (a b c : string) : ((a ++ b) ++ c = a ++ b ++ c)%string.
Proof. induction a; simpl; congruence. Qed.

(** ** The position of the first difference *)

(** The characters of [f] and [short] agree before [k]; they may differ from
    there on. *)
Lemma scan_common j a s f idx : scan j (a ++ s) (a ++ f) idx = scan (j + String.length a) s f idx.
Proof.
  revert j; induction a as [|c a IH]; intros j; simpl; [now rewrite Nat.add_0_r|].
  rewrite Ascii.eqb_refl. simpl. rewrite IH. now rewrite <- Nat.add_succ_comm.
Qed.

(** Once a difference before [j] is known nothing changes. *)
Lemma scan_known j s f k : (k <= j)%nat -> scan j s f (Some k) = Some k.
Proof.
  revert j f; induction s as [|a s IH]; intros j f H; [destruct f; reflexivity|]. destruct f as [|b f]; [reflexivity|]. simpl.
  replace (j <? k)%nat with false by (symmetry; apply Nat.ltb_ge; lia). rewrite andb_false_r. apply IH. lia.
Qed.

(** What a scan starting at [j] returns is the old value, or at least [j]. *)
Lemma scan_later j s f idx : (match idx with None => True | Some k => (j < k)%nat end) ->
  match scan j s f idx with None => idx = None | Some k => (j <= k)%nat end.
Proof.
  revert j f idx; induction s as [|a s IH]; intros j f idx H; [destruct f, idx; simpl; auto; lia|].
  destruct f as [|b f]; [destruct idx; simpl; auto; lia|]. simpl.
  destruct (negb (Ascii.eqb a b)) eqn:E; simpl.
  - destruct idx as [k|].
    + assert (El : (j <? k)%nat = true) by now apply Nat.ltb_lt. rewrite El.
      rewrite scan_known by lia. lia.
    + rewrite scan_known by lia. lia.
  - destruct idx as [k|].
    + destruct (Nat.eq_dec (S j) k) as [->|Hne]; [rewrite scan_known by lia; lia|].
      pose proof (IH (S j) f (Some k)) as G. simpl in G. specialize (G ltac:(lia)).
      destruct (scan (S j) s f (Some k)); [lia|discriminate].
    + pose proof (IH (S j) f None I) as G. destruct (scan (S j) s f None); [lia|auto].
Qed.

Lemma first_difference_spec stem a s fs :
  Forall (fun f => exists b f', f = (stem ++ String b f')%string) fs ->
  (exists b f', In (stem ++ String b f')%string fs /\ a <> b) ->
  first_difference (stem ++ String a s) fs = Some (String.length stem).
Proof.
  intros H (b & f' & Hin & Hab).
  assert (G : forall idx, (idx = None \/ exists k, idx = Some k /\ (String.length stem <= k)%nat) ->
     fold_left (fun idx f => scan 0 (stem ++ String a s) f idx) fs idx = Some (String.length stem)).
  { revert H Hin. induction fs as [|f fs IH]; intros H Hin idx Hidx; [destruct Hin|].
    inversion H as [|? ? (c & g & Ef) H']; subst. cbn [fold_left].
    rewrite scan_common. cbn [Nat.add].
    assert (Hstep : let idx' := scan (String.length stem) (String a s) (String c g) idx in
              (a <> c -> idx' = Some (String.length stem)) /\
              (idx' = None \/ exists k, idx' = Some k /\ (String.length stem <= k)%nat)).
    { cbn zeta. split.
      - intros Hac. simpl. assert (E : Ascii.eqb a c = false) by now apply Ascii.eqb_neq. rewrite E. simpl.
        destruct Hidx as [->|(k & -> & Hk)]; [now rewrite scan_known by lia|].
        destruct (String.length stem <? k)%nat eqn:El; [now rewrite scan_known by lia|].
        apply Nat.ltb_ge in El. replace k with (String.length stem) by lia. now rewrite scan_known by lia.
      - destruct Hidx as [->|(k & -> & Hk)].
        + pose proof (scan_later (String.length stem) (String a s) (String c g) None I) as G.
          destruct (scan (String.length stem) (String a s) (String c g) None); eauto.
        + destruct (Nat.eq_dec (String.length stem) k) as [<-|Hne].
          * rewrite scan_known by lia. right. eauto.
          * pose proof (scan_later (String.length stem) (String a s) (String c g) (Some k) ltac:(simpl; lia)) as G.
            destruct (scan (String.length stem) (String a s) (String c g) (Some k)); [eauto|discriminate]. }
    cbn zeta in Hstep. destruct Hstep as [H1 H2]. set (idx' := scan _ _ _ _) in *. clearbody idx'.
    destruct Hin as [Heq|Hin]; [|apply IH; auto].
    assert (Hc : c = b).
    { clear - Heq. induction stem as [|x st IHs]; simpl in Heq; [now injection Heq|]. injection Heq as Heq. auto. }
    subst c. rewrite H1 by auto. clear - H'.
    (* already minimal *)
    induction fs as [|f fs IH]; [reflexivity|]. inversion H' as [|? ? (d & h & Ef) H'']; subst. cbn [fold_left].
    rewrite scan_common, scan_known by lia. auto. }
  apply G. now left.
Qed.

Lemma shortest_in f fs : In (shortest f fs) (f :: fs).
Proof.
  revert f. induction fs as [|g fs IH]; intros f; [now left|]. cbn [shortest].
  destruct (IH (if (String.length g <? String.length f)%nat then g else f)) as [E|H].
  - rewrite <- E. destruct (_ <? _)%nat; simpl; auto.
  - right. now right.
Qed.

(** ** np.unique *)
Lemma dedup_in {B} (eqb : B -> B -> bool) l x : (forall a b, eqb a b = true -> a = b) -> In x (dedup eqb l) <-> In x l.
Proof.
  intros H. induction l as [|a l IH]; [reflexivity|]. destruct l as [|b l]; [reflexivity|].
  cbn [dedup]. destruct (eqb a b) eqn:E.
  - apply H in E. subst b. rewrite IH. simpl. tauto.
  - cbn [In]. cbn [In] in IH. rewrite IH. tauto.
Qed.

Lemma dedup_head {B} (eqb : B -> B -> bool) P a l : Forall P (a :: l) -> Forall P (dedup eqb (a :: l)).
Proof.
  revert a; induction l as [|b l IH]; intros a H; [exact H|]. cbn [dedup].
  inversion H as [|? ? Ha H']; subst. destruct (eqb a b); [now apply IH|]. constructor; [exact Ha|now apply IH].
Qed.

Lemma unique_Z_in l x : In x (unique_Z l) <-> In x l.
Proof.
  unfold unique_Z. rewrite dedup_in by (intros a b; apply Z.eqb_eq).
  pose proof (isort_perm Z.leb l) as P.
  split; intros H; [apply (Permutation_in _ (Permutation_sym P) H)|apply (Permutation_in _ P H)].
Qed.

Lemma unique_Z_sorted l : StronglySorted Z.lt (unique_Z l).
Proof.
  unfold unique_Z. assert (H : StronglySorted (fun x y => (x <=? y)%Z = true) (isort Z.leb l)).
  { apply isort_sorted with (P := fun _ => True); try (intros; auto).
    - destruct (Z.leb_spec x y), (Z.leb_spec y x); auto; lia.
    - apply Z.leb_le in H2, H3. apply Z.leb_le. lia.
    - apply Forall_forall. auto. }
  induction H as [|a m H IH F]; [constructor|]. destruct m as [|b m]; [constructor; constructor|].
  cbn [dedup]. destruct (Z.eqb_spec a b) as [->|Hne]; [exact IH|].
  constructor; [exact IH|]. inversion F as [|? ? Fab F']; subst. apply Z.leb_le in Fab.
  apply dedup_head. constructor; [lia|]. inversion H as [|? ? _ Fb]; subst.
  rewrite Forall_forall in *. intros x Hx. specialize (Fb x Hx). apply Z.leb_le in Fb. lia.
Qed.

(** ** Writing the frame numbers *)
Section Frames.
  Context {A : Type}.

  Definition frame_body (frames : list Z) (i : nat) (r : ref) (ds : dspace (blk A)) : res (dspace (blk A)) :=
    match nth_error frames i with
    | None => Err IndexError
    | Some z => Ok (modify ds r (fun d => set_data (set_b_frame z (ds_data d)) d))
    end.

  Lemma write_frames t frames s n ds l :
    aget t ds = Some l -> (s + n <= length l)%nat -> (s + n <= length frames)%nat ->
    Forall (fun d => ds_status d = true) l ->
    exists ds', foldM (vis (fun ds => ds) (frame_body frames) true) (enum_from s t (seq s n)) ds = Ok ds' /\
      List.map fst ds' = List.map fst ds /\
      forall r, lookup ds' r =
        match nth_error frames (snd r) with
        | Some z => if String.eqb (fst r) t && (s <=? snd r)%nat && (snd r <? s + n)%nat
                    then option_map (fun d => set_data (set_b_frame z (ds_data d)) d) (lookup ds r)
                    else lookup ds r
        | None => lookup ds r
        end.
  Proof.
    revert s ds l. induction n as [|n IH]; intros s ds l Hl Hln Hf Hs.
    - exists ds. split; [reflexivity|]. split; [reflexivity|]. intros r.
      destruct (nth_error frames (snd r)); [|reflexivity].
      destruct (s <=? snd r)%nat eqn:E1, (snd r <? s + 0)%nat eqn:E2; rewrite ?andb_false_r; auto.
      apply Nat.leb_le in E1. apply Nat.ltb_lt in E2. lia.
    - unfold enum_from. cbn [seq length List.map combine foldM].
      destruct (nth_error l s) as [d|] eqn:Ed; [|apply nth_error_None in Ed; lia].
      destruct (nth_error frames s) as [z|] eqn:Ez; [|apply nth_error_None in Ez; lia].
      assert (Elk : lookup ds (t, s) = Some d) by (unfold lookup; cbn; now rewrite Hl).
      unfold vis at 1, visit. cbn [fst snd]. rewrite Elk.
      assert (Est : ds_status d = true) by (rewrite Forall_forall in Hs; apply Hs; eapply nth_error_In; eauto).
      rewrite Est. cbn [negb orb]. unfold frame_body at 1. rewrite Ez. cbn [bind].
      set (h := fun d0 : dset (blk A) => set_data (set_b_frame z (ds_data d0)) d0).
      set (ds1 := modify ds (t, s) h).
      assert (El1 : aget t ds1 = Some (set_nth s (h d) l)).
      { unfold ds1, modify. cbn [fst snd]. rewrite Hl, Ed. rewrite aget_aset. now rewrite String.eqb_refl. }
      destruct (IH (S s) ds1 (set_nth s (h d) l)) as (ds' & E & K & H); auto.
      + rewrite set_nth_length. lia.
      + lia.
      + apply Forall_forall. intros e He. apply In_nth_error in He as [k Hk]. rewrite nth_error_set_nth in Hk.
        destruct (s =? k)%nat.
        * destruct (nth_error l k); [|discriminate]. injection Hk as <-. exact Est.
        * rewrite Forall_forall in Hs. apply Hs. eapply nth_error_In; eauto.
      + exists ds'. split; [unfold enum_from in E; exact E|]. split; [rewrite K; apply keys_modify|].
        intros r. rewrite H. unfold ds1. rewrite lookup_modify.
        destruct (ref_eq_dec r (t, s)) as [->|Hne].
        * cbn [fst snd]. rewrite Ez, Elk. rewrite String.eqb_refl.
          replace (S s <=? s)%nat with false by (symmetry; apply Nat.leb_gt; lia).
          replace (s <=? s)%nat with true by (symmetry; apply Nat.leb_le; lia).
          replace (s <? s + S n)%nat with true by (symmetry; apply Nat.ltb_lt; lia). cbn. reflexivity.
        * destruct (nth_error frames (snd r)); [|reflexivity].
          destruct (String.eqb_spec (fst r) t) as [Ert|]; [|reflexivity].
          assert (snd r <> s) by (destruct r as [r1 r2]; cbn in *; congruence). cbn [andb].
          replace (S s <=? snd r)%nat with (s <=? snd r)%nat.
          2:{ destruct (Nat.leb_spec s (snd r)), (Nat.leb_spec (S s) (snd r)); auto; lia. }
          replace (S s + n)%nat with (s + S n)%nat by lia. reflexivity.
  Qed.
End Frames.
