(** * Lemmas about the data space model. *)
From Coq Require Import String Ascii List Arith ZArith Bool Sorted Lia.
From Verif Require Import Prelude PreludeFacts NdArray DataSpace_Model DataSpace_Spec.
Import ListNotations.
Open Scope list_scope.

(** ** Slices *)

Lemma slice_list_spec n a b c ps :
  slice_list n a b c = Ok ps ->
  is_slice n a b (match c with None => 1%Z | Some s => s end) ps.
Proof.
  unfold slice_list, slice_indices. set (st := match c with None => 1%Z | Some s => s end).
  destruct (Z.eqb_spec st 0) as [|Hst]; [discriminate|].
  destruct (Z.ltb_spec 0 st) as [Hpos|Hneg]; cbn [bind]; intros [= <-].
  - set (lo := match a with None => 0%Z | Some i => adjust_pos (Z.of_nat n) i end).
    set (hi := match b with None => Z.of_nat n | Some i => adjust_pos (Z.of_nat n) i end).
    assert (Hlo : (0 <= lo <= Z.of_nat n)%Z).
    { unfold lo, adjust_pos. destruct a as [i|]; [destruct (Z.ltb_spec i 0)|]; lia. }
    assert (Hhi : (hi <= Z.of_nat n)%Z).
    { unfold hi, adjust_pos. destruct b as [i|]; [destruct (Z.ltb_spec i 0)|]; lia. }
    unfold range_list, range_len. destruct (Z.ltb_spec 0 st); [|lia].
    set (m := Z.to_nat (Z.max 0 ((hi - lo + st - 1) / st))).
    assert (Hm : forall j, (Z.of_nat j < Z.of_nat m)%Z <-> (lo + Z.of_nat j * st < hi)%Z).
    { intros j. unfold m. rewrite Z2Nat.id by lia.
      pose proof (Z.div_mod (hi - lo + st - 1) st ltac:(lia)) as Hd.
      pose proof (Z.mod_pos_bound (hi - lo + st - 1) st ltac:(lia)) as Hb. split; intros Hj; nia. }
    unfold is_slice, in_slice. destruct (Z.ltb_spec 0 st); [|lia]. split.
    + intros k. rewrite in_map_iff. setoid_rewrite in_map_iff. split.
      * intros (z & <- & j & <- & Hj). apply in_seq in Hj.
        assert (Hj' : (lo + Z.of_nat j * st < hi)%Z) by (apply Hm; lia).
        assert (Ez : Z.of_nat (Z.to_nat (lo + Z.of_nat j * st)) = (lo + Z.of_nat j * st)%Z) by (apply Z2Nat.id; nia).
        split; [lia|]. rewrite Ez.
        assert (El : lo = Z.max 0 (match a with None => 0%Z | Some i => from_end n i end) \/ (Z.of_nat n <= lo)%Z).
        { unfold lo, adjust_pos, from_end. destruct a as [i|]; [destruct (Z.ltb_spec i 0)|]; lia. }
        assert (Eh : (hi <= Z.max 0 (match b with None => Z.of_nat n | Some i => from_end n i end))%Z).
        { unfold hi, adjust_pos, from_end. destruct b as [i|]; [destruct (Z.ltb_spec i 0)|]; lia. }
        destruct El as [El|El]; [|nia]. rewrite <- El. split; [nia|]. exists (Z.of_nat j). lia.
      * intros (Hk & [H1 H2] & [j Hj]).
        assert (El : lo = Z.max 0 (match a with None => 0%Z | Some i => from_end n i end)).
        { revert H1. unfold lo, adjust_pos, from_end. destruct a as [i|]; [destruct (Z.ltb_spec i 0)|]; lia. }
        assert (Eh : (Z.of_nat k < hi)%Z).
        { revert H2. unfold hi, adjust_pos, from_end. destruct b as [i|]; [destruct (Z.ltb_spec i 0)|]; lia. }
        rewrite <- El in *. exists (Z.of_nat k). split; [apply Nat2Z.id|].
        exists (Z.to_nat j). assert (0 <= j)%Z by nia. rewrite Z2Nat.id by lia. split; [lia|].
        apply in_seq. enough (Z.of_nat (Z.to_nat j) < Z.of_nat m)%Z by lia. apply Hm. rewrite Z2Nat.id by lia. lia.
    + clear Hm. clearbody m. generalize 0%nat. induction m as [|m IH]; intros s; cbn [seq List.map]; constructor; auto.
      apply Forall_forall. intros x Hx. apply in_map_iff in Hx as (z & <- & Hz). apply in_map_iff in Hz as (j & <- & Hj).
      apply in_seq in Hj. apply Z2Nat.inj_lt; nia.
  - set (lo := match a with None => (Z.of_nat n - 1)%Z | Some i => adjust_neg (Z.of_nat n) i end).
    set (hi := match b with None => (-1)%Z | Some i => adjust_neg (Z.of_nat n) i end).
    assert (Hlo : (-1 <= lo <= Z.of_nat n - 1)%Z).
    { unfold lo, adjust_neg. destruct a as [i|]; [destruct (Z.ltb_spec i 0)|]; lia. }
    assert (Hhi : (-1 <= hi)%Z).
    { unfold hi, adjust_neg. destruct b as [i|]; [destruct (Z.ltb_spec i 0)|]; lia. }
    unfold range_list, range_len. destruct (Z.ltb_spec 0 st); [lia|].
    set (m := Z.to_nat (Z.max 0 ((lo - hi - st - 1) / - st))).
    assert (Hm : forall j, (Z.of_nat j < Z.of_nat m)%Z <-> (hi < lo + Z.of_nat j * st)%Z).
    { intros j. unfold m. rewrite Z2Nat.id by lia.
      pose proof (Z.div_mod (lo - hi - st - 1) (- st) ltac:(lia)) as Hd.
      pose proof (Z.mod_pos_bound (lo - hi - st - 1) (- st) ltac:(lia)) as Hb. split; intros Hj; nia. }
    unfold is_slice, in_slice. destruct (Z.ltb_spec 0 st); [lia|]. split.
    + intros k. rewrite in_map_iff. setoid_rewrite in_map_iff. split.
      * intros (z & <- & j & <- & Hj). apply in_seq in Hj.
        assert (Hj' : (hi < lo + Z.of_nat j * st)%Z) by (apply Hm; lia).
        assert (Ez : Z.of_nat (Z.to_nat (lo + Z.of_nat j * st)) = (lo + Z.of_nat j * st)%Z) by (apply Z2Nat.id; nia).
        split; [nia|]. rewrite Ez.
        assert (El : lo = Z.min (Z.of_nat n - 1) (match a with None => (Z.of_nat n - 1)%Z | Some i => from_end n i end) \/ (lo = -1)%Z).
        { unfold lo, adjust_neg, from_end. destruct a as [i|]; [destruct (Z.ltb_spec i 0)|]; lia. }
        assert (Eh : (match b with None => (-1)%Z | Some i => from_end n i end <= hi)%Z \/ (Z.of_nat n - 1 <= hi)%Z).
        { unfold hi, adjust_neg, from_end. destruct b as [i|]; [destruct (Z.ltb_spec i 0)|]; lia. }
        destruct El as [El|El]; [|nia]. rewrite <- El. split; [nia|]. exists (- Z.of_nat j)%Z. lia.
      * intros (Hk & [H1 H2] & [j Hj]).
        assert (El : lo = Z.min (Z.of_nat n - 1) (match a with None => (Z.of_nat n - 1)%Z | Some i => from_end n i end)).
        { revert H2. unfold lo, adjust_neg, from_end. destruct a as [i|]; [destruct (Z.ltb_spec i 0)|]; lia. }
        assert (Eh : (hi < Z.of_nat k)%Z).
        { revert H1. unfold hi, adjust_neg, from_end. destruct b as [i|]; [destruct (Z.ltb_spec i 0)|]; lia. }
        rewrite <- El in *. exists (Z.of_nat k). split; [apply Nat2Z.id|].
        exists (Z.to_nat (- j)). assert (0 <= - j)%Z by nia. rewrite Z2Nat.id by lia. split; [lia|].
        apply in_seq. enough (Z.of_nat (Z.to_nat (- j)) < Z.of_nat m)%Z by lia. apply Hm. rewrite Z2Nat.id by lia. lia.
    + assert (Hb : forall j, (j < m)%nat -> (0 <= lo + Z.of_nat j * st)%Z).
      { intros j Hj. assert (hi < lo + Z.of_nat j * st)%Z by (apply Hm; lia). lia. }
      clear Hm. clearbody m.
      assert (G : forall k s, (s + k <= m)%nat ->
        StronglySorted gt (List.map Z.to_nat (List.map (fun k => (lo + Z.of_nat k * st)%Z) (seq s k)))); [|apply G; lia].
      induction k as [|k IH]; intros s Hs; cbn [seq List.map]; constructor; auto.
      * apply IH; lia.
      * apply Forall_forall. intros x Hx. apply in_map_iff in Hx as (z & <- & Hz). apply in_map_iff in Hz as (j & <- & Hj).
        apply in_seq in Hj. pose proof (Hb j ltac:(lia)). apply Z2Nat.inj_lt; nia.
Qed.

Lemma slice_list_ok n a b c : c <> Some 0%Z -> exists ps, slice_list n a b c = Ok ps.
Proof.
  intros H. unfold slice_list, slice_indices.
  destruct (Z.eqb_spec (match c with None => 1%Z | Some s => s end) 0) as [E|E].
  - destruct c; [congruence|discriminate].
  - destruct (_ <? _)%Z; cbn [bind]; eauto.
Qed.

Lemma sorted_lt_unique l m : StronglySorted lt l -> StronglySorted lt m -> (forall k, In k l <-> In k m) -> l = m.
Proof.
  intros Hl. revert m. induction Hl as [|a l Hl IH Ha]; intros m Hm H.
  - destruct m as [|b m]; auto. destruct (proj2 (H b)); now left.
  - destruct Hm as [|b m Hm Hb]; [destruct (proj1 (H a)); now left|].
    rewrite Forall_forall in Ha, Hb.
    assert (a = b).
    { destruct (proj1 (H a)) as [|Hi]; [now left|auto|]. destruct (proj2 (H b)) as [|Hj]; [now left|auto|].
      apply Hb in Hi. apply Ha in Hj. lia. }
    subst b. f_equal. apply IH; auto. intros k. split; intros Hk.
    + destruct (proj1 (H k)) as [<-|]; [now right| |auto]. apply Ha in Hk. lia.
    + destruct (proj2 (H k)) as [<-|]; [now right| |auto]. apply Hb in Hk. lia.
Qed.

Lemma sorted_gt_unique l m : StronglySorted gt l -> StronglySorted gt m -> (forall k, In k l <-> In k m) -> l = m.
Proof.
  intros Hl. revert m. induction Hl as [|a l Hl IH Ha]; intros m Hm H.
  - destruct m as [|b m]; auto. destruct (proj2 (H b)); now left.
  - destruct Hm as [|b m Hm Hb]; [destruct (proj1 (H a)); now left|].
    rewrite Forall_forall in Ha, Hb.
    assert (a = b).
    { destruct (proj1 (H a)) as [|Hi]; [now left|auto|]. destruct (proj2 (H b)) as [|Hj]; [now left|auto|].
      apply Hb in Hi. apply Ha in Hj. lia. }
    subst b. f_equal. apply IH; auto. intros k. split; intros Hk.
    + destruct (proj1 (H k)) as [<-|]; [now right| |auto]. apply Ha in Hk. lia.
    + destruct (proj2 (H k)) as [<-|]; [now right| |auto]. apply Hb in Hk. lia.
Qed.

Lemma is_slice_unique n a b c l m : is_slice n a b c l -> is_slice n a b c m -> l = m.
Proof.
  intros [H1 S1] [H2 S2]. destruct (0 <? c)%Z; [apply sorted_lt_unique|apply sorted_gt_unique]; auto;
  intros k; rewrite H1, H2; reflexivity.
Qed.

Lemma is_slice_lt n a b c l k : is_slice n a b c l -> In k l -> (k < n)%nat.
Proof. intros [H _] Hk. apply H in Hk. apply Hk. Qed.

(** The computed slice is the specified one. *)
Lemma slice_list_is n a b c ps :
  c <> Some 0%Z -> is_slice n a b (match c with None => 1%Z | Some s => s end) ps ->
  slice_list n a b c = Ok ps.
Proof.
  intros Hc H. destruct (slice_list_ok n a b c Hc) as [ps' E]. rewrite E. f_equal.
  eapply is_slice_unique; eauto. now apply slice_list_spec.
Qed.

Lemma slice_all n : slice_list n None None None = Ok (seq 0 n).
Proof.
  apply slice_list_is; [discriminate|]. split; simpl.
  - intros k. unfold in_slice. simpl. rewrite in_seq. rewrite Z.sub_0_r. split; [|lia]. intros H.
    split; [lia|]. split; [lia|]. apply Z.divide_1_l.
  - generalize 0%nat. induction n as [|n IH]; intros s; simpl; constructor; auto.
    apply Forall_forall. intros x Hx. apply in_seq in Hx. lia.
Qed.

(** ** Index strings *)

Lemma split_join c ls : ls <> [] -> Forall (fun s => has_char c s = false) ls ->
  split_on c (join (String c "") ls) = ls.
Proof.
  intros Hne H. induction H as [|s ls Hs H IH]; [congruence|]. destruct ls as [|s' ls].
  - now apply split_on_none.
  - change (join (String c "") (s :: s' :: ls)) with (s ++ String c (join (String c "") (s' :: ls)))%string.
    rewrite split_on_app by auto. f_equal. apply IH. discriminate.
Qed.

Lemma has_char_join c d ls : c <> d -> Forall (fun s => has_char c s = false) ls ->
  has_char c (join (String d "") ls) = false.
Proof.
  intros Hcd H. induction H as [|s ls Hs H IH]; [reflexivity|]. destruct ls as [|s' ls]; [exact Hs|].
  change (join (String d "") (s :: s' :: ls)) with (s ++ String d (join (String d "") (s' :: ls)))%string.
  rewrite has_char_app, Hs. cbn [has_char orb]. rewrite IH.
  destruct (Ascii.eqb_spec d c); [congruence|reflexivity].
Qed.

Lemma mapM_py_int zs : mapM py_int (List.map show_Z zs) = Ok zs.
Proof. induction zs as [|z zs IH]; [reflexivity|]. cbn [List.map mapM]. rewrite py_int_show_Z. cbn [bind].
  rewrite IH. reflexivity. Qed.

Lemma no_digit_special c : c = ","%char \/ c = ":"%char -> ~ digit_char c /\ c <> "-"%char.
Proof. intros [-> | ->]; split; try discriminate; unfold digit_char; simpl; intros H;
  repeat (destruct H as [H|H]; [discriminate|]); exact H. Qed.

Lemma show_Z_no c z : c = ","%char \/ c = ":"%char -> has_char c (show_Z z) = false.
Proof. intros H. apply no_digit_special in H as [H1 H2]. now apply show_Z_has. Qed.

Lemma show_opt_no c o : c = ","%char \/ c = ":"%char -> has_char c (show_opt o) = false.
Proof. intros H. destruct o; [now apply show_Z_no|reflexivity]. Qed.

Lemma opt_int_show o : opt_int (show_opt o) = Ok o.
Proof.
  unfold opt_int. destruct o as [z|]; [|reflexivity]. simpl.
  destruct (String.eqb_spec (show_Z z) "") as [E|_]; [now apply show_Z_nonempty in E|].
  now rewrite py_int_show_Z.
Qed.

Lemma parse_list zs : zs <> [] -> parse_sel (SelStr (join "," (List.map show_Z zs))) = Ok (IList zs).
Proof.
  intros Hne. unfold parse_sel.
  assert (F : forall c, c = ","%char \/ c = ":"%char -> Forall (fun s => has_char c s = false) (List.map show_Z zs)).
  { intros c Hc. apply Forall_forall. intros s Hs. apply in_map_iff in Hs as (z & <- & _). now apply show_Z_no. }
  rewrite (has_char_join ":" ","); [|discriminate|now apply F; right].
  rewrite (split_join ","); [|destruct zs; [congruence|discriminate]|now apply F; left].
  rewrite mapM_py_int. reflexivity.
Qed.

Lemma parse_slice a b : parse_sel (SelStr (show_opt a ++ ":" ++ show_opt b)) = Ok (ISlice a b None).
Proof.
  unfold parse_sel. rewrite has_char_app. cbn [String.append has_char]. rewrite Ascii.eqb_refl, orb_true_r.
  rewrite split_on_app, split_on_none by (apply show_opt_no; auto).
  rewrite !opt_int_show. reflexivity.
Qed.

Lemma parse_step a b c :
  parse_sel (SelStr (show_opt a ++ ":" ++ show_opt b ++ ":" ++ show_Z c)) = Ok (ISlice a b (Some c)).
Proof.
  unfold parse_sel. rewrite has_char_app. cbn [String.append has_char]. rewrite Ascii.eqb_refl, orb_true_r.
  rewrite split_on_app by (apply show_opt_no; auto). rewrite split_on_app by (apply show_opt_no; auto).
  rewrite split_on_none by (apply show_Z_no; auto).
  rewrite !opt_int_show. cbn [bind]. rewrite py_int_show_Z. reflexivity.
Qed.

Lemma norm_index_is n z p :
  (0 <= from_end n z < Z.of_nat n)%Z -> Z.of_nat p = from_end n z -> norm_index n z = Ok p.
Proof.
  unfold from_end, norm_index. intros H1 H2. rewrite <- H2 in *.
  destruct (Z.leb_spec 0 (Z.of_nat p)), (Z.ltb_spec (Z.of_nat p) (Z.of_nat n)); try lia. simpl.
  f_equal. lia.
Qed.

Lemma norm_index_err n z : ~ (0 <= from_end n z < Z.of_nat n)%Z -> norm_index n z = Err IndexError.
Proof.
  unfold from_end, norm_index. intros H. destruct (Z.leb_spec 0 (if (z <? 0)%Z then (z + Z.of_nat n)%Z else z)); [|reflexivity].
  destruct (Z.ltb_spec (if (z <? 0)%Z then (z + Z.of_nat n)%Z else z) (Z.of_nat n)); [lia|reflexivity].
Qed.

(** ** Data space operations *)

Section Ops.
  Context {X : Type}.
  Implicit Types (ds : dspace X) (d : dset X).

  Lemma aset_keys {V} k (v : V) (m : list (string * V)) w :
    aget k m = Some w -> List.map fst (aset k v m) = List.map fst m.
  Proof.
    induction m as [|[k' v'] m IH]; simpl; [discriminate|].
    destruct (String.eqb_spec k k') as [->|]; simpl; auto. intros H. f_equal. auto.
  Qed.

  Lemma aget_modify ds r f t :
    aget t (modify ds r f) =
    if String.eqb t (fst r) then
      option_map (fun l => match nth_error l (snd r) with Some d => set_nth (snd r) (f d) l | None => l end) (aget t ds)
    else aget t ds.
  Proof.
    unfold modify. destruct r as [u k]; simpl.
    destruct (aget u ds) as [l|] eqn:E.
    - destruct (nth_error l k) as [d|] eqn:E2.
      + rewrite aget_aset. destruct (String.eqb_spec t u) as [->|]; [|reflexivity]. rewrite E. simpl. now rewrite E2.
      + destruct (String.eqb_spec t u) as [->|]; [|reflexivity]. rewrite E. simpl. now rewrite E2.
    - destruct (String.eqb_spec t u) as [->|]; [|reflexivity]. now rewrite E.
  Qed.

  Lemma keys_modify ds r f : List.map fst (modify ds r f) = List.map fst ds.
  Proof.
    unfold modify. destruct (aget (fst r) ds) as [l|] eqn:E; auto. destruct (nth_error l (snd r)); auto.
    eapply aset_keys; eauto.
  Qed.

  Lemma length_modify ds r f t : option_map (@length _) (aget t (modify ds r f)) = option_map (@length _) (aget t ds).
  Proof.
    rewrite aget_modify. destruct (String.eqb t (fst r)); auto. destruct (aget t ds) as [l|]; auto. simpl.
    destruct (nth_error l (snd r)); auto. now rewrite set_nth_length.
  Qed.

  Lemma ref_eq_dec (r r' : ref) : {r = r'} + {r <> r'}.
  Proof. decide equality; [apply Nat.eq_dec|apply string_dec]. Qed.

  Lemma lookup_modify ds r f r' :
    lookup (modify ds r f) r' = if ref_eq_dec r' r then option_map f (lookup ds r) else lookup ds r'.
  Proof.
    unfold lookup. rewrite aget_modify. destruct r as [u k], r' as [u' k']; simpl.
    destruct (String.eqb_spec u' u) as [->|Hu].
    - destruct (aget u ds) as [l|] eqn:E; simpl.
      + destruct (nth_error l k) as [d|] eqn:E2.
        * rewrite nth_error_set_nth. destruct (ref_eq_dec (u, k') (u, k)) as [He|Hn].
          -- injection He as ->. rewrite E2. rewrite Nat.eqb_refl. reflexivity.
          -- destruct (Nat.eqb_spec k' k) as [->|]; [congruence|].
             destruct (Nat.eqb_spec k k'); [congruence|reflexivity].
        * destruct (ref_eq_dec (u, k') (u, k)) as [He|Hn]; auto. injection He as ->. now rewrite E2.
      + now destruct (ref_eq_dec (u, k') (u, k)).
    - destruct (ref_eq_dec (u', k') (u, k)); [congruence|reflexivity].
  Qed.

  Lemma aget_add ds t d t' :
    aget t' (add ds t d) = if String.eqb t' t then Some (match aget t ds with Some l => l | None => [] end ++ [d])
                           else aget t' ds.
  Proof. unfold add. destruct (aget t ds); rewrite aget_aset; reflexivity. Qed.

  Lemma lookup_add_old ds t d r x : lookup ds r = Some x -> lookup (add ds t d) r = Some x.
  Proof.
    unfold lookup. rewrite aget_add. destruct r as [u k]; simpl.
    destruct (String.eqb_spec u t) as [->|]; auto. destruct (aget t ds) as [l|]; [|discriminate].
    intros H. rewrite nth_error_app1; auto. apply nth_error_Some. congruence.
  Qed.

  Lemma lookup_add_new ds t d :
    lookup (add ds t d) (t, match aget t ds with Some l => length l | None => 0%nat end) = Some d.
  Proof.
    unfold lookup. rewrite aget_add. simpl. rewrite String.eqb_refl.
    destruct (aget t ds) as [l|]; [|reflexivity]. rewrite nth_error_app2, Nat.sub_diag by lia. reflexivity.
  Qed.

  Lemma lookup_add_other ds t d r :
    lookup ds r = None -> r <> (t, match aget t ds with Some l => length l | None => 0%nat end) ->
    lookup (add ds t d) r = None.
  Proof.
    unfold lookup. rewrite aget_add. destruct r as [u k]; simpl.
    destruct (String.eqb_spec u t) as [->|]; auto. intros H Hne.
    apply nth_error_None. rewrite app_length. simpl.
    destruct (aget t ds) as [l|].
    - apply nth_error_None in H. assert (k <> length l) by congruence. lia.
    - simpl. assert (k <> 0)%nat by congruence. lia.
  Qed.
End Ops.

(** ** Loops over a fixed list of candidates *)

Fixpoint foldM {A S} (f : A -> S -> res S) (l : list A) (s : S) : res S :=
  match l with [] => Ok s | a :: l' => let* s' := f a s in foldM f l' s' end.

Lemma foldM_app {A S} (f : A -> S -> res S) l m s :
  foldM f (l ++ m) s = let* s' := foldM f l s in foldM f m s'.
Proof. revert s; induction l as [|a l IH]; intros s; [reflexivity|]. cbn [foldM app].
  destruct (f a s); [apply IH|reflexivity]. Qed.

Lemma foldM_inv {A S} (f : A -> S -> res S) (P : S -> Prop) l s s' :
  (forall a s s', In a l -> P s -> f a s = Ok s' -> P s') -> P s -> foldM f l s = Ok s' -> P s'.
Proof.
  revert s. induction l as [|a l IH]; intros s H Hs; cbn [foldM]; [now intros [= <-]|].
  destruct (f a s) as [s1|] eqn:E; [|discriminate]. apply IH.
  - intros; eapply H; eauto. now right.
  - eapply H; eauto. now left.
Qed.

Lemma foldM_map {A B S} (g : A -> B) (f : B -> S -> res S) l s :
  foldM f (List.map g l) s = foldM (fun a => f (g a)) l s.
Proof. revert s; induction l as [|a l IH]; intros s; [reflexivity|]. cbn [foldM List.map].
  destruct (f (g a) s); [apply IH|reflexivity]. Qed.

Section Static.
  Context {X St : Type} (space : St -> dspace X) (body : nat -> ref -> St -> res St) (only : bool).

  Definition vis (c : nat * ref) (st : St) : res St := visit space body only (fst c) (snd c) st.

  Definition enum_from (i : nat) (t : string) (ps : list nat) : list (nat * ref) :=
    combine (seq i (length ps)) (List.map (pair t) ps).

  Lemma loop_slice_fold t ps i st : loop_slice space body only t ps i st = foldM vis (enum_from i t ps) st.
  Proof.
    revert i st. induction ps as [|p ps IH]; intros i st; [reflexivity|].
    cbn [loop_slice enum_from length seq List.map combine foldM]. unfold vis at 1. cbn [fst snd].
    destruct (visit space body only i (t, p) st); [apply IH|reflexivity].
  Qed.

  Definition lens (ds : dspace X) (t : string) : option nat := option_map (@length _) (aget t ds).

  (** The body does not change how many datasets the tags in [U] have. *)
  Definition keeps (U : string -> Prop) : Prop :=
    forall i r st st', body i r st = Ok st' -> forall t, U t -> lens (space st') t = lens (space st) t.

  Lemma vis_keeps U c st st' : keeps U -> vis c st = Ok st' -> forall t, U t -> lens (space st') t = lens (space st) t.
  Proof.
    intros K. unfold vis, visit. destruct (lookup (space st) (snd c)) as [d|]; [|intros [= <-]; auto].
    destruct (_ || _); [apply K|intros [= <-]; auto].
  Qed.

  Lemma fold_keeps U l st st' : keeps U -> foldM vis l st = Ok st' -> forall t, U t -> lens (space st') t = lens (space st) t.
  Proof.
    intros K H t Ht. apply (foldM_inv vis (fun s => lens (space s) t = lens (space st) t) l st st'); auto.
    intros a s s' _ E Ea. rewrite <- E. eapply vis_keeps; eauto.
  Qed.

  Definition plain (t : string) (ps : list nat) : list (nat * ref) := List.map (fun p => (0%nat, (t, p))) ps.

  Lemma loop_list_fold U t zs ps n st :
    keeps U -> U t -> lens (space st) t = Some n ->
    Forall2 (fun z p => norm_index n z = Ok p) zs ps ->
    loop_list space body only t zs st = foldM vis (plain t ps) st.
  Proof.
    intros K Ut Hn H. revert st Hn. induction H as [|z p zs ps Hz H IH]; intros st Hn; [reflexivity|].
    cbn [loop_list plain List.map foldM]. unfold lens in Hn. destruct (aget t (space st)) as [l|] eqn:E; [|discriminate].
    simpl in Hn. injection Hn as Hn. rewrite Hn, Hz.
    destruct (vis (0%nat, (t, p)) st) as [st'|] eqn:Ev; unfold vis in Ev; cbn [fst snd] in Ev; rewrite Ev; [|reflexivity].
    cbn [bind]. apply IH. rewrite (vis_keeps U (0%nat, (t, p)) st st'); auto. unfold lens. rewrite E. simpl. congruence.
  Qed.

  (** Candidates of one tag. *)
  Definition cands (s : isel) (t : string) (n : nat) (c : list (nat * ref)) : Prop :=
    match s with
    | ISlice a b k => exists ps, slice_list n a b k = Ok ps /\ c = enum_from 0 t ps
    | IList zs => exists ps, Forall2 (fun z p => norm_index n z = Ok p) zs ps /\ c = plain t ps
    end.

  Lemma loop_tags_fold U s ts cs st :
    keeps U -> Forall U ts ->
    Forall2 (fun t c => exists n, lens (space st) t = Some n /\ cands s t n c) ts cs ->
    loop_tags space body only true s ts st = foldM vis (concat cs) st.
  Proof.
    intros K HU H. revert st HU H. revert cs. induction ts as [|t ts IH]; intros cs st HU H.
    - inversion H; subst. reflexivity.
    - destruct cs as [|c cs]; [inversion H|]. inversion H as [|? ? ? ? [n [Hn Hc]] Hrest]; subst.
      inversion HU as [|? ? Ut HU']; subst.
      cbn [loop_tags concat]. rewrite foldM_app.
      match goal with |- bind ?m _ = bind ?m' _ => replace m with m' end.
      2:{ destruct s as [a b k|zs]; simpl in Hc; destruct Hc as (ps & Hps & ->).
          - unfold lens in Hn. destruct (aget t (space st)) as [l|]; [|discriminate]. simpl in Hn. injection Hn as ->.
            rewrite Hps. cbn [bind]. now rewrite loop_slice_fold.
          - symmetry. eapply loop_list_fold; eauto. }
      destruct (foldM vis c st) as [st'|] eqn:E; [|reflexivity]. cbn [bind]. apply IH; auto.
      clear - Hrest E K HU'. revert HU'. induction Hrest as [|t' c' ts cs [n [Hn Hc]] Hr IHr]; intros HU'; constructor.
      + exists n. split; auto. inversion HU'; subst. rewrite (fold_keeps U c st st'); auto.
      + apply IHr. now inversion HU'.
  Qed.

  (** With a slice only the tags after the first have to keep their size. *)
  Lemma loop_tags_slice U a b k tr t ts c cs st :
    keeps U -> Forall U ts ->
    (exists n, lens (space st) t = Some n /\ cands (ISlice a b k) t n c) ->
    Forall2 (fun t c => exists n, lens (space st) t = Some n /\ cands (ISlice a b k) t n c) ts cs ->
    loop_tags space body only tr (ISlice a b k) (t :: ts) st = foldM vis (concat (c :: cs)) st.
  Proof.
    intros K HU [n [Hn Hc]] H.
    assert (Etr : forall tr' l st, loop_tags space body only tr' (ISlice a b k) l st
                           = loop_tags space body only true (ISlice a b k) l st).
    { intros tr' l. induction l as [|x l IHl]; intros st0; [reflexivity|]. cbn [loop_tags].
      match goal with |- bind ?m _ = _ => destruct m end; [apply IHl|reflexivity]. }
    rewrite Etr. cbn [loop_tags concat]. rewrite foldM_app.
    destruct Hc as (ps & Hps & ->). unfold lens in Hn. destruct (aget t (space st)) as [l|]; [|discriminate].
    simpl in Hn. injection Hn as ->. rewrite Hps. cbn [bind]. rewrite loop_slice_fold.
    destruct (foldM vis (enum_from 0 t ps) st) as [st'|] eqn:E; [|reflexivity]. cbn [bind].
    apply (loop_tags_fold U); auto.
    clear - H E K HU. revert HU. induction H as [|t' c' ts cs [n [Hn Hc]] Hr IHr]; intros HU'; constructor.
    + exists n. split; auto. inversion HU'; subst. rewrite (fold_keeps U (enum_from 0 t ps) st st'); auto.
    + apply IHr. now inversion HU'.
  Qed.

  (** Any reflexive transitive relation respected by the body relates the
      states before and after the loop. *)
  Lemma loop_tags_rel (R : St -> St -> Prop) tr s ts st st' :
    (forall x, R x x) -> (forall x y z, R x y -> R y z -> R x z) ->
    (forall i r x y, body i r x = Ok y -> R x y) ->
    loop_tags space body only tr s ts st = Ok st' -> R st st'.
  Proof.
    intros Rr Rt Rb.
    assert (Hv : forall i r x y, visit space body only i r x = Ok y -> R x y).
    { intros i r x y. unfold visit. destruct (lookup (space x) r); [|now intros [= <-]].
      destruct (_ || _); [apply Rb|now intros [= <-]]. }
    assert (Hs : forall t ps i x y, loop_slice space body only t ps i x = Ok y -> R x y).
    { intros t ps. induction ps as [|p ps IH]; intros i x y; cbn [loop_slice]; [now intros [= <-]|].
      destruct (visit space body only i (t, p) x) eqn:E; [|discriminate]. cbn [bind]. eauto. }
    assert (Hl : forall t zs x y, loop_list space body only t zs x = Ok y -> R x y).
    { intros t zs. induction zs as [|z zs IH]; intros x y; cbn [loop_list]; [now intros [= <-]|].
      destruct (aget t (space x)); [|discriminate]. destruct (norm_index (length l) z); [|discriminate].
      destruct (visit space body only 0 (t, a) x) eqn:E; [|discriminate]. cbn [bind]. eauto. }
    revert st. induction ts as [|t ts IH]; intros st; cbn [loop_tags]; [now intros [= <-]|].
    match goal with |- bind ?m _ = _ -> _ => destruct m as [st1|] eqn:E end; [|discriminate]. cbn [bind].
    intros H. apply (Rt _ st1); [|now apply IH]. destruct s as [a b k|zs].
    - destruct (aget t (space st)); [|discriminate]. destruct (slice_list (length l) a b k); [|discriminate].
      cbn [bind] in E. eauto.
    - destruct tr; [eauto|]. destruct (aget t (space st)); discriminate.
  Qed.

  Lemma iterate_rel (R : St -> St -> Prop) tag enum s st st' :
    (forall x, R x x) -> (forall x y z, R x y -> R y z -> R x z) ->
    (forall i r x y, body i r x = Ok y -> R x y) ->
    iterate space body only tag enum s st = Ok st' -> R st st'.
  Proof.
    intros Rr Rt Rb. unfold iterate. destruct (enum && sel_truthy s); [discriminate|].
    destruct (parse_sel s); [|discriminate]. cbn [bind]. now apply loop_tags_rel.
  Qed.

  (** A tag that is not there, or an index out of range, never gives a
      result. *)
  Definition bad (s : isel) (ds : dspace X) (t : string) : Prop :=
    aget t ds = None \/
    match s with
    | IList zs => exists l z, aget t ds = Some l /\ In z zs /\ norm_index (length l) z = Err IndexError
    | ISlice _ _ _ => False
    end.
End Static.

Lemma enum_from_snd i t ps : List.map snd (enum_from i t ps) = List.map (pair t) ps.
Proof. unfold enum_from. revert i. induction ps as [|p ps IH]; intros i; [reflexivity|].
  cbn [length seq List.map combine snd]. f_equal. apply IH. Qed.

Lemma enum_from_same s t n : Forall (fun v : nat * ref => fst v = snd (snd v)) (enum_from s t (seq s n)).
Proof. unfold enum_from. revert s. induction n as [|n IH]; intros s; cbn [seq length List.map combine]; constructor; auto. Qed.

Lemma plain_snd t ps : List.map snd (plain t ps) = List.map (pair t) ps.
Proof. unfold plain. rewrite map_map. reflexivity. Qed.

(** ** From options to candidates *)

Lemma tags_of_names {X} (ds : dspace X) tag ts : names ds tag ts -> tags_of ds tag = ts.
Proof.
  intros [|ts' Hne Hj Hc]; [reflexivity|]. unfold tags_of.
  destruct (String.eqb_spec (join "," ts') ""); [congruence|]. now apply split_join.
Qed.

Lemma join_show_nonempty zs : zs <> [] -> join "," (List.map show_Z zs) <> ""%string.
Proof.
  destruct zs as [|z [|z' zs]]; [congruence| |]; intros _; simpl.
  - apply show_Z_nonempty.
  - intros E. apply (show_Z_nonempty z). destruct (show_Z z); [reflexivity|discriminate].
Qed.

Lemma picks_parse index n ps : picks n index ps ->
  exists is, parse_sel (sel_of_index index) = Ok is /\
    (sel_truthy (sel_of_index index) = true \/ exists a b k, is = ISlice a b k) /\
    forall m ps', picks m index ps' -> forall t, exists c, cands is t m c /\ List.map snd c = List.map (pair t) ps' /\
      (index = None -> Forall (fun v => fst v = snd (snd v)) c).
Proof.
  intros H.
  assert (G : forall is, parse_sel (sel_of_index index) = Ok is ->
    forall m ps', picks m index ps' -> forall t, exists c, cands is t m c /\ List.map snd c = List.map (pair t) ps' /\
      (index = None -> Forall (fun v => fst v = snd (snd v)) c)).
  { clear H. intros is Hp m ps' Hm t. destruct Hm as [|zs ps' Hne F|a b ps' Hs|a b c ps' Hc Hs]; cbn [sel_of_index] in Hp.
    - injection Hp as <-. simpl. rewrite slice_all. exists (enum_from 0 t (seq 0 m)). split; [eauto|]. split; [apply enum_from_snd|].
      intros _. apply enum_from_same.
    - rewrite parse_list in Hp by auto. injection Hp as <-. simpl. exists (plain t ps'). split; [|split; [apply plain_snd|discriminate]].
      exists ps'. split; auto. clear Hne. induction F as [|z p zs ps' [H1 H2] F IH]; constructor; auto. now apply norm_index_is.
    - rewrite parse_slice in Hp. injection Hp as <-. simpl. rewrite (slice_list_is m a b None ps'); [|discriminate|exact Hs].
      exists (enum_from 0 t ps'). split; [eauto|split; [apply enum_from_snd|discriminate]].
    - rewrite parse_step in Hp. injection Hp as <-. simpl. rewrite (slice_list_is m a b (Some c) ps'); [|congruence|exact Hs].
      exists (enum_from 0 t ps'). split; [eauto|split; [apply enum_from_snd|discriminate]]. }
  assert (E : exists is, parse_sel (sel_of_index index) = Ok is /\
    (sel_truthy (sel_of_index index) = true \/ exists a b k, is = ISlice a b k)).
  { destruct H as [|zs ps Hne F|a b ps Hs|a b c ps Hc Hs]; cbn [sel_of_index].
    - eexists; split; [reflexivity|]. right. eauto.
    - eexists; split; [now apply parse_list|]. left. cbn. destruct (String.eqb_spec (join "," (List.map show_Z zs)) ""); auto.
      exfalso. revert e. now apply join_show_nonempty.
    - eexists; split; [apply parse_slice|]. right; eauto.
    - eexists; split; [apply parse_step|]. right; eauto. }
  destruct E as (is & E1 & E2). exists is. eauto.
Qed.

(** The loop over a tag and index option is a fold over the selected
    datasets. *)
Lemma iterate_selected {X St} (space : St -> dspace X) body only tag index ts pos st :
  names (space st) tag ts -> (exists n ps, picks n index ps) -> picks_under (space st) index ts pos ->
  keeps space body (fun t => In t ts) ->
  exists cs, List.map snd cs = selected ts pos /\
    (index = None -> Forall (fun v => fst v = snd (snd v)) cs) /\
    iterate space body only tag false (sel_of_index index) st =
    foldM (vis space body only) cs st.
Proof.
  intros Hn (n0 & ps0 & Hp0) Hp K. unfold iterate. cbn [andb]. rewrite (tags_of_names _ _ _ Hn).
  destruct (picks_parse _ _ _ Hp0) as (is & E & Htr & Hc). rewrite E. cbn [bind].
  destruct ts as [|t0 ts].
  - exists []. split; [reflexivity|]. split; [constructor|reflexivity].
  - 
    assert (F : exists cs, Forall2 (fun t c => exists n, lens (space st) t = Some n /\ cands is t n c) (t0 :: ts) cs /\
                     List.map snd (concat cs) = selected (t0 :: ts) pos /\
                     (index = None -> Forall (fun v => fst v = snd (snd v)) (concat cs))).
    { assert (Hall : forall t, In t (t0 :: ts) -> exists c, (exists n, lens (space st) t = Some n /\ cands is t n c) /\
                List.map snd c = List.map (pair t) (pos t) /\
                (index = None -> Forall (fun v => fst v = snd (snd v)) c)).
      { intros t Ht. destruct (Hp t Ht) as (l & Hl & Hpl). destruct (Hc _ _ Hpl t) as (c & H1 & H2).
        exists c. split; [|exact H2]. exists (length l). split; auto. unfold lens. now rewrite Hl. }
      clear - Hall. induction (t0 :: ts) as [|t us IH]; [exists []; split; [constructor|split; [reflexivity|constructor]]|].
      destruct IH as (cs & H1 & H2 & H3); [intros; apply Hall; now right|].
      destruct (Hall t) as (c & Hc & Es & En); [now left|]. exists (c :: cs). split; [constructor; auto|].
      cbn [concat selected flat_map]. split; [rewrite map_app, Es, H2; reflexivity|].
      intros Hi. apply Forall_app. auto. }
    destruct F as (cs & F & Es & En). exists (concat cs). split; [exact Es|]. split; [exact En|].
    assert (HU : Forall (fun t => In t (t0 :: ts)) (t0 :: ts)) by (apply Forall_forall; auto).
    destruct Htr as [-> | (a & b & k & ->)].
    + eapply loop_tags_fold; eauto.
    + destruct cs as [|c cs]; [inversion F|]. inversion F; subst.
      apply (loop_tags_slice space body only (fun t => In t (t0 :: ts))); auto.
      apply Forall_forall. intros; now right.
Qed.
