(** * Proofs about index parsing and selection. *)
From Coq Require Import String Ascii List ZArith QArith Bool Lia Sorted.
From Verif Require Import Prelude PreludeFacts NdArray GData_Model Select_Model Select_Spec.
Import ListNotations.
Open Scope list_scope.

(** ** searchsorted *)
Lemma searchsorted_le a v : (searchsorted a v <= length a)%nat.
Proof. induction a; simpl; auto. destruct (Qle_bool v a); lia. Qed.

Lemma searchsorted_below a v j p :
  (j < searchsorted a v)%nat -> nth_error a j = Some p -> p < v.
Proof.
  revert j; induction a as [|x a IH]; simpl; intros j H; [lia|].
  destruct (Qle_bool v x) eqn:E; [lia|].
  destruct j; simpl.
  - intros [= <-]. apply Qnot_le_lt. intros H'. apply Qle_bool_iff in H'. congruence.
  - apply IH. lia.
Qed.

Lemma searchsorted_at a v p :
  nth_error a (searchsorted a v) = Some p -> v <= p.
Proof.
  induction a as [|x a IH]; simpl; [discriminate|].
  destruct (Qle_bool v x) eqn:E; simpl; auto.
  intros [= <-]. now apply Qle_bool_iff.
Qed.

Lemma increasing_lt g i j a b :
  increasing g -> nth_error g i = Some a -> nth_error g j = Some b -> (i < j)%nat -> a < b.
Proof.
  intros H; revert i j. induction H as [|x g Hs IH Hf]; intros [|i] [|j]; simpl;
    try discriminate; try lia.
  - intros [= <-] Hj _. rewrite Forall_forall in Hf. apply Hf. eapply nth_error_In; eauto.
  - intros Hi Hj L. apply (IH i j); auto. lia.
Qed.

Lemma increasing_le_inv g i j a b :
  increasing g -> nth_error g i = Some a -> nth_error g j = Some b -> a <= b -> (i <= j)%nat.
Proof.
  intros H Hi Hj Hle. destruct (Nat.le_gt_cases i j); auto. exfalso.
  apply (Qlt_not_le b a); auto. eapply increasing_lt; eauto.
Qed.

Lemma increasing_lt_inv g i j a b :
  increasing g -> nth_error g i = Some a -> nth_error g j = Some b -> a < b -> (i < j)%nat.
Proof.
  intros H Hi Hj Hlt. destruct (Nat.lt_ge_cases i j); auto. exfalso.
  destruct (Nat.eq_dec i j) as [->|N].
  - rewrite Hi in Hj. injection Hj as <-. now apply (Qlt_irrefl a).
  - apply (Qlt_irrefl a). eapply Qlt_trans; eauto. eapply increasing_lt with (i := j); eauto. lia.
Qed.

(** The position found is characterised by its neighbours. *)
Lemma searchsorted_unique g x k :
  increasing g -> (k <= length g)%nat ->
  (forall j p, (j < k)%nat -> nth_error g j = Some p -> p < x) ->
  (forall p, nth_error g k = Some p -> x <= p) ->
  searchsorted g x = k.
Proof.
  intros Hs Hk Hb Ha.
  pose proof (searchsorted_le g x) as Hle.
  destruct (Nat.lt_trichotomy (searchsorted g x) k) as [L|[L|L]]; auto; exfalso.
  - destruct (nth_error g (searchsorted g x)) as [p|] eqn:E.
    + pose proof (searchsorted_at _ _ _ E). specialize (Hb _ _ L E).
      apply (Qlt_not_le p x); auto.
    + apply nth_error_None in E. lia.
  - destruct (nth_error g k) as [p|] eqn:E.
    + pose proof (searchsorted_below _ _ _ _ L E). specialize (Ha _ eq_refl).
      apply (Qlt_not_le p x); auto.
    + apply nth_error_None in E. lia.
Qed.

Lemma find_nearest_contains n g x i :
  edges_of n g -> (0 < n)%nat -> increasing g -> cell_contains g x i ->
  find_nearest_index (Some (line g)) x = Ok (Z.of_nat i).
Proof.
  unfold edges_of. intros Hl Hn Hs Hc. simpl.
  destruct Hc as [lo hi Hlo Hhi H1 H2|lo Hlo H1 ->|hi Hhi Hlen H1].
  - assert (E : searchsorted g x = S i).
    { apply searchsorted_unique; auto.
      - assert (S i < length g)%nat by (apply nth_error_Some; congruence). lia.
      - intros j p Hj Hp. destruct (Nat.eq_dec j i) as [->|N].
        + rewrite Hlo in Hp. injection Hp as <-. auto.
        + eapply Qlt_trans; [|exact H1]. eapply increasing_lt with (i := j) (j := i); eauto. lia.
      - intros p Hp. rewrite Hhi in Hp. injection Hp as <-. auto. }
    rewrite E. assert (S i < length g)%nat by (apply nth_error_Some; congruence).
    destruct (Nat.eqb_spec (S i) (length g)); [lia|].
    change (0 <? S i)%nat with true. cbv iota. f_equal. lia.
  - assert (E : searchsorted g x = 0%nat).
    { apply searchsorted_unique; [auto|lia|intros; lia|]. intros p Hp. rewrite Hlo in Hp.
      injection Hp as <-. auto. }
    rewrite E. destruct (Nat.eqb_spec 0 (length g)); [lia|]. reflexivity.
  - assert (E : searchsorted g x = length g).
    { apply searchsorted_unique; auto.
      - intros j p Hj Hp. destruct (Nat.eq_dec j (S i)) as [->|N].
        + rewrite Hhi in Hp. injection Hp as <-. auto.
        + eapply Qlt_trans; [|exact H1]. eapply increasing_lt with (i := j) (j := S i); eauto. lia.
      - intros p Hp. assert (length g < length g)%nat by (apply nth_error_Some; congruence). lia. }
    rewrite E, Nat.eqb_refl. f_equal. lia.
Qed.

Lemma cell_contains_exists n g x :
  edges_of n g -> (0 < n)%nat -> exists i, (i < n)%nat /\ cell_contains g x i.
Proof.
  unfold edges_of. intros Hl Hn.
  pose proof (searchsorted_le g x) as Hle.
  destruct (searchsorted g x) as [|k] eqn:E.
  - destruct (nth_error g 0) as [lo|] eqn:E0; [|apply nth_error_None in E0; lia].
    exists 0%nat. split; auto. eapply cc_below; eauto.
    apply (searchsorted_at g). now rewrite E.
  - destruct (Nat.eq_dec (S k) (length g)) as [EQ|NE].
    + destruct (nth_error g k) as [hi|] eqn:Ek; [|apply nth_error_None in Ek; lia].
      destruct k as [|k]; [lia|].
      exists k. split; [lia|]. eapply cc_above; eauto.
      eapply searchsorted_below; eauto. lia.
    + destruct (nth_error g k) as [lo|] eqn:Ek; [|apply nth_error_None in Ek; lia].
      destruct (nth_error g (S k)) as [hi|] eqn:Ek'; [|apply nth_error_None in Ek'; lia].
      exists k. split; [lia|]. eapply cc_inside; eauto.
      * eapply searchsorted_below; eauto. lia.
      * apply (searchsorted_at g). now rewrite E.
Qed.

Lemma cell_contains_lt n g x i : edges_of n g -> (0 < n)%nat -> cell_contains g x i -> (i < n)%nat.
Proof.
  unfold edges_of. intros Hl Hn [lo hi _ H _ _|lo _ _ ->|hi H _ _]; auto;
    assert (S i < length g)%nat by (apply nth_error_Some; congruence); lia.
Qed.

Lemma first_point_searchsorted g x i :
  increasing g -> first_point_at g x i -> searchsorted g x = i.
Proof.
  intros Hs [(p & Hp & Hle) Hb]. apply searchsorted_unique; auto.
  - assert (i < length g)%nat by (apply nth_error_Some; congruence). lia.
  - intros q Hq. rewrite Hp in Hq. injection Hq as <-. auto.
Qed.

(** ** Parsing *)
Lemma comma_not_digit : ~ digit_char ",".
Proof. unfold digit_char; simpl. intuition discriminate. Qed.
Lemma colon_not_digit : ~ digit_char ":".
Proof. unfold digit_char; simpl. intuition discriminate. Qed.

Section P.
  Variable pfloat : string -> option Q.

  Lemma string_to_index_digits n a nd :
    string_to_index pfloat (show_N n) a nd = Ok (Z.of_N n).
  Proof. unfold string_to_index. now rewrite show_N_digits, py_int_show_N. Qed.

  Lemma string_to_index_Z z a nd :
    (0 <= z)%Z -> string_to_index pfloat (show_Z z) a nd = Ok z.
  Proof. intros H. unfold string_to_index. now rewrite show_Z_nonneg_digits, py_int_show_Z. Qed.

  Lemma show_N_neq_empty n : String.eqb (show_N n) "" = false.
  Proof.
    destruct (String.eqb_spec (show_N n) ""); auto.
    pose proof (show_N_val n) as H. rewrite e in H. discriminate.
  Qed.

  Lemma parse_digits n a nd :
    idx_parser pfloat (VStr (show_N n)) a nd = Ok (IInt (Z.of_N n)).
  Proof.
    unfold idx_parser. rewrite !split_on_none by (apply show_N_has; auto using comma_not_digit, colon_not_digit).
    simpl. rewrite string_to_index_digits. reflexivity.
  Qed.

  Lemma idx_parser_slice s0 s1 a nd :
    has_char "," s0 = false -> has_char "," s1 = false ->
    has_char ":" s0 = false -> has_char ":" s1 = false ->
    idx_parser pfloat (VStr (s0 ++ ":" ++ s1)) a nd = parse_slice pfloat s0 s1 a nd.
  Proof.
    intros H1 H2 H3 H4. unfold idx_parser.
    rewrite (split_on_none ","); simpl length.
    - change (s0 ++ ":" ++ s1)%string with (s0 ++ String ":" s1)%string.
      rewrite split_on_app by auto. rewrite (split_on_none ":" s1) by auto. reflexivity.
    - rewrite !has_char_app. rewrite H1, H2. reflexivity.
  Qed.

  Lemma parse_range m n a nd :
    idx_parser pfloat (VStr (show_N m ++ ":" ++ show_N n)) a nd
    = Ok (ISlice (Z.of_N m) (Z.of_N n)).
  Proof.
    rewrite idx_parser_slice by (apply show_N_has; auto using comma_not_digit, colon_not_digit).
    unfold parse_slice. rewrite !show_N_neq_empty. simpl bind.
    rewrite py_int_show_N. destruct (Z.ltb_spec (Z.of_N n) 0); [lia|]. simpl bind.
    now rewrite !string_to_index_digits.
  Qed.

  Lemma parse_upto n a nd :
    idx_parser pfloat (VStr (":" ++ show_N n)) a nd = Ok (ISlice 0 (Z.of_N n)).
  Proof.
    change (":" ++ show_N n)%string with ("" ++ ":" ++ show_N n)%string.
    rewrite idx_parser_slice by (try apply show_N_has; auto using comma_not_digit, colon_not_digit).
    unfold parse_slice. rewrite !show_N_neq_empty. simpl bind.
    rewrite py_int_show_N. destruct (Z.ltb_spec (Z.of_N n) 0); [lia|]. simpl bind.
    simpl String.eqb. cbv iota. rewrite string_to_index_digits. reflexivity.
  Qed.

  Lemma parse_from m a len nd :
    arr_len a = Ok len -> (0 <= len)%Z ->
    idx_parser pfloat (VStr (show_N m ++ ":")) a nd = Ok (ISlice (Z.of_N m) len).
  Proof.
    intros Ha Hl. change (show_N m ++ ":")%string with (show_N m ++ ":" ++ "")%string.
    rewrite idx_parser_slice by (try apply show_N_has; auto using comma_not_digit, colon_not_digit).
    unfold parse_slice. rewrite !show_N_neq_empty.
    simpl String.eqb. cbv iota. rewrite Ha. simpl bind. rewrite py_int_show_Z.
    destruct (Z.ltb_spec len 0); [lia|]. simpl bind.
    rewrite string_to_index_digits, string_to_index_Z by auto. reflexivity.
  Qed.

  Lemma parse_all a len nd :
    arr_len a = Ok len -> (0 <= len)%Z ->
    idx_parser pfloat (VStr ":") a nd = Ok (ISlice 0 len).
  Proof.
    intros Ha Hl. change ":"%string with ("" ++ ":" ++ "")%string.
    rewrite idx_parser_slice by reflexivity.
    unfold parse_slice. simpl String.eqb. cbv iota. rewrite Ha. simpl bind. rewrite py_int_show_Z.
    destruct (Z.ltb_spec len 0); [lia|]. simpl bind.
    rewrite (string_to_index_Z len) by auto. reflexivity.
  Qed.

  Lemma parse_plain s a nd :
    has_char "," s = false -> has_char ":" s = false ->
    idx_parser pfloat (VStr s) a nd = (let* i := string_to_index pfloat s a nd in Ok (IInt i)).
  Proof. intros H1 H2. unfold idx_parser. now rewrite !split_on_none by auto. Qed.

  Lemma split_join_digits ks :
    ks <> [] ->
    split_on "," (join "," (List.map (fun k => show_N (N.of_nat k)) ks))
    = List.map (fun k => show_N (N.of_nat k)) ks.
  Proof.
    intros H. induction ks as [|k ks IH]; [congruence|].
    destruct ks as [|k' ks].
    - simpl. apply split_on_none, show_N_has, comma_not_digit.
    - change (join "," (List.map (fun k => show_N (N.of_nat k)) (k :: k' :: ks)))
        with (show_N (N.of_nat k) ++ String "," (join "," (List.map (fun k => show_N (N.of_nat k)) (k' :: ks))))%string.
      rewrite split_on_app by (apply show_N_has, comma_not_digit).
      rewrite IH by discriminate. reflexivity.
  Qed.

  Lemma parse_list ks a nd :
    (1 < length ks)%nat ->
    idx_parser pfloat (VStr (join "," (List.map (fun k => show_N (N.of_nat k)) ks))) a nd
    = Ok (ITuple (List.map Z.of_nat ks)).
  Proof.
    intros H. unfold idx_parser. rewrite split_join_digits by (destruct ks; simpl in *; [lia|discriminate]).
    rewrite map_length. destruct (Nat.ltb_spec 1 (length ks)); [|lia].
    assert (E : mapM (fun p => string_to_index pfloat p a nd)
                 (List.map (fun k => show_N (N.of_nat k)) ks) = Ok (List.map Z.of_nat ks)).
    { clear H H0. induction ks as [|k ks IH]; simpl; auto.
      rewrite string_to_index_digits. simpl. rewrite IH. simpl. now rewrite nat_N_Z. }
    rewrite E. reflexivity.
  Qed.

  (** A cut with meaning [a .. b-1] produces slices selecting exactly these
      cells and their coordinates. *)
  Lemma axis_slices_means g n z a b :
    (edges_of n g \/ points_of n g) ->
    cut_means pfloat g n (Some z) a b ->
    exists vs gs, axis_slices pfloat z (line g) (length g) n = Ok (vs, gs) /\
      (a <= b <= n)%nat /\
      slice2 n (fst vs) (snd vs) = seq a (b - a) /\
      slice2 (length g) (fst gs) (snd gs)
        = seq a (if (length g =? n)%nat then b - a else S (b - a))%nat.
  Proof.
    intros Hm Hc. unfold axis_slices.
    set (nodal := (n =? length g)%nat).
    assert (Hnod : (length g =? n)%nat = nodal) by (unfold nodal; apply Nat.eqb_sym).
    rewrite Hnod.
    assert (Hlen : length g = if nodal then n else S n).
    { unfold nodal. destruct (Nat.eqb_spec n (length g)); auto.
      destruct Hm as [H|H]; unfold edges_of, points_of in H; lia. }
    assert (Hal : arr_len (Some (line g)) = Ok (Z.of_nat (length g))) by reflexivity.
    assert (INT : forall i, (i < n)%nat -> idx_parser pfloat z (Some (line g)) nodal = Ok (IInt (Z.of_nat i)) ->
      a = i -> b = S i ->
      exists vs gs,
      (let* idx := idx_parser pfloat z (Some (line g)) nodal in
       match idx with
       | IInt i => Ok (i, (i + 1)%Z, if nodal then (i, (i + 1)%Z) else (i, (i + 2)%Z))
       | ISlice a0 b0 => Ok (a0, b0, if nodal then (a0, b0) else (a0, (b0 + 1)%Z))
       | ITuple _ => Err TypeError
       end) = Ok (vs, gs) /\ (a <= b <= n)%nat /\
      slice2 n (fst vs) (snd vs) = seq a (b - a) /\
      slice2 (length g) (fst gs) (snd gs) = seq a (if nodal then b - a else S (b - a))%nat).
    { intros i Hi E -> ->. rewrite E. simpl bind. do 2 eexists. split; [reflexivity|].
      split; [lia|]. split.
      - simpl fst; simpl snd. rewrite slice2_in by lia. f_equal; lia.
      - destruct nodal; simpl fst; simpl snd; rewrite slice2_in by lia; f_equal; lia. }
    assert (RNG : forall zb, idx_parser pfloat z (Some (line g)) nodal = Ok (ISlice (Z.of_nat a) zb) ->
      (a <= b <= n)%nat -> (zb = Z.of_nat b \/ (b = n /\ zb = Z.of_nat (length g))) ->
      exists vs gs,
      (let* idx := idx_parser pfloat z (Some (line g)) nodal in
       match idx with
       | IInt i => Ok (i, (i + 1)%Z, if nodal then (i, (i + 1)%Z) else (i, (i + 2)%Z))
       | ISlice a0 b0 => Ok (a0, b0, if nodal then (a0, b0) else (a0, (b0 + 1)%Z))
       | ITuple _ => Err TypeError
       end) = Ok (vs, gs) /\ (a <= b <= n)%nat /\
      slice2 n (fst vs) (snd vs) = seq a (b - a) /\
      slice2 (length g) (fst gs) (snd gs) = seq a (if nodal then b - a else S (b - a))%nat).
    { intros zb E Hab Hzb. rewrite E. simpl bind. do 2 eexists. split; [reflexivity|].
      split; [lia|]. unfold slice2, adjust_pos.
      destruct nodal; simpl fst; simpl snd;
        repeat match goal with |- context [Z.ltb ?x 0] => destruct (Z.ltb_spec x 0); [lia|] end;
        split; f_equal; lia. }
    inversion Hc; subst; clear Hc.
    - (* int *) apply (INT a); auto.
    - (* digits *) apply (INT a); auto. rewrite parse_digits. f_equal; f_equal; lia.
    - (* a:b *) eapply RNG; [etransitivity; [apply parse_range|rewrite !nat_N_Z; reflexivity]|lia|auto].
    - (* a: *) eapply RNG; [etransitivity; [apply (parse_from _ _ _ nodal Hal); lia|rewrite nat_N_Z; reflexivity]|lia|auto].
    - (* :b *) eapply RNG; [etransitivity; [apply parse_upto|rewrite nat_N_Z; reflexivity]|lia|auto].
    - (* : *) eapply RNG; [apply (parse_all _ _ nodal Hal); lia|lia|auto].
    - (* coordinate *)
      assert (nodal = false) as Hf.
      { unfold nodal. apply Nat.eqb_neq. unfold edges_of in *. lia. }
      apply (INT a); auto; [eapply cell_contains_lt; eauto|].
      unfold idx_parser, find_index. rewrite Hf.
      rewrite (find_nearest_contains n g x a) by auto. reflexivity.
    - assert (nodal = false) as Hf.
      { unfold nodal. apply Nat.eqb_neq. unfold edges_of in *. lia. }
      apply (INT a); auto; [eapply cell_contains_lt; eauto|].
      rewrite parse_plain by auto. unfold string_to_index.
      match goal with H : is_digits _ = false |- _ => rewrite H end.
      match goal with H : pfloat _ = Some _ |- _ => rewrite H end. unfold find_index.
      rewrite Hf. rewrite (find_nearest_contains n g x a) by auto. reflexivity.
    - assert (nodal = true) as Ht.
      { unfold nodal. apply Nat.eqb_eq. unfold points_of in *. lia. }
      assert (a < n)%nat.
      { match goal with H : first_point_at _ _ _ |- _ => destruct H as [(p & Hp & _) _] end. unfold points_of in *.
        assert (a < length g)%nat by (apply nth_error_Some; congruence). lia. }
      apply (INT a); auto.
      unfold idx_parser, find_index. rewrite Ht. simpl.
      rewrite (first_point_searchsorted g x a) by auto. reflexivity.
    - assert (nodal = true) as Ht.
      { unfold nodal. apply Nat.eqb_eq. unfold points_of in *. lia. }
      assert (a < n)%nat.
      { match goal with H : first_point_at _ _ _ |- _ => destruct H as [(p & Hp & _) _] end. unfold points_of in *.
        assert (a < length g)%nat by (apply nth_error_Some; congruence). lia. }
      apply (INT a); auto.
      rewrite parse_plain by auto. unfold string_to_index.
      match goal with H : is_digits _ = false |- _ => rewrite H end.
      match goal with H : pfloat _ = Some _ |- _ => rewrite H end. unfold find_index.
      rewrite Ht. simpl. rewrite (first_point_searchsorted g x a) by auto. reflexivity.
  Qed.
End P.

(** ** mapM with a per-element characterisation *)
Lemma mapM_exists {A B} (f : A -> res B) (P : A -> B -> Prop) l :
  (forall a, In a l -> exists b, f a = Ok b /\ P a b) ->
  exists bs, mapM f l = Ok bs /\ Forall2 P l bs.
Proof.
  induction l as [|a l IH]; simpl; intros H.
  - exists []. split; auto.
  - destruct (H a) as (b & -> & Hb); [now left|].
    destruct IH as (bs & -> & Hbs); [intros; apply H; now right|].
    exists (b :: bs). simpl. split; auto.
Qed.

Lemma Forall2_seq_nth {B} (P : nat -> B -> Prop) s n bs k b :
  Forall2 P (seq s n) bs -> nth_error bs k = Some b -> P (s + k)%nat b.
Proof.
  intros H Hk. eapply (Forall2_nth_error _ _ _ k); eauto.
  rewrite nth_error_seq.
  assert (k < length bs)%nat by (apply nth_error_Some; congruence).
  apply Forall2_length in H. rewrite seq_length in H.
  destruct (Nat.ltb_spec k n); auto. lia.
Qed.

Lemma flat_map_single {A B} (f : A -> list B) (h : A -> B) s :
  (forall x, In x s -> f x = [h x]) -> flat_map f s = List.map h s.
Proof.
  induction s as [|x s IH]; simpl; intros H; auto.
  rewrite H by (now left). simpl. f_equal. apply IH. intros; apply H; now right.
Qed.

Lemma take_line g a m :
  (a + m <= length g)%nat -> take [seq a m] (line g) = line (stretch g a m).
Proof.
  intros H. unfold take, line, stretch. simpl. rewrite seq_length.
  rewrite firstn_length, skipn_length, Nat.min_l by lia. f_equal.
  apply nth_error_ext. intros k.
  rewrite firstn_skipn_nth_error.
  assert (E : forall s n, (s + n <= length g)%nat ->
     flat_map (fun i => firstn 1 (skipn (i * 1) g)) (seq s n) = firstn n (skipn s g)).
  { clear. intros s n; revert s; induction n; intros s Hs; simpl; auto.
    rewrite Nat.mul_1_r. rewrite IHn by lia.
    assert (Hx : exists x, nth_error g s = Some x).
    { destruct (nth_error g s) eqn:E; eauto. apply nth_error_None in E. lia. }
    destruct Hx as [x Hx].
    assert (Hsk : skipn s g = x :: skipn (S s) g).
    { clear - Hx. revert s Hx. induction g; intros [|s]; simpl; try discriminate.
      - now intros [= ->].
      - intros H. rewrite (IHg _ H). destruct g; reflexivity. }
    rewrite Hsk. reflexivity. }
  rewrite E by auto. rewrite firstn_skipn_nth_error. reflexivity.
Qed.

Section S.
  Variable pfloat : string -> option Q.

  Lemma select_values_means {B} (vs : list (Z * Z)) comp (v : nda B) cells nc ks :
    shape v = cells ++ [nc] -> length vs = length cells ->
    comp_means nc comp ks ->
    select_values pfloat vs comp (length cells) v
    = Ok (take (map2 (fun n s => slice2 n (fst s) (snd s)) cells vs ++ [ks]) v).
  Proof.
    intros Hs Hl Hc. unfold select_values. rewrite Hs.
    rewrite nth_error_app2, Nat.sub_diag by lia. simpl nth_error.
    assert (E1 : skipn (S (length cells)) (cells ++ [nc]) = []).
    { rewrite skipn_all2; auto. rewrite app_length. simpl. lia. }
    rewrite E1. simpl List.map.
    assert (E2 : map2 (fun n s => slice2 n (fst s) (snd s)) (cells ++ [nc]) vs
               = map2 (fun n s => slice2 n (fst s) (snd s)) cells vs).
    { clear - Hl. revert vs Hl. induction cells; destruct vs; simpl; intros; try discriminate; auto.
      f_equal. apply IHcells. lia. }
    rewrite E2. set (axes := map2 _ cells vs).
    assert (Hax : length axes = length cells) by (unfold axes; rewrite map2_length; lia).
    assert (F : forall (kk : list nat) (drop : bool), (drop = true -> length kk = 1%nat) ->
      (let out := take (axes ++ kk :: []) v in
       let sh := if drop then List.map (@length nat) axes ++ [] else shape out in
       let sh' := if (length sh =? length cells)%nat then sh ++ [1%nat] else sh in
       Ok (mk_nda sh' (flat out))) = Ok (take (axes ++ [kk]) v)).
    { intros kk drop Hd. cbv zeta. destruct drop.
      - rewrite app_nil_r, map_length, Hax, Nat.eqb_refl. unfold take at 2. f_equal.
        unfold take. simpl. rewrite map_app. simpl. now rewrite Hd.
      - destruct (Nat.eqb_spec (length (shape (take (axes ++ [kk]) v))) (length cells)) as [H|H].
        + exfalso. simpl in H. rewrite map_length, app_length in H. simpl in H. lia.
        + now destruct (take (axes ++ [kk]) v). }
    destruct Hc.
    - rewrite slice2_in by lia. replace (Z.to_nat (Z.of_nat nc - 0)) with nc by lia.
      apply (F (seq 0 nc) false). discriminate.
    - simpl bind. assert (norm_index nc (Z.of_nat k) = Ok k) as -> by (apply norm_index_ok; lia).
      simpl bind. apply (F [k] true); auto.
    - simpl bind. assert (norm_index nc (- Z.of_nat k) = Ok (nc - k)%nat) as ->
        by (apply norm_index_ok; lia).
      simpl bind. apply (F [nc - k]%nat true); auto.
    - rewrite parse_digits. simpl bind.
      assert (norm_index nc (Z.of_N (N.of_nat k)) = Ok k) as -> by (apply norm_index_ok; lia).
      simpl bind. apply (F [k] true); auto.
    - rewrite parse_range. simpl bind. rewrite !nat_N_Z, slice2_in by lia.
      replace (Z.to_nat (Z.of_nat b - Z.of_nat a)) with (b - a)%nat by lia. rewrite Nat2Z.id.
      apply (F (seq a (b - a)) false). discriminate.
    - rewrite parse_upto. simpl bind. rewrite !nat_N_Z, slice2_in by lia.
      replace (Z.to_nat (Z.of_nat b - 0)) with b by lia.
      apply (F (seq 0 b) false). discriminate.
    - rewrite parse_list by auto. simpl bind.
      assert (E : mapM (norm_index nc) (List.map Z.of_nat ks) = Ok ks).
      { clear - H0. induction ks as [|k ks IH]; simpl; auto.
        assert (norm_index nc (Z.of_nat k) = Ok k) as ->.
        { apply norm_index_ok. split; [|lia]. apply H0. now left. }
        simpl. rewrite IH; auto. intros; apply H0; now right. }
      rewrite E. simpl bind. apply (F ks false). discriminate.
  Qed.

  Lemma comp_means_lt nc comp ks : comp_means nc comp ks -> forall k, In k ks -> (k < nc)%nat.
  Proof.
    intros [] x Hx; try (apply in_seq in Hx; lia);
      try (destruct Hx as [<-|[]]; lia). auto.
  Qed.

  Lemma cut_means_le g n z a b :
    (edges_of n g \/ points_of n g) -> cut_means pfloat g n z a b -> (a <= b <= n)%nat.
  Proof.
    intros Hm Hc. destruct z as [z|].
    - destruct (axis_slices_means pfloat g n z a b Hm Hc) as (_ & _ & _ & H & _). auto.
    - inversion Hc. lia.
  Qed.

  Definition sel_of (cuts : list (nat * nat)) : list (list nat) :=
    List.map (fun ab => seq (fst ab) (snd ab - fst ab)) cuts.

  Lemma coords_kept_whole n g :
    edges_of n g \/ points_of n g -> coords_kept n g 0 n = g.
  Proof.
    unfold coords_kept, edges_of, points_of, stretch. simpl skipn. rewrite Nat.sub_0_r.
    intros [H|H]; destruct (Nat.eqb_spec (length g) n); try lia; apply firstn_all2; lia.
  Qed.

  Lemma nth_error_combine {X Y} (l : list X) (m : list Y) k x y :
    nth_error l k = Some x -> nth_error m k = Some y -> nth_error (combine l m) k = Some (x, y).
  Proof.
    revert m k; induction l; destruct m, k; simpl; try discriminate; auto.
    now intros [= ->] [= ->].
  Qed.

  Lemma nth_error_exists {X} (l : list X) k : (k < length l)%nat -> exists x, nth_error l k = Some x.
  Proof. intros H. destruct (nth_error l k) eqn:E; eauto. apply nth_error_None in E. lia. Qed.

  Lemma rect_cells_gs {A} (d : gdata A) gs v cells nc :
    rect_data d gs v cells nc -> length gs = length cells.
  Proof. intros H. symmetry. eapply Forall2_length, rd_match; eauto. Qed.

  Lemma select_block_lemma {A} (d : gdata A) gs v cells nc zs comp cuts ks :
    rect_data d gs v cells nc ->
    cuts_mean pfloat zs gs cells cuts ->
    comp_means nc comp ks ->
    select pfloat d zs comp false
    = Ok (List.map line (grid_of cells gs cuts), take (sel_of cuts ++ [ks]) v, d).
  Proof.
    intros R [Hlc Hcuts] Hk. pose proof (rect_cells_gs _ _ _ _ _ R) as Hgs.
    destruct R as [Rg Rv Rc Rn [bd Rb] Rw Rs Rd Rm].
    unfold select. rewrite Rg, Rv.
    assert (Hnd : get_num_dims d = length cells) by (unfold get_num_dims; now rewrite Rc).
    rewrite Hnd, Rb. simpl bind.
    rewrite Rs, app_length. simpl length.
    destruct (Nat.leb_spec (length cells + 1) (length cells)); [lia|].
    destruct gs as [|g0 gs'] eqn:Egs. { destruct cells; [congruence|discriminate Hgs]. }
    rewrite <- Egs in *. 
    replace (List.map line gs) with (line g0 :: List.map line gs') at 1 by (rewrite Egs; reflexivity).
    cbv iota. change (length (shape (line g0)) =? 1)%nat with true. cbv iota.
    set (F := fun k : nat => match nth_error zs k with _ => _ end).
    set (P := fun (k : nat) (s : (Z * Z) * option (Z * Z)) =>
       forall n g a b, nth_error cells k = Some n -> nth_error gs k = Some g ->
         nth_error cuts k = Some (a, b) ->
         slice2 n (fst (fst s)) (snd (fst s)) = seq a (b - a) /\
         match snd s with
         | Some q => slice2 (length g) (fst q) (snd q)
                     = seq a (if (length g =? n)%nat then b - a else S (b - a))%nat
         | None => a = 0%nat /\ b = n
         end).
    assert (HF : exists sl, mapM F (seq 0 (length cells)) = Ok sl /\ Forall2 P (seq 0 (length cells)) sl).
    { apply mapM_exists. intros k Hin. apply in_seq in Hin.
      destruct (nth_error_exists cells k) as [n Hn]; [lia|].
      destruct (nth_error_exists gs k) as [g Hg]; [lia|].
      destruct (nth_error_exists cuts k) as [[a b] Hab]; [lia|].
      specialize (Hcuts k g n a b Hg Hn Hab).
      assert (Hm : edges_of n g \/ points_of n g) by exact (Forall2_nth_error _ _ _ k _ _ Rm Hn Hg).
      assert (Hsv : nth_res (cells ++ [nc]) k = Ok n).
      { unfold nth_res. rewrite nth_error_app1 by lia. now rewrite Hn. }
      assert (Hgr : nth_res (List.map line gs) k = Ok (line g)).
      { unfold nth_res. rewrite nth_error_map, Hg. reflexivity. }
      unfold F. destruct (nth_error zs k) as [[z|]|] eqn:Ez.
      - rewrite (nth_error_nth _ _ None Ez) in Hcuts.
        rewrite Hgr, Hsv. simpl bind.
        destruct (axis_slices_means pfloat g n z a b Hm Hcuts) as (vs & gsl & E & Hle & E1 & E2).
        change (nth_res (shape (line g)) 0) with (Ok (length g)). simpl bind. rewrite E. simpl bind.
        eexists. split; [reflexivity|]. intros n' g' a' b' Hn' Hg' Hab'.
        rewrite Hn in Hn'. injection Hn' as <-. rewrite Hg in Hg'. injection Hg' as <-.
        rewrite Hab in Hab'. injection Hab' as <- <-. simpl. auto.
      - rewrite (nth_error_nth _ _ None Ez) in Hcuts. inversion Hcuts; subst.
        rewrite Hsv. simpl bind. eexists. split; [reflexivity|].
        intros n' g' a' b' Hn' Hg' Hab'.
        rewrite Hn in Hn'. injection Hn' as <-. rewrite Hab in Hab'. injection Hab' as <- <-.
        simpl. split; auto. rewrite slice2_in by lia. f_equal. lia.
      - assert (nth k zs None = None) as EN by (apply nth_overflow, nth_error_None; auto).
        rewrite EN in Hcuts. inversion Hcuts; subst.
        rewrite Hsv. simpl bind. eexists. split; [reflexivity|].
        intros n' g' a' b' Hn' Hg' Hab'.
        rewrite Hn in Hn'. injection Hn' as <-. rewrite Hab in Hab'. injection Hab' as <- <-.
        simpl. split; auto. rewrite slice2_in by lia. f_equal. lia. }
    destruct HF as (sl & -> & HP). simpl bind.
    assert (Hsl : length sl = length cells).
    { apply Forall2_length in HP. rewrite seq_length in HP. auto. }
    rewrite (select_values_means (List.map fst sl) comp v cells nc ks) by (rewrite ?map_length; auto).
    simpl bind.
    assert (Eax : map2 (fun n s => slice2 n (fst s) (snd s)) cells (List.map fst sl) = sel_of cuts).
    { apply nth_error_ext. intros k. rewrite nth_error_map2. unfold sel_of. rewrite !nth_error_map.
      destruct (nth_error cells k) as [n|] eqn:Hn.
      - assert (k < length cells)%nat by (apply nth_error_Some; congruence).
        destruct (nth_error_exists gs k) as [g Hg]; [lia|].
        destruct (nth_error_exists cuts k) as [[a b] Hab]; [lia|].
        destruct (nth_error_exists sl k) as [s Hs]; [lia|].
        rewrite Hs, Hab. simpl.
        destruct (Forall2_seq_nth _ _ _ _ _ _ HP Hs n g a b Hn Hg Hab) as [-> _]. reflexivity.
      - apply nth_error_None in Hn.
        assert (nth_error cuts k = None) as -> by (apply nth_error_None; lia). reflexivity. }
    rewrite Eax.
    set (G := fun k : nat => bind _ _).
    assert (EG : mapM G (seq 0 (length (List.map line gs))) = Ok (List.map line (grid_of cells gs cuts))).
    { apply mapM_ok. apply Forall2_nth_error_intro.
      - rewrite seq_length, !map_length. unfold grid_of. rewrite map2_length, combine_length. lia.
      - intros k j q Hj Hq. rewrite nth_error_seq in Hj.
        destruct (Nat.ltb_spec k (length (List.map line gs))) as [Hk'|]; [|discriminate].
        injection Hj as <-. simpl plus. rewrite map_length in Hk'.
        destruct (nth_error_exists cells k) as [n Hn]; [lia|].
        destruct (nth_error_exists gs k) as [g Hg]; [lia|].
        destruct (nth_error_exists cuts k) as [[a b] Hab]; [lia|].
        destruct (nth_error_exists sl k) as [s Hs]; [lia|].
        assert (Hm : edges_of n g \/ points_of n g) by exact (Forall2_nth_error _ _ _ k _ _ Rm Hn Hg).
        pose proof (cut_means_le _ _ _ _ _ Hm (Hcuts k g n a b Hg Hn Hab)) as Hle.
        destruct (Forall2_seq_nth _ _ _ _ _ _ HP Hs n g a b Hn Hg Hab) as [_ H2].
        assert (q = line (coords_kept n g a b)) as ->.
        { rewrite nth_error_map in Hq. unfold grid_of in Hq. rewrite nth_error_map2 in Hq.
          rewrite (nth_error_combine _ _ _ _ _ Hn Hg), Hab in Hq. simpl in Hq. congruence. }
        unfold G. unfold nth_res. rewrite nth_error_map, Hg. simpl bind.
        rewrite Hs. destruct s as [s1 [s2|]]; simpl in H2.
        + unfold slice_array. simpl shape. simpl length. change (1 <? 1)%nat with false. cbv iota.
          simpl map2. simpl skipn. simpl List.map. rewrite H2. simpl app.
          rewrite take_line.
          * unfold coords_kept. destruct (length g =? n)%nat; reflexivity.
          * unfold edges_of, points_of in Hm. destruct (Nat.eqb_spec (length g) n); lia.
        + destruct H2 as [-> ->]. f_equal. f_equal. symmetry. now apply coords_kept_whole. }
    rewrite EG. reflexivity.
  Qed.
End S.

(** ** Elements of the selected block *)
Lemma sel_of_bounds cuts cells ks nc :
  Forall2 (fun ab n => (fst ab <= snd ab <= n)%nat) cuts cells ->
  (forall k, In k ks -> (k < nc)%nat) ->
  Forall2 (fun s n => forall i, In i s -> (i < n)%nat) (sel_of cuts ++ [ks]) (cells ++ [nc]).
Proof.
  intros H Hk. apply Forall2_app.
  - unfold sel_of. induction H as [|[a b] n cuts cells Hab H IH]; simpl; constructor; auto.
    intros i Hi. apply in_seq in Hi. simpl in *. lia.
  - constructor; auto.
Qed.

Lemma sel_of_lengths cuts : List.map (@length nat) (sel_of cuts) = List.map (fun ab => snd ab - fst ab)%nat cuts.
Proof. unfold sel_of. rewrite map_map. apply map_ext. intros [a b]. apply seq_length. Qed.

Lemma take_block_get {A} (v : nda A) cells nc cuts ks idx c k :
  wf v -> shape v = cells ++ [nc] ->
  Forall2 (fun ab n => (fst ab <= snd ab <= n)%nat) cuts cells ->
  (forall k, In k ks -> (k < nc)%nat) ->
  in_range (List.map (fun ab => snd ab - fst ab)%nat cuts) idx ->
  nth_error ks c = Some k ->
  get (take (sel_of cuts ++ [ks]) v) (idx ++ [c]) = get v (map2 Nat.add (List.map fst cuts) idx ++ [k]).
Proof.
  intros Hw Hs Hb Hk Hi Hc. apply get_take; auto.
  - rewrite Hs. apply sel_of_bounds; auto.
  - rewrite map_app, sel_of_lengths. apply Forall2_app; auto. constructor; [|constructor].
    apply nth_error_Some. congruence.
  - clear Hb Hs Hw. assert (Hl : length idx = length cuts).
    { apply in_range_length in Hi. rewrite map_length in Hi. auto. }
    unfold in_range in Hi. revert idx Hi Hl. induction cuts as [|[a b] cuts IH]; intros [|i idx] Hi Hl;
      try discriminate; simpl.
    + constructor; [|constructor]. auto.
    + simpl in Hi. inversion Hi; subst. constructor.
      * simpl. rewrite nth_error_seq. simpl in *. destruct (Nat.ltb_spec i (b - a)); auto. lia.
      * apply IH; auto.
Qed.

Lemma in_range_app sh1 sh2 idx :
  in_range (sh1 ++ sh2) idx -> exists i1 i2, idx = i1 ++ i2 /\ in_range sh1 i1 /\ in_range sh2 i2.
Proof.
  unfold in_range. intros H. apply Forall2_app_inv_r in H as (l1 & l2 & H1 & H2 & ->). eauto.
Qed.

Lemma nth_error_stretch {B} (g : list B) a m i :
  nth_error (stretch g a m) i = if (i <? m)%nat then nth_error g (a + i) else None.
Proof. apply firstn_skipn_nth_error. Qed.

Lemma stretch_length {B} (g : list B) a m : (a + m <= length g)%nat -> length (stretch g a m) = m.
Proof. intros H. unfold stretch. rewrite firstn_length, skipn_length. lia. Qed.

Lemma cuts_mean_bounds pfloat zs gs cells cuts :
  Forall2 (fun n g => edges_of n g \/ points_of n g) cells gs ->
  cuts_mean pfloat zs gs cells cuts ->
  Forall2 (fun ab n => (fst ab <= snd ab <= n)%nat) cuts cells.
Proof.
  intros Hm [Hl Hc]. apply Forall2_nth_error_intro; auto.
  intros k [a b] n Hab Hn. pose proof (Forall2_length _ _ _ Hm) as Hg.
  destruct (nth_error_exists gs k) as [g Hgk].
  { assert (k < length cells)%nat by (apply nth_error_Some; congruence). lia. }
  simpl. eapply cut_means_le; [exact (Forall2_nth_error _ _ _ k _ _ Hm Hn Hgk)|].
  eapply Hc; eauto.
Qed.

Lemma grid_of_match cells gs cuts :
  Forall2 (fun n g => edges_of n g \/ points_of n g) cells gs ->
  Forall2 (fun ab n => (fst ab <= snd ab <= n)%nat) cuts cells ->
  Forall2 (fun n g => edges_of n g \/ points_of n g)
          (List.map (fun ab => snd ab - fst ab)%nat cuts) (grid_of cells gs cuts).
Proof.
  intros Hm Hb. revert cuts Hb. unfold grid_of.
  induction Hm as [|n g cells gs Hng Hm IH]; intros cuts Hb; inversion Hb; subst; simpl; constructor; auto.
  unfold edges_of, points_of, coords_kept in *. destruct x as [a b]; simpl in *.
  destruct (Nat.eqb_spec (length g) n); rewrite stretch_length by lia; lia.
Qed.

(** ** Overwriting *)
Lemma shape_last_app {A} (v : nda A) cells nc : shape v = cells ++ [nc] -> shape_last v = Ok nc.
Proof. intros H. unfold shape_last. rewrite H, rev_app_distr. reflexivity. Qed.

Lemma shape_init_app {A} (v : nda A) cells nc : shape v = cells ++ [nc] -> shape_init v = cells.
Proof. intros H. unfold shape_init. rewrite H. apply removelast_last. Qed.

Lemma grid_bounds_ok gs n :
  (n <= length gs)%nat -> (forall g, In g gs -> g <> []) ->
  exists lo up, grid_bounds (List.map line gs) n = Ok (lo, up) /\ length lo = n /\ length up = n.
Proof.
  intros Hn Hne. unfold grid_bounds.
  destruct (mapM_exists (grid_bound1 (List.map line gs)) (fun _ _ => True) (seq 0 n)) as (bs & E & F).
  - intros k Hk. apply in_seq in Hk. unfold grid_bound1.
    destruct (nth_error_exists gs k) as [g Hg]; [lia|].
    rewrite nth_error_map, Hg. simpl. assert (g <> []) by (apply Hne; eapply nth_error_In; eauto).
    unfold arr_min, arr_max. destruct g as [|x g]; [congruence|]. simpl. eauto.
  - rewrite E. simpl. do 2 eexists. split; [reflexivity|]. rewrite !map_length.
    apply Forall2_length in F. rewrite seq_length in F. auto.
Qed.

Lemma set_values_spec {A} (d : gdata A) v cells nc :
  shape v = cells ++ [nc] ->
  exists d', set_values d v = (d', None) /\ g_vals d' = Some v /\ c_cells d' = Some cells /\
             c_ncomps d' = Some nc.
Proof.
  intros Hs. unfold set_values.
  rewrite (shape_last_app _ _ _ Hs), (shape_init_app _ _ _ Hs).
  destruct d as [gg vv [c|] [m|] lo up]; simpl;
    try destruct (list_eq_dec Nat.eq_dec cells c) as [<-|]; simpl;
    try destruct (Nat.eqb_spec nc m) as [<-|]; simpl;
    eexists; (split; [reflexivity|]); simpl; auto.
Qed.

Lemma push_rect {A} (d : gdata A) gs (v : nda A) cells nc :
  wf v -> shape v = cells ++ [nc] -> cells <> [] ->
  Forall2 (fun n g => edges_of n g \/ points_of n g) cells gs ->
  Forall (fun g : list Q => g <> []) gs ->
  exists d', push d (List.map line gs) v = (d', None) /\ rect_data d' gs v cells nc.
Proof.
  intros Hw Hs Hc Hm Hne. unfold push.
  destruct (set_values_spec d v cells nc Hs) as (d3 & -> & H3v & H3c & H3n).
  unfold set_grid. unfold get_num_dims. simpl c_cells. rewrite H3c.
  destruct (grid_bounds_ok gs (length cells)) as (lo & up & E & _).
  { apply Forall2_length in Hm. lia. }
  { rewrite Forall_forall in Hne. auto. }
  rewrite E. eexists. split; [reflexivity|].
  constructor; simpl; auto. unfold get_bounds. simpl. eauto.
Qed.

Lemma grid_of_nonempty cells gs cuts :
  Forall2 (fun n g => edges_of n g \/ points_of n g) cells gs ->
  Forall2 (fun ab n => (fst ab <= snd ab <= n)%nat) cuts cells -> nonempty_cuts cuts ->
  Forall (fun g : list Q => g <> []) (grid_of cells gs cuts).
Proof.
  intros Hm Hb. revert cuts Hb. unfold grid_of.
  induction Hm as [|n g cells gs Hng Hm IH]; intros cuts Hb Hne; inversion Hb; subst; simpl; constructor; auto.
  - inversion Hne; subst. unfold edges_of, points_of, coords_kept in *. destruct x as [a b]; simpl in *.
    intros E. assert (length (if (length g =? n)%nat then stretch g a (b - a) else stretch g a (S (b - a))) = 0%nat)
      by (rewrite E; reflexivity).
    destruct (Nat.eqb_spec (length g) n); rewrite stretch_length in * by lia; lia.
  - inversion Hne; subst. apply IH; auto.
Qed.

Lemma select_overwrite_lemma pfloat {A} (d : gdata A) gs v cells nc zs comp cuts ks :
  rect_data d gs v cells nc ->
  cuts_mean pfloat zs gs cells cuts -> nonempty_cuts cuts ->
  comp_means nc comp ks ->
  exists d',
    select pfloat d zs comp true
      = Ok (List.map line (grid_of cells gs cuts), take (sel_of cuts ++ [ks]) v, d') /\
    rect_data d' (grid_of cells gs cuts) (take (sel_of cuts ++ [ks]) v)
              (List.map (fun ab => snd ab - fst ab)%nat cuts) (length ks).
Proof.
  intros R Hc Hne Hk.
  pose proof (select_block_lemma pfloat d gs v cells nc zs comp cuts ks R Hc Hk) as E.
  pose proof (cuts_mean_bounds _ _ _ _ _ (rd_match _ _ _ _ _ R) Hc) as Hb.
  destruct (push_rect d (grid_of cells gs cuts) (take (sel_of cuts ++ [ks]) v)
             (List.map (fun ab => snd ab - fst ab)%nat cuts) (length ks)) as (d' & Ep & R').
  - apply wf_take; [apply (rd_wf _ _ _ _ _ R)|]. rewrite (rd_shape _ _ _ _ _ R).
    apply sel_of_bounds; auto. eapply comp_means_lt; eauto.
  - simpl. rewrite map_app, sel_of_lengths. reflexivity.
  - destruct cuts; [|discriminate]. inversion Hb; subst. destruct R. congruence.
  - apply grid_of_match; auto. apply (rd_match _ _ _ _ _ R).
  - apply grid_of_nonempty; auto. apply (rd_match _ _ _ _ _ R).
  - exists d'. split; auto.
    revert E. unfold select.
    destruct (g_grid d) as [grid|]; [|discriminate].
    destruct (g_vals d) as [vv|]; [|discriminate].
    destruct (get_bounds d) as [bd|]; [|discriminate]. simpl bind.
    destruct (length (shape vv) <=? get_num_dims d)%nat; [discriminate|].
    destruct grid as [|g0 grid]; [discriminate|].
    match goal with |- bind ?m _ = _ -> _ => destruct m as [sl|]; [|discriminate] end. simpl bind.
    match goal with |- bind ?m _ = _ -> _ => destruct m as [vo|]; [|discriminate] end. simpl bind.
    match goal with |- bind ?m _ = _ -> _ => destruct m as [go|]; [|discriminate] end. simpl bind.
    intros [= -> ->]. rewrite Ep. reflexivity.
Qed.

(** ** Composition *)
Definition compose_cuts (c1 c2 : list (nat * nat)) : list (nat * nat) :=
  map2 (fun ab cd => (fst ab + fst cd, fst ab + snd cd)%nat) c1 c2.

Lemma compose_bounds c1 c2 cells :
  Forall2 (fun ab n => (fst ab <= snd ab <= n)%nat) c1 cells ->
  Forall2 (fun ab n => (fst ab <= snd ab <= n)%nat) c2 (List.map (fun ab => snd ab - fst ab)%nat c1) ->
  Forall2 (fun ab n => (fst ab <= snd ab <= n)%nat) (compose_cuts c1 c2) cells.
Proof.
  intros H; revert c2. induction H as [|[a b] n c1 cells Hab H IH]; intros c2 H2; inversion H2; subst.
  - constructor.
  - destruct x as [c e]; simpl in *. constructor; simpl; [lia|]. apply IH; auto.
Qed.

Lemma compose_lengths c1 c2 cells :
  Forall2 (fun ab n => (fst ab <= snd ab <= n)%nat) c1 cells ->
  length c1 = length c2 ->
  List.map (fun ab => snd ab - fst ab)%nat (compose_cuts c1 c2)
  = List.map (fun ab => snd ab - fst ab)%nat c2.
Proof.
  intros H; revert c2; induction H as [|[a b] n c1 cells Hab H IH]; intros [|[c e] c2] Hl;
    try discriminate; simpl; auto. f_equal; [lia|]. apply IH. simpl in Hl; lia.
Qed.

Lemma compose_starts c1 c2 idx :
  length c1 = length c2 -> length idx = length c2 ->
  map2 Nat.add (List.map fst (compose_cuts c1 c2)) idx
  = map2 Nat.add (List.map fst c1) (map2 Nat.add (List.map fst c2) idx).
Proof.
  revert c2 idx; induction c1 as [|[a b] c1 IH]; intros [|[c e] c2] [|i idx] H1 H2; try discriminate; auto.
  simpl. f_equal; [lia|]. apply IH; simpl in *; lia.
Qed.

Lemma shifted_in_range c sh idx :
  Forall2 (fun ab n => (fst ab <= snd ab <= n)%nat) c sh ->
  in_range (List.map (fun ab => snd ab - fst ab)%nat c) idx ->
  in_range sh (map2 Nat.add (List.map fst c) idx).
Proof.
  intros H; revert idx. unfold in_range. induction H as [|[a b] n c sh Hab H IH]; intros idx Hi;
    inversion Hi; subst; simpl; constructor.
  - simpl in *. lia.
  - apply IH; auto.
Qed.

Lemma take_compose {A} (v : nda A) cells nc c1 c2 k1 k2 k12 :
  wf v -> shape v = cells ++ [nc] ->
  Forall2 (fun ab n => (fst ab <= snd ab <= n)%nat) c1 cells ->
  Forall2 (fun ab n => (fst ab <= snd ab <= n)%nat) c2 (List.map (fun ab => snd ab - fst ab)%nat c1) ->
  (forall k, In k k1 -> (k < nc)%nat) ->
  Forall2 (fun k j => nth_error k1 k = Some j) k2 k12 ->
  take (sel_of c2 ++ [k2]) (take (sel_of c1 ++ [k1]) v) = take (sel_of (compose_cuts c1 c2) ++ [k12]) v.
Proof.
  intros Hw Hs H1 H2 Hk1 Hk12.
  assert (Hk2 : forall k, In k k2 -> (k < length k1)%nat).
  { intros k Hk. apply In_nth_error in Hk as [i Hi].
    assert (exists j, nth_error k12 i = Some j) as [j Hj].
    { apply nth_error_exists. rewrite <- (Forall2_length _ _ _ Hk12). apply nth_error_Some. congruence. }
    pose proof (Forall2_nth_error _ _ _ i _ _ Hk12 Hi Hj) as H. simpl in H.
    apply nth_error_Some. congruence. }
  assert (Hk12' : forall k, In k k12 -> (k < nc)%nat).
  { intros j Hj. apply In_nth_error in Hj as [i Hi].
    assert (exists k, nth_error k2 i = Some k) as [k Hk].
    { apply nth_error_exists. rewrite (Forall2_length _ _ _ Hk12). apply nth_error_Some. congruence. }
    pose proof (Forall2_nth_error _ _ _ i _ _ Hk12 Hk Hi) as H. simpl in H.
    apply Hk1. eapply nth_error_In; eauto. }
  assert (L1 : length c1 = length cells) by (eapply Forall2_length; eauto).
  assert (L2 : length c2 = length c1) by (apply Forall2_length in H2; rewrite map_length in H2; auto).
  set (w := take (sel_of c1 ++ [k1]) v).
  assert (Hww : wf w). { apply wf_take; auto. rewrite Hs. apply sel_of_bounds; auto. }
  assert (Hsw : shape w = List.map (fun ab => snd ab - fst ab)%nat c1 ++ [length k1]).
  { unfold w. simpl. rewrite map_app, sel_of_lengths. reflexivity. }
  pose proof (compose_bounds _ _ _ H1 H2) as H12.
  apply nda_ext.
  - apply wf_take; auto. rewrite Hsw. apply sel_of_bounds; auto.
  - apply wf_take; auto. rewrite Hs. apply sel_of_bounds; auto.
  - simpl. rewrite !map_app, !sel_of_lengths. simpl.
    rewrite (compose_lengths c1 c2 cells), (Forall2_length _ _ _ Hk12) by (auto; lia). reflexivity.
  - intros idx Hi. simpl in Hi. rewrite map_app, sel_of_lengths in Hi.
    apply in_range_app in Hi as (i1 & i2 & -> & Hi1 & Hi2).
    inversion Hi2 as [|c ? ? ? Hc Hnil]; subst. inversion Hnil; subst. clear Hi2 Hnil.
    assert (exists k, nth_error k2 c = Some k) as [k Hk] by (apply nth_error_exists; auto).
    assert (exists j, nth_error k12 c = Some j) as [j Hj].
    { apply nth_error_exists. rewrite <- (Forall2_length _ _ _ Hk12). auto. }
    pose proof (Forall2_nth_error _ _ _ c _ _ Hk12 Hk Hj) as Hkj. simpl in Hkj.
    rewrite (take_block_get w _ _ c2 k2 i1 c k Hww Hsw H2 Hk2 Hi1 Hk).
    unfold w.
    rewrite (take_block_get v _ _ c1 k1 _ k j Hw Hs H1 Hk1); auto.
    + rewrite (take_block_get v _ _ (compose_cuts c1 c2) k12 i1 c j Hw Hs H12 Hk12'); auto.
      * rewrite compose_starts; auto. apply in_range_length in Hi1. rewrite map_length in Hi1. auto.
      * rewrite (compose_lengths c1 c2 cells); auto.
    + apply shifted_in_range; auto.
Qed.

Lemma grid_compose cells gs c1 c2 :
  Forall2 (fun n g => edges_of n g \/ points_of n g) cells gs ->
  Forall2 (fun ab n => (fst ab <= snd ab <= n)%nat) c1 cells ->
  Forall2 (fun ab n => (fst ab <= snd ab <= n)%nat) c2 (List.map (fun ab => snd ab - fst ab)%nat c1) ->
  grid_of (List.map (fun ab => snd ab - fst ab)%nat c1) (grid_of cells gs c1) c2
  = grid_of cells gs (compose_cuts c1 c2).
Proof.
  intros Hm; revert c1 c2. unfold grid_of, compose_cuts.
  induction Hm as [|n g cells gs Hng Hm IH]; intros c1 c2 H1 H2; inversion H1; subst; simpl.
  - reflexivity.
  - inversion H2; subst. destruct x as [a b], x0 as [c e]; simpl in *. f_equal; [|apply IH; auto].
    unfold coords_kept, edges_of, points_of in *.
    destruct (Nat.eqb_spec (length g) n).
    + rewrite stretch_length by lia. rewrite Nat.eqb_refl.
      apply nth_error_ext. intros i. rewrite !nth_error_stretch.
      replace (a + e - (a + c))%nat with (e - c)%nat by lia.
      destruct (Nat.ltb_spec i (e - c)); auto.
      destruct (Nat.ltb_spec (c + i) (b - a)); [f_equal; lia|lia].
    + rewrite stretch_length by lia. destruct (Nat.eqb_spec (S (b - a)) (b - a)); [lia|].
      apply nth_error_ext. intros i. rewrite !nth_error_stretch.
      replace (a + e - (a + c))%nat with (e - c)%nat by lia.
      destruct (Nat.ltb_spec i (S (e - c))); auto.
      destruct (Nat.ltb_spec (c + i) (S (b - a))); [f_equal; lia|lia].
Qed.

(** ** Selecting everything *)
Definition whole (cells : list nat) : list (nat * nat) := List.map (fun n => (0%nat, n)) cells.

Lemma whole_bounds cells : Forall2 (fun ab n => (fst ab <= snd ab <= n)%nat) (whole cells) cells.
Proof. induction cells; simpl; constructor; auto. simpl. lia. Qed.

Lemma take_whole {A} (v : nda A) cells nc :
  wf v -> shape v = cells ++ [nc] -> take (sel_of (whole cells) ++ [seq 0 nc]) v = v.
Proof.
  intros Hw Hs.
  assert (HL : List.map (fun ab => snd ab - fst ab)%nat (whole cells) = cells).
  { unfold whole. rewrite map_map. simpl. rewrite <- map_id. apply map_ext. intros; lia. }
  assert (Hk : forall k, In k (seq 0 nc) -> (k < nc)%nat) by (intros k Hk; apply in_seq in Hk; lia).
  assert (Hb : Forall2 (fun s n => forall i, In i s -> (i < n)%nat)
     (sel_of (whole cells) ++ [seq 0 nc]) (cells ++ [nc])) by (apply sel_of_bounds; auto using whole_bounds).
  apply nda_ext; auto.
  - apply wf_take; auto. rewrite Hs. auto.
  - simpl. rewrite Hs, map_app, sel_of_lengths, HL. simpl. now rewrite seq_length.
  - intros idx Hi. simpl in Hi. rewrite map_app, sel_of_lengths, HL in Hi.
    apply in_range_app in Hi as (i1 & i2 & -> & Hi1 & Hi2).
    inversion Hi2 as [|c ? ? ? Hc Hnil]; subst. inversion Hnil; subst.
    rewrite seq_length in Hc.
    rewrite (take_block_get v cells nc (whole cells) (seq 0 nc) i1 c c); auto using whole_bounds.
    + f_equal. f_equal. unfold whole. rewrite map_map. simpl.
      clear - Hi1. induction Hi1; simpl; auto. now f_equal.
    + now rewrite HL.
    + rewrite nth_error_seq. destruct (Nat.ltb_spec c nc); auto. lia.
Qed.

Lemma grid_whole cells gs :
  Forall2 (fun n g => edges_of n g \/ points_of n g) cells gs ->
  grid_of cells gs (whole cells) = gs.
Proof.
  intros Hm. unfold grid_of, whole. induction Hm; simpl; auto. f_equal; auto.
  now apply coords_kept_whole.
Qed.
