(** * Facts about the shared vocabulary. *)
From Coq Require Import String Ascii List ZArith NArith Bool Lia.
From Coq Require Import DecimalString.
From Coq Require Decimal DecimalFacts DecimalN DecimalPos.
From Verif Require Import Prelude.
Import ListNotations.
Open Scope list_scope.

Lemma bind_ok {A B} (m : res A) (f : A -> res B) b :
  bind m f = Ok b <-> exists a, m = Ok a /\ f a = Ok b.
Proof.
  destruct m; simpl; split.
  - intros H; eauto.
  - intros (a0 & H & H'). congruence.
  - discriminate.
  - intros (a0 & H & _). discriminate.
Qed.

Lemma mapM_ok {A B} (f : A -> res B) l bs :
  mapM f l = Ok bs <-> Forall2 (fun a b => f a = Ok b) l bs.
Proof.
  revert bs. induction l as [|a l IH]; intros bs; simpl.
  - split; intros H; [injection H as <-; constructor | inversion H; reflexivity].
  - destruct (f a) as [b|e] eqn:E; simpl.
    + destruct (mapM f l) as [bs'|e] eqn:E2; simpl.
      * split; intros H.
        -- injection H as <-. constructor; auto. apply IH. reflexivity.
        -- inversion H; subst. apply IH in H4. congruence.
      * split; intros H; [discriminate|]. inversion H; subst.
        apply IH in H4. discriminate.
    + split; intros H; [discriminate|]. inversion H; subst. congruence.
Qed.

Lemma mapM_all_ok {A B} (f : A -> res B) (g : A -> B) l :
  (forall a, In a l -> f a = Ok (g a)) -> mapM f l = Ok (List.map g l).
Proof.
  intros H. apply mapM_ok. induction l as [|a l IH]; simpl; constructor.
  - apply H; now left.
  - apply IH. intros; apply H; now right.
Qed.

Lemma N_to_uint_nonnil n : N.to_uint n <> Decimal.Nil.
Proof.
  destruct n as [|p]; simpl; [discriminate|].
  apply DecimalPos.Unsigned.to_uint_nonnil.
Qed.

Lemma show_N_val n : digits_val (show_N n) = Some n.
Proof.
  unfold digits_val, show_N.
  pose proof (N_to_uint_nonnil n) as Hn.
  destruct (NilEmpty.string_of_uint (N.to_uint n)) eqn:E.
  - destruct (N.to_uint n); simpl in E; congruence.
  - rewrite <- E. rewrite NilEmpty.usu. simpl. now rewrite DecimalN.Unsigned.of_to.
Qed.

Lemma show_N_digits n : is_digits (show_N n) = true.
Proof.
  unfold is_digits, show_N.
  pose proof (N_to_uint_nonnil n) as Hn.
  destruct (NilEmpty.string_of_uint (N.to_uint n)) eqn:E.
  - destruct (N.to_uint n); simpl in E; congruence.
  - rewrite <- E. now rewrite NilEmpty.usu.
Qed.

Lemma is_digits_val s : is_digits s = true -> exists n, digits_val s = Some n.
Proof.
  unfold is_digits, digits_val. destruct s; [discriminate|].
  destruct (NilEmpty.uint_of_string _); [|discriminate]. simpl. eauto.
Qed.

Lemma digits_py_int s n : digits_val s = Some n -> py_int s = Ok (Z.of_N n).
Proof.
  intros H. unfold py_int. destruct s as [|a s']; [discriminate|].
  assert (Hm : a <> "-"%char)
    by (intros ->; simpl in H; destruct (NilEmpty.uint_of_string s'); discriminate H).
  assert (Hp : a <> "+"%char)
    by (intros ->; simpl in H; destruct (NilEmpty.uint_of_string s'); discriminate H).
  destruct a as [b0 b1 b2 b3 b4 b5 b6 b7].
  destruct b0, b1, b2, b3, b4, b5, b6, b7; try (rewrite H; reflexivity); congruence.
Qed.

Lemma py_int_show_N n : py_int (show_N n) = Ok (Z.of_N n).
Proof. apply digits_py_int, show_N_val. Qed.

Lemma py_int_neg_show_N n : py_int (String "-" (show_N n)) = Ok (- Z.of_N n)%Z.
Proof. simpl. now rewrite show_N_val. Qed.

Lemma py_int_show_Z z : py_int (show_Z z) = Ok z.
Proof.
  destruct z; simpl show_Z.
  - reflexivity.
  - now rewrite py_int_show_N.
  - now rewrite py_int_neg_show_N.
Qed.

Lemma show_Z_nonneg_digits z : (0 <= z)%Z -> is_digits (show_Z z) = true.
Proof.
  destruct z; simpl; intros; [reflexivity| |lia]. apply show_N_digits.
Qed.

Lemma show_Z_neg_digits z : (z < 0)%Z -> is_digits (show_Z z) = false.
Proof.
  destruct z; simpl; intros; try lia.
  destruct (NilEmpty.uint_of_string _); reflexivity.
Qed.

Lemma show_Z_nonempty z : show_Z z <> ""%string.
Proof.
  intros H. assert (py_int (show_Z z) = py_int "") as E by (now rewrite H).
  rewrite py_int_show_Z in E. discriminate.
Qed.

(** Characters of a decimal numeral. *)
Definition digit_char (c : ascii) : Prop :=
  In c ["0";"1";"2";"3";"4";"5";"6";"7";"8";"9"]%char.

Lemma string_of_uint_has c u :
  ~ digit_char c -> has_char c (NilEmpty.string_of_uint u) = false.
Proof.
  intros Hc. induction u; cbn [NilEmpty.string_of_uint has_char]; auto;
    rewrite IHu, orb_false_r; apply Ascii.eqb_neq; intros <-; apply Hc;
    unfold digit_char; simpl; tauto.
Qed.

Lemma show_N_has c n : ~ digit_char c -> has_char c (show_N n) = false.
Proof. apply string_of_uint_has. Qed.

Lemma show_Z_has c z : ~ digit_char c -> c <> "-"%char -> has_char c (show_Z z) = false.
Proof.
  intros Hc Hm. destruct z; cbn [show_Z].
  - cbn [has_char]. rewrite orb_false_r. apply Ascii.eqb_neq. intros <-. apply Hc. now left.
  - now apply show_N_has.
  - cbn [has_char]. rewrite show_N_has by auto. rewrite orb_false_r. apply Ascii.eqb_neq. congruence.
Qed.

Lemma split_on_none c s : has_char c s = false -> split_on c s = [s].
Proof.
  induction s as [|a s IH]; simpl; auto.
  intros H. apply orb_false_iff in H as [H1 H2]. rewrite H1, IH; auto.
Qed.

Lemma split_on_nonnil c s : split_on c s <> [].
Proof.
  induction s as [|a s IH]; simpl; [discriminate|].
  destruct (Ascii.eqb a c); [discriminate|]. destruct (split_on c s); congruence.
Qed.

Lemma split_on_app c s t :
  has_char c s = false -> split_on c (s ++ String c t)%string = s :: split_on c t.
Proof.
  induction s as [|a s IH]; simpl.
  - intros _. now rewrite Ascii.eqb_refl.
  - intros H. apply orb_false_iff in H as [H1 H2]. rewrite H1, IH; auto.
Qed.

Lemma has_char_app c s t : has_char c (s ++ t)%string = has_char c s || has_char c t.
Proof. induction s; simpl; auto. rewrite IHs. now rewrite orb_assoc. Qed.

(** Joining the parts of a split gives the string back. *)
Lemma join_split c s : join (String c "") (split_on c s) = s.
Proof.
  induction s as [|a s IH]; simpl; auto.
  destruct (Ascii.eqb a c) eqn:E.
  - apply Ascii.eqb_eq in E. subst a.
    destruct (split_on c s) as [|h t] eqn:Es; [now apply split_on_nonnil in Es|].
    change (join (String c "") (""%string :: h :: t))
      with (("" ++ String c "" ++ join (String c "") (h :: t))%string).
    rewrite IH. reflexivity.
  - destruct (split_on c s) as [|h t] eqn:Es; [now apply split_on_nonnil in Es|].
    destruct t as [|h' t']; simpl in *; now rewrite IH.
Qed.

Lemma split_on_inj c s t : split_on c s = split_on c t -> s = t.
Proof. intros H. rewrite <- (join_split c s), H. apply join_split. Qed.

(** ** Slices *)
Lemma slice2_in len a b :
  (0 <= a <= b)%Z -> (b <= Z.of_nat len)%Z ->
  slice2 len a b = seq (Z.to_nat a) (Z.to_nat (b - a)).
Proof.
  intros H1 H2. unfold slice2, adjust_pos.
  destruct (Z.ltb_spec a 0); [lia|]. destruct (Z.ltb_spec b 0); [lia|].
  rewrite !Z.min_l by lia. reflexivity.
Qed.

Lemma slice2_In len a b k :
  In k (slice2 len a b) <->
  (adjust_pos (Z.of_nat len) a <= Z.of_nat k < adjust_pos (Z.of_nat len) b)%Z.
Proof.
  unfold slice2. rewrite in_seq.
  assert (0 <= adjust_pos (Z.of_nat len) a)%Z by (unfold adjust_pos; destruct (Z.ltb_spec a 0); lia).
  lia.
Qed.

Lemma slice2_lt len a b k : In k (slice2 len a b) -> (k < len)%nat.
Proof.
  rewrite slice2_In. intros [_ H].
  assert (adjust_pos (Z.of_nat len) b <= Z.of_nat len)%Z.
  { unfold adjust_pos; destruct (Z.ltb_spec b 0); lia. }
  lia.
Qed.

Lemma norm_index_ok len i k :
  norm_index len i = Ok k <->
  (k < len)%nat /\ (i = Z.of_nat k \/ i = Z.of_nat k - Z.of_nat len)%Z.
Proof.
  unfold norm_index.
  destruct (Z.ltb_spec i 0);
    (destruct (_ && _)%bool eqn:E;
     [apply andb_true_iff in E; destruct E as [E1 E2];
      apply Z.leb_le in E1; apply Z.ltb_lt in E2
     |apply andb_false_iff in E; rewrite Z.leb_gt, Z.ltb_ge in E]);
    split; intros Hx; try (injection Hx as <-; lia); try discriminate;
    try (f_equal; lia); exfalso; lia.
Qed.

(** ** Lists *)
Lemma prod_app l m : prod (l ++ m) = (prod l * prod m)%nat.
Proof. induction l; simpl; [lia|]. unfold prod in *. simpl. rewrite IHl. lia. Qed.

Lemma map2_length {A B C} (f : A -> B -> C) l m :
  length (map2 f l m) = Nat.min (length l) (length m).
Proof. revert m; induction l; destruct m; simpl; auto. Qed.

Lemma nth_error_map2 {A B C} (f : A -> B -> C) l m k :
  nth_error (map2 f l m) k =
  match nth_error l k, nth_error m k with
  | Some a, Some b => Some (f a b) | _, _ => None end.
Proof.
  revert m k; induction l; destruct m, k; simpl; auto.
  destruct (nth_error l k); auto.
Qed.

Lemma set_nth_length {A} k (a : A) l : length (set_nth k a l) = length l.
Proof. revert k; induction l; destruct k; simpl; auto. Qed.

Lemma nth_error_set_nth {A} k j (a : A) l :
  nth_error (set_nth k a l) j =
  if (k =? j)%nat then (match nth_error l j with Some _ => Some a | None => None end)
  else nth_error l j.
Proof.
  revert k j; induction l as [|b l IH]; destruct k, j; simpl; auto.
  - destruct (k =? j)%nat; auto.
Qed.

Lemma nth_error_ext {A} (l m : list A) :
  (forall k, nth_error l k = nth_error m k) -> l = m.
Proof.
  revert m. induction l as [|a l IH]; destruct m as [|b m]; intros H; auto.
  - specialize (H 0%nat); discriminate.
  - specialize (H 0%nat); discriminate.
  - pose proof (H 0%nat) as H0. simpl in H0. injection H0 as ->. f_equal.
    apply IH. intros k. exact (H (S k)).
Qed.

Lemma nth_error_firstn {A} n k (l : list A) :
  nth_error (firstn n l) k = if (k <? n)%nat then nth_error l k else None.
Proof.
  revert k l; induction n; intros k l.
  - simpl. destruct k; reflexivity.
  - destruct l; simpl.
    + destruct k; simpl; [|destruct (S k <? S n)%nat]; auto.
    + destruct k; simpl; auto. rewrite IHn. reflexivity.
Qed.

Lemma nth_error_skipn {A} n k (l : list A) :
  nth_error (skipn n l) k = nth_error l (n + k).
Proof.
  revert l; induction n; intros l; simpl; auto.
  destruct l; simpl; auto. destruct k; reflexivity.
Qed.

Lemma nth_error_seq s n k :
  nth_error (seq s n) k = if (k <? n)%nat then Some (s + k)%nat else None.
Proof.
  revert s k; induction n; intros s k.
  - destruct k; reflexivity.
  - destruct k; simpl.
    + f_equal; lia.
    + rewrite IHn. change (S k <? S n)%nat with (k <? n)%nat.
      destruct (k <? n)%nat; auto. f_equal; lia.
Qed.

Lemma firstn_skipn_nth_error {A} n m (l : list A) k :
  nth_error (firstn n (skipn m l)) k = if (k <? n)%nat then nth_error l (m + k) else None.
Proof. rewrite nth_error_firstn, nth_error_skipn. reflexivity. Qed.

Lemma skipn_app_exact {A} (l m : list A) n : n = length l -> skipn n (l ++ m) = m.
Proof. intros ->. rewrite skipn_app, skipn_all, Nat.sub_diag. reflexivity. Qed.

Lemma firstn_app_exact {A} (l m : list A) n : n = length l -> firstn n (l ++ m) = l.
Proof. intros ->. rewrite firstn_app, firstn_all, Nat.sub_diag, firstn_O, app_nil_r. reflexivity. Qed.

(** ** Association lists *)
Lemma aget_aset {V} k k' (v : V) d :
  aget k (aset k' v d) = if String.eqb k k' then Some v else aget k d.
Proof.
  induction d as [|[k0 v0] d IH]; simpl.
  - reflexivity.
  - destruct (String.eqb_spec k' k0) as [->|N]; simpl.
    + destruct (String.eqb k k0); reflexivity.
    + rewrite IH. destruct (String.eqb_spec k k0) as [->|N2]; auto.
      destruct (String.eqb_spec k0 k'); congruence.
Qed.

Lemma aget_adel {V} k k' (d : list (string * V)) :
  aget k (adel k' d) = if String.eqb k k' then None else aget k d.
Proof.
  induction d as [|[k0 v0] d IH]; simpl.
  - now destruct (String.eqb k k').
  - destruct (String.eqb_spec k' k0) as [->|N]; simpl.
    + rewrite IH. destruct (String.eqb k k0); reflexivity.
    + rewrite IH. destruct (String.eqb_spec k k0) as [->|N2]; auto.
      destruct (String.eqb_spec k0 k'); congruence.
Qed.

Lemma Forall2_length {A B} (P : A -> B -> Prop) l m : Forall2 P l m -> length l = length m.
Proof. induction 1; simpl; auto. Qed.

Lemma Forall2_nth_error {A B} (P : A -> B -> Prop) l m k a b :
  Forall2 P l m -> nth_error l k = Some a -> nth_error m k = Some b -> P a b.
Proof.
  intros H; revert k; induction H; intros [|k]; simpl; try discriminate; eauto.
  now intros [= <-] [= <-].
Qed.

Lemma Forall2_nth_error_intro {A B} (P : A -> B -> Prop) l m :
  length l = length m ->
  (forall k a b, nth_error l k = Some a -> nth_error m k = Some b -> P a b) ->
  Forall2 P l m.
Proof.
  revert m; induction l as [|a l IH]; destruct m as [|b m]; intros Hl H; try discriminate; auto.
  constructor.
  - apply (H 0%nat); reflexivity.
  - apply IH; [simpl in Hl; lia|]. intros k. apply (H (S k)).
Qed.

Lemma slice_list_In n start stop ks k :
  slice_list n start stop None = Ok ks ->
  In k ks <->
  ((match start with None => 0 | Some i => adjust_pos (Z.of_nat n) i end) <= Z.of_nat k
   < match stop with None => Z.of_nat n | Some i => adjust_pos (Z.of_nat n) i end)%Z.
Proof.
  intros H. cbv [slice_list slice_indices bind] in H. simpl (_ =? _)%Z in H. simpl (0 <? 1)%Z in H.
  cbv iota in H. injection H as <-.
  set (lo := match start with None => 0%Z | Some i => adjust_pos (Z.of_nat n) i end).
  set (hi := match stop with None => Z.of_nat n | Some i => adjust_pos (Z.of_nat n) i end).
  assert (H0 : (0 <= lo)%Z).
  { unfold lo, adjust_pos. destruct start as [i|]; [destruct (Z.ltb_spec i 0)|]; lia. }
  unfold range_list, range_len. simpl (0 <? 1)%Z. cbv iota.
  rewrite in_map_iff. setoid_rewrite in_map_iff. rewrite Z.div_1_r. split.
  - intros (z & <- & j & <- & Hj). apply in_seq in Hj. change (0 <? 1)%Z with true in Hj. cbv iota in Hj. lia.
  - intros H. exists (Z.of_nat k). split; [apply Nat2Z.id|]. exists (Z.to_nat (Z.of_nat k - lo)).
    split; [lia|]. apply in_seq. change (0 <? 1)%Z with true. cbv iota. lia.
Qed.
