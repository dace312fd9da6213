(** * Row-major n-dimensional arrays (the part of numpy used by the models). *)
From Coq Require Import String List Arith Bool Lia.
From Verif Require Import Prelude PreludeFacts.
Import ListNotations.
Open Scope list_scope.

(** An array: its shape and its elements in C (row-major) order. *)
Record nda (A : Type) := mk_nda { shape : list nat; flat : list A }.
Arguments mk_nda {A} _ _.
Arguments shape {A} _.
Arguments flat {A} _.

Definition wf {A} (a : nda A) : Prop := length (flat a) = prod (shape a).

(** Position in row-major order of a multi-index; [None] if out of range. *)
Fixpoint ravel (sh idx : list nat) : option nat :=
  match sh, idx with
  | [], [] => Some 0
  | n :: sh', i :: idx' =>
      if i <? n then option_map (fun k => i * prod sh' + k) (ravel sh' idx') else None
  | _, _ => None
  end.

(** Element at a multi-index. *)
Definition get {A} (a : nda A) (idx : list nat) : option A :=
  match ravel (shape a) idx with Some k => nth_error (flat a) k | None => None end.

(** All multi-indices in row-major order. *)
Fixpoint indices (sh : list nat) : list (list nat) :=
  match sh with
  | [] => [[]]
  | n :: sh' => flat_map (fun i => List.map (cons i) (indices sh')) (seq 0 n)
  end.

Definition in_range (sh idx : list nat) : Prop := Forall2 (fun i n => i < n) idx sh.

Definition tabulate {A} (sh : list nat) (f : list nat -> A) : nda A :=
  mk_nda sh (List.map f (indices sh)).

(** [a[sel_0, sel_1, ...]] where each [sel_d] lists the positions kept along
    axis [d] (numpy basic slicing and [np.ix_]). *)
Fixpoint take_flat {A} (sh : list nat) (sels : list (list nat)) (l : list A) : list A :=
  match sh, sels with
  | n :: sh', s :: sels' =>
      flat_map (fun i => take_flat sh' sels' (firstn (prod sh') (skipn (i * prod sh') l))) s
  | _, _ => l
  end.

Definition take {A} (sels : list (list nat)) (a : nda A) : nda A :=
  mk_nda (List.map (@length nat) sels) (take_flat (shape a) sels (flat a)).

Definition map_nda {A B} (f : A -> B) (a : nda A) : nda B :=
  mk_nda (shape a) (List.map f (flat a)).

(** ** Facts *)

Lemma wf_tabulate {A} sh (f : list nat -> A) : wf (tabulate sh f).
Proof.
  unfold wf, tabulate; simpl. rewrite map_length.
  induction sh as [|n sh IH]; simpl; auto.
  assert (H : forall s m, length (flat_map (fun i => List.map (cons i) (indices sh)) (seq s m))
              = m * length (indices sh)).
  { intros s m. revert s. induction m; simpl; intros; auto.
    rewrite app_length, map_length, IHm. lia. }
  rewrite H, IH. unfold prod. simpl. lia.
Qed.

Lemma indices_length sh : length (indices sh) = prod sh.
Proof. pose proof (wf_tabulate sh (fun x => x)) as H. unfold wf, tabulate in H. simpl in H.
  now rewrite map_length in H. Qed.

Lemma ravel_lt sh idx k : ravel sh idx = Some k -> k < prod sh.
Proof.
  revert idx k; induction sh as [|n sh IH]; intros [|i idx] k; simpl; try discriminate.
  - intros [= <-]. auto.
  - destruct (Nat.ltb_spec i n); [|discriminate].
    destruct (ravel sh idx) as [r|] eqn:E; [|discriminate]. simpl. intros [= <-].
    apply IH in E. change (prod (n :: sh)) with (n * prod sh). nia.
Qed.

Lemma ravel_in_range sh idx : (exists k, ravel sh idx = Some k) <-> in_range sh idx.
Proof.
  revert idx; induction sh as [|n sh IH]; intros [|i idx]; simpl; split; intros H.
  - constructor.
  - eauto.
  - destruct H; discriminate.
  - inversion H.
  - destruct H; discriminate.
  - inversion H.
  - destruct H as [k H]. destruct (Nat.ltb_spec i n); [|discriminate].
    destruct (ravel sh idx) eqn:E; [|discriminate].
    constructor; auto. apply IH; eauto.
  - inversion H; subst. destruct (Nat.ltb_spec i n); [|lia].
    apply IH in H5 as [k ->]. simpl; eauto.
Qed.

Lemma ravel_Some_in_range sh idx k : ravel sh idx = Some k -> in_range sh idx.
Proof. intros H. apply ravel_in_range. eauto. Qed.

Lemma in_range_ravel sh idx : in_range sh idx -> exists k, ravel sh idx = Some k /\ k < prod sh.
Proof. intros H. apply ravel_in_range in H as [k H]. exists k; split; auto. eapply ravel_lt; eauto. Qed.

Lemma not_in_range_ravel sh idx : ~ in_range sh idx -> ravel sh idx = None.
Proof.
  intros H. destruct (ravel sh idx) eqn:E; auto. apply ravel_Some_in_range in E. tauto.
Qed.

Lemma in_range_length sh idx : in_range sh idx -> length idx = length sh.
Proof. apply Forall2_length. Qed.

Lemma ravel_inj sh idx idx' k :
  ravel sh idx = Some k -> ravel sh idx' = Some k -> idx = idx'.
Proof.
  revert idx idx' k; induction sh as [|n sh IH]; intros [|i idx] [|i' idx'] k; simpl;
    try discriminate; auto.
  destruct (i <? n); [|discriminate]. destruct (i' <? n); [|discriminate].
  destruct (ravel sh idx) as [r|] eqn:E; [|discriminate].
  destruct (ravel sh idx') as [r'|] eqn:E'; [|discriminate]. simpl.
  intros [= H1] [= H2].
  pose proof (ravel_lt _ _ _ E). pose proof (ravel_lt _ _ _ E').
  assert (i = i').
  { destruct (Nat.lt_trichotomy i i') as [L|[L|L]]; auto; exfalso; nia. }
  subst i'. f_equal. apply (IH _ _ r); auto. rewrite E'. f_equal. lia.
Qed.

Lemma in_range_take_nth sh idx d i :
  in_range sh idx -> nth_error idx d = Some i -> exists n, nth_error sh d = Some n /\ i < n.
Proof.
  intros H. revert d. induction H; intros [|d]; simpl; try discriminate.
  - intros [= <-]. eauto.
  - apply IHForall2.
Qed.

(** Position inside a flat-map with blocks of equal length. *)
Lemma nth_error_flat_map {A B} (f : A -> list B) (s : list A) m i k a :
  (forall x, In x s -> length (f x) = m) ->
  nth_error s i = Some a -> k < m ->
  nth_error (flat_map f s) (i * m + k) = nth_error (f a) k.
Proof.
  revert i. induction s as [|x s IH]; intros [|i] Hl Hi Hk; simpl; try discriminate.
  - injection Hi as ->. rewrite nth_error_app1; auto. rewrite Hl; auto. now left.
  - simpl in Hi. rewrite nth_error_app2 by (rewrite Hl by (now left); lia).
    rewrite Hl by (now left). replace (m + i * m + k - m) with (i * m + k) by lia.
    apply IH; auto. intros; apply Hl; now right.
Qed.

Lemma flat_map_length {A B} (f : A -> list B) (s : list A) m :
  (forall x, In x s -> length (f x) = m) -> length (flat_map f s) = length s * m.
Proof.
  induction s as [|x s IH]; simpl; intros H; auto.
  rewrite app_length, IH by (intros; apply H; now right). rewrite H by (now left). lia.
Qed.

Lemma nth_error_indices sh idx k :
  ravel sh idx = Some k -> nth_error (indices sh) k = Some idx.
Proof.
  revert idx k; induction sh as [|n sh IH]; intros [|i idx] k; simpl; try discriminate.
  - intros [= <-]. reflexivity.
  - destruct (Nat.ltb_spec i n) as [Hi|]; [|discriminate].
    destruct (ravel sh idx) as [r|] eqn:E; [|discriminate]. simpl. intros [= <-].
    rewrite nth_error_flat_map with (a := i).
    + rewrite nth_error_map, (IH _ _ E). reflexivity.
    + intros. now rewrite map_length, indices_length.
    + rewrite nth_error_seq. destruct (Nat.ltb_spec i n); auto. lia.
    + eapply ravel_lt; eauto.
Qed.

(** Every position below the size is the position of exactly one multi-index. *)
Lemma ravel_surj sh k : k < prod sh -> exists idx, ravel sh idx = Some k.
Proof.
  revert k; induction sh as [|n sh IH]; intros k Hk.
  - simpl in Hk. exists []. simpl. f_equal. unfold prod in Hk. simpl in Hk. lia.
  - change (prod (n :: sh)) with (n * prod sh) in Hk.
    assert (Hp : prod sh <> 0) by nia.
    destruct (IH (k mod prod sh)) as [idx Hidx]. { apply Nat.mod_upper_bound; auto. }
    exists (k / prod sh :: idx). simpl.
    destruct (Nat.ltb_spec (k / prod sh) n) as [H|H].
    + rewrite Hidx. simpl. f_equal. rewrite (Nat.div_mod k (prod sh)) at 3; auto. lia.
    + exfalso. assert (k / prod sh < n) by (apply Nat.div_lt_upper_bound; nia). lia.
Qed.

Lemma get_tabulate {A} sh (f : list nat -> A) idx :
  in_range sh idx -> get (tabulate sh f) idx = Some (f idx).
Proof.
  intros H. apply ravel_in_range in H as [k H]. unfold get, tabulate; simpl.
  rewrite H, nth_error_map, (nth_error_indices _ _ _ H). reflexivity.
Qed.

Lemma get_out {A} (a : nda A) idx : ~ in_range (shape a) idx -> get a idx = None.
Proof. intros H. unfold get. now rewrite not_in_range_ravel. Qed.

Lemma get_in {A} (a : nda A) idx :
  wf a -> in_range (shape a) idx -> exists v, get a idx = Some v.
Proof.
  intros Hw H. apply in_range_ravel in H as (k & Hk & Hlt). unfold get. rewrite Hk.
  destruct (nth_error (flat a) k) eqn:E; eauto.
  apply nth_error_None in E. unfold wf in Hw. lia.
Qed.

Lemma get_Some_in_range {A} (a : nda A) idx v : get a idx = Some v -> in_range (shape a) idx.
Proof.
  unfold get. destruct (ravel (shape a) idx) eqn:E; [|discriminate].
  intros _. eapply ravel_Some_in_range; eauto.
Qed.

(** Two arrays are equal when they have the same shape and elements. *)
Lemma nda_ext {A} (a b : nda A) :
  wf a -> wf b -> shape a = shape b ->
  (forall idx, in_range (shape a) idx -> get a idx = get b idx) -> a = b.
Proof.
  destruct a as [sa fa], b as [sb fb]; unfold wf, get; simpl. intros Ha Hb <- H.
  f_equal. apply nth_error_ext. intros k.
  destruct (Nat.lt_ge_cases k (prod sa)) as [L|L].
  - destruct (ravel_surj _ _ L) as [idx Hi].
    specialize (H idx (ravel_Some_in_range _ _ _ Hi)). now rewrite Hi in H.
  - assert (nth_error fa k = None) as -> by (apply nth_error_None; lia).
    symmetry. apply nth_error_None. lia.
Qed.

Lemma firstn_skipn_length {A} m i n (l : list A) :
  i < n -> length l = n * m -> length (firstn m (skipn (i * m) l)) = m.
Proof. intros Hi Hl. rewrite firstn_length, skipn_length. nia. Qed.

Lemma take_flat_length {A} sh sels (l : list A) :
  length sels = length sh -> Forall2 (fun s n => forall i, In i s -> i < n) sels sh ->
  length l = prod sh ->
  length (take_flat sh sels l) = prod (List.map (@length nat) sels).
Proof.
  intros Hlen H. revert l Hlen. induction H as [|s n sels sh Hs Hr IH]; simpl; intros l Hlen Hl; auto.
  rewrite flat_map_length with (m := prod (List.map (@length nat) sels)).
  - reflexivity.
  - intros i Hi. apply IH; auto. apply firstn_skipn_length with (n := n); auto.
Qed.

Lemma wf_take {A} sels (a : nda A) :
  wf a -> Forall2 (fun s n => forall i, In i s -> i < n) sels (shape a) ->
  wf (take sels a).
Proof.
  intros Hw H. unfold wf, take; simpl. apply take_flat_length; auto.
  eapply Forall2_length; eauto.
Qed.

Lemma take_flat_get {A} sh sels (l : list A) idx src k r :
  Forall2 (fun s n => forall i, In i s -> i < n) sels sh ->
  length l = prod sh ->
  ravel (List.map (@length nat) sels) idx = Some k ->
  Forall2 (fun si j => nth_error (fst si) (snd si) = Some j) (combine sels idx) src ->
  ravel sh src = Some r ->
  nth_error (take_flat sh sels l) k = nth_error l r.
Proof.
  intros H. revert l idx src k r.
  induction H as [|s n sels sh Hs Hr IH]; intros l idx src k r Hl Hk Hsrc Hrr.
  - destruct idx; [|discriminate]. inversion Hsrc; subst. simpl in *. congruence.
  - destruct idx as [|i idx]; [discriminate|]. simpl in Hsrc. inversion Hsrc as [|? j ? src' Hj Hsrc']; subst.
    simpl in Hj, Hk, Hrr. destruct (Nat.ltb_spec i (length s)) as [Hi|]; [|discriminate].
    destruct (ravel (List.map _ sels) idx) as [k'|] eqn:Ek; [|discriminate]. injection Hk as <-.
    destruct (Nat.ltb_spec j n) as [Hjn|]; [|discriminate].
    destruct (ravel sh src') as [r'|] eqn:Er; [|discriminate]. injection Hrr as <-.
    simpl.
    rewrite nth_error_flat_map with (a := j); auto.
    + rewrite IH with (idx := idx) (src := src') (r := r'); auto.
      * rewrite firstn_skipn_nth_error.
        apply ravel_lt in Er. destruct (Nat.ltb_spec r' (prod sh)); [reflexivity|lia].
      * apply firstn_skipn_length with (n := n); auto.
    + intros x Hx. apply take_flat_length; auto. { eapply Forall2_length; eauto. }
      apply firstn_skipn_length with (n := n); auto.
    + eapply ravel_lt; eauto.
Qed.

(** Elements of a sub-array: along each axis the [idx]-th kept position. *)
Lemma get_take {A} sels (a : nda A) idx src :
  wf a -> Forall2 (fun s n => forall i, In i s -> i < n) sels (shape a) ->
  in_range (List.map (@length nat) sels) idx ->
  Forall2 (fun si j => nth_error (fst si) (snd si) = Some j) (combine sels idx) src ->
  get (take sels a) idx = get a src.
Proof.
  intros Hw Hs Hi Hsrc. unfold get. simpl.
  apply ravel_in_range in Hi as [k Hk]. rewrite Hk.
  assert (Hr : in_range (shape a) src).
  { clear Hw. revert idx src k Hk Hsrc. induction Hs as [|s n sels sh Hsn Hr IH];
      intros [|i idx] src k Hk Hsrc; simpl in *; try discriminate.
    - inversion Hsrc. constructor.
    - inversion Hsrc as [|? j ? src' Hj Hsrc']; subst. simpl in Hj.
      destruct (i <? length s); [|discriminate].
      destruct (ravel (List.map _ sels) idx) as [k'|] eqn:Ek; [|discriminate].
      constructor; [eapply Hsn, nth_error_In; eauto | eapply IH; eauto]. }
  apply ravel_in_range in Hr as [r Hr]. rewrite Hr.
  eapply take_flat_get; eauto.
Qed.
