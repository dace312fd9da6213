(** * Lemmas about broadcasting and transposition. *)
From Coq Require Import String Ascii List Arith ZArith QArith Qabs Bool Lia.
From Verif Require Import Prelude PreludeFacts NdArray GData_Model Ev_Model.
Import ListNotations.
Open Scope list_scope.

(** Element of an array, 0 outside. *)
Definition at_ (a : nda Q) (idx : list nat) : Q := match get a idx with Some v => v | None => 0%Q end.

Lemma at_get a idx : wf a -> in_range (shape a) idx -> get a idx = Some (at_ a idx).
Proof. intros W H. destruct (get_in a idx W H) as [v E]. unfold at_. now rewrite E. Qed.

Lemma in_range_app s t i j : in_range s i -> in_range t j -> in_range (s ++ t) (i ++ j).
Proof. unfold in_range. apply Forall2_app. Qed.

Lemma in_range_app_inv s t idx : in_range (s ++ t) idx ->
  exists i j, idx = i ++ j /\ in_range s i /\ in_range t j.
Proof.
  unfold in_range. intros H. apply Forall2_app_inv_r in H as (i & j & Hi & Hj & ->). eauto.
Qed.

Lemma in_range_rev s i : in_range s i -> in_range (rev s) (rev i).
Proof.
  unfold in_range. induction 1; simpl; [constructor|]. apply Forall2_app; auto.
Qed.

Lemma in_range_rev_iff s i : in_range (rev s) i <-> in_range s (rev i).
Proof.
  split; intros H.
  - apply in_range_rev in H. now rewrite rev_involutive in H.
  - apply in_range_rev in H. now rewrite rev_involutive in H.
Qed.

(** ** Transposition *)
Lemma shape_transpose (a : nda Q) : shape (transpose 0%Q a) = rev (shape a).
Proof. reflexivity. Qed.

Lemma wf_transpose (a : nda Q) : wf (transpose 0%Q a).
Proof. apply wf_tabulate. Qed.

Lemma get_transpose (a : nda Q) idx : in_range (rev (shape a)) idx ->
  get (transpose 0%Q a) idx = Some (at_ a (rev idx)).
Proof. intros H. unfold transpose. rewrite get_tabulate by exact H. reflexivity. Qed.

Lemma at_transpose (a : nda Q) idx : in_range (rev (shape a)) idx ->
  at_ (transpose 0%Q a) idx = at_ a (rev idx).
Proof. intros H. unfold at_ at 1. now rewrite get_transpose. Qed.

(** ** Broadcasting *)
Lemma bdim_same a : bdim a a = Ok a.
Proof. unfold bdim. now rewrite Nat.eqb_refl. Qed.

Lemma bdim_sym a b : bdim a b = bdim b a.
Proof.
  unfold bdim. rewrite (Nat.eqb_sym b a). destruct (Nat.eqb_spec a b); [now subst|].
  destruct (Nat.eqb_spec a 1), (Nat.eqb_spec b 1); subst; try reflexivity.
Qed.

Lemma bdim_one a : bdim 1 a = Ok a.
Proof. unfold bdim. destruct (Nat.eqb_spec 1 a); [subst|]; reflexivity. Qed.

Lemma bdims_same s : bdims s s = Ok s.
Proof. induction s as [|a s IH]; [reflexivity|]. cbn [bdims]. rewrite bdim_same, IH. reflexivity. Qed.

Lemma bdims_sym s t : bdims s t = bdims t s.
Proof.
  revert t; induction s as [|a s IH]; intros [|b t]; try reflexivity. cbn [bdims]. now rewrite bdim_sym, IH.
Qed.

Lemma bdims_ones t s : bdims (List.repeat 1%nat (length t) ++ s) (t ++ s) = Ok (t ++ s).
Proof.
  induction t as [|a t IH]; [apply bdims_same|]. cbn [length List.repeat app bdims]. rewrite bdim_one, IH. reflexivity.
Qed.

Lemma bidx_same s idx : in_range s idx -> bidx s idx = idx.
Proof.
  unfold in_range. induction 1 as [|i n idx s H _ IH]; [reflexivity|]. unfold bidx in *. cbn [map2]. rewrite IH.
  destruct (Nat.eqb_spec n 1); [|reflexivity]. f_equal. lia.
Qed.

Lemma pad_front_full n s : n = length s -> pad_front n s = s.
Proof. intros ->. unfold pad_front. now rewrite Nat.sub_diag. Qed.

Definition rdx (n : nat) (a : nda Q) (idx : list nat) : Q :=
  at_ a (bidx (shape a) (skipn (n - length (shape a)) idx)).

Lemma qb_tab f a b sh :
  let n := Nat.max (length (shape a)) (length (shape b)) in
  bdims (pad_front n (shape a)) (pad_front n (shape b)) = Ok sh ->
  qb f a b = Ok (tabulate sh (fun idx => f (rdx n a idx) (rdx n b idx))).
Proof. intros n H. unfold qb, broadcast. fold n. rewrite H. reflexivity. Qed.

Lemma qb_err f a b e :
  let n := Nat.max (length (shape a)) (length (shape b)) in
  bdims (pad_front n (shape a)) (pad_front n (shape b)) = Err e -> qb f a b = Err e.
Proof. intros n H. unfold qb, broadcast. fold n. rewrite H. reflexivity. Qed.

Lemma tabulate_ext {A} sh (f g : list nat -> A) : (forall i, f i = g i) -> tabulate sh f = tabulate sh g.
Proof. intros H. unfold tabulate. f_equal. apply map_ext. exact H. Qed.

(** Exchanging the operands. *)
Lemma qb_flip f a b : qb f a b = qb (fun x y => f y x) b a.
Proof.
  set (n := Nat.max (length (shape a)) (length (shape b))).
  destruct (bdims (pad_front n (shape a)) (pad_front n (shape b))) as [sh|e] eqn:E.
  - rewrite (qb_tab f a b sh E). rewrite (qb_tab (fun x y => f y x) b a sh).
    + f_equal. apply tabulate_ext. intros i. subst n. now rewrite (Nat.max_comm (length (shape b))).
    + rewrite (Nat.max_comm (length (shape b))). fold n. now rewrite bdims_sym.
  - rewrite (qb_err f a b e E). symmetry. apply qb_err.
    rewrite (Nat.max_comm (length (shape b))). fold n. now rewrite bdims_sym.
Qed.

Lemma qb_ext f g a b : (forall x y, f x y = g x y) -> qb f a b = qb g a b.
Proof.
  intros H. set (n := Nat.max (length (shape a)) (length (shape b))).
  destruct (bdims (pad_front n (shape a)) (pad_front n (shape b))) as [sh|e] eqn:E.
  - rewrite (qb_tab f a b sh E), (qb_tab g a b sh E). f_equal. apply tabulate_ext. intros i. apply H.
  - now rewrite (qb_err f a b e E), (qb_err g a b e E).
Qed.

Lemma v_lead_flip f x y : v_lead f x y = v_lead (fun a b => f b a) y x.
Proof.
  unfold v_lead.
  assert (E : (if list_eq_dec Nat.eq_dec (shape y) (shape x) then true else false)
            = (if list_eq_dec Nat.eq_dec (shape x) (shape y) then true else false)).
  { destruct (list_eq_dec Nat.eq_dec (shape y) (shape x)), (list_eq_dec Nat.eq_dec (shape x) (shape y)); congruence. }
  rewrite E. destruct (if list_eq_dec Nat.eq_dec (shape x) (shape y) then true else false); cbn [orb].
  - apply qb_flip.
  - rewrite (orb_comm (length (shape y) =? 0)%nat). destruct (_ || _).
    + apply qb_flip.
    + now rewrite qb_flip.
Qed.

Lemma v_lead_ext f g x y : (forall a b, f a b = g a b) -> v_lead f x y = v_lead g x y.
Proof.
  intros H. unfold v_lead. rewrite (qb_ext f g y x H). destruct (_ || _ || _); [reflexivity|]. now rewrite (qb_ext f g _ _ H).
Qed.

Lemma Qplus_comm_eq a b : (a + b)%Q = (b + a)%Q.
Proof. destruct a as [a p], b as [b q]. unfold Qplus. cbn. f_equal; [apply Z.add_comm|apply Pos.mul_comm]. Qed.
Lemma Qmult_comm_eq a b : (a * b)%Q = (b * a)%Q.
Proof. destruct a as [a p], b as [b q]. unfold Qmult. cbn. f_equal; [apply Z.mul_comm|apply Pos.mul_comm]. Qed.

(** Operands of the same shape. *)
Lemma qb_same f a b : shape a = shape b ->
  exists r, qb f a b = Ok r /\ wf r /\ shape r = shape a /\
    forall idx, in_range (shape a) idx -> get r idx = Some (f (at_ a idx) (at_ b idx)).
Proof.
  intros E. set (n := Nat.max (length (shape a)) (length (shape b))).
  assert (Hn : n = length (shape a)) by (unfold n; rewrite <- E; lia).
  assert (H : bdims (pad_front n (shape a)) (pad_front n (shape b)) = Ok (shape a)).
  { rewrite !pad_front_full by congruence. rewrite <- E. apply bdims_same. }
  rewrite (qb_tab f a b _ H). eexists; split; [reflexivity|]. split; [apply wf_tabulate|]. split; [reflexivity|].
  intros idx Hi. rewrite get_tabulate by exact Hi. unfold rdx. fold n.
  assert (Ha : (n - length (shape a) = 0)%nat) by lia. assert (Hb : (n - length (shape b) = 0)%nat) by (rewrite <- E; lia).
  rewrite Ha, Hb. cbn [skipn]. rewrite !bidx_same; auto. now rewrite <- E.
Qed.

(** A number (0-d array) with an array. *)
Lemma qb_scalar f a b : shape a = [] ->
  exists r, qb f a b = Ok r /\ wf r /\ shape r = shape b /\
    forall idx, in_range (shape b) idx -> get r idx = Some (f (at_ a []) (at_ b idx)).
Proof.
  intros E. set (n := Nat.max (length (shape a)) (length (shape b))).
  assert (Hn : n = length (shape b)) by (unfold n; rewrite E; reflexivity).
  assert (H : bdims (pad_front n (shape a)) (pad_front n (shape b)) = Ok (shape b)).
  { rewrite (pad_front_full n (shape b)) by congruence. unfold pad_front. rewrite E. cbn [length]. rewrite Nat.sub_0_r, Hn.
    pose proof (bdims_ones (shape b) []) as P. rewrite !app_nil_r in P. rewrite app_nil_r. exact P. }
  rewrite (qb_tab f a b _ H). eexists; split; [reflexivity|]. split; [apply wf_tabulate|]. split; [reflexivity|].
  intros idx Hi. rewrite get_tabulate by exact Hi. unfold rdx. fold n.
  assert (Hb : (n - length (shape b) = 0)%nat) by lia. rewrite Hb, E. cbn [skipn]. rewrite (bidx_same (shape b)) by auto. reflexivity.
Qed.

Lemma qb_scalar_r f a b : shape b = [] ->
  exists r, qb f a b = Ok r /\ wf r /\ shape r = shape a /\
    forall idx, in_range (shape a) idx -> get r idx = Some (f (at_ a idx) (at_ b [])).
Proof. intros E. rewrite qb_flip. now apply qb_scalar. Qed.

Lemma in_range_snoc s i m c : in_range s i -> (c < m)%nat -> in_range (s ++ [m]) (i ++ [c]).
Proof. intros H1 H2. apply in_range_app; auto. constructor; [exact H2|constructor]. Qed.

(** Single component with several components, trailing axes aligned. *)
Lemma qb_one_comp f a b cc nc : shape a = cc ++ [1%nat] -> shape b = cc ++ [nc] ->
  exists r, qb f a b = Ok r /\ wf r /\ shape r = shape b /\
    forall i c, in_range cc i -> (c < nc)%nat -> get r (i ++ [c]) = Some (f (at_ a (i ++ [0%nat])) (at_ b (i ++ [c]))).
Proof.
  intros Ea Eb. set (n := Nat.max (length (shape a)) (length (shape b))).
  assert (Hn : n = length (cc ++ [nc])) by (unfold n; rewrite Ea, Eb, !app_length; simpl; lia).
  assert (H : bdims (pad_front n (shape a)) (pad_front n (shape b)) = Ok (shape b)).
  { rewrite !pad_front_full by (rewrite ?Ea, ?Eb, Hn, ?app_length; simpl; lia). rewrite Ea, Eb. clear.
    induction cc as [|c cc IH]; cbn [app bdims]; [rewrite bdim_one; reflexivity|]. rewrite bdim_same, IH. reflexivity. }
  rewrite (qb_tab f a b _ H). eexists; split; [reflexivity|]. split; [apply wf_tabulate|]. split; [reflexivity|].
  intros i c Hi Hc. rewrite get_tabulate by (rewrite Eb; now apply in_range_snoc).
  unfold rdx. fold n. assert (Ha : (n - length (shape a) = 0)%nat) by (rewrite Ea, Hn, !app_length; simpl; lia).
  assert (Hb : (n - length (shape b) = 0)%nat) by (rewrite Eb, Hn; lia).
  rewrite Ha, Hb. cbn [skipn]. rewrite (bidx_same (shape b)) by (rewrite Eb; now apply in_range_snoc).
  assert (B : bidx (cc ++ [1%nat]) (i ++ [c]) = i ++ [0%nat]).
  { clear - Hi. unfold bidx. induction Hi as [|i0 n0 i cc H0 _ IH]; [reflexivity|]. cbn [app map2]. rewrite IH. f_equal.
    destruct (Nat.eqb_spec n0 1); lia. }
  rewrite Ea, B. reflexivity.
Qed.

(** A configuration-space array with one component and a phase-space array:
    leading axes aligned. *)
Lemma qb_lead f a b cc vv nc : shape a = cc ++ [1%nat] -> shape b = cc ++ vv ++ [nc] ->
  exists r, qb f (transpose 0%Q a) (transpose 0%Q b) = Ok r /\ shape r = rev (shape b) /\
    forall i v c, in_range cc i -> in_range vv v -> (c < nc)%nat ->
      get (transpose 0%Q r) (i ++ v ++ [c]) = Some (f (at_ a (i ++ [0%nat])) (at_ b (i ++ v ++ [c]))).
Proof.
  intros Ea Eb. set (n := Nat.max (length (rev (shape a))) (length (rev (shape b)))).
  assert (Ra : rev (shape a) = 1%nat :: rev cc) by (rewrite Ea, rev_app_distr; reflexivity).
  assert (Rb : rev (shape b) = (nc :: rev vv) ++ rev cc) by (rewrite Eb, !rev_app_distr; reflexivity).
  assert (Hn : n = (length cc + length vv + 1)%nat).
  { unfold n. rewrite Ra, Rb. cbn [length app]. rewrite app_length, !rev_length. lia. }
  assert (H : bdims (pad_front n (rev (shape a))) (pad_front n (rev (shape b))) = Ok (rev (shape b))).
  { rewrite (pad_front_full n (rev (shape b))) by (rewrite Rb, Hn; cbn [length app]; rewrite app_length, !rev_length; lia).
    rewrite Rb. rewrite <- bdims_ones at 1. f_equal. unfold pad_front. rewrite Ra. cbn [length]. rewrite rev_length.
    replace (n - S (length cc))%nat with (length vv) by lia.
    cbn [length]. rewrite rev_length. cbn [List.repeat]. rewrite repeat_cons, <- app_assoc. reflexivity. }
  rewrite (qb_tab f (transpose 0%Q a) (transpose 0%Q b) _ H). eexists; split; [reflexivity|]. split; [reflexivity|].
  intros i v c Hi Hv Hc.
  assert (Hrb : in_range (shape b) (i ++ v ++ [c])).
  { rewrite Eb. apply in_range_app; auto. now apply in_range_snoc. }
  rewrite get_transpose; cbn [shape tabulate].
  2:{ rewrite rev_involutive. exact Hrb. }
  unfold at_ at 1. rewrite get_tabulate by now apply in_range_rev.
  do 2 f_equal; unfold rdx; cbn [shape transpose tabulate]; fold n.
  - rewrite !rev_app_distr. cbn [rev app]. rewrite Ra. cbn [length]. rewrite rev_length.
    replace (n - S (length cc))%nat with (length vv) by lia.
    assert (Ls : skipn (length vv) (c :: rev v ++ rev i) = last (c :: rev v) 0%nat :: rev i).
    { change (c :: rev v ++ rev i) with ((c :: rev v) ++ rev i).
      assert (L : length (c :: rev v) = S (length vv)) by (cbn [length]; rewrite rev_length; f_equal; now apply in_range_length).
      destruct (exists_last (l := c :: rev v)) as (m & x & Em); [discriminate|]. rewrite Em in L |- *.
      rewrite last_last, <- app_assoc. apply skipn_app_exact. rewrite app_length in L. cbn in L. lia. }
    rewrite Ls. unfold bidx. cbn [map2 Nat.eqb]. change (map2 _ (rev cc) (rev i)) with (bidx (rev cc) (rev i)).
    rewrite bidx_same by now apply in_range_rev.
    rewrite at_transpose.
    + cbn [rev]. now rewrite rev_involutive.
    + rewrite Ra. constructor; [lia|]. now apply in_range_rev.
  - replace (n - length (rev (shape b)))%nat with 0%nat.
    2:{ rewrite Rb, Hn. cbn [length app]. rewrite app_length, !rev_length. lia. }
    cbn [skipn]. rewrite bidx_same by now apply in_range_rev. rewrite at_transpose by now apply in_range_rev.
    now rewrite rev_involutive.
Qed.
