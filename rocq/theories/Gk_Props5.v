(** * C64: cell edges from cell centres. *)
From Coq Require Import List Bool Reals Sorted Lia Lra.
From Verif Require Import Prelude PreludeFacts Gk_Model.
Import ListNotations.
Open Scope R_scope.
Open Scope nat_scope.

(** The result, entry by entry. *)
Lemma map2_nth {A B C} (f : A -> B -> C) l m i a b c :
  i < length l -> i < length m -> nth i (map2 f l m) c = f (nth i l a) (nth i m b).
Proof.
  revert m i. induction l as [|x l IH]; intros [|y m] i; simpl; intros; try lia. destruct i; [reflexivity|]. apply IH; lia.
Qed.
Lemma map2_len {A B C} (f : A -> B -> C) l m : length (map2 f l m) = Nat.min (length l) (length m).
Proof. revert m. induction l as [|x l IH]; intros [|y m]; simpl; auto. Qed.
Lemma removelast_nth (l : list R) i : S i < length l -> nth i (removelast l) 0%R = nth i l 0%R.
Proof.
  revert i. induction l as [|x l IH]; intros i H; [simpl in H; lia|]. destruct l as [|y l]; [simpl in H; lia|].
  change (removelast (x :: y :: l)) with (x :: removelast (y :: l)). destruct i; [reflexivity|]. cbn [nth]. apply IH. simpl in *. lia.
Qed.
Lemma removelast_len (l : list R) : length (removelast l) = pred (length l).
Proof.
  induction l as [|x l IH]; [reflexivity|]. destruct l as [|y l]; [reflexivity|].
  change (removelast (x :: y :: l)) with (x :: removelast (y :: l)). simpl in *. now rewrite IH.
Qed.
Lemma set_nth_len {A} i (x : A) l : length (set_nth i x l) = length l.
Proof. revert i. induction l as [|y l IH]; intros [|i]; simpl; auto. Qed.
Lemma set_nth_nth {A} i j (x d : A) l : i < length l -> nth j (set_nth i x l) d = if Nat.eqb j i then x else nth j l d.
Proof.
  revert i j. induction l as [|y l IH]; intros i j H; [simpl in H; lia|]. destruct i, j; cbn; auto. apply IH. simpl in H. lia.
Qed.
Lemma last_nth (l : list R) : last l 0%R = nth (length l - 1) l 0%R.
Proof.
  induction l as [|x l IH]; [reflexivity|]. destruct l as [|y l]; [reflexivity|].
  change (last (x :: y :: l) 0%R) with (last (y :: l) 0%R). rewrite IH. simpl. now rewrite Nat.sub_0_r.
Qed.

Lemma nodal_nth c :
  2 <= length c ->
  exists e, cell_centered_to_nodal c = Ok e /\ length e = S (length c) /\
    (forall i, 0 < i -> i < length c -> (nth i e 0 = (nth (i - 1)%nat c 0 + nth i c 0) / 2)%R) /\
    (nth 0 e 0 = nth 0 c 0 - (nth 1 c 0 - nth 0 c 0) / 2)%R /\
    (nth (length c) e 0 = nth (length c - 1)%nat c 0 + (nth (length c - 1)%nat c 0 - nth (length c - 2)%nat c 0) / 2)%R.
Proof.
  intros L. destruct c as [|c0 [|c1 c']]; try (simpl in L; lia). unfold cell_centered_to_nodal.
  set (c := c0 :: c1 :: c') in *.
  set (mid := map2 (fun a b => 0.5 * (a + b))%R (removelast c) (c1 :: c')).
  assert (LM : length mid = length c - 1).
  { unfold mid. rewrite map2_len, removelast_len. unfold c. simpl. lia. }
  assert (NM : forall i, S i < length c -> nth i mid 0%R = ((nth i c 0 + nth (S i) c 0) / 2)%R).
  { intros i Hi. unfold mid. rewrite (map2_nth _ _ _ i 0%R 0%R) by (rewrite ?removelast_len; unfold c in *; simpl in *; lia).
    rewrite removelast_nth by exact Hi. change (nth (S i) c 0%R) with (nth i (c1 :: c') 0%R). lra. }
  assert (N0 : forall i, 0 < i -> i < length c -> nth i (0%R :: mid ++ [0%R]) 0%R = ((nth (i - 1)%nat c 0 + nth i c 0) / 2)%R).
  { intros [|i] H1 H2; [lia|]. cbn [nth]. rewrite app_nth1 by lia. replace (S i - 1) with i by lia. now apply NM. }
  set (n0 := 0%R :: mid ++ [0%R]) in *.
  assert (L0 : length n0 = S (length c)) by (unfold n0; cbn [length]; rewrite app_length, LM; cbn [length]; lia).
  set (n1 := set_nth 0 _ n0). assert (L1 : length n1 = S (length c)) by (unfold n1; now rewrite set_nth_len).
  eexists. split; [reflexivity|]. split; [now rewrite set_nth_len|]. clearbody mid n0.
  assert (N1 : forall i, 0 < i -> nth i n1 0%R = nth i n0 0%R).
  { intros i Hi. unfold n1. rewrite set_nth_nth by lia. destruct i; [lia|reflexivity]. }
  split; [|split].
  - intros i H1 H2. rewrite set_nth_nth by lia. destruct (Nat.eqb_spec i (length c)); [lia|]. rewrite N1 by exact H1. now apply N0.
  - rewrite set_nth_nth by lia. change (0 =? length c) with false. cbn [Nat.eqb]. unfold n1. rewrite set_nth_nth by lia. cbn [Nat.eqb].
    rewrite N0 by lia. cbn [Nat.sub]. change (nth 0 c 0%R) with c0. lra.
  - rewrite set_nth_nth by lia. rewrite Nat.eqb_refl. rewrite N1, N0 by lia. rewrite last_nth.
    replace (length c - 1 - 1) with (length c - 2) by lia. lra.
Qed.

(** One more edge than cells; interior edges lie halfway between the centres,
    the first and the last centre halfway between their two edges. *)
Theorem C64_edges c :
  2 <= length c ->
  exists e, cell_centered_to_nodal c = Ok e /\ length e = S (length c) /\
    (forall i, 0 < i -> i < length c -> (nth i e 0 = (nth (i - 1)%nat c 0 + nth i c 0) / 2)%R) /\
    (nth 0 c 0 = (nth 0 e 0 + nth 1 e 0) / 2)%R /\
    (nth (length c - 1)%nat c 0 = (nth (length c - 1)%nat e 0 + nth (length c) e 0) / 2)%R.
Proof.
  intros L. destruct (nodal_nth c L) as (e & E & Le & Hi & H0 & Hn). exists e. repeat split; auto.
  - rewrite H0, (Hi 1) by lia. cbn [Nat.sub]. lra.
  - rewrite Hn, (Hi (length c - 1)) by lia. replace (length c - 1 - 1) with (length c - 2) by lia. lra.
Qed.

(** Centres of cells of equal width give back the edges. *)
Theorem C64_uniform x h n :
  2 <= n ->
  cell_centered_to_nodal (map (fun i => x + (INR i + /2) * h)%R (seq 0 n)) = Ok (map (fun i => x + INR i * h)%R (seq 0 (S n))).
Proof.
  intros L. set (c := map _ (seq 0 n)). assert (Lc : length c = n) by (unfold c; now rewrite map_length, seq_length).
  assert (Nc : forall i, i < n -> nth i c 0%R = (x + (INR i + /2) * h)%R).
  { intros i Hi. unfold c. rewrite nth_indep with (d' := (x + (INR 0 + /2) * h)%R) by (now rewrite map_length, seq_length).
    rewrite (map_nth (fun i => x + (INR i + /2) * h)%R). rewrite seq_nth by exact Hi. reflexivity. }
  destruct (nodal_nth c) as (e & E & Le & Hi & H0 & Hn); [lia|]. rewrite E. f_equal.
  apply nth_ext with (d := 0%R) (d' := (x + INR 0 * h)%R); [now rewrite Le, map_length, seq_length, Lc|].
  rewrite Le, Lc. intros i Li. rewrite (map_nth (fun i => x + INR i * h)%R). rewrite seq_nth by exact Li. cbn [Nat.add].
  destruct i as [|i].
  - rewrite H0, !Nc by lia. simpl. lra.
  - destruct (Nat.eq_dec (S i) n) as [Q|Q].
    + rewrite <- Lc in Q. rewrite Q, Hn, !Nc by lia. rewrite <- Q.
      replace (S i - 1) with i by lia. replace (S i - 2) with (pred i) by lia. destruct i as [|i]; [lia|]. cbn [pred]. rewrite !S_INR. lra.
    + rewrite Hi, !Nc by lia. replace (S i - 1) with i by lia. rewrite S_INR. lra.
Qed.

(** Increasing centres give increasing edges, with every centre inside its
    cell. *)
Theorem C64_increasing c e :
  2 <= length c -> (forall i, S i < length c -> (nth i c 0 < nth (S i) c 0)%R) ->
  cell_centered_to_nodal c = Ok e ->
  forall i, i < length c -> (nth i e 0 < nth i c 0 < nth (S i) e 0)%R.
Proof.
  intros L Inc E. destruct (nodal_nth c L) as (e' & E' & Le & Hi & H0 & Hn). rewrite E in E'. injection E' as <-.
  intros i Hl. split.
  - destruct i as [|i]; [rewrite H0; specialize (Inc 0 ltac:(lia)); lra|]. rewrite Hi by lia. replace (S i - 1) with i by lia.
    specialize (Inc i Hl). lra.
  - destruct (Nat.eq_dec (S i) (length c)) as [Q|Q].
    + rewrite Q, Hn. rewrite <- Q. replace (S i - 1) with i by lia. replace (S i - 2) with (pred i) by lia.
      destruct i as [|i]; [lia|]. cbn [pred]. specialize (Inc i Hl). lra.
    + rewrite Hi by lia. replace (S i - 1) with i by lia. specialize (Inc i ltac:(lia)). lra.
Qed.

(** No cells are an error. *)
Theorem C64_empty : cell_centered_to_nodal [] = Err IndexError.
Proof. reflexivity. Qed.

(** With a single cell its upper edge is put at zero, wherever the cell is. *)
Theorem C64_single_refuted : exists c, exists e, cell_centered_to_nodal [c] = Ok e /\ ~ (nth 0 e 0 < c < nth 1 e 0)%R.
Proof.
  exists 1%R. eexists. split; [reflexivity|]. cbn. lra.
Qed.

(** Cells of different widths are not recovered from their centres. *)
Theorem C64_unequal_refuted :
  exists e0 e1 e2 e3, (e0 < e1 < e2 /\ e2 < e3)%R /\
    cell_centered_to_nodal [(e0 + e1) / 2; (e1 + e2) / 2; (e2 + e3) / 2]%R <> Ok [e0; e1; e2; e3].
Proof.
  exists 0%R, 1%R, 4%R, 5%R. split; [lra|]. intros H. cbv - [Rplus Rmult Rdiv Rminus Rinv IZR] in H.
  injection H as _ H _ _. revert H. cbn. lra.
Qed.

Example C64_ex : exists e, cell_centered_to_nodal [1; 3; 5]%R = Ok e /\ nth 0 e 0%R = 0%R /\ nth 2 e 0%R = 4%R /\ nth 3 e 0%R = 6%R.
Proof.
  destruct (nodal_nth [1; 3; 5]%R) as (e & E & _ & Hi & H0 & Hn); [simpl; lia|]. exists e. rewrite E, (Hi 2), H0 by (simpl; lia).
  simpl in Hn. rewrite Hn. simpl. repeat split; lra.
Qed.

Print Assumptions C64_edges.
Print Assumptions C64_uniform.
Print Assumptions C64_increasing.
