(** * Proofs about the DG mesh evaluation. *)
From Coq Require Import String Ascii List Arith ZArith Bool Lia.
From Verif Require Import Prelude PreludeFacts NdArray Gkyl_Model Dg_Poly Dg_Model Dg_Spec.
Import ListNotations.
Open Scope list_scope.
Open Scope nat_scope.

(** ** First-fastest numbering of multi-indices *)

Lemma fpos_lt ns ks : in_range ns ks -> fpos ns ks < prod ns.
Proof.
  unfold in_range. intros H. induction H as [|k n ks ns Hk _ IH]; [simpl; lia|].
  cbn [fpos]. unfold prod in *. cbn [fold_right]. nia.
Qed.

Lemma unravel_fpos ns ks : in_range ns ks -> unravel_f ns (fpos ns ks) = ks.
Proof.
  unfold in_range. intros H. induction H as [|k n ks ns Hk _ IH]; [reflexivity|].
  cbn [fpos unravel_f]. rewrite (Nat.mul_comm n), Nat.mod_add, Nat.div_add, Nat.mod_small, Nat.div_small by lia.
  rewrite Nat.add_0_l, IH. reflexivity.
Qed.

Lemma fpos_unravel ns r : r < prod ns -> fpos ns (unravel_f ns r) = r /\ in_range ns (unravel_f ns r).
Proof.
  revert r. induction ns as [|n ns IH]; intros r H.
  - unfold prod in H; simpl in *. split; [lia|constructor].
  - unfold prod in H; cbn [fold_right] in H. fold (prod ns) in H.
    destruct n as [|n]; [lia|].
    assert (L : r / S n < prod ns) by (apply Nat.div_lt_upper_bound; lia).
    destruct (IH _ L) as [E R]. cbn [unravel_f fpos]. rewrite E. split.
    + rewrite (Nat.div_mod r (S n)) at 3 by lia. lia.
    + constructor; [apply Nat.mod_upper_bound; lia|exact R].
Qed.

Lemma fpos_mono ns ks ks' :
  Forall2 le ks ks' -> length ns = length ks -> fpos ns ks <= fpos ns ks'.
Proof.
  intros H. revert ns. induction H as [|k k' ks ks' Hk _ IH]; intros [|n ns] E; simpl in *; try lia.
  specialize (IH ns ltac:(lia)). nia.
Qed.

Lemma unravel_length ns r : length (unravel_f ns r) = length ns.
Proof. revert r. induction ns; simpl; auto. Qed.

(** ** Selections *)

Lemma index_of_Some x l k : index_of x l = Some k -> nth_error l k = Some x.
Proof.
  revert k. induction l as [|y l IH]; simpl; [discriminate|]. intros k.
  destruct (Nat.eqb_spec x y) as [->|N].
  - intros [= <-]. reflexivity.
  - destruct (index_of x l) as [k'|]; [|discriminate]. intros [= <-]. simpl. auto.
Qed.

Lemma index_of_In x l : In x l -> exists k, index_of x l = Some k.
Proof.
  induction l as [|y l IH]; simpl; [tauto|]. intros H.
  destruct (Nat.eqb_spec x y) as [->|N]; [eauto|].
  destruct H as [->|H]; [congruence|]. destruct (IH H) as [k ->]. simpl. eauto.
Qed.

Definition line (c s k : nat) : list nat := List.map (fun j => k + j * s) (seq 0 c).

Lemma index_of_line c s k x j :
  0 < s -> index_of x (line c s k) = Some j <-> (j < c /\ x = k + j * s).
Proof.
  intros Hs. split.
  - intros H. apply index_of_Some in H. unfold line in H. rewrite nth_error_map, nth_error_seq in H.
    destruct (Nat.ltb_spec j c); [|discriminate]. simpl in H. injection H as <-. auto.
  - intros [Hj ->].
    assert (Hin : In (k + j * s) (line c s k)).
    { apply in_map_iff. exists j. split; auto. apply in_seq. lia. }
    destruct (index_of_In _ _ Hin) as [j' Hj']. rewrite Hj'. f_equal.
    apply index_of_Some in Hj'. unfold line in Hj'. rewrite nth_error_map, nth_error_seq in Hj'.
    destruct (Nat.ltb_spec j' c); [|discriminate]. simpl in Hj'. injection Hj' as E. nia.
Qed.

Lemma strided_line c n k : k < n -> strided (c * n) k (c * n) n = line c n k.
Proof.
  intros H. unfold strided, line. do 2 f_equal.
  rewrite Nat.min_id. replace (c * n + (n - 1) - k) with ((n - 1 - k) + c * n) by lia.
  rewrite Nat.div_add, Nat.div_small by lia. lia.
Qed.

Lemma strided_line_c2p c n k :
  k < n -> 2 <= n -> strided (c * (n - 1) + 1) k (c * (n - 1) + k) (n - 1) = line c (n - 1) k.
Proof.
  intros H Hn. unfold strided, line. do 2 f_equal. set (s := n - 1). assert (Hs : 0 < s) by lia.
  destruct k as [|k].
  - rewrite Nat.min_l by lia. replace (c * s + 0 + (s - 1) - 0) with ((s - 1) + c * s) by lia.
    rewrite Nat.div_add, Nat.div_small by lia. lia.
  - rewrite Nat.min_r by lia. replace (c * s + 1 + (s - 1) - S k) with ((s - S k) + c * s) by lia.
    rewrite Nat.div_add, Nat.div_small by lia. lia.
Qed.

(** All axes together: [x_d = k_d + j_d * s_d]. *)
Fixpoint on_mesh (cs ss ks x j : list nat) : Prop :=
  match cs, ss, ks, x, j with
  | [], [], [], [], [] => True
  | c :: cs', s :: ss', k :: ks', y :: x', i :: j' =>
      i < c /\ y = k + i * s /\ on_mesh cs' ss' ks' x' j'
  | _, _, _, _, _ => False
  end.

Definition step_of (c2p : bool) (n : nat) : nat := if c2p then n - 1 else n.

Lemma mesh_sels_lines c2p cs ns ks :
  length cs = length ns -> in_range ns ks -> Forall (fun n => 2 <= n) ns ->
  mesh_sels c2p cs ns ks (mesh_shape c2p cs ns)
  = map2 (fun p k => line (fst p) (step_of c2p (snd p)) k) (combine cs ns) ks.
Proof.
  intros L R G. revert cs L. unfold in_range in R.
  induction R as [|k n ks ns Hk _ IH]; intros [|c cs] L; simpl in L; try discriminate.
  - reflexivity.
  - inversion_clear G as [|? ? Hn G'].
    unfold mesh_sels, mesh_shape in *. cbn [map2 combine List.map fst snd].
    rewrite (IH G' cs) by lia. f_equal. destruct c2p; cbn [step_of].
    + apply strided_line_c2p; auto.
    + apply strided_line; auto.
Qed.

Lemma locate_lines c2p cs ns ks x j :
  length cs = length ns -> in_range ns ks -> Forall (fun n => 2 <= n) ns ->
  locate (map2 (fun p k => line (fst p) (step_of c2p (snd p)) k) (combine cs ns) ks) x = Some j
  <-> on_mesh cs (List.map (step_of c2p) ns) ks x j.
Proof.
  intros L R G. revert cs x j L. unfold in_range in R.
  induction R as [|k n ks ns Hk _ IH]; intros [|c cs] x j L; simpl in L; try discriminate.
  - cbn. destruct x, j; simpl; split; intros H; try discriminate; try tauto.
  - inversion_clear G as [|? ? Hn G'].
    assert (Hs : 0 < step_of c2p n) by (destruct c2p; simpl; lia).
    cbn [combine map2 fst snd List.map].
    destruct x as [|y x].
    { cbn. split; [discriminate|tauto]. }
    cbn [locate]. destruct j as [|i j].
    { cbn [on_mesh]. split; [|tauto].
      destruct (index_of y _); [|discriminate]. destruct (locate _ x); discriminate. }
    cbn [on_mesh]. split.
    + destruct (index_of y (line c (step_of c2p n) k)) as [i'|] eqn:E; [|discriminate].
      destruct (locate _ x) as [j'|] eqn:E'; [|discriminate]. intros [= -> ->].
      apply index_of_line in E; auto. apply IH in E'; auto; lia || tauto.
    + intros (Hi & Hy & Ho). replace (index_of y (line c (step_of c2p n) k)) with (Some i).
      2:{ symmetry. apply index_of_line; auto. }
      apply IH in Ho; auto. rewrite Ho. reflexivity.
Qed.

Lemma sels_lengths c2p cs ns ks :
  length cs = length ns -> length ks = length ns ->
  List.map (@length nat) (map2 (fun p k => line (fst p) (step_of c2p (snd p)) k) (combine cs ns) ks) = cs.
Proof.
  revert ns ks. induction cs as [|c cs IH]; intros [|n ns] [|k ks] L1 L2; simpl in *; try discriminate; auto.
  f_equal; [|apply IH; lia]. unfold line. rewrite map_length, seq_length. reflexivity.
Qed.

Lemma list_nat_eqb_refl l : list_nat_eqb l l = true.
Proof. unfold list_nat_eqb. destruct (list_eq_dec _ l l); congruence. Qed.

Lemma list_nat_eqb_eq a b : list_nat_eqb a b = true -> a = b.
Proof. unfold list_nat_eqb. destruct (list_eq_dec _ a b); congruence. Qed.

Lemma on_mesh_lengths cs ss ks x j : on_mesh cs ss ks x j -> in_range cs j.
Proof.
  revert ss ks x j. induction cs as [|c cs IH]; intros [|s ss] [|k ks] [|y x] [|i j]; simpl; try tauto.
  - constructor.
  - intros (H1 & H2 & H3). constructor; auto. eapply IH; eauto.
Qed.

Section Mesh.
  Context {F : Type} (fo : fops F) (dot : list F -> list F -> F).

  Lemma getz_get (a : nda F) idx : wf a -> in_range (shape a) idx -> get a idx = Some (getz fo a idx).
  Proof.
    intros W R. destruct (get_in a idx W R) as [v Hv]. unfold getz. rewrite Hv. reflexivity.
  Qed.

  (** The value written by row [r] at [x], if the row writes there. *)
  Definition hit (c2p : bool) (cmat : list (list F)) (q : nda F) (ns : list nat) (x : list nat) (r : nat) : option F :=
    match nth_error cmat r,
          locate (mesh_sels c2p (removelast (shape q)) ns (unravel_f ns r)
                    (mesh_shape c2p (removelast (shape q)) ns)) x with
    | Some row, Some j => Some (dot row (coeffs fo q (last (shape q) 0) j))
    | _, _ => None
    end.

  Definition upd (c2p : bool) cmat q ns x (v : F) (r : nat) : F :=
    match hit c2p cmat q ns x r with Some w => w | None => v end.

  Lemma mesh_step_ok c2p cmat q ns a r :
    length (removelast (shape q)) = length ns -> Forall (fun n => 2 <= n) ns ->
    wf a -> shape a = mesh_shape c2p (removelast (shape q)) ns ->
    r < prod ns -> (exists row, nth_error cmat r = Some row /\ length row = last (shape q) 0) ->
    exists a', mesh_step fo dot c2p cmat q ns (Ok a) r = Ok a' /\ wf a' /\
      shape a' = shape a /\
      forall x, in_range (shape a) x -> getz fo a' x = upd c2p cmat q ns x (getz fo a x) r.
  Proof.
    intros L G W S Hr (row & Hrow & Hl).
    destruct (fpos_unravel ns r Hr) as [_ R].
    unfold mesh_step, bind, row_values. rewrite Hrow, Hl, Nat.eqb_refl.
    set (t := tabulate _ _). unfold assign. rewrite S.
    rewrite mesh_sels_lines by auto.
    replace (List.map (@length nat) _) with (removelast (shape q)).
    2:{ symmetry. apply sels_lengths; auto. apply unravel_length. }
    change (shape t) with (removelast (shape q)). rewrite list_nat_eqb_refl.
    eexists; split; [reflexivity|]. split; [apply wf_tabulate|]. split; [reflexivity|].
    intros x Hx. unfold getz at 1. rewrite get_tabulate by auto.
    unfold upd, hit. rewrite Hrow. rewrite mesh_sels_lines by auto.
    destruct (locate _ x) as [j|] eqn:E; [|reflexivity].
    apply locate_lines in E; auto. apply on_mesh_lengths in E.
    unfold getz, t. rewrite get_tabulate by auto. reflexivity.
  Qed.

  Lemma mesh_fold c2p cmat q ns rs a :
    length (removelast (shape q)) = length ns -> Forall (fun n => 2 <= n) ns ->
    wf a -> shape a = mesh_shape c2p (removelast (shape q)) ns ->
    (forall r, In r rs -> r < prod ns /\
       exists row, nth_error cmat r = Some row /\ length row = last (shape q) 0) ->
    exists a', fold_left (mesh_step fo dot c2p cmat q ns) rs (Ok a) = Ok a' /\ wf a' /\
      shape a' = shape a /\
      forall x, in_range (shape a) x -> getz fo a' x = fold_left (upd c2p cmat q ns x) rs (getz fo a x).
  Proof.
    intros L G. revert a. induction rs as [|r rs IH]; intros a W S H.
    - exists a. simpl. auto.
    - destruct (H r (or_introl eq_refl)) as [Hr Hrow].
      destruct (mesh_step_ok c2p cmat q ns a r L G W S Hr Hrow) as (a1 & E1 & W1 & S1 & V1).
      destruct (IH a1 W1 ltac:(congruence)) as (a2 & E2 & W2 & S2 & V2).
      { intros r' Hr'. apply H. right. exact Hr'. }
      exists a2. cbn [fold_left]. rewrite E1, E2. split; [reflexivity|].
      split; [auto|]. split; [congruence|].
      intros x Hx. rewrite V2 by (rewrite S1; exact Hx). rewrite V1 by auto. reflexivity.
  Qed.

  (** The last row writing at a point decides its value. *)
  Lemma fold_upd_last c2p cmat q ns x v m r w :
    r < m -> hit c2p cmat q ns x r = Some w ->
    (forall r', r < r' -> r' < m -> hit c2p cmat q ns x r' = None) ->
    fold_left (upd c2p cmat q ns x) (seq 0 m) v = w.
  Proof.
    intros Hr Hh Hn.
    assert (Hnone : forall rs u, (forall r', In r' rs -> hit c2p cmat q ns x r' = None) ->
                fold_left (upd c2p cmat q ns x) rs u = u).
    { induction rs as [|r' rs IH]; intros u H'; [reflexivity|]. cbn [fold_left].
      unfold upd at 2. rewrite H' by (left; auto). apply IH. intros; apply H'; right; auto. }
    replace (seq 0 m) with (seq 0 r ++ r :: seq (S r) (m - S r)).
    2:{ replace m with (r + S (m - S r)) at 2 by lia. rewrite seq_app. reflexivity. }
    rewrite fold_left_app. cbn [fold_left]. unfold upd at 2. rewrite Hh.
    apply Hnone. intros r' Hr'. apply in_seq in Hr'. apply Hn; lia.
  Qed.

  (** ** Counts *)

  Lemma mesh_counts_length nd n b ns : mesh_counts nd n b = Ok ns -> length ns = nd.
  Proof.
    unfold mesh_counts, bind. destruct (String.eqb b "gkhybrid").
    - destruct (vpardir nd <? nd); [|discriminate].
      destruct (String.eqb b "hybrid").
      + destruct nd; [discriminate|]. intros [= <-]. rewrite !set_nth_length; cbn [length repeat]; rewrite ?repeat_length; reflexivity.
      + intros [= <-]. rewrite ?set_nth_length; cbn [length repeat]; rewrite ?repeat_length; reflexivity.
    - destruct (String.eqb b "hybrid").
      + destruct nd; [discriminate|]. intros [= <-]. rewrite ?set_nth_length; cbn [length repeat]; rewrite ?repeat_length; reflexivity.
      + intros [= <-]. apply repeat_length.
  Qed.

  Lemma set_nth_Forall {A} (P : A -> Prop) k a l : Forall P l -> P a -> Forall P (set_nth k a l).
  Proof.
    intros H Ha. revert k. induction H; intros [|k]; simpl; auto.
  Qed.

  Lemma repeat_Forall {A} (P : A -> Prop) a n : P a -> Forall P (repeat a n).
  Proof. intros H. induction n; simpl; auto. Qed.

  Lemma mesh_counts_ge2 nd n b ns : 1 <= n -> mesh_counts nd n b = Ok ns -> Forall (fun k => 2 <= k) ns.
  Proof.
    intros Hn. unfold mesh_counts, bind. destruct (String.eqb b "gkhybrid").
    - destruct (vpardir nd <? nd); [|discriminate].
      destruct (String.eqb b "hybrid").
      + destruct nd; [discriminate|]. intros [= <-].
        repeat (apply set_nth_Forall; [|lia]). try (constructor; [lia|]); apply repeat_Forall; lia.
      + intros [= <-]. repeat (apply set_nth_Forall; [|lia]). try (constructor; [lia|]); apply repeat_Forall; lia.
    - destruct (String.eqb b "hybrid").
      + destruct nd; [discriminate|]. intros [= <-].
        repeat (apply set_nth_Forall; [|lia]). try (constructor; [lia|]); apply repeat_Forall; lia.
      + intros [= <-]. try (constructor; [lia|]); apply repeat_Forall; lia.
  Qed.

  (** A missing row makes the evaluation fail. *)
  Lemma mesh_fold_err c2p cmat q ns rs e :
    fold_left (mesh_step fo dot c2p cmat q ns) rs (Err e) = Err e.
  Proof. induction rs; simpl; auto. Qed.

  Lemma mesh_short c2p cmat q ns a :
    length (removelast (shape q)) = length ns -> Forall (fun n => 2 <= n) ns ->
    wf a -> shape a = mesh_shape c2p (removelast (shape q)) ns ->
    (forall row, In row cmat -> length row = last (shape q) 0) ->
    length cmat < prod ns ->
    fold_left (mesh_step fo dot c2p cmat q ns) (seq 0 (prod ns)) (Ok a) = Err IndexError.
  Proof.
    intros L G W S Hrows Hlt.
    replace (seq 0 (prod ns)) with (seq 0 (length cmat) ++ length cmat :: seq (Datatypes.S (length cmat)) (prod ns - Datatypes.S (length cmat))).
    2:{ replace (prod ns) with (length cmat + Datatypes.S (prod ns - Datatypes.S (length cmat))) at 2 by lia.
        rewrite seq_app. reflexivity. }
    rewrite fold_left_app.
    destruct (mesh_fold c2p cmat q ns (seq 0 (length cmat)) a L G W S) as (a1 & E1 & _).
    { intros r Hr. apply in_seq in Hr. split; [lia|].
      destruct (nth_error cmat r) as [row|] eqn:E.
      - exists row. split; auto. apply Hrows. eapply nth_error_In; eauto.
      - apply nth_error_None in E. lia. }
    rewrite E1. cbn [fold_left].
    unfold mesh_step at 2. unfold bind, row_values.
    replace (nth_error cmat (length cmat)) with (@None (list F)).
    2:{ symmetry. apply nth_error_None. lia. }
    apply mesh_fold_err.
  Qed.

End Mesh.
