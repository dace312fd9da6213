(** * Facts about Draw_Model *)
From Coq Require Import String Ascii List Arith ZArith Bool Lia Reals Lra.
From Verif Require Import Prelude PreludeFacts NdArray Ev_Model Ev_Arith Tools_Arr Draw_Model Draw_Spec.
Import ListNotations.
Open Scope list_scope.
Open Scope nat_scope.

(** ** Removing positions from lists *)

Definition mem (k : nat) (idx : list nat) : bool := existsb (Nat.eqb k) idx.

Lemma mem_In k idx : mem k idx = true <-> In k idx.
Proof.
  unfold mem. rewrite existsb_exists. split.
  - intros (x & Hx & E). apply Nat.eqb_eq in E. now subst.
  - intros H. exists k. split; [exact H|apply Nat.eqb_refl].
Qed.

(** The inverse of [drop_at]: 0 at the dropped positions. *)
Fixpoint fill (k : nat) (idx : list nat) (r : nat) (x : list nat) : list nat :=
  match r with
  | 0 => []
  | S r' => if mem k idx then 0 :: fill (S k) idx r' x
            else match x with i :: x' => i :: fill (S k) idx r' x' | [] => [] end
  end.
Fixpoint spread (k : nat) (idx : list nat) (r : nat) (x : list nat) : list (option nat) :=
  match r with
  | 0 => []
  | S r' => if mem k idx then None :: spread (S k) idx r' x
            else match x with i :: x' => Some i :: spread (S k) idx r' x' | [] => [] end
  end.

Lemma drop_at_none {A} (l : list A) : forall k idx,
  (forall j, k <= j < k + length l -> mem j idx = false) -> drop_at k idx l = l.
Proof.
  induction l as [|a l IH]; intros k idx H; [reflexivity|]. cbn [drop_at]. fold (mem k idx).
  rewrite H by (cbn [length]; lia). f_equal. apply IH. intros j Hj. apply H. cbn [length]. lia.
Qed.

Lemma drop_at_app {A} (l1 l2 : list A) : forall k idx,
  drop_at k idx (l1 ++ l2) = drop_at k idx l1 ++ drop_at (k + length l1) idx l2.
Proof.
  induction l1 as [|a l IH]; intros k idx; cbn [app drop_at length].
  - now rewrite Nat.add_0_r.
  - fold (mem k idx). rewrite IH, Nat.add_succ_r, Nat.add_succ_l. now destruct (mem k idx).
Qed.

Lemma drop_at_map {A B} (f : A -> B) (l : list A) : forall k idx,
  drop_at k idx (List.map f l) = List.map f (drop_at k idx l).
Proof.
  induction l as [|a l IH]; intros k idx; [reflexivity|]. cbn [List.map drop_at]. fold (mem k idx).
  rewrite IH. now destruct (mem k idx).
Qed.

(** Only position [a] is kept. *)
Lemma drop_at_one {A} (l : list A) : forall k idx a v,
  (forall j, k <= j < k + length l -> mem j idx = negb (j =? a)) ->
  k <= a -> nth_error l (a - k) = Some v -> drop_at k idx l = [v].
Proof.
  induction l as [|w l IH]; intros k idx a v H Ha E; [destruct (a - k); discriminate|].
  cbn [drop_at]. fold (mem k idx). rewrite H by (cbn [length]; lia).
  destruct (Nat.eqb_spec k a) as [->|N]; cbn [negb].
  - rewrite Nat.sub_diag in E. injection E as <-. f_equal.
    enough (forall (l : list A) k, a < k -> (forall j, k <= j < k + length l -> mem j idx = negb (j =? a)) -> drop_at k idx l = []) as Z.
    { apply Z; [lia|]. intros j Hj. apply H. cbn [length]. lia. }
    clear. induction l as [|w l IH]; intros k Hk H; [reflexivity|]. cbn [drop_at]. fold (mem k idx).
    rewrite H by (cbn [length]; lia). destruct (Nat.eqb_spec k a); [lia|]. cbn [negb]. apply IH; [lia|].
    intros j Hj. apply H. cbn [length]. lia.
  - apply (IH (S k) idx a v); [|lia|].
    + intros j Hj. apply H. cbn [length]. lia.
    + replace (a - k) with (S (a - S k)) in E by lia. exact E.
Qed.

Lemma drop_at_two {A} (l : list A) : forall k idx a b v w,
  (forall j, k <= j < k + length l -> mem j idx = negb ((j =? a) || (j =? b))) ->
  k <= a -> a < b -> nth_error l (a - k) = Some v -> nth_error l (b - k) = Some w -> drop_at k idx l = [v; w].
Proof.
  induction l as [|u l IH]; intros k idx a b v w H Ha Hab E F; [destruct (a - k); discriminate|].
  cbn [drop_at]. fold (mem k idx). rewrite H by (cbn [length]; lia).
  replace (b - k) with (S (b - S k)) in F by lia. cbn [nth_error] in F.
  destruct (Nat.eqb_spec k a) as [->|N]; cbn [negb orb].
  - rewrite Nat.sub_diag in E. injection E as <-. f_equal.
    apply (drop_at_one l (S a) idx b w); [|lia|exact F]. intros j Hj. rewrite H by (cbn [length]; lia).
    destruct (Nat.eqb_spec j a); [lia|reflexivity].
  - destruct (Nat.eqb_spec k b); [lia|]. cbn [negb].
    apply (IH (S k) idx a b v w); [|lia|lia| |exact F].
    + intros j Hj. apply H. cbn [length]. lia.
    + replace (a - k) with (S (a - S k)) in E by lia. exact E.
Qed.

Lemma drop_fill : forall r k idx x,
  length x = length (drop_at k idx (seq k r)) -> drop_at k idx (fill k idx r x) = x.
Proof.
  induction r as [|r IH]; intros k idx x H; cbn [seq drop_at fill] in *.
  - destruct x; [reflexivity|discriminate].
  - fold (mem k idx) in H. destruct (mem k idx) eqn:M.
    + cbn [drop_at]. fold (mem k idx). rewrite M. apply IH. exact H.
    + destruct x as [|i x]; [discriminate|]. cbn [drop_at]. fold (mem k idx). rewrite M. f_equal. apply IH. cbn in H. lia.
Qed.

Lemma drop_length {A B} (l : list A) (l' : list B) : forall k idx,
  length l = length l' -> length (drop_at k idx l) = length (drop_at k idx l').
Proof.
  revert l'. induction l as [|a l IH]; intros [|b l'] k idx H; try discriminate; [reflexivity|].
  cbn [drop_at]. destruct (existsb _ _); cbn [length]; [|f_equal]; apply IH; cbn in H; lia.
Qed.

(** ** Squeezing does not move values *)

Lemma ravel_drop : forall sh x k idx,
  length x = length sh ->
  (forall j, mem (k + j) idx = true -> j < length sh -> nth_error sh j = Some 1 /\ nth_error x j = Some 0) ->
  ravel (drop_at k idx sh) (drop_at k idx x) = ravel sh x.
Proof.
  induction sh as [|n sh IH]; intros [|i x] k idx L H; try discriminate; [reflexivity|].
  assert (T : forall j, mem (S k + j) idx = true -> j < length sh -> nth_error sh j = Some 1 /\ nth_error x j = Some 0).
  { intros j M Hj. apply (H (S j)); [rewrite Nat.add_succ_r; exact M|cbn; lia]. }
  cbn [drop_at]. fold (mem k idx). destruct (mem k idx) eqn:M.
  - destruct (H 0) as (E & F); [rewrite Nat.add_0_r; exact M|cbn; lia|].
    cbn in E, F. injection E as ->. injection F as ->.
    rewrite (IH x (S k) idx); [|cbn in L; lia|exact T]. cbn [ravel]. destruct (Nat.ltb_spec 0 1); [|lia].
    destruct (ravel sh x); reflexivity.
  - cbn [ravel]. rewrite (IH x (S k) idx); [|cbn in L; lia|exact T].
    assert (P : prod (drop_at (S k) idx sh) = prod sh).
    { clear -T. revert k T. generalize x. induction sh as [|n sh IH]; intros x' k T; [reflexivity|].
      assert (T' : forall j, mem (S (S k) + j) idx = true -> j < length sh -> nth_error sh j = Some 1 /\ nth_error (tl x') j = Some 0).
      { intros j M Hj. destruct (T (S j)) as (E & F); [rewrite Nat.add_succ_r; exact M|cbn; lia|].
        split; [exact E|]. destruct x'; [discriminate|exact F]. }
      cbn [drop_at]. fold (mem (S k) idx). destruct (mem (S k) idx) eqn:M.
      - destruct (T 0) as (E & _); [rewrite Nat.add_0_r; exact M|cbn; lia|]. cbn in E. injection E as ->.
        rewrite (IH (tl x') (S k)) by exact T'. change (prod (1 :: sh)) with (1 * prod sh). lia.
      - change (n * prod (drop_at (S (S k)) idx sh) = n * prod sh). f_equal. apply (IH (tl x') (S k)). exact T'. }
    rewrite P. reflexivity.
Qed.

Lemma fill_length : forall r k idx x, length x = length (drop_at k idx (seq k r)) -> length (fill k idx r x) = r.
Proof.
  induction r as [|r IH]; intros k idx x H; cbn [seq drop_at fill] in *; [reflexivity|].
  fold (mem k idx) in H. destruct (mem k idx) eqn:M.
  - cbn [length]. f_equal. apply IH. exact H.
  - destruct x as [|i x]; [discriminate|]. cbn [length]. f_equal. apply IH. cbn in H. lia.
Qed.

Lemma fill_zero : forall r k idx x j, length x = length (drop_at k idx (seq k r)) ->
  mem (k + j) idx = true -> j < r -> nth_error (fill k idx r x) j = Some 0.
Proof.
  induction r as [|r IH]; intros k idx x j H M Hj; [lia|]. cbn [seq drop_at fill] in *. fold (mem k idx) in H.
  destruct j as [|j].
  - rewrite Nat.add_0_r in M. rewrite M in *. reflexivity.
  - rewrite Nat.add_succ_r in M. destruct (mem k idx) eqn:Mk.
    + cbn [nth_error]. apply (IH (S k)); [exact H|exact M|lia].
    + destruct x as [|i x]; [discriminate|]. cbn [nth_error]. apply (IH (S k)); [cbn in H; lia|exact M|lia].
Qed.

Lemma fill_in_range : forall cells k idx x,
  (forall j, mem (k + j) idx = true -> j < length cells -> nth_error cells j = Some 1) ->
  in_range (drop_at k idx cells) x -> in_range cells (fill k idx (length cells) x).
Proof.
  induction cells as [|n cells IH]; intros k idx x H Hx; cbn [length fill]; [constructor|].
  assert (T : forall j, mem (S k + j) idx = true -> j < length cells -> nth_error cells j = Some 1).
  { intros j M Hj. apply (H (S j)); [rewrite Nat.add_succ_r; exact M|cbn; lia]. }
  cbn [drop_at] in Hx. fold (mem k idx) in Hx. destruct (mem k idx) eqn:M.
  - constructor; [|apply IH; auto]. specialize (H 0). rewrite Nat.add_0_r in H. specialize (H M). cbn in H.
    assert (E : Some n = Some 1) by (apply H; lia). injection E as ->. lia.
  - inversion Hx as [|i ? x' ? Hi Hn]; subst. constructor; [exact Hi|]. apply IH; auto.
Qed.

Lemma squeeze_shows cells m v f idx :
  shows cells m v f ->
  (forall j, mem j idx = true -> j < length cells /\ nth_error cells j = Some 1) ->
  exists w, squeeze_axes idx v = Ok w /\
    shows (drop_at 0 idx cells) m w (fun x c => f (fill 0 idx (length cells) x) c).
Proof.
  intros (W & Sv & V) H. unfold squeeze_axes.
  assert (F : forallb (fun k => match nth_error (shape v) k with Some n => n =? 1 | None => false end) idx = true).
  { apply forallb_forall. intros k Hk. apply mem_In in Hk. destruct (H k Hk) as (L & E).
    rewrite Sv, nth_error_app1, E by exact L. reflexivity. }
  rewrite F. eexists. split; [reflexivity|].
  assert (D : drop_at 0 idx (shape v) = drop_at 0 idx cells ++ [m]).
  { rewrite Sv, drop_at_app. f_equal. cbn [drop_at Nat.add]. fold (mem (length cells) idx).
    destruct (mem (length cells) idx) eqn:M; [|reflexivity]. destruct (H _ M). lia. }
  rewrite D.
  assert (G : forall x c, in_range (drop_at 0 idx cells) x -> c < m ->
            ravel (drop_at 0 idx cells ++ [m]) (x ++ [c]) = ravel (cells ++ [m]) (fill 0 idx (length cells) x ++ [c])).
  { intros x c Hx Hc.
    assert (Lx : length x = length (drop_at 0 idx (seq 0 (length cells)))).
    { rewrite (in_range_length _ _ Hx). apply drop_length. now rewrite seq_length. }
    assert (E1 : drop_at 0 idx (cells ++ [m]) = drop_at 0 idx cells ++ [m]) by (rewrite <- Sv; exact D).
    assert (E2 : drop_at 0 idx (fill 0 idx (length cells) x ++ [c]) = x ++ [c]).
    { rewrite drop_at_app, drop_fill by exact Lx. f_equal. rewrite fill_length by exact Lx. cbn [drop_at Nat.add].
      fold (mem (length cells) idx). destruct (mem (length cells) idx) eqn:M; [|reflexivity]. destruct (H _ M). lia. }
    rewrite <- E1, <- E2. apply ravel_drop.
    - rewrite !app_length, fill_length by exact Lx. reflexivity.
    - intros j M Hj. cbn [Nat.add] in M. destruct (H j M) as (Lj & Ej).
      rewrite nth_error_app1 by exact Lj. split; [exact Ej|].
      rewrite nth_error_app1 by (rewrite fill_length by exact Lx; exact Lj).
      apply (fill_zero (length cells) 0); auto. }
  split; [|split; [reflexivity|]].
  - unfold wf. cbn [flat shape]. rewrite <- D. unfold wf in W. rewrite W. clear -H Sv. 
    assert (P : forall sh k, (forall j, mem (k + j) idx = true -> j < length sh -> nth_error sh j = Some 1) -> prod (drop_at k idx sh) = prod sh).
    { induction sh as [|n sh IH]; intros k T; [reflexivity|]. 
      assert (T' : forall j, mem (S k + j) idx = true -> j < length sh -> nth_error sh j = Some 1).
      { intros j M Hj. apply (T (S j)); [rewrite Nat.add_succ_r; exact M|cbn; lia]. }
      cbn [drop_at]. fold (mem k idx). destruct (mem k idx) eqn:M.
      - specialize (T 0). rewrite Nat.add_0_r in T. specialize (T M). cbn in T. assert (E : Some n = Some 1) by (apply T; lia).
        injection E as ->. rewrite IH by exact T'. change (prod (1 :: sh)) with (1 * prod sh). lia.
      - change (n * prod (drop_at (S k) idx sh) = n * prod sh). f_equal. apply IH. exact T'. }
    symmetry. apply P. intros j M Hj. cbn [Nat.add] in M. destruct (H j M) as (Lj & Ej). rewrite Sv, nth_error_app1 by exact Lj. exact Ej.
  - intros x c Hx Hc. unfold get. cbn [shape flat]. rewrite G by auto.
    assert (R := V (fill 0 idx (length cells) x) c). unfold get in R. rewrite Sv in R. apply R; [|exact Hc].
    apply fill_in_range; [|exact Hx]. intros j M Hj. cbn [Nat.add] in M. apply H, M.
Qed.

(** ** Which dimensions are squeezed *)

Lemma collapsed_spec cells :
  exists idx, collapsed (length cells) cells = Ok idx /\
    forall j, mem j idx = match nth_error cells j with Some c => c <=? 1 | None => false end.
Proof.
  unfold collapsed.
  rewrite (mapM_all_ok _ (fun k => (k, nth k cells 0 <=? 1))).
  2:{ intros k Hk. apply in_seq in Hk. rewrite (nth_error_nth' cells 0) by lia. reflexivity. }
  cbn [bind]. eexists. split; [reflexivity|]. intros j.
  destruct (mem j _) eqn:M.
  - apply mem_In in M. apply in_map_iff in M as ((k & b) & E & Hk). cbn in E. subst k.
    apply filter_In in Hk as (Hk & Hb). apply in_map_iff in Hk as (k & E & Hk). injection E as -> <-.
    apply in_seq in Hk. rewrite (nth_error_nth' cells 0) by lia. cbn in Hb. now rewrite Hb.
  - destruct (nth_error cells j) as [c|] eqn:E; [|reflexivity].
    destruct (c <=? 1) eqn:B; [|reflexivity]. exfalso.
    enough (X : mem j (List.map fst (filter snd (List.map (fun k => (k, nth k cells 0 <=? 1)) (seq 0 (length cells))))) = true) by congruence.
    apply mem_In, in_map_iff. exists (j, true). split; [reflexivity|]. apply filter_In. split; [|reflexivity].
    apply in_map_iff. exists j. rewrite (nth_error_nth cells j 0 E), B. split; [reflexivity|]. apply in_seq.
    assert (j < length cells) by (apply nth_error_Some; congruence). lia.
Qed.

Lemma live_all cells : length cells <= live_dims cells <-> Forall (fun n => n <> 1) cells.
Proof.
  unfold live_dims. split; intros H.
  - apply Forall_forall. intros n Hn ->.
    apply in_split in Hn as (l1 & l2 & ->). rewrite filter_app, !app_length in H. cbn [filter Nat.eqb negb length] in H.
    assert (B : forall (f : nat -> bool) l, length (filter f l) <= length l).
    { intros f l. induction l as [|a l IH]; cbn [filter length]; [lia|]. destruct (f a); cbn [length]; lia. }
    pose proof (B (fun n => negb (n =? 1)) l1). pose proof (B (fun n => negb (n =? 1)) l2). lia.
  - induction H as [|n l Hn Hl IH]; cbn [filter length]; [lia|]. destruct (Nat.eqb_spec n 1); [contradiction|]. cbn. lia.
Qed.

Lemma squeeze_all_id {A} (g : nda A) : Forall (fun n => n <> 1) (shape g) -> squeeze_all g = g.
Proof.
  destruct g as [sh l]. unfold squeeze_all. cbn [shape flat]. intros H. f_equal.
  induction H as [|n sh Hn Hl IH]; cbn [filter]; [reflexivity|]. destruct (Nat.eqb_spec n 1); [contradiction|]. cbn. now f_equal.
Qed.

(** The dimensions of one cell. *)
Definition ones (cells idx : list nat) : Prop := forall j, mem j idx = match nth_error cells j with Some c => c <=? 1 | None => false end.

Lemma ones_one cells idx : ones cells idx -> Forall (fun n => 1 <= n) cells ->
  forall j, mem j idx = true -> j < length cells /\ nth_error cells j = Some 1.
Proof.
  intros H P j M. rewrite H in M. destruct (nth_error cells j) as [c|] eqn:E; [|discriminate].
  assert (L : j < length cells) by (apply nth_error_Some; congruence). split; [exact L|].
  rewrite Forall_forall in P. specialize (P c (nth_error_In _ _ E)). apply Nat.leb_le in M. f_equal. lia.
Qed.

Lemma ones_exists cells : exists idx, ones cells idx.
Proof. destruct (collapsed_spec cells) as (idx & _ & H). exists idx. exact H. Qed.

Lemma drop_at_ext {A} (l : list A) : forall k idx idx', (forall j, mem j idx = mem j idx') -> drop_at k idx l = drop_at k idx' l.
Proof.
  induction l as [|a l IH]; intros k idx idx' H; [reflexivity|]. cbn [drop_at]. fold (mem k idx). fold (mem k idx').
  rewrite H, (IH (S k) idx idx' H). reflexivity.
Qed.

(** plot.py 169-198 for rectangular grids. *)
Lemma squeeze_rect edges cells X m f d idx :
  Forall (fun n => 1 <= n) cells -> length cells <= 6 -> ones cells idx ->
  rect_grid edges cells X (p_grid d) -> p_cells d = cells -> shows cells m (p_vals d) f ->
  drop_at 0 idx cells <> [] ->
  exists w labels,
    squeeze_data (live_dims cells) d = Ok (mk_pd (drop_at 0 idx (p_grid d)) (drop_at 0 idx cells) w, labels) /\
    shows (drop_at 0 idx cells) m w (fun x c => f (fill 0 idx (length cells) x) c) /\
    (labels = drop_at 0 idx (seq 0 6)).
Proof.
  intros P L6 O (Lg & G) Ec Sv NE. pose proof (ones_one cells idx O P) as O1. unfold squeeze_data.
  rewrite Lg, Ec. destruct (Nat.leb_spec (length cells) (live_dims cells)) as [HL|HL].
  - apply live_all in HL.
    assert (M : forall j, mem j idx = false).
    { intros j. destruct (mem j idx) eqn:M; [|reflexivity]. destruct (O1 j M) as (_ & E).
      rewrite Forall_forall in HL. exfalso. exact (HL 1 (nth_error_In _ _ E) eq_refl). }
    rewrite !drop_at_none by auto. exists (p_vals d), (seq 0 6).
    split; [destruct d; cbn in *; now subst|]. split; [|reflexivity].
    eapply shows_ext; [exact Sv|]. intros x j Hx Hj.
    replace (fill 0 idx (length cells) x) with x; [reflexivity|].
    assert (Q : forall r k x, length x = r -> fill k idx r x = x).
    { induction r as [|r IH]; intros k x' Hx'; destruct x'; try discriminate; [reflexivity|]. cbn [fill]. rewrite M. f_equal. apply IH. cbn in Hx'. lia. }
    symmetry. apply Q. apply in_range_length, Hx.
  - assert (NO : idx <> []).
    { intros ->. assert (Forall (fun n => n <> 1) cells).
      { apply Forall_forall. intros n Hn ->. apply In_nth_error in Hn as (j & Ej). specialize (O j). rewrite Ej in O. discriminate. }
      apply live_all in H. lia. }
    destruct (collapsed_spec cells) as (idx' & E' & O'). rewrite E'. cbn [bind].
    assert (EM : forall j, mem j idx' = mem j idx) by (intros j; rewrite O'; symmetry; apply O).
    assert (NO' : idx' <> []).
    { intros ->. destruct idx as [|i idx]; [contradiction|]. specialize (EM i). cbn [mem existsb] in EM. unfold mem in EM. cbn in EM. rewrite Nat.eqb_refl in EM. discriminate. }
    assert (O1' : forall j, mem j idx' = true -> j < length cells /\ nth_error cells j = Some 1).
    { intros j M. apply O1. now rewrite <- EM. }
    destruct (squeeze_shows cells m (p_vals d) f idx' Sv O1') as (w & Ew & Sw).
    assert (B6 : existsb (fun i => 6 <=? i) idx' = false).
    { destruct (existsb _ idx') eqn:B; [|reflexivity]. apply existsb_exists in B as (i & Hi & B). apply Nat.leb_le in B.
      apply mem_In in Hi. destruct (O1' i Hi). lia. }
    assert (EG : drop_at 0 idx' (List.map squeeze_all (p_grid d)) = drop_at 0 idx (p_grid d)).
    { rewrite (drop_at_ext _ _ idx' idx) by exact EM. 
      assert (Q : forall (l : list arr) k, (forall j g, nth_error l j = Some g -> mem (k + j) idx = false -> squeeze_all g = g) ->
                 drop_at k idx (List.map squeeze_all l) = drop_at k idx l).
      { induction l as [|g l IH]; intros k Hl; [reflexivity|]. cbn [List.map drop_at]. fold (mem k idx).
        rewrite IH. 2:{ intros j g' Eg M. apply (Hl (S j)); [exact Eg|]. rewrite Nat.add_succ_r. exact M. }
        destruct (mem k idx) eqn:M; [reflexivity|]. f_equal. apply (Hl 0 g eq_refl). now rewrite Nat.add_0_r. }
      apply Q. intros j g Eg M. cbn [Nat.add] in M. apply squeeze_all_id.
      assert (Lj : j < length cells) by (rewrite <- Lg; apply nth_error_Some; congruence).
      destruct (nth_error cells j) as [n|] eqn:En; [|apply nth_error_None in En; lia].
      destruct (G j g n Eg En) as (_ & Sg & _). rewrite Sg. constructor; [|constructor].
      specialize (O j). rewrite En in O. rewrite M in O. symmetry in O. apply Nat.leb_gt in O. unfold points. destruct edges; lia. }
    rewrite EG, B6, Ew.
    assert (G1 : forall g gs, drop_at 0 idx (p_grid d) = g :: gs -> length (shape g) = 1).
    { intros g gs E. assert (I : In g (p_grid d)).
      { assert (Q : forall (l : list arr) k x, In x (drop_at k idx l) -> In x l).
        { induction l as [|h l IH]; intros k x; cbn [drop_at]; [auto|]. destruct (existsb (Nat.eqb k) idx); cbn [In]; [intros H; right; eapply IH; exact H|intros [H|H]; [left; exact H|right; eapply IH; exact H]]. }
        apply (Q _ 0). rewrite E. left. reflexivity. }
      apply In_nth_error in I as (j & Ej). assert (Lj : j < length cells) by (rewrite <- Lg; apply nth_error_Some; congruence).
      destruct (nth_error cells j) as [n|] eqn:En; [|apply nth_error_None in En; lia].
      destruct (G j g n Ej En) as (_ & Sg & _). now rewrite Sg. }
    destruct idx' as [|i0 idx0]; [contradiction|]. cbv zeta iota. cbn [bind].
    destruct (drop_at 0 idx (p_grid d)) as [|g gs] eqn:Eg.
    { exfalso. apply NE. assert (length (drop_at 0 idx cells) = length (drop_at 0 idx (p_grid d))) as E by (apply drop_length; auto).
      rewrite Eg in E. destruct (drop_at 0 idx cells); [reflexivity|discriminate]. }
    rewrite (G1 g gs eq_refl). cbn [Nat.ltb Nat.leb bind]. exists w, (drop_at 0 (i0 :: idx0) (seq 0 6)).
    split; [|split].
    + do 2 f_equal. f_equal. apply drop_at_ext. exact EM.
    + replace (drop_at 0 idx cells) with (drop_at 0 (i0 :: idx0) cells) by (apply drop_at_ext; exact EM).
      eapply shows_ext; [exact Sw|]. intros x j _ _. cbv beta. f_equal. 
      assert (Q : forall r k x, fill k (i0 :: idx0) r x = fill k idx r x).
      { induction r as [|r IH]; intros k x'; [reflexivity|]. cbn [fill]. rewrite EM. destruct (mem k idx); [f_equal; apply IH|]. destruct x'; [reflexivity|]. f_equal. apply IH. }
      apply Q.
    + apply drop_at_ext. exact EM.
Qed.
