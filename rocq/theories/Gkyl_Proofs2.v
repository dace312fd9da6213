(** * Proofs about partial and multi-range loading (lemmas). *)
From Coq Require Import String Ascii List ZArith Bool Lia DecimalString.
From Verif Require Import Prelude PreludeFacts NdArray Gkyl_Model Gkyl_Spec Gkyl_Proofs.
Import ListNotations.
Open Scope list_scope.
Open Scope Z_scope.

(** ** Cut strings *)

Lemma colon_not_digit : ~ digit_char ":".
Proof. unfold digit_char. simpl. intuition discriminate. Qed.

Lemma is_digits_no_colon s : has_char ":" s = true -> is_digits s = false.
Proof.
  intros H. destruct (is_digits s) eqn:E; auto. exfalso.
  unfold is_digits in E. destruct s as [|c s]; [discriminate|].
  destruct (NilEmpty.uint_of_string (String c s)) as [u|] eqn:Eu; [|discriminate].
  apply NilEmpty.sus in Eu. rewrite <- Eu in H.
  rewrite string_of_uint_has in H by apply colon_not_digit. discriminate.
Qed.

Lemma show_Z_no_colon z : has_char ":" (show_Z z) = false.
Proof. apply show_Z_has; [apply colon_not_digit|discriminate]. Qed.

Lemma show_opt_no_colon o : has_char ":" (show_opt o) = false.
Proof. destruct o; [apply show_Z_no_colon|reflexivity]. Qed.

Lemma show_opt_empty o : String.eqb (show_opt o) "" = match o with None => true | _ => false end.
Proof.
  destruct o as [z|]; [|reflexivity]. apply String.eqb_neq. apply show_Z_nonempty.
Qed.

(** What any textual slice gives. *)
Lemma parse_cut_slice start stop n :
  parse_cut (show_opt start ++ ":" ++ show_opt stop) n
  = Ok (match start with None => 0 | Some i => i end,
        match stop with None => 0 | Some j => if 0 <? j then n - j else - j end).
Proof.
  unfold parse_cut. simpl (":" ++ show_opt stop)%string.
  assert (Hc : has_char ":" (show_opt start ++ String ":" (show_opt stop)) = true).
  { rewrite has_char_app. simpl. now rewrite orb_true_r. }
  rewrite (is_digits_no_colon _ Hc), Hc.
  rewrite split_on_app, split_on_none by apply show_opt_no_colon.
  rewrite !show_opt_empty.
  destruct start as [i|], stop as [j|]; simpl show_opt; rewrite ?py_int_show_Z; cbn [bind]; reflexivity.
Qed.

Lemma parse_cut_index k n :
  0 <= k -> parse_cut (show_Z k) n = Ok (k, n - k - 1).
Proof.
  intros Hk. unfold parse_cut. rewrite show_Z_nonneg_digits, py_int_show_Z by auto. reflexivity.
Qed.

Lemma parse_cut_ok n s a b :
  cut_range n s a b -> parse_cut s (Z.of_nat n) = Ok (Z.of_nat a, Z.of_nat n - Z.of_nat b).
Proof.
  intros H. inversion H as [|k Hk|start stop a' b' Hst Hsp Hi Hab]; subst.
  - unfold parse_cut. simpl. do 2 f_equal. lia.
  - rewrite parse_cut_index by lia. do 2 f_equal. lia.
  - rewrite parse_cut_slice. unfold slice_indices in Hi. simpl in Hi. injection Hi as H1 H2.
    destruct start as [i|], stop as [j|]; unfold adjust_pos in *;
      repeat match goal with
      | H : context [if ?x <? ?y then _ else _] |- _ => destruct (Z.ltb_spec x y)
      | |- context [if ?x <? ?y then _ else _] => destruct (Z.ltb_spec x y)
      end; do 2 f_equal; lia.
Qed.

Lemma cut_range_bounds n s a b : cut_range n s a b -> (a < b <= n)%nat.
Proof.
  intros H. inversion H as [|k Hk|start stop a' b' Hst Hsp Hi Hab]; subst; try lia.
  split; auto. unfold slice_indices in Hi. simpl in Hi. injection Hi as H1 H2.
  destruct stop as [j|]; unfold adjust_pos in *; [|lia]. destruct (Z.ltb_spec j 0); lia.
Qed.

(** ** Array assignment *)

(** Position of [idx] inside a rectangular region, if it is inside. *)
Fixpoint region (rs : list (nat * nat)) (idx : list nat) : option (list nat) :=
  match rs, idx with
  | [], [] => Some []
  | (a, m) :: rs', i :: idx' =>
      if ((a <=? i) && (i <? a + m))%nat then option_map (cons (i - a)%nat) (region rs' idx') else None
  | _, _ => None
  end.

Lemma put_flat_length {A} sh rs (l blk : list A) :
  Forall2 (fun r n => (fst r + snd r <= n)%nat) rs sh ->
  length l = prod sh -> length blk = prod (List.map snd rs) ->
  length (put_flat sh rs l blk) = prod sh.
Proof.
  intros H. revert l blk. induction H as [|[a m] n rs sh Hn HF IH]; intros l blk Hl Hb.
  - exact Hb.
  - cbn [put_flat]. cbn [fst snd] in Hn.
    change (prod (n :: sh)) with (n * prod sh)%nat in *.
    change (prod (List.map snd ((a, m) :: rs))) with (m * prod (List.map snd rs))%nat in Hb.
    rewrite flat_map_length with (m := prod sh).
    + now rewrite seq_length.
    + intros i Hi. apply in_seq in Hi.
      destruct ((a <=? i)%nat && (i <? a + m)%nat)%bool eqn:E.
      * apply andb_prop in E as [E1 E2]. apply Nat.leb_le in E1. apply Nat.ltb_lt in E2.
        apply IH; [apply firstn_skipn_length with (n := n); auto; lia
                  |apply firstn_skipn_length with (n := m); auto; lia].
      * apply firstn_skipn_length with (n := n); auto; lia.
Qed.

Lemma put_flat_get {A} sh rs (l blk : list A) idx k :
  Forall2 (fun r n => (fst r + snd r <= n)%nat) rs sh ->
  length l = prod sh -> length blk = prod (List.map snd rs) ->
  ravel sh idx = Some k ->
  nth_error (put_flat sh rs l blk) k =
  match region rs idx with
  | Some j => get (mk_nda (List.map snd rs) blk) j
  | None => nth_error l k
  end.
Proof.
  intros H. revert l blk idx k. induction H as [|[a m] n rs sh Hn HF IH]; intros l blk idx k Hl Hb Hk.
  - destruct idx; [|discriminate]. injection Hk as <-. reflexivity.
  - destruct idx as [|i idx]; [discriminate|]. cbn [fst snd] in Hn.
    change (prod (n :: sh)) with (n * prod sh)%nat in *.
    change (prod (List.map snd ((a, m) :: rs))) with (m * prod (List.map snd rs))%nat in Hb.
    cbn [ravel] in Hk. destruct (Nat.ltb_spec i n) as [Hi|]; [|discriminate].
    destruct (ravel sh idx) as [r|] eqn:Er; [|discriminate]. injection Hk as <-.
    pose proof (ravel_lt _ _ _ Er) as Hr.
    cbn [put_flat]. rewrite nth_error_flat_map with (a := i); auto.
    + cbn [region].
      destruct ((a <=? i)%nat && (i <? a + m)%nat)%bool eqn:E.
      * apply andb_prop in E as [E1 E2]. apply Nat.leb_le in E1. apply Nat.ltb_lt in E2.
        rewrite (IH _ _ idx r); auto.
        2:{ apply firstn_skipn_length with (n := n); auto; lia. }
        2:{ apply firstn_skipn_length with (n := m); auto; lia. }
        destruct (region rs idx) as [j|]; cbn [option_map].
        -- unfold get. cbn [shape flat List.map snd ravel].
           destruct (Nat.ltb_spec (i - a) m); [|lia].
           destruct (ravel (List.map snd rs) j) as [q|] eqn:Eq; cbn [option_map]; auto.
           rewrite firstn_skipn_nth_error. apply ravel_lt in Eq.
           destruct (Nat.ltb_spec q (prod (List.map snd rs))); [|lia]. reflexivity.
        -- rewrite firstn_skipn_nth_error. destruct (Nat.ltb_spec r (prod sh)); [|lia]. reflexivity.
      * rewrite firstn_skipn_nth_error. destruct (Nat.ltb_spec r (prod sh)); [|lia]. reflexivity.
    + intros i' Hi'. apply in_seq in Hi'.
      destruct ((a <=? i')%nat && (i' <? a + m)%nat)%bool eqn:E.
      * apply andb_prop in E as [E1 E2]. apply Nat.leb_le in E1. apply Nat.ltb_lt in E2.
        apply put_flat_length; [auto|apply firstn_skipn_length with (n := n); auto; lia
                  |apply firstn_skipn_length with (n := m); auto; lia].
      * apply firstn_skipn_length with (n := n); auto; lia.
    + rewrite nth_error_seq. destruct (Nat.ltb_spec i n); [reflexivity|lia].
Qed.

Lemma take_flat_map {A B} (g : A -> B) sh sels l :
  take_flat sh sels (List.map g l) = List.map g (take_flat sh sels l).
Proof.
  revert sels l. induction sh as [|n sh IH]; intros [|s sels] l; simpl; auto.
  induction s as [|i s IHs]; simpl; auto.
  rewrite map_app, <- IHs. f_equal. rewrite <- IH. f_equal.
  rewrite skipn_map, firstn_map. reflexivity.
Qed.

Lemma take_map {A B} (g : A -> B) sels (a : nda A) :
  take sels (map_nda g a) = map_nda g (take sels a).
Proof. unfold take, map_nda. simpl. now rewrite take_flat_map. Qed.

Lemma firstn_skipn_blocks {A} p n (l : list A) :
  length l = (n * p)%nat ->
  flat_map (fun i => firstn p (skipn (i * p) l)) (seq 0 n) = l.
Proof.
  revert l. induction n as [|n IH]; intros l Hl.
  - destruct l; [reflexivity|discriminate].
  - change (seq 0 (S n)) with (0%nat :: seq 1 n). cbn [flat_map].
    transitivity (firstn p l ++ skipn p l); [|apply firstn_skipn]. f_equal.
    rewrite <- seq_shift, flat_map_concat_map', map_map, <- flat_map_concat_map'.
    etransitivity; [|apply (IH (skipn p l)); rewrite skipn_length; lia].
    rewrite !flat_map_concat_map'. f_equal. apply map_ext. intros i.
    now rewrite skipn_skipn_add.
Qed.

Lemma take_flat_all {A} sh (l : list A) :
  length l = prod sh -> take_flat sh (List.map (fun n => seq 0 n) sh) l = l.
Proof.
  revert l. induction sh as [|n sh IH]; intros l Hl; [reflexivity|].
  change (prod (n :: sh)) with (n * prod sh)%nat in Hl. cbn [List.map take_flat].
  etransitivity; [|apply (firstn_skipn_blocks (prod sh) n l Hl)].
  rewrite !flat_map_concat_map'. f_equal. apply map_ext_in. intros i Hi. apply in_seq in Hi.
  apply IH. apply firstn_skipn_length with (n := n); auto. lia.
Qed.

(** ** Assembling ranges *)

Section Ranges.
  Context {F M : Type}.
  Variable fo : fops F.
  Variable f : list Z.

  Definition p_wid (d : pd) : nat := (p_b d - p_a d)%nat.

  (** The wanted cell [idx] (counted from the cut) lies in the stored range. *)
  Definition p_cov (d : pd) (i : nat) : bool :=
    ((p_lo d <=? i + p_a d + 1) && (i + p_a d + 1 <=? p_up d))%nat.
  Fixpoint p_covs (D : list pd) (idx : list nat) : bool :=
    match D, idx with
    | [], [] => true
    | d :: D', i :: idx' => (p_cov d i && p_covs D' idx')%bool
    | _, _ => false
    end.

  (** Position inside the stored range. *)
  Definition p_pos (D : list pd) (idx : list nat) : list nat :=
    map2 (fun d i => (i + p_a d + 1 - p_lo d)%nat) D idx.

  Lemma empty_not_covered D idx :
    existsb p_empty D = true -> Forall pd_ok D -> Forall2 (fun i d => (i < p_wid d)%nat) idx D ->
    p_covs D idx = false.
  Proof.
    intros H HD HI. induction HI as [|i d idx D Hi HI IH]; [discriminate|].
    inversion HD as [|? ? Hd HD']; subst. cbn [existsb] in H. cbn [p_covs].
    apply orb_prop in H as [H|H].
    - assert (p_cov d i = false) as ->; [|reflexivity].
      unfold p_cov. apply not_true_is_false. intros E. apply andb_prop in E as [E1 E2].
      apply Nat.leb_le in E1, E2. unfold p_empty in H. apply Nat.leb_le in H.
      unfold pd_ok, p_wid, p_ext, p_s0, p_s1 in *. lia.
    - rewrite (IH H HD'). apply andb_false_r.
  Qed.

  Lemma region_app D rs' idx idx' :
    length idx = length D ->
    region (List.map (fun d => (p_at d, p_len d)) D ++ rs') (idx ++ idx') =
    match region (List.map (fun d => (p_at d, p_len d)) D) idx, region rs' idx' with
    | Some j, Some j' => Some (j ++ j') | _, _ => None end.
  Proof.
    revert idx. induction D as [|d D IH]; intros [|i idx] H; try discriminate; simpl.
    - destruct (region rs' idx'); reflexivity.
    - destruct (_ && _)%bool; [|reflexivity].
      rewrite IH by (simpl in H; lia).
      destruct (region (List.map _ D) idx); simpl; [|reflexivity].
      destruct (region rs' idx'); reflexivity.
  Qed.

  Lemma region_covered D idx :
    existsb p_empty D = false -> Forall pd_ok D -> Forall2 (fun i d => (i < p_wid d)%nat) idx D ->
    region (List.map (fun d => (p_at d, p_len d)) D) idx
    = if p_covs D idx then Some (map2 (fun d i => (i - p_at d)%nat) D idx) else None.
  Proof.
    intros H HD HI. induction HI as [|i d idx D Hi HI IH]; [reflexivity|].
    inversion HD as [|? ? Hd HD']; subst. cbn [existsb] in H. apply orb_false_elim in H as [H1 H2].
    cbn [List.map region p_covs map2].
    assert (E : ((p_at d <=? i) && (i <? p_at d + p_len d))%nat%bool = p_cov d i).
    { unfold p_empty in H1. apply Nat.leb_gt in H1. unfold p_cov.
      unfold pd_ok, p_wid, p_len, p_ext, p_s0, p_s1, p_at in *.
      apply eq_true_iff_eq. rewrite !andb_true_iff, !Nat.leb_le, Nat.ltb_lt. lia. }
    rewrite E. destruct (p_cov d i); [|reflexivity]. simpl andb.
    rewrite (IH H2 HD'). destruct (p_covs D idx); reflexivity.
  Qed.

  Lemma covered_pos D idx :
    existsb p_empty D = false -> Forall pd_ok D -> Forall2 (fun i d => (i < p_wid d)%nat) idx D ->
    p_covs D idx = true ->
    in_range (List.map p_len D) (map2 (fun d i => (i - p_at d)%nat) D idx) /\
    Forall2 (fun si j => nth_error (fst si) (snd si) = Some j)
      (combine (List.map p_sel D) (map2 (fun d i => (i - p_at d)%nat) D idx)) (p_pos D idx) /\
    in_range (List.map p_ext D) (p_pos D idx).
  Proof.
    intros H HD HI. unfold in_range, p_pos. induction HI as [|i d idx D Hi HI IH].
    - intros _. repeat constructor.
    - inversion HD as [|? ? Hd HD']; subst. cbn [existsb] in H. apply orb_false_elim in H as [H1 H2].
      cbn [p_covs]. intros E. apply andb_prop in E as [E1 E2].
      destruct (IH H2 HD' E2) as (I1 & I2 & I3).
      unfold p_empty in H1. apply Nat.leb_gt in H1.
      unfold p_cov in E1. apply andb_prop in E1 as [E0 E1]. apply Nat.leb_le in E0, E1.
      unfold pd_ok, p_wid in *.
      cbn [List.map map2 combine]. split; [|split].
      + constructor; auto. unfold p_len, p_ext, p_s0, p_s1, p_at in *. lia.
      + constructor; auto. cbn [fst snd]. unfold p_sel. rewrite nth_error_seq.
        destruct (Nat.ltb_spec (i - p_at d) (p_len d)) as [L|L].
        * f_equal. unfold p_len, p_ext, p_s0, p_s1, p_at in *. lia.
        * exfalso. unfold p_len, p_ext, p_s0, p_s1, p_at in *. lia.
      + constructor; auto. unfold p_len, p_ext, p_s0, p_s1, p_at in *. lia.
  Qed.

  Lemma slices_ranges D :
    existsb p_empty D = false -> Forall pd_ok D ->
    map2 slice_range (List.map p_wid D)
      (List.map (fun d => (Z.of_nat (p_at d), Z.of_nat (p_at d + p_len d))) D)
    = List.map (fun d => (p_at d, p_len d)) D /\
    Forall2 (fun r n => (fst r + snd r <= n)%nat) (List.map (fun d => (p_at d, p_len d)) D) (List.map p_wid D).
  Proof.
    intros H HD. induction HD as [|d D Hd HD IH]; [split; [reflexivity|constructor]|].
    cbn [existsb] in H. apply orb_false_elim in H as [H1 H2].
    destruct (IH H2) as [IH1 IH2]. cbn [List.map map2]. rewrite IH1.
    unfold p_empty in H1. apply Nat.leb_gt in H1.
    assert (Hle : (p_at d + p_len d <= p_wid d)%nat).
    { unfold pd_ok, p_wid, p_len, p_ext, p_s0, p_s1, p_at in *. lia. }
    split.
    - f_equal. unfold slice_range, adjust_pos; cbn [fst snd].
      destruct (Z.ltb_spec (Z.of_nat (p_at d)) 0); [lia|].
      destruct (Z.ltb_spec (Z.of_nat (p_at d + p_len d)) 0); [lia|]. f_equal; lia.
    - constructor; auto.
  Qed.

  Lemma map2_length_eq {A B C} (g : A -> B -> C) l m : length l = length m -> length (map2 g l m) = length l.
  Proof. intros H. rewrite map2_length. lia. Qed.

  (** Assigning the block read from one range. *)
  Lemma assign_range w D onc ca cb (data : nda F) xs :
    existsb p_empty D = false -> Forall pd_ok D -> (ca < cb <= onc)%nat ->
    wf data -> shape data = List.map p_wid D ++ [(cb - ca)%nat] ->
    length xs = prod (List.map p_ext D ++ [onc]) ->
    exists data',
      assign data (List.map (fun d => (Z.of_nat (p_at d), Z.of_nat (p_at d + p_len d))) D)
        (mk_nda (List.map p_len D ++ [(cb - ca)%nat])
           (List.map (fdec fo w)
              (take_flat (List.map p_ext D ++ [onc]) (List.map p_sel D ++ [seq ca (cb - ca)]) xs)))
      = Ok data' /\ shape data' = shape data /\ wf data' /\
      forall idx c, Forall2 (fun i d => (i < p_wid d)%nat) idx D -> (c < cb - ca)%nat ->
        get data' (idx ++ [c]) =
        if p_covs D idx
        then get (mk_nda (List.map p_ext D ++ [onc]) (List.map (fdec fo w) xs)) (p_pos D idx ++ [(ca + c)%nat])
        else get data (idx ++ [c]).
  Proof.
    intros He HD Hc Hwf Hsh Hl.
    destruct (slices_ranges D He HD) as [Hr1 Hr2].
    set (blk := List.map (fdec fo w) (take_flat _ _ xs)).
    assert (Hsels : Forall2 (fun s n => forall i, In i s -> (i < n)%nat)
              (List.map p_sel D ++ [seq ca (cb - ca)]) (List.map p_ext D ++ [onc])).
    { apply Forall2_app.
      - clear - He HD. induction HD as [|d D Hd HD IH]; simpl; constructor.
        + intros i Hi. apply in_seq in Hi. cbn [existsb] in He. apply orb_false_elim in He as [H1 _].
          unfold p_empty in H1. apply Nat.leb_gt in H1. unfold p_len in Hi. lia.
        + apply IH. cbn [existsb] in He. now apply orb_false_elim in He.
      - repeat constructor. intros i Hi. apply in_seq in Hi. lia. }
    assert (Hlens : List.map (@length nat) (List.map p_sel D ++ [seq ca (cb - ca)])
                    = List.map p_len D ++ [(cb - ca)%nat]).
    { rewrite map_app, map_map. cbn [List.map]. rewrite seq_length. f_equal. apply map_ext.
      intros d. unfold p_sel. apply seq_length. }
    assert (Hblk : length blk = prod (List.map p_len D ++ [(cb - ca)%nat])).
    { unfold blk. rewrite map_length, take_flat_length; auto. - now rewrite Hlens.
      - now rewrite !app_length, !map_length. }
    set (rs := List.map (fun d => (p_at d, p_len d)) D ++ [(0%nat, (cb - ca)%nat)]).
    assert (Hrs : map2 slice_range (shape data)
       (List.map (fun d => (Z.of_nat (p_at d), Z.of_nat (p_at d + p_len d))) D)
       ++ List.map (fun n => (0%nat, n)) (skipn (length
       (List.map (fun d => (Z.of_nat (p_at d), Z.of_nat (p_at d + p_len d))) D)) (shape data)) = rs).
    { rewrite Hsh. rewrite skipn_app_exact by (now rewrite !map_length).
      unfold rs. simpl List.map. f_equal. rewrite <- Hr1 at 1. clear.
      induction D as [|d D IH]; [reflexivity|]. cbn [List.map app map2]. now rewrite IH. }
    assert (Hsnd : List.map snd rs = List.map p_len D ++ [(cb - ca)%nat]).
    { unfold rs. rewrite map_app, map_map. reflexivity. }
    assert (HF : Forall2 (fun r n => (fst r + snd r <= n)%nat) rs (shape data)).
    { unfold rs. rewrite Hsh. apply Forall2_app; auto. }
    exists (mk_nda (shape data) (put_flat (shape data) rs (flat data) blk)).
    split; [|split; [|split]].
    - unfold assign. rewrite Hrs. cbn [shape flat]. rewrite Hsnd.
      destruct (list_eq_dec _ _ _) as [_|n]; [reflexivity|now elim n].
    - reflexivity.
    - unfold wf; cbn [shape flat]. apply put_flat_length; auto. now rewrite Hsnd.
    - intros idx c HI Hcc.
      assert (Hin : in_range (shape data) (idx ++ [c])).
      { rewrite Hsh. apply Forall2_app; [|repeat constructor; auto].
        clear - HI. induction HI; simpl; constructor; auto. }
      apply ravel_in_range in Hin as [k Hk].
      unfold get at 1. cbn [shape flat]. rewrite Hk.
      rewrite (put_flat_get _ rs _ blk _ _ HF Hwf ltac:(now rewrite Hsnd) Hk).
      unfold rs at 1. rewrite region_app by (eapply Forall2_length; eauto).
      rewrite region_covered by auto.
      destruct (p_covs D idx) eqn:Ec.
      + cbn [region]. destruct (Nat.ltb_spec c (0 + (cb - ca))); [|lia]. cbn [Nat.leb andb option_map].
        rewrite Hsnd. rewrite <- Hlens.
        unfold blk. rewrite <- take_flat_map.
        change (mk_nda (List.map (@length nat) (List.map p_sel D ++ [seq ca (cb - ca)]))
             (take_flat (List.map p_ext D ++ [onc]) (List.map p_sel D ++ [seq ca (cb - ca)])
                (List.map (fdec fo w) xs)))
          with (take (List.map p_sel D ++ [seq ca (cb - ca)])
                 (mk_nda (List.map p_ext D ++ [onc]) (List.map (fdec fo w) xs))).
        destruct (covered_pos D idx He HD HI Ec) as (I1 & I2 & I3).
        apply get_take.
        * unfold wf; cbn [shape flat]. now rewrite map_length.
        * exact Hsels.
        * rewrite Hlens. apply Forall2_app; auto. repeat constructor. lia.
        * assert (Hcomb : forall (A B : Type) (l1 l2 : list A) (m1 m2 : list B), length l1 = length m1 ->
            combine (l1 ++ l2) (m1 ++ m2) = combine l1 m1 ++ combine l2 m2).
          { clear. induction l1; destruct m1; simpl; intros; try discriminate; auto.
            f_equal. auto. }
          rewrite Hcomb.
          2:{ rewrite map_length, map2_length_eq; auto. symmetry. eapply Forall2_length; eauto. }
          apply Forall2_app; auto. cbn [combine]. repeat constructor. cbn [fst snd].
          rewrite nth_error_seq. destruct (Nat.ltb_spec (c - 0) (cb - ca)); [|lia]. f_equal. lia.
      + unfold get. rewrite Hk. reflexivity.
  Qed.
End Ranges.

(** ** Dimensions of a range under a cut *)

Fixpoint zipD (cells : list nat) (abs : list (nat * nat)) (los ups : list nat) : list pd :=
  match cells, abs, los, ups with
  | n :: cells', ab :: abs', l :: los', u :: ups' =>
      mk_pd n (fst ab) (snd ab) l u :: zipD cells' abs' los' ups'
  | _, _, _, _ => []
  end.

Lemma zipD_proj cells abs los ups :
  length abs = length cells -> length los = length cells -> length ups = length cells ->
  let D := zipD cells abs los ups in
  length D = length cells /\
  List.map p_n D = cells /\ List.map (fun d => (p_a d, p_b d)) D = abs /\
  List.map p_lo D = los /\ List.map p_up D = ups.
Proof.
  revert abs los ups. induction cells as [|n cells IH]; intros [|[a b] abs] [|l los] [|u ups];
    simpl; try discriminate; auto 7.
  intros [= H1] [= H2] [= H3]. destruct (IH _ _ _ H1 H2 H3) as (I0 & I1 & I2 & I3 & I4).
  cbv zeta in *. rewrite I0, I1, I2, I3, I4. auto 7.
Qed.

Lemma zipD_ext cells abs los ups :
  length abs = length cells -> length los = length cells -> length ups = length cells ->
  List.map p_ext (zipD cells abs los ups) = map2 (fun l u => (u + 1 - l)%nat) los ups.
Proof.
  revert abs los ups. induction cells as [|n cells IH]; intros [|[a b] abs] [|l los] [|u ups];
    simpl; try discriminate; auto.
  intros [= H1] [= H2] [= H3]. now rewrite IH.
Qed.

Lemma zipD_nth cells abs los ups d p :
  nth_error (zipD cells abs los ups) d = Some p ->
  nth_error cells d = Some (p_n p) /\ nth_error abs d = Some (p_a p, p_b p) /\
  nth_error los d = Some (p_lo p) /\ nth_error ups d = Some (p_up p).
Proof.
  revert abs los ups d. induction cells as [|n cells IH]; intros [|[a b] abs] [|l los] [|u ups] [|d];
    simpl; try discriminate.
  - intros [= <-]. auto.
  - apply IH.
Qed.

Lemma zipD_wid cells abs los ups :
  length abs = length cells -> length los = length cells -> length ups = length cells ->
  List.map p_wid (zipD cells abs los ups) = cut_cells abs.
Proof.
  revert abs los ups. induction cells as [|n cells IH]; intros [|[a b] abs] [|l los] [|u ups];
    simpl; try discriminate; auto.
  intros [= H1] [= H2] [= H3]. rewrite IH by auto. reflexivity.
Qed.

Definition good_cuts (cells : list nat) (abs : list (nat * nat)) : Prop :=
  length abs = length cells /\
  forall d n a b, nth_error cells d = Some n -> nth_error abs d = Some (a, b) -> (a < b <= n)%nat.

Lemma zipD_ok w cells abs nc r :
  good_cuts cells abs -> good_range w cells nc r -> Forall pd_ok (zipD cells abs (rg_lo r) (rg_up r)).
Proof.
  intros [Hl Hc] (H1 & H2 & H3 & _). apply Forall_forall. intros p Hp.
  apply In_nth_error in Hp as [d Hp]. apply zipD_nth in Hp as (N1 & N2 & N3 & N4).
  unfold pd_ok. specialize (Hc _ _ _ _ N1 N2). specialize (H3 _ _ _ _ N3 N4 N1). lia.
Qed.

(** The cell counted from the start of the cut, as a cell of the full field. *)
Definition shift_by (abs : list (nat * nat)) (idx : list nat) : list nat :=
  map2 (fun ab i => (fst ab + i)%nat) abs idx.

Lemma p_covs_spec cells abs r idx :
  length abs = length cells -> length (rg_lo r) = length cells -> length (rg_up r) = length cells ->
  length idx = length cells ->
  p_covs (zipD cells abs (rg_lo r) (rg_up r)) idx = true <-> covers r (shift_by abs idx).
Proof.
  unfold covers, shift_by. destruct r as [los ups dat]; simpl.
  revert abs los ups idx. induction cells as [|n cells IH];
    intros [|[a b] abs] [|l los] [|u ups] [|i idx]; simpl; try discriminate.
  - intros. split; auto. intros _. split; auto. intros [|d]; discriminate.
  - intros [= H1] [= H2] [= H3] [= H4]. rewrite andb_true_iff, (IH _ _ _ _ H1 H2 H3 H4).
    unfold p_cov; simpl. rewrite andb_true_iff, !Nat.leb_le. split.
    + intros [Ha [Hb Hc]]. split; [simpl; lia|]. intros [|d] l' u' i'; simpl.
      * intros [= <-] [= <-] [= <-]. lia.
      * apply Hc.
    + intros [Hb Hc]. split; [|split].
      * specialize (Hc 0%nat l u (a + i)%nat eq_refl eq_refl eq_refl). lia.
      * simpl in Hb. lia.
      * intros d l' u' i' E1 E2 E3. exact (Hc (S d) l' u' i' E1 E2 E3).
Qed.

Lemma p_pos_spec cells abs los ups idx :
  length abs = length cells -> length los = length cells -> length ups = length cells ->
  length idx = length cells ->
  p_pos (zipD cells abs los ups) idx = map2 (fun i l => (i + 1 - l)%nat) (shift_by abs idx) los.
Proof.
  unfold p_pos, shift_by.
  revert abs los ups idx. induction cells as [|n cells IH];
    intros [|[a b] abs] [|l los] [|u ups] [|i idx]; simpl; try discriminate; auto.
  intros [= H1] [= H2] [= H3] [= H4]. rewrite IH by auto. f_equal. lia.
Qed.

Lemma prod_le l m : Forall2 (fun a b => (a <= b)%nat) l m -> (prod l <= prod m)%nat.
Proof. induction 1; auto. unfold prod in *. simpl. nia. Qed.

Lemma fits_le n m : fits (Z.of_nat n) -> (m <= n)%nat -> fits (Z.of_nat m).
Proof. unfold fits. lia. Qed.

Lemma rg_ext_le w cells nc r : good_range w cells nc r -> Forall2 (fun a b => (a <= b)%nat) (rg_ext r) cells.
Proof.
  intros (H1 & H2 & H3 & _). apply Forall2_nth_error_intro.
  - unfold rg_ext. rewrite map2_length. lia.
  - intros k a b Ha Hb. unfold rg_ext in Ha. rewrite nth_error_map2 in Ha.
    destruct (nth_error (rg_lo r) k) as [l|] eqn:E1; [|discriminate].
    destruct (nth_error (rg_up r) k) as [u|] eqn:E2; [|discriminate].
    injection Ha as <-. specialize (H3 _ _ _ _ E1 E2 Hb). lia.
Qed.

Lemma rg_fits w cells nc r :
  good_range w cells nc r -> Forall (fun n => fits (Z.of_nat n)) cells -> fits (Z.of_nat (prod cells)) ->
  Forall (fun n => fits (Z.of_nat n)) (rg_lo r) /\ Forall (fun n => fits (Z.of_nat n)) (rg_up r) /\
  fits (Z.of_nat (prod (rg_ext r))).
Proof.
  intros G Hc Hp. pose proof G as (H1 & H2 & H3 & _). rewrite Forall_forall in Hc. split; [|split].
  - apply Forall_forall. intros l Hl. apply In_nth_error in Hl as [d Hl].
    assert (Hd : (d < length cells)%nat) by (rewrite <- H1; apply nth_error_Some; congruence).
    destruct (nth_error cells d) as [n|] eqn:En; [|apply nth_error_None in En; lia].
    destruct (nth_error (rg_up r) d) as [u|] eqn:Eu; [|apply nth_error_None in Eu; lia].
    specialize (H3 _ _ _ _ Hl Eu En). apply (fits_le n); [|lia]. apply Hc. eapply nth_error_In; eauto.
  - apply Forall_forall. intros u Hu. apply In_nth_error in Hu as [d Hu].
    assert (Hd : (d < length cells)%nat) by (rewrite <- H2; apply nth_error_Some; congruence).
    destruct (nth_error cells d) as [n|] eqn:En; [|apply nth_error_None in En; lia].
    destruct (nth_error (rg_lo r) d) as [l|] eqn:El; [|apply nth_error_None in El; lia].
    specialize (H3 _ _ _ _ El Hu En). apply (fits_le n); [|lia]. apply Hc. eapply nth_error_In; eauto.
  - eapply fits_le; eauto. eapply prod_le, rg_ext_le; eauto.
Qed.

(** ** The loop over ranges *)

Section Loop.
  Context {F : Type}.
  Variable fo : fops F.
  Variable f : list Z.

  (** What one read of a range must return (shown below for full and partial
      loading). *)
  Definition reads_range (partial : bool) (dd : @domain F) (w : nat) (cells : list nat)
             (abs : list (nat * nat)) (onc ca cb : nat) : Prop :=
    forall r off rest, good_range w cells onc r ->
      At f off (concat (rg_data r) ++ rest) ->
      let D := zipD cells abs (rg_lo r) (rg_up r) in
      let count := Z.of_nat (length (rg_data r)) in
      get_data fo f partial dd w count
        (Some (List.map Z.of_nat (rg_lo r), List.map Z.of_nat (rg_up r))) off
      = Ok (if existsb p_empty D
            then (None, [], off + count * Z.of_nat w)
            else (Some (mk_nda (List.map p_len D ++ [(cb - ca)%nat])
                          (List.map (fdec fo w)
                            (take_flat (List.map p_ext D ++ [onc])
                                       (List.map p_sel D ++ [seq ca (cb - ca)]) (rg_data r)))),
                  List.map (fun d => (Z.of_nat (p_at d), Z.of_nat (p_at d + p_len d))) D,
                  off + count * Z.of_nat w)).

  (** Value of a range for a cell, as loaded. *)
  Definition range_value (w onc : nat) (r : range) (idx : list nat) (c : nat) : option F :=
    option_map (fdec fo w) (stored r onc idx c).

  Definition after_ranges (w onc : nat) (cells : list nat) (abs : list (nat * nat)) (ca : nat)
             (rs : list range) (idx : list nat) (c : nat) (v0 : option F) : option F :=
    fold_left (fun acc r => if p_covs (zipD cells abs (rg_lo r) (rg_up r)) idx
                            then range_value w onc r (shift_by abs idx) (ca + c) else acc) rs v0.

  Lemma get_map_nda {A B} (g : A -> B) sh l idx :
    get (mk_nda sh (List.map g l)) idx = option_map g (get (mk_nda sh l) idx).
  Proof. unfold get; simpl. destruct (ravel sh idx); auto. apply nth_error_map. Qed.

  Lemma t3_loop_ok partial dd w cells abs onc ca cb :
    reads_range partial dd w cells abs onc ca cb -> (0 < w)%nat ->
    good_cuts cells abs -> (ca < cb <= onc)%nat ->
    d_orig dd = List.map Z.of_nat cells -> d_orig_nc dd = Z.of_nat onc ->
    fits (Z.of_nat (length cells)) ->
    Forall (fun n => fits (Z.of_nat n)) cells -> fits (Z.of_nat (prod cells)) ->
    forall rs off rest (data : nda F),
    Forall (good_range w cells onc) rs ->
    At f off (flat_map range_bytes rs ++ rest) ->
    wf data -> shape data = cut_cells abs ++ [(cb - ca)%nat] ->
    exists data', t3_loop fo f partial dd w (length rs) off data = Ok data' /\
      wf data' /\ shape data' = shape data /\
      forall idx c, in_range (cut_cells abs) idx -> (c < cb - ca)%nat ->
        get data' (idx ++ [c]) = after_ranges w onc cells abs ca rs idx c (get data (idx ++ [c])).
  Proof.
    intros HR Hw Hcut Hc Ho Honc Hnd Hfc Hfp.
    induction rs as [|r rs IH]; intros off rest data HG HA Hwf Hsh.
    - exists data. repeat split; auto.
    - inversion HG as [|? ? Hr HG']; subst. cbn [t3_loop length].
      destruct (rg_fits _ _ _ _ Hr Hfc Hfp) as (Hf1 & Hf2 & Hf3).
      pose proof Hr as (L1 & L2 & L3 & Hwd & Hld).
      cbn [flat_map] in HA. unfold range_bytes in HA at 1. rewrite <- !app_assoc in HA.
      rewrite Ho, map_length.
      destruct (read_i64s_at _ _ _ _ (Z.of_nat (length cells)) HA Hf1 ltac:(now rewrite L1)) as [-> HA1].
      cbn [bind].
      destruct (read_i64s_at _ _ _ _ (Z.of_nat (length cells)) HA1 Hf2 ltac:(now rewrite L2)) as [-> HA2].
      cbn [bind].
      replace (off + Z.of_nat (length cells) * 8 + Z.of_nat (length cells) * 8)
        with (off + Z.of_nat (length cells) * 16) in HA2 by lia.
      destruct (read_i64_at _ _ _ _ HA2 Hf3) as [-> HA3]. cbn [bind].
      rewrite !map_length, L1, L2, !Z.eqb_refl. cbn [andb].
      rewrite Honc. replace (Z.of_nat (prod (rg_ext r)) * Z.of_nat onc) with (Z.of_nat (length (rg_data r)))
        by (rewrite Hld; lia).
      rewrite (HR r _ _ Hr HA3). cbn [bind].
      set (D := zipD cells abs (rg_lo r) (rg_up r)).
      assert (HD : Forall pd_ok D) by (eapply zipD_ok; eauto).
      pose proof Hcut as [Hla _].
      assert (HwidD : List.map p_wid D = cut_cells abs) by (apply zipD_wid; auto).
      assert (HextD : List.map p_ext D = rg_ext r) by (apply zipD_ext; auto).
      assert (HlenD : length D = length cells).
      { apply (zipD_proj cells abs (rg_lo r) (rg_up r)); auto. }
      eapply At_step with (k := Z.of_nat (length (rg_data r)) * Z.of_nat w) in HA3.
      2:{ rewrite (concat_length w) by auto. lia. }
      assert (HI : forall idx, in_range (cut_cells abs) idx -> Forall2 (fun i d => (i < p_wid d)%nat) idx D).
      { intros idx Hi. rewrite <- HwidD in Hi. unfold in_range in Hi. clearbody D. clear - Hi.
        remember (List.map p_wid D) as q. revert D Heqq. induction Hi; intros [|d D] E; try discriminate; constructor.
        - injection E as -> _. auto.
        - apply IHHi. now injection E. }
      destruct (existsb p_empty D) eqn:He.
      + cbn [bind]. destruct (IH _ _ data HG' HA3 Hwf Hsh) as (data' & E & Hwf' & Hsh' & Hget).
        exists data'. repeat split; auto. intros idx c Hi Hcc. rewrite Hget by auto.
        unfold after_ranges. cbn [fold_left]. fold D.
        rewrite (empty_not_covered D idx He HD (HI idx Hi)). reflexivity.
      + destruct (assign_range fo w D onc ca cb data (rg_data r) He HD Hc Hwf) as (d1 & E1 & S1 & W1 & G1).
        { now rewrite HwidD. }
        { rewrite Hld, HextD, prod_app. unfold prod at 3. simpl. lia. }
        cbn [bind shape].
        replace (match List.map p_len D ++ [(cb - ca)%nat] with 0%nat :: _ => _ | _ => _ end)
          with (Ok d1).
        2:{ rewrite E1. destruct D as [|d D']; simpl.
            - destruct (cb - ca)%nat eqn:Ecc; [lia|reflexivity].
            - destruct (p_len d) eqn:El; [|reflexivity].
              exfalso. cbn [existsb] in He. apply orb_false_elim in He as [He _].
              unfold p_empty in He. apply Nat.leb_gt in He. unfold p_len in El. lia. }
        cbn [bind].
        destruct (IH _ _ d1 HG' HA3 W1 ltac:(now rewrite S1)) as (data' & E & Hwf' & Hsh' & Hget).
        exists data'. split; [exact E|]. split; [auto|]. split; [congruence|].
        intros idx c Hi Hcc. rewrite Hget by auto.
        unfold after_ranges. cbn [fold_left]. fold D.
        rewrite (G1 idx c (HI idx Hi) Hcc). f_equal.
        destruct (p_covs D idx); [|reflexivity].
        rewrite get_map_nda. unfold range_value, stored. rewrite HextD. f_equal. f_equal. f_equal.
        apply p_pos_spec; auto. apply Forall2_length in Hi. unfold cut_cells in Hi.
        rewrite map_length in Hi. lia.
  Qed.
End Loop.

Section Loads.
  Context {F M : Type}.
  Variable fo : fops F.
  Variable unpack : list Z -> option (option (list (string * M))).
  Variable mtrue : M.
  Variable f : list Z.

  (** Domain attributes after reading with cuts. *)
  Record dom_cut (dd : @domain F) (cells : list nat) (abs : list (nat * nat)) (onc ca cb : nat) : Prop := {
    dc_goff : d_goff dd = map2 (fun n ab => (Z.of_nat (fst ab), Z.of_nat n - Z.of_nat (snd ab))) cells abs;
    dc_orig : d_orig dd = List.map Z.of_nat cells;
    dc_onc : d_orig_nc dd = Z.of_nat onc;
    dc_nc : d_nc dd = Z.of_nat (cb - ca);
    dc_gc : d_goff_c dd = (Z.of_nat ca, Z.of_nat onc - Z.of_nat cb);
    dc_cells : d_cells dd = List.map Z.of_nat (cut_cells abs)
  }.

  Lemma dom_cut_domain dd cells abs onc ca cb los ups :
    dom_cut dd cells abs onc ca cb ->
    length abs = length cells -> length los = length cells -> length ups = length cells ->
    cut_domain dd (zipD cells abs los ups) onc ca cb.
  Proof.
    intros [H1 H2 H3 H4 H5 _] L1 L2 L3. unfold cut_domain. rewrite H1, H2. repeat split; auto.
    - clear - L1 L2 L3. revert abs los ups L1 L2 L3.
      induction cells as [|n cells IH]; intros [|[a b] abs] [|l los] [|u ups]; simpl; try discriminate; auto.
      intros [= L1] [= L2] [= L3]. now rewrite (IH abs los ups).
    - pose proof (zipD_proj cells abs los ups L1 L2 L3) as (_ & I1 & _). cbv zeta in I1.
      rewrite <- (map_map p_n Z.of_nat), I1. reflexivity.
  Qed.

  Lemma reads_range_partial dd w cells abs onc ca cb :
    dom_cut dd cells abs onc ca cb -> good_cuts cells abs -> (ca < cb <= onc)%nat -> (0 < w)%nat ->
    reads_range fo f true dd w cells abs onc ca cb.
  Proof.
    intros Hd Hg Hc Hw r off rest Hr HA. cbv zeta.
    pose proof Hr as (L1 & L2 & L3 & Hwd & Hld). pose proof Hg as [Hla _].
    pose proof (zipD_proj cells abs (rg_lo r) (rg_up r) Hla L1 L2) as (_ & _ & _ & I3 & I4).
    cbv zeta in I3, I4.
    replace (List.map Z.of_nat (rg_lo r))
      with (List.map (fun d => Z.of_nat (p_lo d)) (zipD cells abs (rg_lo r) (rg_up r)))
      by (rewrite <- (map_map p_lo Z.of_nat), I3; reflexivity).
    replace (List.map Z.of_nat (rg_up r))
      with (List.map (fun d => Z.of_nat (p_up d)) (zipD cells abs (rg_lo r) (rg_up r)))
      by (rewrite <- (map_map p_up Z.of_nat), I4; reflexivity).
    eapply get_data_partial; eauto.
    - apply dom_cut_domain; auto.
    - eapply zipD_ok; eauto.
    - rewrite zipD_ext by auto. rewrite Hld, prod_app. unfold rg_ext, prod at 3. simpl. lia.
  Qed.

  (** Without cuts everything is wanted. *)
  Definition uncut (cells : list nat) : list (nat * nat) := List.map (fun n => (0%nat, n)) cells.

  Lemma cut_cells_uncut cells : cut_cells (uncut cells) = cells.
  Proof. unfold cut_cells, uncut. rewrite map_map. simpl. rewrite <- (map_id cells) at 2.
    apply map_ext. intros; lia. Qed.

  Lemma shift_uncut cells idx : length idx = length cells -> shift_by (uncut cells) idx = idx.
  Proof.
    unfold shift_by, uncut. revert idx. induction cells as [|n cells IH]; intros [|i idx]; simpl;
      try discriminate; auto. intros [= H]. now rewrite IH.
  Qed.

  Lemma reads_range_full dd w cells onc :
    d_nc dd = Z.of_nat onc -> (0 < w)%nat ->
    reads_range fo f false dd w cells (uncut cells) onc 0 onc.
  Proof.
    intros Hnc Hw r off rest Hr HA. cbv zeta.
    pose proof Hr as (L1 & L2 & L3 & Hwd & Hld).
    set (D := zipD cells (uncut cells) (rg_lo r) (rg_up r)).
    assert (Hext : List.map p_ext D = rg_ext r).
    { apply zipD_ext; auto. unfold uncut. now rewrite map_length. }
    assert (HD : forall d, In d D -> p_a d = 0%nat /\ p_b d = p_n d /\ (1 <= p_lo d <= p_up d)%nat
                 /\ (p_up d <= p_n d)%nat).
    { intros d Hd. apply In_nth_error in Hd as [k Hk]. apply zipD_nth in Hk as (N1 & N2 & N3 & N4).
      unfold uncut in N2. rewrite nth_error_map, N1 in N2. injection N2 as <- <-.
      specialize (L3 _ _ _ _ N3 N4 N1). auto. }
    assert (He : existsb p_empty D = false).
    { apply not_true_is_false. intros E. apply existsb_exists in E as (d & Hd & E).
      specialize (HD d Hd). unfold p_empty, p_ext, p_s0, p_s1 in E. apply Nat.leb_le in E. lia. }
    rewrite He.
    assert (Hlen : List.map p_len D = rg_ext r).
    { rewrite <- Hext. apply map_ext_in. intros d Hd. specialize (HD d Hd).
      unfold p_len, p_ext, p_s0, p_s1. lia. }
    assert (Hsel : List.map p_sel D = List.map (fun n => seq 0 n) (rg_ext r)).
    { rewrite <- Hext, map_map. apply map_ext_in. intros d Hd. specialize (HD d Hd).
      unfold p_sel. f_equal; unfold p_len, p_ext, p_s0, p_s1; lia. }
    unfold get_data. cbn [negb].
    destruct (fromfile_at f w off _ _ (Z.of_nat (length (rg_data r))) HA) as [-> _]; auto.
    cbn [bind]. rewrite Hnc.
    assert (Hsh : map2 (fun l u => u - l + 1) (List.map Z.of_nat (rg_lo r)) (List.map Z.of_nat (rg_up r))
                  ++ [Z.of_nat onc] = List.map Z.of_nat (rg_ext r ++ [onc])).
    { rewrite map_app. f_equal. rewrite <- Hext.
      pose proof (zipD_proj cells (uncut cells) (rg_lo r) (rg_up r)) as P.
      destruct P as (_ & _ & _ & I3 & I4); auto. { unfold uncut. now rewrite map_length. }
      cbv zeta in I3, I4. fold D in I3, I4. replace (List.map Z.of_nat (rg_lo r)) with (List.map (fun d => Z.of_nat (p_lo d)) D)
        by (rewrite <- (map_map p_lo Z.of_nat), I3; reflexivity).
      replace (List.map Z.of_nat (rg_up r)) with (List.map (fun d => Z.of_nat (p_up d)) D)
        by (rewrite <- (map_map p_up Z.of_nat), I4; reflexivity).
      rewrite ?map_map, map2_map.
      apply map_ext_in. intros d Hd. specialize (HD d Hd). unfold p_ext. lia. }
    rewrite Hsh, reshape_ok.
    2:{ rewrite map_length, Hld, prod_app. unfold prod at 3. simpl. lia. }
    cbn [bind]. rewrite Hext, Hlen, Hsel, Nat.sub_0_r.
    change [seq 0 onc] with (List.map (fun n => seq 0 n) [onc]). rewrite <- map_app, take_flat_all.
    2:{ rewrite Hld, prod_app. unfold prod at 3. simpl. lia. }
    f_equal. f_equal. f_equal.
    pose proof (zipD_proj cells (uncut cells) (rg_lo r) (rg_up r)) as P.
    destruct P as (_ & _ & _ & I3 & I4); auto. { unfold uncut. now rewrite map_length. }
    cbv zeta in I3, I4. fold D in I3, I4. replace (List.map Z.of_nat (rg_lo r)) with (List.map (fun d => Z.of_nat (p_lo d)) D)
        by (rewrite <- (map_map p_lo Z.of_nat), I3; reflexivity).
      replace (List.map Z.of_nat (rg_up r)) with (List.map (fun d => Z.of_nat (p_up d)) D)
        by (rewrite <- (map_map p_up Z.of_nat), I4; reflexivity).
      rewrite ?map_map, map2_map.
    apply map_ext_in. intros d Hd. specialize (HD d Hd).
    f_equal; unfold p_at, p_len, p_ext, p_s0, p_s1; lia.
  Qed.

  (** ** Reading the domain with cuts *)

  Definition goff_of (cells : list nat) (abs : list (nat * nat)) : list (Z * Z) :=
    map2 (fun n ab => (Z.of_nat (fst ab), Z.of_nat n - Z.of_nat (snd ab))) cells abs.

  Lemma cuts_good ps cells nc abs ca cb :
    cuts_select ps cells nc abs ca cb -> good_cuts cells abs /\ (ca < cb <= nc)%nat.
  Proof.
    intros (H1 & H2 & H3 & H4 & H5). split.
    - split; auto. intros d n a b Hn Hab.
      assert (Hd : (d < length cells)%nat) by (apply nth_error_Some; congruence).
      destruct (nth_error ps d) as [s|] eqn:Es; [|apply nth_error_None in Es; lia].
      eapply cut_range_bounds; eauto.
    - destruct (nth_error ps 6) as [s|] eqn:Es; [|apply nth_error_None in Es; lia].
      eapply cut_range_bounds; eauto.
  Qed.

  Lemma parse_cuts_ok ps cells nc abs ca cb :
    cuts_select ps cells nc abs ca cb ->
    mapM (fun i =>
            match nth_error ps i, nth_error (List.map Z.of_nat cells) i with
            | Some sl, Some n => parse_cut sl n
            | _, _ => Err IndexError
            end) (seq 0 (length cells)) = Ok (goff_of cells abs).
  Proof.
    intros (H1 & H2 & H3 & H4 & H5). apply mapM_ok. apply Forall2_nth_error_intro.
    - unfold goff_of. rewrite seq_length, map2_length. lia.
    - intros k i g Hi Hg. rewrite nth_error_seq in Hi.
      destruct (Nat.ltb_spec k (length cells)) as [L|]; [|discriminate]. injection Hi as <-. simpl Nat.add.
      destruct (nth_error ps k) as [s|] eqn:Es; [|apply nth_error_None in Es; lia].
      unfold goff_of in Hg. rewrite nth_error_map2 in Hg. rewrite nth_error_map.
      destruct (nth_error cells k) as [n|] eqn:En; [|discriminate].
      destruct (nth_error abs k) as [[a b]|] eqn:Ea; [|discriminate]. injection Hg as <-.
      cbn [option_map fst snd]. eapply parse_cut_ok; eauto.
  Qed.

  Lemma read_domain_cut (s : @rst M) rt fd meta rest asz ps abs ca cb :
    At f (r_off s) (u64n (length (fd_cells fd)) ++ flat_map u64n (fd_cells fd)
        ++ concat (fd_lower fd) ++ concat (fd_upper fd)
        ++ u64n (fd_nc fd * width_of rt) ++ u64n asz ++ rest) ->
    r_w s = width_of rt -> good_domain rt (width_of rt) meta fd -> fits (Z.of_nat asz) ->
    cuts_select ps (fd_cells fd) (fd_nc fd) abs ca cb ->
    exists off',
      read_domain fo f (Some ps) s
      = Ok (apply_cuts fo (List.map Z.of_nat (fd_cells fd))
              (List.map (fdec fo (width_of rt)) (fd_lower fd))
              (List.map (fdec fo (width_of rt)) (fd_upper fd))
              (Z.of_nat (fd_nc fd)) (Z.of_nat asz) (goff_of (fd_cells fd) abs)
              (Z.of_nat ca, Z.of_nat (fd_nc fd) - Z.of_nat cb),
            mk_rst off' (r_w s) (r_type s) (r_ver s) (r_ctx s))
      /\ At f off' rest.
  Proof.
    intros HA Hw Hd Hs Hcut.
    destruct (read_domain_raw_at fo f s rt fd meta rest asz HA Hw Hd Hs) as (o & E & HA').
    unfold read_domain. rewrite E. cbn [bind]. rewrite Nat2Z.id.
    rewrite (parse_cuts_ok ps (fd_cells fd) (fd_nc fd) abs ca cb Hcut). cbn [bind].
    destruct Hcut as (H1 & H2 & H3 & H4 & H5).
    destruct (nth_error ps 6) as [sl|] eqn:Es; [|apply nth_error_None in Es; lia].
    rewrite (parse_cut_ok _ _ _ _ (H5 sl eq_refl)). cbn [bind]. eauto.
  Qed.

  Lemma apply_cuts_dom cells (lo up : list F) nc asz abs ca cb :
    good_cuts cells abs -> (ca < cb <= nc)%nat ->
    dom_cut (apply_cuts fo (List.map Z.of_nat cells) lo up (Z.of_nat nc) asz (goff_of cells abs)
               (Z.of_nat ca, Z.of_nat nc - Z.of_nat cb)) cells abs nc ca cb.
  Proof.
    intros [Hl Hg] Hc. constructor; unfold apply_cuts; simpl; auto; [lia|].
    unfold goff_of, cut_cells. revert abs Hl Hg.
    induction cells as [|n cells IH]; intros [|[a b] abs]; simpl; try discriminate; auto.
    intros [= Hl] Hg. f_equal.
    - specialize (Hg 0%nat n a b eq_refl eq_refl). lia.
    - apply IH; auto. intros d n' a' b' E1 E2. exact (Hg (S d) n' a' b' E1 E2).
  Qed.

  Lemma apply_cuts_bounds cells (lo up : list F) nc asz abs gc :
    length lo = length cells -> length up = length cells -> length abs = length cells ->
    let dd := apply_cuts fo (List.map Z.of_nat cells) lo up nc asz (goff_of cells abs) gc in
    length (d_lower dd) = length cells /\ length (d_upper dd) = length cells /\
    forall d n a b l u, nth_error cells d = Some n -> nth_error abs d = Some (a, b) ->
      nth_error lo d = Some l -> nth_error up d = Some u ->
      let cs := fdiv fo (fsub fo u l) (fofZ fo (Z.of_nat n)) in
      nth_error (d_lower dd) d = Some (fadd fo l (fmul fo (fofZ fo (Z.of_nat a)) cs)) /\
      nth_error (d_upper dd) d
        = Some (fsub fo u (fmul fo (fofZ fo (Z.of_nat n - Z.of_nat b)) cs)).
  Proof.
    intros H1 H2 H3. unfold apply_cuts. cbn [d_lower d_upper].
    assert (Hg : length (goff_of cells abs) = length cells) by (unfold goff_of; rewrite map2_length; lia).
    cbv zeta. split; [|split].
    - rewrite map2_length, combine_length, map2_length, combine_length, map_length. lia.
    - rewrite map2_length, combine_length, map2_length, combine_length, map_length. lia.
    - intros d n a b l u Hn Hab Hlo Hup. rewrite !nth_error_map2.
      assert (Hcomb : forall A B (x : list A) (y : list B) k p q, nth_error x k = Some p ->
        nth_error y k = Some q -> nth_error (combine x y) k = Some (p, q)).
      { clear. induction x; intros [|? y] [|k] p q; simpl; try discriminate; [congruence|apply IHx]. }
      assert (Hgo : nth_error (goff_of cells abs) d = Some (Z.of_nat a, Z.of_nat n - Z.of_nat b)).
      { unfold goff_of. now rewrite nth_error_map2, Hn, Hab. }
      rewrite Hlo, Hup.
      erewrite Hcomb; [|exact Hgo|].
      2:{ rewrite nth_error_map2. erewrite Hcomb; eauto. rewrite nth_error_map, Hn. reflexivity. }
      cbn [fst snd]. auto.
  Qed.

  (** ** The loads *)

  (** Finish of [load] once domain and data agree. *)
  Lemma finish_load (dd : @domain F) (data : nda F) cells nc tl (ctx : list (string * M)) :
    d_cells dd = List.map Z.of_nat cells -> length (d_lower dd) = length cells ->
    length (d_upper dd) = length cells -> shape data = cells ++ tl ->
    (let* adj := mapM (fun k =>
          match nth_error (d_cells dd) k, nth_error (d_lower dd) k, nth_error (d_upper dd) k,
                nth_error (shape data) k with
          | Some c, Some lo, Some up, Some n => Ok (ghost_adjust fo c lo up n)
          | _, _, _, _ => Err IndexError
          end) (seq 0 (length (d_cells dd))) in
      let cs := List.map (fun x => fst (fst x)) adj in
      let los := List.map (fun x => snd (fst x)) adj in
      let ups := List.map snd adj in
      let* grid := mapM (fun x => let '(c, lo, up) := x in
                          if c + 1 <? 0 then Err ValueError
                          else if c + 1 =? 0 then Ok [] else Ok (linspace fo lo up (Z.to_nat c))) adj in
      Ok (mk_loaded grid data cs los ups nc ctx))
    = Ok (mk_loaded (grid_for fo cells (d_lower dd) (d_upper dd)) data (List.map Z.of_nat cells)
            (d_lower dd) (d_upper dd) nc ctx).
  Proof.
    intros Hc Hl Hu Hs. rewrite Hc, Hs.
    rewrite adj_ok by eauto. cbn [bind]. rewrite grid_ok. cbn [bind].
    destruct (combine_proj (List.map Z.of_nat cells) (d_lower dd) (d_upper dd)) as (-> & -> & ->);
      rewrite ?map_length; auto.
  Qed.

  (** Attributes of the domain for a partial load of [fd]. *)
  Definition part_domain (rt : Z) (fd : field) (asz : nat) (abs : list (nat * nat)) (ca cb : nat) : @domain F :=
    apply_cuts fo (List.map Z.of_nat (fd_cells fd))
      (List.map (fdec fo (width_of rt)) (fd_lower fd))
      (List.map (fdec fo (width_of rt)) (fd_upper fd))
      (Z.of_nat (fd_nc fd)) (Z.of_nat asz) (goff_of (fd_cells fd) abs)
      (Z.of_nat ca, Z.of_nat (fd_nc fd) - Z.of_nat cb).

  Lemma shape_kept abs ca cb :
    List.map (@length nat) (kept abs ca cb) = cut_cells abs ++ [(cb - ca)%nat].
  Proof.
    unfold kept, cut_cells. rewrite map_map, map_app. simpl. rewrite seq_length. f_equal.
    apply map_ext. intros. apply seq_length.
  Qed.

  Lemma load_partial_t1 rt meta fd asz ctx ps abs ca cb :
    f = header_bytes 1 meta ++ u64 rt ++ u64n (length (fd_cells fd)) ++ flat_map u64n (fd_cells fd)
        ++ concat (fd_lower fd) ++ concat (fd_upper fd)
        ++ u64n (fd_nc fd * width_of rt) ++ u64n asz ++ concat (fd_data fd) ->
    good_field rt (width_of rt) meta fd -> meta_ok unpack meta -> fits (Z.of_nat asz) ->
    cuts_select ps (fd_cells fd) (fd_nc fd) abs ca cb ->
    let dd := part_domain rt fd asz abs ca cb in
    load fo unpack mtrue f (Some ps) ctx
    = Ok (mk_loaded (grid_for fo (cut_cells abs) (d_lower dd) (d_upper dd))
            (take (kept abs ca cb)
               (mk_nda (fd_cells fd ++ [fd_nc fd]) (List.map (fdec fo (width_of rt)) (fd_data fd))))
            (List.map Z.of_nat (cut_cells abs))
            (d_lower dd) (d_upper dd) (Z.of_nat (cb - ca)) (ctx_after unpack mtrue ctx meta)).
  Proof.
    intros Hf (Hd & Hwd & Hld) Hmeta Hsz Hcut dd.
    pose proof Hd as (Hrt & Hll & Hlu & Hwl & Hwu & Hm & Hnd & Hcells & Hnc & _).
    assert (Hwpos : (0 < width_of rt)%nat) by (unfold width_of; destruct (rt =? 1); lia).
    destruct (cuts_good _ _ _ _ _ _ Hcut) as [Hgood Hcc]. pose proof Hgood as [Hla _].
    pose proof (At_0 f) as HA. rewrite Hf in HA at 2.
    assert (Hc : is_compatible f = true) by (eapply is_compatible_header; eauto).
    unfold load.
    destruct (read_header_at unpack mtrue f (init_rst ctx) 1 meta rt _ Hc HA) as (o1 & -> & _ & HA1); auto;
      try (unfold fits; lia).
    cbn [bind r_type r_ver]. simpl (_ || _)%bool. cbv iota.
    edestruct (read_domain_cut (mk_rst o1 (if rt =? 1 then 4%nat else r_w (init_rst ctx)) 1 1
                 (ctx_after unpack mtrue (r_ctx (init_rst ctx)) meta)) rt fd meta) as (o2 & -> & HA2);
      [exact HA1 | reflexivity | exact Hd | exact Hsz | exact Hcut |].
    cbn [bind r_type r_ver r_w r_ctx]. simpl (_ || _)%bool. cbv iota.
    fold (part_domain rt fd asz abs ca cb). fold dd.
    assert (Hdom : dom_cut dd (fd_cells fd) abs (fd_nc fd) ca cb) by (apply apply_cuts_dom; auto).
    change (if rt =? 1 then 4%nat else r_w (init_rst ctx)) with (width_of rt).
    (* the whole file as one range *)
    set (r := mk_range (List.map (fun _ => 1%nat) (fd_cells fd)) (fd_cells fd) (fd_data fd)).
    assert (Hext : rg_ext r = fd_cells fd).
    { unfold rg_ext, r; simpl. clear. induction (fd_cells fd) as [|n l IH]; simpl; auto. rewrite IH. f_equal. lia. }
    assert (Hpos : forall n, In n (fd_cells fd) -> (1 <= n)%nat).
    { intros n Hn. apply In_nth_error in Hn as [k Hk]. destruct Hgood as [_ Hg].
      destruct (nth_error abs k) as [[a b]|] eqn:Ea.
      - specialize (Hg _ _ _ _ Hk Ea). lia.
      - apply nth_error_None in Ea. assert (k < length (fd_cells fd))%nat by (apply nth_error_Some; congruence). lia. }
    assert (Hr : good_range (width_of rt) (fd_cells fd) (fd_nc fd) r).
    { unfold good_range. rewrite Hext. unfold r; cbn [rg_lo rg_up rg_data]. rewrite map_length.
      repeat split; auto; try (rewrite nth_error_map in *;
        match goal with H : option_map _ (nth_error _ ?d) = Some ?l |- _ =>
          destruct (nth_error (fd_cells fd) d) eqn:E; [injection H as <-|discriminate] end).
      - lia.
      - match goal with H : Some _ = Some u |- _ => injection H as -> end.
        apply Hpos. eapply nth_error_In; eauto.
      - congruence || (match goal with H1 : Some ?a = Some ?b, H2 : Some ?a = Some ?c |- _ =>
          injection H1 as ->; injection H2 as ->; lia end). }
    assert (HA2' : At f o2 (concat (rg_data r) ++ [])) by (rewrite app_nil_r; exact HA2).
    pose proof (reads_range_partial dd (width_of rt) (fd_cells fd) abs (fd_nc fd) ca cb Hdom Hgood Hcc Hwpos
                  r o2 [] Hr HA2') as HR.
    cbv zeta in HR. unfold r in HR; cbn [rg_lo rg_up rg_data] in HR.
    unfold read_t1.
    assert (Hgd : forall count1 count2, 
       match get_data fo f true dd (width_of rt) count1 None o2 with
       | Ok (Some a, _, _) => Ok (Some a) | Ok (None, _, _) => Ok None | Err e => Err e end
     = match get_data fo f true dd (width_of rt) count2
         (Some (List.map Z.of_nat (List.map (fun _ => 1%nat) (fd_cells fd)), List.map Z.of_nat (fd_cells fd))) o2 with
       | Ok (Some a, _, _) => Ok (Some a) | Ok (None, _, _) => Ok None | Err e => Err e end).
    { intros count1 count2. unfold get_data. cbn [negb]. rewrite (dc_orig _ _ _ _ _ _ Hdom).
      replace (List.map Z.of_nat (List.map (fun _ : nat => 1%nat) (fd_cells fd)))
        with (List.map (fun _ : Z => 1) (List.map Z.of_nat (fd_cells fd)))
        by (rewrite !map_map; reflexivity).
      cbv iota beta zeta.
      match goal with |- context [existsb ?a ?b] => destruct (existsb a b) end; [reflexivity|].
      match goal with |- context [if ?a <? 0 then _ else _] => destruct (a <? 0) end; [reflexivity|].
      match goal with |- context [bind ?m _] => destruct m end; cbn [bind]; [|reflexivity].
      match goal with |- context [bind ?m _] => destruct m end; reflexivity. }
    assert (Hread : (let* r0 := get_data fo f true dd (width_of rt) (d_asize dd * d_nc dd) None o2 in
                     Ok (fst (fst r0)))
       = Ok (Some (take (kept abs ca cb)
               (mk_nda (fd_cells fd ++ [fd_nc fd]) (List.map (fdec fo (width_of rt)) (fd_data fd)))))).
    { specialize (Hgd (d_asize dd * d_nc dd) (Z.of_nat (length (fd_data fd)))).
      rewrite HR in Hgd.
      set (D := zipD (fd_cells fd) abs (List.map (fun _ => 1%nat) (fd_cells fd)) (fd_cells fd)) in *.
      assert (HD : forall d, In d D -> (p_a d < p_b d <= p_n d)%nat /\ p_lo d = 1%nat /\ p_up d = p_n d).
      { intros d Hd'. apply In_nth_error in Hd' as [k Hk]. apply zipD_nth in Hk as (N1 & N2 & N3 & N4).
        rewrite nth_error_map, N1 in N3. injection N3 as N3. rewrite N1 in N4. injection N4 as N4.
        destruct Hgood as [_ Hg]. specialize (Hg _ _ _ _ N1 N2). auto. }
      assert (He : existsb p_empty D = false).
      { apply not_true_is_false. intros E. apply existsb_exists in E as (d & Hd' & E).
        specialize (HD d Hd'). unfold p_empty, p_ext, p_s0, p_s1 in E. apply Nat.leb_le in E. lia. }
      rewrite He in Hgd.
      assert (Hlen : List.map p_len D = cut_cells abs).
      { rewrite <- (zipD_wid (fd_cells fd) abs (List.map (fun _ => 1%nat) (fd_cells fd)) (fd_cells fd));
          rewrite ?map_length; auto.
        fold D. apply map_ext_in. intros d Hd'. specialize (HD d Hd').
        unfold p_len, p_wid, p_ext, p_s0, p_s1. lia. }
      assert (Hsel : List.map p_sel D ++ [seq ca (cb - ca)] = kept abs ca cb).
      { unfold kept. rewrite map_app. simpl List.map. f_equal.
        pose proof (zipD_proj (fd_cells fd) abs (List.map (fun _ => 1%nat) (fd_cells fd)) (fd_cells fd) Hla
                      (map_length _ _) eq_refl) as (_ & _ & I2 & _). cbv zeta in I2. fold D in I2.
        rewrite <- I2, map_map. apply map_ext_in. intros d Hd'. specialize (HD d Hd').
        unfold p_sel. cbn [fst snd]. f_equal; unfold p_len, p_ext, p_s0, p_s1; lia. }
      assert (HextD : List.map p_ext D = fd_cells fd).
      { etransitivity; [|exact Hext]. apply zipD_ext; rewrite ?map_length; auto. }
      rewrite Hlen, Hsel, HextD in Hgd.
      destruct (get_data fo f true dd (width_of rt) (d_asize dd * d_nc dd) None o2) as [[[[a|] ?] ?]|];
        try discriminate Hgd. cbn [bind fst]. injection Hgd as ->. f_equal. f_equal.
      unfold take; simpl shape; simpl flat. rewrite shape_kept, take_flat_map. reflexivity. }
    cbn [r_w r_off]. rewrite Hread. cbn [bind].
    rewrite <- (dc_nc _ _ _ _ _ _ Hdom).
    assert (Hbd := apply_cuts_bounds (fd_cells fd)
       (List.map (fdec fo (width_of rt)) (fd_lower fd)) (List.map (fdec fo (width_of rt)) (fd_upper fd))
       (Z.of_nat (fd_nc fd)) (Z.of_nat asz) abs (Z.of_nat ca, Z.of_nat (fd_nc fd) - Z.of_nat cb)).
    cbv zeta in Hbd. rewrite !map_length in Hbd. destruct (Hbd Hll Hlu Hla) as (B1 & B2 & _).
    assert (Hlc : length (cut_cells abs) = length (fd_cells fd)) by (unfold cut_cells; rewrite map_length; auto).
    apply (finish_load dd _ (cut_cells abs) (d_nc dd) [(cb - ca)%nat]).
    - apply (dc_cells _ _ _ _ _ _ Hdom).
    - rewrite Hlc. exact B1.
    - rewrite Hlc. exact B2.
    - unfold take; simpl shape. apply shape_kept.
  Qed.

  (** Zero-filled array. *)
  Lemma zeros_get sh idx : in_range sh idx ->
    get (mk_nda sh (repeat (fzero fo) (prod sh))) idx = Some (fzero fo).
  Proof.
    intros H. apply in_range_ravel in H as (k & Hk & Hlt). unfold get; simpl. rewrite Hk.
    now apply nth_error_repeat.
  Qed.

  Lemma load_t3 rt meta fd rs ctx cuts abs ca cb :
    f = multi_bytes rt meta fd rs ->
    good_domain rt (width_of rt) meta fd -> meta_ok unpack meta -> fits (Z.of_nat (length rs)) ->
    Forall (good_range (width_of rt) (fd_cells fd) (fd_nc fd)) rs ->
    match cuts with
    | None => abs = uncut (fd_cells fd) /\ ca = 0%nat /\ cb = fd_nc fd /\ (0 < fd_nc fd)%nat /\
              Forall (fun n => (0 < n)%nat) (fd_cells fd)
    | Some ps => cuts_select ps (fd_cells fd) (fd_nc fd) abs ca cb
    end ->
    exists data lo up,
    load fo unpack mtrue f cuts ctx
    = Ok (mk_loaded (grid_for fo (cut_cells abs) lo up) data (List.map Z.of_nat (cut_cells abs))
            lo up (Z.of_nat (cb - ca)) (ctx_after unpack mtrue ctx meta)) /\
    (lo, up) = match cuts with
      | None => (List.map (fdec fo (width_of rt)) (fd_lower fd), List.map (fdec fo (width_of rt)) (fd_upper fd))
      | Some _ => let dd := part_domain rt fd (prod (fd_cells fd)) abs ca cb in (d_lower dd, d_upper dd)
      end /\
    wf data /\ shape data = cut_cells abs ++ [(cb - ca)%nat] /\
    forall idx c, in_range (cut_cells abs) idx -> (c < cb - ca)%nat ->
      get data (idx ++ [c]) =
      after_ranges fo (width_of rt) (fd_nc fd) (fd_cells fd) abs ca rs idx c (Some (fzero fo)).
  Proof.
    intros Hf Hd Hmeta Hnr Hrs Hcuts.
    pose proof Hd as (Hrt & Hll & Hlu & Hwl & Hwu & Hm & Hnd & Hcells & Hnc & Hpc).
    assert (Hwpos : (0 < width_of rt)%nat) by (unfold width_of; destruct (rt =? 1); lia).
    pose proof (At_0 f) as HA. rewrite Hf in HA at 2. unfold multi_bytes, domain_bytes in HA.
    rewrite <- !app_assoc in HA.
    assert (Hc : is_compatible f = true) by (eapply is_compatible_header; eauto).
    unfold load.
    destruct (read_header_at unpack mtrue f (init_rst ctx) 3 meta rt _ Hc HA) as (o1 & -> & _ & HA1); auto;
      try (unfold fits; lia).
    cbn [bind r_type r_ver]. simpl (_ || _)%bool. cbv iota.
    assert (Hread : exists dd o2,
      read_domain fo f cuts (mk_rst o1 (width_of rt) 3 1 (ctx_after unpack mtrue ctx meta))
      = Ok (dd, mk_rst o2 (width_of rt) 3 1 (ctx_after unpack mtrue ctx meta)) /\
      At f o2 (u64n (length rs) ++ flat_map range_bytes rs) /\
      good_cuts (fd_cells fd) abs /\ (ca < cb <= fd_nc fd)%nat /\
      d_orig dd = List.map Z.of_nat (fd_cells fd) /\ d_orig_nc dd = Z.of_nat (fd_nc fd) /\
      d_nc dd = Z.of_nat (cb - ca) /\ d_cells dd = List.map Z.of_nat (cut_cells abs) /\
      length (d_lower dd) = length (fd_cells fd) /\ length (d_upper dd) = length (fd_cells fd) /\
      (d_lower dd, d_upper dd) = match cuts with
        | None => (List.map (fdec fo (width_of rt)) (fd_lower fd), List.map (fdec fo (width_of rt)) (fd_upper fd))
        | Some _ => let dd := part_domain rt fd (prod (fd_cells fd)) abs ca cb in (d_lower dd, d_upper dd)
        end /\
      reads_range fo f (match cuts with Some _ => true | None => false end) dd (width_of rt) (fd_cells fd) abs (fd_nc fd) ca cb).
    { destruct cuts as [ps|].
      - destruct (cuts_good _ _ _ _ _ _ Hcuts) as [Hgood Hcc]. pose proof Hgood as [Hla _].
        edestruct (read_domain_cut (mk_rst o1 (width_of rt) 3 1 (ctx_after unpack mtrue ctx meta)) rt fd meta)
          as (o2 & E & HA2); [exact HA1 | reflexivity | exact Hd | exact Hpc | exact Hcuts |].
        rewrite E. cbn [r_w r_type r_ver r_ctx].
        assert (Hdom := apply_cuts_dom (fd_cells fd)
           (List.map (fdec fo (width_of rt)) (fd_lower fd)) (List.map (fdec fo (width_of rt)) (fd_upper fd))
           (fd_nc fd) (Z.of_nat (prod (fd_cells fd))) abs ca cb Hgood Hcc).
        assert (Hbd := apply_cuts_bounds (fd_cells fd)
           (List.map (fdec fo (width_of rt)) (fd_lower fd)) (List.map (fdec fo (width_of rt)) (fd_upper fd))
           (Z.of_nat (fd_nc fd)) (Z.of_nat (prod (fd_cells fd))) abs (Z.of_nat ca, Z.of_nat (fd_nc fd) - Z.of_nat cb)).
        cbv zeta in Hbd. rewrite !map_length in Hbd. destruct (Hbd Hll Hlu Hla) as (B1 & B2 & _).
        eexists _, o2. split; [reflexivity|].
        split; [exact HA2|]. split; [exact Hgood|]. split; [exact Hcc|].
        split; [exact (dc_orig _ _ _ _ _ _ Hdom)|]. split; [exact (dc_onc _ _ _ _ _ _ Hdom)|].
        split; [exact (dc_nc _ _ _ _ _ _ Hdom)|]. split; [exact (dc_cells _ _ _ _ _ _ Hdom)|].
        split; [exact B1|]. split; [exact B2|]. split; [reflexivity|].
        apply reads_range_partial; auto.
      - destruct Hcuts as (-> & -> & -> & Hpos & Hpn). unfold read_domain.
        edestruct (read_domain_raw_at fo f (mk_rst o1 (width_of rt) 3 1 (ctx_after unpack mtrue ctx meta)) rt fd meta)
          as (o2 & E & HA2); [exact HA1 | reflexivity | exact Hd | exact Hpc |].
        rewrite E. cbn [bind r_w r_type r_ver r_ctx].
        eexists _, o2. split; [reflexivity|]. split; [exact HA2|].
        cbn [d_orig d_orig_nc d_nc d_cells d_lower d_upper]. rewrite !map_length, cut_cells_uncut, Nat.sub_0_r.
        split.
        { split; [unfold uncut; now rewrite map_length|]. intros d n a b Hn Hab.
          unfold uncut in Hab. rewrite nth_error_map, Hn in Hab. injection Hab as <- <-.
          rewrite Forall_forall in Hpn. specialize (Hpn n (nth_error_In _ _ Hn)). lia. }
        split; [lia|]. split; [auto|]. split; [auto|]. split; [auto|]. split; [auto|]. split; [auto|].
        split; [auto|]. split; [auto|].
        apply reads_range_full; auto. }
    destruct Hread as (dd & o2 & E & HA2 & Hgood & Hcc & Ho & Honc & Hdnc & Hdc & Hlo & Hup & Hbnd & HR).
    change (if rt =? 1 then 4%nat else r_w (init_rst ctx)) with (width_of rt).
    change (r_ctx (init_rst ctx)) with ctx. rewrite E. cbn [bind r_type r_ver r_ctx].
    simpl (_ || _)%bool. cbv iota. unfold read_t3. cbn [r_off r_w].
    destruct (read_i64_at _ _ _ _ HA2 Hnr) as [-> HA3]. cbn [bind].
    rewrite Hdc, Hdnc, map_snoc_of_nat.
    replace (forallb (fun n => 0 <=? n) (List.map Z.of_nat (cut_cells abs ++ [(cb - ca)%nat]))) with true.
    2:{ symmetry. apply forallb_forall. intros z Hz. apply in_map_iff in Hz as (n & <- & _).
        apply Z.leb_le. lia. }
    replace (List.map Z.to_nat (List.map Z.of_nat (cut_cells abs ++ [(cb - ca)%nat])))
      with (cut_cells abs ++ [(cb - ca)%nat]).
    2:{ rewrite map_map. symmetry. erewrite map_ext; [apply map_id|]. intros; apply Nat2Z.id. }
    rewrite Nat2Z.id.
    set (z := mk_nda (cut_cells abs ++ [(cb - ca)%nat]) _).
    rewrite <- (app_nil_r (flat_map range_bytes rs)) in HA3.
    destruct (t3_loop_ok fo f _ dd (width_of rt) (fd_cells fd) abs (fd_nc fd) ca cb HR Hwpos Hgood Hcc Ho Honc
                Hnd Hcells Hpc rs _ [] z Hrs HA3) as (data & E2 & Hwf & Hsh & Hget).
    { unfold wf, z; simpl. apply repeat_length. }
    { reflexivity. }
    rewrite E2. cbn [bind].
    assert (Hlc : length (cut_cells abs) = length (fd_cells fd)).
    { unfold cut_cells. rewrite map_length. apply Hgood. }
    exists data, (d_lower dd), (d_upper dd). split; [|split; [|split; [|split]]].
    - pose proof (finish_load dd data (cut_cells abs) (Z.of_nat (cb - ca)) [(cb - ca)%nat]
                    (ctx_after unpack mtrue ctx meta) Hdc) as HF.
      rewrite Hdc in HF. apply HF; [now rewrite Hlo, Hlc | now rewrite Hup, Hlc | exact Hsh].
    - exact Hbnd.
    - exact Hwf.
    - rewrite Hsh. reflexivity.
    - intros idx c Hi Hcl. rewrite Hget by auto. unfold z. rewrite zeros_get; auto.
      apply Forall2_app; auto.
  Qed.
End Loads.
