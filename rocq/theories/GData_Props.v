(** * Properties C13 and C15: metadata of a dataset. *)
From Coq Require Import String List ZArith QArith Bool Lia.
From Verif Require Import Prelude PreludeFacts NdArray GData_Model.
Import ListNotations.
Open Scope list_scope.

(** ** Specification *)

(** [q] is the smallest (largest) entry of [a]. *)
Definition smallest (a : garr) (q : Q) : Prop :=
  (exists x, In x (flat a) /\ x == q)%Q /\ (forall x, In x (flat a) -> q <= x)%Q.
Definition largest (a : garr) (q : Q) : Prop :=
  (exists x, In x (flat a) /\ x == q)%Q /\ (forall x, In x (flat a) -> x <= q)%Q.

(** What a dataset holding grid [g] and values [v] must report. *)
Record reports {A} (d : gdata A) (g : list garr) (v : nda A) (cells : list nat) (nc : nat) : Prop := {
  rp_grid : g_grid d = Some g;
  rp_vals : g_vals d = Some v;
  rp_cells : get_num_cells d = Some cells;
  rp_comps : get_num_comps d = Ok nc;
  rp_dims : get_num_dims d = length cells;
  rp_bounds : exists lo up, get_bounds d = Ok (Some (lo, up)) /\
    length lo = length cells /\ length up = length cells /\
    forall k (a : garr) l u, nth_error g k = Some a -> nth_error lo k = Some l -> nth_error up k = Some u ->
      smallest a l /\ largest a u
}.

(** One operation on a dataset; failing ones leave it half changed. *)
Inductive gop (A : Type) :=
| OpPush (g : list garr) (v : nda A)
| OpValues (v : nda A)
| OpGrid (g : list garr).
Arguments OpPush {A}. Arguments OpValues {A}. Arguments OpGrid {A}.
Definition gstep {A} (d : gdata A) (o : gop A) : gdata A :=
  match o with
  | OpPush g v => fst (push d g v)
  | OpValues v => fst (set_values d v)
  | OpGrid g => fst (set_grid d g)
  end.

(** ** Lemmas *)

Lemma qmin_le_l a b : (qmin a b <= a)%Q.
Proof. unfold qmin. destruct (Qle_bool a b) eqn:E; [apply Qle_refl|].
  destruct (Qlt_le_dec b a) as [H|H]; [now apply Qlt_le_weak|].
  apply Qle_bool_iff in H. congruence. Qed.
Lemma qmin_le_r a b : (qmin a b <= b)%Q.
Proof. unfold qmin. destruct (Qle_bool a b) eqn:E; [now apply Qle_bool_iff|apply Qle_refl]. Qed.
Lemma qmax_ge_l a b : (a <= qmax a b)%Q.
Proof. unfold qmax. destruct (Qle_bool a b) eqn:E; [now apply Qle_bool_iff|apply Qle_refl]. Qed.
Lemma qmax_ge_r a b : (b <= qmax a b)%Q.
Proof. unfold qmax. destruct (Qle_bool a b) eqn:E; [apply Qle_refl|].
  destruct (Qlt_le_dec b a) as [H|H]; [now apply Qlt_le_weak|].
  apply Qle_bool_iff in H. congruence. Qed.

Lemma fold_qmin l x : let m := fold_left qmin l x in In m (x :: l) /\ forall y, In y (x :: l) -> (m <= y)%Q.
Proof.
  revert x. induction l as [|z l IH]; intros x; simpl.
  - split; auto. intros y [<-|[]]. apply Qle_refl.
  - destruct (IH (qmin x z)) as [H1 H2]. cbv zeta in *. split.
    + destruct H1 as [H1|H1]; [|auto]. rewrite <- H1. unfold qmin. destruct (Qle_bool x z); auto.
    + intros y [<-|[<-|Hy]].
      * eapply Qle_trans; [apply H2; now left|apply qmin_le_l].
      * eapply Qle_trans; [apply H2; now left|apply qmin_le_r].
      * apply H2. now right.
Qed.

Lemma fold_qmax l x : let m := fold_left qmax l x in In m (x :: l) /\ forall y, In y (x :: l) -> (y <= m)%Q.
Proof.
  revert x. induction l as [|z l IH]; intros x; simpl.
  - split; auto. intros y [<-|[]]. apply Qle_refl.
  - destruct (IH (qmax x z)) as [H1 H2]. cbv zeta in *. split.
    + destruct H1 as [H1|H1]; [|auto]. rewrite <- H1. unfold qmax. destruct (Qle_bool x z); auto.
    + intros y [<-|[<-|Hy]].
      * eapply Qle_trans; [apply qmax_ge_l|apply H2; now left].
      * eapply Qle_trans; [apply qmax_ge_r|apply H2; now left].
      * apply H2. now right.
Qed.

Lemma arr_min_spec a : flat a <> [] -> exists m, arr_min a = Ok m /\ smallest a m.
Proof.
  unfold arr_min, smallest. destruct (flat a) as [|x l]; [congruence|]. intros _.
  eexists; split; [reflexivity|]. destruct (fold_qmin l x) as [H1 H2]. split; [|exact H2].
  eexists; split; [exact H1|reflexivity].
Qed.

Lemma arr_max_spec a : flat a <> [] -> exists m, arr_max a = Ok m /\ largest a m.
Proof.
  unfold arr_max, largest. destruct (flat a) as [|x l]; [congruence|]. intros _.
  eexists; split; [reflexivity|]. destruct (fold_qmax l x) as [H1 H2]. split; [|exact H2].
  eexists; split; [exact H1|reflexivity].
Qed.

Lemma grid_bounds_spec (g : list garr) nd :
  (nd <= length g)%nat -> Forall (fun a => flat a <> []) (firstn nd g) ->
  exists lo up, grid_bounds g nd = Ok (lo, up) /\ length lo = nd /\ length up = nd /\
    forall k (a : garr) l u, nth_error g k = Some a -> nth_error lo k = Some l -> nth_error up k = Some u ->
      smallest a l /\ largest a u.
Proof.
  intros Hl Hne. unfold grid_bounds.
  assert (H : forall s n, (s + n <= length g)%nat ->
     (forall k a, (s <= k < s + n)%nat -> nth_error g k = Some a -> flat a <> []) ->
     exists bs, mapM (grid_bound1 g) (seq s n) = Ok bs /\ length bs = n /\
       forall k a b, nth_error g (s + k) = Some a -> nth_error bs k = Some b -> smallest a (fst b) /\ largest a (snd b)).
  { intros s n. revert s. induction n as [|n IH]; intros s Hs Hk.
    - exists []. split; [reflexivity|]. split; [reflexivity|]. intros [|k]; discriminate.
    - destruct (IH (S s)) as (bs & E & Hb & Hspec); [lia|intros k a Hka; apply Hk; lia|].
      destruct (nth_error g s) as [a|] eqn:Ea.
      2:{ apply nth_error_None in Ea. lia. }
      destruct (arr_min_spec a) as (m & Em & Sm). { apply (Hk s); auto. lia. }
      destruct (arr_max_spec a) as (M & EM & SM). { apply (Hk s); auto. lia. }
      assert (E1 : grid_bound1 g s = Ok (m, M)) by (unfold grid_bound1; rewrite Ea, Em; cbn [bind]; now rewrite EM).
      exists ((m, M) :: bs). cbn [seq mapM]. rewrite E1. cbn [bind]. rewrite E. cbn [bind].
      split; [reflexivity|]. split; [simpl; congruence|].
      intros [|k] a' b Ha' Hb'.
      + rewrite Nat.add_0_r, Ea in Ha'. injection Ha' as <-. injection Hb' as <-. auto.
      + apply (Hspec k); auto. now rewrite Nat.add_succ_comm. }
  destruct (H 0%nat nd) as (bs & E & Hb & Hspec); [lia| |].
  { intros k a Hk Ha. rewrite Forall_forall in Hne. apply Hne.
    apply (nth_error_In _ k). rewrite nth_error_firstn. destruct (Nat.ltb_spec k nd); [auto|lia]. }
  rewrite E. cbn [bind]. eexists _, _. split; [reflexivity|]. rewrite !map_length. split; [auto|]. split; [auto|].
  intros k a l u Ha Hlo Hup. rewrite nth_error_map in Hlo, Hup.
  destruct (nth_error bs k) as [b|] eqn:Eb; [|discriminate]. injection Hlo as <-. injection Hup as <-.
  apply (Hspec k); auto.
Qed.

Lemma set_values_state {A} (d : gdata A) v cells nc :
  shape v = cells ++ [nc] ->
  set_values d v = (mk_gdata (g_grid d) (Some v) (Some cells) (Some nc) (c_lower d) (c_upper d), None).
Proof.
  intros Hsh.
  assert (Hi : shape_init v = cells) by (unfold shape_init; rewrite Hsh; apply removelast_last).
  assert (Hlast : shape_last v = Ok nc) by (unfold shape_last; now rewrite Hsh, rev_app_distr).
  unfold set_values. rewrite Hlast, Hi.
  destruct d as [gg vv [c|] [m|] lo up]; simpl;
    try destruct (list_eq_dec Nat.eq_dec cells c) as [<-|]; simpl;
    try destruct (Nat.eqb_spec nc m) as [<-|]; reflexivity.
Qed.

Lemma push_reports {A} (d : gdata A) (g : list garr) v cells nc :
  shape v = cells ++ [nc] -> (length cells <= length g)%nat ->
  Forall (fun a => flat a <> []) (firstn (length cells) g) ->
  snd (push d g v) = None /\ reports (fst (push d g v)) g v cells nc.
Proof.
  intros Hsh Hl Hne.
  assert (Hlast : shape_last v = Ok nc) by (unfold shape_last; now rewrite Hsh, rev_app_distr).
  unfold push. rewrite (set_values_state _ _ _ _ Hsh). unfold set_grid, get_num_dims. cbn [c_cells].
  destruct (grid_bounds_spec g (length cells) Hl Hne) as (lo & up & E & L1 & L2 & Hspec).
  rewrite E. cbn [fst snd]. split; [reflexivity|].
  constructor; try reflexivity.
  - unfold get_num_comps; cbn. destruct nc; [exact Hlast|reflexivity].
  - exists lo, up. auto.
Qed.

(** ** C13 *)

(** Whatever happened before (from any initial state, including failed
    operations), after pushing [g] and [v] the dataset reports what it holds. *)
Theorem C13_metadata_matches_arrays : forall A (d0 : gdata A) history (g : list garr) (v : nda A) cells nc,
  shape v = cells ++ [nc] -> (length cells <= length g)%nat ->
  Forall (fun a => flat a <> []) (firstn (length cells) g) ->
  let d := fold_left gstep (history ++ [OpPush g v]) d0 in
  snd (push (fold_left gstep history d0) g v) = None /\ reports d g v cells nc.
Proof.
  intros A d0 history g v cells nc H1 H2 H3. cbv zeta. rewrite fold_left_app. simpl.
  now apply push_reports.
Qed.
Print Assumptions C13_metadata_matches_arrays.

(** An error stops neither the values nor the cell count from changing, so
    after a failed push the reported bounds are those of the previous grid. *)
Theorem C13_failed_push_keeps_old_bounds : forall A (d : gdata A) (g : list garr) v cells nc,
  c_lower d <> None -> c_upper d <> None ->
  shape v = cells ++ [nc] -> (length g < length cells)%nat -> Forall (fun a => flat a <> []) g ->
  snd (push d g v) = Some IndexError /\
  get_num_cells (fst (push d g v)) = Some cells /\
  get_bounds (fst (push d g v)) = get_bounds d.
Proof.
  intros A d g v cells nc Hlo Hup Hsh Hl Hne.
  unfold push. rewrite (set_values_state _ _ _ _ Hsh). unfold set_grid, get_num_dims. cbn [c_cells].
  assert (E : grid_bounds g (length cells) = Err IndexError).
  { unfold grid_bounds. 
    assert (H : forall n s, (s <= length g)%nat -> (length g < s + n)%nat ->
      mapM (grid_bound1 g) (seq s n) = Err IndexError).
    { induction n as [|n IH]; intros s Hs1 Hs2; [lia|]. cbn [seq mapM].
      destruct (nth_error g s) as [a|] eqn:Ea; [|unfold grid_bound1; now rewrite Ea].
      assert (Ha : flat a <> []). { rewrite Forall_forall in Hne. apply Hne. eapply nth_error_In; eauto. }
      destruct (arr_min_spec a Ha) as (m & Em & _). destruct (arr_max_spec a Ha) as (M & EM & _).
      assert (E1 : grid_bound1 g s = Ok (m, M)) by (unfold grid_bound1; rewrite Ea, Em; cbn [bind]; now rewrite EM).
      rewrite E1. cbn [bind]. rewrite IH; [reflexivity| |lia].
      assert (s < length g)%nat by (apply nth_error_Some; congruence). lia. }
    rewrite H by lia. reflexivity. }
  rewrite E. cbn [fst snd]. split; [reflexivity|]. split.
  - reflexivity.
  - unfold get_bounds; cbn.
    destruct (c_lower d) as [lo|]; [|congruence]. destruct (c_upper d) as [up|]; [reflexivity|congruence].
Qed.
Print Assumptions C13_failed_push_keeps_old_bounds.

Definition ex_line (l : list Q) : garr := mk_nda [length l] l.
Definition ex_hist : list (gop nat) :=
  [OpPush [ex_line [0; 1; 2]] (mk_nda [2; 1]%nat [5; 6]%nat);
   OpPush [ex_line []] (mk_nda [3; 1]%nat [5; 6; 7]%nat);
   OpGrid [ex_line [3; 4]]].
Example C13_example :
  let d := fold_left gstep (ex_hist ++ [OpPush [ex_line [0; 2]; ex_line [1; -(1); 3]] (mk_nda [1; 2; 1]%nat [8; 9]%nat)])
             empty_gdata in
  get_num_cells d = Some [1; 2]%nat /\ get_bounds d = Ok (Some ([0; -(1)], [2; 3])).
Proof. split; reflexivity. Qed.
(** Setting only the values (without push) leaves stale bounds. *)
Example C13_stale_without_push :
  get_bounds (fold_left gstep [OpPush [ex_line [0; 1; 2]] (mk_nda [2; 1]%nat [5; 6]%nat);
                               OpValues (mk_nda [1; 1; 1]%nat [5]%nat)] empty_gdata)
  = Ok (Some ([0], [2])).
Proof. reflexivity. Qed.

(** ** C15 *)

Theorem C15_squeezed_dims : forall A (d : gdata A) cells,
  get_num_cells d = Some cells -> get_num_dims d = length cells ->
  Forall (fun n => (1 <= n)%nat) cells ->
  get_num_dims_squeezed d = length (List.filter (fun n => (1 <? n)%nat) cells).
Proof.
  intros A d cells Hc Hd Hpos. unfold get_num_dims_squeezed. rewrite Hc, Hd. unfold squeeze_loop.
  rewrite firstn_all.
  assert (H : forall l m, Forall (fun n => (1 <= n)%nat) l -> (length l <= m)%nat ->
     fold_left (fun acc c => if (c =? 1)%nat then (acc - 1)%nat else acc) l m
     = (m - length l + length (List.filter (fun n => (1 <? n)%nat) l))%nat).
  { induction l as [|c l IH]; intros m Hl Hm; [simpl; lia|].
    inversion Hl as [|? ? Hc1 Hl']; subst. cbn [fold_left List.filter]. simpl length in Hm.
    destruct (Nat.eqb_spec c 1) as [->|N].
    - rewrite IH by (auto; lia). simpl. lia.
    - rewrite IH by (auto; lia). destruct (Nat.ltb_spec 1 c); [|lia]. simpl. lia. }
  rewrite H by auto. lia.
Qed.
Print Assumptions C15_squeezed_dims.

(** After any history the condition of [C15_squeezed_dims] holds. *)
Theorem C15_after_push : forall A (d0 : gdata A) history (g : list garr) (v : nda A) cells nc,
  shape v = cells ++ [nc] -> (length cells <= length g)%nat ->
  Forall (fun a => flat a <> []) (firstn (length cells) g) -> Forall (fun n => (1 <= n)%nat) cells ->
  get_num_dims_squeezed (fold_left gstep (history ++ [OpPush g v]) d0)
  = length (List.filter (fun n => (1 <? n)%nat) cells).
Proof.
  intros A d0 history g v cells nc H1 H2 H3 H4.
  destruct (C13_metadata_matches_arrays A d0 history g v cells nc H1 H2 H3) as [_ R].
  apply C15_squeezed_dims; auto; apply R.
Qed.
Print Assumptions C15_after_push.

Example C15_example :
  get_num_dims_squeezed (mk_gdata None (Some (mk_nda [1; 4; 1; 1; 2; 3]%nat (seq 0 24))) None None None None) = 2%nat.
Proof. reflexivity. Qed.
