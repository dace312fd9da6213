(** * Real arrays with a component axis, as used by tools/ *)
From Coq Require Import String Ascii List Arith ZArith Bool Lia Reals Lra.
From Verif Require Import Prelude PreludeFacts NdArray Ev_Model.
Import ListNotations.
Open Scope list_scope.
Open Scope nat_scope.

(** ** numpy operations

    Values are exact reals; a division by zero or a square root of a negative
    number, nan or inf in numpy, is some real here: theorems have to exclude it. *)

Definition val (a : nda R) (idx : list nat) : R := match get a idx with Some v => v | None => 0%R end.

(** Element-wise operation with broadcasting. *)
Definition rb (op : R -> R -> R) (a b : nda R) : res (nda R) := broadcast 0%R 0%R op a b.
(** Element-wise function, or operation with a number. *)
Definition rmap (f : R -> R) (a : nda R) : nda R := map_nda f a.

(** [v[..., c, np.newaxis]]. *)
Definition col (c : nat) (v : nda R) : res (nda R) :=
  match shape v with
  | [] => Err IndexError
  | _ => if c <? last (shape v) 0
         then Ok (tabulate (removelast (shape v) ++ [1]) (fun idx => val v (removelast idx ++ [c])))
         else Err IndexError
  end.

(** [v[..., a:b]]. *)
Definition cols (a b : Z) (v : nda R) : res (nda R) :=
  match shape v with
  | [] => Err IndexError
  | _ => let ks := slice2 (last (shape v) 0) a b in
         Ok (tabulate (removelast (shape v) ++ [length ks]) (fun idx => val v (removelast idx ++ [nth (last idx 0) ks 0])))
  end.

Definition rsum (l : list R) : R := fold_right Rplus 0%R l.

(** [np.sum(v, axis=-1)]. *)
Definition sum_comps (v : nda R) : res (nda R) :=
  match shape v with
  | [] => Err ValueError (* axis -1 is out of bounds *)
  | _ => Ok (tabulate (removelast (shape v))
               (fun idx => rsum (List.map (fun c => val v (idx ++ [c])) (seq 0 (last (shape v) 0)))))
  end.

(** [v[..., np.newaxis]]. *)
Definition add_axis (v : nda R) : nda R := mk_nda (shape v ++ [1]) (flat v).

(** [np.squeeze(v)]. *)
Definition squeeze_all {A} (v : nda A) : nda A := mk_nda (filter (fun n => negb (n =? 1)) (shape v)) (flat v).

(** Leading axes of length one that the target does not have are dropped. *)
Fixpoint drop_ones (n : nat) (sh : list nat) : list nat :=
  match sh with
  | 1 :: r => if n <? length sh then drop_ones n r else sh
  | _ => sh
  end.

(** [out[..., k] = src]: the source is stretched to the shape of the target. *)
Definition put_col (k : nat) (src out : nda R) : res (nda R) :=
  let cells := removelast (shape out) in
  if negb (k <? last (shape out) 0) then Err IndexError
  else if length cells <? length (shape src) then Err ValueError
  else
    let* sh := bdims (pad_front (length cells) (shape src)) cells in
    if list_eq_dec Nat.eq_dec sh cells then
      Ok (tabulate (shape out) (fun idx =>
            if last idx 0 =? k
            then val src (bidx (shape src) (skipn (length cells - length (shape src)) (removelast idx)))
            else val out idx))
    else Err ValueError.
Definition set_col (k : nat) (src out : nda R) : res (nda R) :=
  put_col k (mk_nda (drop_ones (length (removelast (shape out))) (shape src)) (flat src)) out.

Lemma drop_ones_le n sh : length sh <= n -> drop_ones n sh = sh.
Proof. destruct sh as [|[|[|m]] r]; intros H; try reflexivity. cbn [drop_ones]. destruct (Nat.ltb_spec n (length (1 :: r))); [lia|reflexivity]. Qed.
Lemma set_col_le k src out : length (shape src) <= length (removelast (shape out)) -> set_col k src out = put_col k src out.
Proof. intros H. unfold set_col. rewrite drop_ones_le by exact H. destruct src; reflexivity. Qed.

Definition zeros (sh : list nat) : nda R := tabulate sh (fun _ => 0%R).

(** ** What an array holds *)

(** [w] has one axis per entry of [cells] and [m] components; component [j] in
    cell [x] is [f x j]. *)
Definition shows (cells : list nat) (m : nat) (w : nda R) (f : list nat -> nat -> R) : Prop :=
  wf w /\ shape w = cells ++ [m] /\
  forall x j, in_range cells x -> j < m -> get w (x ++ [j]) = Some (f x j).

(** The computation succeeds with such an array. *)
Definition yields (r : res (nda R)) (cells : list nat) (m : nat) (f : list nat -> nat -> R) : Prop :=
  exists w, r = Ok w /\ shows cells m w f.

Lemma val_get v idx : wf v -> in_range (shape v) idx -> get v idx = Some (val v idx).
Proof. intros W H. destruct (get_in v idx W H) as [r E]. unfold val. now rewrite E. Qed.

Lemma in_range_snoc cells m x j : in_range cells x -> j < m -> in_range (cells ++ [m]) (x ++ [j]).
Proof. intros. unfold in_range in *. apply Forall2_app; auto. Qed.

Lemma in_range_snoc_inv cells m idx :
  in_range (cells ++ [m]) idx -> exists x j, idx = x ++ [j] /\ in_range cells x /\ j < m.
Proof.
  intros H. unfold in_range in *. apply Forall2_app_inv_r in H as (x & j & Hx & Hj & ->).
  inversion Hj as [|a ? ? ? Ha Hn]; subst. inversion Hn; subst. eauto.
Qed.

Lemma removelast_snoc {A} (l : list A) a : removelast (l ++ [a]) = l.
Proof. rewrite removelast_app by discriminate. cbn. apply app_nil_r. Qed.

Lemma last_snoc {A} (l : list A) a d : last (l ++ [a]) d = a.
Proof. induction l as [|b l IH]; [reflexivity|]. cbn. destruct l; [reflexivity|exact IH]. Qed.

Lemma snoc_shape {A} (v : nda A) cells m : shape v = cells ++ [m] -> exists a l, shape v = a :: l.
Proof. destruct cells; cbn; intros ->; eauto. Qed.

Lemma shows_tab cells m f : shows cells m (tabulate (cells ++ [m]) f) (fun x j => f (x ++ [j])).
Proof.
  split; [apply wf_tabulate|]. split; [reflexivity|]. intros x j Hx Hj.
  rewrite get_tabulate by (apply in_range_snoc; auto). reflexivity.
Qed.

Lemma shows_ext cells m w f g :
  shows cells m w f -> (forall x j, in_range cells x -> j < m -> f x j = g x j) -> shows cells m w g.
Proof. intros (W & S & V) E. split; [exact W|]. split; [exact S|]. intros x j Hx Hj. rewrite V by auto. f_equal. auto. Qed.

Lemma yields_ext r cells m f g :
  yields r cells m f -> (forall x j, in_range cells x -> j < m -> f x j = g x j) -> yields r cells m g.
Proof. intros (w & E & S) H. exists w. split; [exact E|]. eapply shows_ext; eauto. Qed.

Lemma yields_bind r k cells m f cells' m' g :
  yields r cells m f -> (forall w, shows cells m w f -> yields (k w) cells' m' g) ->
  yields (let* w := r in k w) cells' m' g.
Proof. intros (w & -> & S) H. exact (H w S). Qed.

Lemma yields_ok cells m w f : shows cells m w f -> yields (Ok w) cells m f.
Proof. intros S. exists w. auto. Qed.

Lemma shows_val cells m w : wf w -> shape w = cells ++ [m] -> shows cells m w (fun x j => val w (x ++ [j])).
Proof.
  intros W S. split; [exact W|]. split; [exact S|]. intros x j Hx Hj. apply val_get; [exact W|].
  rewrite S. apply in_range_snoc; auto.
Qed.

Lemma shows_at cells m w f x j : shows cells m w f -> in_range cells x -> j < m -> val w (x ++ [j]) = f x j.
Proof. intros (_ & _ & V) Hx Hj. unfold val. rewrite V by auto. reflexivity. Qed.

Lemma shows_map cells m w f h : shows cells m w f -> shows cells m (rmap h w) (fun x j => h (f x j)).
Proof.
  intros (W & S & V). split; [unfold wf, rmap, map_nda in *; cbn; now rewrite map_length|].
  split; [exact S|]. intros x j Hx Hj. specialize (V x j Hx Hj). revert V. unfold get, rmap, map_nda; cbn.
  destruct (ravel (shape w) (x ++ [j])) as [k|]; [|discriminate]. rewrite nth_error_map. now intros ->.
Qed.

Lemma yields_map cells m w f h : shows cells m w f -> yields (Ok (rmap h w)) cells m (fun x j => h (f x j)).
Proof. intros. apply yields_ok, shows_map. assumption. Qed.

Lemma yields_col c v cells m f :
  shows cells m v f -> c < m -> yields (col c v) cells 1 (fun x _ => f x c).
Proof.
  intros Sh Hc. pose proof Sh as (W & S & V). unfold col. destruct (snoc_shape v cells m S) as (a & l & E).
  rewrite E. cbv iota. rewrite <- E, S, last_snoc, removelast_snoc. destruct (Nat.ltb_spec c m); [|lia].
  apply yields_ok. eapply shows_ext; [apply shows_tab|]. intros x j Hx Hj. cbv beta. rewrite removelast_snoc.
  eapply shows_at; eauto.
Qed.

Lemma col_err c v cells m : shape v = cells ++ [m] -> m <= c -> col c v = Err IndexError.
Proof.
  intros S Hc. unfold col. destruct (snoc_shape v cells m S) as (a & l & E). rewrite E. cbv iota. rewrite <- E, S, last_snoc.
  destruct (Nat.ltb_spec c m); [lia|reflexivity].
Qed.

Lemma yields_cols a b v cells m f :
  shows cells m v f ->
  yields (cols a b v) cells (length (slice2 m a b)) (fun x j => f x (nth j (slice2 m a b) 0)).
Proof.
  intros Sh. pose proof Sh as (W & S & V). unfold cols. destruct (snoc_shape v cells m S) as (a0 & l & E).
  rewrite E. cbv iota. rewrite <- E, S, last_snoc, removelast_snoc.
  apply yields_ok. eapply shows_ext; [apply shows_tab|]. intros x j Hx Hj. cbv beta. rewrite removelast_snoc, last_snoc.
  eapply shows_at; eauto.
  assert (In (nth j (slice2 m a b) 0) (slice2 m a b)) as I by (apply nth_In; exact Hj).
  revert I. apply slice2_lt.
Qed.

(** Broadcasting between arrays over the same cells. *)
Lemma bdims_app s t s' t' u u' :
  length s = length s' -> bdims s s' = Ok u -> bdims t t' = Ok u' -> bdims (s ++ t) (s' ++ t') = Ok (u ++ u').
Proof.
  revert s' u. induction s as [|a s IH]; intros [|b s'] u L E E'; cbn [length] in L; try discriminate.
  - cbn in E. injection E as <-. exact E'.
  - cbn [app bdims] in *. destruct (bdim a b) as [c|]; [|discriminate]. cbn [bind] in *.
    destruct (bdims s s') as [r|] eqn:Er; [|discriminate]. cbn [bind] in E. injection E as <-.
    rewrite (IH s' r) by (auto; lia). reflexivity.
Qed.

Lemma bidx_app s t i j : length s = length i -> bidx (s ++ t) (i ++ j) = bidx s i ++ bidx t j.
Proof.
  revert i. unfold bidx. induction s as [|n s IH]; intros [|k i] L; cbn [length] in L; try discriminate; [reflexivity|].
  cbn [app map2]. rewrite IH by lia. reflexivity.
Qed.

Lemma bidx_same s i : in_range s i -> bidx s i = i.
Proof.
  unfold in_range. induction 1 as [|k n i s H _ IH]; [reflexivity|]. unfold bidx in *. cbn [map2]. rewrite IH.
  destruct (Nat.eqb_spec n 1); [|reflexivity]. f_equal. lia.
Qed.

Lemma bdims_same s : bdims s s = Ok s.
Proof. induction s as [|a s IH]; [reflexivity|]. cbn [bdims]. unfold bdim. rewrite Nat.eqb_refl, IH. reflexivity. Qed.

Lemma yields_rb_gen op a b cells m1 m2 m f g :
  shows cells m1 a f -> shows cells m2 b g -> bdim m1 m2 = Ok m ->
  yields (rb op a b) cells m
    (fun x j => op (f x (if m1 =? 1 then 0 else j)) (g x (if m2 =? 1 then 0 else j))).
Proof.
  intros Sa Sb Em. pose proof Sa as (Wa & Ha & Va). pose proof Sb as (Wb & Hb & Vb).
  unfold rb, broadcast. rewrite Ha, Hb, !app_length. cbn [length].
  replace (Nat.max (length cells + 1) (length cells + 1)) with (length cells + 1) by lia.
  unfold pad_front. rewrite !app_length. cbn [length]. rewrite Nat.sub_diag. cbn [repeat app].
  rewrite (bdims_app cells [m1] cells [m2] cells [m]); [|reflexivity|apply bdims_same|cbn; rewrite Em; reflexivity].
  cbn [bind skipn]. apply yields_ok. eapply shows_ext; [apply shows_tab|].
  intros x j Hx Hj. cbv beta. rewrite !bidx_app by (symmetry; apply (in_range_length _ _ Hx)).
  rewrite (bidx_same cells x Hx). unfold bidx. cbn [map2].
  assert (Hm : (m1 = m \/ m1 = 1) /\ (m2 = m \/ m2 = 1)).
  { revert Em. unfold bdim. destruct (Nat.eqb_spec m1 m2); [intros [= ->]; subst; auto|].
    destruct (Nat.eqb_spec m1 1); [intros [= ->]; auto|]. destruct (Nat.eqb_spec m2 1); [intros [= ->]; auto|discriminate]. }
  destruct Hm as [H1 H2].
  rewrite Va, Vb; auto.
  - destruct (Nat.eqb_spec m2 1); lia.
  - destruct (Nat.eqb_spec m1 1); lia.
Qed.

Lemma yields_rb op a b cells m f g :
  shows cells m a f -> shows cells m b g -> yields (rb op a b) cells m (fun x j => op (f x j) (g x j)).
Proof.
  intros Sa Sb. eapply yields_ext; [eapply yields_rb_gen; eauto; unfold bdim; rewrite Nat.eqb_refl; reflexivity|].
  intros x j _ Hj. cbv beta. destruct (Nat.eqb_spec m 1); [|reflexivity]. subst. replace j with 0 by lia. reflexivity.
Qed.

Lemma yields_rb1 op a b cells m f g :
  shows cells m a f -> shows cells 1 b g -> yields (rb op a b) cells m (fun x j => op (f x j) (g x 0)).
Proof.
  intros Sa Sb. eapply yields_ext.
  - eapply yields_rb_gen; eauto. unfold bdim. destruct (Nat.eqb_spec m 1); [subst; reflexivity|]. cbn. reflexivity.
  - intros x j _ Hj. cbv beta. destruct (Nat.eqb_spec m 1); [|reflexivity]. subst. replace j with 0 by lia. reflexivity.
Qed.

Lemma yields_sum_axis v cells m f :
  shows cells m v f ->
  yields (let* s := sum_comps v in Ok (add_axis s)) cells 1 (fun x _ => rsum (List.map (f x) (seq 0 m))).
Proof.
  intros Sh. pose proof Sh as (W & S & V). unfold sum_comps. destruct (snoc_shape v cells m S) as (a0 & l & E).
  rewrite E. cbv iota. rewrite <- E, S, last_snoc, removelast_snoc. cbn [bind].
  apply yields_ok. split.
  { unfold wf, add_axis. cbn [shape flat]. pose proof (wf_tabulate cells (fun idx => rsum (List.map (fun c => val v (idx ++ [c])) (seq 0 m)))) as Wt.
    unfold wf in Wt. rewrite Wt. cbn [tabulate shape]. rewrite prod_app. unfold prod at 3. cbn. lia. }
  split; [reflexivity|]. intros x j Hx Hj. assert (j = 0) by lia. subst j.
  pose proof (get_tabulate cells (fun idx => rsum (List.map (fun c => val v (idx ++ [c])) (seq 0 m))) x Hx) as G.
  unfold get, add_axis in *. cbn [shape flat tabulate] in *.
  assert (R : ravel (cells ++ [1]) (x ++ [0]) = ravel cells x).
  { clear - Hx. unfold in_range in Hx. induction Hx as [|i n x cells H _ IH]; [reflexivity|]. cbn [app ravel].
    destruct (i <? n); [|reflexivity]. rewrite IH, prod_app. unfold prod at 2. cbn [fold_right]. rewrite Nat.mul_1_r. reflexivity. }
  rewrite R. rewrite G. f_equal. f_equal. apply map_ext_in. intros c Hc. apply in_seq in Hc.
  eapply shows_at; eauto. lia.
Qed.

(** ** Arrays without component axis *)

(** [v[..., c]]. *)
Definition comp (c : nat) (v : nda R) : res (nda R) :=
  match shape v with
  | [] => Err IndexError
  | _ => if c <? last (shape v) 0
         then Ok (tabulate (removelast (shape v)) (fun idx => val v (idx ++ [c])))
         else Err IndexError
  end.

Definition holds (sh : list nat) (w : nda R) (f : list nat -> R) : Prop :=
  wf w /\ shape w = sh /\ forall x, in_range sh x -> get w x = Some (f x).

Lemma holds_tab sh f : holds sh (tabulate sh f) f.
Proof. split; [apply wf_tabulate|]. split; [reflexivity|]. intros. apply get_tabulate; auto. Qed.

Lemma holds_ext sh w f g : holds sh w f -> (forall x, in_range sh x -> f x = g x) -> holds sh w g.
Proof. intros (W & S & V) E. split; [exact W|]. split; [exact S|]. intros x Hx. rewrite V by auto. f_equal; auto. Qed.

Lemma holds_val sh w f x : holds sh w f -> in_range sh x -> val w x = f x.
Proof. intros (_ & _ & V) Hx. unfold val. now rewrite V. Qed.

Lemma holds_rb op a b sh f g : holds sh a f -> holds sh b g -> exists w, rb op a b = Ok w /\ holds sh w (fun x => op (f x) (g x)).
Proof.
  intros Ha Hb. pose proof Ha as (Wa & Sa & Va). pose proof Hb as (Wb & Sb & Vb).
  unfold rb, broadcast. rewrite Sa, Sb, Nat.max_id. unfold pad_front. rewrite Nat.sub_diag. cbn [repeat app].
  rewrite bdims_same. cbn [bind skipn]. eexists. split; [reflexivity|]. eapply holds_ext; [apply holds_tab|].
  intros x Hx. cbv beta. rewrite !bidx_same by exact Hx. rewrite Va, Vb by auto. reflexivity.
Qed.

Lemma holds_comp c v cells m f : shows cells m v f -> c < m -> exists w, comp c v = Ok w /\ holds cells w (fun x => f x c).
Proof.
  intros Sh Hc. pose proof Sh as (W & S & V). unfold comp. destruct (snoc_shape v cells m S) as (a & l & E).
  rewrite E. cbv iota. rewrite <- E, S, last_snoc, removelast_snoc. destruct (Nat.ltb_spec c m); [|lia].
  eexists. split; [reflexivity|]. eapply holds_ext; [apply holds_tab|]. intros x Hx. eapply shows_at; eauto.
Qed.

Lemma comp_err c v cells m : shape v = cells ++ [m] -> m <= c -> comp c v = Err IndexError.
Proof.
  intros S Hc. unfold comp. destruct (snoc_shape v cells m S) as (a & l & E). rewrite E. cbv iota. rewrite <- E, S, last_snoc.
  destruct (Nat.ltb_spec c m); [lia|reflexivity].
Qed.

Lemma holds_sum v cells m f :
  shows cells m v f -> exists w, sum_comps v = Ok w /\ holds cells w (fun x => rsum (List.map (f x) (seq 0 m))).
Proof.
  intros Sh. pose proof Sh as (W & S & V). unfold sum_comps. destruct (snoc_shape v cells m S) as (a0 & l & E).
  rewrite E. cbv iota. rewrite <- E, S, last_snoc, removelast_snoc.
  eexists. split; [reflexivity|]. eapply holds_ext; [apply holds_tab|]. intros x Hx. cbv beta. f_equal.
  apply map_ext_in. intros c Hc. apply in_seq in Hc. eapply shows_at; eauto. lia.
Qed.

Lemma shows_zeros cells m : shows cells m (zeros (cells ++ [m])) (fun _ _ => 0%R).
Proof. apply shows_tab. Qed.

(** Filling a component from an array over the cells. *)
Lemma yields_set_col k src out cells m f g :
  holds cells src f -> shows cells m out g -> k < m ->
  yields (set_col k src out) cells m (fun x j => if j =? k then f x else g x j).
Proof.
  intros Hs So Hk. pose proof Hs as (Ws & Ss & Vs). pose proof So as (Wo & Ho & Vo).
  rewrite set_col_le by (rewrite Ho, removelast_snoc, Ss; lia). unfold put_col. rewrite Ho, last_snoc, removelast_snoc, Ss.
  destruct (Nat.ltb_spec k m); [|lia]. cbn [negb]. rewrite Nat.ltb_irrefl.
  rewrite Nat.sub_diag. unfold pad_front. rewrite Nat.sub_diag. cbn [repeat app]. rewrite bdims_same. cbn [bind skipn].
  destruct (list_eq_dec Nat.eq_dec cells cells); [|congruence]. apply yields_ok.
  eapply shows_ext; [apply shows_tab|]. intros x j Hx Hj. cbv beta. rewrite last_snoc, removelast_snoc.
  rewrite bidx_same by exact Hx. destruct (Nat.eqb_spec j k); [eapply holds_val; eauto|eapply shows_at; eauto].
Qed.

(** ** Squeezed arrays

    [np.squeeze] removes every axis of length one; assigning the result to an
    array over all axes works exactly when the removed axes come first. *)
Fixpoint ones_first (cells : list nat) : bool :=
  match cells with
  | 1 :: r => ones_first r
  | r => forallb (fun n => negb (n =? 1)) r
  end.

Lemma filter_all {A} (p : A -> bool) l : forallb p l = true -> filter p l = l.
Proof. induction l as [|a l IH]; cbn; [reflexivity|]. destruct (p a); [|discriminate]. intros H. f_equal. auto. Qed.

Lemma ones_first_split cells :
  ones_first cells = true -> exists k r, cells = repeat 1 k ++ r /\ filter (fun n => negb (n =? 1)) cells = r.
Proof.
  induction cells as [|n cells IH]; intros H.
  - exists 0, []. auto.
  - destruct (Nat.eq_dec n 1) as [->|N].
    + destruct (IH H) as (k & r & -> & E). exists (S k), r. split; [reflexivity|]. cbn. exact E.
    + exists 0, (n :: cells). split; [reflexivity|]. apply filter_all.
      destruct n as [|[|n]]; [exact H|congruence|exact H].
Qed.

Lemma prod_repeat1 k : prod (repeat 1 k) = 1.
Proof. induction k as [|k IH]; [reflexivity|]. cbn [repeat]. change (1 * prod (repeat 1 k) = 1). lia. Qed.

Lemma ravel_ones k r x y : in_range (repeat 1 k) x -> ravel (repeat 1 k ++ r) (x ++ y) = ravel r y.
Proof.
  revert x. induction k as [|k IH]; intros x Hx; inversion Hx as [|i n x' l Hi Hx' E1 E2]; subst; [reflexivity|].
  cbn [repeat app ravel]. destruct (Nat.ltb_spec i 1); [|lia]. rewrite IH by exact Hx'.
  assert (i = 0) by lia. subst i. destruct (ravel r y); reflexivity.
Qed.

Lemma ravel_one_last cells x : in_range cells x -> ravel (cells ++ [1]) (x ++ [0]) = ravel cells x.
Proof.
  unfold in_range. induction 1 as [|i n x cells H _ IH]; [reflexivity|]. cbn [app ravel].
  destruct (i <? n); [|reflexivity]. rewrite IH, prod_app. unfold prod at 2. cbn [fold_right]. rewrite Nat.mul_1_r. reflexivity.
Qed.

Lemma bidx_skip s x : length s = length x -> in_range s x -> bidx s (skipn 0 x) = x.
Proof. intros _ H. apply bidx_same. exact H. Qed.

Lemma yields_set_squeezed k src out cells m f g :
  ones_first cells = true ->
  shows cells 1 src f -> shows cells m out g -> k < m ->
  yields (set_col k (squeeze_all src) out) cells m (fun x j => if j =? k then f x 0 else g x j).
Proof.
  intros O Hs So Hk. pose proof Hs as (Ws & Ss & Vs). pose proof So as (Wo & Ho & Vo).
  destruct (ones_first_split cells O) as (p & r & Ec & Er).
  assert (Sq : shape (squeeze_all src) = r).
  { unfold squeeze_all. cbn [shape]. rewrite Ss, filter_app. cbn. rewrite app_nil_r. exact Er. }
  rewrite set_col_le by (rewrite Ho, removelast_snoc, Sq; rewrite Ec, app_length; lia). unfold put_col. rewrite Ho, last_snoc, removelast_snoc, Sq.
  destruct (Nat.ltb_spec k m); [|lia]. cbn [negb].
  assert (Lc : length cells = p + length r) by (rewrite Ec, app_length, repeat_length; reflexivity).
  destruct (Nat.ltb_spec (length cells) (length r)); [lia|].
  assert (Pf : pad_front (length cells) r = cells).
  { unfold pad_front. rewrite Lc. replace (p + length r - length r) with p by lia. symmetry. exact Ec. }
  rewrite Pf, bdims_same. cbn [bind].
  destruct (list_eq_dec Nat.eq_dec cells cells); [|congruence]. apply yields_ok.
  eapply shows_ext; [apply shows_tab|]. intros x j Hx Hj. cbv beta. rewrite last_snoc, removelast_snoc.
  destruct (Nat.eqb_spec j k); [|eapply shows_at; eauto].
  replace (length cells - length r) with p by lia.
  rewrite Ec in Hx. unfold in_range in Hx. apply Forall2_app_inv_r in Hx as (x1 & x2 & H1 & H2 & ->).
  assert (L1 : length x1 = p) by (rewrite (in_range_length _ _ H1); apply repeat_length).
  rewrite skipn_app, L1, Nat.sub_diag. cbn [skipn]. rewrite (skipn_all2 x1) by lia. cbn [app].
  rewrite bidx_same by exact H2.
  assert (Hx : in_range cells (x1 ++ x2)) by (rewrite Ec; apply Forall2_app; auto).
  specialize (Vs (x1 ++ x2) 0 Hx ltac:(lia)). unfold val, get in *. rewrite Sq. rewrite Ss, (ravel_one_last _ _ Hx) in Vs.
  rewrite Ec, (ravel_ones p r x1 x2 H1) in Vs. unfold squeeze_all. cbn [flat]. now rewrite Vs.
Qed.

Lemma bdims_cons_err a b s t : bdim a b = Err ValueError -> bdims (a :: s) (b :: t) = Err ValueError.
Proof. intros E. cbn. rewrite E. reflexivity. Qed.

(** If an axis of length one follows a longer one the squeezed array does not
    fit. *)
Lemma pad_front_cons n s : length s <= n -> pad_front (S n) s = 1 :: pad_front n s.
Proof. intros H. unfold pad_front. replace (S n - length s) with (S (n - length s)) by lia. reflexivity. Qed.

Lemma filter_le {A} (p : A -> bool) l : length (filter p l) <= length l.
Proof. induction l as [|a l IH]; cbn; [lia|]. destruct (p a); cbn; lia. Qed.

Lemma bdims_err_app s t s' t' e : length s = length s' -> bdims t t' = Err e -> exists e', bdims (s ++ t) (s' ++ t') = Err e'.
Proof.
  revert s'. induction s as [|a s IH]; intros [|b s'] L E; cbn [length] in L; try discriminate.
  - exists e. exact E.
  - cbn [app bdims]. destruct (bdim a b); [|eexists; reflexivity]. cbn [bind].
    destruct (IH s' ltac:(lia) E) as [e' ->]. eexists. reflexivity.
Qed.

Lemma bdim_err_ve a b e : bdim a b = Err e -> e = ValueError.
Proof. unfold bdim. destruct (a =? b), (a =? 1), (b =? 1); congruence. Qed.

Lemma bdims_err_ve s t e : bdims s t = Err e -> e = ValueError.
Proof.
  revert t. induction s as [|a s IH]; intros [|b t]; cbn; try congruence.
  destruct (bdim a b) eqn:E; cbn; [|intros [= <-]; eapply bdim_err_ve; eauto].
  destruct (bdims s t) eqn:E'; cbn; [discriminate|]. intros [= <-]. eapply IH; eauto.
Qed.

(** Either the padded squeezed shape is stretched to something else than the
    cells, or it does not combine with them. *)
Lemma squeeze_misfit cells :
  ones_first cells = false ->
  match bdims (pad_front (length cells) (filter (fun n => negb (n =? 1)) cells)) cells with
  | Ok sh => sh <> cells
  | Err e => e = ValueError
  end.
Proof.
  intros O. destruct (bdims _ cells) as [sh|e] eqn:E; [|eapply bdims_err_ve; eauto]. intros ->.
  (* every padded length is one or the length of the cells *)
  assert (F : forall s t, bdims s t = Ok t -> Forall2 (fun a b => a = b \/ a = 1) s t).
  { clear. induction s as [|a s IH]; intros [|b t] E; cbn in E; try discriminate; [constructor|].
    destruct (bdim a b) as [c|] eqn:Eb; [|discriminate]. cbn in E. destruct (bdims s t) as [u|] eqn:Eu; [|discriminate].
    cbn in E. injection E as -> ->. constructor; [|apply IH; exact Eu].
    revert Eb. unfold bdim. destruct (Nat.eqb_spec a b); [auto|]. destruct (Nat.eqb_spec a 1); [auto|].
    destruct (Nat.eqb_spec b 1); [intros [= ->]; auto|discriminate]. }
  apply F in E. clear F. revert O E.
  (* compare from the end *)
  assert (G : forall c, Forall2 (fun a b => a = b \/ a = 1) (pad_front (length c) (filter (fun n => negb (n =? 1)) c)) c -> ones_first c = true).
  2:{ intros O E. apply G in E. congruence. }
  induction c as [|n c IH]; intros H; [reflexivity|].
  destruct (Nat.eq_dec n 1) as [->|N].
  - cbn [filter Nat.eqb negb length] in H. rewrite pad_front_cons in H by apply filter_le. inversion_clear H. cbn. auto.
  - assert (Hn : negb (n =? 1) = true) by (apply negb_true_iff, Nat.eqb_neq; exact N).
    cbn [filter length] in H. rewrite Hn in H.
    destruct (Nat.eq_dec (length (filter (fun n => negb (n =? 1)) c)) (length c)) as [L|L].
    + assert (A : forallb (fun n => negb (n =? 1)) c = true).
      { clear - L. induction c as [|a c IH]; [reflexivity|]. cbn in *. destruct (negb (a =? 1)); cbn in *; [apply IH; lia|].
        pose proof (filter_le (fun n => negb (n =? 1)) c). lia. }
      destruct n as [|[|n]]; [exact A|congruence|exact A].
    + exfalso. pose proof (filter_le (fun n => negb (n =? 1)) c) as Le.
      (* counting the entries different from one *)
      set (cnt := fun l : list nat => length (filter (fun n => negb (n =? 1)) l)).
      assert (P : forall s t, Forall2 (fun a b => a = b \/ a = 1) s t -> cnt s <= cnt t).
      { clear. unfold cnt. induction 1 as [|a b s t Hab _ IH]; [lia|]. cbn. destruct Hab as [-> | ->].
        - destruct (negb (b =? 1)); cbn; lia.
        - cbn. destruct (negb (b =? 1)); cbn; lia. }
      rewrite pad_front_cons in H by (cbn [length]; lia).
      inversion_clear H as [|? ? ? ? _ H2]. apply P in H2. revert H2. unfold cnt, pad_front.
      rewrite filter_app, app_length. cbn [filter]. rewrite Hn. cbn [length].
      assert (FF : length (filter (fun n => negb (n =? 1)) (filter (fun n => negb (n =? 1)) c)) = length (filter (fun n => negb (n =? 1)) c)).
      { clear. induction c as [|a c IH]; [reflexivity|]. cbn. destruct (negb (a =? 1)) eqn:E; cbn; [rewrite E; cbn; lia|exact IH]. }
      rewrite FF. lia.
Qed.

Lemma filter_length_le' {A} (p : A -> bool) l : length (filter p l) <= length l.
Proof. induction l as [|a l IH]; [reflexivity|]. cbn [filter]. destruct (p a); cbn [length]; lia. Qed.

Lemma set_squeezed_err k src out cells m f g :
  ones_first cells = false -> shows cells 1 src f -> shows cells m out g -> k < m ->
  set_col k (squeeze_all src) out = Err ValueError.
Proof.
  intros O (Ws & Ss & Vs) (Wo & Ho & Vo) Hk.
  assert (Sq : shape (squeeze_all src) = filter (fun n => negb (n =? 1)) cells).
  { unfold squeeze_all. cbn [shape]. rewrite Ss, filter_app. cbn. apply app_nil_r. }
  rewrite set_col_le by (rewrite Ho, removelast_snoc, Sq; apply filter_length_le'). unfold put_col. rewrite Ho, last_snoc, removelast_snoc, Sq.
  destruct (Nat.ltb_spec k m); [|lia]. cbn [negb].
  destruct (Nat.ltb_spec (length cells) (length (filter (fun n => negb (n =? 1)) cells))); [reflexivity|].
  pose proof (squeeze_misfit cells O) as M.
  destruct (bdims _ cells) as [sh|e]; cbn [bind]; [|now subst].
  destruct (list_eq_dec Nat.eq_dec sh cells); [congruence|reflexivity].
Qed.
