(** * The drawing calls for squeezed data *)
From Coq Require Import String Ascii List Arith ZArith Bool Lia Reals Lra.
From Verif Require Import Prelude PreludeFacts NdArray Ev_Model Ev_Arith Tools_Arr Draw_Model Draw_Spec Draw_Proofs.
Import ListNotations.
Open Scope list_scope.
Open Scope nat_scope.

Lemma holds_affine sh w f s c : holds sh w f -> holds sh (affine s c w) (fun x => ((f x + s) * c)%R).
Proof.
  intros (W & S & V). unfold affine, rmap, map_nda. split; [|split; [exact S|]].
  - unfold wf in *. cbn [shape flat]. now rewrite map_length.
  - intros x Hx. unfold get in *. cbn [shape flat]. specialize (V x Hx). destruct (ravel (shape w) x); [|discriminate].
    rewrite nth_error_map, V. reflexivity.
Qed.

Lemma holds_tr sh w f : holds sh w f -> holds (rev sh) (tr w) (fun x => f (rev x)).
Proof.
  intros (W & S & V). unfold tr, transpose. rewrite S. eapply holds_ext; [apply holds_tab|].
  intros x Hx. cbv beta. assert (Hr : in_range sh (rev x)).
  { unfold in_range in *. rewrite <- (rev_involutive sh). clear -Hx.
    assert (Q : forall (l : list nat) l', Forall2 (fun i n => i < n) l l' -> Forall2 (fun i n => i < n) (rev l) (rev l')).
    { induction 1; cbn [rev]; [constructor|]. apply Forall2_app; auto. }
    apply Q. exact Hx. }
  now rewrite V.
Qed.

(** The centres of the cells along axis [k]. *)
Lemma nodal_rect nd j edges X k n g :
  holds [points edges n] g (fun x => X k (hd 0 x)) ->
  exists w, nodal_axis nd j g n = Ok w /\ holds [n] w (fun x => mid_of edges X k (hd 0 x)).
Proof.
  intros Hg. pose proof Hg as (_ & Sg & _). unfold nodal_axis. rewrite Sg. unfold points in *. destruct edges.
  - destruct (Nat.eqb_spec (S n) n); [lia|]. rewrite Nat.eqb_refl. eexists. split; [reflexivity|].
    unfold mid_first. rewrite Sg. cbn [pred]. eapply holds_ext; [apply holds_tab|]. intros x Hx. cbv beta.
    inversion Hx as [|i ? x' ? Hi Hn]; subst. inversion Hn; subst. cbn [hd].
    rewrite !(holds_val _ _ _ _ Hg) by (constructor; [lia|constructor]). cbn [hd mid_of]. lra.
  - rewrite Nat.eqb_refl. eexists. split; [reflexivity|]. exact Hg.
Qed.

Lemma nodal_one edges X k n g :
  holds [points edges n] g (fun x => X k (hd 0 x)) ->
  exists w, nodal_grid [g] [n] = Ok [w] /\ holds [n] w (fun x => mid_of edges X k (hd 0 x)).
Proof.
  intros H. destruct (nodal_rect 1 0 edges X k n g H) as (w & E & Hw). exists w. split; [|exact Hw].
  unfold nodal_grid. cbn [length Nat.eqb combine seq mapM]. rewrite E. reflexivity.
Qed.

Lemma nodal_two edges X a b n p g h :
  holds [points edges n] g (fun x => X a (hd 0 x)) -> holds [points edges p] h (fun x => X b (hd 0 x)) ->
  exists u w, nodal_grid [g; h] [n; p] = Ok [u; w] /\
    holds [n] u (fun x => mid_of edges X a (hd 0 x)) /\ holds [p] w (fun x => mid_of edges X b (hd 0 x)).
Proof.
  intros Hg Hh. destruct (nodal_rect 2 0 edges X a n g Hg) as (u & Eu & Hu).
  destruct (nodal_rect 2 1 edges X b p h Hh) as (w & Ew & Hw). exists u, w. split; [|auto].
  unfold nodal_grid. cbn [length Nat.eqb combine seq mapM]. rewrite Eu, Ew. reflexivity.
Qed.

(** The loop over the components. *)
Lemma draw_all_spec o nd d n (Q : nat -> list call -> Prop) (I : option R * option R -> Prop) :
  comps_drawn o d = Ok n ->
  I (o_zmin o, o_zmax o) ->
  (forall lim c, I lim -> c < n -> exists calls lim', draw_comp o nd d lim c = Ok (calls, lim') /\ Q c calls /\ I lim') ->
  exists out, draw_all o nd d = Ok out /\ length out = n /\ forall c calls, nth_error out c = Some calls -> Q c calls.
Proof.
  intros E I0 H. unfold draw_all. rewrite E. cbn [bind].
  assert (G : forall k acc lim, length acc = n - k -> k <= n -> I lim ->
            (forall c calls, nth_error acc c = Some calls -> Q c calls) ->
            exists out lim', loop (fun st c => let '(acc, lim) := st in let* r := draw_comp o nd d lim c in Ok (acc ++ [fst r], snd r))
                          (seq (n - k) k) (acc, lim) = Ok (out, lim') /\
               length out = n /\ forall c calls, nth_error out c = Some calls -> Q c calls).
  { induction k as [|k IH]; intros acc lim L Hk Il Ha; cbn [seq loop].
    - exists acc, lim. split; [reflexivity|]. split; [lia|exact Ha].
    - destruct (H lim (n - S k) Il) as (calls & lim' & Ec & Qc & Il'); [lia|]. rewrite Ec. cbn [bind fst snd].
      replace (S (n - S k)) with (n - k) by lia. apply IH.
      + rewrite app_length. cbn. lia.
      + lia.
      + exact Il'.
      + intros c cs Ecs. destruct (Nat.lt_ge_cases c (length acc)) as [Lc|Lc].
        * rewrite nth_error_app1 in Ecs by exact Lc. now apply Ha.
        * rewrite nth_error_app2 in Ecs by exact Lc. destruct (c - length acc) eqn:Z; [|destruct n0; discriminate].
          injection Ecs as <-. replace c with (n - S k) by lia. exact Qc. }
  destruct (G n [] (o_zmin o, o_zmax o)) as (out & lim' & Eo & L & Ho); [cbn; lia|lia|exact I0|intros [|]; discriminate|].
  rewrite Nat.sub_diag in Eo. rewrite Eo. exists out. cbn. auto.
Qed.

Lemma comps_of o d cells m f : shows cells m (p_vals d) f ->
  comps_drawn o d = Ok (m / (if o_stream o || o_quiver o then 2 else 1)).
Proof.
  intros (_ & S & _). unfold comps_drawn. destruct (snoc_shape _ _ _ S) as (x & l & E). rewrite E. cbv iota.
  rewrite <- E, S, last_snoc. reflexivity.
Qed.

(** ** Multi-indices along the axes that remain *)

Lemma fill_none r : forall k idx x, (forall j, k <= j < k + r -> mem j idx = true) ->
  fill k idx r x = List.map (fun _ => 0) (seq k r).
Proof.
  induction r as [|r IH]; intros k idx x H; [reflexivity|]. cbn [fill seq List.map]. rewrite H by lia. f_equal.
  apply IH. intros j Hj. apply H. lia.
Qed.

Lemma fill_one r : forall k idx a i,
  (forall j, k <= j < k + r -> mem j idx = negb (j =? a)) -> k <= a < k + r ->
  fill k idx r [i] = List.map (fun j => if j =? a then i else 0) (seq k r).
Proof.
  induction r as [|r IH]; intros k idx a i H Ha; [lia|]. cbn [fill seq List.map]. rewrite H by lia.
  destruct (Nat.eqb_spec k a) as [->|N]; cbn [negb]; f_equal.
  - rewrite fill_none.
    + apply map_ext_in. intros j Hj. apply in_seq in Hj. destruct (Nat.eqb_spec j a); [lia|reflexivity].
    + intros j Hj. rewrite H by lia. destruct (Nat.eqb_spec j a); [lia|reflexivity].
  - apply IH; [|lia]. intros j Hj. apply H. lia.
Qed.

Lemma fill_two r : forall k idx a b i j,
  (forall l, k <= l < k + r -> mem l idx = negb ((l =? a) || (l =? b))) -> k <= a -> a < b -> b < k + r ->
  fill k idx r [i; j] = List.map (fun l => if l =? a then i else if l =? b then j else 0) (seq k r).
Proof.
  induction r as [|r IH]; intros k idx a b i j H Ha Hab Hb; [lia|]. cbn [fill seq List.map]. rewrite H by lia.
  destruct (Nat.eqb_spec k a) as [->|N]; cbn [negb orb].
  - f_equal. rewrite (fill_one r (S a) idx b j).
    + apply map_ext_in. intros l Hl. apply in_seq in Hl. destruct (Nat.eqb_spec l a); [lia|reflexivity].
    + intros l Hl. rewrite H by lia. destruct (Nat.eqb_spec l a); [lia|reflexivity].
    + lia.
  - destruct (Nat.eqb_spec k b); [lia|]. cbn [negb]. f_equal. apply IH; try lia. intros l Hl. apply H. lia.
Qed.

Lemma ones_axis cells idx a n : ones cells idx -> only_axis cells a n ->
  a < length cells /\ forall j, j < length cells -> mem j idx = negb (j =? a).
Proof.
  intros O (Hn & Ea & H1). split; [apply nth_error_Some; congruence|]. intros j Hj. rewrite O.
  destruct (Nat.eqb_spec j a) as [->|N].
  - rewrite Ea. destruct (Nat.leb_spec n 1); [lia|reflexivity].
  - destruct (nth_error cells j) as [c|] eqn:E; [|apply nth_error_None in E; lia]. now rewrite (H1 j c N E).
Qed.

Lemma ones_axes cells idx a n b p : ones cells idx -> only_axes cells a n b p ->
  a < b /\ b < length cells /\ forall j, j < length cells -> mem j idx = negb ((j =? a) || (j =? b)).
Proof.
  intros O (Hab & Hn & Hp & Ea & Eb & H1). split; [exact Hab|]. split; [apply nth_error_Some; congruence|].
  intros j Hj. rewrite O. destruct (Nat.eqb_spec j a) as [->|N].
  - rewrite Ea. destruct (Nat.leb_spec n 1); [lia|reflexivity].
  - destruct (Nat.eqb_spec j b) as [->|N'].
    + rewrite Eb. destruct (Nat.leb_spec p 1); [lia|reflexivity].
    + destruct (nth_error cells j) as [c|] eqn:E; [|apply nth_error_None in E; lia]. now rewrite (H1 j c N N' E).
Qed.

Lemma live_drop cells idx : Forall (fun n => 1 <= n) cells -> ones cells idx -> live_dims cells = length (drop_at 0 idx cells).
Proof.
  intros P O. unfold live_dims.
  assert (G : forall l k, Forall (fun n => 1 <= n) l -> (forall j, j < length l -> mem (k + j) idx = match nth_error l j with Some c => c <=? 1 | None => false end) ->
            length (filter (fun n => negb (n =? 1)) l) = length (drop_at k idx l)).
  { induction l as [|c l IH]; intros k Pl H; [reflexivity|]. cbn [filter drop_at]. fold (mem k idx).
    inversion Pl; subst. pose proof (H 0) as H0. rewrite Nat.add_0_r in H0. rewrite H0 by (cbn; lia). cbn [nth_error].
    assert (IHk : length (filter (fun n => negb (n =? 1)) l) = length (drop_at (S k) idx l)).
    2:{ destruct (Nat.leb_spec c 1); destruct (Nat.eqb_spec c 1); cbn [negb length]; lia. }
    apply IH; [assumption|].
    intros j Hj. specialize (H (S j)). rewrite Nat.add_succ_r in H. apply H. cbn. lia. }
  apply G; [exact P|]. intros j Hj. apply O.
Qed.

(** ** The data after squeezing, for one and two remaining axes *)

(** A dataset on a rectangular grid. *)
Definition dataset (edges : bool) (cells : list nat) (X : nat -> nat -> R) (m : nat) (f : list nat -> nat -> R) (d : pd) : Prop :=
  Forall (fun n => 1 <= n) cells /\ length cells <= 6 /\
  rect_grid edges cells X (p_grid d) /\ p_cells d = cells /\ shows cells m (p_vals d) f.

Lemma squeeze_axis edges cells X m f d a n :
  dataset edges cells X m f d -> only_axis cells a n ->
  exists g w labels,
    squeeze_data (live_dims cells) d = Ok (mk_pd [g] [n] w, labels) /\ live_dims cells = 1 /\
    holds [points edges n] g (fun x => X a (hd 0 x)) /\
    shows [n] m w (fun x c => f (cell1 (length cells) a (hd 0 x)) c) /\
    (exists l, labels = a :: l).
Proof.
  intros (P & L6 & G & Ec & Sv) A. destruct (ones_exists cells) as (idx & O).
  destruct (ones_axis _ _ _ _ O A) as (La & M). pose proof A as (Hn & Ea & H1).
  assert (Ed : drop_at 0 idx cells = [n]).
  { apply (drop_at_one cells 0 idx a n); [intros j Hj; apply M; lia|lia|now rewrite Nat.sub_0_r]. }
  destruct (squeeze_rect edges cells X m f d idx P L6 O G Ec Sv) as (w & labels & E & Sw & El); [rewrite Ed; discriminate|].
  pose proof G as (Lg & G').
  destruct (nth_error (p_grid d) a) as [g|] eqn:Eg; [|apply nth_error_None in Eg; lia].
  assert (Edg : drop_at 0 idx (p_grid d) = [g]).
  { apply (drop_at_one (p_grid d) 0 idx a g); [intros j Hj; apply M; lia|lia|now rewrite Nat.sub_0_r]. }
  rewrite Ed, Edg in *. exists g, w, labels. split; [exact E|]. split; [now rewrite (live_drop cells idx P O), Ed|].
  split; [apply G'; auto|]. split.
  - eapply shows_ext; [exact Sw|]. intros x j Hx Hj. cbv beta. f_equal. inversion Hx as [|i ? x' ? Hi Hx']; subst. inversion Hx'; subst.
    cbn [hd]. apply fill_one; [intros l Hl; apply M; lia|lia].
  - assert (I : nth_error labels 0 = Some a).
    { rewrite El. clear -M La L6. 
      assert (Q : forall r k, k <= a -> a < k + r -> (forall j, k <= j <= a -> mem j idx = negb (j =? a)) -> nth_error (drop_at k idx (seq k r)) 0 = Some a).
      { induction r as [|r IH]; intros k Ha Hr H; [lia|]. cbn [seq drop_at]. fold (mem k idx). rewrite H by lia.
        destruct (Nat.eqb_spec k a) as [->|N]; [reflexivity|]. cbn [negb]. apply IH; try lia. intros j Hj. apply H. lia. }
      apply (Q 6 0); [lia|lia|]. intros j Hj. apply M. lia. }
    destruct labels as [|x l]; [discriminate|]. injection I as ->. eauto.
Qed.

Lemma squeeze_axes2 edges cells X m f d a n b p :
  dataset edges cells X m f d -> only_axes cells a n b p ->
  exists g h w labels,
    squeeze_data (live_dims cells) d = Ok (mk_pd [g; h] [n; p] w, labels) /\ live_dims cells = 2 /\
    holds [points edges n] g (fun x => X a (hd 0 x)) /\ holds [points edges p] h (fun x => X b (hd 0 x)) /\
    shows [n; p] m w (fun x c => f (cell2 (length cells) a (hd 0 x) b (nth 1 x 0)) c) /\
    (exists l, labels = a :: b :: l).
Proof.
  intros (P & L6 & G & Ec & Sv) A. destruct (ones_exists cells) as (idx & O).
  destruct (ones_axes _ _ _ _ _ _ O A) as (Hab & Lb & M). pose proof A as (_ & Hn & Hp & Ea & Eb & H1).
  assert (Ed : drop_at 0 idx cells = [n; p]).
  { apply (drop_at_two cells 0 idx a b n p); [intros j Hj; apply M; lia|lia|lia|now rewrite Nat.sub_0_r|now rewrite Nat.sub_0_r]. }
  destruct (squeeze_rect edges cells X m f d idx P L6 O G Ec Sv) as (w & labels & E & Sw & El); [rewrite Ed; discriminate|].
  pose proof G as (Lg & G').
  destruct (nth_error (p_grid d) a) as [g|] eqn:Eg; [|apply nth_error_None in Eg; lia].
  destruct (nth_error (p_grid d) b) as [h|] eqn:Eh; [|apply nth_error_None in Eh; lia].
  assert (Edg : drop_at 0 idx (p_grid d) = [g; h]).
  { apply (drop_at_two (p_grid d) 0 idx a b g h); [intros j Hj; apply M; lia|lia|lia|now rewrite Nat.sub_0_r|now rewrite Nat.sub_0_r]. }
  rewrite Ed, Edg in *. exists g, h, w, labels. split; [exact E|]. split; [now rewrite (live_drop cells idx P O), Ed|].
  split; [apply G'; auto|]. split; [apply G'; auto|]. split.
  - eapply shows_ext; [exact Sw|]. intros x j Hx Hj. cbv beta. f_equal.
    inversion Hx as [|i ? x' ? Hi Hx']; subst. inversion Hx' as [|i' ? x'' ? Hi' Hx'']; subst. inversion Hx''; subst.
    cbn [hd nth]. apply fill_two; try lia. intros l Hl; apply M; lia.
  - assert (Q : forall r k a, k <= a -> a < k + r -> forall b, a < b -> b < k + r -> (forall j, k <= j <= b -> mem j idx = negb ((j =? a) || (j =? b))) ->
             exists l, drop_at k idx (seq k r) = a :: b :: l).
    { clear. 
      assert (Q1 : forall r k b, k <= b -> b < k + r -> (forall j, k <= j <= b -> mem j idx = negb (j =? b)) -> exists l, drop_at k idx (seq k r) = b :: l).
      { induction r as [|r IH]; intros k b Hb Hr H; [lia|]. cbn [seq drop_at]. fold (mem k idx). rewrite H by lia.
        destruct (Nat.eqb_spec k b) as [->|N]; cbn [negb]; [eauto|]. apply IH; try lia. intros j Hj. apply H. lia. }
      induction r as [|r IH]; intros k a Ha Hr b Hab Hb H; [lia|]. cbn [seq drop_at]. fold (mem k idx). rewrite H by lia.
      destruct (Nat.eqb_spec k a) as [->|N]; cbn [negb orb].
      - destruct (Q1 r (S a) b) as (l & ->); try lia; [|eauto]. intros j Hj. rewrite H by lia. destruct (Nat.eqb_spec j a); [lia|reflexivity].
      - destruct (Nat.eqb_spec k b); [lia|]. cbn [negb]. apply IH; try lia. intros j Hj. apply H. lia. }
    destruct (Q 6 0 a) with (b := b) as (l & E6); try lia; [intros j Hj; apply M; lia|]. rewrite El, E6. eauto.
Qed.
