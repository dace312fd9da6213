(** * C131: the functions of the tables in double precision *)
From Coq Require Import String List Arith ZArith Bool Lia QArith Qreals Reals Lra Psatz.
From Flocq Require Import Core.
From Verif Require Import Prelude PreludeFacts NdArray Gkyl_Model Float_Model Float_Props FGrid_Model FInt_Model FInt_Spec FInt_Proofs FInt_Props
  Dg_Poly Dg_TabI Dg_Model Dg_Spec Dg_Proofs Dg_Props3 Dg_Sem Dg_Gram Dg_Props5 FDg_Spec FDg_Model FDg_Props FDg_Proofs.
Import ListNotations.
Open Scope string_scope. Open Scope list_scope. Open Scope R_scope.

(** ** The tables, by computation *)
Fixpoint weightQ (e : pexp) : Q :=
  match e with
  | Nu m k => Qmake (Z.abs m) (Z.to_pos (10 ^ Z.of_nat k))
  | Va _ => 1
  | Ng a => weightQ a
  | Ad a b | Su a b => (weightQ a + weightQ b)%Q
  | Mu a b => (weightQ a * weightQ b)%Q
  | Di a b => 0
  | Po a n => fold_right Qmult 1%Q (repeat (weightQ a) n)
  end.
Fixpoint plainb (e : pexp) : bool :=
  match e with
  | Nu m k => Qle_bool (Qmake 1 8) (weightQ e)
  | Va _ => true
  | Ng a => plainb a
  | Ad a b | Su a b | Mu a b => plainb a && plainb b
  | Di _ _ => false
  | Po a n => (1 <=? n)%nat && plainb a
  end.
Definition row_ok (bound : Z) (f : pexp) : bool :=
  plainb f && (cost f <=? 300)%nat && Qle_bool (inject_Z (4 * Z.of_nat (cost f)) * weightQ f) (inject_Z bound).

Lemma weightQ_ok e : Q2R (weightQ e) = weight e.
Proof.
  induction e; cbn [weightQ weight].
  - unfold Q2R, lit. cbn [Qnum Qden]. rewrite Z2Pos.id by (apply Z.pow_pos_nonneg; lia). rewrite abs_IZR.
    replace (IZR (10 ^ Z.of_nat e)) with (10 ^ e) by (rewrite <- pow_IZR; reflexivity).
    assert (0 < 10 ^ e) by (apply pow_lt; lra). unfold Rdiv. rewrite Rabs_mult, (Rabs_right (/ 10 ^ e)); [reflexivity|]. left. now apply Rinv_0_lt_compat.
  - unfold Q2R. cbn. lra.
  - exact IHe.
  - now rewrite Q2R_plus, IHe1, IHe2.
  - now rewrite Q2R_plus, IHe1, IHe2.
  - now rewrite Q2R_mult, IHe1, IHe2.
  - unfold Q2R. cbn. lra.
  - induction n as [|n IH]; cbn [repeat fold_right]; [unfold Q2R; cbn; lra|]. rewrite Q2R_mult, IH, IHe. reflexivity.
Qed.
Lemma plainb_ok e : plainb e = true -> plain e.
Proof.
  induction e; cbn [plainb plain]; intros H; try discriminate; auto.
  - apply Qle_bool_iff, Qle_Rle in H. rewrite weightQ_ok in H. cbn [weight] in H. replace (Q2R (Qmake 1 8)) with (/ 8) in H by (unfold Q2R; cbn; lra). exact H.
  - apply andb_prop in H as (H1 & H2). auto.
  - apply andb_prop in H as (H1 & H2). auto.
  - apply andb_prop in H as (H1 & H2). auto.
  - apply andb_prop in H as (H1 & H2). apply Nat.leb_le in H1. auto.
Qed.

Lemma row_ok_error bound f p x v : row_ok bound f = true -> evaluates p f v -> near_point p x -> Rabs (v - evalR f x) <= IZR bound * u.
Proof.
  intros H E N. unfold row_ok in H. apply andb_prop in H as (H & B). apply andb_prop in H as (P & C). apply plainb_ok in P. apply Nat.leb_le in C.
  apply Rle_trans with (1 := evaluates_error p x f v E N P C).
  apply Qle_bool_iff, Qle_Rle in B. rewrite Q2R_mult, weightQ_ok in B.
  replace (Q2R (inject_Z (4 * Z.of_nat (cost f)))) with (4 * INR (cost f)) in B by (unfold Q2R, inject_Z; cbn [Qnum Qden]; rewrite mult_IZR, <- INR_IZR_INZ; field).
  replace (Q2R (inject_Z bound)) with (IZR bound) in B by (unfold Q2R, inject_Z; cbn [Qnum Qden]; field).
  pose proof u_pos as U. pose proof u_small. pose proof (weight_pos f).
  assert (G : g2 ^ cost f - 1 <= 4 * INR (cost f) * u).
  { destruct (pw_bound (2 * cost f)) as (B1 & _).
    - rewrite mult_INR. change (INR 2) with 2. assert (INR (cost f) <= 300) by (rewrite INR_IZR_INZ; apply IZR_le; lia).
      assert (u <= / 2000) by (unfold u; apply Rle_trans with (bpow radix2 (-11)); [apply bpow_le; lia|cbn; lra]). pose proof (pos_INR (cost f)). nra.
    - rewrite mult_INR in B1. change (INR 2) with 2 in B1. assert (g2 ^ cost f <= (1 + u) ^ (2 * cost f)); [|lra].
      rewrite pow_mult. apply pow_incr. unfold g2. cbn [pow]. nra. }
  apply Rle_trans with (4 * INR (cost f) * u * weight f); [now apply Rmult_le_compat_r|].
  replace (4 * INR (cost f) * u * weight f) with (4 * INR (cost f) * weight f * u) by ring. apply Rmult_le_compat_r; lra.
Qed.

Definition table_bound (b : string) : Z := if String.eqb b "tensor" then (2 ^ 19)%Z else (2 ^ 14)%Z.
Lemma tables_ok d p b fs : interp_functions d p true b = Ok fs -> forallb (row_ok (table_bound b)) fs = true.
Proof.
  unfold interp_functions. cbn [andb negb].
  repeat match goal with
  | |- (if Nat.eqb d ?k then _ else _) = _ -> _ => destruct (Nat.eqb_spec d k) as [->|_]
  | |- (if String.eqb b ?k then _ else _) = _ -> _ => destruct (String.eqb_spec b k) as [->|_]
  | |- (if Nat.eqb p ?k then _ else _) = _ -> _ => destruct (Nat.eqb_spec p k) as [->|_]
  | |- Err _ = Ok _ -> _ => discriminate
  | |- (if false then _ else _) = _ -> _ => cbv beta iota
  end; intros [= <-]; try (vm_compute; reflexivity); unfold table_bound; destruct (String.eqb b "tensor"); vm_compute; reflexivity.
Qed.
Lemma tables_length d p b fs : interp_functions d p true b = Ok fs -> (length fs <=? 352)%nat = true.
Proof.
  unfold interp_functions. cbn [andb negb].
  repeat match goal with
  | |- (if Nat.eqb d ?k then _ else _) = _ -> _ => destruct (Nat.eqb_spec d k) as [->|_]
  | |- (if String.eqb b ?k then _ else _) = _ -> _ => destruct (String.eqb_spec b k) as [->|_]
  | |- (if Nat.eqb p ?k then _ else _) = _ -> _ => destruct (Nat.eqb_spec p k) as [->|_]
  | |- Err _ = Ok _ -> _ => discriminate
  | |- (if false then _ else _) = _ -> _ => cbv beta iota
  end; intros [= <-]; vm_compute; reflexivity.
Qed.

(** ** Theorems *)
(** Whatever the arrangement in which SymPy evaluates the functions of the tables, the matrix is near
    the exact one. *)
Theorem C131_tables d p b fs ev :
  interp_functions d p true b = Ok fs -> (forall f pt, In f fs -> evaluates pt f (ev f pt)) ->
  accurate ev fs (bpow radix2 (-34)) /\ (b <> "tensor" -> accurate ev fs (bpow radix2 (-39))).
Proof.
  intros H E. apply tables_ok in H. rewrite forallb_forall in H.
  assert (A : accurate ev fs (IZR (table_bound b) * u)) by (intros f pt x Hf N; apply (row_ok_error _ f pt); auto).
  unfold u, table_bound in A. destruct (String.eqb_spec b "tensor") as [->|Nb].
  - change (IZR (2 ^ 19)) with (bpow radix2 19) in A. rewrite <- bpow_plus in A. change (19 + -53)%Z with (-34)%Z in A. split; [exact A|congruence].
  - change (IZR (2 ^ 14)) with (bpow radix2 14) in A. rewrite <- bpow_plus in A. change (14 + -53)%Z with (-39)%Z in A. split; [|intros _; exact A].
    intros f pt x Hf N. apply Rle_trans with (1 := A f pt x Hf N). apply bpow_le. lia.
Qed.

(** Hence the values of the interpolation, with no assumption on the accuracy of the matrix. *)
Theorem C131_rounded dec dot ev (d : dgdata (F := R)) (g : ginterp) comps cells nc fs :
  (forall r q, length r = length q -> dots (combine r q) (dot r q)) ->
  (forall f pt, In f fs -> evaluates pt f (ev f pt)) ->
  wf (dd_values d) -> shape (dd_values d) = cells ++ [nc] -> gi_dims g = length cells -> dims_ok (length cells) (gi_basis g) ->
  (gi_basis g = "hybrid" -> (2 <= length cells)%nat) -> interp_functions (gi_dims g) (gi_poly g) true (gi_basis g) = Ok fs ->
  gi_nodes g = length fs -> (2 <= gi_interp g)%nat -> (Z.of_nat (gi_interp g) < 2 ^ 52)%Z ->
  comps <> [] -> (forall c, In c comps -> (c * length fs + length fs <= nc)%nat) ->
  let ns := refine (length cells) (gi_interp g) (gi_basis g) in
  exists v, modal_values (dnum dec) dot ev d g comps = Ok v /\
    forall j c i k, nth_error comps j = Some c -> in_range cells i -> in_range ns k ->
      exists q x, length q = length fs /\
        (forall m, (m < length fs)%nat -> nth_error q m = get (dd_values d) (i ++ [(c * length fs + m)%nat])) /\
        get v (sub_index ns i k ++ [j]) = Some x /\
        Rabs (x - expansion q fs (centres ns k)) <=
          2 * (INR (length fs) * u) * magnitude q fs (centres ns k) + 2 * (bpow radix2 (-34) * abs_sum q + INR (length fs) * tiny).
Proof.
  intros Hdot Hev W Sh Gd D Hh Hfs Gn Hn Hn' Hc Hcs. pose proof (tables_length _ _ _ _ Hfs) as HN. apply Nat.leb_le in HN. destruct (C131_tables _ _ _ fs ev Hfs Hev) as (A & _).
  apply (C131_small dec dot ev Hdot d g comps cells nc fs _ A W Sh Gd D Hh Hfs Gn Hn Hn' Hc Hcs); [lia|apply bpow_ge_0].
Qed.

(** ** Example *)
(** Evaluating as written, powers with one rounding. *)
Fixpoint as_written (f : pexp) (p : list R) : R :=
  match f with
  | Nu m e => fl (lit m e)
  | Va i => nth i p 0
  | Ng a => - as_written a p
  | Ad a b => fl (as_written a p + as_written b p)
  | Su a b => fl (as_written a p - as_written b p)
  | Mu a b => fl (as_written a p * as_written b p)
  | Di a b => 0
  | Po a n => if (2 <=? n)%nat then fl (as_written a p ^ n) else as_written a p
  end.
Lemma as_written_ok f p : plain f -> evaluates p f (as_written f p).
Proof.
  induction f; cbn [plain as_written]; intros P.
  - constructor.
  - constructor.
  - constructor. auto.
  - constructor; tauto.
  - constructor; tauto.
  - constructor; tauto.
  - contradiction.
  - destruct P as (P1 & P2). destruct (Nat.leb_spec 2 n) as [L|L]; [constructor; [exact L|auto]|]. assert (n = 1)%nat by lia. subst n.
    apply ev_same with f; [apply same_po_one|auto].
Qed.
(** Another arrangement: (a - b) as - b + a. *)
Example C131_evaluates : forall p a b, evaluates p (Su (Va 0) (Nu a b)) (fl (fl (lit (- a) b) + nth 0 p 0)).
Proof.
  intros p a b. apply ev_same with (Ad (Nu (- a) b) (Va 0)); [|repeat constructor].
  apply same_trans with (1 := same_su _ _). apply same_trans with (1 := same_ad_comm _ _). apply same_ad; [apply same_ng_nu|apply same_refl].
Qed.
Example C131_tables_example : exists fs, interp_functions 3 2 true "serendipity" = Ok fs /\ length fs = 20%nat /\
  (forall f pt, In f fs -> evaluates pt f (as_written f pt)) /\ accurate as_written fs (bpow radix2 (-39)).
Proof.
  destruct (interp_functions 3 2 true "serendipity") as [fs|] eqn:E; [|discriminate]. exists fs. split; [reflexivity|]. split; [injection E as <-; reflexivity|].
  assert (A : forall f pt, In f fs -> evaluates pt f (as_written f pt)).
  { pose proof (tables_ok _ _ _ _ E) as T. rewrite forallb_forall in T. intros f pt Hf. apply as_written_ok. specialize (T f Hf). unfold row_ok in T.
    apply andb_prop in T as (T & _). apply andb_prop in T as (T & _). now apply plainb_ok. }
  split; [exact A|]. apply (C131_tables _ _ _ fs as_written E A). discriminate.
Qed.

Print Assumptions C131_tables.
Print Assumptions C131_rounded.
