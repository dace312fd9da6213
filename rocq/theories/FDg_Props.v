(** * C131: interpolation in double precision *)
From Coq Require Import String List Arith ZArith Bool Lia QArith Qreals Reals Lra Psatz Permutation.
From Flocq Require Import Core.
From Verif Require Import Prelude PreludeFacts NdArray Tools_Arr Gkyl_Model Gkyl_Proofs3 Calc_Spec Float_Model Float_Props FloatQ_Model FloatQ_Props FGrid_Model FGrid_Spec FGrid_Proofs FGrid_Props
  FInt_Model FInt_Spec FInt_Proofs FInt_Props
  Dg_Poly Dg_TabI Dg_TabD Dg_Model Dg_Spec Dg_Proofs Dg_Proofs2 Dg_Props Dg_Props2 Dg_Props3 Dg_Sem Dg_Gram Dg_Props5 FDg_Spec.
Import ListNotations.
Open Scope string_scope. Open Scope list_scope. Open Scope R_scope.

(** ** Lemmas *)
Lemma u_small : u <= / 1024.
Proof. unfold u. apply Rle_trans with (bpow radix2 (-10)); [apply bpow_le; lia|]. cbn. lra. Qed.
Lemma tiny_small : tiny <= u / 1024.
Proof.
  unfold tiny, u. change (-1075)%Z with (-1022 + -53)%Z. rewrite bpow_plus.
  assert (bpow radix2 (-1022) <= / 1024) by (apply Rle_trans with (bpow radix2 (-10)); [apply bpow_le; lia|cbn; lra]).
  pose proof (bpow_gt_0 radix2 (-53)). nra.
Qed.

Lemma point_value dec n i : (i < n)%nat -> (Z.of_nat n <= 2 ^ 52)%Z ->
  interp_point (dnum dec) false n i = fl (fl (- (INR n - 1) / INR n) + fl (2 * INR i / INR n)).
Proof.
  intros Hi Hn. unfold interp_point, fnat, fm1. cbn [dnum fofZ fadd fdiv fmul fsub].
  rewrite !fl_nat by lia. change (IZR (Z.of_nat 1)) with 1. 
  assert (E1 : fl (IZR (-1)) = -1) by (apply fl_int; lia). rewrite E1. change (INR 1) with 1. change (INR 2) with 2.
  assert (E2 : fl (INR n - 1) = INR n - 1).
  { replace (INR n - 1) with (INR (n - 1)) by (rewrite minus_INR by lia; reflexivity). rewrite INR_IZR_INZ. apply fl_int. lia. }
  rewrite E2. 
  assert (E3 : fl (-1 * (INR n - 1)) = - (INR n - 1)).
  { replace (-1 * (INR n - 1)) with (IZR (1 - Z.of_nat n)) by (rewrite minus_IZR, <- INR_IZR_INZ; ring). rewrite fl_int by lia.
    rewrite minus_IZR, <- INR_IZR_INZ. ring. }
  rewrite E3.
  assert (E4 : fl (INR i * 2) = 2 * INR i).
  { replace (INR i * 2) with (IZR (2 * Z.of_nat i)) by (rewrite mult_IZR, <- INR_IZR_INZ; ring). rewrite fl_int by lia.
    rewrite mult_IZR, <- INR_IZR_INZ. ring. }
  now rewrite E4.
Qed.

Lemma point_near dec n i : (i < n)%nat -> (Z.of_nat n <= 2 ^ 52)%Z ->
  Rabs (interp_point (dnum dec) false n i - centre n i) <= 5 * u /\ Rabs (centre n i) <= 1.
Proof.
  intros Hi Hn. destruct (C36_points n i Hi) as (_ & C & _). split; [|apply Rabs_le; lra]. rewrite point_value by assumption.
  assert (N : 0 < INR n) by (apply lt_0_INR; lia). assert (K : INR i + 1 <= INR n) by (rewrite <- S_INR; apply le_INR; lia). pose proof (pos_INR i) as K0.
  set (a0 := - (INR n - 1) / INR n). set (b0 := 2 * INR i / INR n).
  assert (Ec : centre n i = a0 + b0) by (unfold centre, a0, b0; field; lra).
  assert (I0 : 0 < / INR n) by now apply Rinv_0_lt_compat. assert (I1 : INR n * / INR n = 1) by (apply Rinv_r; lra).
  assert (A0 : Rabs a0 <= 1) by (apply Rabs_le; unfold a0, Rdiv; split; nra).
  assert (B0 : Rabs b0 <= 2) by (apply Rabs_le; unfold b0, Rdiv; split; nra).
  pose proof (fl_error a0) as EA. pose proof (fl_error b0) as EB. set (a := fl a0) in *. set (b := fl b0) in *.
  pose proof (fl_sum_error a b (FInt_Proofs.fl_format _) (FInt_Proofs.fl_format _)) as ES.
  pose proof u_pos. pose proof u_small. pose proof tiny_pos. pose proof tiny_small.
  rewrite Ec in *. 
  assert (EAB : Rabs ((a + b) - (a0 + b0)) <= 3 * u + 2 * tiny).
  { replace (a + b - (a0 + b0)) with ((a - a0) + (b - b0)) by ring. apply Rle_trans with (1 := Rabs_triang _ _). nra. }
  assert (MAB : Rabs (a + b) <= 1 + 3 * u + 2 * tiny).
  { replace (a + b) with ((a0 + b0) + ((a + b) - (a0 + b0))) by ring. apply Rle_trans with (1 := Rabs_triang _ _).
    assert (Rabs (a0 + b0) <= 1) by (apply Rabs_le; lra). lra. }
  replace (fl (a + b) - (a0 + b0)) with ((fl (a + b) - (a + b)) + ((a + b) - (a0 + b0))) by ring.
  apply Rle_trans with (1 := Rabs_triang _ _). nra.
Qed.

Lemma points_near dec ns k : in_range ns k -> List.Forall (fun n => (Z.of_nat n <= 2 ^ 52)%Z) ns ->
  near_point (map2 (interp_point (dnum dec) false) ns k) (centres ns k).
Proof.
  unfold in_range, near_point, centres. intros H. induction H as [|i n k ns Hi _ IH]; intros B; [constructor|]. inversion_clear B.
  cbn [map2]. constructor; [now apply point_near|now apply IH].
Qed.

(** One inner product of a computed row with coefficients. *)
Lemma row_error ev fs delta q p x s :
  accurate ev fs delta -> near_point p x -> length q = length fs -> dots (combine (List.map (fun f => ev f p) fs) q) s ->
  format s /\ Rabs (s - expansion q fs x) <= ((1 + u) ^ length fs - 1) * magnitude q fs x + (1 + u) ^ length fs * (delta * abs_sum q + INR (length fs) * tiny).
Proof.
  intros A N L D. destruct (dots_error _ _ D) as (F & _ & E). split; [exact F|].
  assert (LL : length (combine (List.map (fun f => ev f p) fs) q) = length fs) by (rewrite combine_length, map_length; lia). rewrite LL in E.
  assert (B : Rabs (rsum (prods (combine (List.map (fun f => ev f p) fs) q)) - expansion q fs x) <= delta * abs_sum q /\
              absum (prods (combine (List.map (fun f => ev f p) fs) q)) <= magnitude q fs x + delta * abs_sum q).
  { clear D E LL F s. assert (A' : forall f, In f fs -> Rabs (ev f p - evalR f x) <= delta) by (intros f Hf; now apply A). clear A N.
    revert q L. induction fs as [|f fs IH]; intros [|c q] L; try discriminate L.
    - unfold absum, prods, rsum, expansion, abs_sum. cbn. rewrite Rminus_0_r, Rabs_R0. lra.
    - destruct (IH (fun g Hg => A' g (or_intror Hg)) q) as (B1 & B2); [now injection L|]. specialize (A' f (or_introl eq_refl)).
      unfold absum, prods, rsum, expansion, abs_sum in *. cbn [List.map combine fold_right fst snd magnitude] in *.
      set (S1 := fold_right Rplus 0 (List.map (fun p0 : R * R => fst p0 * snd p0) (combine (List.map (fun f0 : pexp => ev f0 p) fs) q))) in *.
      set (S2 := fold_right (fun t s => fst t * evalR (snd t) x + s) 0 (combine q fs)) in *.
      set (S3 := fold_right (fun a s => Rabs a + s) 0 q) in *.
      set (S4 := fold_right Rplus 0 (List.map Rabs (List.map (fun p0 : R * R => fst p0 * snd p0) (combine (List.map (fun f0 : pexp => ev f0 p) fs) q)))) in *.
      set (e := ev f p) in *. set (t := evalR f x) in *. pose proof (Rabs_pos c) as C0. split.
      + replace (e * c + S1 - (c * t + S2)) with (c * (e - t) + (S1 - S2)) by ring. apply Rle_trans with (1 := Rabs_triang _ _). rewrite Rabs_mult. nra.
      + assert (Ea : Rabs e <= Rabs t + delta) by (replace e with (t + (e - t)) by ring; apply Rle_trans with (1 := Rabs_triang _ _); lra).
        rewrite (Rabs_mult e c). nra. }
  destruct B as (B1 & B2). pose proof (pw_ge (length fs)) as G. set (g := (1 + u) ^ length fs) in *.
  set (S1 := rsum _) in *. set (S4 := absum _) in *. set (X := expansion q fs x) in *.
  replace (s - X) with ((s - S1) + (S1 - X)) by ring. apply Rle_trans with (1 := Rabs_triang _ _). nra.
Qed.

Lemma last_value (l : list R) n y : nth_error l n = Some y -> length l = S n -> last l 0 = y.
Proof.
  revert n. induction l as [|x l IH]; intros n H L; cbn [length] in L; [lia|]. destruct l as [|z l].
  - cbn [length] in L. assert (E : n = 0%nat) by lia. subst n. now injection H.
  - destruct n as [|n]; cbn [length] in L; [lia|]. change (last (x :: z :: l) 0) with (last (z :: l) 0). apply (IH n); [exact H|]. cbn [length]. lia.
Qed.

Lemma linspace_format lo up n : spaced lo up n -> List.Forall (fun t => format t) (np_linspace lo up n).
Proof.
  intros (_ & Fu & Hn & _). destruct n as [|n]; [lia|]. unfold np_linspace. apply List.Forall_app. split; [|repeat constructor; exact Fu].
  apply List.Forall_forall. intros t Ht. apply in_map_iff in Ht as (i & <- & _). apply FInt_Proofs.fl_format.
Qed.

(** ** Theorems *)
Section Interpolation.
  Context (dec : nat -> list Z -> R) (dot : list R -> list R -> R) (ev : pexp -> list R -> R) (root : nat -> nat -> nat).
  (** np.tensordot adds in any order; the matrix entries are evaluated with an error of at most [delta]. *)
  Context (Hdot : forall r q, length r = length q -> dots (combine r q) (dot r q)).
  Context (d : dgdata (F := R)) (g : ginterp) (comps cells : list nat) (nc : nat) (fs : list pexp) (delta : R).
  Context (Hev : accurate ev fs delta).
  Context (W : wf (dd_values d)) (Sh : shape (dd_values d) = cells ++ [nc]) (Gd : gi_dims g = length cells) (D : dims_ok (length cells) (gi_basis g))
    (Hh : gi_basis g = "hybrid" -> (2 <= length cells)%nat) (Hfs : interp_functions (gi_dims g) (gi_poly g) true (gi_basis g) = Ok fs)
    (Gn : gi_nodes g = length fs) (Hn : (2 <= gi_interp g)%nat) (Hn' : (Z.of_nat (gi_interp g) < 2 ^ 52)%Z)
    (Hc : comps <> []) (Hcs : forall c, In c comps -> (c * length fs + length fs <= nc)%nat).
  Let ns := refine (length cells) (gi_interp g) (gi_basis g).

  Lemma ns_bound : List.Forall (fun n => (Z.of_nat n <= 2 ^ 52)%Z) ns.
  Proof using Hn'.
    clear - Hn'. unfold ns, refine. apply List.Forall_forall. intros k Hk. apply in_map_iff in Hk as (a & <- & _). destruct (extra_dir _ _); [destruct (Nat.eqb _ _)|]; lia.
  Qed.

  (** Every point of the refined mesh gets a double near the expansion of its cell at the centre of the
      part: one rounding per basis function relative to the terms without signs, the error of the
      matrix times the coefficients, and halves of the smallest double. *)
  Theorem C131_values : exists v, modal_values (dnum dec) dot ev d g comps = Ok v /\ wf v /\
    shape v = refined_shape cells ns ++ [length comps] /\
    forall j c i k, nth_error comps j = Some c -> in_range cells i -> in_range ns k ->
      exists q x, length q = length fs /\
        (forall m, (m < length fs)%nat -> nth_error q m = get (dd_values d) (i ++ [(c * length fs + m)%nat])) /\
        get v (sub_index ns i k ++ [j]) = Some x /\ format x /\
        Rabs (x - expansion q fs (centres ns k)) <=
          ((1 + u) ^ length fs - 1) * magnitude q fs (centres ns k) + (1 + u) ^ length fs * (delta * abs_sum q + INR (length fs) * tiny).
  Proof using Hdot Hev W Sh Gd D Hh Hfs Gn Hn Hn' Hc Hcs.
    destruct (C36_interpolated_fields (dnum dec) dot ev d g comps cells nc fs W Sh Gd D Hh Hfs Gn Hn Hc Hcs) as (v & E & Wv & Sv & V).
    exists v. split; [exact E|]. split; [exact Wv|]. split; [exact Sv|].
    intros j c i k Hj Hi Hk. destruct (V j c i k Hj Hi Hk) as (q & Lq & Vq & G). fold ns in G.
    eexists q, _. split; [exact Lq|]. split; [exact Vq|]. split; [exact G|].
    apply (row_error ev fs delta q (map2 (interp_point (dnum dec) false) ns k)); [exact Hev|apply points_near; [exact Hk|apply ns_bound]|exact Lq|].
    apply Hdot. now rewrite map_length.
  Qed.

  (** Up to 2^52 functions. *)
  Theorem C131_small : (Z.of_nat (length fs) <= 2 ^ 52)%Z -> 0 <= delta ->
    exists v, modal_values (dnum dec) dot ev d g comps = Ok v /\
    forall j c i k, nth_error comps j = Some c -> in_range cells i -> in_range ns k ->
      exists q x, length q = length fs /\
        (forall m, (m < length fs)%nat -> nth_error q m = get (dd_values d) (i ++ [(c * length fs + m)%nat])) /\
        get v (sub_index ns i k ++ [j]) = Some x /\
        Rabs (x - expansion q fs (centres ns k)) <=
          2 * (INR (length fs) * u) * magnitude q fs (centres ns k) + 2 * (delta * abs_sum q + INR (length fs) * tiny).
  Proof using Hdot Hev W Sh Gd D Hh Hfs Gn Hn Hn' Hc Hcs.
    intros HN Hdl. destruct C131_values as (v & E & _ & _ & V). exists v. split; [exact E|].
    intros j c i k Hj Hi Hk. destruct (V j c i k Hj Hi Hk) as (q & x & Lq & Vq & G & _ & B). exists q, x.
    split; [exact Lq|]. split; [exact Vq|]. split; [exact G|]. apply Rle_trans with (1 := B).
    destruct (pw_bound (length fs)) as (B1 & B2).
    { unfold u. rewrite INR_IZR_INZ. apply Rle_trans with (IZR (2 ^ 52) * bpow radix2 (-53)).
      - apply Rmult_le_compat_r; [apply bpow_ge_0|]. now apply IZR_le.
      - change (IZR (2 ^ 52)) with (bpow radix2 52). rewrite <- bpow_plus. cbn. lra. }
    assert (M0 : forall q fs x, 0 <= magnitude q fs x).
    { clear. induction q as [|a q IH]; intros [|f fs] x; cbn [magnitude]; try lra. pose proof (Rabs_pos a). pose proof (Rabs_pos (evalR f x)). specialize (IH fs x). nra. }
    assert (A0 : 0 <= abs_sum q). { clear. unfold abs_sum. induction q as [|a q IH]; cbn [fold_right]; [lra|]. pose proof (Rabs_pos a). lra. }
    pose proof (M0 q fs (centres ns k)). pose proof tiny_pos. pose proof (pos_INR (length fs)).
    apply Rplus_le_compat; [now apply Rmult_le_compat_r|]. apply Rmult_le_compat_r; [|exact B2]. apply Rplus_le_le_0_compat; apply Rmult_le_pos; lra.
  Qed.

  (** With the grid: every line is numpy's linspace between the first and the last node, so its nodes
      are near the edges of the parts (C127). *)
  Theorem C131_interpolate :
    (forall m, root (length cells) (m ^ length cells) = m) -> dd_grid_type d <> "c2p" -> dd_grid_type d <> "c2p_vel" ->
    (forall a c, nth_error cells a = Some c -> exists x lo up, nth_error (dd_grid d) a = Some x /\ length (flat x) = S c /\
       nth_error (flat x) 0 = Some lo /\ nth_error (flat x) c = Some up /\ spaced lo up (nth a ns 0%nat * c)) ->
    exists gr v, modal_interpolate (dnum dec) dot ev root d g comps = Ok (gr, v) /\ modal_values (dnum dec) dot ev d g comps = Ok v /\
      length gr = length cells /\
      forall a c x lo up, nth_error cells a = Some c -> nth_error (dd_grid d) a = Some x ->
        nth_error (flat x) 0 = Some lo -> nth_error (flat x) c = Some up ->
        exists l, nth_error gr a = Some (line_nda l) /\ nth_error l 0 = Some lo /\ last l 0 = up /\ FGrid_Spec.ascending l /\ List.Forall (fun t => format t) l /\
          edges_near lo up (nth a ns 0%nat * c) (slack lo up) l.
  Proof using Hdot Hev W Sh Gd D Hh Hfs Gn Hn Hn' Hc Hcs.
    intros Hroot T1 T2 Hgrid. destruct C131_values as (v & Ev & _).
    assert (Lns : length ns = length cells) by apply refine_length.
    unfold modal_interpolate. rewrite Ev. cbn [bind].
    unfold modal_grid. apply String.eqb_neq in T1, T2. rewrite T1.
    unfold create_interp_matrix. cbn [andb]. rewrite Hfs. cbn [bind].
    pose proof (point_counts_refine (length cells) (gi_interp g) (gi_basis g) D Hh) as PC.
    rewrite Gd, PC. fold ns.
    destruct (rows_of_spec (dnum dec) ev false ns fs) as (Rl & _ & _). rewrite Rl.
    pose proof (grid_counts_refine root g) as GC. rewrite Gd in GC. fold ns in GC.
    rewrite (GC D Hn Hroot). cbn [bind]. rewrite T2.
    set (mesh := fun a => match nth_error (dd_grid d) a with
                          | Some x => np_linspace (hd 0 (flat x)) (last (flat x) 0) (nth a ns 0%nat * nth a cells 0%nat) | None => [] end).
    assert (Ax : forall a c x lo up, nth_error cells a = Some c -> nth_error (dd_grid d) a = Some x -> nth_error (flat x) 0 = Some lo -> nth_error (flat x) c = Some up ->
       length (flat x) = S c -> hd 0 (flat x) = lo /\ last (flat x) 0 = up).
    { intros a c x lo up _ _ H0 H1 L. split.
      - destruct (flat x); [discriminate|]. now injection H0.
      - now apply (last_value _ c). }
    unfold make_1d_grids.
    rewrite (mapM_ok_all _ mesh).
    2:{ intros a Ha. apply in_seq in Ha. destruct (nth_error cells a) as [c|] eqn:Ec; [|apply nth_error_None in Ec; lia].
        destruct (Hgrid a c Ec) as (x & lo & up & Ex & Lx & E0 & E1 & Sp).
        destruct (nth_error ns a) as [n|] eqn:En; [|apply nth_error_None in En; lia].
        rewrite Ex. unfold mesh. rewrite Ex. rewrite (nth_error_nth _ _ 0%nat En), (nth_error_nth _ _ 0%nat Ec). rewrite (nth_error_nth _ _ 0%nat En) in Sp.
        destruct (Ax a c x lo up Ec Ex E0 E1 Lx) as (-> & ->). unfold make_mesh. destruct (flat x) as [|y l] eqn:Ef; [discriminate|].
        injection E0 as ->. destruct (Ax a c x lo up Ec Ex ltac:(rewrite Ef; reflexivity) ltac:(rewrite Ef; exact E1) ltac:(rewrite Ef; exact Lx)) as (_ & El). rewrite Ef in El. cbn [dnum fzero].
        rewrite El, Lx. cbn [Nat.sub]. rewrite Nat.sub_0_r. now rewrite same_formula. }
    cbn [bind]. eexists _, v. split; [reflexivity|]. split; [reflexivity|]. split; [rewrite !map_length, seq_length; reflexivity|].
    intros a c x lo up Ec Ex E0 E1. destruct (Hgrid a c Ec) as (x' & lo' & up' & Ex' & Lx & E0' & E1' & Sp).
    assert (x' = x) by congruence. subst x'. assert (lo' = lo) by congruence. assert (up' = up) by congruence. subst lo' up'.
    assert (Ha : (a < length cells)%nat) by (apply nth_error_Some; congruence).
    exists (np_linspace lo up (nth a ns 0%nat * c)). split.
    - rewrite !nth_error_map, nth_error_seq. destruct (Nat.ltb_spec a (length cells)); [|lia]. cbn [option_map Nat.add].
      unfold mesh. rewrite Ex. destruct (Ax a c x lo up Ec Ex E0 E1 Lx) as (-> & ->). now rewrite (nth_error_nth _ _ 0%nat Ec).
    - destruct (C127_linspace lo up _ Sp) as (H0 & H1 & H2 & H3). split; [exact H0|]. split; [|split; [exact H2|split; [now apply linspace_format|exact H3]]].
      destruct H3 as (L & _). now apply (last_value _ _ _ H1).
  Qed.
End Interpolation.

(** The points of the matrix: within five units of 2^-53 of the centres of the parts of [-1, 1]. *)
Theorem C131_points dec n i : (i < n)%nat -> (Z.of_nat n <= 2 ^ 52)%Z -> Rabs (interp_point (dnum dec) false n i - centre n i) <= 5 * u.
Proof. intros Hi Hn. now apply point_near. Qed.

(** ** Examples *)
(** The table of order one in one dimension, evaluated with one rounding; products added from the right. *)
Definition fev (f : pexp) (p : list R) : R := fl (evalR f p).
Definition cdot (r q : list R) : R := chain (combine r q).
Lemma cdot_ok r q : length r = length q -> dots (combine r q) (cdot r q).
Proof. intros _. apply chain_dots. Qed.

Lemma fev_accurate : accurate fev it_d1_modal_o1 (8 * u).
Proof.
  intros f p x Hf N. unfold fev. pose proof (fl_error (evalR f p)) as E.
  pose proof u_pos. pose proof u_small. pose proof tiny_pos. pose proof tiny_small.
  destruct Hf as [<-|[<-|[]]]; cbn [evalR] in *.
  - set (c := lit _ _) in *. assert (C : Rabs c <= 1) by (unfold c, lit; apply Rabs_le; lra). nra.
  - set (c := lit _ _) in *. assert (C : 0 <= c <= 1.25) by (unfold c, lit; lra).
    assert (P : Rabs (nth 0 p 0 - nth 0 x 0) <= 5 * u /\ Rabs (nth 0 x 0) <= 1).
    { destruct N as [|a b p x (H1' & H2') _]; cbn [nth]; [rewrite Rminus_0_r, Rabs_R0; lra|]. now split. }
    set (a := nth 0 p 0) in *. set (b := nth 0 x 0) in *. destruct P as (P1 & P2).
    assert (Pa : Rabs a <= 1 + 5 * u) by (replace a with (b + (a - b)) by ring; apply Rle_trans with (1 := Rabs_triang _ _); lra).
    replace (fl (c * a) - c * b) with ((fl (c * a) - c * a) + c * (a - b)) by ring. apply Rle_trans with (1 := Rabs_triang _ _).
    rewrite (Rabs_mult c a), (Rabs_right c) in E by lra. rewrite (Rabs_mult c (a - b)), (Rabs_right c) by lra.
    pose proof (Rabs_pos a). pose proof (Rabs_pos (a - b)).
    assert (G1 : c * Rabs (a - b) <= 1.25 * (5 * u)) by (apply Rmult_le_compat; lra).
    assert (G2 : c * Rabs a <= 1.25 * 1.01) by (apply Rmult_le_compat; lra).
    assert (G3 : u * (c * Rabs a) <= u * (1.25 * 1.01)) by (apply Rmult_le_compat_l; lra). lra.
Qed.

(** The two rounded entries of the row of the left point, and the cell whose coefficients cancel there. *)
Definition c0_ : Q := Qmake 7071067811865468 10000000000000000.
Definition c1_ : Q := Qmake 1224744871391589 2000000000000000.
Definition m0 : Q := qfl c0_.
Definition m1 : Q := qfl c1_.
Definition zdec (n : nat) (b : list Z) : R := 0.
Definition ex_file : dgdata := line_d 2 (List.map Q2R [m1; m0; 1; 0]%Q) [0; 1; 2].

Lemma left_point : map2 (interp_point (dnum zdec) false) [2%nat] [0%nat] = [-1 / 2].
Proof.
  cbn [map2]. f_equal. rewrite point_value by lia. change (INR 2) with (1 + 1). change (INR 0) with 0.
  replace (- (1 + 1 - 1) / (1 + 1)) with (Q2R (Qmake (-1) 2)) by (unfold Q2R; cbn; lra).
  replace (2 * 0 / (1 + 1)) with (Q2R 0) by (unfold Q2R; cbn; lra).
  rewrite <- !C112_rounding, <- Q2R_plus, <- C112_rounding.
  replace (-1 / 2) with (Q2R (Qmake (-1) 2)) by (unfold Q2R; cbn; lra). apply Qeq_eqR. vm_compute. reflexivity.
Qed.

Example C131_hyps :
  wf (dd_values ex_file) /\ shape (dd_values ex_file) = [2%nat] ++ [2%nat] /\ gi_dims line_g = 1%nat /\ dims_ok 1 (gi_basis line_g) /\
  interp_functions (gi_dims line_g) (gi_poly line_g) true (gi_basis line_g) = Ok it_d1_modal_o1 /\ gi_nodes line_g = length it_d1_modal_o1 /\
  (2 <= gi_interp line_g)%nat /\ (Z.of_nat (gi_interp line_g) < 2 ^ 52)%Z /\ accurate fev it_d1_modal_o1 (8 * u) /\
  (forall a c, nth_error [2%nat] a = Some c -> exists x lo up, nth_error (dd_grid ex_file) a = Some x /\ length (flat x) = S c /\
     nth_error (flat x) 0 = Some lo /\ nth_error (flat x) c = Some up /\ spaced lo up (nth a (refine 1 2 "serendipity") 0%nat * c)) /\
  (forall m, iroot 1 (m ^ 1) = m).
Proof.
  split; [reflexivity|]. split; [reflexivity|]. split; [reflexivity|]. split; [split; [cbn; lia|discriminate]|]. split; [reflexivity|]. split; [reflexivity|].
  split; [cbn; lia|]. split; [cbn; lia|]. split; [exact fev_accurate|]. split.
  - intros a c H. destruct a as [|[|a]]; try discriminate H. injection H as <-. exists (mk_nda [3%nat] [0; 1; 2]), 0, 2.
    split; [reflexivity|]. split; [reflexivity|]. split; [reflexivity|]. split; [reflexivity|].
    change (nth 0 (refine 1 2 "serendipity") 0 * 2)%nat with 4%nat.
    split; [apply (int_format 0); lia|]. split; [apply (int_format 2); lia|]. split; [lia|]. split; [lia|].
    replace ((2 - 0) / INR 4) with (bpow radix2 (-1)) by (cbn; lra). apply bpow_le. lia.
  - intros m. apply iroot_pow. lia.
Qed.

(** Only the terms without signs bound the error: where they cancel, the value computed is 0 and the
    expansion is not, so no bound relative to the expansion holds. *)
Theorem C131_relative_refuted : exists dec dot ev d g fs v q,
  (forall r q, length r = length q -> dots (combine r q) (dot r q)) /\ accurate ev fs (8 * u) /\
  interp_functions (gi_dims g) (gi_poly g) true (gi_basis g) = Ok fs /\
  modal_values (dnum dec) dot ev d g [0%nat] = Ok v /\ length q = length fs /\
  (forall m, (m < length fs)%nat -> nth_error q m = get (dd_values d) ([0%nat] ++ [m])) /\
  get v (sub_index [2%nat] [0%nat] [0%nat] ++ [0%nat]) = Some 0 /\
  expansion q fs (centres [2%nat] [0%nat]) <> 0.
Proof.
  destruct C131_hyps as (H1 & H2 & H3 & H4 & H5 & H6 & H7 & H8 & H9 & _).
  destruct (C36_interpolated_fields (dnum zdec) cdot fev ex_file line_g [0%nat] [2%nat] 2 it_d1_modal_o1 H1 H2 H3 H4 ltac:(discriminate) H5 H6 H7 ltac:(discriminate)) as (v & E & _ & _ & V).
  { intros c [<-|[]]. cbn. lia. }
  destruct (V 0%nat 0%nat [0%nat] [0%nat] eq_refl) as (q & Lq & Vq & G); [repeat constructor; lia|repeat constructor; cbn; lia|].
  assert (Eq : q = [Q2R m1; Q2R m0]).
  { destruct q as [|a [|b [|c q]]]; try discriminate Lq.
    pose proof (Vq 0%nat ltac:(cbn; lia)) as A. pose proof (Vq 1%nat ltac:(cbn; lia)) as B. injection A as ->. injection B as ->. reflexivity. }
  exists zdec, cdot, fev, ex_file, line_g, it_d1_modal_o1, v, q.
  split; [exact cdot_ok|]. split; [exact H9|]. split; [exact H5|]. split; [exact E|]. split; [exact Lq|]. split; [exact Vq|].
  change (refine (length [2%nat]) (gi_interp line_g) (gi_basis line_g)) with [2%nat] in G. rewrite left_point in G. subst q. split.
  - rewrite G. f_equal. unfold it_d1_modal_o1, fev, cdot. cbn [List.map evalR nth combine chain]. unfold lit.
    replace (IZR 7071067811865468 / 10 ^ 16) with (Q2R c0_) by (unfold Q2R, c0_; cbn; lra).
    replace (IZR 1224744871391589 / 10 ^ 15 * (-1 / 2)) with (Q2R (- c1_)) by (unfold Q2R, c1_; cbn; lra).
    rewrite <- !C112_rounding, <- !Q2R_mult, <- !C112_rounding, <- Q2R_plus, <- C112_rounding.
    replace 0 with (Q2R 0) by (unfold Q2R; cbn; lra). apply Qeq_eqR. vm_compute. reflexivity.
  - unfold expansion, it_d1_modal_o1. cbn [combine fold_right fst snd evalR centres map2 nth]. unfold lit, centre. change (INR 2) with (1 + 1). change (INR 0) with 0.
    intros C. assert (C' : Q2R (m1 * c0_ - m0 * c1_)%Q = Q2R 0).
    { rewrite Q2R_minus, !Q2R_mult. revert C. generalize (Q2R m0) (Q2R m1). intros a b C. unfold Q2R, c0_, c1_. cbn. cbn in C. lra. }
    apply eqR_Qeq in C'. vm_compute in C'. discriminate.
Qed.

Example C131_example : exists gr v, modal_interpolate (dnum zdec) cdot fev iroot ex_file line_g [0%nat] = Ok (gr, v) /\ length gr = 1%nat /\
  exists l, nth_error gr 0 = Some (line_nda l) /\ nth_error l 0 = Some 0 /\ last l 0 = 2 /\ edges_near 0 2 4 (slack 0 2) l.
Proof.
  destruct C131_hyps as (H1 & H2 & H3 & H4 & H5 & H6 & H7 & H8 & H9 & H10 & H11).
  destruct (C131_interpolate zdec cdot fev iroot cdot_ok ex_file line_g [0%nat] [2%nat] 2 it_d1_modal_o1 (8 * u) H9 H1 H2 H3 H4 ltac:(discriminate) H5 H6 H7 H8 ltac:(discriminate))
    as (gr & v & E & _ & L & G); [intros c [<-|[]]; cbn; lia|exact H11|discriminate|discriminate|exact H10|].
  exists gr, v. split; [exact E|]. split; [exact L|].
  destruct (G 0%nat 2%nat (mk_nda [3%nat] [0; 1; 2]) 0 2 eq_refl eq_refl eq_refl eq_refl) as (l & A & B & C & _ & _ & D). exists l. split; [exact A|]. split; [exact B|]. split; [exact C|exact D].
Qed.

Print Assumptions C131_values.
Print Assumptions C131_small.
Print Assumptions C131_interpolate.
Print Assumptions C131_points.
Print Assumptions C131_relative_refuted.
