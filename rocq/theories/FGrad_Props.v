(** * C133 (continued): gradients in double precision *)
From Coq Require Import String List Arith ZArith Bool Lia QArith Qreals Reals Lra Psatz Permutation.
From Flocq Require Import Core.
From Coquelicot Require Import Coquelicot.
From Verif Require Import Prelude PreludeFacts NdArray Tools_Arr Gkyl_Model Gkyl_Proofs3 Calc_Spec Float_Model Float_Props FloatQ_Model FloatQ_Props FGrid_Model FGrid_Spec FGrid_Proofs FGrid_Props
  FInt_Model FInt_Spec FInt_Proofs FInt_Props
  Dg_Poly Dg_TabI Dg_TabD Dg_Model Dg_Spec Dg_Proofs Dg_Proofs2 Dg_Props Dg_Props2 Dg_Props3 Dg_Sem Dg_Gram Dg_Props5 FDg_Spec FDg_Props FSlope_Props.
Import ListNotations.
Open Scope string_scope. Open Scope list_scope. Open Scope R_scope.

(** The product with a rounded quotient. *)
Lemma factor_error S E err w w0 : 0 < w0 -> Rabs (w - w0) <= u * w0 -> Rabs (S - E) <= err ->
  Rabs (fl (S * fl (2 / w)) - E * 2 / w0) <= 5 * u * Rabs (E * 2 / w0) + (1 + 5 * u) * (2 / w0 * err) + (2 * (Rabs E + err) + 1) * tiny.
Proof.
  intros P Hw HS. pose proof u_pos as U0. pose proof u_small as U1. pose proof tiny_pos as Y0. apply Rabs_le_inv in Hw.
  assert (Pw : (1 - u) * w0 <= w) by lra. assert (Pw0 : 0 < w) by nra.
  pose proof (Rabs_pos (S - E)) as E0. assert (Er0 : 0 <= err) by lra.
  set (D := E * 2 / w0). set (X := S * 2 / w).
  set (r := w0 / w). assert (R0 : 0 < r) by (apply Rdiv_lt_0_compat; assumption).
  assert (Rw : r * w = w0) by (unfold r; field; lra).
  assert (R1 : r <= 1 + 2 * u) by nra. assert (R2 : 1 - 2 * u <= r) by nra.
  assert (EX : X = D * r + (S - E) * (2 / w0) * r) by (unfold X, D, r; field; lra).
  assert (Q0 : 0 < 2 / w0) by (apply Rdiv_lt_0_compat; lra). set (t := 2 / w0 * err).
  assert (T0 : 0 <= t) by (unfold t; apply Rmult_le_pos; lra).
  assert (A1 : Rabs ((S - E) * (2 / w0) * r) <= t * (1 + 2 * u)).
  { rewrite !Rabs_mult, (Rabs_right (2 / w0)), (Rabs_right r) by lra. unfold t. apply Rmult_le_compat; [apply Rmult_le_pos; lra|lra| |exact R1].
    rewrite (Rmult_comm (2 / w0)). apply Rmult_le_compat_r; lra. }
  assert (A2 : Rabs (D * r) <= Rabs D * (1 + 2 * u)) by (rewrite Rabs_mult, (Rabs_right r) by lra; apply Rmult_le_compat_l; [apply Rabs_pos|exact R1]).
  assert (A3 : Rabs (D * r - D) <= Rabs D * (2 * u)).
  { replace (D * r - D) with (D * (r - 1)) by ring. rewrite Rabs_mult. apply Rmult_le_compat_l; [apply Rabs_pos|]. apply Rabs_le. lra. }
  assert (AX : Rabs X <= (Rabs D + t) * (1 + 2 * u)) by (rewrite EX; apply Rle_trans with (1 := Rabs_triang _ _); lra).
  set (y := fl (2 / w)). pose proof (fl_error (2 / w)) as Fy. fold y in Fy. pose proof (fl_error (S * y)) as Fx.
  assert (V : Rabs (2 / w) = 2 / w) by (apply Rabs_right; left; apply Rdiv_lt_0_compat; lra). rewrite V in Fy.
  assert (SX : Rabs S * (2 / w) = Rabs X) by (unfold X, Rdiv; rewrite Rmult_assoc, Rabs_mult; f_equal; symmetry; exact V).
  assert (B1 : Rabs (S * y - X) <= u * Rabs X + Rabs S * tiny).
  { replace (S * y - X) with (S * (y - 2 / w)) by (unfold X; field; lra). rewrite Rabs_mult.
    apply Rle_trans with (Rabs S * (u * (2 / w) + tiny)); [apply Rmult_le_compat_l; [apply Rabs_pos|exact Fy]|]. rewrite <- SX. lra. }
  assert (B2 : Rabs (S * y) <= Rabs X + (u * Rabs X + Rabs S * tiny)).
  { replace (S * y) with (X + (S * y - X)) by ring. apply Rle_trans with (1 := Rabs_triang _ _). lra. }
  assert (BS : Rabs S <= Rabs E + err) by (replace S with (E + (S - E)) by ring; apply Rle_trans with (1 := Rabs_triang _ _); lra).
  replace (fl (S * y) - D) with ((fl (S * y) - S * y) + ((S * y - X) + ((D * r - D) + (S - E) * (2 / w0) * r))) by (rewrite EX; ring).
  apply Rle_trans with (1 := Rabs_triang _ _). pose proof (Rabs_triang (S * y - X) (D * r - D + (S - E) * (2 / w0) * r)) as G1.
  pose proof (Rabs_triang (D * r - D) ((S - E) * (2 / w0) * r)) as G.
  assert (C1 : u * Rabs (S * y) <= u * (Rabs X + (u * Rabs X + Rabs S * tiny))) by (apply Rmult_le_compat_l; lra).
  pose proof (Rabs_pos D) as D0. pose proof (Rabs_pos S) as S0. pose proof (Rabs_pos X) as X0. set (a := Rabs D) in *. set (b := Rabs X) in *. set (s := Rabs S) in *. set (m := Rabs E + err) in *.
  assert (Ub : u * (u * b) <= / 1024 * (u * b)) by (apply Rmult_le_compat_r; [apply Rmult_le_pos; lra|exact U1]).
  assert (Us : u * (s * tiny) <= 1 * (s * tiny)) by (apply Rmult_le_compat_r; [apply Rmult_le_pos; lra|lra]).
  assert (Um : s * tiny <= m * tiny) by (apply Rmult_le_compat_r; lra).
  assert (Ux : u * b <= u * ((a + t) * (1 + 2 * u))) by (apply Rmult_le_compat_l; lra).
  assert (Uu : u * (u * (a + t)) <= / 1024 * (u * (a + t))) by (apply Rmult_le_compat_r; [apply Rmult_le_pos; lra|exact U1]).
  assert (0 <= u * a) by (apply Rmult_le_pos; lra). assert (0 <= u * t) by (apply Rmult_le_pos; lra).
  replace (u * ((a + t) * (1 + 2 * u))) with (u * a + u * t + 2 * (u * (u * (a + t)))) in Ux by ring.
  replace (u * (a + t)) with (u * a + u * t) in Uu by ring. lra.
Qed.

(** Half of the slope: the quotient without the factor two. *)
Lemma half_error S E err w w0 : 0 < w0 -> Rabs (w - w0) <= u * w0 -> Rabs (S - E) <= err ->
  Rabs (fl (S / w) - (E * 2 / w0) / 2) <= 2 * u * Rabs (E * 2 / w0) + (1 + 4 * u) * (err / w0) + tiny.
Proof.
  intros P Hw HS. pose proof (slope_error (S / 2) (E / 2) (err / 2) w w0 P Hw) as H.
  replace (S / 2 * 2 / w) with (S / w) in H by (unfold Rdiv; field_simplify_eq; try ring; intros ->; apply Rabs_le_inv in Hw; pose proof u_small; nra).
  replace (E / 2 * 2 / w0) with ((E * 2 / w0) / 2) in H by (field; lra). replace (2 / w0 * (err / 2)) with (err / w0) in H by (field; lra).
  replace (Rabs ((E * 2 / w0) / 2)) with (Rabs (E * 2 / w0) / 2) in H by (unfold Rdiv; rewrite (Rabs_mult _ (/ 2)), (Rabs_right (/ 2)) by lra; reflexivity).
  apply Rle_trans with (1 := H ltac:(replace (S / 2 - E / 2) with ((S - E) * / 2) by lra; rewrite Rabs_mult, (Rabs_right (/ 2)) by lra; lra)). lra.
Qed.

Section Gradient.
  Context (dec : nat -> list Z -> R) (dot : list R -> list R -> R) (ev : pexp -> list R -> R).
  (** np.tensordot adds in any order. *)
  Context (Hdot : forall r q, length r = length q -> dots (combine r q) (dot r q)).
  Context (d : dgdata (F := R)) (g : ginterp) (cells : list nat) (nc c : nat) (fs : list pexp) (delta : R).
  Context (W : wf (dd_values d)) (Sh : shape (dd_values d) = cells ++ [nc]) (Gd : gi_dims g = length cells) (L1 : (1 <= length cells)%nat)
    (B1 : gi_basis g <> "gkhybrid") (B2 : gi_basis g <> "hybrid") (Hfs : deriv_functions (gi_dims g) (gi_poly g) true (gi_basis g) = Ok fs)
    (Gn : gi_nodes g = length fs) (Hn : (2 <= gi_interp g)%nat) (Hn' : (Z.of_nat (gi_interp g) < 2 ^ 52)%Z) (Hc : (c * length fs + length fs <= nc)%nat).
  (** The derivatives along all axes are evaluated with an error of at most [delta]; the first cell
      along axis [k] is from [lo0 k] to [hi0 k]. *)
  Context (Hev : forall k, (k < length cells)%nat -> accurate ev (List.map (pdiff k) fs) delta) (lo0 hi0 : nat -> R)
    (Hgrid : forall k, (k < length cells)%nat -> exists gk, nth_error (dd_grid d) k = Some gk /\
       nth_error (flat gk) 0 = Some (lo0 k) /\ nth_error (flat gk) 1 = Some (hi0 k) /\ format (lo0 k) /\ format (hi0 k) /\ lo0 k < hi0 k).
  Let ns := repeat (gi_interp g) (length cells).

  Definition dpart k :=
    let* cm := create_deriv_matrix (dnum dec) ev (gi_dims g) (gi_poly g) (gi_basis g) (gi_interp g) true k in
    interp_on_mesh (dnum dec) dot cm (raw_modal (dd_values d) (gi_nodes g) c) (gi_interp g) (gi_basis g) false.
  (** The error of an inner product, as in C131. *)
  Definition row_bound (q : list R) (k : nat) (s : list nat) : R :=
    ((1 + u) ^ length fs - 1) * magnitude q (List.map (pdiff k) fs) (centres ns s) + (1 + u) ^ length fs * (delta * abs_sum q + INR (length fs) * tiny).

  Lemma dpart_ok k : (k < length cells)%nat ->
    exists o, dpart k = Ok o /\ wf o /\ shape o = refined_shape cells ns /\
      forall i s, in_range cells i -> in_range ns s ->
        exists q x, length q = length fs /\
          (forall m, (m < length fs)%nat -> nth_error q m = get (dd_values d) (i ++ [(c * length fs + m)%nat])) /\
          get o (sub_index ns i s) = Some x /\ format x /\ Rabs (x - expansion q (List.map (pdiff k) fs) (centres ns s)) <= row_bound q k s.
  Proof using Hdot W Sh Gd L1 B1 B2 Hfs Gn Hn Hn' Hc Hev.
    intros Hk. unfold dpart, create_deriv_matrix. rewrite Hfs. cbn [bind]. rewrite Gn.
    destruct (C33_modal (dd_values d) cells nc (length fs) c W Sh Hc) as (Wr & Sr & Vr).
    assert (D : dims_ok (length cells) (gi_basis g)) by (split; [exact L1|contradiction]).
    assert (Er : refine (length cells) (gi_interp g) (gi_basis g) = ns) by (apply refine_plain; assumption).
    rewrite Gd. fold ns.
    destruct (rows_of_spec (dnum dec) ev false ns (List.map (pdiff k) fs)) as (Rl & Rr & Rn).
    set (cmat := rows_of (dnum dec) ev false ns (List.map (pdiff k) fs)) in *.
    destruct (C31_value (dnum dec) dot cmat _ (gi_interp g) (gi_basis g) cells (length fs) Wr Sr D Hn) as (o & Eo & Wo & So & Vo).
    { rewrite Er. exact Rl. }
    { intros row Hrow. rewrite (Rr row Hrow). apply map_length. }
    rewrite Er in *. exists o. split; [exact Eo|]. split; [exact Wo|]. split; [exact So|].
    intros i s Hi Hs. destruct (Vo i s Hi Hs) as (row & q & Erow & Lq & Vq & Go).
    rewrite Rn in Erow by auto. injection Erow as <-.
    assert (Bn : List.Forall (fun n => (Z.of_nat n <= 2 ^ 52)%Z) ns) by (apply List.Forall_forall; intros n Hin; apply repeat_spec in Hin; lia).
    eexists q, _. split; [exact Lq|]. split; [intros m Hm; rewrite Vq by auto; apply Vr; auto|]. split; [exact Go|].
    unfold row_bound. rewrite <- (map_length (pdiff k) fs).
    apply (row_error ev (List.map (pdiff k) fs) delta q (map2 (interp_point (dnum dec) false) ns s)); [now apply Hev|now apply points_near|now rewrite map_length|].
    apply Hdot. rewrite !map_length. congruence.
  Qed.

  (** Without a direction: component [k] is near the derivative along axis [k], except that component
      0 is near half of it. *)
  Theorem C133_gradient : exists v, modal_diff_values (dnum dec) dot ev d g None c = Ok v /\ wf v /\ shape v = refined_shape cells ns ++ [length cells] /\
    forall i s k, in_range cells i -> in_range ns s -> (k < length cells)%nat ->
      exists q x D, length q = length fs /\
        (forall m, (m < length fs)%nat -> nth_error q m = get (dd_values d) (i ++ [(c * length fs + m)%nat])) /\
        get v (sub_index ns i s ++ [k]) = Some x /\ format x /\
        (forall lo hi, hi - lo = hi0 k - lo0 k ->
           is_derive (fun x => expansion q fs (set_nth k (2 * (x - lo) / (hi - lo) - 1) (centres ns s))) (lo + (nth k (centres ns s) 0 + 1) / 2 * (hi - lo)) D) /\
        (k = 0%nat -> Rabs (x - D / 2) <= 2 * u * Rabs D + (1 + 4 * u) * (row_bound q k s / (hi0 k - lo0 k)) + tiny) /\
        (k <> 0%nat -> Rabs (x - D) <= 5 * u * Rabs D + (1 + 5 * u) * (2 / (hi0 k - lo0 k) * row_bound q k s)
                                       + (Rabs D * (hi0 k - lo0 k) + 2 * row_bound q k s + 1) * tiny).
  Proof using Hdot W Sh Gd L1 B1 B2 Hfs Gn Hn Hn' Hc Hev Hgrid.
    set (w := fun k => fl (hi0 k - lo0 k)).
    assert (Hw : forall k, (k < length cells)%nat -> cell_width (dnum dec) d k = Ok (w k)).
    { intros k Hk. destruct (Hgrid k Hk) as (gk & E & E0 & E1 & _). unfold cell_width. rewrite E. destruct (flat gk) as [|a [|b l]]; try discriminate.
      cbn in E0, E1. injection E0 as ->. injection E1 as ->. reflexivity. }
    unfold modal_diff_values.
    set (P := fun k => match dpart k with Ok o => o | Err _ => mk_nda [] [] end).
    assert (PP : forall k, (k < length cells)%nat -> dpart k = Ok (P k) /\ wf (P k) /\ shape (P k) = refined_shape cells ns /\
      forall i s, in_range cells i -> in_range ns s ->
        exists q x, length q = length fs /\
          (forall m, (m < length fs)%nat -> nth_error q m = get (dd_values d) (i ++ [(c * length fs + m)%nat])) /\
          get (P k) (sub_index ns i s) = Some x /\ format x /\ Rabs (x - expansion q (List.map (pdiff k) fs) (centres ns s)) <= row_bound q k s).
    { intros k Hk. destruct (dpart_ok k Hk) as (o & E & Rest). unfold P. rewrite E. split; [reflexivity|exact Rest]. }
    destruct (PP 0%nat ltac:(lia)) as (Eo0 & _). pose proof Eo0 as Eo0'. unfold dpart in Eo0'. rewrite Eo0'. clear Eo0'. cbn [bind].
    rewrite (Hw 0%nat) by lia. cbn [bind].
    set (h0 := fun a => fdiv (dnum dec) a (w 0%nat)). set (hk := fun w a => fmul (dnum dec) a (fdiv (dnum dec) (fnat (dnum dec) 2) w)).
    set (scaled := fun k => map_nda (if Nat.eqb k 0 then h0 else hk (w k)) (P k)).
    assert (SC : forall k, (k < length cells)%nat -> wf (scaled k) /\ shape (scaled k) = refined_shape cells ns).
    { intros k Hk. destruct (PP k Hk) as (_ & Wp & Sp & _). destruct (map_nda_ok (if Nat.eqb k 0 then h0 else hk (w k)) (P k) Wp) as (A & B & _).
      split; [exact A|]. unfold scaled. rewrite B. exact Sp. }
    destruct (SC 0%nat ltac:(lia)) as (SW0 & SS0).
    destruct (new_axis_ok (scaled 0%nat) SW0) as (Wn & Sn & Vn). rewrite SS0 in Sn, Vn.
    match goal with |- context [fold_left ?st _ (Ok ?a0)] => set (step := st); replace a0 with (new_axis (scaled 0%nat)) by reflexivity end.
    assert (Gen : forall m j vals, wf vals -> shape vals = refined_shape cells ns ++ [j] -> (1 <= j)%nat -> (j + m = length cells)%nat ->
       (forall k x, (k < j)%nat -> in_range (refined_shape cells ns) x -> get vals (x ++ [k]) = get (scaled k) x) ->
       exists v, fold_left step (seq j m) (Ok vals) = Ok v /\ wf v /\ shape v = refined_shape cells ns ++ [length cells] /\
         forall k x, (k < length cells)%nat -> in_range (refined_shape cells ns) x -> get v (x ++ [k]) = get (scaled k) x).
    { induction m as [|m IH]; intros j vals Wv Sv Hj Hm V.
      - cbn [seq fold_left]. exists vals. rewrite Nat.add_0_r in Hm. subst j. auto.
      - cbn [seq fold_left].
        assert (Hst : step (Ok vals) j = append_comp (dnum dec) vals (scaled j)).
        { unfold step. cbn [bind]. destruct (PP j ltac:(lia)) as (Ej & _). pose proof Ej as Ej'. unfold dpart in Ej'. rewrite Ej'. clear Ej'. cbn [bind].
          rewrite (Hw j) by lia. cbn [bind]. unfold scaled. destruct (Nat.eqb_spec j 0); [lia|]. reflexivity. }
        destruct (SC j ltac:(lia)) as (SWj & SSj).
        rewrite Hst. destruct (append_comp_ok (dnum dec) vals (scaled j) (refined_shape cells ns) j Wv SWj Sv SSj) as (o1 & E1 & W1 & S1 & A1 & C1). rewrite E1.
        apply IH; auto; try lia. intros k x Hk Hx. destruct (Nat.eq_dec k j) as [->|N]; [apply C1; exact Hx|].
        rewrite A1 by (auto; lia). apply V; auto; lia. }
    rewrite Gd. destruct (Gen (length cells - 1)%nat 1%nat (new_axis (scaled 0%nat)) Wn Sn (le_n 1) ltac:(lia)) as (v & Ev & Wv & Sv & Vv).
    { intros k x Hk Hx. replace k with 0%nat by lia. apply Vn. exact Hx. }
    exists v. split; [exact Ev|]. split; [exact Wv|]. split; [exact Sv|].
    intros i s k Hi Hs Hk.
    assert (Lns : length ns = length cells) by apply repeat_length.
    assert (Rx : in_range (refined_shape cells ns) (sub_index ns i s)) by (apply sub_index_in_range; auto).
    destruct (PP k Hk) as (_ & Wp & _ & Vk). destruct (Vk i s Hi Hs) as (q & S & Lq & Vq & Gk & FS & ES).
    destruct (Hgrid k Hk) as (gk & _ & _ & _ & F0 & F1 & Hlt).
    assert (Ew : Rabs (w k - (hi0 k - lo0 k)) <= u * (hi0 k - lo0 k)).
    { unfold w. rewrite <- (Rabs_pos_eq (hi0 k - lo0 k)) at 3 by lra. now apply fl_minus_error. }
    assert (Pw : 0 < hi0 k - lo0 k) by lra.
    set (E := expansion q (List.map (pdiff k) fs) (centres ns s)) in *.
    exists q, ((if Nat.eqb k 0 then h0 else hk (w k)) S), (E * 2 / (hi0 k - lo0 k)). split; [exact Lq|]. split; [exact Vq|]. split; [|split; [|split; [|split]]].
    - rewrite Vv by auto. unfold scaled. destruct (map_nda_ok (if Nat.eqb k 0 then h0 else hk (w k)) (P k) Wp) as (_ & _ & M). rewrite M, Gk. reflexivity.
    - destruct (Nat.eqb k 0); apply FInt_Proofs.fl_format.
    - intros lo hi Ed. rewrite <- Ed. apply physical_derive; [eapply const_div_tables; eauto| |lra].
      unfold centres. rewrite map2_length. pose proof (Forall2_length _ _ _ Hs) as L. rewrite L, Nat.min_id, Lns. exact Hk.
    - intros Ek. rewrite Ek in *. cbn [Nat.eqb]. unfold h0. cbn [dnum fdiv]. now apply half_error.
    - intros Nk. destruct (Nat.eqb_spec k 0); [contradiction|]. unfold hk, fnat. cbn [dnum fdiv fmul fofZ]. change (IZR (Z.of_nat 2)) with 2.
      rewrite (fl_id 2) by (apply (int_format 2); lia). apply Rle_trans with (1 := factor_error S E (row_bound q k s) (w k) (hi0 k - lo0 k) Pw Ew ES).
      assert (EE : Rabs E = Rabs (E * 2 / (hi0 k - lo0 k)) * (hi0 k - lo0 k) / 2).
      { set (z := hi0 k - lo0 k) in *. replace (Rabs (E * 2 / z)) with (Rabs E * (2 / z)); [field; lra|].
        unfold Rdiv. rewrite !Rmult_assoc, (Rabs_mult E). f_equal. symmetry. apply Rabs_right. left. apply Rmult_lt_0_compat; [lra|now apply Rinv_0_lt_compat]. }
      rewrite EE. set (z := Rabs (E * 2 / (hi0 k - lo0 k)) * (hi0 k - lo0 k)).
      replace (2 * (z / 2 + row_bound q k s) + 1) with (z + 2 * row_bound q k s + 1) by lra. apply Rle_refl.
  Qed.
End Gradient.

(** The file of C131 without a direction. *)
Example C133_gradient_example : exists v x D, modal_diff_values (dnum zdec) cdot fev ex_file line_g None 0%nat = Ok v /\ NdArray.get v [0%nat; 0%nat] = Some x /\
  is_derive (fun y => expansion [Q2R m1; Q2R m0] dt_d1_modal_o1 [2 * (y - 0) / (1 - 0) - 1]) (/ 4) D /\
  Rabs (x - D / 2) <= 2 * u * Rabs D + (1 + 4 * u) * (row_bound line_g [2%nat] dt_d1_modal_o1 (4 * u) [Q2R m1; Q2R m0] 0 [0%nat] / (1 - 0)) + tiny.
Proof.
  destruct C131_hyps as (H1 & H2 & H3 & _ & _ & _ & H7 & H8 & _).
  destruct (C133_gradient zdec cdot fev cdot_ok ex_file line_g [2%nat] 2 0 dt_d1_modal_o1 (4 * u) H1 H2 H3 (le_n 1) ltac:(discriminate) ltac:(discriminate) eq_refl eq_refl H7 H8 (le_n 2)) with (lo0 := fun _ : nat => 0) (hi0 := fun _ : nat => 1)
    as (v & E & _ & _ & V).
  - intros k Hk. assert (k = 0%nat) as -> by (cbn in Hk; lia). exact slopes_accurate.
  - intros k Hk. assert (k = 0%nat) as -> by (cbn in Hk; lia). exists (mk_nda [3%nat] [0; 1; 2]).
    split; [reflexivity|]. split; [reflexivity|]. split; [reflexivity|]. split; [apply (int_format 0); lia|]. split; [apply (int_format 1); lia|lra].
  - destruct (V [0%nat] [0%nat] 0%nat) as (q & x & D & Lq & Vq & G & _ & Dv & B & _); [repeat constructor; lia|repeat constructor; cbn; lia|cbn; lia|].
    assert (Eq : q = [Q2R m1; Q2R m0]).
    { destruct q as [|a [|b [|e q]]]; try discriminate Lq.
      pose proof (Vq 0%nat ltac:(cbn; lia)) as A. pose proof (Vq 1%nat ltac:(cbn; lia)) as A'. injection A as ->. injection A' as ->. reflexivity. }
    subst q. exists v, x, D. split; [exact E|]. split; [exact G|]. split; [|exact (B eq_refl)].
    change (repeat (gi_interp line_g) (length [2%nat])) with [2%nat] in Dv.
    assert (C0 : centres [2%nat] [0%nat] = [- / 2]) by (unfold centres, Dg_Props5.centre; cbn; f_equal; lra).
    rewrite C0 in Dv. specialize (Dv 0 1 eq_refl). cbn [set_nth nth] in Dv.
    replace (/ 4) with (0 + (- / 2 + 1) / 2 * (1 - 0)) by lra. exact Dv.
Qed.

Print Assumptions C133_gradient.
