(** * C133: slopes in double precision *)
From Coq Require Import String List Arith ZArith Bool Lia QArith Qreals Reals Lra Psatz Permutation.
From Flocq Require Import Core.
From Coquelicot Require Import Coquelicot.
From Verif Require Import Prelude PreludeFacts NdArray Tools_Arr Gkyl_Model Gkyl_Proofs3 Calc_Spec Float_Model Float_Props FloatQ_Model FloatQ_Props FGrid_Model FGrid_Spec FGrid_Proofs FGrid_Props
  FInt_Model FInt_Spec FInt_Proofs FInt_Props
  Dg_Poly Dg_TabI Dg_TabD Dg_Model Dg_Spec Dg_Proofs Dg_Proofs2 Dg_Props Dg_Props2 Dg_Props3 Dg_Sem Dg_Gram Dg_Props5 FDg_Spec FDg_Props.
Import ListNotations.
Open Scope string_scope. Open Scope list_scope. Open Scope R_scope.

(** Twice a double is a double. *)
Lemma double_format x : format x -> format (x * 2).
Proof.
  unfold format. intros H. apply FLT_format_generic in H; [|reflexivity]. destruct H as [[m e] E H1 H2]. cbn in H1, H2.
  apply generic_format_FLT. exists (Float radix2 m (e + 1)).
  - rewrite E. unfold F2R. cbn [Fnum Fexp]. rewrite bpow_plus. change (bpow radix2 1) with 2. ring.
  - exact H1.
  - cbn. lia.
Qed.

(** The quotient by a rounded width. *)
Lemma slope_error S E err w w0 : 0 < w0 -> Rabs (w - w0) <= u * w0 -> Rabs (S - E) <= err ->
  Rabs (fl (S * 2 / w) - E * 2 / w0) <= 4 * u * Rabs (E * 2 / w0) + (1 + 4 * u) * (2 / w0 * err) + tiny.
Proof.
  intros P Hw HS. pose proof u_pos as U0. pose proof u_small as U1. apply Rabs_le_inv in Hw.
  assert (Pw : (1 - u) * w0 <= w) by lra. assert (Pw0 : 0 < w) by nra.
  pose proof (Rabs_pos (S - E)) as E0. assert (Er0 : 0 <= err) by lra.
  set (D := E * 2 / w0). set (X := S * 2 / w).
  set (r := w0 / w). assert (R0 : 0 < r) by (apply Rdiv_lt_0_compat; assumption).
  assert (Rw : r * w = w0) by (unfold r; field; lra).
  assert (R1 : r <= 1 + 2 * u) by nra. assert (R2 : 1 - 2 * u <= r) by nra.
  assert (EX : X = D * r + (S - E) * (2 / w0) * r) by (unfold X, D, r; field; lra).
  assert (Q0 : 0 < 2 / w0) by (apply Rdiv_lt_0_compat; lra). set (t := 2 / w0 * err).
  assert (T0 : 0 <= t) by (unfold t; apply Rmult_le_pos; lra).
  assert (A1 : Rabs ((S - E) * (2 / w0) * r) <= t * (1 + 2 * u)).
  { rewrite !Rabs_mult, (Rabs_right (2 / w0)), (Rabs_right r) by lra. unfold t. apply Rmult_le_compat; [apply Rmult_le_pos; lra|lra| |exact R1].
    rewrite (Rmult_comm (2 / w0)). apply Rmult_le_compat_r; lra. }
  assert (A2 : Rabs (D * r) <= Rabs D * (1 + 2 * u)) by (rewrite Rabs_mult, (Rabs_right r) by lra; apply Rmult_le_compat_l; [apply Rabs_pos|exact R1]).
  assert (A3 : Rabs (D * r - D) <= Rabs D * (2 * u)).
  { replace (D * r - D) with (D * (r - 1)) by ring. rewrite Rabs_mult. apply Rmult_le_compat_l; [apply Rabs_pos|]. apply Rabs_le. lra. }
  pose proof (fl_error X) as F. assert (AX : Rabs X <= Rabs D * (1 + 2 * u) + t * (1 + 2 * u)) by (rewrite EX; apply Rle_trans with (1 := Rabs_triang _ _); lra).
  replace (fl X - D) with ((fl X - X) + ((D * r - D) + (S - E) * (2 / w0) * r)) by (rewrite EX; ring).
  apply Rle_trans with (1 := Rabs_triang _ _). pose proof (Rabs_triang (D * r - D) ((S - E) * (2 / w0) * r)) as G.
  assert (F' : u * Rabs X <= u * (Rabs D * (1 + 2 * u) + t * (1 + 2 * u))) by (apply Rmult_le_compat_l; lra).
  pose proof (Rabs_pos D). set (a := Rabs D) in *. assert (u * u <= u * / 1024) by (apply Rmult_le_compat_l; lra).
  assert (a * (u * u) <= a * (u * / 1024)) by (apply Rmult_le_compat_l; lra). assert (t * (u * u) <= t * (u * / 1024)) by (apply Rmult_le_compat_l; lra).
  assert (0 <= a * u) by (apply Rmult_le_pos; lra). assert (0 <= t * u) by (apply Rmult_le_pos; lra). nra.
Qed.

Section Slope.
  Context (dec : nat -> list Z -> R) (dot : list R -> list R -> R) (ev : pexp -> list R -> R).
  (** np.tensordot adds in any order. *)
  Context (Hdot : forall r q, length r = length q -> dots (combine r q) (dot r q)).
  Context (d : dgdata (F := R)) (g : ginterp) (cells : list nat) (nc c : nat) (fs : list pexp) (delta : R).
  Context (W : wf (dd_values d)) (Sh : shape (dd_values d) = cells ++ [nc]) (Gd : gi_dims g = length cells) (L1 : (1 <= length cells)%nat)
    (B1 : gi_basis g <> "gkhybrid") (B2 : gi_basis g <> "hybrid") (Hfs : deriv_functions (gi_dims g) (gi_poly g) true (gi_basis g) = Ok fs)
    (Gn : gi_nodes g = length fs) (Hn : (2 <= gi_interp g)%nat) (Hn' : (Z.of_nat (gi_interp g) < 2 ^ 52)%Z) (Hc : (c * length fs + length fs <= nc)%nat).
  Let ns := repeat (gi_interp g) (length cells).

  (** Along axis [k] (direction [z]), with the derivatives of the functions evaluated with an error of
      at most [delta]: every point of the refined mesh gets a double near the derivative of the
      expansion of its cell at the centre of the part, in a cell as wide as the first one. *)
  Theorem C133_slope z k gk lo0 hi0 :
    norm_index (length cells) z = Ok k -> accurate ev (List.map (pdiff k) fs) delta ->
    nth_error (dd_grid d) k = Some gk -> nth_error (flat gk) 0 = Some lo0 -> nth_error (flat gk) 1 = Some hi0 ->
    format lo0 -> format hi0 -> lo0 < hi0 ->
    exists v, modal_diff_values (dnum dec) dot ev d g (Some z) c = Ok v /\ wf v /\ shape v = refined_shape cells ns ++ [1%nat] /\
      forall i s, in_range cells i -> in_range ns s ->
        exists q x D, length q = length fs /\
          (forall m, (m < length fs)%nat -> nth_error q m = get (dd_values d) (i ++ [(c * length fs + m)%nat])) /\
          get v (sub_index ns i s ++ [0%nat]) = Some x /\ format x /\
          (forall lo hi, hi - lo = hi0 - lo0 ->
             is_derive (fun x => expansion q fs (set_nth k (2 * (x - lo) / (hi - lo) - 1) (centres ns s))) (lo + (nth k (centres ns s) 0 + 1) / 2 * (hi - lo)) D) /\
          Rabs (x - D) <= 4 * u * Rabs D
            + (1 + 4 * u) * (2 / (hi0 - lo0) * (((1 + u) ^ length fs - 1) * magnitude q (List.map (pdiff k) fs) (centres ns s)
                                               + (1 + u) ^ length fs * (delta * abs_sum q + INR (length fs) * tiny))) + tiny.
  Proof using Hdot W Sh Gd L1 B1 B2 Hfs Gn Hn Hn' Hc.
    intros Hz Hev Hgk E0 E1 F0 F1 Hlt. unfold modal_diff_values. rewrite Gd, Hz. cbn [bind]. rewrite <- Gd.
    unfold create_deriv_matrix. rewrite Hfs. cbn [bind]. rewrite Gn.
    destruct (C33_modal (dd_values d) cells nc (length fs) c W Sh Hc) as (Wr & Sr & Vr).
    assert (D : dims_ok (length cells) (gi_basis g)) by (split; [exact L1|contradiction]).
    assert (Er : refine (length cells) (gi_interp g) (gi_basis g) = ns) by (apply refine_plain; assumption).
    rewrite Gd. fold ns.
    destruct (rows_of_spec (dnum dec) ev false ns (List.map (pdiff k) fs)) as (Rl & Rr & Rn).
    set (cmat := rows_of (dnum dec) ev false ns (List.map (pdiff k) fs)) in *.
    destruct (C31_value (dnum dec) dot cmat _ (gi_interp g) (gi_basis g) cells (length fs) Wr Sr D Hn) as (o & Eo & Wo & So & Vo).
    { rewrite Er. exact Rl. }
    { intros row Hrow. rewrite (Rr row Hrow). apply map_length. }
    rewrite Er in *. rewrite Eo. cbn [bind].
    assert (Ew : cell_width (dnum dec) d k = Ok (fl (hi0 - lo0))).
    { unfold cell_width. rewrite Hgk. destruct (flat gk) as [|a [|b l]]; try discriminate. cbn in E0, E1. injection E0 as ->. injection E1 as ->. reflexivity. }
    rewrite Ew. cbn [bind].
    set (h := fun a => fdiv (dnum dec) (fmul (dnum dec) a (fnat (dnum dec) 2)) (fl (hi0 - lo0))).
    destruct (map_nda_ok h o Wo) as (Wm & Sm & Vm). destruct (new_axis_ok (map_nda h o) Wm) as (Wv & Sv & Vv).
    eexists. split; [reflexivity|]. split; [exact Wv|]. split; [rewrite Sv, Sm, So; reflexivity|].
    intros i s Hi Hs. destruct (Vo i s Hi Hs) as (row & q & Erow & Lq & Vq & Go).
    rewrite Rn in Erow by auto. injection Erow as <-.
    set (S := dot (List.map (fun f => ev f (map2 (interp_point (dnum dec) false) ns s)) (List.map (pdiff k) fs)) q) in *.
    assert (Bn : List.Forall (fun n => (Z.of_nat n <= 2 ^ 52)%Z) ns) by (apply List.Forall_forall; intros n Hin; apply repeat_spec in Hin; lia).
    destruct (row_error ev (List.map (pdiff k) fs) delta q (map2 (interp_point (dnum dec) false) ns s) (centres ns s) S Hev (points_near dec ns s Hs Bn)) as (FS & ES).
    { rewrite map_length. exact Lq. }
    { apply Hdot. rewrite !map_length. congruence. }
    rewrite map_length in ES.
    assert (Lns : length ns = length cells) by apply repeat_length.
    assert (Hh : h S = fl (S * 2 / fl (hi0 - lo0))).
    { unfold h, fnat. cbn [dnum fdiv fmul fofZ]. change (IZR (Z.of_nat 2)) with 2. rewrite (fl_id 2) by (apply (int_format 2); lia). rewrite (fl_id (S * 2)) by now apply double_format. reflexivity. }
    exists q, (h S), (expansion q (List.map (pdiff k) fs) (centres ns s) * 2 / (hi0 - lo0)). split; [exact Lq|].
    split; [intros m Hm; rewrite Vq by auto; apply Vr; auto|].
    split. { rewrite Vv; [rewrite Vm, Go; reflexivity|]. rewrite Sm, So. apply sub_index_in_range; auto. }
    split; [rewrite Hh; apply FInt_Proofs.fl_format|]. split.
    - intros lo hi Ed. rewrite <- Ed. apply physical_derive; [eapply const_div_tables; eauto| |lra].
      unfold centres. rewrite map2_length. pose proof (Forall2_length _ _ _ Hs) as L. rewrite L, Nat.min_id, Lns.
      apply norm_index_ok in Hz. apply Hz.
    - rewrite Hh. apply slope_error; [lra| |exact ES].
      rewrite <- (Rabs_pos_eq (hi0 - lo0)) at 3 by lra. now apply fl_minus_error.
  Qed.
End Slope.

(** ** Example *)
(** The file of C131: two cells of order one from 0 to 2. *)
Lemma slopes_accurate : accurate fev (List.map (pdiff 0) dt_d1_modal_o1) (4 * u).
Proof.
  intros f p x Hf _. unfold fev. pose proof (fl_error (evalR f p)) as E. pose proof u_pos. pose proof u_small. pose proof tiny_pos. pose proof tiny_small.
  assert (C : exists a, (forall y, evalR f y = a) /\ 0 <= a <= 1.25).
  { cbn [List.map dt_d1_modal_o1 In] in Hf. destruct Hf as [<-|[<-|[]]]; [exists 0|exists (lit 1224744871391589 15)]; (split; [intros y; cbn [pdiff evalR Nat.eqb]; unfold lit|unfold lit; cbn; lra]).
    all: cbn [pow]; try (unfold Rdiv; ring); try field. }
  destruct C as (a & Ca & A). rewrite !Ca in *. rewrite (Rabs_right a) in E by lra.
  apply Rle_trans with (1 := E). assert (u * a <= u * 1.25) by (apply Rmult_le_compat_l; lra). lra.
Qed.

Example C133_example : exists (v : nda R) (x D : R), modal_diff_values (dnum zdec) cdot fev ex_file line_g (Some (-1)%Z) 0%nat = Ok v /\ NdArray.get v [0%nat; 0%nat] = Some x /\
  is_derive (fun y => expansion [Q2R m1; Q2R m0] dt_d1_modal_o1 [2 * (y - 0) / (1 - 0) - 1]) (/ 4) D /\
  Rabs (x - D) <= 4 * u * Rabs D + (1 + 4 * u) * (2 / (1 - 0) * (((1 + u) ^ 2 - 1) * magnitude [Q2R m1; Q2R m0] (List.map (pdiff 0) dt_d1_modal_o1) [- / 2]
     + (1 + u) ^ 2 * (4 * u * abs_sum [Q2R m1; Q2R m0] + INR 2 * tiny))) + tiny.
Proof.
  destruct C131_hyps as (H1 & H2 & H3 & _ & _ & _ & H7 & H8 & _).
  destruct (C133_slope zdec cdot fev cdot_ok ex_file line_g [2%nat] 2 0 dt_d1_modal_o1 (4 * u) H1 H2 H3 (le_n 1) ltac:(discriminate) ltac:(discriminate) eq_refl eq_refl H7 H8 (le_n 2)
    (-1)%Z 0%nat (mk_nda [3%nat] [0; 1; 2]) 0 1 eq_refl slopes_accurate eq_refl eq_refl eq_refl (int_format 0 ltac:(lia)) (int_format 1 ltac:(lia)) ltac:(lra)) as (v & E & _ & _ & V).
  destruct (V [0%nat] [0%nat]) as (q & x & D & Lq & Vq & G & _ & Dv & B); [repeat constructor; lia|repeat constructor; cbn; lia|].
  assert (Eq : q = [Q2R m1; Q2R m0]).
  { destruct q as [|a [|b [|e q]]]; try discriminate Lq.
    pose proof (Vq 0%nat ltac:(cbn; lia)) as A. pose proof (Vq 1%nat ltac:(cbn; lia)) as A'. injection A as ->. injection A' as ->. reflexivity. }
  subst q. exists v, x, D. split; [exact E|]. split; [exact G|].
  change (repeat (gi_interp line_g) (length [2%nat])) with [2%nat] in *.
  assert (C0 : centres [2%nat] [0%nat] = [- / 2]) by (unfold centres, Dg_Props5.centre; cbn; f_equal; lra).
  rewrite C0 in *. specialize (Dv 0 1 eq_refl). cbn [set_nth nth] in Dv. split; [|exact B].
  replace (/ 4) with (0 + (- / 2 + 1) / 2 * (1 - 0)) by lra. exact Dv.
Qed.

Print Assumptions C133_slope.
