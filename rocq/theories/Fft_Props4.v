(** * C97, continued: what the binned spectrum does not do *)
From Coq Require Import List Arith ZArith Bool Lia Reals Lra.
From Coquelicot Require Import Complex.
From Verif Require Import Prelude PreludeFacts NdArray Fft_Model Fft_Spec Fft_Dft Fft_Proofs Fft_Props Fft_Props2 Fft_Props3.
Import ListNotations.
Open Scope nat_scope.
Open Scope list_scope.

(** If one axis has three coordinates and half the other is odd, all bins are at
    wave number 0: [nkx == 1 & nky == 1] does not ask for [nky] to be 1. *)
Theorem C97_narrow ow g1 g2 cells m v : good [g1; g2] cells m v -> length g1 = 3 -> Nat.Odd (length g2 / 2) ->
  exists ks iso, delivers (fft true true ow (dataset [g1; g2] v)) ow (dataset [g1; g2] v) [Pts ks] iso /\
    length ks = Nat.sqrt (9 + length g2 * length g2) /\ forall k, In k ks -> k = 0%R.
Proof.
  intros G L1 Odd. destruct (fft_iso ow [g1; g2] cells m v G ltac:(cbn; lia)) as (fs & w & F & _ & _ & E).
  pose proof (halves_length _ _ F) as Hl. cbn [List.map] in Hl. rewrite L1 in Hl.
  destruct (halves fs) as [|kx [|ky [|? ?]]]; try discriminate. cbn [List.map] in Hl. injection Hl as Hx Hy. change (fst (Nat.divmod (length g2) 1 0 1)) with (length g2 / 2) in Hy.
  assert (M : length ky mod 2 = 1).
  { rewrite Hy. destruct Odd as (q & Eq). rewrite Eq, Nat.add_comm, Nat.mul_comm, Nat.mod_add by lia. reflexivity. }
  unfold iso_of, width2, odd_one in E. rewrite Hx, M in E. cbn [Nat.eqb andb bind fst snd List.map fold_right] in E.
  rewrite L1, Nat.add_0_r in E. eexists. eexists. split.
  { rewrite E. unfold delivers. destruct ow; [eexists; reflexivity|reflexivity]. }
  split; [now rewrite map_length, seq_length|].
  intros k Hk. apply in_map_iff in Hk as (i & <- & _). unfold bin_k. ring.
Qed.

(** Three axes, of which two have three coordinates, are refused if half of the third is even. *)
Theorem C97_flat ow g1 g2 g3 cells m v : good [g1; g2; g3] cells m v -> length g1 = 3 -> length g2 = 3 -> Nat.Even (length g3 / 2) ->
  fft true true ow (dataset [g1; g2; g3] v) = Err IndexError.
Proof.
  intros G L1 L2 Ev. destruct (fft_iso ow [g1; g2; g3] cells m v G ltac:(cbn; lia)) as (fs & w & F & _ & _ & E).
  pose proof (halves_length _ _ F) as Hl. cbn [List.map] in Hl. rewrite L1, L2 in Hl.
  destruct (halves fs) as [|kx [|ky [|kz [|? ?]]]]; try discriminate. cbn [List.map] in Hl. injection Hl as Hx Hy Hz. change (fst (Nat.divmod (length g3) 1 0 1)) with (length g3 / 2) in Hz.
  assert (M : length kz mod 2 = 0).
  { rewrite Hz. destruct Ev as (q & Eq). rewrite Eq, Nat.mul_comm, Nat.mod_mul by lia. reflexivity. }
  unfold iso_of, width3, odd_one in E. rewrite Hx, Hy, M in E. cbn [Nat.eqb andb] in E. change (1 mod 2) with 1 in E. cbn [Nat.eqb andb] in E.
  unfold rmax2 in E. destruct ky as [|a [|b ky]]; try discriminate. cbn [item nth_error bind] in E. exact E.
Qed.

(** ** The first bin *)

Definition ones_grid : list (list R) := [[0; 1; 2; 3]; [0; 1; 2; 3]]%R.
Definition ones : nda C := tabulate [4; 4; 1] (fun _ => RtoC 1).

Example C97_good_example : good ones_grid [4; 4] 1 ones /\ 2 <= length ones_grid /\
  Forall (fun g => 3 < length g) ones_grid /\ Forall (fun g => nth 0 g 0 < nth 1 g 0)%R ones_grid.
Proof.
  repeat split; try (cbn; lia).
  - repeat constructor.
  - repeat constructor.
  - unfold ones_grid. repeat constructor; cbn; lra.
Qed.

Example C97_narrow_example : good [[0; 1; 2]; [0; 1; 2; 3; 4; 5]]%R [3; 6] 1 (tabulate [3; 6; 1] (fun _ => RtoC 1)) /\ Nat.Odd (length [0; 1; 2; 3; 4; 5]%R / 2).
Proof. split; [repeat split; try (cbn; lia); repeat constructor|]. exists 1. reflexivity. Qed.

Lemma sqrt_between a b x : (0 <= a)%R -> (0 <= b)%R -> (a * a <= x < b * b)%R -> (a <= sqrt x < b)%R.
Proof.
  intros Ha Hb (H1 & H2). split.
  - rewrite <- (sqrt_square a) by assumption. now apply sqrt_le_1_alt.
  - rewrite <- (sqrt_square b) by assumption. apply sqrt_lt_1_alt. split; [|exact H2].
    apply Rle_trans with (a * a)%R; [|exact H1]. apply Rmult_le_pos; assumption.
Qed.

(** The first bin is not the average over the modes that belong to it: for data
    that are 1 everywhere (all of the power is at wave number 0) it is not zero. *)
Theorem C97_first_bin_refuted :
  exists gs cells m v fs w ks iso n dk members,
    good gs cells m v /\ Forall (fun g => nth 0 g 0 < nth 1 g 0)%R gs /\
    fft true false false (dataset gs v) = Ok (dataset gs v, Some (List.map Pts fs ++ [Num 0%R], w)) /\
    fft true true false (dataset gs v) = Ok (dataset gs v, Some ([Pts ks], iso)) /\ lowest_max fs dk /\ 0 < n /\
    NoDup members /\ (forall x, In x members <-> in_range (List.map (@length R) fs) x /\ belongs n dk 0 (wave_number fs x)) /\
    members <> [] /\
    get iso [0; 0] <> Some (Cmult (lsum (fun x => cval w (x ++ [0])) members) (RtoC (/ INR (length members)))).
Proof.
  destruct C97_good_example as (G & H2 & A4 & P).
  destruct (C97_bins false ones_grid [4; 4] 1 ones G H2 A4 P) as (fs & w & ks & iso & n & dk & D1 & D2 & En & M & Hd & _ & _ & _ & B).
  destruct (C96_psd false ones_grid [4; 4] 1 ones G) as (fs' & ft & w' & D3 & D4 & _ & Gw).
  destruct (fft_iso false ones_grid [4; 4] 1 ones G H2) as (fs2 & w2 & F2 & D5 & _).
  assert (Inj : forall a b : list (list R), List.map Pts a ++ [Num 0%R] = List.map Pts b ++ [Num 0%R] -> a = b).
  { intros a b E. apply app_inj_tail in E as (E & _). apply (f_equal (List.map (fun c => match c with Pts l => l | Num _ => [] end))) in E.
    now rewrite !map_map, !map_id in E. }
  unfold delivers in D1, D4, D5. rewrite D1 in D4. injection D4 as E4 <-. rewrite D1 in D5. injection D5 as E5 <-.
  cbn [length ones_grid Nat.eqb] in D1, E4, E5, En. change (if length ones_grid =? 2 then [Num 0%R] else []) with [Num 0%R] in *.
  apply Inj in E5. subst fs.
  (* the frequencies *)
  assert (Ef : halves fs2 = [[0; / 4]; [0; / 4]]%R).
  { clear -F2. inversion F2 as [|? f1 ? t1 (L1 & N1) F2']; subst. inversion F2' as [|? f2 ? t2 (L2 & N2) F3]; subst. inversion F3; subst.
    assert (Q : forall f : list R, length f = 4 -> nth 0 f 0%R = 0%R -> nth 1 f 0%R = (/ 4)%R -> firstn (length f / 2) f = [0; / 4]%R).
    { intros f L E0 E1. destruct f as [|a [|b f]]; try discriminate. cbn in E0, E1. subst. rewrite L. reflexivity. }
    cbn [halves List.map]. rewrite !Q; auto.
    - rewrite N2 by (cbn; lia). cbn. field.
    - rewrite N2 by (cbn; lia). cbn. field.
    - rewrite N1 by (cbn; lia). cbn. field.
    - rewrite N1 by (cbn; lia). cbn. field. }
  rewrite Ef in *.
  assert (Edk : dk = (/ 4)%R). { destruct M as ((f & [<-|[<-|[]]] & <-) & _); reflexivity. }
  assert (En5 : n = 5) by (rewrite En; reflexivity). clear En.
  assert (R4 : forall x, in_range (List.map (@length R) [[0; / 4]; [0; / 4]]%R) x <-> x = [0; 0] \/ x = [0; 1] \/ x = [1; 0] \/ x = [1; 1]).
  { intros x. rewrite <- indices_in. cbn. intuition auto. }
  assert (W00 : wave_number [[0; / 4]; [0; / 4]]%R [0; 0] = 0%R).
  { unfold wave_number. cbn. replace (0 * 0 + (0 * 0 + 0))%R with 0%R by ring. apply sqrt_0. }
  assert (W01 : (/ 8 <= wave_number [[0; / 4]; [0; / 4]]%R [0; 1]%nat < 3 / 8)%R) by (unfold wave_number; cbn; apply sqrt_between; lra).
  assert (W10 : (/ 8 <= wave_number [[0; / 4]; [0; / 4]]%R [1; 0]%nat < 3 / 8)%R) by (unfold wave_number; cbn; apply sqrt_between; lra).
  assert (W11 : (/ 8 <= wave_number [[0; / 4]; [0; / 4]]%R [1; 1]%nat < 3 / 8)%R) by (unfold wave_number; cbn; apply sqrt_between; lra).
  assert (Em : forall x, In x [[0; 1]; [1; 0]; [1; 1]] <->
    in_range (List.map (@length R) [[0; / 4]; [0; / 4]]%R) x /\ belongs n dk 0 (wave_number [[0; / 4]; [0; / 4]]%R x)).
  { intros x. rewrite R4. unfold belongs. rewrite Edk, En5. cbn [In INR]. split.
    - intros [<-|[<-|[<-|[]]]]; (split; [auto|split; [lia|left; lra]]).
    - intros ([->|[->|[->| ->]]] & _ & K); auto. exfalso. rewrite W00 in K. destruct K as [K|(K & _)]; [lra|discriminate]. }
  assert (El : forall x, In x [[0; 0]] <-> in_range (List.map (@length R) [[0; / 4]; [0; / 4]]%R) x /\ 0 = 0 /\ (wave_number [[0; / 4]; [0; / 4]]%R x < / 2 * dk)%R).
  { intros x. rewrite R4, Edk. cbn [In]. split.
    - intros [<-|[]]. split; [auto|]. split; [reflexivity|]. rewrite W00. lra.
    - intros ([->|[->|[->| ->]]] & _ & K); auto; exfalso; lra. }
  assert (N3 : NoDup [[0; 1]; [1; 0]; [1; 1]]) by (repeat constructor; cbn; intuition discriminate).
  assert (N1 : NoDup [[0; 0]]) by (repeat constructor; cbn; intuition discriminate).
  specialize (B 0 0 _ _ ltac:(lia) ltac:(lia) N3 Em N1 El ltac:(discriminate)).
  exists ones_grid, [4; 4], 1, ones, [[0; / 4]; [0; / 4]]%R, w, ks, iso, n, dk, [[0; 1]; [1; 0]; [1; 1]].
  split; [exact G|]. split; [exact P|]. split; [exact D1|]. split; [exact D2|]. split; [exact M|]. split; [lia|].
  split; [exact N3|]. split; [exact Em|]. split; [discriminate|].
  rewrite B. intros Q. assert (Oi : forall a b : C, Some a = Some b -> a = b) by congruence. apply Oi in Q. clear Oi.
  set (s := lsum (fun x => cval w (x ++ [0])) [[0; 1]; [1; 0]; [1; 1]]) in *.
  set (p := lsum (fun x => cval w (x ++ [0])) [[0; 0]]) in *. cbn [length] in Q.
  assert (Ep : p = RtoC 256).
  { unfold p. cbn [lsum fold_right app].
    assert (Hw : get w [0; 0; 0] = Some (RtoC (Cmod (cval ft [0; 0; 0]) * Cmod (cval ft [0; 0; 0])))).
    { apply (Gw [0; 0] 0); [|lia]. repeat constructor. }
    rewrite (cval_get _ _ _ Hw).
    destruct (C96_plane_wave false ones_grid [4; 4] 1 ones G) as (fs3 & ft3 & D6 & _ & PW).
    { reflexivity. }
    { unfold ones_grid. repeat constructor; exists 0%R, 1%R; (split; [lra|]); intros j Hj; cbn in Hj; do 4 (destruct j as [|j]; [cbn; lra|]); lia. }
    destruct (C96_frequency_range false ones_grid [4; 4] 1 ones G P) as (fs4 & ft4 & D7 & FR).
    unfold delivers in D3, D6, D7. rewrite D3 in D6. injection D6 as E6 <-. rewrite D3 in D7. injection D7 as E7 _.
    assert (fs3 = fs4) as ->.
    { rewrite E6 in E7. apply (f_equal (List.map (fun c => match c with Pts l => l | Num _ => [] end))) in E7. now rewrite !map_map, !map_id in E7. }
    inversion FR as [|? f1 ? t1 (_ & Z1 & _) FR']; subst. inversion FR' as [|? f2 ? t2 (_ & Z2 & _) FR2]; subst. inversion FR2; subst.
    assert (C16 : Cmod (cval ft [0; 0; 0]) = 16%R).
    { change [0; 0; 0] with ([0; 0] ++ [0]). specialize (PW [0; 0] 0). specialize (PW ltac:(repeat constructor) ltac:(lia)). rewrite (PW) with (l := [0; 0]).
      - destruct (list_eq_dec Nat.eq_dec [0; 0] [0; 0]); [|easy]. unfold size. cbn. ring.
      - intros x Hx. assert (R : in_range [4; 4; 1] (x ++ [0])) by (apply (snoc_range [4; 4] 1); [exact Hx|lia]).
        unfold ones. rewrite get_tabulate by exact R. f_equal. unfold plane_wave, mode. cbn [combine List.map fst snd]. rewrite Z1, Z2.
        inversion Hx as [|i ? t ? Hi Ht]; subst. inversion Ht as [|j ? t' ? Hj Ht']; subst. inversion Ht'; subst.
        cbn [phase ones_grid]. rewrite <- cis_0. f_equal. ring.
      - repeat constructor. }
    rewrite C16, Cplus_0_r. f_equal. ring. }
  assert (Z : Cmult p (RtoC (/ INR 3)) = RtoC 0).
  { replace (Cmult p (RtoC (/ INR 3))) with (Cminus (Cmult (Cplus s p) (RtoC (/ INR 3))) (Cmult s (RtoC (/ INR 3)))) by ring. rewrite Q. ring. }
  rewrite Ep, <- RtoC_mult in Z. injection Z as Z. cbn in Z. lra.
Qed.

Print Assumptions C97_bins.
Print Assumptions C97_upper_half_empty.
Print Assumptions C97_first_bin_refuted.
