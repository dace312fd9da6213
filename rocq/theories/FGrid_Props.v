(** * C127: the grid of a file in double precision *)
From Coq Require Import String List Arith ZArith QArith Qreals Reals Bool Lia Lra.
From Flocq Require Import Core.
From Verif Require Import Prelude PreludeFacts NdArray Gkyl_Model Gkyl_Spec Gkyl_Proofs Gkyl_Proofs2 Gkyl_Proofs3 Gkyl_Props Part_Proofs
  Float_Model Float_Props FloatQ_Model FloatQ_Props FGrid_Model FGrid_Spec FGrid_Proofs.
Import ListNotations.
Open Scope R_scope.

(** The nodes between two doubles: the ends exact, in order, each near the exact edge. *)
Theorem C127_linspace : forall lo up n, spaced lo up n ->
  let l := np_linspace lo up n in
  nth_error l 0 = Some lo /\ nth_error l n = Some up /\ ascending l /\ edges_near lo up n (slack lo up) l.
Proof.
  intros lo up n H. cbv zeta. rewrite <- (same_formula (fun _ _ => 0) lo up n H).
  split; [now apply node_first|]. split; [now apply node_last|]. split; [now apply ascending_ok|now apply edges_ok].
Qed.
Print Assumptions C127_linspace.

(** No two nodes fall together if the cells are wide enough for the rounding. *)
Theorem C127_strict : forall lo up n, spaced lo up n -> 2 * slack lo up < (up - lo) / INR n -> strictly_ascending (np_linspace lo up n).
Proof.
  intros lo up n H Hs. destruct (C127_linspace lo up n H) as (_ & _ & _ & E). pose proof H as (_ & _ & Hn & _).
  exact (near_strict lo up n _ _ (spaced_lt _ _ _ H) Hn E Hs).
Qed.
Print Assumptions C127_strict.

(** The reader's grid. *)
Theorem C127_file : forall M dec unp (mtrue : M) rt meta fd f ctx,
  good_field rt (width_of rt) meta fd -> meta_readable unp meta -> stores rt meta fd f ->
  (0 < fd_nc fd)%nat -> Forall (fun n => (0 < n)%nat) (fd_cells fd) ->
  exists g, load (dnum dec) unp mtrue f None ctx = Ok g /\ length (l_grid g) = length (fd_cells fd) /\
    forall d n bl bu, nth_error (fd_cells fd) d = Some n -> nth_error (fd_lower fd) d = Some bl -> nth_error (fd_upper fd) d = Some bu ->
      let lo := dec (width_of rt) bl in let up := dec (width_of rt) bu in
      spaced lo up n ->
      exists l, nth_error (l_grid g) d = Some l /\ l = np_linspace lo up n /\
        nth_error l 0 = Some lo /\ nth_error l n = Some up /\ ascending l /\ edges_near lo up n (slack lo up) l /\
        (2 * slack lo up < (up - lo) / INR n -> strictly_ascending l).
Proof.
  intros M dec unp mtrue rt meta fd f ctx Hg Hm Hs Hc Hn.
  destruct (C02_documented_file R M (dnum dec) unp mtrue rt meta fd ctx Hg Hm) as (_ & g & E & _ & _ & Lo & Up & _ & _ & _ & Ln & Gr).
  exists g. split; [rewrite (stores_whole (dnum dec) unp mtrue rt meta fd f Hg Hm Hs ctx Hc Hn); exact E|]. split; [exact Ln|].
  intros d n bl bu Hd Hl Hu lo up H. exists (linspace (dnum dec) lo up n).
  split.
  { apply Gr; [exact Hd| |]; [rewrite Lo|rewrite Up]; rewrite nth_error_map; [rewrite Hl|rewrite Hu]; reflexivity. }
  rewrite (same_formula dec lo up n H). split; [reflexivity|]. destruct (C127_linspace lo up n H) as (A & B & C & D).
  repeat (split; [assumption|]). intros S. now apply C127_strict.
Qed.
Print Assumptions C127_file.

(** The grid of a part of a file of doubles: it begins at the node of the whole, and its nodes
    are near those of the whole. *)
Theorem C127_part : forall M dec unp (mtrue : M) meta fd f ctx ps abs ca cb,
  good_field 2 8 meta fd -> meta_readable unp meta -> stores 2 meta fd f ->
  cuts_select ps (fd_cells fd) (fd_nc fd) abs ca cb ->
  exists g, load (dnum dec) unp mtrue f (Some ps) ctx = Ok g /\ length (l_grid g) = length (fd_cells fd) /\
    forall d n a b bl bu, nth_error (fd_cells fd) d = Some n -> nth_error abs d = Some (a, b) ->
      nth_error (fd_lower fd) d = Some bl -> nth_error (fd_upper fd) d = Some bu ->
      let lo := dec 8%nat bl in let up := dec 8%nat bu in
      spaced lo up n -> 4 * slack lo up <= (up - lo) / INR n -> bpow radix2 (-1020) <= (up - lo) / INR n ->
      exists l, nth_error (l_grid g) d = Some l /\ length l = S (b - a) /\
        nth_error l 0 = nth_error (np_linspace lo up n) a /\ ascending l /\
        (forall i x, nth_error l i = Some x -> lo <= x <= up /\ Rabs (x - edge lo up n (a + i)) <= 2 * slack lo up) /\
        (forall i x y, nth_error l i = Some x -> nth_error (np_linspace lo up n) (a + i) = Some y -> Rabs (x - y) <= 3 * slack lo up).
Proof.
  intros M dec unp mtrue meta fd f ctx ps abs ca cb Hg Hm Hs Hcut.
  destruct (cuts_good _ _ _ _ _ _ Hcut) as [[Hla Hgc] Hcc]. pose proof Hg as ((_ & Hll & Hlu & _) & _).
  destruct (stores_part (dnum dec) unp mtrue 2 meta fd f Hg Hm Hs ctx ps abs ca cb Hcut) as (_ & g & _ & E & Gr & _).
  set (dd := part_domain (dnum dec) 2 fd (Prelude.prod (fd_cells fd)) abs ca cb) in *.
  exists g. split; [exact E|].
  assert (Hbd := apply_cuts_bounds (dnum dec) (fd_cells fd) (List.map (dec 8%nat) (fd_lower fd)) (List.map (dec 8%nat) (fd_upper fd))
       (Z.of_nat (fd_nc fd)) (Z.of_nat (Prelude.prod (fd_cells fd))) abs (Z.of_nat ca, Z.of_nat (fd_nc fd) - Z.of_nat cb)%Z).
  cbv zeta in Hbd. rewrite !map_length in Hbd. destruct (Hbd Hll Hlu Hla) as (B1 & B2 & B3). clear Hbd.
  change (length (d_lower dd) = length (fd_cells fd)) in B1. change (length (d_upper dd) = length (fd_cells fd)) in B2.
  split.
  { rewrite Gr. unfold grid_for, cut_cells. rewrite map_length, !combine_length, map_length. lia. }
  intros d n a b bl bu Hd Hab Hl Hu lo up H H4 Hh. pose proof (Hgc _ _ _ _ Hd Hab) as Gc.
  destruct (B3 d n a b lo up Hd Hab) as [L1 U1]; [rewrite nth_error_map, Hl; reflexivity|rewrite nth_error_map, Hu; reflexivity|].
  change (nth_error (d_lower dd) d = Some (lower_cut lo up n a)) in L1. change (nth_error (d_upper dd) d = Some (upper_cut lo up n b)) in U1.
  assert (Ec : nth_error (cut_cells abs) d = Some (b - a)%nat) by (unfold cut_cells; now rewrite nth_error_map, Hab).
  assert (Ln : (a < b <= n)%nat) by lia.
  pose proof (cut_spaced lo up n a b H Ln H4 Hh) as Sp.
  exists (linspace (dnum dec) (lower_cut lo up n a) (upper_cut lo up n b) (b - a)).
  split; [rewrite Gr; now apply grid_for_nth|]. split; [apply nodes_length|].
  split; [rewrite node_first by exact Sp; rewrite <- (same_formula dec lo up n H), (lower_cut_eq lo up n a b H Ln), node_at by (assumption || lia); reflexivity|].
  split; [now apply ascending_ok|].
  assert (Nr : forall i x, nth_error (linspace (dnum dec) (lower_cut lo up n a) (upper_cut lo up n b) (b - a)) i = Some x ->
      lo <= x <= up /\ Rabs (x - edge lo up n (a + i)) <= 2 * slack lo up) by (intros i x; now apply cut_near).
  split; [exact Nr|]. intros i x y Hx Hy. apply Nr in Hx. destruct Hx as (_ & Hx).
  rewrite <- (same_formula dec lo up n H) in Hy. apply (edges_ok dec lo up n H) in Hy. destruct Hy as (_ & Hy).
  apply Rabs_le_inv in Hx, Hy. apply Rabs_le. lra.
Qed.
Print Assumptions C127_part.

(** ** What does not hold *)
Lemma fl_q q x : x = Q2R q -> fl x = Q2R (qfl q).
Proof. intros ->. symmetry. apply C112_rounding. Qed.
Lemma Q2R_red q : Q2R q = Q2R (Qred q).
Proof. apply Qeq_eqR. symmetry. apply Qred_correct. Qed.

(** A file of ten cells from 0 to 1 and its first seven cells. *)
Definition tenth_fd : field := mk_field [10]%nat 1 [d8 0] [d8 1] (repeat (d8 0) 10).
Definition tenth_dec (_ : nat) (b : list Z) : R := IZR (le_val b).
Definition seven : list string := [":7"; ""; ""; ""; ""; ""; ""]%string.
Lemma seven_select : cuts_select seven [10]%nat 1 [(0, 7)]%nat 0 1.
Proof.
  split; [reflexivity|]. split; [simpl; lia|]. split; [reflexivity|]. split.
  - intros [|[|d]] s n a b; simpl; try discriminate; intros [= <-] [= <-] [= <- <-].
    apply (cr_slice 10 None (Some 7%Z)); simpl; auto; lia.
  - intros s [= <-]. apply (cr_all 1). lia.
Qed.
Lemma tenth_good : good_field 2 8 [] tenth_fd.
Proof. good_field_tac. Qed.
Lemma qz z : IZR z = Q2R (inject_Z z).
Proof. symmetry. apply Q2R_inject. Qed.
Lemma seven_node x y : nth_error (np_linspace 0 1 10) 7 = Some y -> x = fl (1 - fl (fl (IZR 3) * fl (fl (1 - 0) / fl (IZR 10)))) -> x <> y.
Proof.
  intros Hy ->. assert (S : fl (fl (1 - 0) / fl (IZR 10)) = Q2R (qfl (1 # 10))).
  { rewrite (fl_int 10) by lia. replace (1 - 0) with (IZR 1) by ring. rewrite (fl_int 1) by lia. apply fl_q. reflexivity. }
  assert (N : Q2R (qfl (1 # 10)) <> 0).
  { intros C. assert (C' : Q2R (qfl (1 # 10)) = Q2R 0) by (rewrite C; unfold Q2R; cbn; lra). apply eqR_Qeq in C'. vm_compute in C'. discriminate. }
  cbn [np_linspace] in Hy. change (IZR (Z.of_nat 10)) with (IZR 10) in Hy. rewrite S in Hy. rewrite Req_bool_false in Hy by exact N.
  cbn [seq List.map List.app nth_error] in Hy. injection Hy as <-. change (IZR (Z.of_nat 7)) with (IZR 7). rewrite S, (fl_int 7), (fl_int 3) by lia.
  rewrite (fl_q (7 * qfl (1 # 10)) (7 * Q2R (qfl (1 # 10)))) by (rewrite Q2R_mult, qz; reflexivity).
  rewrite (fl_q (3 * qfl (1 # 10)) (3 * Q2R (qfl (1 # 10)))) by (rewrite Q2R_mult, qz; reflexivity).
  rewrite Rplus_0_r. rewrite (fl_q (qfl (7 * qfl (1 # 10))) (Q2R (qfl (7 * qfl (1 # 10))))) by reflexivity.
  rewrite (fl_q (1 - qfl (3 * qfl (1 # 10))) (1 - Q2R (qfl (3 * qfl (1 # 10))))) by (rewrite Q2R_minus, qz; reflexivity).
  intros C. apply eqR_Qeq in C. vm_compute in C. discriminate.
Qed.

(** The nodes of a part are not always nodes of the whole. *)
Theorem C127_part_refuted : exists dec fd ps w p lw lp x y,
  good_field 2 8 [] fd /\ cuts_select ps (fd_cells fd) (fd_nc fd) [(0, 7)]%nat 0 1 /\
  load (dnum dec) ex_unpack 1%Z (field_bytes 2 [] fd) None [] = Ok w /\ load (dnum dec) ex_unpack 1%Z (field_bytes 2 [] fd) (Some ps) [] = Ok p /\
  nth_error (l_grid w) 0 = Some lw /\ nth_error (l_grid p) 0 = Some lp /\ nth_error lw 7 = Some y /\ nth_error lp 7 = Some x /\ x <> y.
Proof.
  assert (F0 : format (IZR 0)) by (apply int_format; lia). assert (F1 : format (IZR 1)) by (apply int_format; lia).
  assert (B : forall e, (e <= -4)%Z -> bpow radix2 e <= / 10).
  { intros e He. apply Rle_trans with (bpow radix2 (-4)); [now apply bpow_le|]. cbn. lra. }
  assert (I10 : INR 10 = 10) by (cbn; lra).
  assert (Sp : spaced 0 1 10).
  { repeat split; [exact F0|exact F1|lia|lia|]. rewrite I10. replace ((1 - 0) / 10) with (/ 10) by field. apply B. lia. }
  assert (Sl : 4 * slack 0 1 <= (1 - 0) / INR 10).
  { rewrite I10. unfold slack. rewrite Rabs_R0, Rabs_R1, Rmax_right by lra. pose proof unit_bounds. lra. }
  assert (Hm : meta_readable ex_unpack []) by now left.
  assert (Hst : stores 2 [] tenth_fd (field_bytes 2 [] tenth_fd)) by now left.
  destruct (C127_file Z tenth_dec ex_unpack 1%Z 2 [] tenth_fd _ [] tenth_good Hm Hst) as (w & Ew & _ & W); [cbn; lia|cbn; repeat constructor|].
  destruct (stores_part (dnum tenth_dec) ex_unpack 1%Z 2 [] tenth_fd _ tenth_good Hm Hst [] seven _ _ _ seven_select) as (_ & p & _ & Ep & Gr & _).
  destruct (W 0%nat 10%nat (d8 0) (d8 1) eq_refl eq_refl eq_refl Sp) as (lw & Hlw & -> & _ & _ & _ & E & _).
  assert (D0 : tenth_dec 8 (d8 0) = 0) by reflexivity. assert (D1 : tenth_dec 8 (d8 1) = 1) by reflexivity.
  change (width_of 2) with 8%nat in *. rewrite D0, D1 in *.
  destruct (nth_error (np_linspace 0 1 10) 7) as [y|] eqn:Ey.
  2:{ apply nth_error_None in Ey. destruct E as (Ln & _). lia. }
  assert (P : nth_error (l_grid p) 0 = Some (linspace (dnum tenth_dec) (lower_cut 0 1 10 0) (upper_cut 0 1 10 7) 7)).
  { rewrite Gr. apply grid_for_nth; [reflexivity| |]; cbn [part_domain]; reflexivity. }
  exists tenth_dec, tenth_fd, seven, w, p, (np_linspace 0 1 10), (linspace (dnum tenth_dec) (lower_cut 0 1 10 0) (upper_cut 0 1 10 7) 7), (upper_cut 0 1 10 7), y.
  split; [exact tenth_good|]. split; [exact seven_select|]. split; [exact Ew|]. split; [exact Ep|]. split; [exact Hlw|]. split; [exact P|]. split; [exact Ey|].
  split; [reflexivity|]. now apply seven_node.
Qed.
Print Assumptions C127_part_refuted.

(** With cells of less than the smallest normal double the nodes can pass the upper bound. *)
Definition tiny : Q := (1 # (2 ^ 1074))%Q.
Theorem C127_tiny_refuted : exists lo up n, format lo /\ format up /\ lo < up /\ (1 <= n)%nat /\ ~ ascending (np_linspace lo up n).
Proof.
  set (u := (12 * tiny)%Q). assert (E0 : 0 = Q2R 0) by (unfold Q2R; cbn; lra).
  assert (Fu : fl (Q2R u) = Q2R u) by (rewrite <- C112_rounding; apply Qeq_eqR; vm_compute; reflexivity).
  exists 0, (Q2R u), 8%nat. split; [apply generic_format_0|]. split; [rewrite <- Fu; apply fl_format|].
  split; [rewrite E0; apply Qlt_Rlt; vm_compute; reflexivity|]. split; [lia|]. intros A.
  assert (S : fl (fl (Q2R u - 0) / fl (IZR (Z.of_nat 8))) = Q2R (qfl (u / 8))).
  { rewrite Rminus_0_r, Fu, fl_int by (cbn; lia). apply fl_q. rewrite Q2R_div, qz by discriminate. reflexivity. }
  assert (N : Q2R (qfl (u / 8)) <> 0).
  { rewrite E0. intros C. apply eqR_Qeq in C. vm_compute in C. discriminate. }
  assert (H7 : nth_error (np_linspace 0 (Q2R u) 8) 7 = Some (fl (fl (fl (IZR (Z.of_nat 7)) * Q2R (qfl (u / 8))) + 0))).
  { unfold np_linspace. rewrite S. rewrite Req_bool_false by exact N. reflexivity. }
  specialize (A 7%nat 8%nat _ _ ltac:(lia) H7 eq_refl). revert A. change (Z.of_nat 7) with 7%Z.
  rewrite Rplus_0_r, fl_int by (cbn; lia).
  rewrite (fl_q (7 * qfl (u / 8)) (7 * Q2R (qfl (u / 8)))) by (rewrite Q2R_mult, qz; reflexivity). rewrite (fl_q (qfl (7 * qfl (u / 8))) (Q2R (qfl (7 * qfl (u / 8))))) by reflexivity.
  intros A. apply Rle_Qle in A. vm_compute in A. congruence.
Qed.
Print Assumptions C127_tiny_refuted.

(** Concrete bounds meeting all hypotheses, also those for a part: 0 to 1 in 10 cells. *)
Example C127_hyps : spaced 0 1 10 /\ 4 * slack 0 1 <= (1 - 0) / INR 10 /\ bpow radix2 (-1020) <= (1 - 0) / INR 10 /\
  good_field 2 8 [] tenth_fd /\ cuts_select seven (fd_cells tenth_fd) (fd_nc tenth_fd) [(0, 7)]%nat 0 1.
Proof.
  assert (I10 : INR 10 = 10) by (cbn; lra).
  assert (B : forall e, (e <= -4)%Z -> bpow radix2 e <= (1 - 0) / 10).
  { intros e He. apply Rle_trans with (bpow radix2 (-4)); [now apply bpow_le|]. cbn. lra. }
  split; [repeat split; [apply (int_format 0); lia|apply (int_format 1); lia|lia|lia|rewrite I10; apply B; lia]|].
  split; [rewrite I10; unfold slack; rewrite Rabs_R0, Rabs_R1, Rmax_right by lra; pose proof unit_bounds; lra|].
  split; [rewrite I10; apply B; lia|]. split; [exact tenth_good|exact seven_select].
Qed.
