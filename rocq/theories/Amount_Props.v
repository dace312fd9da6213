(** * C122: integrating an interpolated file *)
From Coq Require Import String Ascii List Arith ZArith Bool Lia Reals Lra.
From Coquelicot Require Import Coquelicot.
From Verif Require Import Prelude PreludeFacts NdArray Gkyl_Model Gkyl_Spec Gkyl_Proofs Gkyl_Props Msgpack_Model Msgpack_Spec Msgpack_Props
  Dg_Poly Dg_TabI Dg_TabD Dg_Model Dg_Spec Dg_Props Dg_Props3 Dg_Sem Dg_Int Dg_GramTab Dg_Gram DgCmd_Model Dg_Props8
  Tools_Arr Draw_Model Draw_Spec Draw_Proofs2 Calc_Model Calc_Spec Calc_Props Dg_Props5 Show_Model Show_Spec Show_Proofs Show_Props
  Amount_Model Amount_Spec Amount_Proofs Amount_Proofs2.
Import ListNotations.
Open Scope string_scope. Open Scope list_scope. Open Scope nat_scope.

(** All axes, as they are typed: "0,1,2". *)
Definition all_axes (dim : nat) : string := join "," (List.map show_Z (List.map Z.of_nat (seq 0 dim))).

Lemma part_mid_centres ns : forall k, map2 part_mid ns k = centres ns k.
Proof.
  unfold centres. induction ns as [|a l IH]; intros [|b k]; cbn [map2]; try reflexivity. f_equal; [|apply IH]. unfold Dg_Props5.centre, part_mid. ring.
Qed.

Lemma refined_map2 cells : forall ns, refined_shape cells ns = map2 Nat.mul cells ns.
Proof. unfold refined_shape. induction cells as [|a l IH]; intros [|b ns]; cbn [map2 combine List.map]; try reflexivity. f_equal. apply IH. Qed.

Lemma place2_sub ns : forall i k, length i = length ns -> length k = length ns -> place2 i ns k = sub_index ns i k.
Proof.
  unfold place2, sub_index. induction ns as [|a l IH]; intros [|x i] [|y k]; cbn [length]; intros; try lia; [reflexivity|].
  cbn [map2 combine List.map fst snd]. f_equal. apply IH; lia.
Qed.

Lemma nth_seq_self (l : list nat) : List.map (fun a => nth a l 0) (seq 0 (length l)) = l.
Proof. induction l as [|x l IH]; [reflexivity|]. cbn [length seq List.map nth]. f_equal. rewrite <- seq_shift, map_map. exact IH. Qed.

Lemma map2_seq_ref (F : nat -> R * R) (xs : list R) : forall a,
  map2 to_ref (List.map F (seq a (length xs))) xs = List.map (fun k => to_ref (F (a + k)) (nth k xs 0%R)) (seq 0 (length xs)).
Proof.
  induction xs as [|t xs IH]; intros a; [reflexivity|]. cbn [length seq List.map map2 nth]. rewrite Nat.add_0_r. f_equal. rewrite IH, <- seq_shift, map_map.
  apply map_ext. intros k. now rewrite Nat.add_succ_r.
Qed.

Section C122.
  Context (dec : nat -> list Z -> R) (root : nat -> nat -> nat) (stored : nat -> nat -> res (list (list R))).
  Context (rt : Z) (meta : list Z) (d : list (mkey * mval)) (fd : field).
  Let dc := dec (width_of rt).
  Let dim := length (fd_cells fd).

  Lemma edge_step a m k : (0 < m)%nat -> (edge dc fd a m (S k) - edge dc fd a m k = (high dc fd a - low dc fd a) / INR m)%R.
  Proof. intros Hm. assert (P : (INR m <> 0)%R) by (apply not_0_INR; lia). unfold edge. rewrite S_INR. field. exact P. Qed.

  (** Any family and order: each whole field of the file gives the sum, over the
      equal parts of the domain, of the value at the centre times the volume; every
      axis is left with one coordinate, the middle of the domain. *)
  Theorem C122_sum io b p n fs : drawable dec root rt meta d fd io b p n fs ->
    let fine := refined_shape (fd_cells fd) (refine dim n b) in
    exists w f, interpolate_integrate dec root stored (field_bytes rt meta fd) io (all_axes dim)
        = Ok (List.map (fun a => [((low dc fd a + high dc fd a) / 2)%R]) (seq 0 dim), w) /\
      holds (repeat 1 dim ++ [fd_nc fd / length fs]) w
        (fun idx => part_volume dc fd fine * sum_over fine (fun q => f q (last idx 0%nat)))%R /\
      forall c q, c < fd_nc fd / length fs -> in_range fine q ->
        field_value dc fd fs c (List.map (fun a => middle dc fd a (nth a fine 0) (nth a q 0)) (seq 0 dim)) (f q c).
  Proof.
    intros H fine. destruct (interpolated_dataset dec root stored rt meta d fd io b p n fs H) as (F2 & Lf & x & y & f & Ex & Ey & (_ & _ & (Lg & Hgr) & _ & Hv) & V).
    fold dim dc in F2, Lf, Lg, Hgr, Hv, V. fold fine in F2, Lf, Lg, Hgr, Hv, V. cbn [to_draw p_grid p_vals] in Lg, Hgr, Hv.
    set (nc := fd_nc fd / length fs) in *. set (gy := dd_grid (i_data y)) in *. set (vy := dd_values (i_data y)) in *.
    set (grid := List.map (fun a => flat a) gy).
    assert (D1 : 1 <= dim).
    { destruct H as (_ & _ & _ & _ & _ & _ & _ & _ & R & _). apply R. }
    assert (Gr : forall a, a < dim -> nth a grid [] = List.map (edge dc fd a (nth a fine 0)) (seq 0 (S (nth a fine 0)))).
    { intros a La. destruct (nth_error gy a) as [g|] eqn:Eg; [|apply nth_error_None in Eg; lia].
      destruct (nth_error fine a) as [m|] eqn:Em; [|apply nth_error_None in Em; lia].
      specialize (Hgr a g m Eg Em). unfold points in Hgr. apply holds_line in Hgr.
      unfold grid. rewrite (nth_error_nth _ a _ (map_nth_error _ _ _ Eg)), Hgr, (nth_error_nth _ _ _ Em). reflexivity. }
    assert (Lgr : length grid = dim) by (unfold grid; rewrite map_length; lia).
    assert (Fn : forall a, a < dim -> 2 <= nth a fine 0) by (intros a La; apply (proj1 (Forall_forall _ _) F2), nth_In; lia).
    assert (Hh : holds (fine ++ [nc]) vy (fun idx => f (removelast idx) (last idx 0))).
    { destruct Hv as (Wv & Sv & Vv). split; [exact Wv|]. split; [exact Sv|]. intros idx Hi. apply in_range_snoc_inv in Hi as (q & j & -> & Hq & Hj).
      rewrite removelast_snoc, last_snoc. now apply Vv. }
    destruct (C43_value (dd_dims (i_data y)) grid vy (fine ++ [nc]) _ (seq 0 dim) (seq_NoDup _ _) Hh) as (w & Ew & Hw).
    { rewrite app_length. cbn. lia. }
    { intros a Ha. apply in_seq in Ha. split; [lia|]. rewrite Gr, app_nth1 by lia. right. rewrite map_length, seq_length. pose proof (Fn a ltac:(lia)). lia. }
    exists w, f. split; [|split; [|exact V]].
    - unfold interpolate_integrate. rewrite Ex. cbn [bind]. rewrite Ey. cbn [bind]. fold gy vy grid.
      destruct (C43_axes (dd_dims (i_data y)) (grid, vy) 0%Z (List.map Z.of_nat (seq 0 dim))) as (_ & _ & Ea & _).
      unfold all_axes. rewrite Ea, Ew.
      2:{ destruct dim; [lia|discriminate]. }
      do 2 f_equal. rewrite <- Lgr at 1. rewrite collapse_grid_all, Lgr. apply map_ext_in. intros a Ha. apply in_seq in Ha. f_equal.
      rewrite Gr by lia. set (m := nth a fine 0). pose proof (Fn a ltac:(lia)) as Fm. fold m in Fm. unfold mean. rewrite map_length, seq_length.
      assert (Pm : (0 < INR m)%R) by (apply lt_0_INR; lia).
      rewrite (map_ext_in _ (fun i => low dc fd a + (high dc fd a - low dc fd a) / INR m * INR i)%R) by (intros i _; unfold edge; field; lra).
      pose proof (sum_line (low dc fd a) ((high dc fd a - low dc fd a) / INR m) (S m)) as Es.
      apply Rmult_eq_reg_l with (r := 2%R); [|lra]. rewrite S_INR in *. unfold Rdiv at 1. rewrite <- Rmult_assoc, Es. field. lra.
    - rewrite <- Lf in Hw at 1. rewrite collapse_all, Lf in Hw. eapply holds_ext; [exact Hw|]. intros idx Hi. cbv beta.
      apply in_range_snoc_inv in Hi as (z & c & -> & Hz & Hc). rewrite last_snoc.
      pose proof (Forall2_length _ _ _ Hz) as Lz. rewrite repeat_length in Lz.
      pose proof (total_equal grid (fine ++ [nc]) (fun a => (high dc fd a - low dc fd a) / INR (nth a fine 0%nat))%R
        (fun idx => f (removelast idx) (last idx 0)) c fine [] z) as T. cbn [length app Nat.add] in T. rewrite Lf in T. rewrite T.
      + unfold part_volume. fold dim. f_equal. apply sum_over_ext. intros q _. now rewrite removelast_snoc, last_snoc.
      + exact Lz.
      + intros j Hj. apply app_nth1. lia.
      + intros j k Hj Hk. rewrite Gr by exact Hj. unfold width. rewrite map_length, seq_length. pose proof (Fn j Hj) as Fj.
        destruct (Nat.leb_spec (S (nth j fine 0)) 1); [lia|]. destruct (Nat.ltb_spec (S k) (S (nth j fine 0))); [|lia].
        assert (E : forall i, i <= nth j fine 0 -> nth i (List.map (edge dc fd j (nth j fine 0)) (seq 0 (S (nth j fine 0)))) 0%R = edge dc fd j (nth j fine 0) i).
        { intros i Hi. apply nth_error_nth. rewrite nth_error_map, nth_error_seq. destruct (Nat.ltb_spec i (S (nth j fine 0))); [reflexivity|lia]. }
        rewrite !E by lia. apply edge_step. lia.
  Qed.

  (** The value at the centre of part [k] of cell [i]. *)
  Lemma part_value io b p n fs f : drawable dec root rt meta d fd io b p n fs ->
    let ns := refine dim n b in let fine := refined_shape (fd_cells fd) ns in
    (forall c q, c < fd_nc fd / length fs -> in_range fine q ->
        field_value dc fd fs c (List.map (fun a => middle dc fd a (nth a fine 0) (nth a q 0)) (seq 0 dim)) (f q c)) ->
    forall c i k, c < fd_nc fd / length fs -> in_range (fd_cells fd) i -> in_range ns k ->
      f (sub_index ns i k) c = expansion (coefficients dc fd fs c i) fs (map2 part_mid ns k).
  Proof.
    intros (Hg & Hd & Pc & Hlh & H6 & Hb & Hp & Hn & Hr & Hfs & Hnc & Hroot) ns fine V c i k Hc Hi Hk.
    assert (Hp1 : 1 <= p) by apply Hp. assert (N2 : 2 <= n) by (destruct Hn as [[_ H]|[_ ->]]; lia).
    assert (Lns : length ns = dim) by apply refine_length. assert (Pns : List.Forall (fun n => 2 <= n) ns) by (apply refine_ge2; auto).
    pose proof (Forall2_length _ _ _ Hi) as Li. pose proof (Forall2_length _ _ _ Hk) as Lk.
    assert (Hq : in_range fine (sub_index ns i k)).
    { apply sub_index_in_range; auto. }
    eapply (C120_single_valued dc fd fs c _ _ _ Hlh Pc); [exact (V c _ Hc Hq)|].
    pose proof (field_value_part dec rt fd Hlh Pc fs ns i k c _ Lns Pns Hi Hk eq_refl) as FV. fold dc in FV.
    rewrite part_mid_centres.
    erewrite map_ext_in; [exact FV|]. intros a Ha. apply in_seq in Ha. cbv beta. unfold fine. rewrite refined_nth by (auto; lia). reflexivity.
  Qed.

  Lemma volume_parts ns i : length ns = dim -> List.Forall (fun n => 2 <= n) ns -> List.Forall (fun c => 0 < c) (fd_cells fd) ->
    part_volume dc fd (refined_shape (fd_cells fd) ns) = (half_volume (cell_bounds dc fd i) * scale_of ns)%R.
  Proof.
    intros L F Pc. unfold part_volume, cell_bounds, half_volume, scale_of.
    assert (E : forall l, (forall a, In a l -> a < dim) ->
      (fold_right Rmult 1 (List.map (fun a => (high dc fd a - low dc fd a) / INR (nth a (refined_shape (fd_cells fd) ns) 0%nat)) l)
       = fold_right (fun b s => (snd b - fst b) / 2 * s) 1 (List.map (fun a => (edge dc fd a (cells_along fd a) (nth a i 0%nat), edge dc fd a (cells_along fd a) (S (nth a i 0%nat)))) l)
         * fold_right (fun n s => 2 / INR n * s) 1 (List.map (fun a => nth a ns 0%nat) l))%R).
    { induction l as [|a l IH]; intros Hl; cbn [List.map fold_right fst snd]; [ring|]. rewrite IH by (intros; apply Hl; now right).
      assert (La : a < dim) by (apply Hl; now left). rewrite refined_nth by (auto; fold dim; lia). fold (cells_along fd a).
      assert (Pa : 0 < cells_along fd a) by (apply (proj1 (Forall_forall _ _) Pc), nth_In; exact La).
      assert (Pn : 2 <= nth a ns 0) by (apply (proj1 (Forall_forall _ _) F), nth_In; lia).
      rewrite edge_step by exact Pa. rewrite mult_INR. field. split; apply not_0_INR; lia. }
    fold dim. rewrite E by (intros a Ha; apply in_seq in Ha; lia). f_equal.
    f_equal. rewrite <- L. apply nth_seq_self.
  Qed.

  (** Order one: what is printed is the integral of the field over the domain,
      whatever the number of points per cell. *)
  Theorem C122_exact io b n fs : drawable dec root rt meta d fd io b 1 n fs ->
    b = "serendipity" \/ b = "maximal-order" \/ b = "tensor" ->
    exists g w, interpolate_integrate dec root stored (field_bytes rt meta fd) io (all_axes dim) = Ok (g, w) /\
      holds (repeat 1 dim ++ [fd_nc fd / length fs]) w (fun idx => amount dc fd fs (last idx 0)).
  Proof.
    intros H Hb. destruct (C122_sum io b 1 n fs H) as (w & f & E & Hw & V).
    pose proof (part_value io b 1 n fs f H V) as PV.
    eexists. exists w. split; [exact E|]. eapply holds_ext; [exact Hw|]. intros idx Hi. cbv beta.
    apply in_range_snoc_inv in Hi as (z & c & -> & _ & Hc). rewrite last_snoc. clear z.
    destruct H as (Hg & Hd & Pc & Hlh & H6 & Hf & Hp & Hn & Hr & Hfs & Hnc & Hroot).
    assert (N2 : 2 <= n) by (destruct Hn as [[_ H]|[_ ->]]; lia).
    set (ns := refine dim n b) in *.
    assert (Lns : length ns = dim) by apply refine_length. assert (Pns : List.Forall (fun n => 2 <= n) ns) by (apply refine_ge2; auto).
    set (fine := refined_shape (fd_cells fd) ns) in *.
    assert (Ef : fine = map2 Nat.mul (fd_cells fd) ns).
    { apply refined_map2. }
    rewrite Ef at 2. rewrite sum_over_split by (fold dim; lia). unfold amount. rewrite <- sum_over_scal. apply sum_over_ext. intros i Hi.
    pose proof (Forall2_length _ _ _ Hi) as Li. fold dim in Li.
    rewrite (sum_over_ext ns _ (fun k => expansion (coefficients dc fd fs c i) fs (map2 part_mid ns k))).
    2:{ intros k Hk. rewrite <- (PV c i k Hc Hi Hk). f_equal. pose proof (Forall2_length _ _ _ Hk) as Lk. apply place2_sub; lia. }
    destruct (expansion_exps (fun a => List.Forall (fun e => (e <= 1)%nat) a) dim fs (coefficients dc fd fs c i) (order_one dim b fs Hfs Hb)) as (q & Dq & Fq & Eq).
    unfold fine. rewrite (volume_parts ns i Lns Pns Pc), Rmult_assoc.
    rewrite (sum_over_ext ns _ (fun k => evalP q (map2 part_mid ns k))).
    2:{ intros k Hk. pose proof (Forall2_length _ _ _ Hk) as Lk. apply Eq. rewrite map2_length. lia. }
    rewrite mid_poly; [|eapply Forall_impl; [|exact Pns]; cbv beta; intros; lia|rewrite Lns; exact Dq|exact Fq].
    assert (Lb : length (cell_bounds dc fd i) = dim) by (unfold cell_bounds; rewrite map_length, seq_length; reflexivity).
    rewrite (box_ext _ _ (fun xs => evalP q (map2 to_ref (cell_bounds dc fd i) xs))).
    2:{ intros xs Lx. rewrite Lb in Lx. rewrite <- Eq by (rewrite map2_length, Lb; lia). f_equal. unfold reference, cell_bounds. fold dim.
        rewrite <- Lx, map2_seq_ref. apply map_ext. intros k. reflexivity. }
    rewrite box_affine.
    - rewrite Lns, Lb. reflexivity.
    - unfold cell_bounds. apply Forall_map. apply Forall_forall. intros a Ha. apply in_seq in Ha. cbn [fst snd].
      assert (La : a < dim) by (fold dim in Ha; lia).
      assert (Pa : 0 < cells_along fd a) by (apply (proj1 (Forall_forall _ _) Pc), nth_In; exact La).
      pose proof (edge_step a (cells_along fd a) (nth a i 0) Pa) as Es. specialize (Hlh a La). fold dc in Hlh.
      assert (0 < (high dc fd a - low dc fd a) / INR (cells_along fd a))%R by (apply Rdiv_lt_0_compat; [lra|apply lt_0_INR; exact Pa]). lra.
    - rewrite Lb. exists q. split; [exact Dq|]. reflexivity.
  Qed.
End C122.

(** ** Examples *)
Ltac eqR := match goal with |- ?u = ?w => change (@eq R u w) end.
Lemma RInt_quad (a b p q r : R) : RInt (fun t => p * t * t + q * t + r)%R a b = (p * (b ^ 3 - a ^ 3) / 3 + q * (b ^ 2 - a ^ 2) / 2 + r * (b - a))%R.
Proof.
  apply is_RInt_unique.
  replace (p * (b ^ 3 - a ^ 3) / 3 + q * (b ^ 2 - a ^ 2) / 2 + r * (b - a))%R
    with (minus (p * b ^ 3 / 3 + q * b ^ 2 / 2 + r * b) (p * a ^ 3 / 3 + q * a ^ 2 / 2 + r * a))%R.
  2:{ unfold minus, plus, opp; cbn. eqR. field. }
  refine (is_RInt_derive (fun t => p * t ^ 3 / 3 + q * t ^ 2 / 2 + r * t)%R _ a b _ _).
  - intros t _. auto_derive; [exact I|]. eqR. field.
  - intros t _. apply continuity_pt_filterlim. reg.
Qed.

(** The file of [Show_Props]: two cells from 0 to 4, order 1.  The means of the
    cells are 5 and 6 times 0.7071067811865468. *)
Example C122_line_amount : (amount (byte0 8) line_file it_d1_modal_o1 0 = 22 * lit 7071067811865468 16)%R.
Proof.
  unfold amount. change (fd_cells line_file) with [2].
  cbn [sum_over seq List.map fold_right].
  assert (B : forall i, (i < 2)%nat -> box (cell_bounds (byte0 8) line_file [i]) (fun xs => expansion (coefficients (byte0 8) line_file it_d1_modal_o1 0 [i]) it_d1_modal_o1 (reference (byte0 8) line_file [i] xs))
    = (2 * nth 0 (coefficients (byte0 8) line_file it_d1_modal_o1 0 [i]) 0 * lit 7071067811865468 16)%R).
  { intros i Hi. assert (L : length (coefficients (byte0 8) line_file it_d1_modal_o1 0 [i]) = 2) by (unfold coefficients; now rewrite map_length, seq_length).
    destruct (coefficients (byte0 8) line_file it_d1_modal_o1 0 [i]) as [|u0 [|u1 [|]]]; try (cbn in L; lia). clear L.
    unfold cell_bounds. change (length (fd_cells line_file)) with 1. cbn [seq List.map box nth].
    rewrite (RInt_ext _ (fun t => 0 * t * t + (u1 * lit 1224744871391589 15) * t + (u0 * lit 7071067811865468 16 - u1 * lit 1224744871391589 15 * (2 * INR i + 1)))%R).
    2:{ intros t _. unfold reference. change (length (fd_cells line_file)) with 1. cbn [seq List.map nth]. unfold edge, cells_along, low, high.
        change (nth 0 (fd_cells line_file) 0) with 2. rewrite (S_INR i). change (byte0 8 (nth 0 (fd_lower line_file) [])) with 0%R. change (byte0 8 (nth 0 (fd_upper line_file) [])) with 4%R.
        unfold expansion, it_d1_modal_o1. cbn [combine fold_right fst snd evalR nth]. change (INR 2) with 2%R. eqR. field. lra. }
    rewrite RInt_quad. unfold edge, cells_along, low, high.
    change (nth 0 (fd_cells line_file) 0) with 2. rewrite (S_INR i). change (byte0 8 (nth 0 (fd_lower line_file) [])) with 0%R. change (byte0 8 (nth 0 (fd_upper line_file) [])) with 4%R.
    change (INR 2) with 2%R. field. }
  rewrite (B 0), (B 1) by lia.
  change (nth 0 (coefficients (byte0 8) line_file it_d1_modal_o1 0 [0]) 0%R) with 5%R.
  change (nth 0 (coefficients (byte0 8) line_file it_d1_modal_o1 0 [1]) 0%R) with 6%R. ring.
Qed.

Example C122_line : forall stored, exists g w, interpolate_integrate byte0 iroot stored (field_bytes 2 line_meta line_file) asis "0" = Ok (g, w) /\
  get w [0; 0] = Some (22 * lit 7071067811865468 16)%R.
Proof.
  intros stored. destruct C120_line_hyps as (H & _).
  destruct (C122_exact byte0 iroot stored 2 line_meta line_dict line_file asis "serendipity" 2 it_d1_modal_o1 H (or_introl eq_refl)) as (g & w & E & Hw).
  exists g, w. split; [exact E|]. destruct Hw as (_ & _ & V). rewrite V by (repeat constructor). f_equal. exact C122_line_amount.
Qed.

(** One cell from 0 to 2 and one field of order 2, whose only coefficient is that
    of the third function. *)
Definition quad_meta : list Z := ([130] ++ ([169] ++ codes "polyOrder") ++ [2] ++ ([169] ++ codes "basisType") ++ ([171] ++ codes "serendipity"))%Z.
Definition quad_dict : list (mkey * mval) := [((false, "polyOrder"), MInt 2); ((false, "basisType"), MStr "serendipity")].
Definition quad_file : field := mk_field [1] 3 [num 0] [num 2] [num 0; num 0; num 1].

Example quad_hyps : drawable byte0 iroot 2 quad_meta quad_dict quad_file asis "serendipity" 2 3 it_d1_modal_o2 /\
  length (fd_cells quad_file) = 1.
Proof.
  split; [|reflexivity]. split; [good_field_tac|].
  split; [right; apply C118_only; [apply bytes_b; vm_compute; reflexivity|vm_compute; reflexivity]|]. split; [repeat constructor|].
  split; [intros [|k] Hk; [unfold low, high, byte0; cbn; lra|cbn in Hk; lia]|]. split; [cbn; lia|].
  split.
  { exists "serendipity". split; [right; split; [reflexivity|]; split; [|split; [discriminate|]]|right; split; [intros (_ & E); discriminate E|reflexivity]].
    - exists "basisType". split; [now left|]. split; [right; now left|]. intros k w Hk [E|[E|[]]]; inversion E; subst; [|reflexivity]. exfalso. destruct Hk as [X|[X|[]]]; discriminate X.
    - intros w [E|[E|[]]]; discriminate E. }
  split.
  { split; [lia|]. right. split; [reflexivity|]. exists "polyOrder". split; [now left|]. split; [now left|].
    intros k w Hk [E|[E|[]]]; inversion E; subst; [reflexivity|]. exfalso. destruct Hk as [X|[X|[]]]; discriminate X. }
  split; [right; split; [now left|reflexivity]|]. split; [split; [cbn; lia|split; [discriminate|intros _; now left]]|].
  split; [reflexivity|]. split; [vm_compute; lia|]. intros m. apply (iroot_pow 1). lia.
Qed.

Lemma quad_amount : (- (1 / 1000) < amount (byte0 8) quad_file it_d1_modal_o2 0)%R.
Proof.
  unfold amount. change (fd_cells quad_file) with [1].
  cbn [sum_over seq List.map fold_right]. unfold cell_bounds. change (length (fd_cells quad_file)) with 1. cbn [seq List.map box nth].
  change (coefficients (byte0 8) quad_file it_d1_modal_o2 0 [0]) with [0; 0; 1]%R.
  rewrite (RInt_ext _ (fun t => lit 2371708245126285 15 * t * t + (- 2 * lit 2371708245126285 15) * t + (lit 2371708245126285 15 - lit 7905694150420951 16))%R).
  2:{ intros t _. unfold reference. change (length (fd_cells quad_file)) with 1. cbn [seq List.map nth]. unfold edge, cells_along, low, high.
      change (nth 0 (fd_cells quad_file) 0) with 1. change (byte0 8 (nth 0 (fd_lower quad_file) [])) with 0%R. change (byte0 8 (nth 0 (fd_upper quad_file) [])) with 2%R.
      unfold expansion, it_d1_modal_o2. cbn [combine fold_right fst snd evalR nth INR]. eqR. field. }
  rewrite RInt_quad. unfold edge, cells_along, low, high.
  change (nth 0 (fd_cells quad_file) 0) with 1. change (byte0 8 (nth 0 (fd_lower quad_file) [])) with 0%R. change (byte0 8 (nth 0 (fd_upper quad_file) [])) with 2%R.
  cbn [INR]. unfold lit. cbn [pow]. lra.
Qed.

(** From order 2 on what is printed need not be the integral: here it is below
    -1/10, the integral above -1/1000. *)
Theorem C122_order2_refuted : exists dec root rt meta d fd fs,
  drawable dec root rt meta d fd asis "serendipity" 2 3 fs /\
  (- (1 / 1000) < amount (dec (width_of rt)) fd fs 0)%R /\
  forall stored, exists g w v, interpolate_integrate dec root stored (field_bytes rt meta fd) asis (all_axes 1) = Ok (g, w) /\
    get w [0; 0] = Some v /\ (v < - (1 / 10))%R.
Proof.
  exists byte0, iroot, 2%Z, quad_meta, quad_dict, quad_file, it_d1_modal_o2. destruct quad_hyps as (H & _). split; [exact H|].
  split; [exact quad_amount|]. intros stored.
  destruct (C122_sum byte0 iroot stored 2 quad_meta quad_dict quad_file asis "serendipity" 2 3 it_d1_modal_o2 H) as (w & f & E & (_ & _ & V) & Hf).
  pose proof (part_value byte0 iroot 2 quad_meta quad_dict quad_file asis "serendipity" 2 3 it_d1_modal_o2 f H Hf 0 [0]) as PV.
  eexists. exists w. eexists. split; [exact E|]. split; [apply V; repeat constructor|]. cbn [last].
  assert (Q : forall k, (k < 3)%nat -> f [k] 0 = (lit 2371708245126285 15 * (part_mid 3 k * part_mid 3 k) - lit 7905694150420951 16)%R).
  { intros k Hk. specialize (PV [k]). change (sub_index (refine (length (fd_cells quad_file)) 3 "serendipity") [0] [k]) with [k] in PV.
    rewrite PV; [|vm_compute; lia|repeat constructor|constructor; [exact Hk|constructor]].
    change (coefficients (byte0 (width_of 2)) quad_file it_d1_modal_o2 0 [0]) with [0; 0; 1]%R.
    change (map2 part_mid (refine (length (fd_cells quad_file)) 3 "serendipity") [k]) with [part_mid 3 k].
    unfold expansion, it_d1_modal_o2. cbn [combine fold_right fst snd evalR nth pow]. ring. }
  change (refined_shape (fd_cells quad_file) (refine (length (fd_cells quad_file)) 3 "serendipity")) with [3].
  cbn [sum_over seq List.map fold_right]. rewrite (Q 0), (Q 1), (Q 2) by lia.
  unfold part_volume. change (length (fd_cells quad_file)) with 1. cbn [seq List.map fold_right nth]. unfold low, high.
  change (byte0 (width_of 2) (nth 0 (fd_lower quad_file) [])) with 0%R. change (byte0 (width_of 2) (nth 0 (fd_upper quad_file) [])) with 2%R.
  unfold part_mid, lit. cbn [INR pow]. lra.
Qed.

Print Assumptions C122_sum.
Print Assumptions C122_exact.
Print Assumptions C122_order2_refuted.
