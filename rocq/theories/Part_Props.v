(** * C124: interpolating and plotting a part of a file *)
From Coq Require Import String Ascii List Arith ZArith Bool Lia Reals Lra.
From Verif Require Import Prelude PreludeFacts NdArray Gkyl_Model Gkyl_Spec Gkyl_Proofs Gkyl_Proofs2 Gkyl_Proofs3 Gkyl_Props Msgpack_Model Msgpack_Spec Msgpack_Props
  Dg_Poly Dg_TabI Dg_TabD Dg_Model Dg_Spec Dg_Props Dg_Props3 Dg_Sem Dg_Gram Dg_Props5 DgCmd_Model Dg_Props8
  Tools_Arr Draw_Model Draw_Spec Draw_Proofs Draw_Proofs2 Draw_Props Draw_Props2 Show_Model Show_Spec Show_Proofs Show_Props Part_Model Part_Proofs.
Import ListNotations.
Open Scope string_scope. Open Scope list_scope. Open Scope nat_scope.

Section C124.
  Context (dec : nat -> list Z -> R) (root : nat -> nat -> nat) (stored : nat -> nat -> res (list (list R))).
  Context (rt : Z) (meta : list Z) (d : list (mkey * mval)) (fd : field) (f : list Z).
  Let dc := dec (width_of rt).
  Let dim := length (fd_cells fd).

  (** Number of the first edge of the part among those of the interpolated whole. *)
  Definition first_edge (abs : list (nat * nat)) (ns : list nat) (a : nat) : nat := fst (nth a abs (0, 0)) * nth a ns 0.

  (** The part has whole fields, the first of them number [k] of the file. *)
  Definition whole_fields (ps : list string) (abs : list (nat * nat)) (ca cb k : nat) (fs : list pexp) : Prop :=
    cuts_select ps (fd_cells fd) (fd_nc fd) abs ca cb /\ ca = k * length fs /\ length fs <= cb - ca.

  (** A distributed file gives what the file in one piece does. *)
  Theorem C124_distributed io b p n fs : drawable dec root rt meta d fd io b p n fs -> stores rt meta fd f ->
    interpolate_file dec root stored f io = interpolate_file dec root stored (field_bytes rt meta fd) io /\
    forall o, interpolate_plot dec root stored f io o = interpolate_plot dec root stored (field_bytes rt meta fd) io o.
  Proof.
    intros (Hg & Hd & Pc & _ & _ & _ & Hp & _ & Hr & Hfs & Hnc & _) Hs. unfold interpolate_plot, interpolate_file.
    rewrite (open_stores dec rt meta d fd f Hg Hd Hs); [split; reflexivity| |exact Pc].
    pose proof (modal_size _ _ _ _ Hr (proj1 Hp) Hfs) as HN. destruct fs; [|cbn [length] in Hnc; lia]. exfalso. clear - HN Hfs. revert Hfs HN. unfold interp_functions. cbn [andb negb].
    repeat match goal with
    | |- (if Nat.eqb _ ?k then _ else _) = _ -> _ => destruct (Nat.eqb _ k)
    | |- (if String.eqb _ ?k then _ else _) = _ -> _ => destruct (String.eqb _ k)
    | |- Err _ = Ok _ -> _ => discriminate
    end; discriminate.
  Qed.

  Lemma part_dataset io b p n fs ps abs ca cb k : drawable dec root rt meta d fd io b p n fs -> stores rt meta fd f -> whole_fields ps abs ca cb k fs ->
    let ns := refine dim n b in
    let whole := refined_shape (fd_cells fd) ns in
    let fine := refined_shape (cut_cells abs) ns in
    Forall (fun m => 2 <= m) fine /\ length fine = dim /\ 0 < length fs /\
    exists y g, interpolate_part dec root stored f ps io = Ok y /\
      dataset true fine (fun a i => edge dc fd a (nth a whole 0) (first_edge abs ns a + i)) ((cb - ca) / length fs) g (to_draw y) /\
      forall c q, c < (cb - ca) / length fs -> in_range fine q ->
        field_value dc fd fs (k + c) (List.map (fun a => middle dc fd a (nth a whole 0) (first_edge abs ns a + nth a q 0)) (seq 0 dim)) (g q c).
  Proof.
    intros (Hg & Hd & Pc & Hlh & H6 & Hb & Hp & Hn & Hr & Hfs & Hnc & Hroot) Hs (Hcut & Hk & Hw) ns whole fine.
    destruct (open_part_described dec rt meta d fd f Hg Hd Hs ps abs ca cb Hcut) as (x' & y & Ex' & Ey & Sb & Sp & Sm & Ty & Wy & Sy & Vy & Uy).
    destruct (open_described dec rt meta d fd Hg Hd) as (x & ctx & Ex & Hx & Eb & Ep & Em & K1 & K2).
    rewrite Ex in Ex'. injection Ex' as <-. destruct (cuts_good _ _ _ _ _ _ Hcut) as [[Hla Hgc] Hcc].
    pose proof (told_asked_family io y ctx d dim b (eq_trans Sb Eb) (eq_trans Sm Em) K2 Hb) as Af. pose proof (told_asked_order io y ctx d p (eq_trans Sp Ep) K1 Hp) as Ao.
    assert (Hp1 : 1 <= p) by apply Hp. assert (N2 : 2 <= n) by (destruct Hn as [[_ H]|[_ ->]]; lia).
    pose proof (modal_size _ _ _ _ Hr Hp1 Hfs) as HN.
    pose proof Hx as (Wx & Sx & Fx & _).
    assert (Lc : length (cut_cells abs) = dim) by (unfold cut_cells; rewrite map_length; exact Hla).
    destruct (asked_init io y dim b p n (length fs) Af Ao Hn) as (E1 & E2 & E3); [unfold dd_dims; now rewrite Sy, removelast_snoc|exact HN|].
    assert (F1 : 1 <= length fs).
    { destruct fs as [|? ?]; [|cbn; lia]. exfalso. clear - HN Hfs. revert Hfs HN. unfold interp_functions. cbn [andb negb].
      repeat match goal with
      | |- (if Nat.eqb _ ?k then _ else _) = _ -> _ => destruct (Nat.eqb _ k)
      | |- (if String.eqb _ ?k then _ else _) = _ -> _ => destruct (String.eqb _ k)
      | |- Err _ = Ok _ -> _ => discriminate
      end; discriminate. }
    set (g := mk_ginterp dim p b n (length fs)) in *. set (comps := seq 0 ((cb - ca) / length fs)).
    assert (Lns : length ns = dim) by apply refine_length. assert (Pns : Forall (fun n => 2 <= n) ns) by (apply refine_ge2; auto).
    assert (Lf : length fine = dim) by (unfold fine; rewrite refined_length; lia).
    assert (Hh : b = "hybrid" -> 2 <= dim).
    { intros ->. destruct Hr as (R1 & _ & R2). destruct (Nat.eq_dec dim 1) as [E|]; [|lia]. exfalso. destruct (R2 E) as [C|[C|C]]; discriminate. }
    assert (Pcut : Forall (fun c => 0 < c) (cut_cells abs)).
    { apply Forall_forall. intros m Hm. apply In_nth_error in Hm as (a & Ha). unfold cut_cells in Ha. rewrite nth_error_map in Ha. destruct (nth_error abs a) as [[u v]|] eqn:Ea; [|discriminate].
      injection Ha as <-. destruct (nth_error (fd_cells fd) a) as [m|] eqn:Em2; [pose proof (Hgc _ _ _ _ Em2 Ea); cbn [fst snd]; lia|].
      apply nth_error_None in Em2. assert (a < length abs) by (apply nth_error_Some; congruence). lia. }
    assert (Lg : gi_dims g = length (cut_cells abs)) by (cbn [g gi_dims]; lia).
    assert (Dok : dims_ok (length (cut_cells abs)) (gi_basis g)) by (rewrite Lc; split; apply Hr).
    assert (Hh' : gi_basis g = "hybrid" -> 2 <= length (cut_cells abs)) by (rewrite Lc; exact Hh).
    assert (Hfs' : interp_functions (gi_dims g) (gi_poly g) true (gi_basis g) = Ok fs) by exact Hfs.
    assert (Hroot' : forall m, root (length (cut_cells abs)) (m ^ length (cut_cells abs)) = m) by (rewrite Lc; exact Hroot).
    assert (Hns : refine (length (cut_cells abs)) (gi_interp g) (gi_basis g) = ns) by (rewrite Lc; reflexivity).
    destruct (C36_interpolated_value (i_data y) g comps (cut_cells abs) (cb - ca) fs Wy Sy Lg Dok Hh' Hfs' eq_refl N2) as (v & Ev & Wv & Sv & V).
    { unfold comps. pose proof (Nat.div_str_pos (cb - ca) (length fs)) as H. destruct ((cb - ca) / length fs); [lia|discriminate]. }
    { intros c Hc. apply in_seq in Hc. pose proof (Nat.mul_div_le (cb - ca) (length fs)). nia. }
    rewrite Hns in Sv, V. fold fine in Sv.
    pose proof (modal_grid_uniform evalR root (i_data y) g (cut_cells abs) fs _ _ Pcut Lg Dok Hh' Hfs' N2 Hroot' Ty Uy) as Gr. cbv zeta in Gr. rewrite Hns, Lc in Gr.
    assert (Fine2 : Forall (fun m => 2 <= m) fine).
    { apply Forall_forall. intros m Hm. apply (In_nth _ _ 0) in Hm as (a & La & <-). rewrite Lf in La. unfold fine. rewrite refined_nth by lia.
      rewrite <- Lc in La. pose proof (proj1 (Forall_forall _ _) Pcut _ (nth_In _ 0 La)) as H1. rewrite Lc, <- Lns in La. pose proof (proj1 (Forall_forall _ _) Pns _ (nth_In _ 0 La)) as H2. cbv beta in H1, H2. nia. }
    split; [exact Fine2|]. split; [exact Lf|]. split; [lia|].
    eexists _, (fun q c => match get v (q ++ [c]) with Some r => r | None => 0%R end).
    unfold interpolate_part. rewrite Ey. cbn [bind].
    unfold interpolate_data. cbv zeta. rewrite E1, E2, E3. cbn [bind gi_nodes g]. unfold dd_ncomps. rewrite Sy, last_snoc. fold comps g.
    unfold modal_interpolate. rewrite Ev. cbn [bind]. rewrite Gr. cbn [bind fst snd].
    split; [reflexivity|].
    assert (Gv : forall c q, c < (cb - ca) / length fs -> in_range fine q -> exists r, get v (q ++ [c]) = Some r /\ field_value dc fd fs (k + c) (Show_Proofs.mids dc fd ns (moved abs ns q)) r).
    { intros c q Hc Hq. assert (Hj : nth_error comps c = Some c) by (unfold comps; rewrite nth_error_seq; destruct (Nat.ltb_spec c ((cb - ca) / length fs)); [reflexivity|lia]).
      destruct (sub_index_onto (cut_cells abs) ns q) as (i & kk & Hi & Hkk & ->); [lia|eapply Forall_impl; [|exact Pns]; cbv beta; intros; lia|exact Hq|].
      destruct (V c c i kk Hj Hi Hkk) as (u & Lu & Vu & G). exists (expansion u fs (centres ns kk)). split; [exact G|].
      pose proof (Forall2_length _ _ _ Hi) as Li. pose proof (Forall2_length _ _ _ Hkk) as Lk.
      rewrite moved_sub by lia.
      pose proof (in_moved (fd_cells fd) abs i Hla Hgc Hi) as Hi'. pose proof (Nat.mul_div_le (cb - ca) (length fs)) as Md.
      assert (Bc : c * length fs + length fs <= cb - ca) by nia.
      apply field_value_part; auto. apply (coefficients_of dec rt fd (dd_values (i_data x))); auto; [apply Hg|nia|].
      intros m Hm. rewrite (Vu m Hm), Vy by (auto; lia). do 3 f_equal. rewrite Hk. lia. }
    split.
    - unfold dataset, to_draw, push. cbn [p_grid p_cells p_vals i_data dd_grid dd_values].
      rewrite Sv, removelast_snoc.
      split; [eapply Forall_impl; [|exact Fine2]; cbv beta; intros; lia|]. split; [lia|]. split; [|split; [reflexivity|]].
      + split; [rewrite map_length, seq_length, Lf; reflexivity|]. intros a x0 m Hx0 Hm. rewrite nth_error_map, nth_error_seq in Hx0.
        destruct (Nat.ltb_spec a dim) as [La|La]; [|discriminate]. cbn [option_map Nat.add] in Hx0. injection Hx0 as <-.
        assert (Em2 : m = nth a ns 0 * nth a (cut_cells abs) 0).
        { pose proof (nth_error_nth _ _ 0 Hm) as E. unfold fine in E. rewrite refined_nth in E by lia. lia. }
        rewrite <- Em2. unfold points. unfold fine in Hm. fold fine in Hm.
        assert (Hm2 : 2 <= m) by (eapply (proj1 (Forall_forall _ _) Fine2), nth_error_In; eauto).
        split; [|split].
        * unfold wf, line_nda. cbn [flat shape]. unfold prod. cbn [fold_right]. lia.
        * unfold line_nda. cbn [shape]. now rewrite rlinspace_length.
        * intros idx Hidx. apply in_one in Hidx as (i & -> & Hi). cbn [hd]. unfold get, line_nda. cbn [shape flat ravel]. rewrite rlinspace_length.
          destruct (Nat.ltb_spec i (S m)); [|lia]. unfold prod. cbn [option_map fold_right]. rewrite Nat.mul_1_r, Nat.add_0_r.
          rewrite rlinspace_nth by lia. f_equal.
          destruct (nth_error (fd_cells fd) a) as [N|] eqn:EN; [|apply nth_error_None in EN; fold dim in EN; lia].
          destruct (nth_error abs a) as [[u w]|] eqn:Ea; [|apply nth_error_None in Ea; lia]. pose proof (Hgc _ _ _ _ EN Ea) as Huv.
          unfold first_edge, whole. rewrite refined_nth by lia. unfold edge, cells_along. rewrite (nth_error_nth _ _ 0 EN), (nth_error_nth _ _ (0, 0) Ea). cbn [fst snd].
          assert (Ecut : nth a (cut_cells abs) 0 = w - u) by (apply nth_error_nth; unfold cut_cells; now rewrite nth_error_map, Ea).
          rewrite Ecut in Em2. set (s := nth a ns 0) in *. rewrite Em2 in *.
          assert (P1 : (0 < INR N)%R) by (apply lt_0_INR; lia). assert (P2 : (0 < INR s)%R) by (apply lt_0_INR; nia). assert (P3 : (0 < INR (w - u))%R) by (apply lt_0_INR; lia).
          replace (INR w) with (INR u + INR (w - u))%R by (rewrite <- plus_INR; f_equal; lia).
          rewrite plus_INR, !mult_INR. unfold dc. field. lra.
      + split; [exact Wv|]. split; [rewrite Sv; unfold comps; now rewrite seq_length|]. intros q c Hq Hc.
        destruct (Gv c q Hc Hq) as (r & -> & _). reflexivity.
    - intros c q Hc Hq. destruct (Gv c q Hc Hq) as (r & -> & H). unfold Show_Proofs.mids in H. pose proof (Forall2_length _ _ _ Hq) as Lq.
      erewrite map_ext_in; [exact H|]. intros a Ha. cbv beta. apply in_seq in Ha. unfold whole. rewrite refined_nth by lia. unfold first_edge. rewrite moved_nth by lia. reflexivity.
  Qed.

  (** What [interpolate] makes of a part: its edges are edges of the equal cells
      that divide the whole domain, and the value in each of these is that of the
      field of the whole file at the centre. *)
  Theorem C124_values io b p n fs ps abs ca cb k : drawable dec root rt meta d fd io b p n fs -> stores rt meta fd f -> whole_fields ps abs ca cb k fs ->
    let ns := refine dim n b in
    let whole := refined_shape (fd_cells fd) ns in
    let fine := refined_shape (cut_cells abs) ns in
    exists y g, interpolate_part dec root stored f ps io = Ok y /\
      dataset true fine (fun a i => edge dc fd a (nth a whole 0) (first_edge abs ns a + i)) ((cb - ca) / length fs) g (to_draw y) /\
      forall c q, c < (cb - ca) / length fs -> in_range fine q ->
        field_value dc fd fs (k + c) (List.map (fun a => middle dc fd a (nth a whole 0) (first_edge abs ns a + nth a q 0)) (seq 0 dim)) (g q c).
  Proof. intros H Hs Hw ns whole fine. destruct (part_dataset io b p n fs ps abs ca cb k H Hs Hw) as (_ & _ & _ & R). exact R. Qed.

  (** Interpolating the part and interpolating the whole, then taking the part, are
      the same. *)
  Theorem C124_same io b p n fs ps abs ca cb k : drawable dec root rt meta d fd io b p n fs -> stores rt meta fd f -> whole_fields ps abs ca cb k fs ->
    let ns := refine dim n b in
    let fine := refined_shape (cut_cells abs) ns in
    exists x y, interpolate_file dec root stored f io = Ok x /\ interpolate_part dec root stored f ps io = Ok y /\
      shape (dd_values (i_data x)) = refined_shape (fd_cells fd) ns ++ [fd_nc fd / length fs] /\
      shape (dd_values (i_data y)) = fine ++ [(cb - ca) / length fs] /\
      (forall c q, c < (cb - ca) / length fs -> in_range fine q ->
        get (dd_values (i_data y)) (q ++ [c]) = get (dd_values (i_data x)) (moved abs ns q ++ [k + c]) /\
        get (dd_values (i_data y)) (q ++ [c]) <> None) /\
      (forall a, a < dim -> exists gx gy, nth_error (dd_grid (i_data x)) a = Some gx /\ nth_error (dd_grid (i_data y)) a = Some gy /\
        shape gx = [S (nth a (refined_shape (fd_cells fd) ns) 0)] /\ shape gy = [S (nth a fine 0)] /\
        forall i, i <= nth a fine 0 -> get gy [i] = get gx [first_edge abs ns a + i] /\ get gy [i] <> None).
  Proof.
    intros H Hs Hw ns fine. destruct (part_dataset io b p n fs ps abs ca cb k H Hs Hw) as (F2 & Lf & F1 & y & g & Ey & Dy & Vy).
    destruct (C124_distributed io b p n fs H Hs) as [ED _].
    destruct (interpolated_dataset dec root stored rt meta d fd io b p n fs H) as (W2 & Lw & x0 & x & h & Ex0 & Ex & Dx & Vx).
    exists x, y. split; [rewrite ED; unfold interpolate_file; rewrite Ex0; exact Ex|]. split; [exact Ey|].
    destruct Dx as (_ & _ & Gx & _ & _ & Sx & Hx). destruct Dy as (_ & _ & Gy & _ & _ & Sy & Hy).
    cbn [to_draw p_vals p_grid] in *. split; [exact Sx|]. split; [exact Sy|].
    destruct H as (Hg & Hd & Pc & Hlh & _). destruct Hw as (Hcut & Hk & Hw). destruct (cuts_good _ _ _ _ _ _ Hcut) as [[Hla Hgc] Hcc].
    assert (Lns : length ns = dim) by apply refine_length.
    assert (Lc : length (cut_cells abs) = dim) by (unfold cut_cells; rewrite map_length; exact Hla).
    assert (Bnd : forall a, a < dim -> exists u w, nth a abs (0, 0) = (u, w) /\ u < w <= nth a (fd_cells fd) 0 /\ nth a (cut_cells abs) 0 = w - u).
    { intros a Ha. destruct (nth_error (fd_cells fd) a) as [N|] eqn:EN; [|apply nth_error_None in EN; fold dim in EN; lia].
      destruct (nth_error abs a) as [[u w]|] eqn:Ea; [|apply nth_error_None in Ea; lia]. pose proof (Hgc _ _ _ _ EN Ea) as Huv.
      exists u, w. rewrite (nth_error_nth _ _ 0 EN), (nth_error_nth _ _ (0, 0) Ea). split; [reflexivity|]. split; [exact Huv|]. apply nth_error_nth. unfold cut_cells. now rewrite nth_error_map, Ea. }
    split.
    - intros c q Hc Hq. assert (Lq : length q = dim) by (rewrite (Forall2_length _ _ _ Hq); exact Lf). fold ns fine in Hc, Hq, Hy, Vy.
      rewrite (Hy q c Hq Hc). assert (Bc : k + c < fd_nc fd / length fs).
      { apply Nat.div_le_lower_bound; [lia|]. pose proof (Nat.mul_div_le (cb - ca) (length fs)). nia. }
      assert (Hm : in_range (refined_shape (fd_cells fd) ns) (moved abs ns q)).
      { apply Forall2_nth_error_intro; [unfold moved; rewrite refined_length by exact Lns; fold dim; rewrite map2_length, combine_length; lia|].
        intros a u m Hu Hm. apply nth_error_nth with (d := 0) in Hu. assert (La : a < dim) by (assert (X : a < length (refined_shape (fd_cells fd) ns)) by (apply nth_error_Some; congruence); rewrite refined_length in X by exact Lns; exact X).
        apply nth_error_nth with (d := 0) in Hm. rewrite refined_nth in Hm by lia. rewrite moved_nth in Hu by lia.
        pose proof (in_range_nth fine q a Hq (eq_ind_r (fun z => a < z) La Lf)) as Hqa. unfold fine in Hqa. rewrite refined_nth in Hqa by lia.
        destruct (Bnd a La) as (x1 & x2 & B1 & B2 & B3). rewrite B1 in Hu. rewrite B3 in Hqa. cbn [fst] in Hu. subst u m. nia. }
      split; [|discriminate]. rewrite (Hx _ _ Hm Bc). f_equal.
      pose proof (Vy c q Hc Hq) as V1. pose proof (Vx (k + c) _ Bc Hm) as V2.
      apply (C120_single_valued dc fd fs (k + c) _ _ _ Hlh Pc V1). cbv beta in V2. erewrite map_ext_in; [exact V2|].
      intros a Ha. apply in_seq in Ha. cbv beta. f_equal. rewrite moved_nth by lia. reflexivity.
    - intros a Ha. destruct Gx as [Lgx Gx]. destruct Gy as [Lgy Gy]. assert (Lgx' : length (dd_grid (i_data x)) = dim) by (rewrite Lgx; exact Lw). assert (Lgy' : length (dd_grid (i_data y)) = dim) by (rewrite Lgy; exact Lf).
      destruct (nth_error (dd_grid (i_data x)) a) as [gx|] eqn:Egx; [|apply nth_error_None in Egx; lia].
      destruct (nth_error (dd_grid (i_data y)) a) as [gy|] eqn:Egy; [|apply nth_error_None in Egy; lia].
      destruct (Gx a gx (nth a (refined_shape (fd_cells fd) ns) 0) Egx) as (_ & Sgx & Vgx); [apply nth_error_nth'; exact (eq_ind_r (fun z => a < z) Ha Lw)|].
      destruct (Gy a gy (nth a fine 0) Egy) as (_ & Sgy & Vgy); [apply nth_error_nth'; exact (eq_ind_r (fun z => a < z) Ha Lf)|].
      exists gx, gy. split; [reflexivity|]. split; [reflexivity|]. split; [exact Sgx|]. split; [exact Sgy|].
      intros i Hi. unfold points in Vgx, Vgy. rewrite Vgy by (constructor; [lia|constructor]). split; [|discriminate]. symmetry. apply Vgx. constructor; [|constructor].
      destruct (Bnd a Ha) as (x1 & x2 & B1 & B2 & B3). unfold first_edge. rewrite B1. cbn [fst]. rewrite refined_nth by lia.
      unfold fine in Hi. rewrite refined_nth, B3 in Hi by lia. nia.
  Qed.

  Lemma mid_moved a m s i : 0 < m -> (((edge dc fd a m (s + i) + edge dc fd a m (s + S i)) / 2) = middle dc fd a m (s + i))%R.
  Proof.
    intros Hm. assert (P : (0 < INR m)%R) by (apply lt_0_INR; exact Hm). unfold edge, middle. rewrite !plus_INR, S_INR. field. lra.
  Qed.

  (** One dimension: the curves of the plot of a part are stretches of those of
      the whole. *)
  Theorem C124_curve io b p n fs ps abs ca cb k o : drawable dec root rt meta d fd io b p n fs -> stores rt meta fd f -> whole_fields ps abs ca cb k fs -> dim = 1 ->
    let r := nth 0 (refine 1 n b) 0 in
    let whole := cells_along fd 0 * r in
    let s := fst (nth 0 abs (0, 0)) * r in
    let m := (snd (nth 0 abs (0, 0)) - fst (nth 0 abs (0, 0))) * r in
    exists calls labels, part_plot dec root stored f ps io o = Ok (calls, labels) /\
      length calls = ((cb - ca) / length fs) / (if o_stream o || o_quiver o then 2 else 1) /\
      forall c cs, nth_error calls c = Some cs ->
        exists x y v, cs = [Curve x y] /\
          holds [m] x (fun i => (middle dc fd 0 whole (s + hd 0%nat i) + o_xshift o) * o_xscale o)%R /\
          holds [m] y (fun i => (v (hd 0%nat i) + o_yshift o) * o_yscale o)%R /\
          forall i, i < m -> field_value dc fd fs (k + c) [middle dc fd 0 whole (s + i)] (v i).
  Proof.
    intros H Hs Hw D1 r whole s m. destruct (part_dataset io b p n fs ps abs ca cb k H Hs Hw) as (F2 & Lf & F1 & y & g & Ey & Dy & V).
    unfold part_plot. rewrite Ey. cbn [bind].
    set (fine := refined_shape (cut_cells abs) (refine dim n b)) in *. set (wh := refined_shape (fd_cells fd) (refine dim n b)) in *.
    destruct Hw as (Hcut & Hk & Hw). destruct (cuts_good _ _ _ _ _ _ Hcut) as [[Hla Hgc] Hcc].
    assert (Lc : length (cut_cells abs) = dim) by (unfold cut_cells; rewrite map_length; exact Hla).
    assert (Ewh : nth 0 wh 0 = whole) by (unfold wh, whole, r, cells_along; rewrite refined_nth, D1; [reflexivity|apply refine_length|fold dim; lia]).
    assert (Ef : fine = [m]).
    { destruct fine as [|m' [|]] eqn:E; try (cbn [length] in Lf; lia). f_equal.
      change m' with (nth 0 [m'] 0). rewrite <- E. unfold fine. rewrite refined_nth; [|rewrite refine_length; lia|lia]. rewrite D1. unfold m, r. f_equal.
      destruct abs as [|[u w] l]; [cbn [length] in Hla; fold dim in Hla; lia|reflexivity]. }
    assert (Hm : 2 <= m) by (rewrite Ef in F2; now inversion F2).
    assert (Hwh : 0 < whole).
    { unfold whole, m in *. destruct (cells_along fd 0) as [|N] eqn:EN; [|nia]. exfalso.
      destruct (nth_error (fd_cells fd) 0) as [N|] eqn:EN0; [|apply nth_error_None in EN0; fold dim in EN0; lia].
      destruct (nth_error abs 0) as [[u w]|] eqn:Ea; [|apply nth_error_None in Ea; lia]. pose proof (Hgc _ _ _ _ EN0 Ea) as Huv.
      unfold cells_along in EN. rewrite (nth_error_nth _ _ 0 EN0) in EN. lia. }
    assert (Es : forall i, first_edge abs (refine dim n b) 0 + i = s + i) by (intros i; unfold first_edge, s, r; now rewrite D1).
    destruct (C90_line o true fine _ _ g (to_draw y) 0 m Dy) as (calls & labels & Ep & Lca & _ & Hc).
    { rewrite Ef. split; [exact Hm|]. split; [reflexivity|]. intros [|[|j]] c' Nk Hk'; [now elim Nk|discriminate Hk'|discriminate Hk']. }
    exists calls, labels. split; [exact Ep|]. split; [exact Lca|]. intros c cs Hcs. destruct (Hc c cs Hcs) as (x0 & y0 & -> & Hx & Hy).
    assert (Lt : c < (cb - ca) / length fs).
    { assert (H0 : c < length calls) by (apply nth_error_Some; congruence). rewrite Lca in H0. destruct (o_stream o || o_quiver o); [|now rewrite Nat.div_1_r in H0].
      pose proof (Nat.mul_div_le ((cb - ca) / length fs) 2). lia. }
    exists x0, y0, (fun i => g [i] c). split; [reflexivity|]. rewrite Ef in Hy. cbn [length] in Hy. split; [|split].
    - eapply holds_ext; [exact Hx|]. intros idx Hi. apply in_one in Hi as (i & -> & Hi). cbn [hd]. do 2 f_equal. unfold mid_of. rewrite !Es, Ewh.
      apply mid_moved. exact Hwh.
    - eapply holds_ext; [exact Hy|]. intros idx Hi. apply in_one in Hi as (i & -> & Hi). reflexivity.
    - intros i Hi. specialize (V c [i] Lt). rewrite Ef in V. assert (Hi1 : in_range [m] [i]) by (constructor; [exact Hi|constructor]). specialize (V Hi1).
      replace (seq 0 dim) with [0] in V by (rewrite D1; reflexivity). cbn [List.map nth] in V. rewrite Es, Ewh in V. exact V.
  Qed.

  (** Two dimensions: the coloured rectangles are those of the plot of the whole
      that lie in the part. *)
  Theorem C124_colours io b p n fs ps abs ca cb k o : drawable dec root rt meta d fd io b p n fs -> stores rt meta fd f -> whole_fields ps abs ca cb k fs -> dim = 2 ->
    o_contour o = false -> o_quiver o = false -> o_stream o = false -> o_lineouts o = None ->
    let r := fun a => nth a (refine 2 n b) 0 in
    let whole := fun a => cells_along fd a * r a in
    let s := fun a => fst (nth a abs (0, 0)) * r a in
    let m := fun a => (snd (nth a abs (0, 0)) - fst (nth a abs (0, 0))) * r a in
    exists calls labels, part_plot dec root stored f ps io o = Ok (calls, labels) /\
      length calls = (cb - ca) / length fs /\
      forall c cs, nth_error calls c = Some cs ->
        exists x y z vmin vmax ext v, cs = [Mesh x y z vmin vmax ext] /\
          holds [S (m 0)] x (fun i => (edge dc fd 0 (whole 0%nat) (s 0%nat + hd 0%nat i) + o_xshift o) * o_xscale o)%R /\
          holds [S (m 1)] y (fun j => (edge dc fd 1 (whole 1%nat) (s 1%nat + hd 0%nat j) + o_yshift o) * o_yscale o)%R /\
          holds [m 1; m 0] z (fun ji => (v (nth 1%nat ji 0%nat) (hd 0%nat ji) + o_zshift o) * o_zscale o)%R /\
          forall i j, i < m 0 -> j < m 1 -> field_value dc fd fs (k + c) [middle dc fd 0 (whole 0) (s 0 + i); middle dc fd 1 (whole 1) (s 1 + j)] (v i j).
  Proof.
    intros H Hs Hw D2 Oc Oq Os Ol r whole s m. destruct (part_dataset io b p n fs ps abs ca cb k H Hs Hw) as (F2 & Lf & F1 & y & g & Ey & Dy & V).
    unfold part_plot. rewrite Ey. cbn [bind].
    set (fine := refined_shape (cut_cells abs) (refine dim n b)) in *. set (wh := refined_shape (fd_cells fd) (refine dim n b)) in *.
    destruct Hw as (Hcut & Hk & Hw). destruct (cuts_good _ _ _ _ _ _ Hcut) as [[Hla Hgc] Hcc].
    assert (Lc : length (cut_cells abs) = dim) by (unfold cut_cells; rewrite map_length; exact Hla).
    assert (Ewh : forall a, a < dim -> nth a wh 0 = whole a) by (intros a Ha; unfold wh, whole, r, cells_along; rewrite refined_nth, D2; [reflexivity|apply refine_length|exact Ha]).
    assert (Efa : forall a, a < dim -> nth a fine 0 = m a).
    { intros a Ha. unfold fine. rewrite refined_nth; [|rewrite refine_length; lia|lia]. rewrite D2. unfold m, r. f_equal. unfold cut_cells.
      exact (map_nth (fun ab : nat * nat => snd ab - fst ab) abs (0, 0) a). }
    assert (Ef : fine = [m 0; m 1]).
    { destruct fine as [|m0' [|m1' [|]]] eqn:E; try (cbn [length] in Lf; lia). rewrite <- (Efa 0), <- (Efa 1) by lia. reflexivity. }
    assert (Hm : 2 <= m 0 /\ 2 <= m 1) by (rewrite Ef in F2; inversion_clear F2 as [|? ? A B]; inversion_clear B; auto).
    assert (Es : forall a i, first_edge abs (refine dim n b) a + i = s a + i) by (intros a i; unfold first_edge, s, r; now rewrite D2).
    destruct (C90_mesh o true fine _ _ g (to_draw y) 0 (m 0) 1 (m 1) Dy) as (calls & labels & Ep & Lca & _ & Hc); try assumption.
    { rewrite Ef. split; [lia|]. split; [apply Hm|]. split; [apply Hm|]. split; [reflexivity|]. split; [reflexivity|].
      intros [|[|[|j]]] c' N0 N1 Hj; [now elim N0|now elim N1|discriminate Hj|discriminate Hj]. }
    exists calls, labels. split; [exact Ep|]. split; [exact Lca|]. intros c cs Hcs. destruct (Hc c cs Hcs) as (x0 & y0 & z0 & vmin & vmax & ext & -> & Hx & Hy & Hz & _).
    assert (Lt : c < (cb - ca) / length fs) by (rewrite <- Lca; apply nth_error_Some; congruence).
    exists x0, y0, z0, vmin, vmax, ext, (fun i j => g [i; j] c). split; [reflexivity|]. split; [|split; [|split]].
    - eapply holds_ext; [exact Hx|]. intros idx _. cbv beta. now rewrite Es, Ewh by lia.
    - eapply holds_ext; [exact Hy|]. intros idx _. cbv beta. now rewrite Es, Ewh by lia.
    - eapply holds_ext; [exact Hz|]. intros idx Hi. apply in_two in Hi as (j & i & -> & Hj & Hi). unfold zval. rewrite Ef. reflexivity.
    - intros i j Hi Hj. specialize (V c [i; j] Lt). rewrite Ef in V. assert (Hij : in_range [m 0; m 1] [i; j]) by (repeat (constructor; try assumption)). specialize (V Hij).
      replace (seq 0 dim) with [0; 1] in V by (rewrite D2; reflexivity). cbn [List.map nth] in V. rewrite !Es, !Ewh in V by lia. exact V.
  Qed.
End C124.
Print Assumptions C124_distributed.
Print Assumptions C124_values.
Print Assumptions C124_same.
Print Assumptions C124_curve.
Print Assumptions C124_colours.

(** ** Example: two fields of order 1 on two cells; the second field in the second cell *)
Definition pair_file : field := mk_field [2] 4 [num 0] [num 4] [num 5; num 7; num 1; num 3; num 6; num 2; num 8; num 9].
Definition pair_cuts : list string := ["1:"; ""; ""; ""; ""; ""; "2:"].

Example C124_hyps : drawable byte0 iroot 2 line_meta line_dict pair_file asis "serendipity" 1 2 it_d1_modal_o1 /\
  stores 2 line_meta pair_file (field_bytes 2 line_meta pair_file) /\
  whole_fields pair_file pair_cuts [(1, 2)] 2 4 1 it_d1_modal_o1 /\ length (fd_cells pair_file) = 1.
Proof.
  split; [|split; [|split; [|reflexivity]]].
  - destruct (proj1 C120_line_hyps) as (_ & H1 & _ & _ & _ & H2 & H3 & H4 & H5 & H6 & _ & H7).
    split; [good_field_tac|]. split; [exact H1|]. split; [repeat constructor|].
    split; [intros [|j] Hj; [unfold low, high, byte0; cbn; lra|cbn in Hj; lia]|]. split; [cbn; lia|].
    split; [exact H2|]. split; [exact H3|]. split; [exact H4|]. split; [exact H5|]. split; [exact H6|]. split; [vm_compute; lia|exact H7].
  - left. reflexivity.
  - split; [|split; [reflexivity|vm_compute; lia]].
    split; [reflexivity|]. split; [simpl; lia|]. split; [reflexivity|]. split.
    + intros [|[|d]] s n a b; simpl; try discriminate; intros [= <-] [= <-] [= <- <-]. apply (cr_slice 2 (Some 1%Z) None); simpl; auto; lia.
    + intros s [= <-]. apply (cr_slice 4 (Some 2%Z) None); simpl; auto; lia.
Qed.

(** What is drawn: at 5/2 and 7/2, the field with the coefficients 8 and 9. *)
Example C124_example stored o :
  exists calls labels x y v, part_plot byte0 iroot stored (field_bytes 2 line_meta pair_file) pair_cuts asis o = Ok (calls, labels) /\
    (o_stream o = false -> o_quiver o = false -> calls = [[Curve x y]] /\
      get x [0] = Some ((5/2 + o_xshift o) * o_xscale o)%R /\ get x [1] = Some ((7/2 + o_xshift o) * o_xscale o)%R /\
      get y [1] = Some ((v + o_yshift o) * o_yscale o)%R /\ v = expansion [8; 9]%R it_d1_modal_o1 [(1/2)%R]).
Proof.
  destruct C124_hyps as (H & Hs & Hw & HD).
  destruct (C124_curve byte0 iroot stored 2 line_meta line_dict pair_file _ asis "serendipity" 1 2 it_d1_modal_o1 pair_cuts [(1, 2)] 2 4 1 o H Hs Hw HD) as (calls & labels & E & L & Hc).
  exists calls, labels.
  destruct (o_stream o || o_quiver o) eqn:Eo.
  - exists (mk_nda [] []), (mk_nda [] []), 0%R. split; [exact E|]. intros E1 E2. rewrite E1, E2 in Eo. discriminate Eo.
  - change (length calls = 1) in L. destruct calls as [|cs [|? ?]]; try (cbn [length] in L; lia).
    destruct (Hc 0 cs eq_refl) as (x & y & v & -> & (_ & _ & Hx) & (_ & _ & Hy) & Hv). exists x, y, (v 1). split; [exact E|]. intros _ _. split; [reflexivity|].
    assert (I0 : in_range [(snd (nth 0 [(1, 2)] (0, 0)) - fst (nth 0 [(1, 2)] (0, 0))) * nth 0 (refine 1 2 "serendipity") 0] [0]) by (vm_compute; repeat constructor).
    assert (I1 : in_range [(snd (nth 0 [(1, 2)] (0, 0)) - fst (nth 0 [(1, 2)] (0, 0))) * nth 0 (refine 1 2 "serendipity") 0] [1]) by (vm_compute; repeat constructor).
    rewrite (Hx _ I0), (Hx _ I1), (Hy _ I1). cbn [hd].
    assert (M : forall i, middle (byte0 (width_of 2)) pair_file 0 (cells_along pair_file 0 * nth 0 (refine 1 2 "serendipity") 0) (fst (nth 0 [(1, 2)] (0, 0)) * nth 0 (refine 1 2 "serendipity") 0 + i) = (5/2 + INR i)%R).
    { intros i. change (cells_along pair_file 0 * nth 0 (refine 1 2 "serendipity") 0) with 4. change (fst (nth 0 [(1, 2)] (0, 0)) * nth 0 (refine 1 2 "serendipity") 0) with 2.
      unfold middle, low, high, byte0. cbn [nth fd_lower fd_upper pair_file num]. rewrite plus_INR. cbn [INR]. lra. }
    rewrite !M. split; [do 3 f_equal; cbn; lra|]. split; [do 3 f_equal; cbn; lra|]. split; [reflexivity|].
    assert (L1 : 1 < (snd (nth 0 [(1, 2)] (0, 0)) - fst (nth 0 [(1, 2)] (0, 0))) * nth 0 (refine 1 2 "serendipity") 0) by (vm_compute; lia).
    specialize (Hv 1 L1). rewrite M in Hv. destruct H as (_ & _ & Pc & Hlh & _).
    apply (C120_single_valued _ _ _ _ _ _ _ Hlh Pc Hv). exists [1]. split.
    + split; [reflexivity|]. split; [repeat constructor|]. intros [|j] Hj; [|cbn in Hj; lia]. unfold edge, low, high, cells_along, byte0. cbn. lra.
    + f_equal. unfold reference, edge, low, high, cells_along, byte0. cbn. f_equal. lra.
Qed.
