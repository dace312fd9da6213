(** * C125: what [differentiate] makes of a file is the slope of its field, and so is its plot *)
From Coq Require Import String Ascii List Arith ZArith Bool Lia Reals Lra.
From Coquelicot Require Import Coquelicot.
From Verif Require Import Prelude PreludeFacts NdArray Gkyl_Model Gkyl_Spec Gkyl_Proofs Gkyl_Proofs2 Gkyl_Proofs3 Gkyl_Props Msgpack_Model Msgpack_Spec Msgpack_Props
  Dg_Poly Dg_TabI Dg_TabD Dg_Model Dg_Spec Dg_Props Dg_Props2 Dg_Props3 Dg_Sem Dg_Gram Dg_Props5 DgCmd_Model Dg_Props8
  Tools_Arr Draw_Model Draw_Spec Draw_Proofs Draw_Proofs2 Draw_Props Draw_Props2 Show_Model Show_Spec Show_Proofs Show_Props Part_Model Part_Proofs
  Slope_Model Slope_Spec Slope_Proofs.
Import ListNotations.
Open Scope string_scope. Open Scope list_scope. Open Scope nat_scope.

(** The functions differentiated are the functions interpolated, where there are any. *)
Theorem C125_tables d p b fs : deriv_functions d p true b = Ok fs -> interp_functions d p true b = Ok fs.
Proof. exact (same_functions d p b fs). Qed.
Print Assumptions C125_tables.

(** A point has at most one slope along an axis. *)
Theorem C125_single_valued :
  forall dec fd fs c k xs v w,
    (forall d, d < length (fd_cells fd) -> (low dec fd d < high dec fd d)%R) -> List.Forall (fun n => 0 < n) (fd_cells fd) ->
    field_slope dec fd fs c k xs v -> field_slope dec fd fs c k xs w -> v = w.
Proof.
  intros dec fd fs c k xs v w Hlh Pc (F & e & He & HF & DF) (G & e' & He' & HG & DG).
  assert (DG' : is_derive F (nth k xs 0%R) w).
  { apply (is_derive_ext_loc G); [|exact DG]. exists (mkposreal (Rmin e e') (Rmin_pos _ _ He He')). intros t Ht.
    change (Rabs (t - nth k xs 0) < Rmin e e')%R in Ht. pose proof (Rmin_l e e'). pose proof (Rmin_r e e').
    apply (C120_single_valued dec fd fs c (set_nth k t xs)); auto; [apply HG|apply HF]; lra. }
  rewrite <- (is_derive_unique _ _ _ DF). apply is_derive_unique. exact DG'.
Qed.
Print Assumptions C125_single_valued.

Lemma takes_choice io : takes io -> basis_choice (o_basis io) = Ok tt.
Proof. intros [->|[->| ->]]; reflexivity. Qed.

(** The other families of [interpolate] are refused. *)
Theorem C125_choice dec root f io s : o_basis io = Some s -> ~ In s ["ms"; "ns"; "mo"] -> differentiate_file dec root f io = Err ClickFail.
Proof.
  intros E N. unfold differentiate_file, basis_choice. rewrite E. destruct (String.eqb_spec s "ms") as [->|_]; [elim N; now left|].
  destruct (String.eqb_spec s "ns") as [->|_]; [elim N; right; now left|]. destruct (String.eqb_spec s "mo") as [->|_]; [elim N; right; right; now left|]. reflexivity.
Qed.
Print Assumptions C125_choice.

Lemma directions_one dir axes : directions 1 dir axes -> axes = [0].
Proof. intros [k Hk|k Hk|]; [f_equal; lia|f_equal; lia|reflexivity]. Qed.

Lemma scale_one n l : length l = 1 -> List.map (fun m => m * n) l = [nth 0 l 0 * n].
Proof. destruct l as [|c [|]]; try discriminate. reflexivity. Qed.
Lemma scale_two n l : length l = 2 -> List.map (fun m => m * n) l = [nth 0 l 0 * n; nth 1 l 0 * n].
Proof. destruct l as [|c0 [|c1 [|]]]; try discriminate. reflexivity. Qed.

Section C125.
  Context (dec : nat -> list Z -> R) (root : nat -> nat -> nat).
  Context (rt : Z) (meta : list Z) (d : list (mkey * mval)) (fd : field) (f : list Z).
  Let dc := dec (width_of rt).
  Let dim := length (fd_cells fd).

  (** A file that can be drawn, of a family and order that can be differentiated. *)
  Definition sloped (io : dgopts) (b : string) (p n : nat) (fs : list pexp) : Prop :=
    drawable dec root rt meta d fd io b p n fs /\ takes io /\ deriv_functions dim p true b = Ok fs.

  (** Component number [c] of the result: along the axis asked for the slope, and
      of all slopes asked for together the first is halved. *)
  Definition halved (dir : option Z) (c : nat) (v : R) : R :=
    match dir, c with None, 0 => (v / 2)%R | _, _ => v end.

  Lemma direction_index dir axes : directions dim dir axes -> forall z, dir = Some z -> exists k, axes = [k] /\ k < dim /\ norm_index dim z = Ok k.
  Proof.
    intros [k Hk|k Hk|] z [= <-]; exists k; (split; [reflexivity|]); (split; [exact Hk|]); unfold norm_index.
    - destruct (Z.ltb_spec (Z.of_nat k) 0); [lia|]. destruct (Z.leb_spec 0 (Z.of_nat k)); [|lia]. destruct (Z.ltb_spec (Z.of_nat k) (Z.of_nat dim)); [|lia].
      cbn [andb]. now rewrite Nat2Z.id.
    - destruct (Z.ltb_spec (Z.of_nat k - Z.of_nat dim) 0); [|lia]. replace (Z.of_nat k - Z.of_nat dim + Z.of_nat dim)%Z with (Z.of_nat k) by lia.
      destruct (Z.leb_spec 0 (Z.of_nat k)); [|lia]. destruct (Z.ltb_spec (Z.of_nat k) (Z.of_nat dim)); [|lia]. cbn [andb]. now rewrite Nat2Z.id.
  Qed.

  Lemma direction_bound dir axes k : directions dim dir axes -> In k axes -> k < dim.
  Proof. intros [k' L|k' L|] H; [destruct H as [<-|[]]; exact L|destruct H as [<-|[]]; exact L|apply in_seq in H; lia]. Qed.

  Lemma slope_dataset io b p n fs axes : sloped io b p n fs -> stores rt meta fd f -> directions dim (o_dir io) axes ->
    let fine := List.map (fun m => m * n) (fd_cells fd) in
    List.Forall (fun m => 2 <= m) fine /\ length fine = dim /\ 0 < length axes /\
    exists y h, differentiate_file dec root f io = Ok y /\
      dataset true fine (fun a i => edge dc fd a (nth a fine 0) i) (length axes) h (to_draw y) /\
      forall c k q, nth_error axes c = Some k -> in_range fine q ->
        exists v, field_slope dc fd fs 0 k (List.map (fun a => middle dc fd a (nth a fine 0) (nth a q 0)) (seq 0 dim)) v /\
          h q c = halved (o_dir io) c v.
  Proof.
    intros ((Hg & Hd & Pc & Hlh & H6 & Hb & Hp & Hn & Hr & Hfs & Hnc & Hroot) & Htk & Hdf) Hs Hdir fine.
    destruct (open_described dec rt meta d fd Hg Hd) as (x & ctx & Ex & Hx & Eb & Ep & Em & K1 & K2).
    pose proof (told_asked_family io x ctx d dim b Eb Em K2 Hb) as Af. pose proof (told_asked_order io x ctx d p Ep K1 Hp) as Ao.
    assert (Hp1 : 1 <= p) by apply Hp. assert (N2 : 2 <= n) by (destruct Hn as [[_ H]|[_ ->]]; lia).
    pose proof (modal_size _ _ _ _ Hr Hp1 Hfs) as HN.
    pose proof Hx as (Wx & Sx & Fx & Tx & Lux & Ux).
    destruct (asked_init io x dim b p n (length fs) Af Ao Hn) as (E1 & E2 & E3); [unfold dd_dims; now rewrite Sx, removelast_snoc|exact HN|].
    assert (F1 : 1 <= length fs).
    { destruct fs as [|? ?]; [|cbn; lia]. exfalso. clear - HN Hfs. revert Hfs HN. unfold interp_functions. cbn [andb negb].
      repeat match goal with
      | |- (if Nat.eqb _ ?k then _ else _) = _ -> _ => destruct (Nat.eqb _ k)
      | |- (if String.eqb _ ?k then _ else _) = _ -> _ => destruct (String.eqb _ k)
      | |- Err _ = Ok _ -> _ => discriminate
      end; discriminate. }
    assert (Ex' : open_file dec f = Ok x) by (rewrite (open_stores dec rt meta d fd f Hg Hd Hs); [exact Ex|lia|exact Pc]).
    destruct (plain_family _ _ _ _ Hdf Hr) as (B1 & B2).
    assert (D1 : 1 <= dim) by apply Hr.
    set (g := mk_ginterp dim p b n (length fs)) in *. set (ns := repeat n dim).
    assert (Lns : length ns = dim) by apply repeat_length.
    assert (Pns : List.Forall (fun n => 2 <= n) ns) by (apply Forall_forall; intros m Hm; apply repeat_spec in Hm; lia).
    assert (Nns : forall a, a < dim -> nth a ns 0 = n).
    { intros a Ha. unfold ns. rewrite (nth_indep _ 0 n) by (rewrite repeat_length; exact Ha). apply nth_repeat. }
    assert (Efine : refined_shape (fd_cells fd) ns = fine).
    { apply nth_ext with (d := 0) (d' := 0 * n); [rewrite refined_length by exact Lns; unfold fine; now rewrite map_length|].
      intros a Ha. rewrite refined_length in Ha by exact Lns. fold dim in Ha. unfold fine. rewrite refined_nth by (auto; lia). rewrite (map_nth (fun m => m * n)), Nns by exact Ha. reflexivity. }
    assert (Lf : length fine = dim) by (unfold fine; now rewrite map_length).
    assert (Nf : forall a, a < dim -> nth a fine 0 = cells_along fd a * n) by (intros a Ha; rewrite <- Efine, refined_nth, Nns by auto; reflexivity).
    assert (Pa : forall a, a < dim -> 0 < cells_along fd a) by (intros a Ha; exact (proj1 (Forall_forall _ _) Pc _ (nth_In _ _ Ha))).
    assert (Fine2 : List.Forall (fun m => 2 <= m) fine).
    { apply Forall_forall. intros m Hm. apply (In_nth _ _ 0) in Hm as (a & La & <-). rewrite Lf in La. rewrite Nf by exact La. pose proof (Pa a La). nia. }
    split; [exact Fine2|]. split; [exact Lf|]. assert (La0 : 0 < length axes) by (inversion Hdir; subst; cbn [length]; [lia|lia|rewrite seq_length; lia]). split; [exact La0|].
    (* edges of the cells of the file *)
    set (E := fun a i => edge dc fd a (cells_along fd a) i).
    assert (Gx : forall a, a < dim -> exists gx, nth_error (dd_grid (i_data x)) a = Some gx /\ forall i, i <= cells_along fd a -> nth_error (flat gx) i = Some (E a i)).
    { intros a Ha. destruct (nth_error (dd_grid (i_data x)) a) as [gx|] eqn:Eg; [|apply nth_error_None in Eg; fold dim in Lux; lia].
      exists gx. split; [reflexivity|]. intros i Hi. rewrite (Ux a gx Eg). apply rlinspace_nth; [apply Pa; exact Ha|exact Hi]. }
    assert (Wd : forall a, a < dim -> cell_width rops (i_data x) a = Ok ((high dc fd a - low dc fd a) / INR (cells_along fd a))%R).
    { intros a Ha. destruct (Gx a Ha) as (gx & Eg & Vg). unfold cell_width. rewrite Eg. pose proof (Pa a Ha) as P0.
      pose proof (Vg 0 ltac:(lia)) as V0. pose proof (Vg 1 ltac:(lia)) as V1. destruct (flat gx) as [|u [|w l]]; [discriminate V0|discriminate V1|].
      injection V0 as ->. injection V1 as ->. f_equal. cbn [fsub rops]. unfold E, edge. cbn [INR]. assert (P : (0 < INR (cells_along fd a))%R) by (apply lt_0_INR; exact P0).
      match goal with |- ?u = ?w => change (@eq R u w) end. field. lra. }
    assert (Wp : forall a, a < dim -> (0 < (high dc fd a - low dc fd a) / INR (cells_along fd a))%R).
    { intros a Ha. apply Rdiv_lt_0_compat; [specialize (Hlh a Ha); fold dc in Hlh; lra|]. apply lt_0_INR. apply Pa. exact Ha. }
    assert (We : forall a i, a < dim -> (E a (S i) - E a i)%R = ((high dc fd a - low dc fd a) / INR (cells_along fd a))%R).
    { intros a i Ha. unfold E, edge. rewrite S_INR. assert (P : (0 < INR (cells_along fd a))%R) by (apply lt_0_INR; apply Pa; exact Ha). field. lra. }
    (* the values *)
    assert (HV : exists v, modal_diff_values rops rdot evalR (i_data x) g (o_dir io) 0 = Ok v /\ wf v /\ shape v = fine ++ [length axes] /\
      forall c k i s, nth_error axes c = Some k -> in_range (fd_cells fd) i -> in_range ns s ->
        exists u val D, length u = length fs /\ (forall m, m < length fs -> nth_error u m = get (dd_values (i_data x)) (i ++ [0 * length fs + m])) /\
          is_derive (fun t => expansion u fs (set_nth k (2 * (t - E k (nth k i 0%nat)) / (E k (S (nth k i 0%nat)) - E k (nth k i 0%nat)) - 1)%R (centres ns s)))
            (E k (nth k i 0%nat) + (nth k (centres ns s) 0 + 1) / 2 * (E k (S (nth k i 0%nat)) - E k (nth k i 0%nat)))%R D /\
          get v (sub_index ns i s ++ [c]) = Some val /\ val = halved (o_dir io) c D).
    { destruct (o_dir io) as [z|] eqn:Edir.
      - destruct (direction_index _ _ Hdir z eq_refl) as (k & -> & Hk & Hz). destruct (Gx k Hk) as (gx & Eg & Vg). pose proof (Wp k Hk) as Pw.
        destruct (C36_derivative (i_data x) g (fd_cells fd) (fd_nc fd) 0 fs Wx Sx eq_refl D1 B1 B2 Hdf eq_refl N2 ltac:(lia) z k gx _ Hz Eg (Wd k Hk)) as (v & Ev & Wv & Sv & V); [lra|].
        exists v. split; [exact Ev|]. split; [exact Wv|]. split; [rewrite Sv; cbn [g gi_interp]; fold dim ns; now rewrite Efine|].
        intros [|c] k' i s Hc Hi Hsr; [|destruct c; discriminate Hc]. injection Hc as <-. pose proof (Forall2_length _ _ _ Hi) as Li. fold dim in Li.
        pose proof (in_range_nth (fd_cells fd) i k Hi Hk) as Bk. fold (cells_along fd k) in Bk.
        destruct (V i s (nth k i 0) (E k (nth k i 0)) (E k (S (nth k i 0))) Hi Hsr) as (u & val & D & Lu & Vu & HD & Gv & _ & Hv).
        + apply nth_error_nth'. lia. + apply Vg. lia. + apply Vg. lia. + pose proof (We k (nth k i 0) Hk). lra.
        + exists u, val, D. split; [exact Lu|]. split; [exact Vu|]. split; [exact HD|]. split; [exact Gv|]. cbn [halved]. apply Hv. apply We. exact Hk.
      - assert (axes = seq 0 dim) as -> by now inversion Hdir.
        set (ws := List.map (fun a => ((high dc fd a - low dc fd a) / INR (cells_along fd a))%R) (seq 0 dim)).
        assert (Ews : forall k w, nth_error ws k = Some w -> k < dim /\ w = ((high dc fd k - low dc fd k) / INR (cells_along fd k))%R).
        { intros k w Hk. unfold ws in Hk. rewrite nth_error_map, nth_error_seq in Hk. destruct (Nat.ltb_spec k dim) as [L|L]; [|discriminate]. injection Hk as <-. split; [exact L|reflexivity]. }
        destruct (C36_gradient (i_data x) g (fd_cells fd) (fd_nc fd) 0 fs Wx Sx eq_refl D1 B1 B2 Hdf eq_refl N2 ltac:(lia) ws) as (v & Ev & Wv & Sv & V).
        { unfold ws. now rewrite map_length, seq_length. }
        { intros k w Hk. destruct (Ews k w Hk) as (L & ->). apply Wd. exact L. }
        exists v. split; [exact Ev|]. split; [exact Wv|]. split; [rewrite Sv, seq_length; cbn [g gi_interp]; fold dim ns; now rewrite Efine|].
        intros c k i s Hc Hi Hsr. rewrite nth_error_seq in Hc. destruct (Nat.ltb_spec c dim) as [L|L]; [|discriminate]. injection Hc as <-. cbn [Nat.add].
        destruct (V i s Hi Hsr) as (u & Lu & Vu & K).
        destruct (K c ((high dc fd c - low dc fd c) / INR (cells_along fd c))%R) as (val & D & Gv & HD & Hval).
        { unfold ws. rewrite nth_error_map, nth_error_seq. destruct (Nat.ltb_spec c dim); [reflexivity|lia]. }
        { pose proof (Wp c L). lra. }
        exists u, val, D. split; [exact Lu|]. split; [exact Vu|]. split; [apply HD; apply We; exact L|]. split; [exact Gv|].
        rewrite Hval. destruct c; reflexivity. }
    destruct HV as (v & Ev & Wv & Sv & V).
    (* the grid *)
    assert (Gr : make_1d_grids rops (repeat (root dim (length (rows_of rops evalR false (repeat n dim) (List.map (pdiff 0) fs)))) dim) (dd_grid (i_data x)) dim (Some "uniform")
               = Ok (List.map (fun a => linspace rops (low dc fd a) (high dc fd a) (nth a fine 0)) (seq 0 dim))).
    { destruct (rows_of_spec rops evalR false (repeat n dim) (List.map (pdiff 0) fs)) as (Rl & _ & _). rewrite Rl, prod_repeat.
      change (forall m, root dim (m ^ dim) = m) in Hroot. rewrite Hroot. unfold make_1d_grids. cbn [String.eqb Ascii.eqb Bool.eqb].
      apply mapM_ok_all. intros a Ha. apply in_seq in Ha. rewrite nth_error_repeat by lia.
      destruct (nth_error (dd_grid (i_data x)) a) as [gx|] eqn:Eg; [|apply nth_error_None in Eg; fold dim in Lux; lia].
      rewrite (Ux a gx Eg), Nf, Nat.mul_comm by lia. apply rmake_mesh; [lia|]. apply Pa. lia. }
    eexists _, (fun q c => match get v (q ++ [c]) with Some r => r | None => 0%R end).
    unfold differentiate_file. rewrite (takes_choice io Htk). cbn [bind]. rewrite Ex'. cbn [bind]. unfold differentiate_data. cbv zeta. rewrite E1, E2, E3. cbn [bind]. unfold modal_differentiate. rewrite Ev. cbn [bind].
    unfold create_deriv_matrix. cbn [g gi_dims gi_poly gi_basis gi_interp]. rewrite Hdf. cbn [bind]. rewrite Tx, Gr. cbn [bind fst snd].
    split; [reflexivity|].
    assert (Gv : forall c k q, nth_error axes c = Some k -> in_range fine q -> exists r D, get v (q ++ [c]) = Some r /\ field_slope dc fd fs 0 k (Show_Proofs.mids dc fd ns q) D /\ r = halved (o_dir io) c D).
    { intros c k q Hc Hq. rewrite <- Efine in Hq. assert (Hk : k < dim).
      { apply nth_error_In in Hc. exact (direction_bound _ _ _ Hdir Hc). }
      destruct (sub_index_onto (fd_cells fd) ns q) as (i & s & Hi & Hsr & ->); [lia|eapply Forall_impl; [|exact Pns]; cbv beta; intros; lia|exact Hq|].
      destruct (V c k i s Hc Hi Hsr) as (u & val & D & Lu & Vu & HD & G & Hval). exists val, D. split; [exact G|]. split; [|exact Hval].
      destruct (part_inside dc fd Hlh Pc ns i s Lns Pns Hi Hsr) as (Ins & Ref).
      apply (slope_inside dc fd fs 0 i k _ D Ins Hk). rewrite Ref.
      assert (Eu : u = coefficients dc fd fs 0 i) by (apply (coefficients_of dec rt fd (dd_values (i_data x))); auto; solve [apply Hg|lia]).
      rewrite <- Eu. exact HD. }
    split.
    - unfold dataset, to_draw, push. cbn [p_grid p_cells p_vals i_data dd_grid dd_values]. rewrite Sv, removelast_snoc.
      split; [eapply Forall_impl; [|exact Fine2]; cbv beta; intros; lia|]. split; [lia|]. split; [|split; [reflexivity|]].
      + split; [rewrite !map_length, seq_length, Lf; reflexivity|]. intros a x0 m Hx0 Hm. rewrite !nth_error_map, nth_error_seq in Hx0.
        destruct (Nat.ltb_spec a dim) as [La|La]; [|discriminate]. cbn [option_map Nat.add] in Hx0. injection Hx0 as <-.
        rewrite (nth_error_nth _ _ _ Hm). unfold points.
        assert (Hm2 : 2 <= m) by (eapply (proj1 (Forall_forall _ _) Fine2), nth_error_In; eauto).
        split; [|split].
        * unfold wf, line_nda. cbn [flat shape]. unfold prod. cbn [fold_right]. lia.
        * unfold line_nda. cbn [shape]. now rewrite rlinspace_length.
        * intros idx Hidx. apply in_one in Hidx as (i & -> & Hi). cbn [hd]. unfold get, line_nda. cbn [shape flat ravel]. rewrite rlinspace_length.
          destruct (Nat.ltb_spec i (S m)); [|lia]. unfold prod. cbn [option_map fold_right]. rewrite Nat.mul_1_r, Nat.add_0_r.
          rewrite rlinspace_nth by lia. reflexivity.
      + split; [exact Wv|]. split; [exact Sv|]. intros q c Hq Hc.
        destruct (nth_error axes c) as [k|] eqn:Ek; [|apply nth_error_None in Ek; lia].
        destruct (Gv c k q Ek Hq) as (r & D & -> & _). reflexivity.
    - intros c k q Hc Hq. destruct (Gv c k q Hc Hq) as (r & D & -> & H & Hr'). exists D. split; [|exact Hr']. unfold Show_Proofs.mids in H.
      erewrite map_ext_in; [exact H|]. intros a Ha. cbv beta. apply in_seq in Ha. rewrite Nf, Nns by lia. reflexivity.
  Qed.

  (** What [differentiate] makes of a file: the grid divides the domain into equal
      cells, [n] for each of the file along every axis, and at the centre of each
      the value is the slope of the first field along the axis asked for. *)
  Theorem C125_values io b p n fs axes : sloped io b p n fs -> stores rt meta fd f -> directions dim (o_dir io) axes ->
    let fine := List.map (fun m => m * n) (fd_cells fd) in
    exists y h, differentiate_file dec root f io = Ok y /\
      dataset true fine (fun a i => edge dc fd a (nth a fine 0) i) (length axes) h (to_draw y) /\
      forall c k q, nth_error axes c = Some k -> in_range fine q ->
        exists v, field_slope dc fd fs 0 k (List.map (fun a => middle dc fd a (nth a fine 0) (nth a q 0)) (seq 0 dim)) v /\
          h q c = halved (o_dir io) c v.
  Proof. intros H Hs Hd fine. destruct (slope_dataset io b p n fs axes H Hs Hd) as (_ & _ & _ & R). exact R. Qed.

  (** One dimension: the curve of the slope.  It is as high as the slope of the
      field there when the axis is named, and half as high when it is not. *)
  Theorem C125_curve io b p n fs axes o : sloped io b p n fs -> stores rt meta fd f -> directions dim (o_dir io) axes -> dim = 1 ->
    o_stream o = false -> o_quiver o = false ->
    let m := cells_along fd 0 * n in
    exists x y v labels, differentiate_plot dec root f io o = Ok ([[Curve x y]], labels) /\
      holds [m] x (fun i => (middle dc fd 0 m (hd 0%nat i) + o_xshift o) * o_xscale o)%R /\
      holds [m] y (fun i => (halved (o_dir io) 0 (v (hd 0%nat i)) + o_yshift o) * o_yscale o)%R /\
      forall i, i < m -> field_slope dc fd fs 0 0 [middle dc fd 0 m i] (v i).
  Proof.
    intros H Hs Hdir D1 Os Oq m. destruct (slope_dataset io b p n fs axes H Hs Hdir) as (F2 & Lf & La & y & h & Ey & Dy & V).
    unfold differentiate_plot. rewrite Ey. cbn [bind]. set (fine := List.map (fun m => m * n) (fd_cells fd)) in *.
    assert (Ef : fine = [m]).
    { exact (scale_one n _ D1). }
    assert (Hm : 2 <= m) by (rewrite Ef in F2; now inversion F2).
    assert (Ea : axes = [0]) by (rewrite D1 in Hdir; exact (directions_one _ _ Hdir)).
    destruct (C90_line o true fine _ _ h (to_draw y) 0 m Dy) as (calls & labels & Ep & Lc & _ & Hc).
    { rewrite Ef. split; [exact Hm|]. split; [reflexivity|]. intros [|[|k]] c' Nk Hk; [now elim Nk|discriminate Hk|discriminate Hk]. }
    rewrite Os, Oq, Ea in Lc. change (length calls = 1) in Lc. destruct calls as [|cs [|? ?]]; try discriminate Lc.
    destruct (Hc 0 cs eq_refl) as (x0 & y0 & -> & Hx & Hy). rewrite Ef in Hy. cbn [length] in Hy.
    set (point := fun i => [middle dc fd 0 m i]).
    assert (VV : forall i, i < m -> exists v, field_slope dc fd fs 0 0 (point i) v /\ h [i] 0 = halved (o_dir io) 0 v).
    { intros i Hi. specialize (V 0 0 [i]). rewrite Ea, Ef, D1 in V. cbn [seq List.map nth] in V. apply V; [reflexivity|]. constructor; [exact Hi|constructor]. }
    set (un := fun r => match o_dir io with None => (2 * r)%R | Some _ => r end).
    assert (Hun : forall v, un (halved (o_dir io) 0 v) = v) by (intros v; unfold un, halved; destruct (o_dir io); [reflexivity|field]).
    assert (Hnu : forall r, halved (o_dir io) 0 (un r) = r) by (intros r; unfold un, halved; destruct (o_dir io); [reflexivity|field]).
    exists x0, y0, (fun i => un (h [i] 0)), labels. split; [exact Ep|]. split; [|split].
    - eapply holds_ext; [exact Hx|]. intros idx Hi. apply in_one in Hi as (i & -> & Hi). cbn [hd]. do 2 f_equal. rewrite Ef. unfold mid_of. cbn [nth].
      apply (mid_edges dec rt fd 0 m i). lia.
    - eapply holds_ext; [exact Hy|]. intros idx Hi. apply in_one in Hi as (i & -> & Hi). cbn [hd]. rewrite Hnu. reflexivity.
    - intros i Hi. destruct (VV i Hi) as (v & Hv & ->). rewrite Hun. exact Hv.
  Qed.

  (** Two dimensions, one axis named: the colours show the slope along it at the
      centres of the rectangles drawn. *)
  Theorem C125_colours io b p n fs z k o : sloped io b p n fs -> stores rt meta fd f -> o_dir io = Some z -> directions dim (Some z) [k] -> dim = 2 ->
    o_contour o = false -> o_quiver o = false -> o_stream o = false -> o_lineouts o = None ->
    let m0 := cells_along fd 0 * n in let m1 := cells_along fd 1 * n in
    exists x y zs vmin vmax ext v labels, differentiate_plot dec root f io o = Ok ([[Mesh x y zs vmin vmax ext]], labels) /\
      holds [S m0] x (fun i => (edge dc fd 0 m0 (hd 0%nat i) + o_xshift o) * o_xscale o)%R /\
      holds [S m1] y (fun j => (edge dc fd 1 m1 (hd 0%nat j) + o_yshift o) * o_yscale o)%R /\
      holds [m1; m0] zs (fun ji => (v (nth 1%nat ji 0%nat) (hd 0%nat ji) + o_zshift o) * o_zscale o)%R /\
      forall i j, i < m0 -> j < m1 -> field_slope dc fd fs 0 k [middle dc fd 0 m0 i; middle dc fd 1 m1 j] (v i j).
  Proof.
    intros H Hs Ez Hdir D2 Oc Oq Os Ol m0 m1. rewrite <- Ez in Hdir. destruct (slope_dataset io b p n fs [k] H Hs Hdir) as (F2 & Lf & La & y & h & Ey & Dy & V).
    unfold differentiate_plot. rewrite Ey. cbn [bind]. set (fine := List.map (fun m => m * n) (fd_cells fd)) in *.
    assert (Ef : fine = [m0; m1]).
    { exact (scale_two n _ D2). }
    assert (Hm : 2 <= m0 /\ 2 <= m1) by (rewrite Ef in F2; inversion_clear F2 as [|? ? A B]; inversion_clear B; auto).
    destruct (C90_mesh o true fine _ _ h (to_draw y) 0 m0 1 m1 Dy) as (calls & labels & Ep & Lc & _ & Hc); try assumption.
    { rewrite Ef. split; [lia|]. split; [apply Hm|]. split; [apply Hm|]. split; [reflexivity|]. split; [reflexivity|].
      intros [|[|[|k']]] c' N0 N1 Hk; [now elim N0|now elim N1|discriminate Hk|discriminate Hk]. }
    cbn [length] in Lc. destruct calls as [|cs [|? ?]]; try discriminate Lc.
    destruct (Hc 0 cs eq_refl) as (x0 & y0 & z0 & vmin & vmax & ext & -> & Hx & Hy & Hz & _).
    exists x0, y0, z0, vmin, vmax, ext, (fun i j => h [i; j] 0), labels. split; [exact Ep|]. split; [|split; [|split]].
    - eapply holds_ext; [exact Hx|]. intros idx _. rewrite Ef. reflexivity.
    - eapply holds_ext; [exact Hy|]. intros idx _. rewrite Ef. reflexivity.
    - eapply holds_ext; [exact Hz|]. intros idx Hi. apply in_two in Hi as (j & i & -> & Hj & Hi). unfold zval. rewrite Ef. reflexivity.
    - intros i j Hi Hj. specialize (V 0 k [i; j] eq_refl). rewrite Ef, D2 in V. cbn [seq List.map nth] in V.
      destruct V as (v & Hv & E); [repeat (constructor; try assumption)|]. rewrite E, Ez. exact Hv.
  Qed.

  (** A family and order without functions to differentiate: an error. *)
  Theorem C125_none io b p n fs e : drawable dec root rt meta d fd io b p n fs -> takes io -> stores rt meta fd f -> deriv_functions dim p true b = Err e ->
    (forall z, o_dir io = Some z -> exists k, norm_index dim z = Ok k) ->
    differentiate_file dec root f io = Err e.
  Proof.
    intros (Hg & Hd & Pc & Hlh & H6 & Hb & Hp & Hn & Hr & Hfs & Hnc & Hroot) Htk Hs Hdf Hz.
    destruct (open_described dec rt meta d fd Hg Hd) as (x & ctx & Ex & Hx & Eb & Ep & Em & K1 & K2).
    pose proof (told_asked_family io x ctx d dim b Eb Em K2 Hb) as Af. pose proof (told_asked_order io x ctx d p Ep K1 Hp) as Ao.
    assert (Hp1 : 1 <= p) by apply Hp.
    pose proof (modal_size _ _ _ _ Hr Hp1 Hfs) as HN. pose proof Hx as (Wx & Sx & _).
    destruct (asked_init io x dim b p n (length fs) Af Ao Hn) as (E1 & E2 & E3); [unfold dd_dims; now rewrite Sx, removelast_snoc|exact HN|].
    assert (F1 : 0 < length fs).
    { destruct fs as [|? ?]; [|cbn; lia]. exfalso. clear - HN Hfs. revert Hfs HN. unfold interp_functions. cbn [andb negb].
      repeat match goal with
      | |- (if Nat.eqb _ ?k then _ else _) = _ -> _ => destruct (Nat.eqb _ k)
      | |- (if String.eqb _ ?k then _ else _) = _ -> _ => destruct (String.eqb _ k)
      | |- Err _ = Ok _ -> _ => discriminate
      end; discriminate. }
    unfold differentiate_file. rewrite (takes_choice io Htk). cbn [bind]. rewrite (open_stores dec rt meta d fd f Hg Hd Hs), Ex; [|lia|exact Pc]. cbn [bind].
    unfold differentiate_data. cbv zeta. rewrite E1, E2, E3. cbn [bind]. unfold modal_differentiate, modal_diff_values, create_deriv_matrix. cbn [gi_dims gi_poly gi_basis]. fold dim. rewrite Hdf. cbn [bind].
    destruct (o_dir io) as [z|]; [|reflexivity]. destruct (Hz z eq_refl) as (k & ->). reflexivity.
  Qed.
End C125.
Print Assumptions C125_values.
Print Assumptions C125_curve.
Print Assumptions C125_colours.
Print Assumptions C125_none.

(** ** Example: the line of C120 *)
Definition along0 : dgopts := mk_dgopts None None None None (Some 0%Z).

Example C125_hyps : sloped byte0 iroot 2 line_meta line_dict line_file along0 "serendipity" 1 2 it_d1_modal_o1 /\
  sloped byte0 iroot 2 line_meta line_dict line_file asis "serendipity" 1 2 it_d1_modal_o1 /\
  stores 2 line_meta line_file (field_bytes 2 line_meta line_file) /\
  directions (length (fd_cells line_file)) (o_dir along0) [0] /\ directions (length (fd_cells line_file)) (o_dir asis) [0] /\
  length (fd_cells line_file) = 1.
Proof.
  pose proof (proj1 C120_line_hyps) as H. split; [|split; [|split; [|split; [|split]]]].
  - split; [exact H|]. split; [now left|vm_compute; reflexivity].
  - split; [exact H|]. split; [now left|vm_compute; reflexivity].
  - left. reflexivity.
  - apply (dir_from_first 1 0). lia.
  - apply (dir_all 1).
  - reflexivity.
Qed.

(** The slope drawn in the second cell, whose field is 6 and 2 times the two
    functions of order 1: 2 times the slope of the second function. *)
Example C125_example o : o_stream o = false -> o_quiver o = false ->
  exists x y labels, differentiate_plot byte0 iroot (field_bytes 2 line_meta line_file) along0 o = Ok ([[Curve x y]], labels) /\
    get x [2] = Some ((5/2 + o_xshift o) * o_xscale o)%R /\
    get y [2] = Some ((2 * lit 1224744871391589 15 + o_yshift o) * o_yscale o)%R.
Proof.
  intros Os Oq. destruct C125_hyps as (H & _ & Hs & Hdir & _ & D1).
  destruct (C125_curve byte0 iroot 2 line_meta line_dict line_file _ along0 "serendipity" 1 2 it_d1_modal_o1 [0] o H Hs Hdir D1 Os Oq) as (x & y & v & labels & E & (_ & _ & Hx) & (_ & _ & Hy) & Hv).
  exists x, y, labels. split; [exact E|]. change (cells_along line_file 0 * 2) with 4 in *.
  assert (I2 : in_range [4] [2]) by (repeat constructor).
  rewrite (Hx _ I2), (Hy _ I2). cbn [hd halved along0 o_dir].
  assert (M : middle (byte0 (width_of 2)) line_file 0 4 2 = (5/2)%R).
  { unfold middle, low, high, byte0. cbn [nth fd_lower fd_upper line_file num]. cbn [INR]. lra. }
  rewrite M. split; [reflexivity|]. do 3 f_equal. specialize (Hv 2 ltac:(lia)). rewrite M in Hv.
  destruct H as ((_ & _ & Pc & Hlh & _) & _ & _).
  apply (C125_single_valued _ _ _ _ _ _ _ _ Hlh Pc Hv).
  exists (fun t => expansion [6; 2]%R it_d1_modal_o1 [(t - 3)%R]), (1/2)%R. split; [lra|]. split.
  - intros t Ht. cbn [nth] in Ht. apply Rabs_def2 in Ht. exists [1]. split.
    + split; [reflexivity|]. split; [repeat constructor|]. intros [|j] Hj; [|cbn in Hj; lia]. unfold edge, low, high, cells_along, byte0. cbn. lra.
    + f_equal. unfold reference, edge, low, high, cells_along, byte0. cbn. f_equal. lra.
  - cbn [nth]. unfold expansion, it_d1_modal_o1. cbn [combine fold_right fst snd evalR nth]. auto_derive; [trivial|]. ring.
Qed.

(** ** Example: two cells along the first axis, one along the second *)
Definition plane_file : field :=
  mk_field [2; 1] 4 [num 0; num 0] [num 4; num 3] [num 5; num 7; num 1; num 3; num 6; num 2; num 8; num 9].
Definition along_last : dgopts := mk_dgopts None None None None (Some (-1)%Z).
Definition tensor_meta : list Z := ([130] ++ ([169] ++ codes "polyOrder") ++ [1] ++ ([169] ++ codes "basisType") ++ ([166] ++ codes "tensor"))%Z.
Definition tensor_dict : list (mkey * mval) := [((false, "polyOrder"), MInt 1); ((false, "basisType"), MStr "tensor")].

Lemma plane_drawable meta dict b fs :
  good_field 2 (width_of 2) meta plane_file -> described meta dict ->
  dict = [((false, "polyOrder"), MInt 1); ((false, "basisType"), MStr b)] -> b <> "" -> right_dims 2 b ->
  interp_functions 2 1 true b = Ok fs -> length fs = 4 ->
  drawable byte0 iroot 2 meta dict plane_file along_last b 1 2 fs.
Proof.
  intros Hg Hd -> Hne Hr Hfs Lf. split; [exact Hg|]. split; [exact Hd|]. split; [repeat constructor|].
  split; [intros [|[|j]] Hj; [unfold low, high, byte0; cbn; lra|unfold low, high, byte0; cbn; lra|cbn in Hj; lia]|]. split; [cbn; lia|].
  split.
  { exists b. split; [right; split; [reflexivity|]; split; [|split; [exact Hne|]]|right; split; [intros (E & _); discriminate E|reflexivity]].
    - exists "basisType". split; [now left|]. split; [right; now left|]. intros k w Hk [E|[E|[]]]; inversion E; subst; [|reflexivity]. exfalso. destruct Hk as [X|[X|[]]]; discriminate X.
    - intros w [E|[E|[]]]; discriminate E. }
  split.
  { split; [lia|]. right. split; [reflexivity|]. exists "polyOrder". split; [now left|]. split; [now left|].
    intros k w Hk [E|[E|[]]]; inversion E; subst; [reflexivity|]. exfalso. destruct Hk as [X|[X|[]]]; discriminate X. }
  split; [right; split; [now left|reflexivity]|]. split; [exact Hr|]. split; [exact Hfs|]. split; [rewrite Lf; vm_compute; lia|].
  intros m. apply (iroot_pow 2). lia.
Qed.

Example C125_plane_hyps : sloped byte0 iroot 2 line_meta line_dict plane_file along_last "serendipity" 1 2 it_d2_ser_o1 /\
  stores 2 line_meta plane_file (field_bytes 2 line_meta plane_file) /\
  directions (length (fd_cells plane_file)) (o_dir along_last) [1] /\ length (fd_cells plane_file) = 2.
Proof.
  split; [|split; [left; reflexivity|split; [apply (dir_from_last 2 1); lia|reflexivity]]].
  split; [|split; [now left|vm_compute; reflexivity]].
  apply plane_drawable; [good_field_tac|exact line_described|reflexivity|discriminate| |reflexivity|reflexivity].
  split; [lia|]. split; [discriminate|intros C; discriminate C].
Qed.

(** The same numbers as a file of the tensor family cannot be differentiated. *)
Example C125_tensor : drawable byte0 iroot 2 tensor_meta tensor_dict plane_file along_last "tensor" 1 2 it_d2_tensor_o1 /\
  deriv_functions 2 1 true "tensor" = Err NameError /\
  differentiate_file byte0 iroot (field_bytes 2 tensor_meta plane_file) along_last = Err NameError.
Proof.
  assert (H : drawable byte0 iroot 2 tensor_meta tensor_dict plane_file along_last "tensor" 1 2 it_d2_tensor_o1).
  { apply plane_drawable; [good_field_tac| |reflexivity|discriminate| |reflexivity|reflexivity].
    - right. apply C118_only; [apply bytes_b; vm_compute; reflexivity|vm_compute; reflexivity].
    - split; [lia|]. split; [discriminate|intros C; discriminate C]. }
  split; [exact H|]. split; [vm_compute; reflexivity|].
  apply (C125_none byte0 iroot 2 tensor_meta tensor_dict plane_file _ along_last "tensor" 1 2 it_d2_tensor_o1 NameError H); [now left|left; reflexivity|vm_compute; reflexivity|].
  intros z [= <-]. exists 1. reflexivity.
Qed.
