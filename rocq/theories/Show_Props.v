(** * C120: what is plotted is the discontinuous field of the file, where it is plotted *)
From Coq Require Import String Ascii List Arith ZArith Bool Lia Reals Lra.
From Verif Require Import Prelude PreludeFacts NdArray Gkyl_Model Gkyl_Spec Gkyl_Proofs Gkyl_Props Msgpack_Model Msgpack_Spec Msgpack_Props
  Dg_Poly Dg_TabI Dg_TabD Dg_Model Dg_Spec Dg_Props Dg_Props3 Dg_Sem Dg_Gram Dg_Props5 DgCmd_Model Dg_Props8
  Tools_Arr Draw_Model Draw_Spec Draw_Proofs Draw_Proofs2 Draw_Props Draw_Props2 Show_Model Show_Spec Show_Proofs.
Import ListNotations.
Open Scope string_scope. Open Scope list_scope. Open Scope nat_scope.

(** Every point has at most one value: cells do not overlap. *)
Theorem C120_single_valued :
  forall dec fd fs c xs v w,
    (forall d, d < length (fd_cells fd) -> (low dec fd d < high dec fd d)%R) -> Forall (fun n => 0 < n) (fd_cells fd) ->
    field_value dec fd fs c xs v -> field_value dec fd fs c xs w -> v = w.
Proof.
  intros dec fd fs c xs v w Hlh Pc (i & (Lx & Hi & Ii) & ->) (j & (_ & Hj & Ij) & ->).
  assert (i = j); [|now subst]. pose proof (Forall2_length _ _ _ Hi) as Li. pose proof (Forall2_length _ _ _ Hj) as Lj.
  apply nth_ext with (d := 0) (d' := 0); [lia|]. intros d Hd. rewrite Li in Hd. specialize (Ii d Hd). specialize (Ij d Hd). specialize (Hlh d Hd).
  assert (P : (0 < INR (cells_along fd d))%R) by (apply lt_0_INR, (proj1 (Forall_forall _ _) Pc _ (nth_In _ _ Hd))).
  assert (Mono : forall a b, (edge dec fd d (cells_along fd d) a < edge dec fd d (cells_along fd d) b)%R -> a < b).
  { intros a b H. apply INR_lt. unfold edge in H. apply Rplus_lt_reg_l in H. apply Rmult_lt_reg_r in H; [|now apply Rinv_0_lt_compat].
    apply Rmult_lt_reg_l in H; lra. }
  assert (nth d i 0 < S (nth d j 0)) by (apply Mono; lra). assert (nth d j 0 < S (nth d i 0)) by (apply Mono; lra). lia.
Qed.
Print Assumptions C120_single_valued.

Section C120.
  Context (dec : nat -> list Z -> R) (root : nat -> nat -> nat) (stored : nat -> nat -> res (list (list R))).
  Context (rt : Z) (meta : list Z) (d : list (mkey * mval)) (fd : field).
  Let dc := dec (width_of rt).
  Let dim := length (fd_cells fd).

  (** A well-formed file with cells of positive size; family, order and number of
      points per cell are those of the options or of the file, and the file has
      at least one whole field. *)
  Definition drawable (io : dgopts) (b : string) (p n : nat) (fs : list pexp) : Prop :=
    good_field rt (width_of rt) meta fd /\ described meta d /\
    Forall (fun c => 0 < c) (fd_cells fd) /\ (forall k, k < dim -> (low dc fd k < high dc fd k)%R) /\ dim <= 6 /\
    told_family io d dim b /\ told_order io d p /\ told_points io p n /\ right_dims dim b /\
    interp_functions dim p true b = Ok fs /\ length fs <= fd_nc fd /\
    (forall m, root dim (m ^ dim) = m).

  (** The file interpolated: a grid that divides the domain into equal cells, [n]
      (or as many as the family has) for each of the file, and in each of them the
      value of the field at its centre. *)
  Lemma interpolated_dataset io b p n fs : drawable io b p n fs ->
    let ns := refine dim n b in
    let fine := refined_shape (fd_cells fd) ns in
    Forall (fun m => 2 <= m) fine /\ length fine = dim /\
    exists x y f, open_file dec (field_bytes rt meta fd) = Ok x /\ interpolate_data rops rdot evalR root stored io x = Ok y /\
      dataset true fine (fun a i => edge dc fd a (nth a fine 0) i) (fd_nc fd / length fs) f (to_draw y) /\
      forall c q, c < fd_nc fd / length fs -> in_range fine q ->
        field_value dc fd fs c (List.map (fun a => middle dc fd a (nth a fine 0) (nth a q 0)) (seq 0 dim)) (f q c).
  Proof.
    intros (Hg & Hd & Pc & Hlh & H6 & Hb & Hp & Hn & Hr & Hfs & Hnc & Hroot) ns fine.
    destruct (open_described dec rt meta d fd Hg Hd) as (x & ctx & Ex & Hx & Eb & Ep & Em & K1 & K2).
    pose proof (told_asked_family io x ctx d dim b Eb Em K2 Hb) as Af. pose proof (told_asked_order io x ctx d p Ep K1 Hp) as Ao.
    assert (Hp1 : 1 <= p) by apply Hp. assert (N2 : 2 <= n) by (destruct Hn as [[_ H]|[_ ->]]; lia).
    pose proof (modal_size _ _ _ _ Hr Hp1 Hfs) as HN.
    pose proof Hx as (Wx & Sx & _).
    destruct (asked_init io x dim b p n (length fs) Af Ao Hn) as (E1 & E2 & E3); [unfold dd_dims; now rewrite Sx, removelast_snoc|exact HN|].
    assert (F1 : 1 <= length fs).
    { destruct fs as [|? ?]; [|cbn; lia]. exfalso. clear - HN Hfs. revert Hfs HN. unfold interp_functions. cbn [andb negb].
      repeat match goal with
      | |- (if Nat.eqb _ ?k then _ else _) = _ -> _ => destruct (Nat.eqb _ k)
      | |- (if String.eqb _ ?k then _ else _) = _ -> _ => destruct (String.eqb _ k)
      | |- Err _ = Ok _ -> _ => discriminate
      end; discriminate. }
    set (g := mk_ginterp dim p b n (length fs)) in *. set (comps := seq 0 (fd_nc fd / length fs)).
    assert (Lns : length ns = dim) by apply refine_length. assert (Pns : Forall (fun n => 2 <= n) ns) by (apply refine_ge2; auto).
    assert (Lf : length fine = dim) by (apply refined_length; exact Lns).
    assert (Hh : b = "hybrid" -> 2 <= dim).
    { intros ->. destruct Hr as (R1 & _ & R2). destruct (Nat.eq_dec dim 1) as [E|]; [|lia]. exfalso. destruct (R2 E) as [C|[C|C]]; discriminate. }
    destruct (interpolated dec rt fd Hlh Pc root x g comps fs) as (v & Ev & Wv & Sv & V); try assumption; try reflexivity.
    { apply Hg. } { split; apply Hr. }
    { unfold comps. pose proof (Nat.div_str_pos (fd_nc fd) (length fs)) as H. destruct (fd_nc fd / length fs); [lia|discriminate]. }
    { intros c Hc. apply in_seq in Hc. pose proof (Nat.mul_div_le (fd_nc fd) (length fs)). nia. }
    assert (Fine2 : Forall (fun m => 2 <= m) fine).
    { apply Forall_forall. intros m Hm. apply (In_nth _ _ 0) in Hm as (a & La & <-). rewrite Lf in La. unfold fine. rewrite refined_nth by (auto; lia).
      pose proof (proj1 (Forall_forall _ _) Pc _ (nth_In _ 0 La)) as H1. rewrite <- Lns in La. pose proof (proj1 (Forall_forall _ _) Pns _ (nth_In _ 0 La)) as H2. cbv beta in H1, H2. nia. }
    split; [exact Fine2|]. split; [exact Lf|].
    exists x. eexists _, (fun q c => match get v (q ++ [c]) with Some r => r | None => 0%R end). split; [exact Ex|].
    unfold interpolate_data. cbv zeta. rewrite E1, E2, E3. cbn [bind gi_nodes g]. unfold dd_ncomps. rewrite Sx, last_snoc. fold comps g. rewrite Ev. cbn [bind fst snd].
    split; [reflexivity|].
    assert (Gv : forall c q, c < fd_nc fd / length fs -> in_range fine q -> exists r, get v (q ++ [c]) = Some r /\ field_value dc fd fs c (Show_Proofs.mids dc fd ns q) r).
    { intros c q Hc Hq. apply (V c c q); [|exact Hq]. unfold comps. rewrite nth_error_seq. destruct (Nat.ltb_spec c (fd_nc fd / length fs)); [reflexivity|lia]. }
    split.
    - unfold dataset, to_draw, push. cbn [p_grid p_cells p_vals i_data dd_grid dd_values]. cbn [gi_interp gi_basis g] in Sv. fold dim in Sv. fold ns in Sv. fold fine in Sv.
      rewrite Sv, removelast_snoc.
      split; [eapply Forall_impl; [|exact Fine2]; cbv beta; intros; lia|]. split; [lia|]. split; [|split; [reflexivity|]].
      + split; [rewrite map_length, seq_length, Lf; reflexivity|]. intros a x0 m Hx0 Hm. rewrite nth_error_map, nth_error_seq in Hx0. fold dim in Hx0.
        destruct (Nat.ltb_spec a dim) as [La|La]; [|discriminate]. cbn [option_map Nat.add] in Hx0. injection Hx0 as <-.
        cbn [gi_interp gi_basis g]. fold dim ns fine. rewrite (nth_error_nth _ _ _ Hm). unfold points.
        assert (Hm2 : 2 <= m) by (eapply (proj1 (Forall_forall _ _) Fine2), nth_error_In; eauto).
        split; [|split].
        * unfold wf, line_nda. cbn [flat shape]. unfold prod. cbn [fold_right]. lia.
        * unfold line_nda. cbn [shape]. now rewrite rlinspace_length.
        * intros idx Hidx. apply in_one in Hidx as (i & -> & Hi). cbn [hd]. unfold get, line_nda. cbn [shape flat ravel]. rewrite rlinspace_length.
          destruct (Nat.ltb_spec i (S m)); [|lia]. unfold prod. cbn [option_map fold_right]. rewrite Nat.mul_1_r, Nat.add_0_r.
          rewrite rlinspace_nth by lia. reflexivity.
      + split; [exact Wv|]. split; [rewrite Sv; unfold comps; now rewrite seq_length|]. intros q c Hq Hc.
        destruct (Gv c q Hc Hq) as (r & -> & _). reflexivity.
    - intros c q Hc Hq. destruct (Gv c q Hc Hq) as (r & -> & H). unfold Show_Proofs.mids in H.
      erewrite map_ext_in; [exact H|]. intros a Ha. cbv beta. apply in_seq in Ha. unfold fine. rewrite refined_nth by (auto; lia). reflexivity.
  Qed.

  Lemma mid_edges a m i : 0 < m -> mid_of true (fun a i => edge dc fd a m i) a i = middle dc fd a m i.
  Proof.
    intros Hm. assert (P : (0 < INR m)%R) by (apply lt_0_INR; exact Hm). unfold mid_of, edge, middle. rewrite S_INR. field. lra.
  Qed.

  (** One dimension: one curve per field; point number [i] is at the centre of the
      [i]-th of the equal parts of the domain and as high as the field there. *)
  Theorem C120_curve io b p n fs o : drawable io b p n fs -> dim = 1 ->
    let m := cells_along fd 0 * nth 0 (refine 1 n b) 0 in
    exists calls labels, interpolate_plot dec root stored (field_bytes rt meta fd) io o = Ok (calls, labels) /\
      length calls = (fd_nc fd / length fs) / (if o_stream o || o_quiver o then 2 else 1) /\
      forall c cs, nth_error calls c = Some cs ->
        exists x y f, cs = [Curve x y] /\
          holds [m] x (fun i => (middle dc fd 0 m (hd 0%nat i) + o_xshift o) * o_xscale o)%R /\
          holds [m] y (fun i => (f (hd 0%nat i) + o_yshift o) * o_yscale o)%R /\
          forall i, i < m -> field_value dc fd fs c [middle dc fd 0 m i] (f i).
  Proof.
    intros H D1 m. destruct (interpolated_dataset io b p n fs H) as (F2 & Lf & x & y & f & Ex & Ey & Dy & V).
    unfold interpolate_plot. rewrite Ex. cbn [bind]. rewrite Ey. cbn [bind].
    set (fine := refined_shape (fd_cells fd) (refine dim n b)) in *.
    assert (Ef : fine = [m]).
    { destruct fine as [|m' [|]] eqn:E; try (cbn [length] in Lf; lia). f_equal. unfold m. rewrite <- D1.
      change m' with (nth 0 [m'] 0). rewrite <- E. apply refined_nth; [apply refine_length|]. fold dim. lia. }
    assert (Hm : 2 <= m) by (rewrite Ef in F2; now inversion F2).
    destruct (C90_line o true fine _ _ f (to_draw y) 0 m Dy) as (calls & labels & Ep & Lc & _ & Hc).
    { rewrite Ef. split; [exact Hm|]. split; [reflexivity|]. intros [|[|k]] c' Nk Hk; [now elim Nk|discriminate Hk|discriminate Hk]. }
    exists calls, labels. split; [exact Ep|]. split; [exact Lc|]. intros c cs Hcs. destruct (Hc c cs Hcs) as (x0 & y0 & -> & Hx & Hy).
    assert (Lt : c < fd_nc fd / length fs).
    { assert (c < length calls) by (apply nth_error_Some; congruence). rewrite Lc in H0. destruct (o_stream o || o_quiver o); [|now rewrite Nat.div_1_r in H0].
      pose proof (Nat.mul_div_le (fd_nc fd / length fs) 2). lia. }
    exists x0, y0, (fun i => f [i] c). split; [reflexivity|]. rewrite Ef in Hy. cbn [length] in Hy. split; [|split].
    - eapply holds_ext; [exact Hx|]. intros idx Hi. apply in_one in Hi as (i & -> & Hi). cbn [hd]. do 2 f_equal. rewrite Ef. unfold mid_of. cbn [nth].
      apply (mid_edges 0 m i). lia.
    - eapply holds_ext; [exact Hy|]. intros idx Hi. apply in_one in Hi as (i & -> & Hi). reflexivity.
    - intros i Hi. specialize (V c [i] Lt). rewrite Ef, D1 in V. cbn [seq List.map nth] in V. apply V. constructor; [exact Hi|constructor].
  Qed.

  (** Two dimensions: the colours.  Row [j], column [i] shows the field at the
      centre of the part between the edges number [i], [i + 1] of the first axis
      and [j], [j + 1] of the second. *)
  Theorem C120_colours io b p n fs o : drawable io b p n fs -> dim = 2 ->
    o_contour o = false -> o_quiver o = false -> o_stream o = false -> o_lineouts o = None ->
    let m0 := cells_along fd 0 * nth 0 (refine 2 n b) 0 in let m1 := cells_along fd 1 * nth 1 (refine 2 n b) 0 in
    exists calls labels, interpolate_plot dec root stored (field_bytes rt meta fd) io o = Ok (calls, labels) /\
      length calls = fd_nc fd / length fs /\
      forall c cs, nth_error calls c = Some cs ->
        exists x y z vmin vmax ext f, cs = [Mesh x y z vmin vmax ext] /\
          holds [S m0] x (fun i => (edge dc fd 0 m0 (hd 0%nat i) + o_xshift o) * o_xscale o)%R /\
          holds [S m1] y (fun j => (edge dc fd 1 m1 (hd 0%nat j) + o_yshift o) * o_yscale o)%R /\
          holds [m1; m0] z (fun ji => (f (nth 1%nat ji 0%nat) (hd 0%nat ji) + o_zshift o) * o_zscale o)%R /\
          forall i j, i < m0 -> j < m1 -> field_value dc fd fs c [middle dc fd 0 m0 i; middle dc fd 1 m1 j] (f i j).
  Proof.
    intros H D2 Oc Oq Os Ol m0 m1. destruct (interpolated_dataset io b p n fs H) as (F2 & Lf & x & y & f & Ex & Ey & Dy & V).
    unfold interpolate_plot. rewrite Ex. cbn [bind]. rewrite Ey. cbn [bind].
    set (fine := refined_shape (fd_cells fd) (refine dim n b)) in *.
    assert (Ef : fine = [m0; m1]).
    { destruct fine as [|m0' [|m1' [|]]] eqn:E; try (cbn [length] in Lf; lia). unfold m0, m1, cells_along. rewrite <- D2.
      pose proof (refined_nth (fd_cells fd) (refine dim n b) 0 (refine_length _ _ _)) as R0. pose proof (refined_nth (fd_cells fd) (refine dim n b) 1 (refine_length _ _ _)) as R1.
      fold fine in R0, R1. rewrite E in R0, R1. cbn [nth] in R0, R1. rewrite <- R0, <- R1 by (fold dim; lia). reflexivity. }
    assert (Hm : 2 <= m0 /\ 2 <= m1) by (rewrite Ef in F2; inversion_clear F2 as [|? ? A B]; inversion_clear B; auto).
    destruct (C90_mesh o true fine _ _ f (to_draw y) 0 m0 1 m1 Dy) as (calls & labels & Ep & Lc & _ & Hc); try assumption.
    { rewrite Ef. split; [lia|]. split; [apply Hm|]. split; [apply Hm|]. split; [reflexivity|]. split; [reflexivity|].
      intros [|[|[|k]]] c' N0 N1 Hk; [now elim N0|now elim N1|discriminate Hk|discriminate Hk]. }
    exists calls, labels. split; [exact Ep|]. split; [exact Lc|]. intros c cs Hcs. destruct (Hc c cs Hcs) as (x0 & y0 & z0 & vmin & vmax & ext & -> & Hx & Hy & Hz & _).
    assert (Lt : c < fd_nc fd / length fs) by (rewrite <- Lc; apply nth_error_Some; congruence).
    exists x0, y0, z0, vmin, vmax, ext, (fun i j => f [i; j] c). split; [reflexivity|]. split; [|split; [|split]].
    - eapply holds_ext; [exact Hx|]. intros idx _. rewrite Ef. reflexivity.
    - eapply holds_ext; [exact Hy|]. intros idx _. rewrite Ef. reflexivity.
    - eapply holds_ext; [exact Hz|]. intros idx Hi. apply in_two in Hi as (j & i & -> & Hj & Hi). unfold zval. rewrite Ef. reflexivity.
    - intros i j Hi Hj. specialize (V c [i; j] Lt). rewrite Ef, D2 in V. cbn [seq List.map nth] in V. apply V. repeat (constructor; try assumption).
  Qed.

  (** Contour lines: the same values, placed at these centres. *)
  Theorem C120_contours io b p n fs o : drawable io b p n fs -> dim = 2 -> o_contour o = true ->
    let m0 := cells_along fd 0 * nth 0 (refine 2 n b) 0 in let m1 := cells_along fd 1 * nth 1 (refine 2 n b) 0 in
    exists calls labels, interpolate_plot dec root stored (field_bytes rt meta fd) io o = Ok (calls, labels) /\
      length calls = (fd_nc fd / length fs) / (if o_stream o || o_quiver o then 2 else 1) /\
      forall c cs, nth_error calls c = Some cs ->
        exists x y z f, cs = [Contours x y z] /\
          holds [m0] x (fun i => (middle dc fd 0 m0 (hd 0%nat i) + o_xshift o) * o_xscale o)%R /\
          holds [m1] y (fun j => (middle dc fd 1 m1 (hd 0%nat j) + o_yshift o) * o_yscale o)%R /\
          holds [m1; m0] z (fun ji => (f (nth 1%nat ji 0%nat) (hd 0%nat ji) + o_zshift o) * o_zscale o)%R /\
          forall i j, i < m0 -> j < m1 -> field_value dc fd fs c [middle dc fd 0 m0 i; middle dc fd 1 m1 j] (f i j).
  Proof.
    intros H D2 Oc m0 m1. destruct (interpolated_dataset io b p n fs H) as (F2 & Lf & x & y & f & Ex & Ey & Dy & V).
    unfold interpolate_plot. rewrite Ex. cbn [bind]. rewrite Ey. cbn [bind].
    set (fine := refined_shape (fd_cells fd) (refine dim n b)) in *.
    assert (Ef : fine = [m0; m1]).
    { destruct fine as [|m0' [|m1' [|]]] eqn:E; try (cbn [length] in Lf; lia). unfold m0, m1, cells_along. rewrite <- D2.
      pose proof (refined_nth (fd_cells fd) (refine dim n b) 0 (refine_length _ _ _)) as R0. pose proof (refined_nth (fd_cells fd) (refine dim n b) 1 (refine_length _ _ _)) as R1.
      fold fine in R0, R1. rewrite E in R0, R1. cbn [nth] in R0, R1. rewrite <- R0, <- R1 by (fold dim; lia). reflexivity. }
    assert (Hm : 2 <= m0 /\ 2 <= m1) by (rewrite Ef in F2; inversion_clear F2 as [|? ? A B]; inversion_clear B; auto).
    destruct (C90_contour o true fine _ _ f (to_draw y) 0 m0 1 m1 Dy) as (calls & labels & Ep & Lc & _ & Hc); try assumption.
    { rewrite Ef. split; [lia|]. split; [apply Hm|]. split; [apply Hm|]. split; [reflexivity|]. split; [reflexivity|].
      intros [|[|[|k]]] c' N0 N1 Hk; [now elim N0|now elim N1|discriminate Hk|discriminate Hk]. }
    exists calls, labels. split; [exact Ep|]. split; [exact Lc|]. intros c cs Hcs. destruct (Hc c cs Hcs) as (x0 & y0 & z0 & -> & Hx & Hy & Hz).
    assert (Lt : c < fd_nc fd / length fs).
    { assert (H0 : c < length calls) by (apply nth_error_Some; congruence). rewrite Lc in H0. destruct (o_stream o || o_quiver o); [|now rewrite Nat.div_1_r in H0].
      pose proof (Nat.mul_div_le (fd_nc fd / length fs) 2). lia. }
    exists x0, y0, z0, (fun i j => f [i; j] c). split; [reflexivity|]. split; [|split; [|split]].
    - eapply holds_ext; [exact Hx|]. intros idx _. rewrite Ef. do 2 f_equal. unfold mid_of. cbn [nth]. apply (mid_edges 0 m0). lia.
    - eapply holds_ext; [exact Hy|]. intros idx _. rewrite Ef. do 2 f_equal. unfold mid_of. cbn [nth]. apply (mid_edges 1 m1). lia.
    - eapply holds_ext; [exact Hz|]. intros idx Hi. apply in_two in Hi as (j & i & -> & Hj & Hi). unfold zval. rewrite Ef. reflexivity.
    - intros i j Hi Hj. specialize (V c [i; j] Lt). rewrite Ef, D2 in V. cbn [seq List.map nth] in V. apply V. repeat (constructor; try assumption).
  Qed.

  (** Three dimensions or more are not drawn. *)
  Theorem C120_too_many io b p n fs o : drawable io b p n fs -> 3 <= dim ->
    interpolate_plot dec root stored (field_bytes rt meta fd) io o = Err ValueError.
  Proof.
    intros H D3. destruct (interpolated_dataset io b p n fs H) as (F2 & Lf & x & y & f & Ex & Ey & (_ & _ & _ & Ec & _) & _).
    unfold interpolate_plot. rewrite Ex. cbn [bind]. rewrite Ey. cbn [bind]. apply C90_dims. rewrite Ec. unfold live_dims.
    assert (K : forall l, Forall (fun m => 2 <= m) l -> length (filter (fun n => negb (n =? 1)) l) = length l).
    { clear. induction 1 as [|m l Hm _ IH]; [reflexivity|]. cbn [filter]. destruct (Nat.eqb_spec m 1); [lia|]. cbn [negb length]. now rewrite IH. }
    rewrite K by exact F2. rewrite Lf. lia.
  Qed.
End C120.
Print Assumptions C120_curve.
Print Assumptions C120_colours.
Print Assumptions C120_contours.
Print Assumptions C120_too_many.

(** ** Example: a file with two cells from 0 to 4 and one field of order 1 *)
Definition byte0 (w : nat) (b : list Z) : R := IZR (nth 0 b 0%Z).
Definition num (z : Z) : list Z := [z; 0; 0; 0; 0; 0; 0; 0]%Z.
Definition line_meta : list Z := ([130] ++ ([169] ++ codes "polyOrder") ++ [1] ++ ([169] ++ codes "basisType") ++ ([171] ++ codes "serendipity"))%Z.
Definition line_dict : list (mkey * mval) := [((false, "polyOrder"), MInt 1); ((false, "basisType"), MStr "serendipity")].
Definition line_file : field := mk_field [2] 2 [num 0] [num 4] [num 5; num 7; num 6; num 2].
Definition asis : dgopts := mk_dgopts None None None None None.

Example line_described : described line_meta line_dict.
Proof. right. apply C118_only; [apply bytes_b; vm_compute; reflexivity|vm_compute; reflexivity]. Qed.

Example C120_line_hyps : drawable byte0 iroot 2 line_meta line_dict line_file asis "serendipity" 1 2 it_d1_modal_o1 /\
  length (fd_cells line_file) = 1.
Proof.
  split; [|reflexivity]. split; [good_field_tac|]. split; [exact line_described|]. split; [repeat constructor|].
  split; [intros [|k] Hk; [unfold low, high, byte0; cbn; lra|cbn in Hk; lia]|]. split; [cbn; lia|].
  split.
  { exists "serendipity". split; [right; split; [reflexivity|]; split; [|split; [discriminate|]]|right; split; [intros (_ & E); discriminate E|reflexivity]].
    - exists "basisType". split; [now left|]. split; [right; now left|]. intros k w Hk [E|[E|[]]]; inversion E; subst; [|reflexivity]. exfalso. destruct Hk as [X|[X|[]]]; discriminate X.
    - intros w [E|[E|[]]]; discriminate E. }
  split.
  { split; [lia|]. right. split; [reflexivity|]. exists "polyOrder". split; [now left|]. split; [now left|].
    intros k w Hk [E|[E|[]]]; inversion E; subst; [reflexivity|]. exfalso. destruct Hk as [X|[X|[]]]; discriminate X. }
  split; [right; split; [now left|reflexivity]|]. split; [split; [cbn; lia|split; [discriminate|intros _; now left]]|].
  split; [reflexivity|]. split; [vm_compute; lia|]. intros m. apply (iroot_pow 1). lia.
Qed.

(** The field at 5/2, a quarter into the second cell. *)
Example line_value : field_value (byte0 8) line_file it_d1_modal_o1 0 [(5/2)%R]
  (expansion [6; 2]%R it_d1_modal_o1 [(-1/2)%R]).
Proof.
  exists [1]. split.
  - split; [reflexivity|]. split; [repeat constructor|]. intros [|k] Hk; [|cbn in Hk; lia]. unfold edge, low, high, cells_along, byte0. cbn. lra.
  - f_equal. unfold reference, edge, low, high, cells_along, byte0. cbn. f_equal. lra.
Qed.
