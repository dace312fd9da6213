(** * Proofs about Show_Model *)
From Coq Require Import String Ascii List Arith ZArith Bool Lia Reals Lra.
From Verif Require Import Prelude PreludeFacts NdArray Gkyl_Model Gkyl_Spec Gkyl_Proofs Gkyl_Props Msgpack_Model Msgpack_Spec Msgpack_Props
  Dg_Poly Dg_TabI Dg_TabD Dg_Model Dg_Spec Dg_Proofs Dg_Proofs2 Dg_Props Dg_Props2 Dg_Props3 Dg_Sem Dg_Gram Dg_Props5 DgCmd_Model Dg_Props8
  Tools_Arr Show_Model Show_Spec.
Import ListNotations.
Open Scope string_scope. Open Scope list_scope. Open Scope nat_scope.

(** ** Coordinates *)

Lemma linspace_rnum dec lo up n : linspace (rnum dec) lo up n = linspace rops lo up n.
Proof. reflexivity. Qed.

Lemma rlinspace_length lo up n : length (linspace rops lo up n) = S n.
Proof. destruct n; [reflexivity|]. unfold linspace. rewrite app_length, map_length, seq_length. cbn [length]. lia. Qed.

Lemma rlinspace_nth lo up n i : 0 < n -> i <= n ->
  nth_error (linspace rops lo up n) i = Some (lo + (up - lo) * INR i / INR n)%R.
Proof.
  intros Hn Hi. assert (N : (0 < INR n)%R) by (apply lt_0_INR; lia). unfold linspace. destruct n as [|m]; [lia|].
  cbn [rops fadd fmul fdiv fsub fofZ]. set (n := S m) in *. destruct (Nat.eq_dec i n) as [->|Ne].
  - rewrite nth_error_app2 by (rewrite map_length, seq_length; lia). rewrite map_length, seq_length, Nat.sub_diag. cbn [nth_error]. f_equal. field. lra.
  - rewrite nth_error_app1 by (rewrite map_length, seq_length; lia). rewrite nth_error_map, nth_error_seq.
    destruct (Nat.ltb_spec i n); [|lia]. cbn [option_map Nat.add]. f_equal. rewrite <- !INR_IZR_INZ. field. lra.
Qed.

Lemma rmake_mesh lo up n N : 0 < n -> 0 < N ->
  make_mesh rops n (linspace rops lo up N) None = Ok (linspace rops lo up (n * N)).
Proof.
  intros Hn HN. pose proof (rlinspace_length lo up N) as L. pose proof (rlinspace_nth lo up N 0 HN ltac:(lia)) as H0.
  pose proof (rlinspace_nth lo up N N HN ltac:(lia)) as HN'. unfold make_mesh.
  assert (P : (0 < INR N)%R) by (apply lt_0_INR; lia).
  assert (La : last (linspace rops lo up N) 0%R = up).
  { assert (Ne : linspace rops lo up N <> []) by (intros E; rewrite E in L; discriminate).
    pose proof (last_nth_error (linspace rops lo up N) 0%R Ne) as E. rewrite L in E. replace (S N - 1) with N in E by lia.
    rewrite HN' in E. injection E as E. rewrite <- E. field. lra. }
  destruct (linspace rops lo up N) as [|x0 l]; [discriminate|]. cbn [rops fzero]. rewrite La, L. cbn [nth_error] in H0. injection H0 as ->.
  replace (S N - 1) with N by lia. do 2 f_equal. cbn [INR]. field. lra.
Qed.

(** ** The grid of interpolated values *)

Definition uniform_axes (cells : list nat) (lo up : nat -> R) (g : list (nda R)) : Prop :=
  length g = length cells /\
  forall a x, nth_error g a = Some x -> flat x = linspace rops (lo a) (up a) (nth a cells 0).

Lemma modal_grid_uniform ev root (d : dgdata (F := R)) (g : ginterp) cells fs lo up :
  Forall (fun c => 0 < c) cells ->
  gi_dims g = length cells -> dims_ok (length cells) (gi_basis g) -> (gi_basis g = "hybrid" -> 2 <= length cells) ->
  interp_functions (gi_dims g) (gi_poly g) true (gi_basis g) = Ok fs -> 2 <= gi_interp g ->
  (forall m, root (length cells) (m ^ length cells) = m) -> dd_grid_type d = "uniform" ->
  uniform_axes cells lo up (dd_grid d) ->
  let ns := refine (length cells) (gi_interp g) (gi_basis g) in
  modal_grid rops rdot ev root d g
  = Ok (List.map (fun a => line_nda (linspace rops (lo a) (up a) (nth a ns 0 * nth a cells 0))) (seq 0 (length cells))).
Proof.
  intros P Gd D Hh Hfs Hn Hroot T (Lg & Hg) ns.
  assert (Lns : length ns = length cells) by apply refine_length.
  assert (Pns : Forall (fun n => 2 <= n) ns) by (apply refine_ge2; auto).
  unfold modal_grid. rewrite T. cbn [String.eqb Ascii.eqb Bool.eqb].
  unfold create_interp_matrix. cbn [andb]. rewrite Hfs. cbn [bind]. rewrite Gd in *.
  rewrite (point_counts_refine _ _ _ D Hh). fold ns.
  destruct (rows_of_spec rops ev false ns fs) as (Rl & _ & _). rewrite Rl.
  pose proof (grid_counts_refine root g) as GC. rewrite Gd in GC. fold ns in GC. rewrite (GC D Hn Hroot). cbn [bind].
  unfold make_1d_grids. rewrite (mapM_ok_all _ (fun a => linspace rops (lo a) (up a) (nth a ns 0 * nth a cells 0))).
  - cbn [bind]. now rewrite map_map.
  - intros a Ha. apply in_seq in Ha.
    destruct (nth_error ns a) as [n|] eqn:En; [|apply nth_error_None in En; lia].
    destruct (nth_error (dd_grid d) a) as [x|] eqn:Ex; [|apply nth_error_None in Ex; lia].
    rewrite (Hg a x Ex), (nth_error_nth _ _ 0 En). apply rmake_mesh.
    + assert (2 <= n) by (eapply (proj1 (Forall_forall _ _) Pns), nth_error_In; eauto). lia.
    + destruct (nth_error cells a) as [c|] eqn:Ec; [|apply nth_error_None in Ec; lia].
      rewrite (nth_error_nth _ _ _ Ec). eapply (proj1 (Forall_forall _ _) P), nth_error_In; eauto.
Qed.

(** ** Positions *)

Lemma ravel_row_major sizes idx : in_range sizes idx -> ravel sizes idx = Some (row_major sizes idx).
Proof.
  unfold in_range. intros H. induction H as [|i n idx sizes Hi _ IH]; [reflexivity|]. cbn [ravel row_major]. rewrite IH.
  destruct (Nat.ltb_spec i n); [reflexivity|lia].
Qed.

Lemma in_range_snoc sh idx n i : in_range sh idx -> i < n -> in_range (sh ++ [n]) (idx ++ [i]).
Proof. intros H Hi. apply Forall2_app; [exact H|]. constructor; [exact Hi|constructor]. Qed.

(** The [k]-th part of cell [i]: where it is. *)
Lemma part_place dec fd d n i k :
  0 < n -> 0 < cells_along fd d -> k < n -> (low dec fd d < high dec fd d)%R ->
  let N := cells_along fd d in
  let x := middle dec fd d (N * n) (i * n + k) in
  (edge dec fd d N i < x < edge dec fd d N (S i))%R /\
  (2 * (x - edge dec fd d N i) / (edge dec fd d N (S i) - edge dec fd d N i) - 1 = centre n k)%R.
Proof.
  intros Hn HN Hk Hlh N x. unfold x, edge, middle, centre. clear x. set (h := (high dec fd d - low dec fd d)%R). set (l := low dec fd d).
  assert (Ph : (0 < h)%R) by (unfold h; lra). assert (Pn : (0 < INR n)%R) by (apply lt_0_INR; lia). assert (PN : (0 < INR N)%R) by (apply lt_0_INR; exact HN).
  assert (K0 : (0 <= INR k)%R) by apply pos_INR. assert (K1 : (INR k + 1 <= INR n)%R) by (rewrite <- S_INR; apply le_INR; lia).
  rewrite mult_INR, plus_INR, mult_INR, S_INR.
  replace (l + h * (INR i * INR n + INR k + 1 / 2) / (INR N * INR n))%R
    with (l + h * INR i / INR N + (h / INR N) * ((INR k + 1 / 2) / INR n))%R by (field; lra).
  replace (l + h * (INR i + 1) / INR N)%R with (l + h * INR i / INR N + h / INR N)%R by (field; lra).
  assert (Pw : (0 < h / INR N)%R) by (apply Rdiv_lt_0_compat; lra).
  set (e := (l + h * INR i / INR N)%R) in *. set (w := (h / INR N)%R) in *.
  assert (T : (0 < (INR k + 1 / 2) / INR n < 1)%R).
  { split; [apply Rdiv_lt_0_compat; lra|]. apply Rmult_lt_reg_r with (r := INR n); [lra|]. unfold Rdiv at 1. rewrite Rmult_assoc, Rinv_l by lra. lra. }
  set (t := ((INR k + 1 / 2) / INR n)%R) in *. split; [nra|].
  replace (2 * (e + w * t - e) / (e + w - e) - 1)%R with (2 * t - 1)%R by (field; lra). unfold t. field. lra.
Qed.

(** ** Opening the file *)

Definition has_field (dec : nat -> list Z -> R) (rt : Z) (fd : field) (x : idata (F := R)) : Prop :=
  wf (dd_values (i_data x)) /\ shape (dd_values (i_data x)) = fd_cells fd ++ [fd_nc fd] /\
  flat (dd_values (i_data x)) = List.map (dec (width_of rt)) (fd_data fd) /\
  dd_grid_type (i_data x) = "uniform" /\
  uniform_axes (fd_cells fd) (low (dec (width_of rt)) fd) (high (dec (width_of rt)) fd) (dd_grid (i_data x)).

Lemma nth_map_dec {A B} (f : A -> B) l d a : nth_error (List.map f l) d = Some a -> forall e, a = f (nth d l e).
Proof. intros H e. rewrite nth_error_map in H. destruct (nth_error l d) as [x|] eqn:E; [|discriminate]. injection H as <-. now rewrite (nth_error_nth _ _ _ E). Qed.

Lemma open_described dec rt meta d fd :
  good_field rt (width_of rt) meta fd -> described meta d ->
  exists x ctx, open_file dec (field_bytes rt meta fd) = Ok x /\ has_field dec rt fd x /\
    dd_basis (i_data x) = ctx_basis ctx /\ dd_poly (i_data x) = ctx_order ctx /\ i_modal x = ctx_modal ctx /\
    (forall v, written d ["polyOrder"; "poly_order"] v -> aget "poly_order" ctx = Some v) /\
    (forall v, written d ["basisType"; "basis_type"] v -> aget "basis_type" ctx = Some v /\
       ((forall w, ~ In ((false, "is_modal"), w) d) -> aget "is_modal" ctx = Some (MBool true))).
Proof.
  intros Hg Hd.
  assert (Hr : meta_readable unpack meta).
  { destruct Hd as [[-> _]|He]; [now left|]. right. unfold unpack. rewrite (C118_decode _ _ He). eexists. reflexivity. }
  destruct (C02_documented_file R mval (rnum dec) unpack (MBool true) rt meta fd [] Hg Hr) as (Hc & g & El & Ec & En & Elo & Eup & Es & Ef & _ & Lg & Hgr).
  exists (file_data g), (l_ctx g). unfold open_file. rewrite Hc, El. cbn [bind]. split; [reflexivity|].
  pose proof Hg as ((_ & L1 & L2 & _) & _ & L3).
  split; [|split; [reflexivity|split; [reflexivity|split; [reflexivity|]]]].
  - unfold has_field, file_data. cbn [i_data dd_values dd_grid_type dd_grid]. split; [|split; [exact Es|split; [exact Ef|split; [reflexivity|]]]].
    + unfold wf. rewrite Ef, Es, map_length, L3, prod_app. cbn. lia.
    + split; [now rewrite map_length|]. intros a x Hx. rewrite nth_error_map in Hx.
      destruct (nth_error (l_grid g) a) as [l|] eqn:E; [|discriminate]. injection Hx as <-. cbn [flat line_nda].
      assert (La : a < length (fd_cells fd)) by (rewrite <- Lg; apply nth_error_Some; congruence).
      destruct (nth_error (fd_cells fd) a) as [n|] eqn:E1; [|apply nth_error_None in E1; lia].
      destruct (nth_error (l_lower g) a) as [lo|] eqn:E2; [|apply nth_error_None in E2; rewrite Elo, map_length in E2; lia].
      destruct (nth_error (l_upper g) a) as [up|] eqn:E3; [|apply nth_error_None in E3; rewrite Eup, map_length in E3; lia].
      rewrite (Hgr a n lo up E1 E2 E3) in E. injection E as <-. rewrite linspace_rnum, (nth_error_nth _ _ 0 E1).
      rewrite Elo in E2. rewrite Eup in E3. unfold low, high. now rewrite (nth_map_dec _ _ _ _ E2 []), (nth_map_dec _ _ _ _ E3 []).
  - split.
    + intros v (k & Hk & Hin & Hu). destruct Hd as [[_ ->]|He]; [destruct Hin|].
      destruct (C118_poly_order (rnum dec) rt meta d fd [] He Hg k v Hk Hin Hu) as (g' & El' & H). congruence.
    + intros v (k & Hk & Hin & Hu). destruct Hd as [[_ ->]|He]; [destruct Hin|].
      destruct (C118_basis (rnum dec) rt meta d fd [] He Hg k v Hk Hin Hu) as (g' & El' & H). assert (g' = g) by congruence. now subst g'.
Qed.

(** ** Interpolated values *)

(** Multi-index of the cell containing a part, and the centres of the parts. *)
Definition mids (dec : list Z -> R) (fd : field) (ns q : list nat) : list R :=
  List.map (fun d => middle dec fd d (cells_along fd d * nth d ns 0) (nth d q 0)) (seq 0 (length (fd_cells fd))).

Lemma sub_index_nth ns : forall i k d, length i = length ns -> length k = length ns -> d < length ns ->
  nth d (sub_index ns i k) 0 = nth d i 0 * nth d ns 0 + nth d k 0.
Proof.
  unfold sub_index. induction ns as [|n ns IH]; intros [|a i] [|b k] [|d]; cbn [length]; intros; try lia; [reflexivity|].
  cbn [combine List.map nth]. apply IH; lia.
Qed.

Lemma refined_nth cells : forall ns d, length ns = length cells -> d < length cells -> nth d (refined_shape cells ns) 0 = nth d cells 0 * nth d ns 0.
Proof.
  unfold refined_shape. induction cells as [|c cells IH]; intros [|n ns] [|d]; cbn [length]; intros; try lia; [reflexivity|].
  cbn [combine List.map nth]. apply IH; lia.
Qed.

Lemma refined_length cells ns : length ns = length cells -> length (refined_shape cells ns) = length cells.
Proof. intros. unfold refined_shape. rewrite map_length, combine_length. lia. Qed.

Lemma in_range_nth sh idx d : in_range sh idx -> d < length sh -> nth d idx 0 < nth d sh 0.
Proof.
  unfold in_range. intros H. revert d. induction H as [|i n idx sh Hi _ IH]; intros [|d] L; cbn [length] in L; try lia; [exact Hi|]. cbn [nth]. apply IH. lia.
Qed.

Lemma map2_seq {C} (f : nat -> nat -> C) l : forall m, length l = length m ->
  map2 f l m = List.map (fun d => f (nth d l 0) (nth d m 0)) (seq 0 (length l)).
Proof.
  induction l as [|a l IH]; intros [|b m] L; cbn [length] in L; try discriminate; [reflexivity|].
  cbn [map2 length seq List.map nth]. f_equal. rewrite <- seq_shift, map_map. apply IH. lia.
Qed.

Section Values.
  Context (dec : nat -> list Z -> R) (rt : Z) (fd : field).
  Let dc := dec (width_of rt).
  Context (Hlh : forall d, d < length (fd_cells fd) -> (low dc fd d < high dc fd d)%R)
          (Pc : Forall (fun c => 0 < c) (fd_cells fd)).

  Lemma field_value_part fs ns i k c u :
    length ns = length (fd_cells fd) -> Forall (fun n => 2 <= n) ns -> in_range (fd_cells fd) i -> in_range ns k ->
    u = coefficients dc fd fs c i ->
    field_value dc fd fs c (mids dc fd ns (sub_index ns i k)) (expansion u fs (centres ns k)).
  Proof.
    intros Ln Pn Hi Hk ->. pose proof (Forall2_length _ _ _ Hi) as Li. pose proof (Forall2_length _ _ _ Hk) as Lk.
    assert (Pd : forall d, d < length (fd_cells fd) -> 0 < cells_along fd d /\ 0 < nth d ns 0).
    { intros d Hd. split; [exact (proj1 (Forall_forall _ _) Pc _ (nth_In _ _ Hd))|]. rewrite <- Ln in Hd. pose proof (proj1 (Forall_forall _ _) Pn _ (nth_In _ 0 Hd)) as H. cbv beta in H. lia. }
    assert (E : forall d, d < length (fd_cells fd) -> nth d (mids dc fd ns (sub_index ns i k)) 0%R
              = middle dc fd d (cells_along fd d * nth d ns 0) (nth d i 0 * nth d ns 0 + nth d k 0)).
    { intros d Hd. unfold mids. rewrite (nth_indep _ _ (middle dc fd 0 (cells_along fd 0 * nth 0 ns 0) (nth 0 (sub_index ns i k) 0))) by (rewrite map_length, seq_length; exact Hd).
      rewrite (map_nth (fun d => middle dc fd d (cells_along fd d * nth d ns 0) (nth d (sub_index ns i k) 0)) _ 0), seq_nth by exact Hd. cbn [Nat.add]. rewrite sub_index_nth by lia. reflexivity. }
    exists i. split; [split; [|split; [exact Hi|]]|].
    - unfold mids. now rewrite map_length, seq_length.
    - intros d Hd. rewrite (E d Hd). destruct (Pd d Hd) as (P1 & P2). apply part_place; auto. apply (in_range_nth ns k d Hk). lia.
    - f_equal. unfold centres, reference. rewrite map2_seq by lia. rewrite Ln. apply map_ext_in. intros d Hd. apply in_seq in Hd. destruct Hd as (_ & Hd). cbn [Nat.add] in Hd.
      rewrite (E d Hd). symmetry. destruct (Pd d Hd) as (P1 & P2). apply part_place; auto. apply (in_range_nth ns k d Hk). lia.
  Qed.

  Lemma coefficients_of (v : nda R) fs c i u :
    shape v = fd_cells fd ++ [fd_nc fd] -> flat v = List.map dc (fd_data fd) -> length (fd_data fd) = prod (fd_cells fd) * fd_nc fd ->
    in_range (fd_cells fd) i -> c * length fs + length fs <= fd_nc fd ->
    length u = length fs -> (forall m, m < length fs -> nth_error u m = get v (i ++ [c * length fs + m])) ->
    u = coefficients dc fd fs c i.
  Proof.
    intros Sv Fv Ld Hi Hc Lu Hu. unfold coefficients. apply nth_ext with (d := 0%R) (d' := 0%R); [now rewrite map_length, seq_length|].
    intros m Hm. rewrite Lu in Hm. apply nth_error_nth. rewrite Hu by exact Hm. unfold get. rewrite Sv, Fv.
    assert (R : in_range (fd_cells fd ++ [fd_nc fd]) (i ++ [c * length fs + m])) by (apply in_range_snoc; [exact Hi|lia]).
    rewrite (ravel_row_major _ _ R). pose proof (ravel_lt _ _ _ (ravel_row_major _ _ R)) as Lt. rewrite prod_app in Lt.
    replace (prod [fd_nc fd]) with (fd_nc fd) in Lt by (cbn; lia).
    rewrite nth_error_map, (nth_error_nth' (fd_data fd) []) by lia. cbn [option_map].
    rewrite (nth_indep _ 0%R (dc (nth (row_major (fd_cells fd ++ [fd_nc fd]) (i ++ [c * length fs + 0])) (fd_data fd) []))) by (rewrite map_length, seq_length; exact Hm).
    now rewrite (map_nth (fun m => dc (nth (row_major (fd_cells fd ++ [fd_nc fd]) (i ++ [c * length fs + m])) (fd_data fd) [])) _ 0), seq_nth.
  Qed.

  (** What interpolation makes of a file's data. *)
  Lemma interpolated root (x : idata (F := R)) (g : ginterp) comps fs :
    length (fd_data fd) = prod (fd_cells fd) * fd_nc fd -> has_field dec rt fd x ->
    gi_dims g = length (fd_cells fd) -> dims_ok (length (fd_cells fd)) (gi_basis g) -> (gi_basis g = "hybrid" -> 2 <= length (fd_cells fd)) ->
    interp_functions (gi_dims g) (gi_poly g) true (gi_basis g) = Ok fs -> gi_nodes g = length fs -> 2 <= gi_interp g ->
    comps <> [] -> (forall c, In c comps -> c * length fs + length fs <= fd_nc fd) ->
    (forall m, root (length (fd_cells fd)) (m ^ length (fd_cells fd)) = m) ->
    let ns := refine (length (fd_cells fd)) (gi_interp g) (gi_basis g) in
    let fine := refined_shape (fd_cells fd) ns in
    exists v, modal_interpolate rops rdot evalR root (i_data x) g comps
       = Ok (List.map (fun a => line_nda (linspace rops (low dc fd a) (high dc fd a) (nth a fine 0))) (seq 0 (length (fd_cells fd))), v) /\
      wf v /\ shape v = fine ++ [length comps] /\
      forall j c q, nth_error comps j = Some c -> in_range fine q ->
        exists r, get v (q ++ [j]) = Some r /\ field_value dc fd fs c (mids dc fd ns q) r.
  Proof.
    intros Ld (Wx & Sx & Fx & Tx & Ux) Gd D Hh Hfs Gn Hn Hc Hcs Hroot ns fine.
    assert (Lns : length ns = length (fd_cells fd)) by apply refine_length.
    assert (Pns : Forall (fun n => 2 <= n) ns) by (apply refine_ge2; auto).
    destruct (C36_interpolated_value (i_data x) g comps (fd_cells fd) (fd_nc fd) fs Wx Sx Gd D Hh Hfs Gn Hn Hc Hcs) as (v & Ev & Wv & Sv & V).
    exists v. unfold modal_interpolate. rewrite Ev. cbn [bind].
    rewrite (modal_grid_uniform evalR root (i_data x) g (fd_cells fd) fs (low dc fd) (high dc fd) Pc Gd D Hh Hfs Hn Hroot Tx Ux). cbn [bind].
    split; [|split; [exact Wv|split; [exact Sv|]]].
    - do 2 f_equal. apply map_ext_in. intros a Ha. apply in_seq in Ha. unfold fine. rewrite refined_nth by (auto; lia). do 2 f_equal. fold ns. apply Nat.mul_comm.
    - intros j c q Hj Hq.
      destruct (sub_index_onto (fd_cells fd) ns q) as (i & k & Hi & Hk & ->); [lia|eapply Forall_impl; [|exact Pns]; cbv beta; intros; lia|exact Hq|].
      destruct (V j c i k Hj Hi Hk) as (u & Lu & Vu & G). exists (expansion u fs (centres ns k)). split; [exact G|].
      apply field_value_part; auto. apply (coefficients_of (dd_values (i_data x))); auto. apply Hcs. apply (nth_error_In _ _ Hj).
  Qed.
End Values.

(** The option names and the metadata, as [asked_init] wants them. *)
Lemma told_asked_family o (x : idata (F := R)) ctx d dim b :
  dd_basis (i_data x) = ctx_basis ctx -> i_modal x = ctx_modal ctx ->
  (forall v, written d ["basisType"; "basis_type"] v -> aget "basis_type" ctx = Some v /\
     ((forall w, ~ In ((false, "is_modal"), w) d) -> aget "is_modal" ctx = Some (MBool true))) ->
  told_family o d dim b -> asked_family o x dim b.
Proof.
  intros Eb Em H (b0 & Hb & Hd). exists b0. split; [|exact Hd]. destruct Hb as [Hb|(Ho & Hw & Hne & Hm)]; [left; exact Hb|]. right.
  destruct (H _ Hw) as (H1 & H2). split; [exact Ho|]. split; [rewrite Eb; unfold ctx_basis; now rewrite H1|]. split; [exact Hne|].
  rewrite Em. unfold ctx_modal. now rewrite (H2 Hm).
Qed.
Lemma told_asked_order o (x : idata (F := R)) ctx d p :
  dd_poly (i_data x) = ctx_order ctx ->
  (forall v, written d ["polyOrder"; "poly_order"] v -> aget "poly_order" ctx = Some v) ->
  told_order o d p -> asked_order o x p.
Proof.
  intros Ep H (Hp & Ho). split; [exact Hp|]. destruct Ho as [Ho|(Ho & Hw)]; [left; exact Ho|]. right. split; [exact Ho|].
  rewrite Ep. unfold ctx_order. rewrite (H _ Hw). destruct (Z.leb_spec 0 (Z.of_nat p)); [|lia]. now rewrite Nat2Z.id.
Qed.
