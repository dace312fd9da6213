(** * C90: examples and refutations; C91: pairs of grid and values *)
From Coq Require Import String Ascii List Arith ZArith Bool Lia Reals Lra.
From Verif Require Import Prelude PreludeFacts NdArray Ev_Model Ev_Arith Tools_Arr Draw_Model Draw_Spec Draw_Proofs Draw_Proofs2 Draw_Props Draw_Proofs3 Draw_Props2.
Import ListNotations.
Open Scope list_scope.
Open Scope nat_scope.

(** ** Datasets with given coordinates and values *)

Definition rect_data (edges : bool) (cells : list nat) (X : nat -> nat -> R) (m : nat) (f : list nat -> nat -> R) : pd :=
  mk_pd (List.map (fun k => tabulate [points edges (nth k cells 0)] (fun x => X k (hd 0 x))) (seq 0 (length cells)))
    cells (tabulate (cells ++ [m]) (fun x => f (removelast x) (last x 0))).

Lemma rect_data_ok edges cells X m f :
  Forall (fun n => 1 <= n) cells -> length cells <= 6 -> dataset edges cells X m f (rect_data edges cells X m f).
Proof.
  intros P L. split; [exact P|]. split; [exact L|]. split; [|split; [reflexivity|]].
  - split; [cbn [p_grid rect_data]; rewrite map_length, seq_length; reflexivity|]. intros k g n Eg En. cbn [p_grid rect_data] in Eg.
    assert (Lk : k < length cells) by (apply nth_error_Some; congruence).
    rewrite nth_error_map, (nth_error_nth' (seq 0 (length cells)) 0) in Eg by (rewrite seq_length; exact Lk).
    rewrite seq_nth in Eg by exact Lk. cbn [option_map Nat.add] in Eg. injection Eg as <-.
    rewrite (nth_error_nth cells k 0 En). apply holds_tab.
  - eapply shows_ext; [apply shows_tab|]. intros x j _ _. cbv beta. now rewrite removelast_snoc, last_snoc.
Qed.

Definition mapped_data (cells : list nat) (X : nat -> list nat -> R) (m : nat) (f : list nat -> nat -> R) : pd :=
  mk_pd (List.map (fun k => tabulate (List.map S cells) (X k)) (seq 0 (length cells)))
    cells (tabulate (cells ++ [m]) (fun x => f (removelast x) (last x 0))).

Lemma mapped_data_ok cells X m f :
  Forall (fun n => 1 <= n) cells -> length cells <= 6 -> mapped cells X m f (mapped_data cells X m f).
Proof.
  intros P L. split; [exact P|]. split; [exact L|]. split; [|split; [reflexivity|]].
  - split; [cbn [p_grid mapped_data]; rewrite map_length, seq_length; reflexivity|]. intros k g Eg. cbn [p_grid mapped_data] in Eg.
    assert (Lk : k < length cells).
    { assert (Q : nth_error (List.map (fun k => tabulate (List.map S cells) (X k)) (seq 0 (length cells))) k <> None) by congruence.
      apply nth_error_Some in Q. rewrite map_length, seq_length in Q. exact Q. }
    rewrite nth_error_map, (nth_error_nth' (seq 0 (length cells)) 0) in Eg by (rewrite seq_length; exact Lk).
    rewrite seq_nth in Eg by exact Lk. cbn [option_map Nat.add] in Eg. injection Eg as <-. apply holds_tab.
  - eapply shows_ext; [apply shows_tab|]. intros x j _ _. cbv beta. now rewrite removelast_snoc, last_snoc.
Qed.

Definition plain : dopts := mk_dopts false false false None false false 0 1 0 1 0 1 None None.
Definition contoured : dopts := mk_dopts true false false None false false 0 1 0 1 0 1 None None.
Definition arrows : dopts := mk_dopts false true false None false false 0 1 0 1 0 1 None None.
Definition streams : dopts := mk_dopts false false true None false false 0 1 0 1 0 1 None None.
Definition lined (l : Z) : dopts := mk_dopts false false false (Some l) false false 0 1 0 1 0 1 None None.
Definition scaled : dopts := mk_dopts false false false None true false 1 2 3 4 5 6 None None.

(** The datasets of the examples: 1 x 3 x 1 x 2 cells, and 1 x 3 x 1 cells. *)
Definition ex_cells := [1; 3; 1; 2].
Lemma ex_axes : only_axes ex_cells 1 3 3 2.
Proof.
  split; [lia|]. split; [lia|]. split; [lia|]. split; [reflexivity|]. split; [reflexivity|].
  intros [|[|[|[|k]]]] c N1 N2 E; cbn in E; try (now injection E); try lia. destruct k; discriminate E.
Qed.
Lemma ex_axis : only_axis [1; 3; 1] 1 3.
Proof.
  split; [lia|]. split; [reflexivity|]. intros [|[|[|k]]] c N1 E; cbn in E; try (now injection E); try lia. destruct k; discriminate E.
Qed.
Definition exX (k i : nat) : R := (INR k + INR i * INR i)%R.
Definition exf (x : list nat) (c : nat) : R := (INR (nth 1 x 0%nat) + 10 * INR (nth 3 x 0%nat) + 100 * INR c)%R.

Example C90_line_ex :
  exists x y labels, plot_data scaled (rect_data true [1; 3; 1] exX 1 exf) = Ok ([[Curve x y]], 1 :: labels) /\
    shape x = [3] /\ get x [2] = Some 17%R /\ get y [2] = Some 20%R.
Proof.
  assert (D : dataset true [1; 3; 1] exX 1 exf (rect_data true [1; 3; 1] exX 1 exf)) by (apply rect_data_ok; [repeat constructor|cbn; lia]).
  destruct (C90_line scaled true [1; 3; 1] exX 1 exf _ 1 3 D ex_axis) as (calls & labels & E & L & (l & El) & Q).
  destruct calls as [|cs [|]]; [discriminate L| |discriminate L].
  destruct (Q 0 cs eq_refl) as (x & y & -> & (_ & Sx & Vx) & (_ & _ & Vy)). exists x, y, l. rewrite E, El.
  split; [reflexivity|]. split; [exact Sx|]. split.
  - rewrite Vx by (constructor; [lia|constructor]). f_equal. cbn [hd mid_of scaled o_xshift o_xscale]. unfold exX. cbn [INR]. lra.
  - rewrite Vy by (constructor; [lia|constructor]). f_equal. cbn [hd cell1 length seq List.map Nat.eqb scaled o_yshift o_yscale].
    unfold exf, cell1. cbn [nth INR hd length seq List.map Nat.eqb]. lra.
Qed.

Example C90_mesh_ex :
  exists x y z vmin vmax ext labels,
    plot_data scaled (rect_data true ex_cells exX 1 exf) = Ok ([[Mesh x y z vmin vmax ext]], 1 :: 3 :: labels) /\
    shape x = [4] /\ shape y = [3] /\ shape z = [2; 3] /\
    get x [2] = Some 12%R /\ get y [1] = Some 28%R /\ get z [1; 2] = Some 102%R.
Proof.
  assert (D : dataset true ex_cells exX 1 exf (rect_data true ex_cells exX 1 exf)) by (apply rect_data_ok; [repeat constructor|cbn; lia]).
  destruct (C90_mesh scaled true ex_cells exX 1 exf _ 1 3 3 2 D ex_axes eq_refl eq_refl eq_refl eq_refl) as (calls & labels & E & L & (l & El) & Q).
  destruct calls as [|cs [|]]; [discriminate L| |discriminate L].
  destruct (Q 0 cs eq_refl) as (x & y & z & vmin & vmax & ext & -> & (_ & Sx & Vx) & (_ & Sy & Vy) & (_ & Sz & Vz) & _).
  exists x, y, z, vmin, vmax, ext, l. rewrite E, El. split; [reflexivity|]. split; [exact Sx|]. split; [exact Sy|]. split; [exact Sz|].
  split; [|split].
  - rewrite Vx by (constructor; [cbn; lia|constructor]). f_equal. cbn [hd scaled o_xshift o_xscale]. unfold exX. cbn [INR]. lra.
  - rewrite Vy by (constructor; [cbn; lia|constructor]). f_equal. cbn [hd scaled o_yshift o_yscale]. unfold exX. cbn [INR]. lra.
  - rewrite Vz by (constructor; [lia|]; constructor; [lia|constructor]). f_equal. unfold zval, exf, cell2, ex_cells.
    cbn [hd nth length seq List.map Nat.eqb scaled o_zshift o_zscale INR]. lra.
Qed.

Example C90_contour_ex : exists x y z labels,
  plot_data contoured (rect_data false ex_cells exX 1 exf) = Ok ([[Contours x y z]], 1 :: 3 :: labels) /\ get z [1; 2] = Some 12%R.
Proof.
  assert (D : dataset false ex_cells exX 1 exf (rect_data false ex_cells exX 1 exf)) by (apply rect_data_ok; [repeat constructor|cbn; lia]).
  destruct (C90_contour contoured false ex_cells exX 1 exf _ 1 3 3 2 D ex_axes eq_refl) as (calls & labels & E & L & (l & El) & Q).
  destruct calls as [|cs [|]]; [discriminate L| |discriminate L].
  destruct (Q 0 cs eq_refl) as (x & y & z & -> & _ & _ & (_ & _ & Vz)). exists x, y, z, l. rewrite E, El. split; [reflexivity|].
  rewrite Vz by (constructor; [lia|]; constructor; [lia|constructor]). f_equal. unfold zval, exf, cell2, ex_cells.
  cbn [hd nth length seq List.map Nat.eqb contoured o_zshift o_zscale INR]. lra.
Qed.

Example C90_stream_ex : exists x y u v col labels,
  plot_data streams (rect_data true ex_cells exX 2 exf) = Ok ([[Streams x y u v col]], 1 :: 3 :: labels) /\
  get u [1; 2] = Some 12%R /\ get v [1; 2] = Some 112%R.
Proof.
  assert (D : dataset true ex_cells exX 2 exf (rect_data true ex_cells exX 2 exf)) by (apply rect_data_ok; [repeat constructor|cbn; lia]).
  destruct (C90_stream streams true ex_cells exX 2 exf _ 1 3 3 2 D ex_axes eq_refl eq_refl eq_refl) as (calls & labels & E & L & (l & El) & Q).
  destruct calls as [|cs [|]]; [discriminate L| |discriminate L].
  destruct (Q 0 cs eq_refl) as (x & y & u & v & col & -> & _ & _ & (_ & _ & Vu) & (_ & _ & Vv) & _). exists x, y, u, v, col, l. rewrite E, El. split; [reflexivity|].
  split; [rewrite Vu by (constructor; [lia|]; constructor; [lia|constructor])|rewrite Vv by (constructor; [lia|]; constructor; [lia|constructor])];
    f_equal; unfold zval, exf, cell2, ex_cells; cbn [hd nth length seq List.map Nat.eqb Nat.mul Nat.add streams o_zshift o_zscale INR]; lra.
Qed.

Example C90_lineouts_ex : exists calls labels,
  plot_data (lined 0) (rect_data true ex_cells exX 1 exf) = Ok ([calls], labels) /\ length calls = 2 /\
  exists x y, nth_error calls 1 = Some (Curve x y) /\ get y [2] = Some 12%R.
Proof.
  assert (D : dataset true ex_cells exX 1 exf (rect_data true ex_cells exX 1 exf)) by (apply rect_data_ok; [repeat constructor|cbn; lia]).
  destruct (C90_lineouts (lined 0) true ex_cells exX 1 exf _ 1 3 3 2 0%Z D ex_axes eq_refl eq_refl eq_refl eq_refl) as (calls & labels & E & L & _ & Q).
  destruct calls as [|cs [|]]; [discriminate L| |discriminate L].
  destruct (Q 0 cs eq_refl) as (L2 & P). cbn [Z.eqb] in L2. exists cs, labels. split; [exact E|]. split; [exact L2|].
  destruct (nth_error cs 1) as [call|] eqn:E1; [|apply nth_error_None in E1; lia].
  destruct (P 1 call E1) as (x & y & -> & _ & (_ & _ & Vy)). exists x, y. split; [reflexivity|].
  rewrite Vy by (constructor; [cbn; lia|constructor]). f_equal. unfold exf, cell2, ex_cells.
  cbn [Z.eqb hd nth length seq List.map Nat.eqb lined o_yshift o_yscale INR]. lra.
Qed.

(** 40 x 2 cells: every second cell from the second on. *)
Lemma ex_axes40 : only_axes [40; 2] 0 40 1 2.
Proof.
  split; [lia|]. split; [lia|]. split; [lia|]. split; [reflexivity|]. split; [reflexivity|].
  intros [|[|k]] c N1 N2 E; try lia. destruct k; discriminate E.
Qed.
Example C90_quiver_ex : exists x y u v labels,
  plot_data arrows (rect_data true [40; 2] exX 2 exf) = Ok ([[Arrows x y u v]], 0 :: 1 :: labels) /\
  shape x = [20] /\ shape y = [1] /\ shape u = [1; 20].
Proof.
  assert (D : dataset true [40; 2] exX 2 exf (rect_data true [40; 2] exX 2 exf)) by (apply rect_data_ok; [repeat constructor; lia|cbn; lia]).
  assert (P : 0 < Nat.max (points true 40) (points true 2) / 15) by (vm_compute; lia).
  destruct (C90_quiver arrows true [40; 2] exX 2 exf _ 0 40 1 2 D ex_axes40 eq_refl eq_refl P) as (calls & labels & E & L & (l & El) & Q).
  destruct calls as [|cs [|]]; [discriminate L| |discriminate L].
  destruct (Q 0 cs eq_refl) as (x & y & u & v & nx & ny & -> & Cx & Cy & (_ & Sx & _) & (_ & Sy & _) & (_ & Su & _) & _).
  change (Nat.max (points true 40) (points true 2) / 15) with 2 in *. change (2 / 2) with 1 in *.
  assert (nx = 20) by (pose proof (Cx 19); pose proof (Cx 20); lia). assert (ny = 1) by (pose proof (Cy 0); pose proof (Cy 1); lia).
  exists x, y, u, v, l. rewrite E, El. subst nx ny. auto.
Qed.

Example C90_quiver_small_ex : plot_data arrows (rect_data true ex_cells exX 2 exf) = Err ValueError.
Proof.
  apply (C90_quiver_small arrows true ex_cells exX 2 exf _ 1 3 3 2); try reflexivity; try (cbn; lia); [|apply ex_axes].
  apply rect_data_ok; [repeat constructor|cbn; lia].
Qed.

(** ** Mapped grids *)

Definition exM (k : nat) (x : list nat) : R := (INR (nth k x 0%nat) + INR k * INR (nth 0 x 0%nat))%R.

Lemma ex_axes3 n p : 2 <= n -> 2 <= p -> only_axes [n; 1; p] 0 n 2 p.
Proof.
  intros Hn Hp. split; [lia|]. split; [lia|]. split; [lia|]. split; [reflexivity|]. split; [reflexivity|].
  intros [|[|[|k]]] c N1 N2 E; cbn in E; try lia; [now injection E|]. destruct k; discriminate E.
Qed.

Example C90_mapped_ex : exists x y z vmin vmax ext labels,
  plot_data plain (mapped_data [3; 1; 2] exM 1 exf) = Ok ([[Mesh x y z vmin vmax ext]], labels) /\
  shape x = [3; 4] /\ get x [1; 2] = Some 2%R /\ get y [1; 2] = Some 5%R.
Proof.
  assert (D : mapped [3; 1; 2] exM 1 exf (mapped_data [3; 1; 2] exM 1 exf)) by (apply mapped_data_ok; [repeat constructor|cbn; lia]).
  destruct (C90_mapped plain [3; 1; 2] exM 1 exf _ 0 3 2 2 D (ex_axes3 3 2 ltac:(lia) ltac:(lia)) eq_refl eq_refl eq_refl eq_refl ltac:(lia))
    as (calls & labels & E & L & Q).
  destruct calls as [|cs [|]]; [discriminate L| |discriminate L].
  destruct (Q 0 cs eq_refl) as (x & y & z & vmin & vmax & ext & -> & (_ & Sx & Vx) & (_ & Sy & Vy) & _).
  exists x, y, z, vmin, vmax, ext, labels. split; [exact E|]. split; [exact Sx|].
  split; [rewrite Vx by (constructor; [lia|]; constructor; [lia|constructor])|rewrite Vy by (constructor; [lia|]; constructor; [lia|constructor])];
    f_equal; unfold corner_at, corner2, exM; cbn [hd nth length seq List.map Nat.eqb box_mean plain o_xshift o_xscale o_yshift o_yscale INR]; lra.
Qed.

(** A mapped grid of 2 x 3 cells is not drawn cell by cell between its corners. *)
Theorem C90_mapped_refuted :
  exists o cells X m f d a n b p,
    mapped cells X m f d /\ only_axes cells a n b p /\
    o_contour o = false /\ o_quiver o = false /\ o_stream o = false /\ o_lineouts o = None /\
    exists x y z vmin vmax ext labels, plot_data o d = Ok ([[Mesh x y z vmin vmax ext]], labels) /\
      shape x <> [S p; S n].
Proof.
  assert (D : mapped [2; 1; 3] exM 1 exf (mapped_data [2; 1; 3] exM 1 exf)) by (apply mapped_data_ok; [repeat constructor|cbn; lia]).
  exists plain, [2; 1; 3], exM, 1, exf, (mapped_data [2; 1; 3] exM 1 exf), 0, 2, 2, 3.
  split; [exact D|]. split; [apply ex_axes3; lia|]. do 4 (split; [reflexivity|]).
  destruct (C90_mapped_centres plain [2; 1; 3] exM 1 exf _ 0 2 2 D (ex_axes3 2 3 ltac:(lia) ltac:(lia)) eq_refl eq_refl eq_refl eq_refl eq_refl)
    as (calls & labels & E & L & Q).
  destruct calls as [|cs [|]]; [discriminate L| |discriminate L].
  destruct (Q 0 cs eq_refl) as (x & y & z & ext & -> & (_ & Sx & _) & _).
  eexists x, y, z, _, _, ext, labels. split; [exact E|]. rewrite Sx. intros H. discriminate H.
Qed.

(** Contours on a square mapped grid: the value of cell (0, 1) is drawn at the
    middle of cell (1, 0). *)
Theorem C90_mapped_contour_refuted :
  exists o cells X m f d a n b p,
    mapped cells X m f d /\ only_axes cells a n b p /\ o_contour o = true /\
    exists x y z labels, plot_data o d = Ok ([[Contours x y z]], labels) /\
      get x [0; 1] = Some (1 / 2)%R /\ get y [0; 1] = Some (5 / 2)%R /\
      f (cell2 (length cells) a 0 b 1) 0 = 10%R /\ get z [0; 1] = Some 1%R /\ f (cell2 (length cells) a 1 b 0) 0 = 1%R.
Proof.
  set (f := fun (x : list nat) (c : nat) => (INR (nth 0 x 0%nat) + 10 * INR (nth 2 x 0%nat))%R).
  set (X := fun (k : nat) (x : list nat) => (INR (nth k x 0%nat) + INR k / 2)%R).
  assert (D : mapped [2; 1; 2] X 1 f (mapped_data [2; 1; 2] X 1 f)) by (apply mapped_data_ok; [repeat constructor|cbn; lia]).
  exists contoured, [2; 1; 2], X, 1, f, (mapped_data [2; 1; 2] X 1 f), 0, 2, 2, 2.
  split; [exact D|]. split; [apply ex_axes3; lia|]. split; [reflexivity|].
  destruct (C90_mapped_contour contoured [2; 1; 2] X 1 f _ 0 2 2 2 D (ex_axes3 2 2 ltac:(lia) ltac:(lia)) eq_refl) as (_ & H).
  destruct (H eq_refl) as (calls & labels & E & Q).
  assert (L : length calls = 1).
  { destruct (mapped_two contoured [2; 1; 2] X 1 f _ 0 2 2 2 1 (fun _ _ => True) (fun _ => True) eq_refl D (ex_axes3 2 2 ltac:(lia) ltac:(lia)) I) as (calls' & labels' & E' & L' & _).
    - intros g h w lim c G Hh Sw _ Hc. change (1 / (if o_stream contoured || o_quiver contoured then 2 else 1)) with 1 in Hc. assert (c = 0) by lia. subst c.
      destruct (holds_comp 0 w [2; 2] 1 _ Sw ltac:(lia)) as (v & Ev & Hv). destruct (nodal_mapped 2 2 g h _ _ G Hh) as (u & q & En & Hu & Hq).
      pose proof (zval_tr contoured [2; 1; 2] 0 2 f 0 2 2 v Hv) as (_ & Sz & _).
      cbn [draw_comp contoured o_contour]. unfold draw_contour. cbn [p_grid p_cells p_vals]. rewrite En. cbn [bind].
      change (item [u; q] 0) with (@Ok arr u). change (item [u; q] 1) with (@Ok arr q). cbn [bind]. rewrite Ev. cbn [bind].
      replace (takes_contour _ _ _) with true.
      2:{ unfold takes_contour. rewrite Sz. destruct (holds_affine _ _ _ (o_xshift contoured) (o_xscale contoured) Hu) as (_ & -> & _).
          destruct (holds_affine _ _ _ (o_yshift contoured) (o_yscale contoured) Hq) as (_ & -> & _). reflexivity. }
      cbn [bind]. eexists _, _. split; [reflexivity|]. split; exact I.
    - rewrite E in E'. injection E' as <- _. exact L'. }
  destruct calls as [|cs [|]]; [discriminate L| |discriminate L].
  destruct (Q 0 cs eq_refl) as (x & y & z & -> & (_ & _ & Vx) & (_ & _ & Vy) & (_ & _ & Vz)).
  exists x, y, z, labels. split; [exact E|].
  split; [|split; [|split; [|split]]].
  - rewrite Vx by (constructor; [lia|]; constructor; [lia|constructor]). f_equal. unfold corner_at, corner2, X.
    cbn [rev app hd nth length seq List.map Nat.eqb box_mean contoured o_xshift o_xscale INR]. lra.
  - rewrite Vy by (constructor; [lia|]; constructor; [lia|constructor]). f_equal. unfold corner_at, corner2, X.
    cbn [rev app hd nth length seq List.map Nat.eqb box_mean contoured o_yshift o_yscale INR]. lra.
  - unfold f, cell2. cbn [hd nth length seq List.map Nat.eqb INR]. lra.
  - rewrite Vz by (constructor; [lia|]; constructor; [lia|constructor]). f_equal. unfold zval, f, cell2.
    cbn [hd nth length seq List.map Nat.eqb contoured o_zshift o_zscale INR]. lra.
  - unfold f, cell2. cbn [hd nth length seq List.map Nat.eqb INR]. lra.
Qed.

(** ** C91: pairs *)

(** With cell centres as grid and a component axis, a pair is drawn like the
    dataset made of the same arrays. *)
Theorem C91_pair :
  forall o cells X m f grid values,
    dataset false cells X m f (mk_pd grid cells values) -> 0 < m -> cells <> [] ->
    plot_pair o grid values = plot_data o (mk_pd grid cells values).
Proof.
  intros o cells X m f grid values (P & L6 & (Lg & G) & _ & (W & Sv & V)) Hm NE. cbn [p_grid p_vals] in *.
  unfold plot_pair, of_tuple, plot_data. cbn [p_cells].
  rewrite Lg, Sv, app_length. cbn [length]. destruct (Nat.eqb_spec (length cells) (length cells + 1)); [lia|].
  unfold comp at 1. destruct (snoc_shape values cells m Sv) as (x & l & E). rewrite E. cbv iota. rewrite <- E, Sv, last_snoc, removelast_snoc.
  destruct (Nat.ltb_spec 0 m); [|lia]. cbn [bind squeeze_all shape tabulate].
  change (length (filter (fun n => negb (n =? 1)) cells)) with (live_dims cells).
  match goal with |- context [mapM ?F _] => set (fm := F) end.
  assert (C : mapM fm (combine (seq 0 (length cells)) grid) = Ok cells).
  { rewrite <- Lg.
    assert (Q : forall g' c' k, length g' = length c' -> Forall (fun n => 1 <= n) c' ->
              (forall j g n, nth_error g' j = Some g -> nth_error c' j = Some n -> shape g = [n]) ->
              mapM fm (combine (seq k (length g')) g') = Ok c').
    { induction g' as [|g g' IH]; intros [|c c'] k L Pc Hj; try discriminate L; [reflexivity|].
      inversion Pc; subst. cbn [length seq combine mapM]. unfold fm at 1. rewrite (Hj 0 g c eq_refl eq_refl).
      destruct (Nat.eqb_spec c 0); [lia|]. cbn [bind]. rewrite (IH c' (S k)); [reflexivity|cbn in L; lia|assumption|].
      intros j g1 n1 E1 E2. exact (Hj (S j) g1 n1 E1 E2). }
    apply Q; [exact Lg|exact P|]. intros j g n1 E1 E2. destruct (G j g n1 E1 E2) as (_ & S1 & _). exact S1. }
  rewrite C. cbn [bind]. reflexivity.
Qed.

(** With cell edges as grid, one-dimensional data cannot be drawn. *)
Theorem C91_pair_edges :
  forall o X m f n grid values,
    dataset true [n] X m f (mk_pd grid [n] values) -> 2 <= n -> 2 <= m ->
    plot_pair o grid values = Err ValueError.
Proof.
  intros o X m f n grid values (P & L6 & (Lg & G) & _ & Sh) Hn Hm. cbn [p_grid p_vals] in *. pose proof Sh as (W & Sv & V).
  destruct grid as [|g [|]]; [discriminate Lg| |discriminate Lg]. pose proof (G 0 g n eq_refl eq_refl) as Hg. pose proof Hg as (_ & Sg & _).
  unfold plot_pair, of_tuple. rewrite Sv. cbn [length app Nat.eqb].
  unfold comp at 1. rewrite Sv. cbn [app last removelast]. destruct (Nat.ltb_spec 0 m); [|lia]. cbn [bind squeeze_all shape tabulate filter].
  destruct (Nat.eqb_spec n 1); [lia|]. cbn [negb length seq combine mapM]. rewrite Sg. cbn [points]. cbn [Nat.eqb bind Nat.ltb Nat.leb squeeze_data p_grid length fst snd].
  unfold squeeze_data. cbn [p_grid length Nat.leb bind fst snd].
  assert (C : exists k, comps_drawn o (mk_pd [g] [S n] values) = Ok (S k)).
  { rewrite (comps_of o (mk_pd [g] [S n] values) [n] m f Sh). destruct (o_stream o || o_quiver o).
    - assert (1 <= m / 2) by (apply (Nat.div_le_lower_bound m 2 1); lia). exists (pred (m / 2)). f_equal. lia.
    - rewrite Nat.div_1_r. exists (pred m). f_equal. lia. }
  destruct C as (k & C). rewrite (draw_all_err o 1 _ k ValueError C); [reflexivity|].
  cbn [draw_comp]. unfold draw_curve, nodal_grid, nodal_axis. cbn [p_grid p_cells p_vals length Nat.eqb seq combine mapM]. rewrite Sg. cbn [points]. rewrite Nat.eqb_refl.
  cbn [bind]. change (item [g] 0) with (@Ok arr g). cbn [bind].
  destruct (holds_comp 0 values [n] m f Sh) as (v & Ev & Hv); [lia|]. rewrite Ev. cbn [bind].
  unfold takes_curve. destruct (holds_affine _ _ _ (o_xshift o) (o_xscale o) Hg) as (_ & -> & _).
  destruct (holds_affine _ _ _ (o_yshift o) (o_yscale o) Hv) as (_ & -> & _). cbn [hd points].
  destruct (Nat.eqb_spec (S n) n); [lia|reflexivity].
Qed.

(** Values without a component axis, which [input_parser] lets through, cannot be
    drawn either: their last axis is taken for the components. *)
Theorem C91_pair_no_components :
  forall o n f grid values g F,
    grid = [g] -> holds [n] g F -> holds [n] values f -> 2 <= n ->
    plot_pair o grid values = Err ValueError.
Proof.
  intros o n f grid values g F -> Hg Hv Hn. pose proof Hg as (_ & Sg & _). pose proof Hv as (_ & Sv & _).
  unfold plot_pair, of_tuple. rewrite Sv. cbn [length Nat.eqb bind]. unfold squeeze_all. rewrite Sv. cbn [shape filter].
  destruct (Nat.eqb_spec n 1); [lia|]. cbn [negb length seq combine mapM]. rewrite Sg. destruct (Nat.eqb_spec n 0); [lia|].
  cbn [bind Nat.ltb Nat.leb]. unfold squeeze_data. cbn [p_grid length Nat.leb bind fst snd].
  assert (C : exists k, comps_drawn o (mk_pd [g] [n] values) = Ok (S k)).
  { unfold comps_drawn. cbn [p_vals]. rewrite Sv. cbn [last]. destruct (o_stream o || o_quiver o).
    - assert (1 <= n / 2) by (apply (Nat.div_le_lower_bound n 2 1); lia). exists (pred (n / 2)). f_equal. lia.
    - rewrite Nat.div_1_r. exists (pred n). f_equal. lia. }
  destruct C as (k & C). rewrite (draw_all_err o 1 _ k ValueError C); [reflexivity|].
  cbn [draw_comp]. unfold draw_curve, nodal_grid, nodal_axis. cbn [p_grid p_cells p_vals length Nat.eqb seq combine mapM]. rewrite Sg. rewrite Nat.eqb_refl.
  cbn [bind]. change (item [g] 0) with (@Ok arr g). cbn [bind]. unfold comp. rewrite Sv. cbn [last removelast].
  destruct (Nat.ltb_spec 0 n); [|lia]. cbn [bind]. unfold takes_curve.
  match goal with |- context [shape (affine ?s ?t (tabulate ?q ?w))] => change (shape (affine s t (tabulate q w))) with q end.
  destruct (holds_affine _ _ _ (o_xshift o) (o_xscale o) Hg) as (_ & -> & _). cbn [hd].
  destruct (Nat.eqb_spec n 1); [lia|reflexivity].
Qed.

Example C91_pair_ex :
  plot_pair plain (p_grid (rect_data false ex_cells exX 1 exf)) (p_vals (rect_data false ex_cells exX 1 exf))
  = plot_data plain (rect_data false ex_cells exX 1 exf).
Proof.
  apply (C91_pair plain ex_cells exX 1 exf); [|lia|].
  - apply rect_data_ok; [repeat constructor|cbn; lia].
  - intros H. discriminate H.
Qed.
Example C91_pair_edges_ex :
  plot_pair plain (p_grid (rect_data true [3] exX 2 exf)) (p_vals (rect_data true [3] exX 2 exf)) = Err ValueError.
Proof. apply (C91_pair_edges plain exX 2 exf 3); [apply rect_data_ok; [repeat constructor|cbn; lia]|lia|lia]. Qed.
Example C91_pair_no_components_ex :
  plot_pair plain [tabulate [3] (fun x => INR (hd 0 x))] (tabulate [3] (fun x => INR (hd 0 x))) = Err ValueError.
Proof. eapply (C91_pair_no_components plain 3); [reflexivity|apply holds_tab|apply holds_tab|lia]. Qed.

Print Assumptions C90_line. Print Assumptions C90_mesh. Print Assumptions C90_contour. Print Assumptions C90_stream.
Print Assumptions C90_lineouts. Print Assumptions C90_quiver. Print Assumptions C90_quiver_small. Print Assumptions C90_mapped.
Print Assumptions C90_mapped_centres. Print Assumptions C90_mapped_contour. Print Assumptions C90_dims.
Print Assumptions C90_mapped_refuted. Print Assumptions C90_mapped_contour_refuted.
Print Assumptions C91_pair. Print Assumptions C91_pair_edges. Print Assumptions C91_pair_no_components.
