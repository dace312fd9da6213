(** * C119: load --fv and [GInterpModal.interpolateGrid] *)
From Coq Require Import String List Arith ZArith QArith Reals Lia Lra Bool.
From Verif Require Import Prelude PreludeFacts NdArray Gkyl_Model Gkyl_Proofs3 Dg_Poly Dg_TabI Dg_TabD Dg_Model Dg_Spec
  Dg_Proofs Dg_Proofs2 Dg_Props Dg_Props2 Dg_Props3 Dg_Props7 Dg_Sem Dg_Gram Dg_Props5 Dg_Props8 Nodes_Model Nodes_Props Fv_Model.
From Verif Require GData_Model.
Import ListNotations.
Open Scope string_scope.
Open Scope list_scope.
Open Scope nat_scope.

(** ** Statements *)

(** The coordinate with coefficients [q] at a corner of a cell: lower ends at 0, upper ends at 1. *)
Definition corner_at (q : nda R) (fs : list pexp) (cell s : list nat) (v : R) : Prop :=
  exists u, length u = length fs /\ (forall m, m < length fs -> nth_error u m = get q (cell ++ [m])) /\
    v = expansion u fs (List.map (fun j => match j with O => (-1)%R | _ => 1%R end) s).

(** The node of the grid at a corner of a cell. *)
Definition corner_node (cell s : list nat) : list nat := map2 Nat.add cell s.
Definition corner (cells cell s : list nat) : Prop :=
  in_range cells cell /\ length s = length cells /\ Forall (fun j => j <= 1) s.

(** Cells that share a node agree on the coordinate there. *)
Definition continuous (q : nda R) (fs : list pexp) (cells : list nat) : Prop :=
  forall i s v i' s' v', corner cells i s -> corner cells i' s' -> corner_node i s = corner_node i' s' ->
    corner_at q fs i s v -> corner_at q fs i' s' v' -> v = v'.

Definition extreme (le : R -> R -> Prop) (a : nda R) (m : R) : Prop := In m (flat a) /\ forall y, In y (flat a) -> le m y.

(** ** interpolateGrid with one point per cell gives the grid of interpolate *)
Section Same.
  Context {F : Type} (fo : fops F) (dot : list F -> list F -> F) (ev : pexp -> list F -> F) (root : nat -> nat -> nat).

  Lemma interp_on_mesh_two cm (q : nda F) b b' :
    b <> "gkhybrid" -> b <> "hybrid" -> b' <> "gkhybrid" -> b' <> "hybrid" ->
    interp_on_mesh fo dot cm q 1 b true = interp_on_mesh fo dot cm q 2 b' true.
  Proof.
    intros A B A' B'. apply String.eqb_neq in A, B, A', B'. unfold interp_on_mesh, mesh_counts. rewrite A, B, A', B'. reflexivity.
  Qed.

  Lemma mapM_same {A B} (f g : A -> res B) l : (forall x, In x l -> f x = g x) -> mapM f l = mapM g l.
  Proof.
    induction l as [|x l IH]; intros H; [reflexivity|]. cbn [mapM]. rewrite H by now left. rewrite IH by (intros; apply H; now right). reflexivity.
  Qed.

  (** With one point per cell the nodes of [interpolateGrid] are those that [interpolate] would return. *)
  Theorem C119_one_point (d : dgdata (F := F)) (g : ginterp) :
    dd_grid_type d = "c2p" -> 1 <= gi_dims g -> gi_interp g = 1 -> gi_basis g <> "gkhybrid" -> gi_basis g <> "hybrid" ->
    interpolate_grid fo dot ev d g = modal_grid fo dot ev root d g.
  Proof.
    intros T D N G H. unfold interpolate_grid, modal_grid. rewrite T, N. cbn [String.eqb Ascii.eqb Bool.eqb].
    change (String.eqb "c2p" "c2p") with true. cbv iota.
    destruct (gi_dims g) as [|nd] eqn:En; [lia|]. clear D.
    destruct (nth_error (dd_grid d) 0) as [q0|] eqn:E0.
    2:{ cbn [seq mapM]; rewrite ?E0; reflexivity. }
    destruct (get_basis_p (S nd) (last (shape q0) 0)) as [[[b p]|]|e] eqn:Eb; cbn [bind].
    - destruct (C57_sound _ _ _ _ (le_n_S _ _ (Nat.le_0_l nd)) Eb) as (_ & _ & Hb).
      destruct (create_interp_matrix fo ev (S nd) p b 1 true true) as [cm|e]; cbn [bind].
      + apply mapM_same; intros k _. destruct (nth_error (dd_grid d) k) as [q|]; [|reflexivity].
        apply interp_on_mesh_two; auto; destruct Hb as [-> | ->]; discriminate.
      + cbn [seq mapM]; rewrite ?E0; reflexivity.
    - cbn [seq mapM]; rewrite ?E0; reflexivity.
    - cbn [seq mapM]; rewrite ?E0; reflexivity.
  Qed.
End Same.

(** ** Mapped grids *)

Lemma corner_sum cell loc : map2 (fun i j => i * 1 + j) cell loc = corner_node cell loc.
Proof.
  unfold corner_node. revert loc. induction cell as [|i cell IH]; intros [|j loc]; cbn [map2]; try reflexivity.
  rewrite IH, Nat.mul_1_r. reflexivity.
Qed.

Lemma node_at_one j : j <= 1 -> node_at 1 j = match j with O => (-1)%R | _ => 1%R end.
Proof. intros H. unfold node_at. destruct j as [|[|j]]; [| |lia]; cbn [INR]; lra. Qed.

Lemma serendipity_dims d : 1 <= d <= 6 -> get_num_nodes d 0 "serendipity" = Ok 1.
Proof. intros H. assert (C : d = 1 \/ d = 2 \/ d = 3 \/ d = 4 \/ d = 5 \/ d = 6) by lia. destruct C as [-> | [-> | [-> | [-> | [-> | ->]]]]]; reflexivity. Qed.

Section Mapped.
  (** A dataset with a mapped grid: one array of coefficients per direction. *)
  Definition mapped (d : dgdata (F := R)) (cells : list nat) (fs : list pexp) : Prop :=
    dd_grid_type d = "c2p" /\ dd_dims d = length cells /\ length (dd_grid d) = length cells /\ 1 <= length cells /\
    Forall (fun c => 0 < c) cells /\
    exists nn b p, (forall q, In q (dd_grid d) -> wf q /\ shape q = cells ++ [nn]) /\
      get_basis_p (length cells) nn = Ok (Some (b, p)) /\ interp_functions (length cells) p true b = Ok fs.

  Lemma fv_steps (x : fvdata (F := R)) cells fs : mapped (v_data x) cells fs ->
    exists gr, interpolate_grid rops rdot evalR (v_data x) (mk_ginterp (length cells) 0 "serendipity" 1 1) = Ok gr /\
      fv_grid rops rdot evalR amin amax x = set_grid amin amax (v_data x) gr /\ length gr = length cells /\
      forall k q, nth_error (dd_grid (v_data x)) k = Some q ->
        exists out, nth_error gr k = Some out /\ wf out /\ shape out = List.map S cells /\
          forall n, in_range (shape out) n -> exists cell s v,
            corner cells cell s /\ n = corner_node cell s /\ corner_at q fs cell s v /\ get out n = Some v.
  Proof.
    intros (T & D & Lg & L1 & P & nn & b & p & Hq & Hb & Hf).
    pose proof (get_basis_p_dims _ _ _ Hb) as L6.
    set (g := mk_ginterp (length cells) 0 "serendipity" 1 1).
    destruct (C56_grid (fun _ _ => 0) (v_data x) g cells nn b p fs) as (gr & Eg & Lgr & V); auto.
    rewrite <- (C119_one_point rops rdot evalR (fun _ _ => 0) (v_data x) g) in Eg by (auto; discriminate).
    exists gr. split; [exact Eg|]. split.
    { unfold fv_grid, modal_init. rewrite D. cbn [bind].
      change (modal_basis_name "ms") with (Ok "serendipity"). change (String.eqb "ms" "") with false. cbv iota. cbn [bind].
      change (String.eqb "serendipity" "hybrid") with false. rewrite andb_false_r.
      rewrite serendipity_dims by lia. cbn [bind]. fold g. rewrite Eg. reflexivity. }
    split; [exact Lgr|]. intros k q Hk. destruct (V k q Hk) as (out & Eo & Wo & So & Vo).
    change (gi_interp g) with 1 in *. exists out. split; [exact Eo|]. split; [exact Wo|]. split.
    { rewrite So. apply map_ext. intros c. lia. }
    intros n Hn. destruct (Vo n Hn) as (Ri & Fl & En & u & Lu & Vu & G).
    set (cell := List.map (node_cell 2) n) in *. set (loc := List.map (node_point 2) n) in *.
    exists cell, loc. eexists. split; [|split; [|split; [|exact G]]].
    - split; [exact Ri|]. split; [|exact Fl]. unfold loc. rewrite map_length. apply in_range_length in Hn. rewrite Hn, So. apply map_length.
    - rewrite <- corner_sum. exact En.
    - exists u. split; [exact Lu|]. split; [exact Vu|]. f_equal. apply map_ext_in. intros j Hj. apply node_at_one.
      rewrite Forall_forall in Fl. now apply Fl.
  Qed.

  Lemma nodes_exist (a : nda R) cells : wf a -> shape a = List.map S cells -> flat a <> [].
  Proof.
    intros W S0 E. unfold wf in W. rewrite E, S0 in W. cbn [length] in W. revert W.
    assert (P : 0 < prod (List.map S cells)); [|lia]. clear.
    induction cells as [|c cells IH]; [cbn; lia|]. change (prod (List.map S (c :: cells))) with (S c * prod (List.map S cells)). nia.
  Qed.

  Lemma set_grid_ok (d : dgdata (F := R)) gr (cells : list nat) : dd_dims d = length cells -> length gr = length cells ->
    (forall k a, nth_error gr k = Some a -> flat a <> []) ->
    exists y, set_grid amin amax d gr = Ok y /\
      v_data y = mk_dgdata (dd_values d) gr (dd_grid_type d) (dd_basis d) (dd_poly d) (dd_ncdim d) (dd_nvdim d) /\
      length (v_lower y) = length cells /\ length (v_upper y) = length cells /\
      forall k a, nth_error gr k = Some a ->
        exists lo up, nth_error (v_lower y) k = Some lo /\ nth_error (v_upper y) k = Some up /\ extreme Rle a lo /\ extreme Rge a up.
  Proof.
    intros D L N.
    set (h := fun k => match nth_error gr k with
                       | None => (0%R, 0%R)
                       | Some a => (match amin (flat a) with Ok v => v | Err _ => 0%R end, match amax (flat a) with Ok v => v | Err _ => 0%R end) end).
    unfold set_grid. rewrite (mapM_ok_all _ h).
    2:{ intros k Hk. apply in_seq in Hk. unfold h. destruct (nth_error gr k) as [a|] eqn:E; [|apply nth_error_None in E; lia].
        destruct (amin_ok _ (N k a E)) as (lo & -> & _). destruct (amax_ok _ (N k a E)) as (up & -> & _). reflexivity. }
    cbn [bind]. eexists. split; [reflexivity|]. cbn [v_data v_lower v_upper]. split; [reflexivity|].
    split; [now rewrite !map_length, seq_length|]. split; [now rewrite !map_length, seq_length|].
    intros k a Hk. assert (Lk : k < length cells) by (rewrite <- L; apply nth_error_Some; congruence).
    destruct (amin_ok _ (N k a Hk)) as (lo & El & Il & Ml). destruct (amax_ok _ (N k a Hk)) as (up & Eu & Iu & Mu).
    exists lo, up. rewrite !nth_error_map, nth_error_seq, D. destruct (Nat.ltb_spec k (length cells)); [|lia]. cbn [option_map Nat.add].
    unfold h. rewrite Hk, El, Eu. cbn [fst snd]. split; [reflexivity|]. split; [reflexivity|]. split; [split; auto|].
    split; [exact Iu|]. intros y Hy. apply Rle_ge. auto.
  Qed.

  (** A file loaded with --fv on a mapped grid: every node is a corner of a cell
      touching it, the values stay, the bounds become the extents of the mapped domain. *)
  Theorem C119_corners (x : fvdata (F := R)) cells fs :
    mapped (v_data x) cells fs ->
    exists y, load_one rops rdot evalR amin amax true (Ok x) = Ok y /\
      dd_values (v_data y) = dd_values (v_data x) /\ length (dd_grid (v_data y)) = length cells /\
      forall k q, nth_error (dd_grid (v_data x)) k = Some q ->
        exists out lo up, nth_error (dd_grid (v_data y)) k = Some out /\ wf out /\ shape out = List.map S cells /\
          (forall n, in_range (shape out) n -> exists cell s v,
             corner cells cell s /\ n = corner_node cell s /\ corner_at q fs cell s v /\ get out n = Some v) /\
          nth_error (v_lower y) k = Some lo /\ nth_error (v_upper y) k = Some up /\ extreme Rle out lo /\ extreme Rge out up.
  Proof.
    intros M. destruct (fv_steps x cells fs M) as (gr & _ & E & L & V).
    destruct M as (_ & D & Lg & _).
    destruct (set_grid_ok (v_data x) gr cells D L) as (y & Ey & Dy & _ & _ & B).
    { intros k a Hk. destruct (nth_error (dd_grid (v_data x)) k) as [q|] eqn:Eq.
      - destruct (V k q Eq) as (out & Eo & Wo & So & _). replace a with out by congruence. eapply nodes_exist; eauto.
      - apply nth_error_None in Eq. assert (k < length gr) by (apply nth_error_Some; congruence). lia. }
    exists y. split; [unfold load_one; cbn [bind]; rewrite E, Ey; reflexivity|]. rewrite Dy. cbn [dd_values dd_grid].
    split; [reflexivity|]. split; [exact L|]. intros k q Hk.
    destruct (V k q Hk) as (out & Eo & Wo & So & Vo). destruct (B k out Eo) as (lo & up & B1 & B2 & B3 & B4).
    exists out, lo, up. tauto.
  Qed.

  Lemma corner_in_range cells cell s : corner cells cell s -> in_range (List.map S cells) (corner_node cell s).
  Proof.
    unfold in_range, corner_node. intros (Ri & Ls & Fs). unfold in_range in Ri. revert s Ls Fs.
    induction Ri as [|i c cell cells Hi Ri IH]; intros [|j s] Ls Fs; cbn [length] in Ls; try discriminate; [constructor|].
    inversion Fs as [|? ? Hj Fs' E1]. cbn [map2 List.map]. constructor; [lia|]. apply IH; [lia|exact Fs'].
  Qed.

  (** Where the map is continuous, the nodes of a cell are the corners of that cell. *)
  Theorem C119_continuous (x : fvdata (F := R)) cells fs y :
    mapped (v_data x) cells fs -> load_one rops rdot evalR amin amax true (Ok x) = Ok y ->
    forall k q, nth_error (dd_grid (v_data x)) k = Some q -> continuous q fs cells ->
    exists out, nth_error (dd_grid (v_data y)) k = Some out /\
      forall cell s v, corner cells cell s -> corner_at q fs cell s v -> get out (corner_node cell s) = Some v.
  Proof.
    intros M E k q Hk C. destruct (C119_corners x cells fs M) as (y' & E' & _ & _ & V).
    assert (y' = y) by congruence. subst y'. destruct (V k q Hk) as (out & lo & up & Eo & _ & So & Vo & _).
    exists out. split; [exact Eo|]. intros cell s v Hc Hv.
    destruct (Vo (corner_node cell s)) as (cell' & s' & v' & Hc' & En & Hv' & G).
    { rewrite So. now apply corner_in_range. }
    rewrite G. f_equal. symmetry. exact (C _ _ _ _ _ _ Hc Hc' En Hv Hv').
  Qed.
End Mapped.

(** ** Plain grids *)
Section Uniform.
  Context (dot : list Q -> list Q -> Q) (ev : pexp -> list Q -> Q) (amin amax : list Q -> res Q)
          (Hmin : forall l, l <> [] -> exists m, amin l = Ok m) (Hmax : forall l, l <> [] -> exists m, amax l = Ok m).

  (** The same axis: as many nodes, each at its place. *)
  Definition same_nodes (a b : list Q) : Prop := Forall2 (fun x y => (x == y)%Q) a b.

  Lemma splits_one xc g : 2 <= length xc -> splits 1 xc g -> same_nodes xc g.
  Proof using.
    clear. intros L [Lg H]. unfold same_nodes.
    assert (E : length g = length xc) by lia.
    assert (P : forall i x y, nth_error xc i = Some x -> nth_error g i = Some y -> (x == y)%Q).
    { intros i x y Hx Hy. assert (Li : i < length xc) by (apply nth_error_Some; congruence).
      destruct (Nat.eq_dec (S i) (length xc)) as [El|Nl].
      - destruct i as [|i]; [lia|]. destruct (H i 1) as (a & b & z & Ha & Hb & Hz & V); [lia|lia|].
        replace (i * 1 + 1) with (S i) in Hz by lia. assert (z = y) by congruence. assert (b = x) by congruence. subst z b.
        rewrite V. change (inject_Z (Z.of_nat 1)) with 1%Q. field.
      - destruct (H i 0) as (a & b & z & Ha & Hb & Hz & V); [lia|lia|].
        replace (i * 1 + 0) with i in Hz by lia. assert (z = y) by congruence. assert (a = x) by congruence. subst z a.
        rewrite V. change (inject_Z (Z.of_nat 0)) with 0%Q. change (inject_Z (Z.of_nat 1)) with 1%Q. field. }
    clear H Lg L. revert g E P. induction xc as [|x xc IH]; intros [|y g] E P; cbn [length] in E; try discriminate; constructor.
    - exact (P 0 x y eq_refl eq_refl).
    - apply IH; [lia|]. intros i. exact (P (S i)).
  Qed.

  Lemma fv_plain_steps (x : fvdata (F := Q)) : dd_grid_type (v_data x) = "uniform" -> 1 <= dd_dims (v_data x) <= 6 ->
    fv_grid q0ops dot ev amin amax x =
    let* gr := make_1d_grids q0ops (repeat 1 (dd_dims (v_data x))) (dd_grid (v_data x)) (dd_dims (v_data x)) (Some "uniform") in
    set_grid amin amax (v_data x) (List.map line_nda gr).
  Proof using.
    clear. intros T D. unfold fv_grid, modal_init. cbn [bind].
    change (modal_basis_name "ms") with (Ok "serendipity"). change (String.eqb "ms" "") with false. cbv iota. cbn [bind].
    change (String.eqb "serendipity" "hybrid") with false. rewrite andb_false_r.
    rewrite serendipity_dims by exact D. cbn [bind]. unfold interpolate_grid. rewrite T. cbn [gi_dims gi_interp].
    change (String.eqb "uniform" "c2p") with false. change (String.eqb "uniform" "c2p_vel") with false. cbv iota.
    destruct (make_1d_grids q0ops (repeat 1 (dd_dims (v_data x))) (dd_grid (v_data x)) (dd_dims (v_data x)) (Some "uniform")); reflexivity.
  Qed.

  (** On a plain grid of equal cells --fv changes nothing. *)
  Theorem C119_uniform (x : fvdata (F := Q)) :
    dd_grid_type (v_data x) = "uniform" -> 1 <= dd_dims (v_data x) <= 6 -> length (dd_grid (v_data x)) = dd_dims (v_data x) ->
    (forall a, In a (dd_grid (v_data x)) -> 2 <= length (flat a) /\ equispaced (flat a)) ->
    exists y, load_one q0ops dot ev amin amax true (Ok x) = Ok y /\
      dd_values (v_data y) = dd_values (v_data x) /\
      Forall2 (fun a b => same_nodes (flat a) (flat b) /\ shape b = [length (flat a)]) (dd_grid (v_data x)) (dd_grid (v_data y)).
  Proof using Hmin Hmax.
    intros T D L H. unfold load_one. cbn [bind]. rewrite fv_plain_steps by assumption.
    set (d := v_data x) in *.
    set (ax := fun a : nda Q => match make_mesh q0ops 1 (flat a) None with Ok l => l | Err _ => [] end).
    assert (One : forall a, In a (dd_grid d) -> make_mesh q0ops 1 (flat a) None = Ok (ax a) /\ same_nodes (flat a) (ax a)).
    { intros a Ha. destruct (H a Ha) as [La Ea]. destruct (C32_uniform 1 (flat a)) as (g & Eg & _ & Sg & _); [lia|exact La|exact Ea|].
      unfold ax. rewrite Eg. split; [reflexivity|]. now apply splits_one. }
    assert (G : make_1d_grids q0ops (repeat 1 (dd_dims d)) (dd_grid d) (dd_dims d) (Some "uniform") =
      Ok (List.map (fun k => ax (nth k (dd_grid d) (mk_nda [] []))) (seq 0 (dd_dims d)))).
    { unfold make_1d_grids. change (String.eqb "uniform" "uniform") with true. cbv iota.
      apply mapM_ok_all. intros k Hk. apply in_seq in Hk.
      rewrite nth_error_repeat by lia. destruct (nth_error (dd_grid d) k) as [a|] eqn:Ea; [|apply nth_error_None in Ea; lia].
      rewrite (nth_error_nth _ _ _ Ea). apply One. eapply nth_error_In; eauto. }
    rewrite G. cbn [bind]. clear G.
    assert (Eq : List.map (fun k => ax (nth k (dd_grid d) (mk_nda [] []))) (seq 0 (dd_dims d)) = List.map ax (dd_grid d)).
    { rewrite <- L. generalize (dd_grid d). induction l as [|a l IH]; [reflexivity|]. cbn [length seq List.map nth].
      rewrite <- seq_shift, map_map, IH. reflexivity. }
    rewrite Eq. clear Eq. unfold set_grid.
    set (gr := List.map line_nda (List.map ax (dd_grid d))).
    set (h := fun k => match nth_error gr k with
                       | None => (0%Q, 0%Q)
                       | Some a => (match amin (flat a) with Ok v => v | Err _ => 0%Q end, match amax (flat a) with Ok v => v | Err _ => 0%Q end) end).
    rewrite (mapM_ok_all _ h).
    - cbn [bind]. eexists. split; [reflexivity|]. cbn [v_data dd_values dd_grid]. split; [reflexivity|].
      unfold gr. clear - One. revert One. generalize (dd_grid d). induction l as [|a l IH]; intros One; cbn [List.map]; constructor.
      + destruct (One a (or_introl eq_refl)) as [_ S1]. cbn [line_nda flat shape]. split; [exact S1|]. now rewrite (Forall2_length _ _ _ S1).
      + apply IH. intros; apply One; now right.
    - intros k Hk. apply in_seq in Hk. unfold h, gr. rewrite !nth_error_map.
      destruct (nth_error (dd_grid d) k) as [a|] eqn:Ea; [|apply nth_error_None in Ea; lia]. cbn [option_map line_nda flat].
      assert (N : ax a <> []).
      { intros E. destruct (One a (nth_error_In _ _ Ea)) as [_ S1]. destruct (H a (nth_error_In _ _ Ea)) as [La _].
        apply Forall2_length in S1. rewrite E in S1. cbn in S1. lia. }
      destruct (Hmin _ N) as (lo & ->). destruct (Hmax _ N) as (up & ->). reflexivity.
  Qed.
End Uniform.

(** The nodes of a plain grid with unequal cells are moved. *)
Theorem C119_unequal_refuted :
  exists (x y : fvdata (F := Q)) a b,
    load_one q0ops (fun _ _ => 0%Q) (fun _ _ => 0%Q) (fun _ => Ok 0%Q) (fun _ => Ok 0%Q) true (Ok x) = Ok y /\
    dd_grid_type (v_data x) = "uniform" /\ dd_grid (v_data x) = [a] /\ dd_grid (v_data y) = [b] /\ ~ same_nodes (flat a) (flat b).
Proof.
  exists (mk_fvdata (mk_dgdata (mk_nda [2; 1] [5; 6]%Q) [mk_nda [3] [0; 1; 4]%Q] "uniform" None None 1 0) [0%Q] [4%Q]).
  eexists. eexists. eexists. split; [vm_compute; reflexivity|]. split; [reflexivity|]. split; [reflexivity|]. split; [reflexivity|].
  intros H. unfold same_nodes in H. cbn [flat] in H. inversion_clear H as [|? ? ? ? _ H1]. inversion_clear H1 as [|? ? ? ? V _].
  revert V. unfold Qeq. cbn. discriminate.
Qed.

(** ** What --fv refuses *)
Section Refused.
  Context {F : Type} (fo : fops F) (dot : list F -> list F -> F) (ev : pexp -> list F -> F) (amin amax : list F -> res F).

  Lemma fv_init (x : fvdata (F := F)) : 1 <= dd_dims (v_data x) <= 6 ->
    fv_grid fo dot ev amin amax x =
    let* gr := interpolate_grid fo dot ev (v_data x) (mk_ginterp (dd_dims (v_data x)) 0 "serendipity" 1 1) in
    set_grid amin amax (v_data x) gr.
  Proof.
    intros D. unfold fv_grid, modal_init. cbn [bind].
    change (modal_basis_name "ms") with (Ok "serendipity"). change (String.eqb "ms" "") with false. cbv iota. cbn [bind].
    change (String.eqb "serendipity" "hybrid") with false. rewrite andb_false_r.
    rewrite serendipity_dims by exact D. reflexivity.
  Qed.

  (** With a map of the velocity coordinates the command ends with a message. *)
  Theorem C119_velocity (x : fvdata (F := F)) : 1 <= dd_dims (v_data x) <= 6 -> dd_grid_type (v_data x) = "c2p_vel" ->
    load_one fo dot ev amin amax true (Ok x) = Err ClickFail.
  Proof.
    intros D T. unfold load_one. cbn [bind]. rewrite fv_init by exact D. unfold interpolate_grid. rewrite T. reflexivity.
  Qed.

  (** Other types of grid, such as the one of time traces, end in an index error that is not caught. *)
  Theorem C119_other (x : fvdata (F := F)) : 1 <= dd_dims (v_data x) <= 6 ->
    ~ In (dd_grid_type (v_data x)) ["c2p"; "c2p_vel"; "uniform"; "mapped"] ->
    load_one fo dot ev amin amax true (Ok x) = Err IndexError.
  Proof.
    intros D T. unfold load_one. cbn [bind]. rewrite fv_init by exact D. unfold interpolate_grid, make_1d_grids.
    assert (N : forall t, In t ["c2p"; "c2p_vel"; "uniform"; "mapped"] -> String.eqb (dd_grid_type (v_data x)) t = false).
    { intros t Ht. apply String.eqb_neq. intros E. apply T. now rewrite E. }
    rewrite !N by (cbn; auto). cbn [bind List.map]. unfold set_grid.
    destruct (dd_dims (v_data x)) as [|m]; [lia|]. reflexivity.
  Qed.

  (** Without --fv the dataset is the one of the file; the first failure ends the command. *)
  Theorem C119_all (open : string * string -> res fvdata) fv pairs ys :
    load_all fo dot ev amin amax open fv pairs = Ok ys <->
    Forall2 (fun p y => exists x, open p = Ok x /\ (if fv then fv_grid fo dot ev amin amax x else Ok x) = Ok y) pairs ys.
  Proof.
    assert (O : forall p y, load_one fo dot ev amin amax fv (open p) = Ok y <-> exists x, open p = Ok x /\ (if fv then fv_grid fo dot ev amin amax x else Ok x) = Ok y).
    { intros p y. unfold load_one. destruct (open p) as [x|e]; cbn [bind].
      - split.
        + intros H. exists x. split; [reflexivity|]. destruct (if fv then fv_grid fo dot ev amin amax x else Ok x) as [z|[]]; congruence.
        + intros (x' & E & H). injection E as <-. rewrite H. reflexivity.
      - split; [destruct e; discriminate|]. intros (x' & E & _). discriminate. }
    unfold load_all. revert ys. induction pairs as [|p pairs IH]; intros ys; cbn [mapM].
    - split; [intros [= <-]; constructor|intros H; inversion_clear H; reflexivity].
    - split.
      + intros H. apply bind_ok in H as (y & Hy & H). apply bind_ok in H as (zs & Hz & H). injection H as <-.
        constructor; [now apply O|now apply IH].
      + intros H. inversion H as [|? y ? zs Hp Hr E1 E2]. apply O in Hp. apply IH in Hr. rewrite Hp. cbn [bind]. rewrite Hr. reflexivity.
  Qed.
End Refused.

(** ** Several points per cell (not reached from the command line) *)
Section More.
  Lemma fold_same {A B} (f g : A -> B -> A) l : (forall a x, In x l -> f a x = g a x) -> forall a, fold_left f l a = fold_left g l a.
  Proof.
    induction l as [|x l IH]; intros H a; [reflexivity|]. cbn [fold_left]. rewrite H by now left. apply IH. intros; apply H; now right.
  Qed.

  Lemma nth_error_firstn_lt {A} (l : list A) n : forall k, k < n -> nth_error (firstn n l) k = nth_error l k.
  Proof.
    revert n. induction l as [|x l IH]; intros [|n] [|k] H; try lia; cbn [firstn nth_error]; try reflexivity. apply IH. lia.
  Qed.

  (** Only as many rows of the matrix are used as there are points per cell. *)
  Lemma interp_on_mesh_rows cm (q : nda R) n b : b <> "gkhybrid" -> b <> "hybrid" -> 2 <= n -> length (removelast (shape q)) = 1 ->
    interp_on_mesh rops rdot cm q n b true = interp_on_mesh rops rdot (firstn n cm) q n b true.
  Proof.
    intros A B Hn L. unfold interp_on_mesh, mesh_counts. apply String.eqb_neq in A, B. rewrite A, B, L. cbn [bind Nat.eqb repeat].
    apply fold_same. intros a r Hr. apply in_seq in Hr. rewrite Nat.max_l in Hr by lia.
    unfold prod in Hr. cbn [fold_right] in Hr. unfold mesh_step, row_values. rewrite nth_error_firstn_lt by lia. reflexivity.
  Qed.

  (** One dimension, [n >= 2] points: the [n] nodes of a cell are the first [n]
      of the [n + 1] points of the cell, so the upper end is left out. *)
  Theorem C119_more_points (d : dgdata (F := R)) (g : ginterp) q c nn b p fs :
    dd_grid_type d = "c2p" -> gi_dims g = 1 -> dd_grid d = [q] -> wf q -> shape q = [c; nn] -> 0 < c ->
    get_basis_p 1 nn = Ok (Some (b, p)) -> interp_functions 1 p true b = Ok fs ->
    2 <= gi_interp g -> gi_basis g <> "gkhybrid" -> gi_basis g <> "hybrid" ->
    let n := gi_interp g in
    exists out, interpolate_grid rops rdot evalR d g = Ok [out] /\ shape out = [c * (n - 1) + 1] /\
      forall x, x < c * (n - 1) + 1 -> exists i j u,
        i < c /\ j < n /\ x = i * (n - 1) + j /\ (x = c * (n - 1) -> i = c - 1 /\ j = n - 1) /\
        length u = length fs /\ (forall m, m < length fs -> nth_error u m = get q [i; m]) /\
        get out [x] = Some (expansion u fs [(-1 + 2 * INR j / INR n)%R]).
  Proof.
    intros T Gd Gq W S0 Hc Hb Hf Hn B1 B2 n.
    destruct (C57_sound _ _ _ _ (le_n 1) Hb) as (HN & Hp & Hbb).
    assert (Rd : right_dims 1 b).
    { split; [lia|]. split; [destruct Hbb as [-> | ->]; discriminate|]. intros _. tauto. }
    assert (Lf : length fs = nn).
    { pose proof (modal_size _ _ _ _ Rd (proj1 Hp) Hf). congruence. }
    unfold interpolate_grid. rewrite T, Gq, Gd. change (String.eqb "c2p" "c2p") with true. cbn [nth_error]. rewrite S0. cbn [last].
    rewrite Hb. cbn [bind]. fold n. unfold create_interp_matrix. cbn [andb].
    destruct (Nat.eqb_spec (S n) 1) as [E|_]; [unfold n in E; lia|]. rewrite Hf. cbn [bind].
    assert (Pc : point_counts 1 b (S n) = [S n]) by reflexivity. rewrite Pc.
    destruct (rows_of_spec rops evalR true [S n] fs) as (Rl & Rr & Rn). unfold prod in Rl. cbn [fold_right] in Rl.
    set (cm := rows_of rops evalR true [S n] fs) in *.
    cbn [seq mapM nth_error]. rewrite interp_on_mesh_rows by (auto; rewrite S0; reflexivity).
    assert (Rf : refine 1 n (gi_basis g) = [n]) by (rewrite refine_plain by assumption; reflexivity).
    destruct (C56_node rops rdot (firstn n cm) q n (gi_basis g) [c] nn) as (out & Eo & Wo & So & Vo); auto.
    { split; [cbn; lia|]. intros E. congruence. }
    { cbn [length]. rewrite Rf, firstn_length, Rl. unfold prod. cbn [fold_right]. lia. }
    { intros row Hr. rewrite <- Lf. apply Rr. rewrite <- (firstn_skipn n cm). apply in_or_app. now left. }
    cbn [length] in So, Vo. rewrite Rf in So, Vo. unfold node_shape in So, Vo. cbn [map2] in So, Vo.
    exists out. rewrite Eo. split; [reflexivity|]. split; [exact So|]. intros x Hx.
    destruct (node_cell_spec n c x Hn Hc Hx) as (P1 & P2 & P3 & _).
    destruct (Vo [x]) as (row & u & Er & Lu & Vu & G); [constructor; [exact Hx|constructor]|]. cbn [map2 fpos] in Er, Vu. rewrite Nat.mul_0_r, Nat.add_0_r in Er.
    exists (node_cell n x), (node_point n x), u. split; [exact P1|]. split; [exact P2|]. split; [lia|]. split.
    { intros E. assert (K : n - 1 = node_point n x - (c - 1 - node_cell n x) * (n - 1)) by nia.
      assert (node_cell n x = c - 1) by nia. split; [assumption|]. nia. }
    split; [congruence|]. split; [intros m Hm; apply Vu; lia|].
    rewrite G. f_equal. rewrite nth_error_firstn_lt in Er by exact P2.
    specialize (Rn [node_point n x]). cbn [fpos map2] in Rn. rewrite Nat.mul_0_r, Nat.add_0_r in Rn.
    rewrite Rn in Er by (constructor; [lia|constructor]). injection Er as <-. rewrite rdot_expansion.
    rewrite <- !INR_IZR_INZ, Nat.sub_0_r. rewrite (Rmult_comm (INR (node_point n x)) 2). reflexivity.
  Qed.
End More.

(** The two functions of one dimension and order one: a constant and a multiple of the coordinate. *)
Definition e0 : R := lit 7071067811865468 16.
Definition e1 : R := lit 1224744871391589 15.
Lemma line_expansion a b t : expansion [a; b] it_d1_modal_o1 [t] = (a * e0 + b * e1 * t)%R.
Proof. unfold expansion, e0, e1. cbn [it_d1_modal_o1 combine fold_right fst snd evalR nth]. ring. Qed.
Lemma e1_pos : (0 < e1)%R.
Proof. unfold e1, lit. apply Rdiv_lt_0_compat; [lra|]. apply pow_lt. lra. Qed.

(** The upper end of a mapped domain of one cell is not a node of its grid with two points. *)
Theorem C119_more_points_refuted :
  exists (d : dgdata (F := R)) (g : ginterp) q out fs v,
    dd_grid_type d = "c2p" /\ dd_grid d = [q] /\ gi_interp g = 2 /\
    interpolate_grid rops rdot evalR d g = Ok [out] /\ corner_at q fs [0] [1] v /\
    forall x, get out x <> Some v.
Proof.
  set (q := mk_nda [1; 2] [0; 1]%R). set (d := mk_dgdata (mk_nda [1; 1] [0%R]) [q] "c2p" None None 1 0).
  set (g := mk_ginterp 1 0 "serendipity" 2 1).
  destruct (C119_more_points d g q 1 2 "serendipity" 1 it_d1_modal_o1) as (out & E & So & V);
    [reflexivity|reflexivity|reflexivity|reflexivity|reflexivity|lia|reflexivity|reflexivity|cbn; lia|discriminate|discriminate|].
  exists d, g, q, out, it_d1_modal_o1, (expansion [0; 1]%R it_d1_modal_o1 [1%R]).
  split; [reflexivity|]. split; [reflexivity|]. split; [reflexivity|]. split; [exact E|]. split.
  { exists [0; 1]%R. split; [reflexivity|]. split; [|reflexivity]. intros [|[|m]] Hm; cbn in Hm; try lia; reflexivity. }
  change (gi_interp g) with 2 in *. intros x Hx. pose proof (get_Some_in_range _ _ _ Hx) as Rx. rewrite So in Rx. cbn in Rx.
  inversion Rx as [|y ? x' ? Hy R' E1 E2]. inversion R'. subst. clear R' Rx.
  destruct (V y Hy) as (i & j & u & Hi & Hj & Ey & _ & Lu & Vu & G). assert (i = 0) by lia. subst i.
  destruct u as [|a [|b [|c u]]]; cbn in Lu; try discriminate.
  pose proof (Vu 0 ltac:(cbn; lia)) as A. cbn in A. injection A as ->.
  pose proof (Vu 1 ltac:(cbn; lia)) as B. cbn in B. injection B as ->.
  rewrite G in Hx. injection Hx as Hx. rewrite !line_expansion in Hx. pose proof e1_pos.
  assert (j = 0 \/ j = 1) as [-> | ->] by lia; cbn [INR] in Hx; lra.
Qed.

(** ** After --fv *)

(** The grid keeps the type "c2p": a later interpolation in one dimension takes
    the nodes for coefficients and fails. *)
Theorem C119_then_interpolate (root : nat -> nat -> nat) (x y : fvdata (F := R)) c fs g :
  mapped (v_data x) [c] fs -> load_one rops rdot evalR amin amax true (Ok x) = Ok y -> gi_dims g = 1 ->
  dd_grid_type (v_data y) = "c2p" /\ exists e, modal_grid rops rdot evalR root (v_data y) g = Err e.
Proof.
  intros M E G. pose proof M as (T & D & Lg & _). destruct (fv_steps x [c] fs M) as (gr & _ & E1 & L & V).
  unfold load_one in E. cbn [bind] in E. rewrite E1 in E.
  assert (Dy : v_data y = mk_dgdata (dd_values (v_data x)) gr (dd_grid_type (v_data x)) (dd_basis (v_data x)) (dd_poly (v_data x)) (dd_ncdim (v_data x)) (dd_nvdim (v_data x))).
  { unfold set_grid in E. destruct (mapM _ (seq 0 (dd_dims (v_data x)))) as [bs|e]; cbn [bind] in E.
    - injection E as <-. reflexivity.
    - destruct e; discriminate. }
  split; [rewrite Dy; exact T|].
  destruct (dd_grid (v_data x)) as [|q [|q' l]] eqn:Eq; cbn [length] in Lg; try discriminate.
  destruct (V 0 q eq_refl) as (out & Eo & _ & So & _).
  unfold modal_grid. rewrite Dy, G. cbn [dd_grid_type dd_grid]. rewrite T. change (String.eqb "c2p" "c2p") with true. cbv iota.
  cbn [seq mapM]. rewrite Eo, So. cbn [List.map last].
  destruct (get_basis_p 1 (S c)) as [[[b p]|]|e] eqn:Eb; cbn [bind]; [|eexists; reflexivity|eexists; reflexivity].
  destruct (C57_sound _ _ _ _ (le_n 1) Eb) as (_ & _ & Hb).
  destruct (create_interp_matrix rops evalR 1 p b (gi_interp g) true true) as [cm|e]; cbn [bind]; [|eexists; reflexivity].
  exists TypeError. unfold interp_on_mesh. rewrite So. cbn [List.map removelast length]. unfold mesh_counts.
  destruct Hb as [-> | ->]; reflexivity.
Qed.

(** ** Examples *)

(** Two cells of one dimension; the coordinate runs through them without a jump. *)
Definition ex_q : nda R := mk_nda [2; 2] [0; e0; 2 * e1; e0]%R.
Definition ex_x : fvdata (F := R) := mk_fvdata (mk_dgdata (mk_nda [2; 1] [5; 6]%R) [ex_q] "c2p" None None 1 0) [0%R] [1%R].

Example C119_mapped_ex : mapped (v_data ex_x) [2] it_d1_modal_o1.
Proof.
  split; [reflexivity|]. split; [reflexivity|]. split; [reflexivity|]. split; [cbn; lia|]. split; [repeat constructor|].
  exists 2, "serendipity", 1. split; [|split; reflexivity]. intros q [<-|[]]. split; reflexivity.
Qed.

Lemma ex_corner i s v : i < 2 -> s <= 1 -> corner_at ex_q it_d1_modal_o1 [i] [s] v -> v = ((2 * INR (i + s) - 1) * e0 * e1)%R.
Proof.
  intros Hi Hs (u & Lu & Vu & ->). destruct u as [|a [|b [|c u]]]; cbn in Lu; try discriminate.
  pose proof (Vu 0 ltac:(cbn; lia)) as A. pose proof (Vu 1 ltac:(cbn; lia)) as B. cbn [List.map]. rewrite line_expansion.
  destruct i as [|[|i]]; [| |lia]; cbn in A, B; injection A as ->; injection B as ->; destruct s as [|[|s]]; try lia; cbn [INR Nat.add]; ring.
Qed.

Example C119_continuous_ex : continuous ex_q it_d1_modal_o1 [2].
Proof.
  intros i s v i' s' v' (R1 & L1 & F1) (R2 & L2 & F2) En V1 V2.
  destruct s as [|s [|? ?]]; cbn in L1; try discriminate. destruct s' as [|s' [|? ?]]; cbn in L2; try discriminate.
  inversion R1 as [|a ? i1 ? Ha Ri E1 E2]. inversion Ri. subst. inversion R2 as [|b ? i2 ? Hb Rj E1 E2]. inversion Rj. subst.
  inversion_clear F1 as [|? ? Hs _]. inversion_clear F2 as [|? ? Hs' _].
  cbn in En. injection En as En. rewrite (ex_corner _ _ _ Ha Hs V1), (ex_corner _ _ _ Hb Hs' V2), En. reflexivity.
Qed.

(** The three nodes of the grid. *)
Example C119_continuous_ex2 : exists y out, load_one rops rdot evalR amin amax true (Ok ex_x) = Ok y /\
  dd_grid (v_data y) = [out] /\ get out [0] = Some (- e0 * e1)%R /\ get out [2] = Some (3 * e0 * e1)%R.
Proof.
  destruct (C119_corners ex_x [2] it_d1_modal_o1 C119_mapped_ex) as (y & E & _ & L & _).
  destruct (C119_continuous ex_x [2] it_d1_modal_o1 y C119_mapped_ex E 0 ex_q eq_refl C119_continuous_ex) as (out & Eo & V).
  exists y, out. split; [exact E|]. split.
  { destruct (dd_grid (v_data y)) as [|o [|? ?]]; cbn in L, Eo; try discriminate. congruence. }
  assert (Cn : forall i s v, i < 2 -> s <= 1 -> corner_at ex_q it_d1_modal_o1 [i] [s] v -> get out [i + s] = Some v).
  { intros i s v Hi Hs Hv. apply (V [i] [s] v); [|exact Hv]. split; [constructor; [exact Hi|constructor]|]. split; [reflexivity|]. constructor; [exact Hs|constructor]. }
  split.
  - apply (Cn 0 0); [lia|lia|]. exists [0; e0]%R. split; [reflexivity|]. split; [|cbn [List.map]; rewrite line_expansion; ring].
    intros [|[|m]] Hm; cbn in Hm; try lia; reflexivity.
  - apply (Cn 1 1); [lia|lia|]. exists [2 * e1; e0]%R. split; [reflexivity|]. split; [|cbn [List.map]; rewrite line_expansion; ring].
    intros [|[|m]] Hm; cbn in Hm; try lia; reflexivity.
Qed.

(** A plain grid of equal cells, and a time trace. *)
Example C119_uniform_ex :
  let x := mk_fvdata (mk_dgdata (mk_nda [2; 1] [5; 6]%Q) [mk_nda [3] [0; 1 # 2; 1]%Q] "uniform" None None 1 0) [0%Q] [1%Q] in
  1 <= dd_dims (v_data x) <= 6 /\ (forall a, In a (dd_grid (v_data x)) -> 2 <= length (flat a) /\ equispaced (flat a)).
Proof.
  cbn [v_data dd_grid]. split; [cbn; lia|]. intros a [<-|[]]. split; [cbn; lia|]. exists 0%Q, (1 # 2)%Q.
  intros [|[|[|[|i]]]] x H; cbn in H; try discriminate H; injection H as H; subst x; reflexivity.
Qed.
Example C119_other_ex : load_one q0ops (fun _ _ => 0%Q) (fun _ _ => 0%Q) (fun _ => Ok 0%Q) (fun _ => Ok 0%Q) true
  (Ok (mk_fvdata (mk_dgdata (mk_nda [2; 1] [5; 6]%Q) [mk_nda [2] [0; 1]%Q] "nodal" None None 1 0) [0%Q] [1%Q])) = Err IndexError.
Proof. vm_compute. reflexivity. Qed.

Print Assumptions C119_corners.
Print Assumptions C119_continuous.
Print Assumptions C119_one_point.
Print Assumptions C119_uniform.
Print Assumptions C119_unequal_refuted.
Print Assumptions C119_velocity.
Print Assumptions C119_other.
Print Assumptions C119_all.
Print Assumptions C119_more_points.
Print Assumptions C119_more_points_refuted.
Print Assumptions C119_then_interpolate.
