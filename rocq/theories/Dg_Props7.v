(** * C56 (mapped grids) and C57 (recognising a basis by its size). *)
From Coq Require Import String Ascii List Arith ZArith QArith Bool Lia.
From Verif Require Import Prelude PreludeFacts NdArray Gkyl_Model Gkyl_Proofs3
  Dg_Poly Dg_TabI Dg_TabD Dg_Model Dg_Spec Dg_Proofs Dg_Proofs2 Dg_Props Dg_Props2 Dg_Props3.
Import ListNotations.
Open Scope string_scope.
Open Scope list_scope.
Open Scope nat_scope.

(** ** Nodes of a mapped grid

    [n] nodes per cell and direction, neighbouring cells share their face.  The
    cell that provides node [x], and the local number of the node in it. *)
Definition node_cell (n x : nat) : nat := match x with O => 0 | S y => y / (n - 1) end.
Definition node_point (n x : nat) : nat := x - node_cell n x * (n - 1).

Definition node_shape (cells ns : list nat) : list nat := map2 (fun c n => c * (n - 1) + 1) cells ns.

Lemma node_cell_spec n c x :
  2 <= n -> 0 < c -> x < c * (n - 1) + 1 ->
  node_cell n x < c /\ node_point n x < n /\ x = node_point n x + node_cell n x * (n - 1) /\
  forall i k, i < c -> k < n -> x = k + i * (n - 1) -> k <= node_point n x.
Proof.
  intros Hn Hc Hx. unfold node_point, node_cell. destruct x as [|y].
  - split; [lia|]. split; [lia|]. split; [lia|]. intros; nia.
  - set (s := n - 1). assert (Hs : 0 < s) by lia.
    pose proof (Nat.div_mod y s ltac:(lia)) as D. pose proof (Nat.mod_upper_bound y s ltac:(lia)) as M.
    assert (Hj : y / s < c) by (apply Nat.div_lt_upper_bound; [lia|]; unfold s; lia).
    set (j := y / s) in *.
    replace (n - 1) with s in * by reflexivity. assert (Hns : n = S s) by lia.
    assert (j * s <= y) by nia.
    assert (y < j * s + s) by nia.
    split; [exact Hj|]. split; [nia|]. split; [nia|].
    intros i k Hi Hk E. assert (j <= i \/ i < j) as [L|L] by lia; nia.
Qed.

Lemma map2_node cells ns x :
  length cells = length ns -> Forall (fun n => 2 <= n) ns -> Forall (fun c => 0 < c) cells ->
  in_range (node_shape cells ns) x ->
  in_range cells (map2 node_cell ns x) /\ in_range ns (map2 node_point ns x) /\
  on_mesh cells (List.map (fun n => n - 1) ns) (map2 node_point ns x) x (map2 node_cell ns x) /\
  forall i k, in_range ns k -> on_mesh cells (List.map (fun n => n - 1) ns) k x i -> Forall2 le k (map2 node_point ns x).
Proof.
  intros L G P. revert ns x L G. unfold in_range, node_shape.
  induction P as [|c cells Hc P IH]; intros [|n ns] x L G Hx; cbn [length] in L; try discriminate.
  - inversion_clear Hx. cbn. split; [constructor|]. split; [constructor|]. split; [exact I|].
    intros i k Hk. destruct i; cbn; [|destruct k; tauto]. inversion_clear Hk. intros _. constructor.
  - cbn [map2] in Hx. inversion Hx as [|y ? x' ? Hy Hx' E1 E2]; subst. inversion_clear G as [|? ? Hn G'].
    destruct (IH ns x' ltac:(lia) G' Hx') as (A & B & C & D).
    destruct (node_cell_spec n c y Hn Hc Hy) as (P1 & P2 & P3 & P4).
    cbn [map2 List.map on_mesh]. split; [constructor; auto|]. split; [constructor; auto|].
    split; [split; [exact P1|split; [exact P3|exact C]]|].
    intros [|i is] [|k ks] Hk; cbn; try tauto. inversion_clear Hk as [|? ? ? ? Hkn Hks].
    intros (H1 & H2 & H3). constructor; [apply (P4 i k); auto|]. eapply D; eauto.
Qed.

Section C56.
  Context {F : Type} (fo : fops F) (dot : list F -> list F -> F).

  (** Every node of the refined mapped grid holds the expansion of one of the
      cells touching it (the one on the lower side) at that node. *)
  Theorem C56_node cmat (q : nda F) n b cells nn :
    wf q -> shape q = cells ++ [nn] -> dims_ok (length cells) b -> 2 <= n -> Forall (fun c => 0 < c) cells ->
    length cmat = prod (refine (length cells) n b) ->
    (forall row, In row cmat -> length row = nn) ->
    let ns := refine (length cells) n b in
    exists out, interp_on_mesh fo dot cmat q n b true = Ok out /\ wf out /\
      shape out = node_shape cells ns /\
      forall x, in_range (node_shape cells ns) x ->
        exists row u, nth_error cmat (fpos ns (map2 node_point ns x)) = Some row /\
          length u = nn /\ (forall m, m < nn -> nth_error u m = get q (map2 node_cell ns x ++ [m])) /\
          get out x = Some (dot row u).
  Proof.
    intros W S D Hn P Hl Hrows ns.
    pose proof (mesh_counts_refine (length cells) n b D Hn) as Hc. fold ns in Hc, Hl.
    assert (Hcells : removelast (shape q) = cells) by (rewrite S; apply removelast_snoc).
    assert (Hnn : last (shape q) 0 = nn) by (rewrite S; apply last_snoc).
    assert (Lns : length ns = length cells) by apply refine_length.
    assert (G2 : Forall (fun k => 2 <= k) ns) by (apply refine_ge2; auto).
    unfold interp_on_mesh. rewrite Hcells, Hc. cbn [bind].
    destruct D as [D1 _]. destruct (Nat.eqb_spec (length cells) 0) as [E|_]; [lia|].
    assert (Ms : mesh_shape true cells ns = node_shape cells ns) by reflexivity. rewrite Ms.
    set (zeros := tabulate (node_shape cells ns) (fun _ => fzero fo)).
    destruct (mesh_fold fo dot true cmat q ns (seq 0 (prod ns)) zeros) as (out & E & Wo & So & V).
    - rewrite Hcells. auto.
    - exact G2.
    - apply wf_tabulate.
    - rewrite Hcells. reflexivity.
    - intros r Hr. apply in_seq in Hr. split; [lia|]. rewrite Hnn.
      destruct (nth_error cmat r) as [row|] eqn:En.
      + exists row. split; auto. apply Hrows. eapply nth_error_In; eauto.
      + apply nth_error_None in En. lia.
    - exists out. split; [exact E|]. split; [exact Wo|]. split; [rewrite So; reflexivity|].
      intros x Hx. destruct (map2_node cells ns x (eq_sym Lns) G2 P Hx) as (Ri & Rk & On & Top).
      set (i := map2 node_cell ns x) in *. set (k := map2 node_point ns x) in *.
      destruct (nth_error cmat (fpos ns k)) as [row|] eqn:Erow.
      2:{ apply nth_error_None in Erow. pose proof (fpos_lt ns k Rk). lia. }
      destruct (coeffs_spec fo q cells nn i W S Ri) as [Lc Vc].
      exists row, (coeffs fo q nn i). split; [reflexivity|]. split; [exact Lc|]. split; [exact Vc|].
      rewrite (getz_get fo) by (auto; rewrite So; exact Hx).
      f_equal. rewrite V by exact Hx.
      apply fold_upd_last with (r := fpos ns k).
      + apply fpos_lt; auto.
      + unfold hit. rewrite Erow, Hcells, Hnn. rewrite unravel_fpos by auto.
        rewrite mesh_sels_lines by auto.
        replace (locate _ x) with (Some i); [reflexivity|].
        symmetry. apply locate_lines; auto.
      + intros r' Hr1 Hr2. unfold hit. destruct (nth_error cmat r'); [|reflexivity].
        rewrite Hcells. destruct (fpos_unravel ns r' Hr2) as [Er Rr].
        rewrite mesh_sels_lines by auto.
        destruct (locate _ _) as [j|] eqn:El; [|reflexivity]. exfalso.
        apply locate_lines in El; auto.
        pose proof (Top j (unravel_f ns r') Rr El) as Le.
        pose proof (fpos_mono ns _ _ Le) as Fm. rewrite unravel_length in Fm. specialize (Fm eq_refl). lia.
  Qed.

  (** If the cells sharing a node agree on its value, the result is the value
      given by any of them. *)
  Theorem C56_continuous cmat (q : nda F) n b cells nn out :
    wf q -> shape q = cells ++ [nn] -> dims_ok (length cells) b -> 2 <= n -> Forall (fun c => 0 < c) cells ->
    length cmat = prod (refine (length cells) n b) ->
    (forall row, In row cmat -> length row = nn) ->
    let ns := refine (length cells) n b in
    interp_on_mesh fo dot cmat q n b true = Ok out ->
    (* value of cell [i] at its local node [k] *)
    forall val : list nat -> list nat -> F,
    (forall i k row u, in_range cells i -> in_range ns k -> nth_error cmat (fpos ns k) = Some row ->
       length u = nn -> (forall m, m < nn -> nth_error u m = get q (i ++ [m])) -> val i k = dot row u) ->
    (forall i i' k k' x, in_range cells i -> in_range cells i' -> in_range ns k -> in_range ns k' ->
       x = map2 Nat.add k (map2 (fun a m => a * (m - 1)) i ns) -> x = map2 Nat.add k' (map2 (fun a m => a * (m - 1)) i' ns) ->
       val i k = val i' k') ->
    forall i k, in_range cells i -> in_range ns k ->
      get out (map2 Nat.add k (map2 (fun a m => a * (m - 1)) i ns)) = Some (val i k).
  Proof.
    intros W S D Hn P Hl Hrows ns Eo val Hval Cont i k Hi Hk.
    destruct (C56_node cmat q n b cells nn W S D Hn P Hl Hrows) as (out' & E & _ & So & V).
    rewrite Eo in E. injection E as <-. fold ns in So, V.
    assert (Lns : length ns = length cells) by apply refine_length.
    assert (G2 : Forall (fun k => 2 <= k) ns) by (apply refine_ge2; auto).
    set (x := map2 Nat.add k (map2 (fun a m => a * (m - 1)) i ns)).
    assert (Hx : in_range (node_shape cells ns) x).
    { clear - Hi Hk Lns. unfold x. clear x. clearbody ns. unfold in_range, node_shape in *. revert ns k Lns Hk.
      induction Hi as [|a c is cells Hac _ IH]; intros [|n0 ns] k Lns Hk; cbn [length] in Lns; try discriminate.
      - inversion_clear Hk. constructor.
      - inversion Hk as [|y ? k' ? Hy Hk' E1 E2]; subst. cbn [map2]. constructor; [nia|]. apply IH; auto. }
    destruct (map2_node cells ns x (eq_sym Lns) G2 P Hx) as (Ri & Rk & On & _).
    destruct (V x Hx) as (row & u & Erow & Lu & Vu & G). rewrite G. f_equal.
    rewrite <- (Hval (map2 node_cell ns x) (map2 node_point ns x) row u) by auto.
    symmetry. apply (Cont _ _ _ _ x); auto.
    clearbody x. clear - On Lns. clearbody ns. revert On. generalize (map2 node_cell ns x) as j. generalize (map2 node_point ns x) as k.
    revert x cells Lns. induction ns as [|n0 ns IH]; intros x [|c cells] L k j; cbn [length] in L; try discriminate.
    - destruct k, x, j; cbn; tauto.
    - destruct k as [|k0 k], x as [|x0 x], j as [|j0 j]; cbn; try tauto. intros (_ & -> & H). f_equal.
      exact (IH x cells ltac:(lia) k j H).
  Qed.
End C56.

(** Two one-dimensional cells of 2 coefficients, 3 nodes per cell: node 2 is
    shared and taken from the first cell. *)
Definition ex_c2p_q : nda Q := mk_nda [2; 2] (List.map inject_Z [0; 1; 10; 1])%Z.
Definition ex_c2p_m : list (list Q) := List.map (List.map inject_Z) [[1; -1]; [1; 0]; [1; 1]]%Z.
Example C56_example :
  wf ex_c2p_q /\ dims_ok 1 "serendipity" /\ length ex_c2p_m = prod (refine 1 3 "serendipity") /\
  match interp_on_mesh q0ops qdot ex_c2p_m ex_c2p_q 3 "serendipity" true with
  | Ok out => shape out = [5] /\ List.map Qred (flat out) = List.map inject_Z [-1; 0; 1; 10; 11]%Z
  | Err _ => False
  end.
Proof. split; [reflexivity|]. split; [split; [lia|discriminate]|]. split; [reflexivity|]. vm_compute. split; reflexivity. Qed.

(** ** C57 *)

Lemma get_basis_p_dims d nc r : get_basis_p d nc = Ok r -> d <= 6.
Proof.
  unfold get_basis_p, np_at, norm_index, bind. intros H.
  destruct (le_gt_dec d 6) as [L|L]; [exact L|]. exfalso.
  replace ((Z.of_nat d - 1 <? 0)%Z) with false in H by (symmetry; apply Z.ltb_ge; lia).
  replace ((Z.of_nat d - 1 <? Z.of_nat (length num_nodes_serendipity))%Z) with false in H.
  - rewrite andb_false_r in H. discriminate.
  - symmetry. apply Z.ltb_ge. cbn. lia.
Qed.

Lemma positions_none nc row i : ~ In nc row -> positions nc row i = [].
Proof.
  revert i. induction row as [|x row IH]; intros i N; [reflexivity|]. cbn.
  destruct (Nat.eqb_spec nc x) as [->|_]; [exfalso; apply N; left; auto|]. apply IH. intros H; apply N; right; auto.
Qed.

(** What is recognised has the right number of coefficients. *)
Theorem C57_sound :
  forall d nc b p, 1 <= d -> get_basis_p d nc = Ok (Some (b, p)) ->
    get_num_nodes d p b = Ok nc /\ 1 <= p <= 4 /\ (b = "serendipity" \/ b = "tensor").
Proof.
  intros d nc b p Hd H. pose proof (get_basis_p_dims d nc _ H) as L.
  assert (d = 1 \/ d = 2 \/ d = 3 \/ d = 4 \/ d = 5 \/ d = 6) as C by lia.
  assert (R : exists rs rt, np_at num_nodes_serendipity (Z.of_nat d - 1) = Ok rs /\
                np_at num_nodes_tensor (Z.of_nat d - 1) = Ok rt /\ In nc (rs ++ rt)).
  { unfold get_basis_p in H.
    destruct (np_at num_nodes_serendipity _) as [rs|]; [|discriminate]. cbn [bind] in H.
    destruct (truthy_pos (positions nc rs 0)) as [s|] eqn:Es; [|discriminate]. cbn [bind] in H.
    destruct (np_at num_nodes_tensor _) as [rt|]; [|discriminate]. cbn [bind] in H.
    destruct (truthy_pos (positions nc rt 0)) as [t|] eqn:Et; [|discriminate]. cbn [bind] in H.
    exists rs, rt. split; [reflexivity|]. split; [reflexivity|].
    destruct (in_dec Nat.eq_dec nc (rs ++ rt)) as [I|N]; [exact I|]. exfalso.
    rewrite positions_none in Es by (intros I; apply N, in_or_app; auto).
    rewrite positions_none in Et by (intros I; apply N, in_or_app; auto).
    injection Es as <-. injection Et as <-. discriminate. }
  destruct R as (rs & rt & Ers & Ert & I).
  destruct C as [-> |[-> |[-> |[-> |[-> | ->]]]]]; vm_compute in Ers, Ert; injection Ers as <-; injection Ert as <-;
    cbn [app In] in I; repeat (destruct I as [<-|I]); try contradiction; vm_compute in H; try discriminate;
    injection H as <- <-; (split; [vm_compute; reflexivity|]); (split; [lia|]); auto.
Qed.

(** The size of a serendipity space of order one or more is recognised as that
    space, or as the tensor space of the same order in one dimension, where the
    two have the same functions. *)
Theorem C57_serendipity :
  forall d p nc, 1 <= d -> 1 <= p -> get_num_nodes d p "serendipity" = Ok nc ->
    exists b, get_basis_p d nc = Ok (Some (b, p)) /\
      forall m, interp_functions d p m b = interp_functions d p m "serendipity".
Proof.
  intros d p nc Hd Hp H.
  assert (d <= 6).
  { destruct (le_gt_dec d 6) as [L|L]; [exact L|]. exfalso. revert H.
    unfold get_num_nodes. cbn [lower lower_ascii]. change (String.eqb (lower "serendipity") "serendipity") with true. cbv iota.
    unfold np_at at 1, norm_index. replace ((Z.of_nat d - 1 <? 0)%Z) with false by (symmetry; apply Z.ltb_ge; lia).
    replace ((Z.of_nat d - 1 <? Z.of_nat (length num_nodes_serendipity))%Z) with false by (symmetry; apply Z.ltb_ge; cbn; lia).
    rewrite andb_false_r. discriminate. }
  assert (p <= 4).
  { destruct (le_gt_dec p 4) as [L|L]; [exact L|]. exfalso. revert H.
    unfold get_num_nodes. change (String.eqb (lower "serendipity") "serendipity") with true. cbv iota.
    destruct (np_at num_nodes_serendipity (Z.of_nat d - 1)) as [r|] eqn:E; [|discriminate]. cbn [bind].
    assert (Lr : length r = 5).
    { unfold np_at in E. destruct (norm_index _ _) as [k|]; [|discriminate]. cbn [bind] in E.
      destruct (nth_error num_nodes_serendipity k) as [r'|] eqn:En; [|discriminate]. injection E as <-.
      apply nth_error_In in En. cbn in En. decompose [or] En; subst; try reflexivity; contradiction. }
    unfold np_at, norm_index. rewrite Lr. replace ((Z.of_nat p <? 0)%Z) with false by (symmetry; apply Z.ltb_ge; lia).
    replace ((Z.of_nat p <? Z.of_nat 5)%Z) with false by (symmetry; apply Z.ltb_ge; cbn; lia).
    rewrite andb_false_r. discriminate. }
  assert (d = 1 \/ d = 2 \/ d = 3 \/ d = 4 \/ d = 5 \/ d = 6) as C by lia.
  assert (p = 1 \/ p = 2 \/ p = 3 \/ p = 4) as C' by lia.
  destruct C as [-> |[-> |[-> |[-> |[-> | ->]]]]], C' as [-> |[-> |[-> | ->]]];
    injection H as <-; eexists; (split; [vm_compute; reflexivity|intros []; reflexivity]).
Qed.

(** Likewise a tensor space of order two to four; order one has the size of the
    serendipity space of order one and is recognised as such. *)
Theorem C57_tensor :
  forall d p nc, 1 <= d <= 6 -> 1 <= p <= 4 -> get_num_nodes d p "tensor" = Ok nc ->
    get_basis_p d nc = Ok (Some ((if 2 <=? p then "tensor" else "serendipity"), p)).
Proof.
  intros d p nc Hd Hp H.
  assert (d = 1 \/ d = 2 \/ d = 3 \/ d = 4 \/ d = 5 \/ d = 6) as C by lia.
  assert (p = 1 \/ p = 2 \/ p = 3 \/ p = 4) as C' by lia.
  destruct C as [-> |[-> |[-> |[-> |[-> | ->]]]]], C' as [-> |[-> |[-> | ->]]];
    injection H as <-; vm_compute; reflexivity.
Qed.

(** Constant coordinates and maximal-order coordinates are not recognised, or
    are taken for something else. *)
Theorem C57_refuted :
  (forall d, 1 <= d <= 6 -> get_basis_p d 1 = Ok None) /\
  get_num_nodes 3 3 "maximal-order" = Ok 20 /\ get_basis_p 3 20 = Ok (Some ("serendipity", 2)) /\
  get_num_nodes 2 1 "maximal-order" = Ok 3 /\ get_basis_p 2 3 = Ok None.
Proof.
  split; [|repeat split; vm_compute; reflexivity].
  intros d Hd. assert (d = 1 \/ d = 2 \/ d = 3 \/ d = 4 \/ d = 5 \/ d = 6) as C by lia.
  destruct C as [-> |[-> |[-> |[-> |[-> | ->]]]]]; vm_compute; reflexivity.
Qed.

Example C57_example : get_basis_p 3 20 = Ok (Some ("serendipity", 2)) /\ get_basis_p 2 9 = Ok (Some ("tensor", 2)).
Proof. split; vm_compute; reflexivity. Qed.

Print Assumptions C56_node.
Print Assumptions C56_continuous.
Print Assumptions C57_sound.
Print Assumptions C57_serendipity.
Print Assumptions C57_tensor.
Print Assumptions C57_refuted.
