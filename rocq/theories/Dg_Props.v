(** * C31-C34: DG interpolation on the mesh, grids, component extraction, basis sizes. *)
From Coq Require Import String Ascii List Arith ZArith QArith Bool Lia.
From Verif Require Import Prelude PreludeFacts NdArray Gkyl_Model Gkyl_Proofs3
  Dg_Poly Dg_TabI Dg_TabD Dg_Model Dg_Spec Dg_Proofs.
Import ListNotations.
Open Scope string_scope.
Open Scope list_scope.
Open Scope nat_scope.

(** ** Auxiliary facts *)

Lemma mesh_counts_refine nd n b :
  dims_ok nd b -> 2 <= n -> mesh_counts nd n b = Ok (refine nd n b).
Proof.
  intros [Hnd Hgk] Hn. unfold mesh_counts, refine, extra_dir, bind. rewrite Nat.max_l by lia.
  assert (Rep : forall m, repeat n m = List.map (fun _ => n) (seq 0 m)).
  { intros m. generalize 0 at 1. induction m; simpl; intros; [reflexivity|]. f_equal. apply IHm. }
  assert (Set_ : forall e m, e < m -> set_nth e (S n) (repeat n m)
              = List.map (fun d => if Nat.eqb d e then S n else n) (seq 0 m)).
  { intros e m He. rewrite Rep. apply nth_error_ext. intros k. rewrite nth_error_set_nth, !nth_error_map, !nth_error_seq.
    destruct (Nat.ltb_spec k m); simpl.
    - rewrite (Nat.eqb_sym k e). destruct (Nat.eqb e k); reflexivity.
    - destruct (Nat.eqb_spec e k); reflexivity. }
  destruct (String.eqb_spec b "gkhybrid") as [E|NE].
  - destruct (Hgk E) as [H2 H5]. rewrite E. simpl (String.eqb "gkhybrid" "hybrid").
    assert (nd = 2 \/ nd = 3 \/ nd = 4 \/ nd = 5) as [-> | [-> | [-> | ->]]] by lia; reflexivity.
  - destruct (String.eqb b "hybrid") eqn:Eh.
    + destruct nd as [|k]; [lia|]. rewrite Set_ by lia. rewrite Nat.sub_succ, Nat.sub_0_r. reflexivity.
    + f_equal. apply Rep.
Qed.

Lemma refine_length nd n b : length (refine nd n b) = nd.
Proof. unfold refine. rewrite map_length, seq_length. reflexivity. Qed.

Lemma refine_ge2 nd n b : 2 <= n -> Forall (fun k => 2 <= k) (refine nd n b).
Proof.
  intros H. unfold refine. apply Forall_forall. intros k Hk. apply in_map_iff in Hk.
  destruct Hk as (d & <- & _). destruct (extra_dir nd b); [destruct (Nat.eqb d n0)|]; lia.
Qed.

Lemma mesh_shape_refined cells ns : mesh_shape false cells ns = refined_shape cells ns.
Proof.
  unfold mesh_shape, refined_shape. revert ns. induction cells as [|c cells IH]; intros [|n ns]; simpl; auto.
  f_equal. apply IH.
Qed.

Lemma sub_index_in_range cells ns i k :
  in_range cells i -> in_range ns k -> length cells = length ns ->
  in_range (refined_shape cells ns) (sub_index ns i k).
Proof.
  unfold in_range, refined_shape, sub_index. intros Hi. revert ns k.
  induction Hi as [|i c is cs Hic _ IH]; intros ns k Hk L.
  - destruct ns; [|discriminate]. constructor.
  - destruct Hk as [|k n ks ns Hkn Hk]; [discriminate|]. cbn in *. constructor; [nia|].
    apply IH; auto; lia.
Qed.

Lemma on_mesh_sub_index cells ns i k :
  in_range cells i -> in_range ns k -> length cells = length ns ->
  on_mesh cells ns k (sub_index ns i k) i.
Proof.
  unfold in_range, sub_index. intros Hi. revert ns k.
  induction Hi as [|i c is cs Hic _ IH]; intros ns k Hk L.
  - destruct ns; [|discriminate]. inversion_clear Hk. exact I.
  - destruct Hk as [|k n ks ns Hkn Hk]; [discriminate|]. cbn in *. split; [exact Hic|]. split; [lia|].
    apply IH; auto.
Qed.

Lemma on_mesh_unique cells ns k k' x i i' :
  in_range ns k -> in_range ns k' ->
  on_mesh cells ns k x i -> on_mesh cells ns k' x i' -> i = i' /\ k = k'.
Proof.
  unfold in_range. intros Hk. revert cells k' x i i'.
  induction Hk as [|k n ks ns Hkn _ IH]; intros cells k' x i i' Hk'.
  - inversion_clear Hk'. destruct cells, x, i, i'; simpl; tauto.
  - inversion_clear Hk' as [|k0 ? ks0 ? Hk0n Hks0].
    destruct cells, x, i, i'; simpl; try tauto.
    intros (A1 & A2 & A3) (B1 & B2 & B3).
    destruct (IH _ _ _ _ _ Hks0 A3 B3) as [-> ->].
    assert (n2 = n3) by nia. subst n3. split; f_equal; nia.
Qed.

Lemma sub_index_onto cells ns x :
  length cells = length ns -> Forall (fun n => 0 < n) ns -> in_range (refined_shape cells ns) x ->
  exists i k, in_range cells i /\ in_range ns k /\ x = sub_index ns i k.
Proof.
  unfold in_range, refined_shape, sub_index. revert ns x.
  induction cells as [|c cells IH]; intros [|n ns] x L P H; simpl in L; try discriminate.
  - inversion_clear H. exists [], []. repeat split; constructor.
  - inversion_clear P as [|? ? Hn P']. inversion H as [|y ? x' ? Hy Hx' E1 E2]; subst. cbn in Hy.
    destruct (IH ns x' ltac:(lia) P' Hx') as (i & k & Hi & Hk & E).
    exists (y / n :: i), (y mod n :: k). split; [|split].
    + constructor; auto. apply Nat.div_lt_upper_bound; lia.
    + constructor; auto. apply Nat.mod_upper_bound. lia.
    + cbn. rewrite E. f_equal. rewrite (Nat.div_mod y n) at 1 by lia. lia.
Qed.

Lemma removelast_snoc {A} (l : list A) a : removelast (l ++ [a]) = l.
Proof. apply removelast_last. Qed.
Lemma last_snoc {A} (l : list A) a d : last (l ++ [a]) d = a.
Proof. apply last_last. Qed.

Section C31.
  Context {F : Type} (fo : fops F) (dot : list F -> list F -> F).

  Lemma coeffs_spec (q : nda F) cells nn i :
    wf q -> shape q = cells ++ [nn] -> in_range cells i ->
    length (coeffs fo q nn i) = nn /\
    forall m, m < nn -> nth_error (coeffs fo q nn i) m = get q (i ++ [m]).
  Proof.
    intros W S R. unfold coeffs. rewrite map_length, seq_length. split; [reflexivity|].
    intros m Hm. rewrite nth_error_map, nth_error_seq. destruct (Nat.ltb_spec m nn); [|lia].
    cbn [option_map]. symmetry. apply getz_get; auto. rewrite S.
    unfold in_range. apply Forall2_app; auto.
  Qed.

  (** Every sub-point [k] of every cell [i] gets the inner product of matrix row
      number [k] (first coordinate fastest) with the coefficients of cell [i]. *)
  Theorem C31_value cmat (q : nda F) n b cells nn :
    wf q -> shape q = cells ++ [nn] -> dims_ok (length cells) b -> 2 <= n ->
    length cmat = prod (refine (length cells) n b) ->
    (forall row, In row cmat -> length row = nn) ->
    exists out, interp_on_mesh fo dot cmat q n b false = Ok out /\ wf out /\
      shape out = refined_shape cells (refine (length cells) n b) /\
      forall i k, in_range cells i -> in_range (refine (length cells) n b) k ->
        exists row u, nth_error cmat (fpos (refine (length cells) n b) k) = Some row /\
          length u = nn /\ (forall m, m < nn -> nth_error u m = get q (i ++ [m])) /\
          get out (sub_index (refine (length cells) n b) i k) = Some (dot row u).
  Proof.
    intros W S D Hn Hl Hrows.
    pose proof (mesh_counts_refine (length cells) n b D Hn) as Hc.
    set (ns := refine (length cells) n b) in *.
    assert (Hcells : removelast (shape q) = cells) by (rewrite S; apply removelast_snoc).
    assert (Hnn : last (shape q) 0 = nn) by (rewrite S; apply last_snoc).
    assert (Lns : length ns = length cells) by apply refine_length.
    assert (G2 : Forall (fun k => 2 <= k) ns) by (apply refine_ge2; auto).
    unfold interp_on_mesh. rewrite Hcells, Hc. cbn [bind].
    destruct D as [D1 _]. destruct (Nat.eqb_spec (length cells) 0) as [E|_]; [lia|].
    rewrite mesh_shape_refined.
    set (zeros := tabulate (refined_shape cells ns) (fun _ => fzero fo)).
    destruct (mesh_fold fo dot false cmat q ns (seq 0 (prod ns)) zeros) as (out & E & Wo & So & V).
    - rewrite Hcells. auto.
    - exact G2.
    - apply wf_tabulate.
    - rewrite Hcells, mesh_shape_refined. reflexivity.
    - intros r Hr. apply in_seq in Hr. split; [lia|]. rewrite Hnn.
      destruct (nth_error cmat r) as [row|] eqn:En.
      + exists row. split; auto. apply Hrows. eapply nth_error_In; eauto.
      + apply nth_error_None in En. lia.
    - exists out. split; [exact E|]. split; [exact Wo|]. split; [rewrite So; reflexivity|].
      intros i k Hi Hk.
      destruct (nth_error cmat (fpos ns k)) as [row|] eqn:Erow.
      2:{ apply nth_error_None in Erow. pose proof (fpos_lt ns k Hk). lia. }
      destruct (coeffs_spec q cells nn i W S Hi) as [Lc Vc].
      exists row, (coeffs fo q nn i). split; [reflexivity|]. split; [exact Lc|]. split; [exact Vc|].
      assert (Hx : in_range (refined_shape cells ns) (sub_index ns i k)).
      { apply sub_index_in_range; auto. }
      rewrite (getz_get fo) by (auto; rewrite So; exact Hx).
      f_equal. rewrite V by exact Hx.
      pose proof (on_mesh_sub_index cells ns i k Hi Hk (eq_sym Lns)) as Hon.
      assert (Hhit : hit fo dot false cmat q ns (sub_index ns i k) (fpos ns k)
                     = Some (dot row (coeffs fo q nn i))).
      { unfold hit. rewrite Erow, Hcells, Hnn. rewrite unravel_fpos by auto.
        rewrite mesh_sels_lines by auto.
        replace (locate _ (sub_index ns i k)) with (Some i); [reflexivity|].
        symmetry. apply locate_lines; auto. cbn [step_of]. rewrite map_id. exact Hon. }
      apply fold_upd_last with (r := fpos ns k).
      + apply fpos_lt; auto.
      + exact Hhit.
      + intros r' Hr1 Hr2. unfold hit. destruct (nth_error cmat r'); [|reflexivity].
        rewrite Hcells. destruct (fpos_unravel ns r' Hr2) as [Er Rr].
        rewrite mesh_sels_lines by auto.
        destruct (locate _ _) as [j|] eqn:El; [|reflexivity]. exfalso.
        apply locate_lines in El; auto. cbn [step_of] in El. rewrite map_id in El.
        destruct (on_mesh_unique _ _ _ _ _ _ _ Hk Rr Hon El) as [_ Ek].
        rewrite <- Ek in Er. lia.
  Qed.

  (** Every point of the refined array is the sub-point of exactly one cell. *)
  Theorem C31_every_point cmat (q : nda F) n b cells nn out :
    wf q -> shape q = cells ++ [nn] -> dims_ok (length cells) b -> 2 <= n ->
    length cmat = prod (refine (length cells) n b) ->
    (forall row, In row cmat -> length row = nn) ->
    interp_on_mesh fo dot cmat q n b false = Ok out ->
    forall x, in_range (shape out) x ->
      exists i k, in_range cells i /\ in_range (refine (length cells) n b) k /\
        x = sub_index (refine (length cells) n b) i k /\
        forall i' k', in_range cells i' -> in_range (refine (length cells) n b) k' ->
          x = sub_index (refine (length cells) n b) i' k' -> i' = i /\ k' = k.
  Proof.
    intros W S D Hn Hl Hrows E x Hx.
    destruct (C31_value cmat q n b cells nn W S D Hn Hl Hrows) as (o & Eo & _ & So & _).
    rewrite Eo in E. injection E as <-. rewrite So in Hx.
    set (ns := refine (length cells) n b) in *.
    assert (Lns : length cells = length ns) by (symmetry; apply refine_length).
    destruct (sub_index_onto cells ns x Lns) as (i & k & Hi & Hk & ->); auto.
    { eapply Forall_impl; [|apply refine_ge2; exact Hn]. simpl; intros; lia. }
    exists i, k. split; [exact Hi|]. split; [exact Hk|]. split; [reflexivity|].
    intros i' k' Hi' Hk' Ex.
    pose proof (on_mesh_sub_index cells ns i k Hi Hk Lns) as H1.
    pose proof (on_mesh_sub_index cells ns i' k' Hi' Hk' Lns) as H2.
    rewrite <- Ex in H2. destruct (on_mesh_unique _ _ _ _ _ _ _ Hk Hk' H1 H2) as [-> ->]. auto.
  Qed.

  (** The values inside a cell depend on the coefficients of that cell only. *)
  Theorem C31_local cmat (q q' : nda F) n b cells nn out out' i :
    wf q -> wf q' -> shape q = cells ++ [nn] -> shape q' = cells ++ [nn] ->
    dims_ok (length cells) b -> 2 <= n ->
    length cmat = prod (refine (length cells) n b) ->
    (forall row, In row cmat -> length row = nn) ->
    interp_on_mesh fo dot cmat q n b false = Ok out ->
    interp_on_mesh fo dot cmat q' n b false = Ok out' ->
    in_range cells i ->
    (forall m, m < nn -> get q (i ++ [m]) = get q' (i ++ [m])) ->
    forall k, in_range (refine (length cells) n b) k ->
      get out (sub_index (refine (length cells) n b) i k)
      = get out' (sub_index (refine (length cells) n b) i k).
  Proof.
    intros W W' S S' D Hn Hl Hrows E E' Hi Heq k Hk.
    destruct (C31_value cmat q n b cells nn W S D Hn Hl Hrows) as (o & Eo & _ & _ & V).
    rewrite Eo in E. injection E as <-.
    destruct (C31_value cmat q' n b cells nn W' S' D Hn Hl Hrows) as (o' & Eo' & _ & _ & V').
    rewrite Eo' in E'. injection E' as <-.
    destruct (V i k Hi Hk) as (row & u & R & Lu & U & ->).
    destruct (V' i k Hi Hk) as (row' & u' & R' & Lu' & U' & ->).
    rewrite R in R'. injection R' as <-. do 2 f_equal.
    apply nth_error_ext. intros m.
    destruct (Nat.lt_ge_cases m nn) as [Hm|Hm].
    - rewrite U, U', Heq by auto. reflexivity.
    - transitivity (@None F); [|symmetry]; apply nth_error_None; lia.
  Qed.

  (** One point per cell is not supported: the loop always runs over at least
      two points per direction, one more than the matrix has. *)
  Theorem C31_one_point_fails cmat (q : nda F) b cells nn :
    wf q -> shape q = cells ++ [nn] -> 1 <= length cells ->
    b <> "gkhybrid" -> b <> "hybrid" ->
    length cmat = 1 -> (forall row, In row cmat -> length row = nn) ->
    interp_on_mesh fo dot cmat q 1 b false = Err IndexError.
  Proof.
    intros W S D B1 B2 Hl Hrows. unfold interp_on_mesh, mesh_counts, bind.
    apply String.eqb_neq in B1, B2. rewrite B1, B2.
    assert (Hcells : removelast (shape q) = cells) by (rewrite S; apply removelast_snoc).
    rewrite Hcells. destruct (Nat.eqb_spec (length cells) 0); [lia|].
    apply mesh_short.
    - rewrite Hcells, repeat_length. reflexivity.
    - apply repeat_Forall. simpl. lia.
    - apply wf_tabulate.
    - rewrite Hcells. reflexivity.
    - intros row Hr. rewrite S, last_snoc. auto.
    - rewrite Hl. destruct (length cells); [lia|]. cbn [repeat]. unfold prod. cbn [fold_right].
      assert (0 < fold_right Nat.mul 1 (repeat (Nat.max 1 2) n0)).
      { induction n0; simpl in *; lia. }
      simpl Nat.max in *. lia.
  Qed.
End C31.

(** A 2 x 1 mesh of 3 coefficients, 2 points per direction. *)
Definition qdot (r u : list Q) : Q := fold_right Qplus 0%Q (map2 Qmult r u).
Definition q0ops : fops Q := qops (fun _ _ => 0%Q).
Definition ex_q : nda Q := mk_nda [2; 1; 3] (List.map inject_Z [1; 2; 3; 10; 20; 30])%Z.
Definition ex_m : list (list Q) :=
  List.map (List.map inject_Z) [[1; 0; 0]; [0; 1; 0]; [0; 0; 1]; [1; 1; 1]]%Z.
Example C31_example :
  wf ex_q /\ shape ex_q = [2; 1] ++ [3] /\ dims_ok 2 "serendipity" /\
  length ex_m = prod (refine 2 2 "serendipity") /\ (forall row, In row ex_m -> length row = 3) /\
  interp_on_mesh q0ops qdot ex_m ex_q 2 "serendipity" false
  = Ok (mk_nda [4; 2] (List.map inject_Z [1; 3; 2; 6; 10; 30; 20; 60]%Z)).
Proof.
  split; [reflexivity|]. split; [reflexivity|]. split; [split; [lia|discriminate]|].
  split; [reflexivity|]. split; [|vm_compute; reflexivity].
  intros row H. repeat (destruct H as [<-|H]; [reflexivity|]). destruct H.
Qed.
Example C31_example_hybrid :
  refine 2 2 "gkhybrid" = [2; 3] /\ refine 5 2 "gkhybrid" = [2; 2; 2; 3; 2] /\ refine 3 4 "hybrid" = [4; 4; 5].
Proof. repeat split. Qed.
Example C31_example_one :
  interp_on_mesh q0ops qdot (List.map (List.map inject_Z) [[1; 0; 0]%Z]) ex_q 1 "serendipity" false = Err IndexError.
Proof. vm_compute. reflexivity. Qed.

Print Assumptions C31_value.
Print Assumptions C31_every_point.
Print Assumptions C31_local.
Print Assumptions C31_one_point_fails.
