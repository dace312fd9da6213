(** * C32, and the interpolated fields of modal data as a whole. *)
From Coq Require Import String Ascii List Arith ZArith QArith Qfield Bool Lia.
From Verif Require Import Prelude PreludeFacts NdArray Gkyl_Model Gkyl_Proofs3
  Dg_Poly Dg_TabI Dg_TabD Dg_Model Dg_Spec Dg_Proofs Dg_Proofs2 Dg_Props Dg_Props2.
Import ListNotations.
Open Scope string_scope.
Open Scope list_scope.
Open Scope nat_scope.

(** ** One axis *)

Lemma last_nth_error {A} (l : list A) d : l <> [] -> nth_error l (length l - 1) = Some (last l d).
Proof.
  intros H. destruct (exists_last H) as (l' & a & ->). rewrite last_last, app_length. cbn.
  rewrite nth_error_app2 by lia. replace (length l' + 1 - 1 - length l') with 0 by lia. reflexivity.
Qed.

Lemma of_nat_nonzero n : 0 < n -> ~ (inject_Z (Z.of_nat n) == 0)%Q.
Proof. intros H E. unfold Qeq in E. cbn in E. lia. Qed.

(** A uniform axis is refined to a uniform axis containing every original node. *)
Theorem C32_uniform (n : nat) (xc : list Q) :
  0 < n -> 2 <= length xc -> equispaced xc ->
  exists g, make_mesh q0ops n xc None = Ok g /\
    make_mesh q0ops n xc (Some "uniform") = Ok g /\ splits n xc g /\ equispaced g.
Proof.
  intros Hn Hl (x0 & h & Hu). destruct xc as [|a0 xc0] eqn:Exc; [cbn in Hl; lia|]. rewrite <- Exc in *.
  set (nx := length xc - 1). set (b0 := last xc 0%Q).
  exists (linspace q0ops a0 b0 (n * nx)).
  assert (Hm : make_mesh q0ops n xc None = Ok (linspace q0ops a0 b0 (n * nx)))
    by (unfold nx, b0; rewrite Exc; reflexivity).
  assert (Hm' : make_mesh q0ops n xc (Some "uniform") = Ok (linspace q0ops a0 b0 (n * nx)))
    by (unfold nx, b0; rewrite Exc; reflexivity).
  split; [exact Hm|]. split; [exact Hm'|].
  assert (Hb : nth_error xc nx = Some b0) by (apply last_nth_error; rewrite Exc; discriminate).
  assert (Ha : nth_error xc 0 = Some a0) by (rewrite Exc; reflexivity).
  pose proof (Hu _ _ Ha) as Ea. pose proof (Hu _ _ Hb) as Eb.
  assert (Hnx : 0 < nx) by (unfold nx; lia).
  assert (Hpos : 0 < n * nx) by nia.
  split.
  - split; [rewrite linspace_length; unfold nx; lia|].
    intros i j Hi Hj.
    destruct (nth_error xc i) as [a|] eqn:Ei; [|apply nth_error_None in Ei; lia].
    destruct (nth_error xc (S i)) as [b|] eqn:Ei'; [|apply nth_error_None in Ei'; lia].
    destruct (linspace_q (fun _ _ => 0%Q) a0 b0 (n * nx) (i * n + j) Hpos) as (y & Ey & Vy).
    { unfold nx. nia. }
    exists a, b, y. split; [reflexivity|]. split; [reflexivity|]. split; [exact Ey|].
    pose proof (Hu _ _ Ei) as Va. pose proof (Hu _ _ Ei') as Vb.
    rewrite Vy, Ea, Eb, Va, Vb.
    rewrite Nat2Z.inj_succ, <- Z.add_1_r, inject_Z_plus.
    rewrite Nat2Z.inj_add, inject_Z_plus, !Nat2Z.inj_mul, !inject_Z_mult.
    change (Z.of_nat 0) with 0%Z. change (inject_Z 0) with 0%Q. change (inject_Z 1) with 1%Q.
    field. split; apply of_nat_nonzero; auto.
  - exists a0, ((b0 - a0) / inject_Z (Z.of_nat (n * nx)))%Q. intros i x Hi.
    destruct (Nat.le_gt_cases i (n * nx)) as [L|L].
    + destruct (linspace_q (fun _ _ => 0%Q) a0 b0 (n * nx) i Hpos L) as (y & Ey & Vy).
      change (qops (fun _ _ => 0%Q)) with q0ops in Ey. congruence.
    + assert (nth_error (linspace q0ops a0 b0 (n * nx)) i = None).
      { apply nth_error_None. rewrite linspace_length. lia. }
      congruence.
Qed.

(** A mapped axis: every cell, whatever its width, is split in equal parts. *)
Theorem C32_mapped (n : nat) (xc : list Q) :
  0 < n -> 2 <= length xc ->
  exists g, make_mesh q0ops n xc (Some "mapped") = Ok g /\ splits n xc g.
Proof.
  intros Hn Hl. destruct xc as [|a0 xc0] eqn:Exc; [cbn in Hl; lia|]. rewrite <- Exc in *.
  set (nx := length xc - 1). destruct nx as [|m] eqn:Enx; [unfold nx in Enx; lia|].
  set (at_ := fun i => nth i xc 0%Q).
  set (cell := fun i => List.map (fun j => (at_ i + inject_Z (Z.of_nat j) *
                 ((at_ (S i) - at_ i) / inject_Z (Z.of_nat n)))%Q) (seq 0 n)).
  exists (flat_map cell (seq 0 (S m)) ++
     [(at_ m + inject_Z (Z.of_nat n) * ((at_ (S m) - at_ m) / inject_Z (Z.of_nat n)))%Q]).
  split.
  { unfold make_mesh. rewrite Exc at 1. fold nx. rewrite Enx. reflexivity. }
  assert (Lc : forall i, length (cell i) = n) by (intros; unfold cell; rewrite map_length, seq_length; reflexivity).
  assert (Lf : length (flat_map cell (seq 0 (S m))) = S m * n).
  { rewrite flat_map_length with (m := n); [rewrite seq_length; reflexivity|]. intros; apply Lc. }
  split.
  { rewrite app_length, Lf. cbn [length]. unfold nx in Enx. rewrite Enx. lia. }
  intros i j Hi Hj.
  destruct (nth_error xc i) as [a|] eqn:Ei; [|apply nth_error_None in Ei; lia].
  destruct (nth_error xc (S i)) as [b|] eqn:Ei'; [|apply nth_error_None in Ei'; lia].
  assert (Ai : at_ i = a) by (unfold at_; apply nth_error_nth; auto).
  assert (Ab : at_ (S i) = b) by (unfold at_; apply nth_error_nth; auto).
  assert (Nth : forall i j a b, at_ i = a -> at_ (S i) = b -> i < S m -> j < n ->
    nth_error (flat_map cell (seq 0 (S m)) ++
       [(at_ m + inject_Z (Z.of_nat n) * ((at_ (S m) - at_ m) / inject_Z (Z.of_nat n)))%Q]) (i * n + j)
    = Some (a + inject_Z (Z.of_nat j) * ((b - a) / inject_Z (Z.of_nat n)))%Q).
  { clear i j a b Hi Hj Ei Ei' Ai Ab. intros i j a b <- <- Hi Hj.
    rewrite nth_error_app1 by (rewrite Lf; nia).
    rewrite nth_error_flat_map with (a := i) (m := n); auto.
    - unfold cell. rewrite nth_error_map, nth_error_seq. destruct (Nat.ltb_spec j n); [reflexivity|lia].
    - rewrite nth_error_seq. destruct (Nat.ltb_spec i (S m)); [reflexivity|lia]. }
  unfold nx in Enx.
  destruct (Nat.eq_dec j n) as [->|Nj].
  - destruct (Nat.eq_dec i m) as [->|Ni].
    + eexists a, b, _. split; [reflexivity|]. split; [reflexivity|]. split.
      * rewrite nth_error_app2 by (rewrite Lf; lia). rewrite Lf.
        replace (m * n + n - S m * n) with 0 by lia. reflexivity.
      * rewrite Ai, Ab. field. apply of_nat_nonzero; auto.
    + destruct (nth_error xc (S (S i))) as [c|] eqn:Ei''; [|apply nth_error_None in Ei''; lia].
      assert (Ac : at_ (S (S i)) = c) by (unfold at_; apply nth_error_nth; auto).
      eexists a, b, _. split; [reflexivity|]. split; [reflexivity|]. split.
      * replace (i * n + n) with (S i * n + 0) by lia. apply Nth with (a := b) (b := c); auto; lia.
      * change (inject_Z (Z.of_nat 0)) with 0%Q. field. apply of_nat_nonzero; auto.
  - eexists a, b, _. split; [reflexivity|]. split; [reflexivity|]. split.
    + apply Nth with (a := a) (b := b); auto; lia.
    + field. apply of_nat_nonzero; auto.
Qed.

(** ** Matrices *)

Lemma point_counts_refine nd n b :
  dims_ok nd b -> (b = "hybrid" -> 2 <= nd) -> point_counts nd b n = refine nd n b.
Proof.
  intros [H1 H2] H3. unfold point_counts, refine. apply map_ext_in. intros d Hd. apply in_seq in Hd.
  unfold points_in, extra_dir.
  destruct (String.eqb_spec b "gkhybrid") as [->|NE].
  - destruct (H2 eq_refl) as [A B].
    assert (nd = 2 \/ nd = 3 \/ nd = 4 \/ nd = 5) as [-> | [-> | [-> | ->]]] by lia; cbn [Nat.eqb orb andb];
    rewrite ?orb_false_r, ?orb_false_l; reflexivity.
  - destruct (String.eqb_spec b "hybrid") as [->|NH].
    + specialize (H3 eq_refl). destruct (Nat.eqb_spec nd 1); [lia|]. reflexivity.
    + destruct (Nat.eqb nd 1); reflexivity.
Qed.

Section Values.
  Context {F : Type} (fo : fops F) (dot : list F -> list F -> F) (ev : pexp -> list F -> F).

  Lemma rows_of_spec c2p ns fs :
    length (rows_of fo ev c2p ns fs) = prod ns /\
    (forall row, In row (rows_of fo ev c2p ns fs) -> length row = length fs) /\
    forall k, in_range ns k ->
      nth_error (rows_of fo ev c2p ns fs) (fpos ns k)
      = Some (List.map (fun f => ev f (map2 (interp_point fo c2p) ns k)) fs).
  Proof.
    unfold rows_of. split; [rewrite map_length, seq_length; reflexivity|]. split.
    - intros row H. apply in_map_iff in H. destruct H as (r & <- & _). apply map_length.
    - intros k Hk. rewrite nth_error_map, nth_error_seq. pose proof (fpos_lt ns k Hk).
      destruct (Nat.ltb_spec (fpos ns k) (prod ns)); [|lia]. cbn [option_map Nat.add].
      rewrite unravel_fpos by auto. reflexivity.
  Qed.

  (** The fields of modal data after interpolation: at sub-point [k] of cell
      [i], field [j] of the result is the inner product of the basis functions
      at the [k]-th interpolation point with the coefficient block of that field
      in that cell. *)
  Theorem C36_interpolated_fields (d : dgdata) (g : ginterp) comps cells nc fs :
    wf (dd_values d) -> shape (dd_values d) = cells ++ [nc] ->
    gi_dims g = length cells -> dims_ok (length cells) (gi_basis g) ->
    (gi_basis g = "hybrid" -> 2 <= length cells) ->
    interp_functions (gi_dims g) (gi_poly g) true (gi_basis g) = Ok fs ->
    gi_nodes g = length fs -> 2 <= gi_interp g ->
    comps <> [] -> (forall c, In c comps -> c * length fs + length fs <= nc) ->
    let ns := refine (length cells) (gi_interp g) (gi_basis g) in
    exists v, modal_values fo dot ev d g comps = Ok v /\ wf v /\
      shape v = refined_shape cells ns ++ [length comps] /\
      forall j c i k, nth_error comps j = Some c -> in_range cells i -> in_range ns k ->
        exists u, length u = length fs /\
          (forall m, m < length fs -> nth_error u m = get (dd_values d) (i ++ [c * length fs + m])) /\
          get v (sub_index ns i k ++ [j])
          = Some (dot (List.map (fun f => ev f (map2 (interp_point fo false) ns k)) fs) u).
  Proof.
    intros W S Gd D Hh Hfs Gn Hn Hc Hcs ns.
    unfold modal_values, create_interp_matrix. cbn [andb].
    rewrite Hfs. cbn [bind]. rewrite Gd, (point_counts_refine _ _ _ D Hh). fold ns.
    destruct (rows_of_spec false ns fs) as (Rl & Rr & Rn).
    set (cmat := rows_of fo ev false ns fs) in *.
    assert (Hfield : forall c, In c comps -> exists o,
      interp_on_mesh fo dot cmat (raw_modal (dd_values d) (gi_nodes g) c) (gi_interp g) (gi_basis g) false = Ok o
      /\ wf o /\ shape o = refined_shape cells ns /\
      forall i k, in_range cells i -> in_range ns k ->
        exists u, length u = length fs /\
          (forall m, m < length fs -> nth_error u m = get (dd_values d) (i ++ [c * length fs + m])) /\
          get o (sub_index ns i k)
          = Some (dot (List.map (fun f => ev f (map2 (interp_point fo false) ns k)) fs) u)).
    { intros c Ic. rewrite Gn.
      destruct (C33_modal (dd_values d) cells nc (length fs) c W S (Hcs c Ic)) as (Wr & Sr & Vr).
      destruct (C31_value fo dot cmat _ (gi_interp g) (gi_basis g) cells (length fs) Wr Sr D Hn Rl Rr)
        as (o & Eo & Wo & So & Vo).
      exists o. split; [exact Eo|]. split; [exact Wo|]. split; [exact So|].
      intros i k Hi Hk. destruct (Vo i k Hi Hk) as (row & u & Erow & Lu & Vu & Go).
      fold ns in Erow, Go. rewrite Rn in Erow by auto. injection Erow as <-.
      exists u. split; [exact Lu|]. split; [|exact Go].
      intros m Hm. rewrite Vu by auto. apply Vr; auto. }
    set (field := fun c => interp_on_mesh fo dot cmat (raw_modal (dd_values d) (gi_nodes g) c)
                             (gi_interp g) (gi_basis g) false) in *.
    set (val := fun c => match field c with Ok o => o | Err _ => mk_nda [] [] end).
    destruct (stack_fields_ok fo field val comps (refined_shape cells ns)) as (v & Ev & Wv & Sv & Vv); auto.
    { intros c Ic. destruct (Hfield c Ic) as (o & Eo & Wo & So & _).
      unfold val, field. rewrite Eo. auto. }
    exists v. split; [exact Ev|]. split; [exact Wv|]. split; [exact Sv|].
    intros j c i k Hj Hi Hk.
    destruct (Hfield c (nth_error_In _ _ Hj)) as (o & Eo & _ & So & Vo).
    destruct (Vo i k Hi Hk) as (u & Lu & Vu & Go).
    exists u. split; [exact Lu|]. split; [exact Vu|].
    rewrite (Vv j c); auto.
    - unfold val, field. rewrite Eo. exact Go.
    - apply sub_index_in_range; auto. unfold ns. rewrite refine_length. reflexivity.
  Qed.
End Values.

Lemma prod_repeat n m : prod (repeat n m) = n ^ m.
Proof. unfold prod. induction m; cbn [repeat fold_right Nat.pow]; lia. Qed.

Lemma refine_plain nd n b : b <> "gkhybrid" -> b <> "hybrid" -> refine nd n b = repeat n nd.
Proof.
  intros H1 H2. unfold refine, extra_dir. apply String.eqb_neq in H1, H2. rewrite H1, H2.
  generalize 0. induction nd; intros s; cbn; [reflexivity|]. f_equal. apply IHnd.
Qed.

Lemma grid_counts_refine root g :
  dims_ok (gi_dims g) (gi_basis g) -> 2 <= gi_interp g ->
  (forall m, root (gi_dims g) (m ^ gi_dims g) = m) ->
  grid_counts root g (prod (refine (gi_dims g) (gi_interp g) (gi_basis g)))
  = Ok (refine (gi_dims g) (gi_interp g) (gi_basis g)).
Proof.
  intros D Hn Hroot.
  pose proof (mesh_counts_refine _ _ _ D Hn) as M. unfold mesh_counts in M. rewrite Nat.max_l in M by lia.
  unfold grid_counts. destruct (String.eqb_spec (gi_basis g) "gkhybrid") as [E|N1].
  - rewrite E in *. cbn [bind] in M.
    destruct (vpardir (gi_dims g) <? gi_dims g); cbn [bind] in M; [|discriminate].
    exact M.
  - cbn [bind] in M. destruct (String.eqb_spec (gi_basis g) "hybrid") as [E|N2].
    + destruct (gi_dims g); [discriminate|]. exact M.
    + rewrite (refine_plain _ _ _ N1 N2), prod_repeat, Hroot. reflexivity.
Qed.

(** The grid returned with the interpolated values: along each axis it splits
    every original cell in as many parts as there are values, so it has one
    more node than there are values. *)
Theorem C32_interpolate dot ev root (d : dgdata) (g : ginterp) comps cells nc fs :
  wf (dd_values d) -> shape (dd_values d) = cells ++ [nc] -> Forall (fun c => 0 < c) cells ->
  gi_dims g = length cells -> dims_ok (length cells) (gi_basis g) ->
  (gi_basis g = "hybrid" -> 2 <= length cells) ->
  interp_functions (gi_dims g) (gi_poly g) true (gi_basis g) = Ok fs ->
  gi_nodes g = length fs -> 2 <= gi_interp g ->
  comps <> [] -> (forall c, In c comps -> c * length fs + length fs <= nc) ->
  (forall m, root (length cells) (m ^ length cells) = m) ->
  dd_grid_type d <> "c2p" -> dd_grid_type d <> "c2p_vel" ->
  length (dd_grid d) = length cells ->
  (forall a xc, nth_error (dd_grid d) a = Some xc ->
     length (flat xc) = S (nth a cells 0) /\ equispaced (flat xc)) ->
  exists gr v, modal_interpolate q0ops dot ev root d g comps = Ok (gr, v) /\
    length gr = length cells /\ length (shape v) = S (length cells) /\
    forall a xc, nth_error (dd_grid d) a = Some xc ->
      exists line n, nth_error gr a = Some (line_nda line) /\
        nth_error (shape v) a = Some (n * nth a cells 0) /\
        splits n (flat xc) line /\ length line = S (n * nth a cells 0).
Proof.
  intros W S P Gd D Hh Hfs Gn Hn Hc Hcs Hroot T1 T2 Lg Hgrid.
  destruct (C36_interpolated_fields q0ops dot ev d g comps cells nc fs W S Gd D Hh Hfs Gn Hn Hc Hcs)
    as (v & Ev & Wv & Sv & _).
  set (ns := refine (length cells) (gi_interp g) (gi_basis g)) in *.
  assert (Lns : length ns = length cells) by apply refine_length.
  assert (Pns : Forall (fun n => 2 <= n) ns) by (apply refine_ge2; auto).
  unfold modal_interpolate. rewrite Ev. cbn [bind].
  unfold modal_grid. apply String.eqb_neq in T1, T2. rewrite T1.
  unfold create_interp_matrix. cbn [andb]. rewrite Hfs. cbn [bind]. rewrite Gd in *.
  rewrite (point_counts_refine _ _ _ D Hh). fold ns.
  destruct (rows_of_spec q0ops ev false ns fs) as (Rl & _ & _). rewrite Rl.
  pose proof (grid_counts_refine root g) as GC. rewrite Gd in GC. fold ns in GC.
  rewrite (GC D Hn Hroot). cbn [bind]. rewrite T2.
  (* the axes *)
  set (mesh := fun a => match nth_error ns a, nth_error (dd_grid d) a with
                        | Some n, Some x => match make_mesh q0ops n (flat x) None with Ok l => l | Err _ => [] end
                        | _, _ => [] end).
  assert (Ax : forall a, a < length cells ->
      exists n x l, nth_error ns a = Some n /\ nth_error (dd_grid d) a = Some x /\
        make_mesh q0ops n (flat x) None = Ok l /\ mesh a = l /\ splits n (flat x) l /\
        length l = Datatypes.S (n * nth a cells 0)).
  { intros a Ha.
    destruct (nth_error ns a) as [n|] eqn:En; [|apply nth_error_None in En; lia].
    destruct (nth_error (dd_grid d) a) as [x|] eqn:Ex; [|apply nth_error_None in Ex; lia].
    destruct (Hgrid a x Ex) as [Lx Ux].
    assert (Hn2 : 2 <= n) by (eapply (proj1 (Forall_forall _ _) Pns), nth_error_In; eauto).
    assert (Hca : 0 < nth a cells 0).
    { destruct (nth_error cells a) as [c|] eqn:Ec; [|apply nth_error_None in Ec; lia].
      rewrite (nth_error_nth _ _ _ Ec). eapply (proj1 (Forall_forall _ _) P), nth_error_In; eauto. }
    destruct (C32_uniform n (flat x)) as (l & El & _ & Sl & _); [lia|lia|auto|].
    exists n, x, l. split; [auto|]. split; [auto|]. split; [auto|].
    split; [unfold mesh; rewrite En, Ex, El; reflexivity|]. split; [auto|].
    destruct Sl as [Ll _]. rewrite Ll, Lx. lia. }
  unfold make_1d_grids.
  rewrite (mapM_ok_all _ mesh).
  2:{ intros a Ha. apply in_seq in Ha. destruct (Ax a ltac:(lia)) as (n & x & l & En & Ex & El & Em & _).
      rewrite En, Ex, El, Em. reflexivity. }
  cbn [bind]. eexists _, v. split; [reflexivity|].
  split; [rewrite !map_length, seq_length; reflexivity|].
  assert (Lr : length (refined_shape cells ns) = length cells).
  { unfold refined_shape. rewrite map_length, combine_length. lia. }
  split; [rewrite Sv, app_length, Lr; cbn; lia|].
  intros a xc Hxc.
  assert (Ha : a < length cells) by (rewrite <- Lg; apply nth_error_Some; congruence).
  destruct (Ax a Ha) as (n & x & l & En & Ex & El & Em & Sl & Ll).
  rewrite Ex in Hxc. injection Hxc as <-.
  exists l, n. split; [|split; [|split; auto]].
  - rewrite !nth_error_map, nth_error_seq. destruct (Nat.ltb_spec a (length cells)); [|lia].
    cbn [option_map Nat.add]. rewrite Em. reflexivity.
  - rewrite Sv, nth_error_app1 by (rewrite Lr; auto). unfold refined_shape. rewrite nth_error_map.
    destruct (nth_error cells a) as [c|] eqn:Ec; [|apply nth_error_None in Ec; lia].
    assert (Hcomb : forall (x : list nat) (y : list nat) k p q, nth_error x k = Some p ->
        nth_error y k = Some q -> nth_error (combine x y) k = Some (p, q)).
    { clear. induction x; intros [|? y] [|k] p q; simpl; try discriminate; [congruence|apply IHx]. }
    rewrite (Hcomb _ _ _ _ _ Ec En). cbn. rewrite (nth_error_nth _ _ _ Ec). f_equal. lia.
Qed.

(** Non-uniform axes are refined as if they were uniform: interior nodes are lost. *)
Theorem C32_nonuniform_refuted :
  exists (xc g : list Q) (n : nat), 0 < n /\ 2 <= length xc /\
    make_mesh q0ops n xc None = Ok g /\ ~ splits n xc g.
Proof.
  exists [0; 1; 4]%Q, [0 # 2; 4 # 2; 4]%Q, 1. split; [lia|]. split; [cbn; lia|].
  split; [vm_compute; reflexivity|].
  intros [_ H]. destruct (H 0 1 ltac:(cbn; lia) ltac:(lia)) as (a & b & y & Ha & Hb & Hy & V).
  injection Ha as <-. injection Hb as <-. injection Hy as <-.
  revert V. unfold Qeq. cbn. discriminate.
Qed.

(** An exact integer root, as an instance of the rounding in the code. *)
Fixpoint root_search (d N fuel : nat) : nat :=
  match fuel with
  | O => 0
  | S f => if (S f) ^ d <=? N then S f else root_search d N f
  end.
Definition iroot (d N : nat) : nat := root_search d N N.

Lemma iroot_pow d m : 0 < d -> iroot d (m ^ d) = m.
Proof.
  intros Hd. unfold iroot.
  assert (G : forall f, m <= f -> root_search d (m ^ d) f = m).
  { induction f as [|f IH]; intros Hf; cbn [root_search]; [lia|].
    destruct (Nat.leb_spec (S f ^ d) (m ^ d)) as [L|L].
    - destruct (Nat.eq_dec m (S f)) as [|N]; [auto|].
      assert (m ^ d < S f ^ d) by (apply Nat.pow_lt_mono_l; lia). lia.
    - apply IH. assert (m <> S f) by (intros ->; lia). lia. }
  apply G. destruct d as [|d]; [lia|]. cbn [Nat.pow]. destruct m as [|m]; [lia|].
  assert (S m ^ d <> 0) by (apply Nat.pow_nonzero; lia). nia.
Qed.

Definition ex_ev (f : pexp) (x : list Q) : Q := match f with Nu m _ => inject_Z m | _ => 0%Q end.
Definition ex_d : dgdata :=
  mk_dgdata (mk_nda [2; 4] (List.map inject_Z [1; 2; 3; 4; 10; 20; 30; 40]%Z))
            [mk_nda [3] [0; 1; 2]%Q] "uniform" (Some "serendipity") (Some 1) 0 0.
Example C32_example :
  modal_init ex_d None None None = Ok (mk_ginterp 1 1 "serendipity" 2 2) /\
  (forall m, iroot 1 (m ^ 1) = m) /\
  match modal_interpolate q0ops qdot ex_ev iroot ex_d (mk_ginterp 1 1 "serendipity" 2 2) [0; 1] with
  | Ok (gr, v) => List.map (@shape Q) gr = [[5]] /\ shape v = [4; 2]
  | Err _ => False
  end.
Proof.
  split; [reflexivity|]. split; [intros m; apply iroot_pow; lia|]. vm_compute. split; reflexivity.
Qed.
Example C32_example_mapped :
  exists g, make_mesh q0ops 2 [0; 1; 4]%Q (Some "mapped") = Ok g /\ length g = 5 /\ splits 2 [0; 1; 4]%Q g.
Proof.
  destruct (C32_mapped 2 [0; 1; 4]%Q) as (g & E & S); [lia|cbn; lia|].
  exists g. split; [exact E|]. split; [apply S|exact S].
Qed.

(** Data of order zero has one interpolation point per cell by default and
    cannot be interpolated. *)
Theorem C31_order_zero_refuted :
  exists (d : dgdata) (g : ginterp),
    modal_init d (Some 0) (Some "ms") None = Ok g /\ gi_interp g = 1 /\
    modal_values q0ops qdot ex_ev d g [0] = Err IndexError.
Proof.
  exists (mk_dgdata (mk_nda [2; 1] [1; 2]%Q) [mk_nda [3] [0; 1; 2]%Q] "uniform" None None 0 0).
  eexists. split; [reflexivity|]. split; [reflexivity|]. vm_compute. reflexivity.
Qed.

Print Assumptions C32_uniform.
Print Assumptions C32_mapped.
Print Assumptions C32_interpolate.
Print Assumptions C32_nonuniform_refuted.
Print Assumptions C36_interpolated_fields.
Print Assumptions C31_order_zero_refuted.
