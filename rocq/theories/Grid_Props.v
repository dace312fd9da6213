(** * C104: the grid command *)
From Coq Require Import String List ZArith QArith Bool Lia.
From Verif Require Import Prelude PreludeFacts NdArray GData_Model GData_Props Grid_Model.
Import ListNotations.
Open Scope list_scope.

(** ** Specification *)

(** Node [i] of a coordinate line. *)
Definition line (a : garr) (xs : list Q) : Prop := a = mk_nda [length xs] xs.

(** A dataset with [cells] whose grid holds the cell edges, one line per dimension. *)
Definition edges (d : gdata Q) (cells : list nat) (xs : list (list Q)) : Prop :=
  get_num_cells d = Some cells /\ cells <> [] /\ exists gs, g_grid d = Some gs /\ Forall2 line gs xs /\ List.map (@length Q) xs = List.map S cells.

(** The same for cell centres. *)
Definition centres (d : gdata Q) (cells : list nat) : Prop :=
  get_num_cells d = Some cells /\ cells <> [] /\ exists gs xs, g_grid d = Some gs /\ Forall2 line gs xs /\ List.map (@length Q) xs = cells.

(** A mapped grid: every coordinate is given at every node. *)
Definition mapped (d : gdata Q) (cells : list nat) (gs : list garr) : Prop :=
  get_num_cells d = Some cells /\ (2 <= length cells)%nat /\ g_grid d = Some gs /\ length gs = length cells /\
  Forall (fun a => shape a = List.map S cells /\ wf a) gs.

(** The dataset [d'] has the nodes as cells, numbered along its axes from 0, and [f] gives
    the components at a node. *)
Definition nodes (d' : gdata Q) (cells : list nat) (f : list nat -> nat -> option Q) : Prop :=
  exists g v, reports d' g v (List.map S cells) (length cells) /\ wf v /\
    g = List.map (fun c => mk_nda [(c + 2)%nat] (List.map (fun i => inject_Z (Z.of_nat i)) (seq 0 (c + 2)))) cells /\
    forall idx k, in_range (List.map S cells) idx -> (k < length cells)%nat -> get v (idx ++ [k]) = f idx k.

(** ** Lemmas *)

Lemma num_dims_cells (d : gdata Q) cells : get_num_cells d = Some cells -> get_num_dims d = length cells.
Proof.
  unfold get_num_cells, get_num_dims. destruct (c_cells d); [congruence|]. destruct (g_vals d) as [v|]; [|discriminate]. intros E. injection E as <-.
  unfold shape_init. generalize (shape v). clear. induction l as [|a [|b l] IH]; [reflexivity|reflexivity|]. cbn in *. lia.
Qed.

Lemma drop_ones_short n s : (length s <= n)%nat -> drop_ones n s = s.
Proof. destruct s as [|a s]; [reflexivity|]. intros H. cbn [drop_ones]. destruct (Nat.ltb_spec n (length (a :: s))); [lia|reflexivity]. Qed.

Lemma fits_refl s : fits s s = true.
Proof. unfold fits. rewrite Nat.eqb_refl. cbn. induction s as [|a s IH]; cbn; [reflexivity|]. now rewrite Nat.eqb_refl. Qed.

Lemma fits_not s : forall sh, (exists k a b, nth_error s k = Some a /\ nth_error sh k = Some b /\ a <> b /\ a <> 1%nat) -> fits s sh = false.
Proof.
  intros sh (k & a & b & H1 & H2 & N1 & N2). unfold fits. apply andb_false_iff. right. revert sh k H1 H2. induction s as [|x s IH]; intros [|y sh] [|k] H1 H2; cbn in H1, H2; try discriminate.
  - injection H1 as ->. injection H2 as ->. cbn. destruct (Nat.eqb_spec a b); [contradiction|]. destruct (Nat.eqb_spec a 1); [contradiction|]. reflexivity.
  - cbn. rewrite (IH _ _ H1 H2). apply andb_false_r.
Qed.

Lemma map2_same s : forall idx, in_range s idx -> map2 (fun n i => if (n =? 1)%nat then 0%nat else i) s idx = idx.
Proof.
  induction s as [|n s IH]; intros idx H; inversion H; subst; [reflexivity|]. cbn. rewrite IH by assumption. f_equal. destruct (Nat.eqb_spec n 1); [lia|reflexivity].
Qed.

Lemma assign_same (t : nda Q) : exists c, assign (shape t) t = Ok c /\ forall idx, in_range (shape t) idx -> wf t -> Some (c idx) = get t idx.
Proof.
  unfold assign. rewrite drop_ones_short by lia. rewrite Nat.sub_diag. cbn [List.repeat app]. rewrite fits_refl. eexists. split; [reflexivity|]. intros idx H W. cbn beta.
  rewrite map2_same by exact H. destruct t as [s f]. cbn [shape flat] in *. destruct (get_in (mk_nda s f) idx W H) as (v & ->). reflexivity.
Qed.

(** Arrays of the right shape fill the components. *)
Lemma fill_same sh nd (ts : list (nda Q)) : length ts = nd -> Forall (fun t => shape t = sh /\ wf t) ts ->
  exists v, fill sh nd ts = Ok v /\ shape v = sh ++ [nd] /\ wf v /\ forall idx k t, in_range sh idx -> nth_error ts k = Some t -> get v (idx ++ [k]) = get t idx.
Proof.
  intros L F. unfold fill.
  assert (M : exists cs, mapM (fun p : nat * nda Q => if (fst p <? nd)%nat then assign sh (snd p) else Err IndexError) (combine (seq 0 (length ts)) ts) = Ok cs /\
    forall k t, nth_error ts k = Some t -> exists c, nth_error cs k = Some c /\ forall idx, in_range sh idx -> Some (c idx) = get t idx).
  { assert (G : forall (l : list (nda Q)) s, (s + length l <= nd)%nat -> Forall (fun t => shape t = sh /\ wf t) l ->
      exists cs, mapM (fun p : nat * nda Q => if (fst p <? nd)%nat then assign sh (snd p) else Err IndexError) (combine (seq s (length l)) l) = Ok cs /\
      forall k t, nth_error l k = Some t -> exists c, nth_error cs k = Some c /\ forall idx, in_range sh idx -> Some (c idx) = get t idx).
    { induction l as [|t l IH]; intros s Hs Fl.
      - exists []. split; [reflexivity|]. intros [|k]; discriminate.
      - inversion Fl as [|? ? (Es & Wt) Fl']; subst. destruct (IH (S s)) as (cs & E & H); [cbn in Hs; lia|assumption|].
        cbn [length seq combine mapM fst snd]. cbn in Hs. destruct (Nat.ltb_spec s (length ts)) as [|N]; [|exfalso; revert N Hs; clear; intros; lia].
        destruct (assign_same t) as (c & Ec & Hc). rewrite Ec. cbn [bind]. rewrite E. cbn [bind]. exists (c :: cs). split; [reflexivity|].
        intros [|k] t' Ht'; cbn in Ht'.
        + injection Ht' as <-. exists c. split; [reflexivity|]. intros idx Hi. now apply Hc.
        + now apply H. }
    apply (G ts 0%nat); [cbn; lia|assumption]. }
  destruct M as (cs & E & H). rewrite E. cbn [bind]. eexists. split; [reflexivity|]. split; [reflexivity|]. split; [apply wf_tabulate|].
  intros idx k t Hi Hk. destruct (H k t Hk) as (c & Ec & Hc). rewrite get_tabulate.
  - rewrite last_last, removelast_last, Ec. auto.
  - apply Forall2_app; [exact Hi|]. constructor; [|constructor]. assert (k < length ts)%nat by (apply nth_error_Some; congruence). lia.
Qed.

Lemma nth_error_enum {A B} (f : nat * A -> B) (l : list A) k : nth_error (List.map f (combine (seq 0 (length l)) l)) k = option_map (fun a => f (k, a)) (nth_error l k).
Proof.
  assert (G : forall l s k, nth_error (List.map f (combine (seq s (length l)) l)) k = option_map (fun a => f ((s + k)%nat, a)) (nth_error l k)).
  { clear. induction l as [|a l IH]; intros s [|k]; cbn; try reflexivity.
    - now rewrite Nat.add_0_r.
    - rewrite IH. now rewrite Nat.add_succ_r. }
  now rewrite G.
Qed.

Lemma meshgrid_spec (gs : list garr) xs : Forall2 line gs xs -> length (meshgrid gs) = length xs /\
  Forall (fun t => shape t = List.map (@length Q) xs /\ wf t) (meshgrid gs) /\
  forall k x t idx, nth_error xs k = Some x -> nth_error (meshgrid gs) k = Some t -> in_range (List.map (@length Q) xs) idx -> exists i, nth_error idx k = Some i /\ get t idx = nth_error x i.
Proof.
  intros F. assert (L : List.map (fun a => length (flat a)) gs = List.map (@length Q) xs) by (induction F as [|a x gs xs H F IH]; cbn; [reflexivity|]; rewrite IH; unfold line in H; now subst a).
  unfold meshgrid. rewrite L. split; [|split].
  - rewrite map_length, combine_length, seq_length, Nat.min_id. now apply Forall2_length in F.
  - apply Forall_forall. intros t Ht. apply in_map_iff in Ht as (p & <- & _). split; [reflexivity|apply wf_tabulate].
  - intros k x t idx Hx Ht Hi. rewrite nth_error_enum in Ht. destruct (nth_error gs k) as [a|] eqn:Ea; [|discriminate]. cbn [option_map fst snd] in Ht. injection Ht as <-.
    assert (Hl : line a x). { clear - F Ea Hx. revert k Ea Hx. induction F; intros [|k] Ea Hx; cbn in Ea, Hx; try discriminate; [congruence|eauto]. }
    unfold line in Hl. subst a. rewrite get_tabulate by exact Hi. cbn [flat].
    destruct (nth_error idx k) as [i|] eqn:Ei.
    + exists i. split; [reflexivity|]. rewrite (nth_error_nth idx k 0%nat Ei). destruct (in_range_take_nth _ _ _ _ Hi Ei) as (n & Hn & Hlt). rewrite nth_error_map, Hx in Hn. injection Hn as <-.
      symmetry. now apply nth_error_nth'.
    + apply nth_error_None in Ei. apply in_range_length in Hi. rewrite map_length in Hi. assert (k < length xs)%nat by (apply nth_error_Some; congruence). lia.
Qed.

Lemma in_range_single n i : in_range [n] [i] -> (i < n)%nat.
Proof. intros H. inversion H; subst. assumption. Qed.

(** The values of the command for lines. *)
Lemma lines_values (d : gdata Q) cells gs xs : get_num_cells d = Some cells -> cells <> [] -> g_grid d = Some gs -> Forall2 line gs xs -> length xs = length cells ->
  grid_values d = let* v := (if (length cells =? 1)%nat then fill (List.map S cells) (length cells) gs else fill (List.map S cells) (length cells) (meshgrid gs)) in Ok (List.map (fun nc => arange (nc + 2)) cells, v).
Proof.
  intros Hc Hn Hg F L. unfold grid_values. rewrite Hc, Hg, (num_dims_cells _ _ Hc). destruct cells as [|c cells]; [contradiction|]. destruct F as [|g0 x gs xs Hl F]; [discriminate|].
  destruct (Nat.eqb_spec (length (c :: cells)) 1) as [E|E].
  - destruct cells; [|cbn in E; lia]. destruct F; [|cbn in L; lia]. reflexivity.
  - unfold line in Hl. subst g0. cbn [shape length Nat.eqb]. reflexivity.
Qed.

(** [push] of the result. *)
Lemma grid_cmd_push tagged (d : gdata Q) cells v : grid_values d = Ok (List.map (fun nc => arange (nc + 2)) cells, v) -> shape v = List.map S cells ++ [length cells] ->
  exists d', grid_cmd tagged d = Ok d' /\ reports d' (List.map (fun nc => arange (nc + 2)) cells) v (List.map S cells) (length cells).
Proof.
  intros E Hs. unfold grid_cmd. rewrite E. cbn [bind]. set (out := if tagged then _ else d).
  destruct (push_reports out (List.map (fun nc => arange (nc + 2)) cells) v (List.map S cells) (length cells) Hs) as (N & R).
  - now rewrite !map_length.
  - apply Forall_forall. intros a Ha. apply In_nth_error in Ha as (k & Ha). rewrite nth_error_firstn in Ha. destruct (k <? _)%nat; [|discriminate]. rewrite nth_error_map in Ha.
    destruct (nth_error cells k) as [c|]; [|discriminate]. injection Ha as <-. cbn [arange flat]. intros Hb. apply (f_equal (@length Q)) in Hb. rewrite map_length, seq_length in Hb. cbn in Hb. lia.
  - destruct (push out _ v) as (d', e). cbn [fst snd] in *. subst e. exists d'. split; [reflexivity|exact R].
Qed.

(** ** Theorems *)

(** Cell edges: the component [k] at a node is its [k]-th coordinate. *)
Theorem C104_edges tagged d cells xs : edges d cells xs -> exists d', grid_cmd tagged d = Ok d' /\
  nodes d' cells (fun idx k => match nth_error xs k, nth_error idx k with Some x, Some i => nth_error x i | _, _ => None end).
Proof.
  intros (Hc & Hn & gs & Hg & F & L). assert (Lx : length xs = length cells) by (rewrite <- (map_length (@length Q) xs), L; apply map_length).
  pose proof (lines_values _ _ _ _ Hc Hn Hg F Lx) as E.
  assert (V : exists v, (if (length cells =? 1)%nat then fill (List.map S cells) (length cells) gs else fill (List.map S cells) (length cells) (meshgrid gs)) = Ok v /\ shape v = List.map S cells ++ [length cells] /\ wf v /\
    forall idx k, in_range (List.map S cells) idx -> (k < length cells)%nat -> get v (idx ++ [k]) = match nth_error xs k, nth_error idx k with Some x, Some i => nth_error x i | _, _ => None end).
  { destruct (Nat.eqb_spec (length cells) 1) as [E1|N1].
    - destruct cells as [|c [|]]; cbn in E1; try lia. destruct xs as [|x [|]]; cbn in Lx; try lia. inversion F as [|g0 ? ? ? Hl F']; subst. inversion F'; subst. clear F F'. unfold line in Hl. subst g0.
      cbn in L. injection L as L. destruct (fill_same (List.map S [c]) 1 [mk_nda [length x] x] eq_refl) as (v & Ev & Hs & W & Hv).
      { repeat constructor; cbn; [now rewrite L|unfold wf; cbn; lia]. }
      exists v. split; [exact Ev|]. split; [exact Hs|]. split; [exact W|]. intros idx k Hi Hk. cbn in Hk. assert (k = 0)%nat as -> by lia. rewrite (Hv idx 0%nat _ Hi eq_refl).
      destruct idx as [|i [|]]; [inversion Hi| |inversion Hi as [|? ? ? ? ? Q]; inversion Q]. cbn [nth_error]. apply in_range_single in Hi. unfold get. cbn [shape flat ravel]. rewrite L. destruct (Nat.ltb_spec i (S c)); [|lia]. cbn [option_map prod fold_right]. f_equal. lia.
    - destruct (meshgrid_spec gs xs F) as (M1 & M2 & M3). rewrite L in *. destruct (fill_same (List.map S cells) (length cells) (meshgrid gs)) as (v & Ev & Hs & W & Hv); [congruence|exact M2|].
      exists v. split; [exact Ev|]. split; [exact Hs|]. split; [exact W|]. intros idx k Hi Hk. destruct (nth_error (meshgrid gs) k) as [t|] eqn:Et; [|apply nth_error_None in Et; lia].
      destruct (nth_error xs k) as [x|] eqn:Ex; [|apply nth_error_None in Ex; lia]. rewrite (Hv _ _ _ Hi Et). destruct (M3 k x t idx Ex Et Hi) as (i & Ei & ->). now rewrite Ei. }
  destruct V as (v & Ev & Hs & W & Hv). rewrite Ev in E. cbn [bind] in E. destruct (grid_cmd_push tagged d cells v E Hs) as (d' & Ed & R). exists d'. split; [exact Ed|].
  exists (List.map (fun nc => arange (nc + 2)) cells), v. split; [exact R|]. split; [exact W|]. split; [reflexivity|exact Hv].
Qed.

(** Mapped grids: the same, the coordinates being those of the node. *)
Theorem C104_mapped tagged d cells gs : mapped d cells gs -> exists d', grid_cmd tagged d = Ok d' /\
  nodes d' cells (fun idx k => match nth_error gs k with Some a => get a idx | None => None end).
Proof.
  intros (Hc & Hn & Hg & L & F). destruct (fill_same (List.map S cells) (length cells) gs L F) as (v & Ev & Hs & W & Hv).
  assert (E : grid_values d = Ok (List.map (fun nc => arange (nc + 2)) cells, v)).
  { unfold grid_values. rewrite Hc, Hg, (num_dims_cells _ _ Hc). destruct cells as [|c cells]; [cbn in Hn; lia|]. destruct gs as [|g0 gs]; [discriminate|].
    destruct (Nat.eqb_spec (length (c :: cells)) 1) as [E1|_]; [lia|]. inversion F as [|? ? (Es & _) F']; subst. rewrite Es, map_length.
    destruct (Nat.eqb_spec (length (c :: cells)) 1) as [E1|_]; [lia|]. rewrite Ev. reflexivity. }
  destruct (grid_cmd_push tagged d cells v E Hs) as (d' & Ed & R). exists d'. split; [exact Ed|].
  exists (List.map (fun nc => arange (nc + 2)) cells), v. split; [exact R|]. split; [exact W|]. split; [reflexivity|]. intros idx k Hi Hk.
  destruct (nth_error gs k) as [a|] eqn:Ea; [now apply Hv|apply nth_error_None in Ea; lia].
Qed.

(** With and without a tag the result is the same dataset. *)
Theorem C104_tag d : grid_cmd true d = grid_cmd false d.
Proof.
  unfold grid_cmd. destruct (grid_values d) as [(g, v)|e]; [|reflexivity]. cbn [bind].
  unfold push, set_values. cbn [c_cells g_grid g_vals c_ncomps c_lower c_upper].
  set (b := match c_cells d with Some c => _ | None => false end). destruct (shape_last v) as [n|e]; destruct b; cbn [c_cells g_grid g_vals c_ncomps c_lower c_upper]; try reflexivity;
  set (b2 := match c_ncomps d with Some m => _ | None => false end); destruct b2; unfold set_grid, get_num_dims; cbn [c_cells g_grid g_vals c_ncomps c_lower c_upper]; destruct (c_cells d); reflexivity.
Qed.

(** Applied to its own result the command delivers the numbers of the nodes. *)
Theorem C104_twice tagged tagged' d cells xs d' : edges d cells xs -> grid_cmd tagged d = Ok d' -> exists d2, grid_cmd tagged' d' = Ok d2 /\
  nodes d2 (List.map S cells) (fun idx k => option_map (fun i => inject_Z (Z.of_nat i)) (nth_error idx k)).
Proof.
  intros He E. destruct (C104_edges tagged d cells xs He) as (d1 & E1 & g & v & R & W & Eg & _). rewrite E in E1. injection E1 as <-.
  destruct R as [Rg Rv Rc Rn Rd Rb]. destruct He as (_ & Hn & _).
  set (ys := List.map (fun c => List.map (fun i => inject_Z (Z.of_nat i)) (seq 0 (c + 2))) cells).
  assert (He : edges d' (List.map S cells) ys).
  { split; [exact Rc|]. split; [now destruct cells|]. exists g. split; [exact Rg|]. split.
    - rewrite Eg. unfold ys. clear. induction cells as [|c cells IH]; cbn [List.map]; constructor; [|exact IH]. unfold line. now rewrite map_length, seq_length.
    - unfold ys. rewrite !map_map. apply map_ext. intros c. rewrite map_length, seq_length. lia. }
  destruct (C104_edges tagged' d' _ _ He) as (d2 & E2 & g2 & v2 & R2 & W2 & Eg2 & H2). exists d2. split; [exact E2|]. exists g2, v2. split; [exact R2|]. split; [exact W2|]. split; [exact Eg2|].
  intros idx k Hi Hk. rewrite (H2 idx k Hi Hk). unfold ys. rewrite nth_error_map. rewrite map_length in Hk. destruct (nth_error cells k) as [c|] eqn:Ec; [|apply nth_error_None in Ec; lia]. cbn [option_map].
  destruct (nth_error idx k) as [i|] eqn:Ei; [|reflexivity]. cbn [option_map]. rewrite nth_error_map, nth_error_seq. destruct (in_range_take_nth _ _ _ _ Hi Ei) as (n & Hnn & Hlt). rewrite !nth_error_map, Ec in Hnn. injection Hnn as <-.
  destruct (Nat.ltb_spec i (c + 2)); [reflexivity|lia].
Qed.

(** Cell centres are refused as soon as one axis has not exactly one cell. *)
Theorem C104_centres tagged d cells : centres d cells -> Exists (fun c => c <> 1%nat) cells -> grid_cmd tagged d = Err ValueError.
Proof.
  intros (Hc & Hn & gs & xs & Hg & F & L) X. assert (Lx : length xs = length cells) by (rewrite <- L; symmetry; apply map_length).
  unfold grid_cmd. rewrite (lines_values _ _ _ _ Hc Hn Hg F Lx).
  assert (A : forall t : nda Q, shape t = cells -> assign (List.map S cells) t = Err ValueError).
  { intros t Ht. unfold assign. rewrite Ht, drop_ones_short by (rewrite map_length; lia). rewrite map_length, Nat.sub_diag. cbn [List.repeat app]. rewrite fits_not; [reflexivity|].
    apply Exists_exists in X as (c & Hin & Nc). apply In_nth_error in Hin as (k & Hk). exists k, c, (S c). rewrite nth_error_map, Hk. repeat split; auto. }
  assert (Fl : forall t ts, shape t = cells -> fill (List.map S cells) (length cells) (t :: ts) = Err ValueError).
  { intros t ts Ht. unfold fill. cbn [length seq combine mapM fst snd]. destruct (Nat.ltb_spec 0 (length cells)) as [|N]; [|destruct cells; [contradiction|cbn in N; lia]]. rewrite (A t Ht). reflexivity. }
  destruct (Nat.eqb_spec (length cells) 1) as [E1|N1].
  - destruct F as [|g0 x gs xs Hl F]; [destruct cells; [contradiction|discriminate]|]. rewrite Fl; [reflexivity|]. unfold line in Hl. subst g0. cbn [shape]. destruct cells as [|c [|]]; cbn in E1; try lia. cbn in L. destruct xs; [|cbn in Lx; lia]. cbn in L. now injection L as ->.
  - destruct (meshgrid_spec gs xs F) as (M1 & M2 & _). destruct (meshgrid gs) as [|t ts]; [cbn in M1; destruct cells; [contradiction|cbn in Lx; lia]|]. pose proof (Forall_inv M2) as (Es & _). rewrite Fl; [reflexivity|]. now rewrite Es, L.
Qed.

(** ** Refuted claim and examples *)

Definition ex_plane : gdata Q := mk_gdata (Some [mk_nda [3%nat] [0; 1; 4]; mk_nda [2%nat] [5; 7]]) (Some (mk_nda [2; 1; 1]%nat [8; 9])) (Some [2; 1]%nat) (Some 1%nat) None None.

Example C104_example_edges : edges ex_plane [2; 1]%nat [[0; 1; 4]; [5; 7]].
Proof. split; [reflexivity|]. split; [discriminate|]. eexists. split; [reflexivity|]. split; [repeat constructor|reflexivity]. Qed.

Example C104_example : exists d', grid_cmd true ex_plane = Ok d' /\ option_map flat (g_vals d') = Some [0; 5; 0; 7; 1; 5; 1; 7; 4; 5; 4; 7] /\ c_cells d' = Some [3; 2]%nat.
Proof. eexists. vm_compute. repeat split. Qed.

Definition ex_curved : gdata Q := mk_gdata (Some [mk_nda [2; 2]%nat [0; 1; 2; 4]; mk_nda [2; 2]%nat [5; 7; 6; 9]]) None (Some [1; 1]%nat) None None None.

Example C104_example_mapped : mapped ex_curved [1; 1]%nat [mk_nda [2; 2]%nat [0; 1; 2; 4]; mk_nda [2; 2]%nat [5; 7; 6; 9]].
Proof. split; [reflexivity|]. split; [cbn; lia|]. split; [reflexivity|]. split; [reflexivity|]. repeat constructor. Qed.

Example C104_example_centres : centres (mk_gdata (Some [mk_nda [3%nat] [0; 1; 2]]) (Some (mk_nda [3; 1]%nat [8; 9; 7])) None None None None) [3%nat].
Proof. split; [reflexivity|]. split; [discriminate|]. exists [mk_nda [3%nat] [0; 1; 2]], [[0; 1; 2]]. repeat split. repeat constructor. Qed.

(** One cell given by its centre passes: both its nodes get the centre. *)
Theorem C104_centres_refuted : exists d d', centres d [1%nat] /\ g_grid d = Some [mk_nda [1%nat] [5]] /\ grid_cmd false d = Ok d' /\ g_vals d' = Some (mk_nda [2; 1]%nat [5; 5]).
Proof.
  exists (mk_gdata (Some [mk_nda [1%nat] [5]]) (Some (mk_nda [1; 1]%nat [8])) None None None None). eexists. split; [|split; [reflexivity|split; [vm_compute; reflexivity|reflexivity]]].
  split; [reflexivity|]. split; [discriminate|]. exists [mk_nda [1%nat] [5]], [[5]]. repeat split. repeat constructor.
Qed.

Print Assumptions C104_edges.
Print Assumptions C104_twice.
