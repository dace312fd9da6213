(** * Properties C09-C12: selection. *)
From Coq Require Import String Ascii List ZArith QArith Bool Lia Sorted.
From Verif Require Import Prelude PreludeFacts NdArray GData_Model Select_Model Select_Spec Select_Proofs.
Import ListNotations.
Open Scope list_scope.

(** ** C09: selecting by coordinate picks the cell that contains it *)

(** Every coordinate belongs to exactly one cell, and this is the index the
    parser returns (for a number and for a string denoting it). *)
Theorem C09_coordinate_cell : forall pfloat n g x,
  edges_of n g -> (0 < n)%nat -> increasing g ->
  exists i, (i < n)%nat /\ cell_contains g x i /\
    (forall j, cell_contains g x j -> j = i) /\
    idx_parser pfloat (VFloat x) (Some (line g)) false = Ok (IInt (Z.of_nat i)) /\
    (forall s, is_digits s = false -> has_char "," s = false -> has_char ":" s = false ->
       pfloat s = Some x ->
       idx_parser pfloat (VStr s) (Some (line g)) false = Ok (IInt (Z.of_nat i))).
Proof.
  intros pfloat n g x Hg Hn Hi.
  destruct (cell_contains_exists n g x Hg Hn) as (i & Hin & Hc).
  pose proof (find_nearest_contains n g x i Hg Hn Hi Hc) as E.
  exists i. split; [auto|]. split; [auto|]. split; [|split].
  - intros j Hj. pose proof (find_nearest_contains n g x j Hg Hn Hi Hj) as E'.
    rewrite E in E'. injection E' as E'. lia.
  - unfold idx_parser, find_index. rewrite E. reflexivity.
  - intros s H1 H2 H3 H4. rewrite parse_plain by auto. unfold string_to_index, find_index.
    rewrite H1, H4, E. reflexivity.
Qed.

(** Selecting coordinate [x] along dimension [k] of any dataset with cell-edge
    coordinates there: the result has the single cell containing [x] in that
    dimension, with its two edges as coordinates. *)
Theorem C09_select_coordinate : forall pfloat A (d : gdata A) gs v cells nc k n g x,
  rect_data d gs v cells nc ->
  nth_error cells k = Some n -> nth_error gs k = Some g ->
  edges_of n g -> (0 < n)%nat -> increasing g ->
  exists i lo hi gout vout,
    cell_contains g x i /\ nth_error g i = Some lo /\ nth_error g (S i) = Some hi /\
    select pfloat d (repeat None k ++ [Some (VFloat x)]) None false = Ok (gout, vout, d) /\
    nth_error gout k = Some (line [lo; hi]) /\
    nth_error (shape vout) k = Some 1%nat /\
    (forall idx w, nth_error idx k = Some 0%nat -> get vout idx = Some w ->
        get v (set_nth k i idx) = Some w).
Proof.
  intros pfloat A d gs v cells nc k n g x R Hn Hg He Hpos Hinc.
  destruct (cell_contains_exists n g x He Hpos) as (i & Hin & Hc).
  set (cuts := set_nth k (i, S i) (whole cells)).
  assert (Hkl : (k < length cells)%nat) by (apply nth_error_Some; congruence).
  assert (Hlw : length (whole cells) = length cells) by (unfold whole; apply map_length).
  assert (HC : cuts_mean pfloat (repeat None k ++ [Some (VFloat x)]) gs cells cuts).
  { split.
    - unfold cuts. now rewrite set_nth_length.
    - intros j g' n' a b Hg' Hn' Hab. unfold cuts in Hab. rewrite nth_error_set_nth in Hab.
      destruct (Nat.eqb_spec k j) as [<-|Hne].
      + destruct (nth_error (whole cells) k); [|discriminate]. injection Hab as <- <-.
        rewrite Hg in Hg'. injection Hg' as <-. rewrite Hn in Hn'. injection Hn' as <-.
        rewrite app_nth2 by (rewrite repeat_length; lia). rewrite repeat_length, Nat.sub_diag. simpl.
        apply cm_coord; auto.
      + unfold whole in Hab. rewrite nth_error_map, Hn' in Hab. simpl in Hab. injection Hab as <- <-.
        assert (nth j (repeat None k ++ [Some (VFloat x)]) None = None) as ->.
        { destruct (Nat.lt_ge_cases j k).
          - rewrite app_nth1 by (rewrite repeat_length; lia). apply nth_repeat.
          - apply nth_overflow. rewrite app_length, repeat_length. simpl. lia. }
        constructor. }
  pose proof (select_block_lemma pfloat d gs v cells nc _ None cuts _ R HC (km_none nc)) as E.
  pose proof (cuts_mean_bounds _ _ _ _ _ (rd_match _ _ _ _ _ R) HC) as Hb.
  destruct (nth_error_exists g i) as [lo Hlo]. { unfold edges_of in He. lia. }
  destruct (nth_error_exists g (S i)) as [hi Hhi]. { unfold edges_of in He. lia. }
  exists i, lo, hi, (List.map line (grid_of cells gs cuts)), (take (sel_of cuts ++ [seq 0 nc]) v).
  assert (Hck : nth_error cuts k = Some (i, S i)).
  { unfold cuts. rewrite nth_error_set_nth, Nat.eqb_refl.
    destruct (nth_error_exists (whole cells) k) as [q ->]; [lia|]. reflexivity. }
  split; [auto|]. split; [auto|]. split; [auto|]. split; [auto|]. split; [|split].
  - rewrite nth_error_map. unfold grid_of. rewrite nth_error_map2.
    rewrite (nth_error_combine _ _ _ _ _ Hn Hg), Hck. simpl. f_equal. f_equal.
    unfold coords_kept. unfold edges_of in He. destruct (Nat.eqb_spec (length g) n); [lia|].
    apply nth_error_ext. intros j. rewrite nth_error_stretch.
    replace (S (S i - i)) with 2%nat by lia. destruct j as [|[|j]]; simpl.
    + now rewrite Nat.add_0_r.
    + replace (i + 1)%nat with (S i) by lia. auto.
    + now destruct j.
  - simpl. rewrite map_app, sel_of_lengths, nth_error_app1, nth_error_map, Hck.
    + change (Some (S i - i)%nat = Some 1%nat). f_equal. lia.
    + rewrite map_length. unfold cuts. rewrite set_nth_length. lia.
  - intros idx w Hk0 Hw.
    pose proof (get_Some_in_range _ _ _ Hw) as Hr. simpl in Hr. rewrite map_app, sel_of_lengths in Hr.
    apply in_range_app in Hr as (i1 & i2 & -> & Hi1 & Hi2).
    inversion Hi2 as [|c ? ? ? Hc0 Hnil]; subst. inversion Hnil; subst.
    rewrite seq_length in Hc0.
    assert (Hl1 : length i1 = length cells).
    { apply in_range_length in Hi1. rewrite map_length in Hi1. rewrite Hi1. unfold cuts. now rewrite set_nth_length. }
    rewrite (take_block_get v cells nc cuts (seq 0 nc) i1 c c) in Hw; auto.
    + rewrite <- Hw. f_equal.
      apply nth_error_ext. intros j. rewrite nth_error_set_nth.
      destruct (Nat.lt_ge_cases j (length cells)) as [L|L].
      * rewrite !nth_error_app1 by (rewrite ?map2_length, ?map_length; unfold cuts; rewrite ?set_nth_length; lia).
        rewrite nth_error_map2, nth_error_map.
        rewrite nth_error_app1 in Hk0 by lia.
        destruct (Nat.eqb_spec k j) as [<-|Hne].
        -- rewrite Hck, Hk0. simpl. f_equal. lia.
        -- unfold cuts. rewrite nth_error_set_nth. destruct (Nat.eqb_spec k j); [congruence|].
           unfold whole. rewrite nth_error_map. destruct (nth_error_exists cells j L) as [nj ->].
           simpl. destruct (nth_error_exists i1 j) as [ij ->]; [lia|]. reflexivity.
      * destruct (Nat.eqb_spec k j); [lia|].
        rewrite !nth_error_app2 by (rewrite ?map2_length, ?map_length; unfold cuts; rewrite ?set_nth_length; lia).
        f_equal. rewrite map2_length, map_length. unfold cuts. rewrite set_nth_length. lia.
    + apply (rd_wf _ _ _ _ _ R).
    + apply (rd_shape _ _ _ _ _ R).
    + intros q Hq. apply in_seq in Hq. lia.
    + rewrite nth_error_seq. destruct (Nat.ltb_spec c nc); auto. lia.
Qed.

(** Concrete dataset used in the examples: 4 x 3 cells, 2 components. *)
Definition ex_v : nda nat := mk_nda [4; 3; 2]%nat (seq 100 24).
Definition ex_gs : list (list Q) :=
  [[0; 1#2; 1; 3#2; 2]; [10; 20; 30; 40]].
Definition ex_d : gdata nat :=
  mk_gdata (Some (List.map line ex_gs)) (Some ex_v) (Some [4; 3]%nat) (Some 2%nat)
           (Some [0; 10]) (Some [2; 40]).
Example ex_rect : rect_data ex_d ex_gs ex_v [4; 3]%nat 2.
Proof.
  constructor; try reflexivity; try discriminate; try (eexists; reflexivity).
  constructor; [left; reflexivity|]. constructor; [left; reflexivity|]. constructor.
Qed.
Example ex_increasing : increasing [0; 1#2; 1; 3#2; 2].
Proof. repeat (constructor; try reflexivity). Qed.
Example C09_example :
  select (fun _ => None) ex_d [Some (VFloat (7#10))] None false
  = Ok ([line [1#2; 1]; line [10; 20; 30; 40]], mk_nda [1; 3; 2]%nat (seq 106 6), ex_d).
Proof. vm_compute. reflexivity. Qed.
(** On a cell edge the lower cell is taken; above the domain the last cell. *)
Example C09_example_edge :
  idx_parser (fun _ => None) (VFloat 1) (Some (line [0; 1#2; 1; 3#2; 2])) false = Ok (IInt 1) /\
  idx_parser (fun _ => None) (VFloat 5) (Some (line [0; 1#2; 1; 3#2; 2])) false = Ok (IInt 3).
Proof. split; reflexivity. Qed.

(** For point data (one coordinate per value, e.g. time traces) a coordinate
    above the last point selects nothing at all. *)
Theorem C09_points_beyond_end_refuted :
  exists (d : gdata nat) gs v cells nc x gout vout,
    rect_data d gs v cells nc /\ Forall2 points_of cells gs /\ Forall increasing gs /\
    select (fun _ => None) d [Some (VFloat x)] None false = Ok (gout, vout, d) /\
    shape vout = [0%nat; 1%nat].
Proof.
  exists (mk_gdata (Some [line [0; 1; 2]]) (Some (mk_nda [3; 1]%nat [7; 8; 9]%nat)) (Some [3%nat])
            (Some 1%nat) (Some [0]) (Some [2])), [[0; 1; 2]], (mk_nda [3; 1]%nat [7; 8; 9]%nat), [3%nat], 1%nat, (5#2).
  do 2 eexists. split; [|split; [|split; [|split]]].
  - constructor; try reflexivity; try discriminate; try (eexists; reflexivity).
    constructor; [right; reflexivity|constructor].
  - constructor; [reflexivity|constructor].
  - constructor; [|constructor]. repeat (constructor; try reflexivity).
  - vm_compute. reflexivity.
  - reflexivity.
Qed.

(** ** C10: select returns the requested block *)

(** [cuts] gives for each dimension the half-open range of cells the argument
    asks for ([cut_means]), [ks] the components asked for ([comp_means]). *)
Theorem C10_select_block : forall pfloat A (d : gdata A) gs v cells nc zs comp cuts ks,
  rect_data d gs v cells nc ->
  cuts_mean pfloat zs gs cells cuts ->
  comp_means nc comp ks ->
  exists gout vout,
    select pfloat d zs comp false = Ok (List.map line gout, vout, d) /\
    (* values: requested block, cut dimensions kept *)
    wf vout /\
    shape vout = List.map (fun ab => snd ab - fst ab)%nat cuts ++ [length ks] /\
    (forall idx c k,
        in_range (List.map (fun ab => snd ab - fst ab)%nat cuts) idx -> nth_error ks c = Some k ->
        get vout (idx ++ [c]) = get v (map2 Nat.add (List.map fst cuts) idx ++ [k])) /\
    (* grid: edges of the selected cells, or points *)
    length gout = length cells /\
    (forall j n g a b, nth_error cells j = Some n -> nth_error gs j = Some g ->
        nth_error cuts j = Some (a, b) ->
        exists g', nth_error gout j = Some g' /\
          (edges_of n g -> edges_of (b - a) g') /\ (points_of n g -> points_of (b - a) g') /\
          (forall i, (i < length g')%nat -> nth_error g' i = nth_error g (a + i))).
Proof.
  intros pfloat A d gs v cells nc zs comp cuts ks R HC HK.
  pose proof (select_block_lemma pfloat d gs v cells nc zs comp cuts ks R HC HK) as E.
  pose proof (cuts_mean_bounds _ _ _ _ _ (rd_match _ _ _ _ _ R) HC) as Hb.
  exists (grid_of cells gs cuts), (take (sel_of cuts ++ [ks]) v). split; [auto|].
  split; [|split; [|split; [|split]]].
  - apply wf_take; [apply (rd_wf _ _ _ _ _ R)|]. rewrite (rd_shape _ _ _ _ _ R).
    apply sel_of_bounds; auto. eapply comp_means_lt; eauto.
  - simpl. rewrite map_app, sel_of_lengths. reflexivity.
  - intros idx c k Hi Hk. apply take_block_get with (cells := cells) (nc := nc); auto.
    + apply (rd_wf _ _ _ _ _ R).
    + apply (rd_shape _ _ _ _ _ R).
    + eapply comp_means_lt; eauto.
  - unfold grid_of. rewrite map2_length, combine_length.
    rewrite (rect_cells_gs _ _ _ _ _ R). destruct HC as [HC _]. lia.
  - intros j n g a b Hn Hg Hab. exists (coords_kept n g a b). split.
    + unfold grid_of. rewrite nth_error_map2, (nth_error_combine _ _ _ _ _ Hn Hg), Hab. reflexivity.
    + pose proof (Forall2_nth_error _ _ _ _ _ _ Hb Hab Hn) as Hle. simpl in Hle.
      unfold edges_of, points_of, coords_kept. destruct (Nat.eqb_spec (length g) n) as [e|e].
      * split; [intros; lia|]. split.
        -- intros _. apply stretch_length. lia.
        -- intros i Hi. rewrite stretch_length in Hi by lia. rewrite nth_error_stretch.
           destruct (Nat.ltb_spec i (b - a)); auto. lia.
      * split; [|split].
        -- intros H. apply stretch_length. lia.
        -- intros; lia.
        -- intros i Hi. pose proof (Forall2_nth_error _ _ _ _ _ _ (rd_match _ _ _ _ _ R) Hn Hg) as [H|H];
             unfold edges_of, points_of in H; [|lia].
           rewrite stretch_length in Hi by lia. rewrite nth_error_stretch.
           destruct (Nat.ltb_spec i (S (b - a))); auto. lia.
Qed.

Example C10_example :
  select (fun _ => None) ex_d [Some (VInt 1); Some (VStr "1:3")] (Some (VStr "1,0")) false
  = Ok ([line [1#2; 1]; line [20; 30; 40]],
        mk_nda [1; 2; 2]%nat [109; 108; 111; 110]%nat, ex_d).
Proof. vm_compute. reflexivity. Qed.
Example C10_example_meets :
  cuts_mean (fun _ => None) [Some (VInt 1); Some (VStr "1:3")] ex_gs [4; 3]%nat [(1, 2); (1, 3)]%nat /\
  comp_means 2 (Some (VStr "1,0")) [1; 0]%nat.
Proof.
  split.
  - split; [reflexivity|]. intros [|[|j]] g n a b Hg Hn Hab; simpl in *; try discriminate.
    + injection Hg as <-; injection Hn as <-; injection Hab as <- <-. apply (cm_int _ _ _ 1). lia.
    + injection Hg as <-; injection Hn as <-; injection Hab as <- <-. apply (cm_range _ _ _ 1 3). lia.
    + destruct j; discriminate.
  - apply (km_list 2 [1; 0]%nat); simpl; [lia|]. intros k [<-|[<-|[]]]; lia.
Qed.

(** A negative integer index, which Python would count from the end, selects
    nothing when it is -1. *)
Theorem C10_negative_index_refuted :
  exists (d : gdata nat) gs v cells nc gout vout,
    rect_data d gs v cells nc /\
    select (fun _ => None) d [Some (VInt (-1))] None false = Ok (gout, vout, d) /\
    shape vout = [0; 3; 2]%nat /\ cells = [4; 3]%nat.
Proof.
  exists ex_d, ex_gs, ex_v, [4; 3]%nat, 2%nat. do 2 eexists.
  split; [apply ex_rect|]. split; [vm_compute; reflexivity|]. split; reflexivity.
Qed.

(** ** C11: no mutation, identity and composition *)

(** Without [overwrite] the dataset after the call is the one before, whatever
    the arguments and whatever the dataset. *)
Theorem C11_no_mutation : forall pfloat A (d d' : gdata A) zs comp gout vout,
  select pfloat d zs comp false = Ok (gout, vout, d') -> d' = d.
Proof.
  intros pfloat A d d' zs comp gout vout. unfold select.
  destruct (g_grid d) as [grid|]; [|discriminate].
  destruct (g_vals d) as [vv|]; [|discriminate].
  destruct (get_bounds d) as [bd|]; [|discriminate]. simpl bind.
  destruct (length (shape vv) <=? get_num_dims d)%nat; [discriminate|].
  destruct grid as [|g0 grid]; [discriminate|].
  match goal with |- bind ?m _ = _ -> _ => destruct m as [sl|]; [|discriminate] end. simpl bind.
  match goal with |- bind ?m _ = _ -> _ => destruct m as [vo|]; [|discriminate] end. simpl bind.
  match goal with |- bind ?m _ = _ -> _ => destruct m as [go|]; [|discriminate] end. simpl bind.
  intros H. injection H; intros; congruence.
Qed.

(** Selecting nothing in particular returns grid and values unchanged. *)
Theorem C11_identity : forall pfloat A (d : gdata A) gs v cells nc,
  rect_data d gs v cells nc ->
  select pfloat d [] None false = Ok (List.map line gs, v, d).
Proof.
  intros pfloat A d gs v cells nc R.
  assert (HC : cuts_mean pfloat [] gs cells (whole cells)).
  { split; [unfold whole; apply map_length|]. intros k g n a b Hg Hn Hab.
    unfold whole in Hab. rewrite nth_error_map, Hn in Hab. simpl in Hab. injection Hab as <- <-.
    destruct k; constructor. }
  rewrite (select_block_lemma pfloat d gs v cells nc [] None (whole cells) _ R HC (km_none nc)).
  rewrite grid_whole by (apply (rd_match _ _ _ _ _ R)).
  rewrite take_whole; auto; [apply (rd_wf _ _ _ _ _ R)|apply (rd_shape _ _ _ _ _ R)].
Qed.

(** Two selections in a row (the first one overwriting the dataset) equal one
    selection of the composed ranges. *)
Theorem C11_composition : forall pfloat A (d : gdata A) gs v cells nc
    zs1 comp1 cuts1 ks1 zs2 comp2 cuts2 ks2 zs12 comp12 ks12,
  rect_data d gs v cells nc ->
  cuts_mean pfloat zs1 gs cells cuts1 -> nonempty_cuts cuts1 -> comp_means nc comp1 ks1 ->
  (* second selection, relative to what the first one left *)
  cuts_mean pfloat zs2 (grid_of cells gs cuts1) (List.map (fun ab => snd ab - fst ab)%nat cuts1) cuts2 ->
  comp_means (length ks1) comp2 ks2 ->
  (* one selection relative to the original *)
  cuts_mean pfloat zs12 gs cells
    (map2 (fun ab cd => (fst ab + fst cd, fst ab + snd cd)%nat) cuts1 cuts2) ->
  comp_means nc comp12 ks12 ->
  Forall2 (fun k j => nth_error ks1 k = Some j) ks2 ks12 ->
  exists g1 v1 d1 g2 v2,
    select pfloat d zs1 comp1 true = Ok (g1, v1, d1) /\
    select pfloat d1 zs2 comp2 false = Ok (g2, v2, d1) /\
    select pfloat d zs12 comp12 false = Ok (g2, v2, d).
Proof.
  intros pfloat A d gs v cells nc zs1 comp1 cuts1 ks1 zs2 comp2 cuts2 ks2 zs12 comp12 ks12
    R HC1 Hne HK1 HC2 HK2 HC12 HK12 Hks.
  destruct (select_overwrite_lemma pfloat d gs v cells nc zs1 comp1 cuts1 ks1 R HC1 Hne HK1)
    as (d1 & E1 & R1).
  pose proof (select_block_lemma pfloat d1 _ _ _ _ zs2 comp2 cuts2 ks2 R1 HC2 HK2) as E2.
  pose proof (select_block_lemma pfloat d gs v cells nc zs12 comp12 _ ks12 R HC12 HK12) as E12.
  pose proof (cuts_mean_bounds _ _ _ _ _ (rd_match _ _ _ _ _ R) HC1) as Hb1.
  pose proof (cuts_mean_bounds _ _ _ _ _ (rd_match _ _ _ _ _ R1) HC2) as Hb2.
  do 5 eexists. split; [exact E1|]. split; [exact E2|]. rewrite E12.
  rewrite (take_compose v cells nc cuts1 cuts2 ks1 ks2 ks12);
    auto using (rd_wf _ _ _ _ _ R), (rd_shape _ _ _ _ _ R).
  - rewrite (grid_compose cells gs cuts1 cuts2); auto using (rd_match _ _ _ _ _ R).
  - eapply comp_means_lt; eauto.
Qed.

Example C11_example :
  exists d1 g1 v1,
  select (fun _ => None) ex_d [Some (VStr "1:4")] None true = Ok (g1, v1, d1) /\
  select (fun _ => None) d1 [Some (VStr "1:2")] None false
  = Ok ([line [1; 3#2]; line [10; 20; 30; 40]], mk_nda [1; 3; 2]%nat (seq 112 6), d1) /\
  select (fun _ => None) ex_d [Some (VStr "2:3")] None false
  = Ok ([line [1; 3#2]; line [10; 20; 30; 40]], mk_nda [1; 3; 2]%nat (seq 112 6), ex_d).
Proof. do 3 eexists. split; [vm_compute; reflexivity|]. split; vm_compute; reflexivity. Qed.

(** With [overwrite] the dataset afterwards holds exactly the returned arrays
    and its metadata describe them. *)
Theorem C11_overwrite : forall pfloat A (d : gdata A) gs v cells nc zs comp cuts ks,
  rect_data d gs v cells nc ->
  cuts_mean pfloat zs gs cells cuts -> nonempty_cuts cuts -> comp_means nc comp ks ->
  exists gout vout d',
    select pfloat d zs comp true = Ok (List.map line gout, vout, d') /\
    rect_data d' gout vout (List.map (fun ab => snd ab - fst ab)%nat cuts) (length ks).
Proof.
  intros. destruct (select_overwrite_lemma pfloat d gs v cells nc zs comp cuts ks) as (d' & E & R); auto.
  eauto.
Qed.

(** ** C12: textual slices *)

(** Non-negative [a:b] is Python's slice (also when out of range). *)
Theorem C12_slice_text : forall pfloat a b arr nodal,
  idx_parser pfloat (VStr (show_N a ++ ":" ++ show_N b)) arr nodal
  = Ok (ISlice (Z.of_N a) (Z.of_N b)).
Proof. intros. apply parse_range. Qed.

(** Missing ends: start 0, stop the number of coordinates (at least the number
    of cells, so to the end). *)
Theorem C12_slice_open : forall pfloat a g nodal,
  idx_parser pfloat (VStr (":" ++ show_N a)) (Some (line g)) nodal = Ok (ISlice 0 (Z.of_N a)) /\
  idx_parser pfloat (VStr (show_N a ++ ":")) (Some (line g)) nodal
    = Ok (ISlice (Z.of_N a) (Z.of_nat (length g))) /\
  idx_parser pfloat (VStr ":") (Some (line g)) nodal = Ok (ISlice 0 (Z.of_nat (length g))).
Proof.
  intros. split; [apply parse_upto|]. split.
  - apply (parse_from pfloat a (Some (line g)) (Z.of_nat (length g))); [reflexivity|lia].
  - apply (parse_all pfloat (Some (line g)) (Z.of_nat (length g))); [reflexivity|lia].
Qed.

(** A negative stop [-k] counts from one past the number of coordinates. *)
Theorem C12_negative_stop : forall pfloat a k g nodal,
  (0 < k)%N -> (Z.of_N k <= Z.of_nat (length g) + 1)%Z ->
  idx_parser pfloat (VStr (show_N a ++ ":-" ++ show_N k)) (Some (line g)) nodal
  = Ok (ISlice (Z.of_N a) (Z.of_nat (length g) + 1 - Z.of_N k)).
Proof.
  intros pfloat a k g nodal Hk Hle.
  change (show_N a ++ ":-" ++ show_N k)%string
    with (show_N a ++ ":" ++ String "-" (show_N k))%string.
  rewrite idx_parser_slice.
  - unfold parse_slice. rewrite show_N_neq_empty.
    change (String.eqb (String "-" (show_N k)) "") with false. cbv iota.
    assert (E : py_int (String "-" (show_N k)) = Ok (- Z.of_N k)%Z) by apply py_int_neg_show_N.
    cbn [bind]. rewrite E. destruct (Z.ltb_spec (- Z.of_N k) 0); [|lia].
    simpl arr_len. cbn [bind]. rewrite string_to_index_digits, string_to_index_Z by lia.
    simpl bind. f_equal. f_equal. lia.
  - apply show_N_has, comma_not_digit.
  - simpl. apply show_N_has, comma_not_digit.
  - apply show_N_has, colon_not_digit.
  - simpl. apply show_N_has, colon_not_digit.
Qed.

(** Hence ":-1" and ":-2" keep all cells on a cell-edge grid (Python's slice
    would drop one and two). *)
Theorem C12_negative_stop_keeps_all : forall pfloat n g k,
  edges_of n g -> k = 1%N \/ k = 2%N -> exists z,
  idx_parser pfloat (VStr (":-" ++ show_N k)) (Some (line g)) false = Ok (ISlice 0 z) /\
  slice2 n 0 z = seq 0 n.
Proof.
  unfold edges_of. intros pfloat n g k Hg Hk.
  change (":-" ++ show_N k)%string with ("" ++ ":" ++ String "-" (show_N k))%string.
  exists (Z.of_nat (length g) + 1 - Z.of_N k)%Z.
  split.
  - rewrite idx_parser_slice; try reflexivity; try (simpl; apply show_N_has; auto using comma_not_digit, colon_not_digit).
    unfold parse_slice. 
    change (String.eqb (String "-" (show_N k)) "") with false. cbv iota. cbn [bind].
    assert (E : py_int (String "-" (show_N k)) = Ok (- Z.of_N k)%Z) by apply py_int_neg_show_N.
    rewrite E. destruct (Z.ltb_spec (- Z.of_N k) 0); [|lia].
    simpl arr_len. cbn [bind]. rewrite (string_to_index_Z pfloat (_ + _ + _)) by lia.
    simpl. f_equal. f_equal. lia.
  - unfold slice2, adjust_pos. destruct (Z.ltb_spec 0 0); [lia|].
    destruct (Z.ltb_spec (Z.of_nat (length g) + 1 - Z.of_N k) 0); [lia|].
    f_equal; lia.
Qed.

(** Selecting ":-1" from three cells keeps three (Python's [:-1] keeps two). *)
Theorem C12_python_negative_stop_refuted :
  exists (d : gdata nat) gs v cells nc gout vout,
    rect_data d gs v cells nc /\
    select (fun _ => None) d [None; Some (VStr ":-1")] None false = Ok (gout, vout, d) /\
    cells = [4; 3]%nat /\ shape vout = [4; 3; 2]%nat.
Proof.
  exists ex_d, ex_gs, ex_v, [4; 3]%nat, 2%nat. do 2 eexists.
  split; [apply ex_rect|]. split; [vm_compute; reflexivity|]. split; reflexivity.
Qed.

(** A slice with a step is rejected, whatever the numbers (a string with two
    colons is not a number). *)
Theorem C12_step_rejected : forall pfloat a b c arr nodal,
  (forall s, has_char ":" s = true -> pfloat s = None) ->
  idx_parser pfloat (VStr (show_N a ++ ":" ++ show_N b ++ ":" ++ show_N c)) arr nodal = Err ValueError.
Proof.
  intros pfloat a b c arr nodal Hp. unfold idx_parser.
  set (s := (show_N a ++ ":" ++ show_N b ++ ":" ++ show_N c)%string).
  assert (Hc : has_char ":" s = true).
  { unfold s. rewrite has_char_app. simpl. apply orb_true_r. }
  assert (Hcm : has_char "," s = false).
  { unfold s. rewrite !has_char_app. rewrite !(show_N_has ",") by apply comma_not_digit. reflexivity. }
  rewrite (split_on_none "," s Hcm). simpl length. cbv iota.
  assert (Es : split_on ":" s = [show_N a; show_N b; show_N c]).
  { unfold s. change (show_N a ++ ":" ++ show_N b ++ ":" ++ show_N c)%string
      with (show_N a ++ String ":" (show_N b ++ String ":" (show_N c)))%string.
    rewrite split_on_app by (apply show_N_has, colon_not_digit).
    rewrite split_on_app by (apply show_N_has, colon_not_digit).
    rewrite split_on_none by (apply show_N_has, colon_not_digit). reflexivity. }
  rewrite Es. simpl. unfold string_to_index.
  assert (Hd : is_digits s = false).
  { destruct (is_digits s) eqn:E; auto. exfalso.
    unfold is_digits in E. destruct s as [|ch s'] eqn:Ess; [discriminate|]. rewrite <- Ess in *.
    destruct (DecimalString.NilEmpty.uint_of_string s) as [u|] eqn:Eu; [|discriminate].
    apply DecimalString.NilEmpty.sus in Eu. rewrite <- Eu in Hc.
    rewrite string_of_uint_has in Hc by apply colon_not_digit. discriminate. }
  rewrite Hd, Hp by auto. reflexivity.
Qed.

(** Component slices must have a stop: open or negative ones raise. *)
Theorem C12_component_slice_open_rejected : forall pfloat a k,
  (0 < k)%N ->
  idx_parser pfloat (VStr (show_N a ++ ":")) None false = Err TypeError /\
  idx_parser pfloat (VStr (show_N a ++ ":-" ++ show_N k)) None false = Err TypeError.
Proof.
  intros pfloat a k Hk. split.
  - change (show_N a ++ ":")%string with (show_N a ++ ":" ++ "")%string.
    rewrite idx_parser_slice by (try reflexivity; apply show_N_has; auto using comma_not_digit, colon_not_digit).
    unfold parse_slice. rewrite show_N_neq_empty. reflexivity.
  - change (show_N a ++ ":-" ++ show_N k)%string with (show_N a ++ ":" ++ String "-" (show_N k))%string.
    rewrite idx_parser_slice by (try (simpl; apply show_N_has; auto using comma_not_digit, colon_not_digit);
      apply show_N_has; auto using comma_not_digit, colon_not_digit).
    unfold parse_slice. rewrite show_N_neq_empty.
    change (String.eqb (String "-" (show_N k)) "") with false. cbv iota. cbn [bind].
    assert (E : py_int (String "-" (show_N k)) = Ok (- Z.of_N k)%Z) by apply py_int_neg_show_N.
    rewrite E. destruct (Z.ltb_spec (- Z.of_N k) 0); [|lia]. reflexivity.
Qed.

Example C12_example :
  idx_parser (fun _ => None) (VStr "1:-3") (Some (line [10; 20; 30; 40])) false = Ok (ISlice 1 2) /\
  idx_parser (fun _ => None) (VStr "2:") (Some (line [10; 20; 30; 40])) false = Ok (ISlice 2 4).
Proof. split; reflexivity. Qed.

Print Assumptions C09_coordinate_cell.
Print Assumptions C09_select_coordinate.
Print Assumptions C09_points_beyond_end_refuted.
Print Assumptions C10_select_block.
Print Assumptions C10_negative_index_refuted.
Print Assumptions C11_no_mutation.
Print Assumptions C11_identity.
Print Assumptions C11_composition.
Print Assumptions C11_overwrite.
Print Assumptions C12_slice_text.
Print Assumptions C12_slice_open.
Print Assumptions C12_negative_stop.
Print Assumptions C12_negative_stop_keeps_all.
Print Assumptions C12_python_negative_stop_refuted.
Print Assumptions C12_step_rejected.
Print Assumptions C12_component_slice_open_rejected.
