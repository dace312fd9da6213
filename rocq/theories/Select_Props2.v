(** * C10 on mapped grids: every coordinate array is cut along every axis. *)
From Coq Require Import String Ascii List ZArith QArith Bool Lia Sorted.
From Verif Require Import Prelude PreludeFacts NdArray GData_Model Select_Model Select_Spec Select_Proofs.
Import ListNotations.
Open Scope list_scope.
Local Open Scope nat_scope.

(** A dataset over a mapped grid: one coordinate array per dimension, each of
    them giving the coordinate at every node (or at every cell centre) of the
    whole [N]-dimensional mesh, [N >= 2]. *)
Record mapped_data {A} (d : gdata A) (gs : list garr) (v : nda A)
       (cells nodes : list nat) (nc : nat) : Prop := {
  md_grid : g_grid d = Some gs;
  md_vals : g_vals d = Some v;
  md_cells : c_cells d = Some cells;
  md_bounds : exists b, get_bounds d = Ok b;
  md_wf : wf v;
  md_shape : shape v = cells ++ [nc];
  md_dims : 2 <= length cells;
  md_num : length gs = length cells;
  md_nodes : Forall2 (fun n m => m = S n \/ m = n) cells nodes;
  md_arrays : Forall (fun g => wf g /\ shape g = nodes) gs
}.

Local Open Scope string_scope.
(** The argument [z] asks for the cells [a .. b-1] out of [n] cells; [m0] is
    the length of the first axis of the coordinate arrays (what Python's
    [len] returns for an array with several axes). *)
Inductive mapped_cut (m0 n : nat) : option ival -> nat -> nat -> Prop :=
| mc_none : mapped_cut m0 n None 0 n
| mc_int k : k < n -> mapped_cut m0 n (Some (VInt (Z.of_nat k))) k (S k)
| mc_digits k : k < n -> mapped_cut m0 n (Some (VStr (show_N (N.of_nat k)))) k (S k)
| mc_range a b : a <= b <= n ->
    mapped_cut m0 n (Some (VStr (show_N (N.of_nat a) ++ ":" ++ show_N (N.of_nat b)))) a b
| mc_upto b : b <= n -> mapped_cut m0 n (Some (VStr (":" ++ show_N (N.of_nat b)))) 0 b
| mc_from a : a <= n -> n <= m0 -> mapped_cut m0 n (Some (VStr (show_N (N.of_nat a) ++ ":"))) a n
| mc_all : n <= m0 -> mapped_cut m0 n (Some (VStr ":")) 0 n.
Local Open Scope list_scope.
Local Open Scope nat_scope.

Definition mapped_cuts (zs : list (option ival)) (cells nodes : list nat) (cuts : list (nat * nat)) : Prop :=
  length cuts = length cells /\
  forall k n a b, nth_error cells k = Some n -> nth_error cuts k = Some (a, b) ->
    mapped_cut (nth 0 nodes 0) n (nth k zs None) a b.

(** Nodes kept along an axis with [n] cells and [m] nodes. *)
Definition kept (n m a b : nat) : nat := if m =? n then b - a else S (b - a).

Lemma mapped_cut_le m0 n z a b : mapped_cut m0 n z a b -> a <= b <= n.
Proof. intros []; lia. Qed.

Lemma adjust_idx n k : (0 <= k)%Z -> adjust_pos n k = Z.min k n.
Proof. intros H. unfold adjust_pos. destruct (Z.ltb_spec k 0); lia. Qed.

Lemma axis_slices_mapped pfloat g n m rest z a b m0 :
  shape g = m0 :: rest -> (m = S n \/ m = n) ->
  mapped_cut m0 n (Some z) a b ->
  exists vs gs, axis_slices pfloat z g m n = Ok (vs, gs) /\
    slice2 n (fst vs) (snd vs) = seq a (b - a) /\
    slice2 m (fst gs) (snd gs) = seq a (kept n m a b).
Proof.
  intros Hs Hm Hc. unfold axis_slices.
  assert (Hal : arr_len (Some g) = Ok (Z.of_nat m0)) by (unfold arr_len; now rewrite Hs).
  set (nodal := (n =? m)).
  assert (Hk : kept n m a b = if nodal then b - a else S (b - a)).
  { unfold kept, nodal. now rewrite Nat.eqb_sym. }
  assert (Hlen : m = if nodal then n else S n).
  { unfold nodal. destruct (Nat.eqb_spec n m); lia. }
  rewrite Hk. clearbody nodal.
  assert (RNG : forall za zb, za = Z.of_nat a -> (zb = Z.of_nat b \/ (b = n /\ (Z.of_nat n <= zb)%Z)) ->
     a <= b <= n -> idx_parser pfloat z (Some g) nodal = Ok (ISlice za zb) -> exists vs gs,
     (let* idx := idx_parser pfloat z (Some g) nodal in
      match idx with
      | IInt i => Ok (i, (i + 1)%Z, if nodal then (i, (i + 1)%Z) else (i, (i + 2)%Z))
      | ISlice a0 b0 => Ok (a0, b0, if nodal then (a0, b0) else (a0, (b0 + 1)%Z))
      | ITuple _ => Err TypeError
      end) = Ok (vs, gs) /\ slice2 n (fst vs) (snd vs) = seq a (b - a) /\
     slice2 m (fst gs) (snd gs) = seq a (if nodal then b - a else S (b - a))).
  { intros za zb -> Hzb Hab Hp. rewrite Hp. do 2 eexists. split; [reflexivity|].
    unfold slice2. simpl fst; simpl snd.
    destruct nodal; simpl fst; simpl snd; rewrite !adjust_idx by lia; split; f_equal; lia. }
  assert (INT : forall zi, zi = Z.of_nat a -> b = S a -> a < n -> idx_parser pfloat z (Some g) nodal = Ok (IInt zi) -> exists vs gs,
     (let* idx := idx_parser pfloat z (Some g) nodal in
      match idx with
      | IInt i => Ok (i, (i + 1)%Z, if nodal then (i, (i + 1)%Z) else (i, (i + 2)%Z))
      | ISlice a0 b0 => Ok (a0, b0, if nodal then (a0, b0) else (a0, (b0 + 1)%Z))
      | ITuple _ => Err TypeError
      end) = Ok (vs, gs) /\ slice2 n (fst vs) (snd vs) = seq a (b - a) /\
     slice2 m (fst gs) (snd gs) = seq a (if nodal then b - a else S (b - a))).
  { intros zi -> -> Hab Hp. rewrite Hp. do 2 eexists. split; [reflexivity|].
    unfold slice2. simpl fst; simpl snd.
    destruct nodal; simpl fst; simpl snd; rewrite !adjust_idx by lia; split; f_equal; lia. }
  inversion Hc; subst z; subst.
  - eapply INT; [| | |reflexivity]; auto.
  - eapply INT; [| | |apply parse_digits]; auto. lia.
  - eapply RNG; [| | |apply parse_range]; lia.
  - eapply RNG; [| | |apply parse_upto]; lia.
  - eapply RNG; [| | |apply (parse_from _ _ _ _ _ Hal)]; lia.
  - eapply RNG; [| | |apply (parse_all _ _ _ _ Hal)]; lia.
Qed.

Lemma nth_res_ok {B} (l : list B) k x : nth_error l k = Some x -> nth_res l k = Ok x.
Proof. unfold nth_res. now intros ->. Qed.

Definition node_sel (cells nodes : list nat) (cuts : list (nat * nat)) : list (list nat) :=
  map2 (fun nm ab => seq (fst ab) (kept (fst nm) (snd nm) (fst ab) (snd ab))) (combine cells nodes) cuts.

Lemma select_mapped_lemma {A} pfloat (d : gdata A) gs v cells nodes nc zs comp cuts ks :
  mapped_data d gs v cells nodes nc ->
  mapped_cuts zs cells nodes cuts ->
  comp_means nc comp ks ->
  select pfloat d zs comp false
  = Ok (List.map (take (node_sel cells nodes cuts)) gs, take (sel_of cuts ++ [ks]) v, d).
Proof.
  intros [Rg Rv Rc [bd Rb] Rw Rs Rd Rn Rnd Ra] [Hlc Hcuts] Hk.
  pose proof (Forall2_length _ _ _ Rnd) as Hln.
  unfold select. rewrite Rg, Rv.
  assert (Hnd : get_num_dims d = length cells) by (unfold get_num_dims; now rewrite Rc).
  rewrite Hnd, Rb. simpl bind.
  rewrite Rs, app_length. simpl length.
  destruct (Nat.leb_spec (length cells + 1) (length cells)); [lia|].
  destruct gs as [|g0 gs'] eqn:Egs. { simpl in Rn. lia. }
  rewrite <- Egs in *.
  cbv iota.
  assert (Hun : (length (shape g0) =? 1) = false).
  { rewrite List.Forall_forall in Ra. destruct (Ra g0) as [_ E]; [rewrite Egs; now left|].
    rewrite E. apply Nat.eqb_neq. lia. }
  rewrite Hun. cbv zeta. cbv iota.
  destruct nodes as [|m0 nodes'] eqn:Enodes. { simpl in Hln. lia. }
  rewrite <- Enodes in *.
  set (F := fun k : nat => match nth_error zs k with _ => _ end).
  set (P := fun (k : nat) (s : (Z * Z) * option (Z * Z)) =>
     forall n m a b, nth_error cells k = Some n -> nth_error nodes k = Some m ->
       nth_error cuts k = Some (a, b) ->
       slice2 n (fst (fst s)) (snd (fst s)) = seq a (b - a) /\
       exists q, snd s = Some q /\ slice2 m (fst q) (snd q) = seq a (kept n m a b)).
  assert (HF : exists sl, mapM F (seq 0 (length cells)) = Ok sl /\ Forall2 P (seq 0 (length cells)) sl).
  { apply mapM_exists. intros k Hin. apply in_seq in Hin.
    destruct (nth_error_exists cells k) as [n Hn]; [lia|].
    destruct (nth_error_exists gs k) as [g Hg]; [lia|].
    destruct (nth_error_exists nodes k) as [m Hm]; [lia|].
    destruct (nth_error_exists cuts k) as [[a b] Hab]; [lia|].
    specialize (Hcuts k n a b Hn Hab).
    pose proof (Forall2_nth_error _ _ _ k _ _ Rnd Hn Hm) as Hnm. simpl in Hnm.
    assert (Hgs : shape g = nodes).
    { rewrite List.Forall_forall in Ra. apply (Ra g). eapply nth_error_In; eauto. }
    assert (Hsv : nth_res (cells ++ [nc]) k = Ok n).
    { apply nth_res_ok. rewrite nth_error_app1 by lia. auto. }
    assert (DONE : forall vs gsl, slice2 n (fst vs) (snd vs) = seq a (b - a) ->
       slice2 m (fst gsl) (snd gsl) = seq a (kept n m a b) -> P k (vs, Some gsl)).
    { intros vs gsl E1 E2 n' m' a' b' Hn' Hm' Hab'.
      rewrite Hn in Hn'. injection Hn' as <-. rewrite Hm in Hm'. injection Hm' as <-.
      rewrite Hab in Hab'. injection Hab' as <- <-. simpl. split; eauto. }
    assert (NONE : nth k zs None = None -> exists s,
       (let* vlen := nth_res (cells ++ [nc]) k in
        let* gd := nth_res gs k in
        let* n := nth_res (shape gd) k in
        Ok ((0, Z.of_nat vlen)%Z, Some (0, Z.of_nat n)%Z)) = Ok s /\ P k s).
    { intros EN. rewrite EN in Hcuts. inversion Hcuts; subst a b.
      rewrite Hsv, (nth_res_ok _ _ _ Hg). simpl bind. rewrite Hgs, (nth_res_ok _ _ _ Hm).
      eexists. split; [reflexivity|]. apply DONE; simpl fst; simpl snd; rewrite slice2_in by lia.
      - f_equal. lia.
      - unfold kept. destruct (Nat.eqb_spec m n); f_equal; lia. }
    unfold F. destruct (nth_error zs k) as [[z|]|] eqn:Ez.
    - rewrite (nth_error_nth _ _ None Ez) in Hcuts.
      rewrite (nth_res_ok _ _ _ Hg), Hsv. simpl bind. rewrite Hgs, (nth_res_ok _ _ _ Hm). simpl bind.
      assert (Hs0 : shape g = m0 :: nodes') by congruence.
      assert (E0 : nth 0 nodes 0 = m0) by (rewrite Enodes; reflexivity). rewrite E0 in Hcuts.
      destruct (axis_slices_mapped pfloat g n m nodes' z a b m0 Hs0 Hnm Hcuts) as (vs & gsl & E & E1 & E2).
      rewrite E. simpl bind. eexists. split; [reflexivity|]. simpl. apply DONE; auto.
    - apply NONE. exact (nth_error_nth _ _ None Ez).
    - apply NONE. apply nth_overflow, nth_error_None; auto. }
  destruct HF as (sl & -> & HP). simpl bind.
  assert (Hsl : length sl = length cells).
  { apply Forall2_length in HP. rewrite seq_length in HP. auto. }
  rewrite (select_values_means pfloat (List.map fst sl) comp v cells nc ks) by (rewrite ?map_length; auto).
  simpl bind.
  assert (Eax : map2 (fun n s => slice2 n (fst s) (snd s)) cells (List.map fst sl) = sel_of cuts).
  { apply nth_error_ext. intros k. rewrite nth_error_map2. unfold sel_of. rewrite !nth_error_map.
    destruct (nth_error cells k) as [n|] eqn:Hn.
    - assert (k < length cells) by (apply nth_error_Some; congruence).
      destruct (nth_error_exists nodes k) as [m Hm]; [lia|].
      destruct (nth_error_exists cuts k) as [[a b] Hab]; [lia|].
      destruct (nth_error_exists sl k) as [s Hs]; [lia|].
      rewrite Hs, Hab. simpl.
      destruct (Forall2_seq_nth _ _ _ _ _ _ HP Hs n m a b Hn Hm Hab) as [-> _]. reflexivity.
    - apply nth_error_None in Hn.
      assert (nth_error cuts k = None) as -> by (apply nth_error_None; lia). reflexivity. }
  rewrite Eax.
  set (gsl := List.map (fun s : (Z * Z) * option (Z * Z) =>
       match snd s with Some g => g | None => (0, 0)%Z end) sl).
  assert (Eg : map2 (fun n s => slice2 n (fst s) (snd s)) nodes gsl = node_sel cells nodes cuts).
  { apply nth_error_ext. intros k. unfold node_sel, gsl. rewrite !nth_error_map2, nth_error_map.
    destruct (nth_error nodes k) as [m|] eqn:Hm.
    - assert (k < length nodes) by (apply nth_error_Some; congruence).
      destruct (nth_error_exists cells k) as [n Hn]; [lia|].
      destruct (nth_error_exists cuts k) as [[a b] Hab]; [lia|].
      destruct (nth_error_exists sl k) as [s Hs]; [lia|].
      rewrite Hs, Hab, (nth_error_combine _ _ _ _ _ Hn Hm). simpl.
      destruct (Forall2_seq_nth _ _ _ _ _ _ HP Hs n m a b Hn Hm Hab) as [_ (q & Eq & Es)].
      rewrite Eq. simpl. now rewrite Es.
    - apply nth_error_None in Hm.
      assert (nth_error (combine cells nodes) k = None) as ->
        by (apply nth_error_None; rewrite combine_length; lia). reflexivity. }
  set (G := fun k : nat => bind _ _).
  assert (EG : mapM G (seq 0 (length gs)) = Ok (List.map (take (node_sel cells nodes cuts)) gs)).
  { apply mapM_ok. apply Forall2_nth_error_intro.
    - now rewrite seq_length, map_length.
    - intros k j q Hj Hq. rewrite nth_error_seq in Hj.
      destruct (Nat.ltb_spec k (length gs)) as [Hk'|]; [|discriminate]. injection Hj as <-. simpl plus.
      rewrite nth_error_map in Hq. destruct (nth_error_exists gs k Hk') as [g Hg]. rewrite (Hg : @nth_error (nda Q) gs k = Some g) in Hq. simpl in Hq.
      injection Hq as <-. unfold G. rewrite (nth_res_ok _ _ _ Hg). simpl bind.
      destruct (Nat.ltb_spec k (length cells)); [|lia].
      fold gsl. unfold slice_array.
      assert (Hgs : shape g = nodes).
      { rewrite List.Forall_forall in Ra. apply (Ra g). eapply nth_error_In; eauto. }
      rewrite Hgs. assert (Hl : length gsl = length nodes) by (unfold gsl; rewrite map_length; lia).
      rewrite Hl, Nat.ltb_irrefl, Eg, skipn_all, app_nil_r. reflexivity. }
  rewrite EG. reflexivity.
Qed.

Lemma node_sel_lengths cells nodes cuts :
  List.map (@length nat) (node_sel cells nodes cuts)
  = map2 (fun nm ab => kept (fst nm) (snd nm) (fst ab) (snd ab)) (combine cells nodes) cuts.
Proof.
  unfold node_sel. apply nth_error_ext. intros k.
  rewrite nth_error_map, !nth_error_map2.
  destruct (nth_error (combine cells nodes) k), (nth_error cuts k); simpl; rewrite ?seq_length; reflexivity.
Qed.

(** Selecting cells [a_d .. b_d - 1] in every dimension [d] of a dataset on a
    mapped grid: the values are the requested block, and each of the
    coordinate arrays is cut along every axis to the nodes of these cells. *)
Theorem C10_select_mapped : forall pfloat A (d : gdata A) gs v cells nodes nc zs comp cuts ks,
  mapped_data d gs v cells nodes nc ->
  mapped_cuts zs cells nodes cuts ->
  comp_means nc comp ks ->
  exists gout vout,
    select pfloat d zs comp false = Ok (gout, vout, d) /\
    wf vout /\
    shape vout = List.map (fun ab => snd ab - fst ab) cuts ++ [length ks] /\
    (forall idx c k,
        in_range (List.map (fun ab => snd ab - fst ab) cuts) idx -> nth_error ks c = Some k ->
        get vout (idx ++ [c]) = get v (map2 Nat.add (List.map fst cuts) idx ++ [k])) /\
    length gout = length gs /\
    (forall j g g', nth_error gs j = Some g -> nth_error gout j = Some g' ->
       wf g' /\ length (shape g') = length cells /\
       (forall k n a b, nth_error cells k = Some n -> nth_error cuts k = Some (a, b) ->
          nth_error nodes k = Some (S n) -> nth_error (shape g') k = Some (S (b - a))) /\
       (forall k n a b, nth_error cells k = Some n -> nth_error cuts k = Some (a, b) ->
          nth_error nodes k = Some n -> nth_error (shape g') k = Some (b - a)) /\
       (forall idx, in_range (shape g') idx ->
          get g' idx = get g (map2 Nat.add (List.map fst cuts) idx))).
Proof.
  intros pfloat A d gs v cells nodes nc zs comp cuts ks R HC HK.
  pose proof (select_mapped_lemma pfloat d gs v cells nodes nc zs comp cuts ks R HC HK) as E.
  destruct HC as [HL HC].
  pose proof (Forall2_length _ _ _ (md_nodes _ _ _ _ _ _ R)) as Hln.
  assert (Hb : Forall2 (fun ab n => fst ab <= snd ab <= n) cuts cells).
  { apply Forall2_nth_error_intro; auto. intros k [a b] n Hab Hn. simpl.
    eapply mapped_cut_le, HC; eauto. }
  do 2 eexists. split; [exact E|].
  split; [|split; [|split; [|split]]].
  - apply wf_take; [apply (md_wf _ _ _ _ _ _ R)|]. rewrite (md_shape _ _ _ _ _ _ R).
    apply sel_of_bounds; auto. eapply comp_means_lt; eauto.
  - simpl. rewrite map_app, sel_of_lengths. reflexivity.
  - intros idx c k Hi Hk. apply take_block_get with (cells := cells) (nc := nc); auto.
    + apply (md_wf _ _ _ _ _ _ R).
    + apply (md_shape _ _ _ _ _ _ R).
    + eapply comp_means_lt; eauto.
  - apply map_length.
  - intros j g g' Hg Hg'. rewrite nth_error_map, (Hg : @nth_error (nda Q) gs j = Some g) in Hg'. injection Hg' as <-.
    pose proof (md_arrays _ _ _ _ _ _ R) as Ra. rewrite List.Forall_forall in Ra.
    destruct (Ra g) as [Hwg Hsg]; [eapply nth_error_In; eauto|].
    pose proof (md_nodes _ _ _ _ _ _ R) as Rnd.
    assert (Hsel : Forall2 (fun s n => forall i, In i s -> i < n) (node_sel cells nodes cuts) (shape g)).
    { rewrite Hsg. apply Forall2_nth_error_intro.
      - unfold node_sel. rewrite map2_length, combine_length. lia.
      - intros k s m Hs Hm. unfold node_sel in Hs. rewrite nth_error_map2 in Hs.
        destruct (nth_error_exists cells k) as [n Hn].
        { rewrite Hln. apply nth_error_Some. congruence. }
        destruct (nth_error_exists cuts k) as [[a b] Hab].
        { rewrite HL, Hln. apply nth_error_Some. congruence. }
        rewrite (nth_error_combine _ _ _ _ _ Hn Hm), Hab in Hs. simpl in Hs. injection Hs as <-.
        pose proof (Forall2_nth_error _ _ _ _ _ _ Hb Hab Hn) as Hle. simpl in Hle.
        pose proof (Forall2_nth_error _ _ _ k _ _ Rnd Hn Hm) as Hnm. simpl in Hnm.
        intros i Hi. apply in_seq in Hi. unfold kept in Hi.
        destruct (Nat.eqb_spec m n); lia. }
    split; [apply wf_take; auto|].
    change (shape (take (node_sel cells nodes cuts) g)) with (List.map (@length nat) (node_sel cells nodes cuts)).
    rewrite node_sel_lengths.
    split; [rewrite map2_length, combine_length; lia|].
    split; [|split].
    + intros k n a b Hn Hab Hm. rewrite nth_error_map2, (nth_error_combine _ _ _ _ _ Hn Hm), Hab.
      cbn. unfold kept. destruct (Nat.eqb_spec (S n) n); [lia|reflexivity].
    + intros k n a b Hn Hab Hm. rewrite nth_error_map2, (nth_error_combine _ _ _ _ _ Hn Hm), Hab.
      cbn. unfold kept. now rewrite Nat.eqb_refl.
    + intros idx Hi. apply get_take; auto.
      * rewrite node_sel_lengths. auto.
      * apply Forall2_nth_error_intro.
        -- apply in_range_length in Hi. rewrite map2_length, combine_length in Hi.
           unfold node_sel. rewrite combine_length, !map2_length, combine_length, map_length. lia.
        -- intros k [s i] q Hsi Hq. cbn.
           rewrite nth_error_map2, nth_error_map in Hq.
           destruct (nth_error cuts k) as [[a b]|] eqn:Hab; [|discriminate]. cbn in Hq.
           destruct (nth_error idx k) as [i'|] eqn:Hik; [|discriminate]. injection Hq as <-.
           assert (k < length cells) by (rewrite <- HL; apply nth_error_Some; congruence).
           destruct (nth_error_exists cells k) as [n Hn]; [auto|].
           destruct (nth_error_exists nodes k) as [m Hm]; [lia|].
           assert (Hs : nth_error (node_sel cells nodes cuts) k = Some (seq a (kept n m a b))).
           { unfold node_sel. rewrite nth_error_map2, (nth_error_combine _ _ _ _ _ Hn Hm), Hab. reflexivity. }
           rewrite (nth_error_combine _ _ _ _ _ Hs Hik) in Hsi. injection Hsi as <- <-.
           rewrite nth_error_seq.
           assert (i' < kept n m a b).
           { eapply (Forall2_nth_error _ _ _ k i' (kept n m a b) Hi); auto.
             rewrite nth_error_map2, (nth_error_combine _ _ _ _ _ Hn Hm), Hab. reflexivity. }
           destruct (Nat.ltb_spec i' (kept n m a b)); [reflexivity|lia].
Qed.

(** A coordinate (a float) cannot be looked up in the coordinate arrays of a
    mapped grid: numpy only searches in arrays with one axis. *)
Theorem C10_mapped_coordinate : forall pfloat A (d : gdata A) gs v cells nodes nc comp ow x zs k,
  mapped_data d gs v cells nodes nc -> k < length cells ->
  nth_error zs k = Some (Some (VFloat x)) -> (forall j, j < k -> nth j zs None = None) ->
  select pfloat d zs comp ow = Err ValueError.
Proof.
  intros pfloat A d gs v cells nodes nc comp ow x zs k [Rg Rv Rc [bd Rb] Rw Rs Rd Rn Rnd Ra] Hkl Hz Hbefore.
  pose proof (Forall2_length _ _ _ Rnd) as Hln.
  unfold select. rewrite Rg, Rv.
  assert (Hnd : get_num_dims d = length cells) by (unfold get_num_dims; now rewrite Rc).
  rewrite Hnd, Rb. simpl bind.
  rewrite Rs, app_length. simpl length.
  destruct (Nat.leb_spec (length cells + 1) (length cells)); [lia|].
  destruct gs as [|g0 gs'] eqn:Egs. { simpl in Rn. lia. }
  rewrite <- Egs in *. cbv iota.
  assert (Hun : (length (shape g0) =? 1) = false).
  { rewrite List.Forall_forall in Ra. destruct (Ra g0) as [_ E]; [rewrite Egs; now left|].
    rewrite E. apply Nat.eqb_neq. lia. }
  rewrite Hun. cbv zeta. cbv iota.
  set (F := fun k : nat => match nth_error zs k with _ => _ end).
  assert (Hfacts : forall j, j < length cells -> exists n m g, nth_res (cells ++ [nc]) j = Ok n /\
     nth_res gs j = Ok g /\ nth_res (shape g) j = Ok m /\ 2 <= length (shape g)).
  { intros j Hj.
    destruct (nth_error_exists cells j) as [n Hn]; [lia|].
    destruct (nth_error_exists gs j) as [g Hg]; [lia|].
    destruct (nth_error_exists nodes j) as [m Hm]; [lia|].
    exists n, m, g. split; [apply nth_res_ok; rewrite nth_error_app1 by lia; auto|].
    assert (Hgs : shape g = nodes).
    { rewrite List.Forall_forall in Ra. apply (Ra g). eapply nth_error_In; eauto. }
    rewrite Hgs. repeat split; try (apply nth_res_ok; auto). lia. }
  assert (HF : mapM F (seq 0 (length cells)) = Err ValueError).
  { assert (G : forall len s, s <= k -> k < s + len -> s + len <= length cells ->
       mapM F (seq s len) = Err ValueError).
    { induction len as [|len IH]; intros s Hs Hk2 Hl; [lia|]. simpl mapM.
      destruct (Hfacts s) as (n & m & g & E1 & E2 & E3 & E4); [lia|].
      destruct (Nat.eq_dec s k) as [->|Hne].
      - unfold F at 1. rewrite Hz, E2, E1. simpl bind. rewrite E3. simpl bind.
        unfold axis_slices, idx_parser, find_index.
        assert (E5 : find_cell_index (Some g) x = Err ValueError /\ find_nearest_index (Some g) x = Err ValueError).
        { unfold find_cell_index, find_nearest_index.
          destruct (shape g) as [|? [|? ?]]; simpl in E4; try lia; split; reflexivity. }
        destruct E5 as [-> ->]. destruct (n =? m); reflexivity.
      - assert (EF : exists q, F s = Ok q).
        { unfold F. pose proof (Hbefore s ltac:(lia)) as EN.
          destruct (nth_error zs s) as [[z|]|] eqn:Ez.
          - rewrite (nth_error_nth _ _ None Ez) in EN. discriminate.
          - rewrite E1, E2. simpl bind. rewrite E3. simpl. eauto.
          - rewrite E1, E2. simpl bind. rewrite E3. simpl. eauto. }
        destruct EF as [q ->]. simpl bind. rewrite (IH (S s)) by lia. reflexivity. }
    apply G; lia. }
  rewrite HF. reflexivity.
Qed.

(** 2 x 3 cells, the node coordinates of a sheared mesh. *)
Definition exm_v : nda nat := mk_nda [2; 3; 2] (seq 100 12).
Definition exm_x : garr := mk_nda [3; 4] (List.map inject_Z [0; 1; 2; 3; 10; 11; 12; 13; 20; 21; 22; 23]%Z).
Definition exm_y : garr := mk_nda [3; 4] (List.map inject_Z [0; 5; 6; 7; 1; 6; 7; 8; 2; 7; 8; 9]%Z).
Definition exm_d : gdata nat :=
  mk_gdata (Some [exm_x; exm_y]) (Some exm_v) (Some [2; 3]) (Some 2)
           (Some [0%Q; 0%Q]) (Some [inject_Z 23; inject_Z 9]).
Local Open Scope string_scope.
Example C10_mapped_ex :
  mapped_data exm_d [exm_x; exm_y] exm_v [2; 3] [3; 4] 2 /\
  mapped_cuts [Some (VInt 1); Some (VStr "1:")] [2; 3] [3; 4] [(1, 2); (1, 3)] /\
  select (fun _ => None) exm_d [Some (VInt 1); Some (VStr "1:")] None false
  = Ok ([mk_nda [2; 3] (List.map inject_Z [11; 12; 13; 21; 22; 23]%Z);
         mk_nda [2; 3] (List.map inject_Z [6; 7; 8; 7; 8; 9]%Z)],
        mk_nda [1; 2; 2] [108; 109; 110; 111], exm_d).
Proof.
  split; [|split].
  - constructor; try reflexivity; try (eexists; reflexivity); repeat constructor; auto.
  - split; [reflexivity|]. intros [|[|k]] n a b; simpl; try discriminate.
    + intros [= <-] [= <- <-]. apply (mc_int 3 2 1). lia.
    + intros [= <-] [= <- <-]. apply (mc_from 3 3 1); lia.
    + destruct k; discriminate.
  - reflexivity.
Qed.

(** The open-ended form ["a:"] takes Python's [len] of the coordinate array,
    which is the number of nodes along the FIRST axis: on a mesh of 1 x 4 cells
    ["0:"] along the second dimension keeps only the first two of the four
    cells, silently. *)
Theorem C10_mapped_open_slice_refuted :
  exists (d : gdata nat) gs v cells nodes nc gout vout,
    mapped_data d gs v cells nodes nc /\ cells = [1; 4] /\
    select (fun _ => None) d [None; Some (VStr "0:")] None false = Ok (gout, vout, d) /\
    shape vout = [1; 2; nc].
Proof.
  set (gx := mk_nda [2; 5] (List.map inject_Z [0; 0; 0; 0; 0; 1; 1; 1; 1; 1]%Z) : garr).
  set (gy := mk_nda [2; 5] (List.map inject_Z [0; 1; 2; 3; 4; 0; 1; 2; 3; 4]%Z) : garr).
  set (v := mk_nda [1; 4; 1] [7; 8; 9; 10]).
  exists (mk_gdata (Some [gx; gy]) (Some v) (Some [1; 4]) (Some 1)
            (Some [0%Q; 0%Q]) (Some [inject_Z 1; inject_Z 4])), [gx; gy], v, [1; 4], [2; 5], 1.
  do 2 eexists. split; [|split; [reflexivity|split; [reflexivity|reflexivity]]].
  constructor; try reflexivity; try (eexists; reflexivity); repeat constructor; auto.
Qed.

Print Assumptions C10_select_mapped.
Print Assumptions C10_mapped_coordinate.
Print Assumptions C10_mapped_open_slice_refuted.
