(** * C87: line-outs across blocks. *)
From Coq Require Import String Ascii List Arith ZArith QArith Qabs Bool Sorted Permutation Lia Lqa.
From Verif Require Import Prelude PreludeFacts NdArray GData_Model Select_Model Select_Spec Select_Proofs
  DataSpace_Model DataSpace_Spec DataSpace_Proofs DataSpace_Proofs2 DataSpace_Proofs3 Sort
  Multi_Model Multi_Proofs Multi_Props2 Multi_Proofs2.
Import ListNotations.
Open Scope list_scope.

Section C87.
  Context {A : Type} (pfloat : string -> option Q).

  (** Blocks of a plane: what the datasets [L] hold, without overlap. *)
  Definition plane (ds : dspace (blk A)) (L : list ref) (X : ref -> nat -> list Q) (V : ref -> nda A)
      (N : ref -> nat -> nat) (nc : nat) (lo hi : ref -> nat -> Q) : Prop :=
    (forall r, In r L -> exists d, lookup ds r = Some d /\ b_nbrs (ds_data d) = [] /\
       is_block (b_data (ds_data d)) (X r) (V r) (N r) nc (lo r) (hi r)) /\
    no_overlap 2 lo hi L /\ separated 2 lo hi L.

  (** C87: the line at coordinate [z] of axis [cut] through the blocks
      [c0 :: cs], from the lower edge of the domain to its upper edge, is one
      new dataset: the edges along the line joined, every value taken from the
      block and the cell it belongs to.  All blocks are deactivated, nothing
      else changes. *)
  Theorem C87_lineout fuel (o : mopts) ds ts cut z q X V N nc lo hi i ks c0 cs :
    let L := active_all ds ts in
    let ax := (1 - cut)%nat in
    let chain := c0 :: cs in
    let tag := match m_tag o with Some t => t | None => ""%string end in
    let new := (tag, match aget tag ds with Some l => length l | None => 0%nat end) in
    (cut < 2)%nat -> z <> ""%string -> pfloat z = Some q ->
    m_z0 o = (if (cut =? 0)%nat then Some z else None) ->
    m_z1 o = (if (cut =? 0)%nat then None else Some z) ->
    m_multiframe o = false ->
    (exists p, set_frame ds = Ok p) ->
    names ds (m_use o) ts -> Forall (fun t => In t (List.map fst ds)) ts ->
    plane ds L X V N nc lo hi ->
    In c0 L -> (forall s, In s L -> lo c0 ax <= lo s ax) -> lo c0 cut <= q -> q <= hi c0 cut ->
    (forall s, In s L -> lo s ax == lo c0 ax -> lo s cut <= q -> q <= hi s cut -> s = c0) ->
    stacked lo hi ax L c0 cs ->
    (forall c, In c chain -> cut_means pfloat (X c cut) (N c cut) (Some (VStr z)) (i c) (S (i c))) ->
    comp_means nc (option_map VStr (m_comp o)) ks ->
    (length cs < fuel)%nat ->
    exists ds' d xs v,
      select_multiblock pfloat fuel o ds = Ok ds' /\
      lookup ds' new = Some d /\ ds_status d = true /\ ds_label d = m_label o /\ b_frame (ds_data d) = Some 0%Z /\
      rect_data (b_data (ds_data d))
        (if (cut =? 0)%nat then [stretch (X c0 cut) (i c0) 2; xs] else [xs; stretch (X c0 cut) (i c0) 2])
        v (at2 cut 1 (total (List.map (fun c => N c ax) chain))) (length ks) /\
      Forall2 Qeq xs (joined (X c0 ax) (List.map (fun c => X c ax) cs)) /\ increasing xs /\
      (forall p c j k kk, nth_error chain p = Some c -> (j < N c ax)%nat -> nth_error ks kk = Some k ->
         get v (at2 cut 0 (total (List.map (fun c => N c ax) (firstn p chain)) + j) ++ [kk])
         = get (V c) (at2 cut (i c) j ++ [k])) /\
      (forall r e, lookup ds r = Some e -> exists e', lookup ds' r = Some e' /\
         ds_id e' = ds_id e /\ ds_file e' = ds_file e /\ ds_label e' = ds_label e /\
         b_data (ds_data e') = b_data (ds_data e) /\
         (In r L -> ds_status e' = false) /\ (~ In r L -> ds_status e' = ds_status e)) /\
      (forall r, lookup ds r = None -> r <> new -> lookup ds' r = None).
  Proof.
    cbn zeta. intros Hcut Hz Hq Hz0 Hz1 Hmf ([ds1 frames] & Esf) Hn Hk (Hpl & Hno & Hsep) Hc0 Hmin Hq1 Hq2 Hun Hst Hcm Hks Hf.
    set (L := active_all ds ts) in *. set (ax := (1 - cut)%nat) in *.
    destruct (set_frame_sim ds ds1 frames Esf) as [S1 Nb1].
    set (D := fun r => match lookup ds r with Some d => b_data (ds_data d) | None => empty_gdata end).
    assert (HB : forall r, In r L -> is_block (D r) (X r) (V r) (N r) nc (lo r) (hi r)).
    { intros r Hr. destruct (Hpl r Hr) as (d & E & _ & B). unfold D. now rewrite E. }
    assert (H0 : holds D L ds).
    { intros r Hr. destruct (Hpl r Hr) as (d & E & _). exists d. split; [exact E|]. unfold D. now rewrite E. }
    assert (H1 : holds D L ds1) by now apply (holds_sim D L ds).
    assert (Hnb1 : forall r d, In r L -> lookup ds1 r = Some d -> b_nbrs (ds_data d) = []).
    { intros r d Hr Hd. destruct (Hpl r Hr) as (e & E & En & _). rewrite <- En. now apply (Nb1 r). }
    assert (Hon : Forall (on_line pfloat L X N cut z i) (c0 :: cs)).
    { apply Forall_forall. intros c Hc. split; [|now apply Hcm].
      destruct Hc as [<-|Hc]; [exact Hc0|].
      apply (stacked_above D L X V N nc lo hi HB ax c0 cs Hst); auto. unfold ax. lia. }
    assert (Hgiven : given (Some z) = Some z).
    { unfold given. destruct (String.eqb_spec z ""); [contradiction|reflexivity]. }
    unfold select_multiblock. rewrite Esf. cbn [bind]. unfold frame_lists. rewrite Hmf.
    rewrite (sim_refs ds ds1 (m_use o) ts S1 Hn Hk). cbn [bind]. fold L.
    cbn [all_frames one_frame].
    assert (Hlow : exists low, lowest ds1 L ax = Ok low /\ low == lo c0 ax).
    { apply (lowest_ok D L X V N nc lo hi HB cut Hcut); auto. unfold ax; lia. }
    destruct Hlow as (low & El & Hlow).
    destruct (lowest_some D L X V N nc lo hi HB cut Hcut ds1 cut H1 Hcut) as (low' & El').
    { intros E. rewrite E in Hc0. destruct Hc0. }
    assert (Hfind : forall b, find_block pfloat ds1 L cut z low b = Ok (Some c0)).
    { apply (find_block_ok pfloat D L X V N nc lo hi HB cut z ks i Hcut q Hq); auto.
      - unfold starts. fold ax. rewrite Hlow. repeat split; auto.
      - intros s Hs (P1 & P2 & P3). apply Hun; auto. fold ax in P3. now rewrite P3. }
    destruct (H1 c0 Hc0) as (d0 & Ed0 & _).
    destruct (set_neighbors_ok D L X V N nc lo hi HB Hno Hsep ds1 c0 d0 H1 Hc0 Ed0 (Hnb1 c0 d0 Hc0 Ed0))
      as (ds2 & E2 & S2 & O2 & U2).
    assert (H2 : holds D L ds2) by now apply (holds_sim D L ds1).
    destruct (lineout_ok pfloat D L X V N nc lo hi HB Hno Hsep cut z (m_comp o) ks i Hcut Hks (m_use o) ts ds Hn Hk eq_refl
                c0 cs fuel ds2 Hf) as (ds3 & c' & v & E3 & S3 & Hv1 & Hv2); auto.
    { now apply (sim_trans ds ds1 ds2). }
    { apply U2. fold ax. unfold ax. lia. }
    { intros s d Hs Hd.
      assert (Hs' : In s L /\ lo c0 ax < lo s ax).
      { apply (stacked_above D L X V N nc lo hi HB ax c0 cs Hst); auto. unfold ax; lia. }
      rewrite O2 in Hd by (intros ->; destruct Hs'; lra). apply (Hnb1 s); [apply Hs'|exact Hd]. }
    fold ax in E3, Hv1, Hv2.
    set (xs := unique_Q (List.concat (List.map (fun c => X c ax) (c0 :: cs)))) in *.
    assert (Hxs : Forall2 Qeq xs (joined (X c0 ax) (List.map (fun c => X c ax) cs)) /\ increasing xs).
    { apply consecutive_unique. now apply (chain_consecutive pfloat D L X V N nc lo hi HB cut z i Hcut). }
    destruct Hxs as [Hxs1 Hxs2].
    pose proof (line_length pfloat D L X V N nc lo hi HB cut z i Hcut c0 cs Hon Hst) as Hlx. fold ax in Hlx. fold xs in Hlx.
    set (n := total (List.map (fun c => N c ax) (c0 :: cs))) in *.
    set (gc := stretch (X c0 cut) (i c0) 2) in *.
    assert (Hgc : length gc = 2%nat).
    { unfold gc. destruct (ib_edges _ _ _ _ _ _ _ (HB c0 Hc0) cut Hcut) as (E & _). unfold edges_of in E.
      rewrite stretch_length; [reflexivity|]. rewrite E.
      pose proof (on_line_lt pfloat D L X V N nc lo hi HB cut z i Hcut c0) as P. inversion Hon; subst. specialize (P H4). lia. }
    assert (Hpush : exists d', push empty_gdata (grid2 cut gc xs) v = (d', None) /\
              rect_data d' (if (cut =? 0)%nat then [gc; xs] else [xs; gc]) v (at2 cut 1 n) (length ks)).
    { destruct (push_rect (empty_gdata : gdata A) (if (cut =? 0)%nat then [gc; xs] else [xs; gc]) v (at2 cut 1 n) (length ks)) as (d' & E & R).
      - unfold wf. rewrite Hv1, Hv2.
        rewrite (length_concat_total _ (fun c => N c ax) (c0 :: cs) (length ks)).
        + fold n. unfold line_shape. destruct (cut =? 0)%nat; unfold prod; cbn [fold_right]; lia.
        + intros c Hc. rewrite Forall_forall in Hon.
          apply (T_facts pfloat D L X V N nc lo hi HB cut z (m_comp o) ks i Hcut Hks c (Hon c Hc)).
      - rewrite Hv1. unfold line_shape, at2. destruct (cut =? 0)%nat; reflexivity.
      - unfold at2. destruct (cut =? 0)%nat; discriminate.
      - unfold at2, edges_of. destruct (cut =? 0)%nat; (constructor; [|constructor; [|constructor]]); left; lia.
      - destruct (cut =? 0)%nat; (constructor; [|constructor; [|constructor]]); intros E; rewrite E in *; discriminate.
      - exists d'. split; [|exact R]. rewrite <- E. f_equal. unfold grid2. destruct (cut =? 0)%nat; reflexivity. }
    destruct Hpush as (d' & Epush & Rd).
    assert (Hrun : (let* low0 := lowest ds1 L 0 in
                    let* low1 := lowest ds1 L 1 in
                    let* block := match given (m_z0 o) with
                                  | Some z => find_block pfloat ds1 L 0 z low1 None | None => Ok None end in
                    match given (m_z1 o) with
                    | Some z => find_block pfloat ds1 L 1 z low0 block | None => Ok block end) = Ok (Some c0)).
    { rewrite Hz0, Hz1. clear - Hcut El El' Hfind Hgiven. unfold ax in *.
      destruct cut as [|[|k]]; [| |lia]; cbn [Nat.eqb]; rewrite Hgiven; cbn [given].
      - change (1 - 0)%nat with 1%nat in El. rewrite El', El. cbn [bind]. rewrite Hfind. reflexivity.
      - change (1 - 1)%nat with 0%nat in El. rewrite El', El. cbn [bind]. apply Hfind. }
    assert (Hline : match given (m_z0 o), given (m_z1 o) with
                    | None, None => Err UnboundLocalError
                    | Some z, None => lineout pfloat fuel ds2 (m_use o) c0 0 z (m_comp o)
                    | None, Some z => lineout pfloat fuel ds2 (m_use o) c0 1 z (m_comp o)
                    | Some z, Some _ => let* _ := lineout pfloat fuel ds2 (m_use o) c0 0 z (m_comp o) in Err AttributeError
                    end = Ok (ds3, c', grid2 cut gc xs, v)).
    { rewrite Hz0, Hz1. clear - Hcut E3 Hgiven.
      destruct cut as [|[|k]]; [| |lia]; cbn [Nat.eqb]; rewrite Hgiven; cbn [given]; exact E3. }
    apply bind_ok in Hrun as (low0 & R1 & Hrun). apply bind_ok in Hrun as (low1 & R2 & Hrun). apply bind_ok in Hrun as (b & R3 & Hrun).
    rewrite R1. cbn [bind]. rewrite R2. cbn [bind]. rewrite R3. cbn [bind]. rewrite Hrun. cbn [bind]. rewrite E2. cbn [bind].
    rewrite Hline. cbn [bind]. rewrite Epush. cbn [bind fst].
    set (tag := match m_tag o with Some t => t | None => ""%string end).
    set (ds4 := fold_left (fun ds s => modify ds s (set_status false)) L ds3).
    assert (Elen : match aget tag ds4 with Some l => length l | None => 0%nat end = match aget tag ds with Some l => length l | None => 0%nat end).
    { assert (E : lens ds4 tag = lens ds tag).
      { unfold ds4. rewrite lens_deactivate. apply S3. }
      unfold lens in E. destruct (aget tag ds4), (aget tag ds); try discriminate; auto. cbn in E. now injection E. }
    eexists _, _, xs, v. split; [reflexivity|]. split.
    { rewrite <- Elen. apply lookup_add_new. }
    split; [reflexivity|]. split; [reflexivity|]. split; [reflexivity|]. split; [exact Rd|]. split; [exact Hxs1|]. split; [exact Hxs2|].
    split; [|split].
    - intros p c j k kk Hp Hj Hkk.
      assert (Hc : on_line pfloat L X N cut z i c).
      { rewrite Forall_forall in Hon. apply Hon. eapply nth_error_In; eauto. }
      assert (Hkl : (kk < length ks)%nat) by (apply nth_error_Some; congruence).
      pose proof (T_facts pfloat D L X V N nc lo hi HB cut z (m_comp o) ks i Hcut Hks) as TF. fold ax in TF.
      destruct (TF c Hc) as (_ & T2 & _). rewrite <- (T2 j k kk Hj Hkk).
      rewrite <- (nth_error_concat (fun c => flat (cut_take cut (i c) (N c ax) ks (V c))) (fun c => N c ax) (c0 :: cs) (length ks) p c (j * length ks + kk)); auto.
      2:{ intros x Hx. rewrite Forall_forall in Hon. apply (TF x (Hon x Hx)). }
      2:{ nia. }
      rewrite <- Hv2. set (off := total (List.map (fun c => N c ax) (firstn p (c0 :: cs)))).
      assert (Hlt : (off + j < n)%nat).
      { unfold off, n. clear - Hp Hj. revert p Hp. generalize (c0 :: cs). induction l as [|x l IH]; intros [|p] Hp; try discriminate.
        - injection Hp as ->. cbn [firstn List.map total fold_right]. lia.
        - cbn [firstn List.map total fold_right]. specialize (IH p Hp). unfold total in IH. lia. }
      unfold get. rewrite Hv1. unfold line_shape, at2.
      destruct (cut =? 0)%nat; cbn [app ravel].
      + change (0 <? 1)%nat with true. rewrite (proj2 (Nat.ltb_lt _ _) Hlt), (proj2 (Nat.ltb_lt _ _) Hkl). cbn [option_map].
        f_equal. unfold prod; cbn [fold_right]. lia.
      + rewrite (proj2 (Nat.ltb_lt _ _) Hlt). change (0 <? 1)%nat with true. rewrite (proj2 (Nat.ltb_lt _ _) Hkl). cbn [option_map].
        f_equal. unfold prod; cbn [fold_right]. lia.
    - intros r e He. destruct (sim_lookup ds ds3 r e S3 He) as (e3 & E & Es). unfold strip in Es. injection Es as I1 I2 I3 I4 I5.
      exists (if in_dec ref_eq_dec r L then set_status false e3 else e3). split.
      + apply lookup_add_old. unfold ds4. rewrite lookup_deactivate, E. destruct (in_dec ref_eq_dec r L); reflexivity.
      + destruct (in_dec ref_eq_dec r L); cbn; repeat split; auto; try contradiction; tauto.
    - intros r Hr Hne. apply lookup_add_other.
      + unfold ds4. rewrite lookup_deactivate.
        assert (E : lookup ds3 r = None).
        { destruct (lookup ds3 r) as [e3|] eqn:E; [|reflexivity].
          destruct (sim_lookup_back ds ds3 r e3 S3 E) as (e & He & _). congruence. }
        rewrite E. destruct (in_dec ref_eq_dec r L); reflexivity.
      + rewrite Elen. exact Hne.
  Qed.
End C87.

(** When no block at the lower edge of the domain contains the coordinate, the
    command stops, even if other blocks contain it. *)
Theorem C87_missing {A} pfloat fuel (o : mopts) (ds : dspace (blk A)) ts cut z q X V N nc lo hi c0 :
  let L := active_all ds ts in
  let ax := (1 - cut)%nat in
  (cut < 2)%nat -> z <> ""%string -> pfloat z = Some q ->
  m_z0 o = (if (cut =? 0)%nat then Some z else None) ->
  m_z1 o = (if (cut =? 0)%nat then None else Some z) ->
  m_multiframe o = false ->
  (exists p, set_frame ds = Ok p) ->
  names ds (m_use o) ts -> Forall (fun t => In t (List.map fst ds)) ts ->
  plane ds L X V N nc lo hi ->
  In c0 L -> (forall s, In s L -> lo c0 ax <= lo s ax) ->
  (forall s, In s L -> lo s ax == lo c0 ax -> ~ (lo s cut <= q /\ q <= hi s cut)) ->
  select_multiblock pfloat fuel o ds = Err UnboundLocalError.
Proof.
  cbn zeta. intros Hcut Hz Hq Hz0 Hz1 Hmf ([ds1 frames] & Esf) Hn Hk (Hpl & _ & _) Hc0 Hmin Hun.
  set (L := active_all ds ts) in *. set (ax := (1 - cut)%nat) in *.
  destruct (set_frame_sim ds ds1 frames Esf) as [S1 Nb1].
  set (D := fun r => match lookup ds r with Some d => b_data (ds_data d) | None => empty_gdata end).
  assert (HB : forall r, In r L -> is_block (D r) (X r) (V r) (N r) nc (lo r) (hi r)).
  { intros r Hr. destruct (Hpl r Hr) as (d & E & _ & B). unfold D. now rewrite E. }
  assert (H0 : holds D L ds).
  { intros r Hr. destruct (Hpl r Hr) as (d & E & _). exists d. split; [exact E|]. unfold D. now rewrite E. }
  assert (H1 : holds D L ds1) by now apply (holds_sim D L ds).
  assert (Hgiven : given (Some z) = Some z).
  { unfold given. destruct (String.eqb_spec z ""); [contradiction|reflexivity]. }
  unfold select_multiblock. rewrite Esf. cbn [bind]. unfold frame_lists. rewrite Hmf.
  rewrite (sim_refs ds ds1 (m_use o) ts S1 Hn Hk). cbn [bind]. fold L.
  cbn [all_frames one_frame].
  assert (Hlow : exists low, lowest ds1 L ax = Ok low /\ low == lo c0 ax).
  { apply (lowest_ok D L X V N nc lo hi HB cut Hcut); auto. unfold ax; lia. }
  destruct Hlow as (low & El & Hlow).
  destruct (lowest_some D L X V N nc lo hi HB cut Hcut ds1 cut H1 Hcut) as (low' & El').
  { intros E. rewrite E in Hc0. destruct Hc0. }
  assert (Hfind : forall b, find_block pfloat ds1 L cut z low b = Ok b).
  { apply (find_block_none pfloat D L X V N nc lo hi HB cut z Hcut q Hq); auto.
    intros s Hs (P1 & P2 & P3). fold ax in P3. apply (Hun s Hs); [now rewrite P3|auto]. }
  rewrite Hz0, Hz1. clear - Hcut El El' Hfind Hgiven. unfold ax in *.
  destruct cut as [|[|k]]; [| |lia]; cbn [Nat.eqb]; rewrite Hgiven; cbn [given].
  - change (1 - 0)%nat with 1%nat in El. rewrite El', El. cbn [bind]. rewrite Hfind. reflexivity.
  - change (1 - 1)%nat with 0%nat in El. rewrite El', El. cbn [bind]. rewrite Hfind. reflexivity.
Qed.

(** ** Examples *)
Definition ex_b (xs ys : list Q) (vs : list nat) : blk nat :=
  let nx := (length xs - 1)%nat in let ny := (length ys - 1)%nat in
  mk_blk (mk_gdata (Some [line xs; line ys]) (Some (mk_nda [nx; ny; 1%nat] vs)) (Some [nx; ny]) (Some 1%nat)
            (Some [hd 0 xs; hd 0 ys]) (Some [last xs 0; last ys 0])) None [].

(** Blocks (0..2)x(0..1), (0..2)x(1..3) and (2..4)x(0..1). *)
Definition ex_X (r : ref) (k : nat) : list Q :=
  match snd r, k with
  | 2%nat, 0%nat => [2; 3; 4] | _, 0%nat => [0; 1; 2]
  | 1%nat, _ => [1; 2; 3] | _, _ => [0; 1]
  end.
Definition ex_N (r : ref) (k : nat) : nat := match snd r, k with _, 0%nat => 2%nat | 1%nat, _ => 2%nat | _, _ => 1%nat end.
Definition ex_V (r : ref) : nda nat :=
  match snd r with
  | 0%nat => mk_nda [2; 1; 1]%nat [10; 11]%nat
  | 1%nat => mk_nda [2; 2; 1]%nat [20; 21; 22; 23]%nat
  | _ => mk_nda [2; 1; 1]%nat [30; 31]%nat
  end.
Definition ex_blo (r : ref) (k : nat) : Q := hd 0 (ex_X r k).
Definition ex_bhi (r : ref) (k : nat) : Q := last (ex_X r k) 0.
Definition ex_three : dspace (blk nat) :=
  [("default"%string,
    [mk_dset 1 "s_0.gkyl" true "" (ex_b [0; 1; 2] [0; 1] [10; 11]%nat);
     mk_dset 2 "s_1.gkyl" true "" (ex_b [0; 1; 2] [1; 2; 3] [20; 21; 22; 23]%nat);
     mk_dset 3 "s_2.gkyl" true "" (ex_b [2; 3; 4] [0; 1] [30; 31]%nat)])].
Definition ex_float (s : string) : option Q :=
  if String.eqb s "1.5" then Some (3 # 2) else if String.eqb s "0.5" then Some (1 # 2) else if String.eqb s "2.5" then Some (5 # 2) else None.

Lemma ex_plane : plane ex_three (active_all ex_three ["default"%string]) ex_X ex_V ex_N 1 ex_blo ex_bhi.
Proof.
  split; [|split].
  - intros r Hr. vm_compute in Hr.
    destruct Hr as [<-|[<-|[<-|[]]]]; (eexists; split; [reflexivity|]; split; [reflexivity|]).
    all: constructor; [constructor; try reflexivity; try discriminate; [eexists; reflexivity|]
      | | repeat eexists].
    all: try (constructor; [left; reflexivity|constructor; [left; reflexivity|constructor]]).
    all: intros [|[|k]] Hk; try lia; cbn; repeat split; try lia; repeat constructor.
  - intros r s Hr Hs Hne. vm_compute in Hr, Hs.
    destruct Hr as [<-|[<-|[<-|[]]]]; destruct Hs as [<-|[<-|[<-|[]]]]; try congruence; cbn;
      first [exists 0%nat; split; [lia|first [left; vm_compute; discriminate|right; vm_compute; discriminate]]
            |exists 1%nat; split; [lia|first [left; vm_compute; discriminate|right; vm_compute; discriminate]]].
  - intros r s k Hr Hs Hk. vm_compute in Hr, Hs.
    destruct Hr as [<-|[<-|[<-|[]]]]; destruct Hs as [<-|[<-|[<-|[]]]];
      destruct k as [|[|k]]; try lia;
      (split; [|split; [|split]]); unfold apart;
      first [left; vm_compute; reflexivity|right; vm_compute; reflexivity].
Qed.

(** The line x = 1.5 runs through the first two blocks. *)
Example C87_ex :
  let o := mk_mopts (Some "1.5"%string) None None None (Some "out"%string) "" false in
  exists ds' d xs v,
    select_multiblock ex_float 2 o ex_three = Ok ds' /\ lookup ds' ("out"%string, 0%nat) = Some d /\
    rect_data (b_data (ds_data d)) [[1; 2]; xs] v [1; 3]%nat 1 /\ Forall2 Qeq xs [0; 1; 2; 3] /\
    get v [0; 0; 0]%nat = Some 11%nat /\ get v [0; 1; 0]%nat = Some 22%nat /\ get v [0; 2; 0]%nat = Some 23%nat.
Proof.
  cbn zeta. set (o := mk_mopts _ _ _ _ _ _ _).
  destruct (C87_lineout ex_float 2 o ex_three ["default"%string] 0 "1.5" (3 # 2) ex_X ex_V ex_N 1 ex_blo ex_bhi
              (fun _ => 1%nat) [0%nat] ("default"%string, 0%nat) [("default"%string, 1%nat)])
    as (ds' & d & xs & v & E & El & _ & _ & _ & R & F & _ & G & _); try reflexivity.
  - lia.
  - discriminate.
  - eexists. vm_compute. reflexivity.
  - constructor.
  - repeat constructor.
  - apply ex_plane.
  - left. reflexivity.
  - intros s Hs. vm_compute in Hs. destruct Hs as [<-|[<-|[<-|[]]]]; vm_compute; discriminate.
  - vm_compute. discriminate.
  - vm_compute. discriminate.
  - intros s Hs. vm_compute in Hs. destruct Hs as [<-|[<-|[<-|[]]]]; [reflexivity|vm_compute; discriminate|].
    intros _ H. vm_compute in H. exfalso. now apply H.
  - split; [right; left; reflexivity|]. split.
    + split; [reflexivity|]. intros [|[|k]] Hk Hne; [reflexivity|lia|lia].
    + intros s Hs. vm_compute in Hs. destruct Hs as [<-|[<-|[<-|[]]]]; intros [H _]; vm_compute in H; discriminate.
  - intros c [<-|[<-|[]]]; (apply cm_coord_str with (3 # 2); try reflexivity; [cbn; lia|cbn; repeat constructor|]);
      apply cc_inside with 1 2; reflexivity || (vm_compute; discriminate).
  - cbn. apply (km_none 1).
  - cbn. lia.
  - exists ds', d, xs, v. split; [exact E|]. split; [exact El|]. split; [exact R|]. split; [exact F|].
    split; [exact (G 0%nat _ 0%nat 0%nat 0%nat eq_refl Nat.lt_0_1 eq_refl)|].
    split; [refine (G 1%nat _ 0%nat 0%nat 0%nat eq_refl _ eq_refl); cbn; lia|
            refine (G 1%nat _ 1%nat 0%nat 0%nat eq_refl _ eq_refl); cbn; lia].
Qed.

(** The line y = 2.5 meets only the second block, which lies at the lower edge
    in x; the line y = 0.5 runs through the other two; but x = 2.5 through the
    upper block of an L-shaped domain is not found. *)
Definition ex_ell : dspace (blk nat) :=
  [("default"%string,
    [mk_dset 1 "s_0.gkyl" true "" (ex_b [0; 1; 2] [0; 1] [10; 11]%nat);
     mk_dset 2 "s_1.gkyl" true "" (ex_b [0; 1; 2] [1; 2; 3] [20; 21; 22; 23]%nat);
     mk_dset 3 "s_2.gkyl" true "" (ex_b [2; 3; 4] [1; 2; 3] [30; 31; 32; 33]%nat)])].
Example C87_missing_ex :
  select_multiblock ex_float 5 (mk_mopts (Some "2.5"%string) None None None None "" false) ex_ell = Err UnboundLocalError.
Proof. vm_compute. reflexivity. Qed.

(** With [--multiframe] a line through three blocks takes the third one from
    another frame: the line of frame 1 contains the value 300 of frame 2. *)
Definition ex_frames : dspace (blk nat) :=
  [("default"%string,
    [mk_dset 1 "s_1_b0.gkyl" true "" (ex_b [0; 1] [0; 1] [1]%nat);
     mk_dset 2 "s_1_b1.gkyl" true "" (ex_b [0; 1] [1; 2] [2]%nat);
     mk_dset 3 "s_1_b2.gkyl" true "" (ex_b [0; 1] [2; 3] [3]%nat);
     mk_dset 4 "s_2_b0.gkyl" true "" (ex_b [0; 1] [0; 1] [100]%nat);
     mk_dset 5 "s_2_b1.gkyl" true "" (ex_b [0; 1] [1; 2] [200]%nat);
     mk_dset 6 "s_2_b2.gkyl" true "" (ex_b [0; 1] [2; 3] [300]%nat)])].
Theorem C87_multiframe_refuted :
  exists ds' d, select_multiblock ex_float 9 (mk_mopts (Some "0.5"%string) None None (Some "default"%string) (Some "out"%string) "" true) ex_frames = Ok ds' /\
    lookup ds' ("out"%string, 0%nat) = Some d /\
    g_vals (b_data (ds_data d)) = Some (mk_nda [1; 3; 1]%nat [1; 2; 300]%nat).
Proof.
  eexists _, _. split; [vm_compute; reflexivity|]. split; vm_compute; reflexivity.
Qed.

(** The frame numbers of the datasets with tag [t]. *)
Definition frames_of {A} (t : string) (ds : dspace (blk A)) : list (option Z) :=
  match aget t ds with Some l => List.map (fun d => b_frame (ds_data d)) l | None => [] end.

Lemma frames_modify {A} (ds : dspace (blk A)) r f t : (forall d, b_frame (ds_data (f d)) = b_frame (ds_data d)) ->
  frames_of t (modify ds r f) = frames_of t ds.
Proof.
  intros Hf. unfold modify, frames_of. destruct (aget (fst r) ds) as [l|] eqn:E; [|reflexivity]. destruct (nth_error l (snd r)) as [d|] eqn:En; [|reflexivity].
  rewrite aget_aset. destruct (String.eqb_spec t (fst r)) as [->|_]; [|reflexivity]. rewrite E.
  clear E. revert l En. generalize (snd r) as k. induction k as [|k IH]; intros [|x l] En; try discriminate.
  - cbn in En. injection En as ->. cbn [set_nth List.map]. now rewrite Hf.
  - cbn [set_nth List.map]. f_equal. now apply IH.
Qed.
Lemma frames_neighbors {A} (ds ds' : dspace (blk A)) r l t : set_neighbors ds r l = Ok ds' -> frames_of t ds' = frames_of t ds.
Proof.
  unfold set_neighbors. intros H. apply bind_ok in H as (b & _ & H). apply bind_ok in H as (es & _ & H). apply bind_ok in H as (nb & _ & H).
  injection H as <-. now apply frames_modify.
Qed.
Lemma frames_follow {A} pfloat use cut z comp t : forall fuel (ds : dspace (blk A)) r g vl out,
  follow pfloat fuel ds use r cut z comp g vl = Ok out -> frames_of t (fst (fst (fst out))) = frames_of t ds.
Proof.
  induction fuel as [|fuel IH]; intros ds r g vl out; cbn [follow]; [discriminate|]. intros H.
  apply bind_ok in H as ([r'|] & _ & H); [|injection H as <-; reflexivity].
  apply bind_ok in H as (l & _ & H). apply bind_ok in H as (ds' & E & H). apply bind_ok in H as (gv & _ & H).
  apply bind_ok in H as (g' & _ & H). apply bind_ok in H as (vs & _ & H). rewrite (IH _ _ _ _ _ H). now apply (frames_neighbors _ _ _ _ _ E).
Qed.
Lemma frames_lineout {A} pfloat fuel use cut z comp t (ds : dspace (blk A)) r out :
  lineout pfloat fuel ds use r cut z comp = Ok out -> frames_of t (fst (fst (fst out))) = frames_of t ds.
Proof.
  unfold lineout. intros H. apply bind_ok in H as (gv & _ & H). apply bind_ok in H as (vs & _ & H). apply bind_ok in H as ([[[ds' r'] g] vl] & E & H).
  apply bind_ok in H as (g' & _ & H). apply bind_ok in H as (v & _ & H). injection H as <-. exact (frames_follow _ _ _ _ _ _ _ _ _ _ _ _ E).
Qed.
Lemma frames_deactivate {A} t l : forall ds : dspace (blk A), frames_of t (fold_left (fun ds s => modify ds s (set_status false)) l ds) = frames_of t ds.
Proof. induction l as [|s l IH]; intros ds; cbn [fold_left]; [reflexivity|]. rewrite IH. now apply frames_modify. Qed.

Lemma frames_one {A} pfloat fuel o i l (st st' : dspace (blk A) * option ref) t : one_frame pfloat fuel o i l st = Ok st' ->
  frames_of t (fst st') = frames_of t (fst st) ++ (if String.eqb t (match m_tag o with Some t => t | None => ""%string end) then [Some (Z.of_nat i)] else []).
Proof.
  destruct st as [ds block]. unfold one_frame. intros H.
  apply bind_ok in H as (l0 & _ & H). apply bind_ok in H as (l1 & _ & H).
  apply bind_ok in H as (b0 & _ & H). apply bind_ok in H as (b1 & _ & H).
  destruct b1 as [r|]; [|discriminate]. apply bind_ok in H as (ds2 & E2 & H). apply bind_ok in H as ([[[ds3 r'] g] v] & E3 & H).
  assert (F3 : frames_of t ds3 = frames_of t ds2).
  { destruct (given (m_z0 o)), (given (m_z1 o)).
    - apply bind_ok in E3 as (x & _ & E3). discriminate.
    - exact (frames_lineout _ _ _ _ _ _ _ _ _ _ E3).
    - exact (frames_lineout _ _ _ _ _ _ _ _ _ _ E3).
    - discriminate. }
  destruct (push empty_gdata g v) as [d [e|]]; [discriminate|]. injection H as <-. cbn [fst].
  set (tag := match m_tag o with Some t => t | None => ""%string end). set (ds4 := fold_left _ l ds3).
  rewrite <- (frames_neighbors _ _ _ _ t E2), <- F3, <- (frames_deactivate t l ds3). fold ds4.
  unfold frames_of, add. destruct (aget tag ds4) as [lt|] eqn:E; rewrite aget_aset; destruct (String.eqb_spec t tag) as [->|_]; try (rewrite app_nil_r; reflexivity).
  - rewrite E, map_app. reflexivity.
  - rewrite E. reflexivity.
Qed.

(** The datasets made are numbered by the position of their frame in the sequence of
    frames, not by the frame; the frame numbers of all others are those of [set_frame]. *)
Theorem C87_frame_numbers {A} pfloat fuel (o : mopts) (ds ds' : dspace (blk A)) t : select_multiblock pfloat fuel o ds = Ok ds' ->
  exists ds1 frames, set_frame ds = Ok (ds1, frames) /\ frames_of t ds' = frames_of t ds1 ++
      (if String.eqb t (match m_tag o with Some t => t | None => ""%string end)
       then List.map (fun k => Some (Z.of_nat k)) (seq 0 (if m_multiframe o then length frames else 1)) else []).
Proof.
  unfold select_multiblock. intros H. apply bind_ok in H as ([ds1 frames] & E & H). apply bind_ok in H as (ls & El & H). apply bind_ok in H as (st & Ea & H).
  injection H as <-. exists ds1, frames. split; [exact E|].
  assert (L : length ls = (if m_multiframe o then length frames else 1%nat)).
  { unfold frame_lists in El. destruct (m_multiframe o).
    - apply mapM_ok in El. symmetry. exact (Forall2_length _ _ _ El).
    - apply bind_ok in El as (rs & _ & El). now injection El as <-. }
  rewrite <- L. clear E El L frames.
  assert (G : forall ls i st0, all_frames pfloat fuel o i ls st0 = Ok st ->
    frames_of t (fst st) = frames_of t (fst st0) ++ (if String.eqb t (match m_tag o with Some t => t | None => ""%string end)
      then List.map (fun k => Some (Z.of_nat k)) (seq i (length ls)) else [])).
  { clear. induction ls as [|l ls IH]; intros i st0; cbn [all_frames]; intros H.
    - injection H as ->. destruct (String.eqb t _); now rewrite app_nil_r.
    - apply bind_ok in H as (st1 & E1 & H). rewrite (IH _ _ H), (frames_one _ _ _ _ _ _ _ t E1). destruct (String.eqb t _); [|now rewrite !app_nil_r].
      rewrite <- app_assoc. reflexivity. }
  exact (G ls 0%nat (ds1, None) Ea).
Qed.

(** Frames 1 and 2 are stored as 0 and 1. *)
Theorem C87_frame_numbers_refuted :
  exists ds1 ds', set_frame ex_frames = Ok (ds1, [1; 2]%Z) /\ select_multiblock ex_float 9 (mk_mopts (Some "0.5"%string) None None (Some "default"%string) (Some "out"%string) "" true) ex_frames = Ok ds' /\ frames_of "out" ds' = [Some 0; Some 1]%Z.
Proof. eexists _, _. split; [vm_compute; reflexivity|]. split; vm_compute; reflexivity. Qed.

(** Asking for both coordinates never works. *)
Theorem C87_both {A} pfloat fuel (o : mopts) (ds : dspace (blk A)) z0 z1 ds' :
  given (m_z0 o) = Some z0 -> given (m_z1 o) = Some z1 -> m_multiframe o = false ->
  select_multiblock pfloat fuel o ds <> Ok ds'.
Proof.
  intros H0 H1 Hm. unfold select_multiblock. intros H. apply bind_ok in H as ([ds1 fr] & _ & H).
  unfold frame_lists in H. rewrite Hm in H. apply bind_ok in H as (ls & E & H). apply bind_ok in E as (rs & _ & E).
  injection E as <-. apply bind_ok in H as (st & H & _). cbn [all_frames] in H. apply bind_ok in H as (st' & H & _).
  unfold one_frame in H. rewrite H0, H1 in H.
  apply bind_ok in H as (l0 & _ & H). apply bind_ok in H as (l1 & _ & H).
  apply bind_ok in H as (b0 & _ & H). apply bind_ok in H as (b1 & _ & H).
  destruct b1 as [r|]; [|discriminate]. apply bind_ok in H as (ds2 & _ & H). apply bind_ok in H as (out & H & _).
  apply bind_ok in H as (x & _ & H). discriminate.
Qed.

Print Assumptions C87_lineout.
Print Assumptions C87_missing.
Print Assumptions C87_multiframe_refuted.
Print Assumptions C87_both.
Print Assumptions C87_frame_numbers.
Print Assumptions C87_frame_numbers_refuted.
