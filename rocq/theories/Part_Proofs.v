(** * Proofs about Part_Model *)
From Coq Require Import String Ascii List Arith ZArith Bool Lia Reals Lra.
From Verif Require Import Prelude PreludeFacts NdArray Gkyl_Model Gkyl_Spec Gkyl_Proofs Gkyl_Proofs2 Gkyl_Proofs3 Gkyl_Props Msgpack_Model Msgpack_Spec Msgpack_Props
  Dg_Poly Dg_TabI Dg_TabD Dg_Model Dg_Spec Dg_Props Dg_Props3 Dg_Sem Dg_Gram Dg_Props5 DgCmd_Model Dg_Props8
  Tools_Arr Draw_Model Draw_Spec Draw_Proofs Draw_Proofs2 Draw_Props Draw_Props2 Show_Model Show_Spec Show_Proofs Show_Props Part_Model.
Import ListNotations.
Open Scope string_scope. Open Scope list_scope. Open Scope nat_scope.

(** The file holds this field: in one piece, or in ranges that cover the domain
    and hold its values. *)
Definition stores (rt : Z) (meta : list Z) (fd : field) (f : list Z) : Prop :=
  f = field_bytes rt meta fd \/
  exists rs, f = multi_bytes rt meta fd rs /\ fits (Z.of_nat (length rs)) /\
    Forall (good_range (width_of rt) (fd_cells fd) (fd_nc fd)) rs /\
    (forall idx, in_range (fd_cells fd) idx -> exists r, In r rs /\ covers r idx) /\
    (forall r idx c, In r rs -> covers r idx -> in_range (fd_cells fd) idx -> c < fd_nc fd ->
       Gkyl_Spec.stored r (fd_nc fd) idx c = get (mk_nda (fd_cells fd ++ [fd_nc fd]) (fd_data fd)) (idx ++ [c])).

Lemma described_readable meta d : described meta d -> meta_readable unpack meta.
Proof.
  intros [[-> _]|He]; [now left|]. right. unfold unpack. rewrite (C118_decode _ _ He). eexists. reflexivity.
Qed.

Section Files.
  Context {F M : Type} (fo : fops F) (unp : list Z -> option (option (list (string * M)))) (mtrue : M).
  Context (rt : Z) (meta : list Z) (fd : field) (f : list Z).
  Context (Hg : good_field rt (width_of rt) meta fd) (Hm : meta_readable unp meta) (Hs : stores rt meta fd f).

  Lemma stores_compatible : is_compatible f = true.
  Proof.
    destruct Hs as [-> |(rs & -> & _)].
    - apply (is_compatible_header _ 1 meta (domain_bytes rt fd ++ concat (fd_data fd))). apply At_0.
    - unfold multi_bytes. apply (is_compatible_header _ 3 meta (domain_bytes rt fd ++ u64n (length rs) ++ flat_map range_bytes rs)). apply At_0.
  Qed.

  Lemma stores_whole ctx : 0 < fd_nc fd -> Forall (fun n => 0 < n) (fd_cells fd) ->
    load fo unp mtrue f None ctx = load fo unp mtrue (field_bytes rt meta fd) None ctx.
  Proof. intros Hn Hc. destruct Hs as [-> |(rs & -> & Hf & Hr & Hcov & Hst)]; [reflexivity|]. now apply C03_tiling. Qed.

  Lemma stores_part ctx ps abs ca cb : cuts_select ps (fd_cells fd) (fd_nc fd) abs ca cb ->
    let dd := part_domain fo rt fd (prod (fd_cells fd)) abs ca cb in
    exists g p, load fo unp mtrue (field_bytes rt meta fd) None ctx = Ok g /\ load fo unp mtrue f (Some ps) ctx = Ok p /\
      l_grid p = grid_for fo (cut_cells abs) (d_lower dd) (d_upper dd) /\ l_ctx p = l_ctx g /\
      wf (l_data p) /\ shape (l_data p) = cut_cells abs ++ [cb - ca] /\
      forall idx c, in_range (cut_cells abs) idx -> c < cb - ca ->
        get (l_data p) (idx ++ [c]) = get (l_data g) (map2 (fun ab i => fst ab + i) abs idx ++ [ca + c]).
  Proof.
    intros Hcut dd. destruct (cuts_good _ _ _ _ _ _ Hcut) as [Hgood Hcc]. pose proof Hg as (Hd & _). pose proof (meta_readable_ok _ _ Hm) as Hmo.
    assert (Hpos : Forall (fun n => 0 < n) (fd_cells fd)).
    { apply Forall_forall. intros n Hin. apply In_nth_error in Hin as [k Hk]. destruct Hgood as [Hl Hg'].
      destruct (nth_error abs k) as [[a b]|] eqn:Ea; [specialize (Hg' _ _ _ _ Hk Ea); lia|].
      apply nth_error_None in Ea. assert (k < length (fd_cells fd)) by (apply nth_error_Some; congruence). lia. }
    destruct Hs as [-> |(rs & -> & Hf & Hr & Hcov & Hst)].
    - destruct (C05_partial_is_slice F M fo unp mtrue rt meta fd ctx ps abs ca cb Hg Hm Hcut) as (g & p & E1 & E2 & _ & _ & Ec & W & Sh & V).
      exists g, p. split; [exact E1|]. split; [exact E2|].
      assert (Ef : field_bytes rt meta fd = header_bytes 1 meta ++ u64 rt ++ u64n (length (fd_cells fd)) ++ flat_map u64n (fd_cells fd)
        ++ concat (fd_lower fd) ++ concat (fd_upper fd) ++ u64n (fd_nc fd * width_of rt) ++ u64n (prod (fd_cells fd)) ++ concat (fd_data fd))
        by (unfold field_bytes, domain_bytes; rewrite <- !app_assoc; reflexivity).
      assert (Hfit : fits (Z.of_nat (prod (fd_cells fd)))) by apply Hd.
      pose proof (load_partial_t1 fo unp mtrue _ rt meta fd _ ctx ps abs ca cb Ef Hg Hmo Hfit Hcut) as E3. cbv zeta in E3. rewrite E2 in E3. injection E3 as E3.
      split; [rewrite E3; reflexivity|]. do 3 (split; [assumption|]). intros idx c Hi Hc. destruct (V idx c Hi Hc) as (v & -> & ->). reflexivity.
    - assert (Hnc : 0 < fd_nc fd) by lia.
      destruct (C06_partial_multi_range F M fo unp mtrue rt meta fd rs ctx ps abs ca cb Hd Hm Hf Hr Hcut) as (g & p & E1 & E2 & _ & _ & Ec & W & Sh & V).
      rewrite (C03_tiling F M fo unp mtrue rt meta fd rs ctx Hg Hm Hf Hr Hnc Hpos Hcov Hst) in E1.
      exists g, p. split; [exact E1|]. split; [exact E2|].
      destruct (load_t3 fo unp mtrue (multi_bytes rt meta fd rs) rt meta fd rs ctx (Some ps) abs ca cb eq_refl Hd Hmo Hf Hr Hcut) as (dp & lo & up & E3 & B & _).
      cbv zeta in B. injection B as -> ->. rewrite E2 in E3. injection E3 as E3.
      split; [rewrite E3; reflexivity|]. do 3 (split; [assumption|]). intros idx c Hi Hc. destruct (V idx c Hi Hc) as (v & -> & ->). reflexivity.
  Qed.
End Files.

(** ** Opening *)
Section Opened.
  Context (dec : nat -> list Z -> R) (rt : Z) (meta : list Z) (d : list (mkey * mval)) (fd : field) (f : list Z).
  Let dc := dec (width_of rt).
  Context (Hg : good_field rt (width_of rt) meta fd) (Hd : described meta d) (Hs : stores rt meta fd f).

  Lemma open_stores : 0 < fd_nc fd -> Forall (fun n => 0 < n) (fd_cells fd) -> open_file dec f = open_file dec (field_bytes rt meta fd).
  Proof.
    intros Hn Hc. unfold open_file. rewrite (stores_compatible rt meta fd f Hs), (stores_compatible rt meta fd _ (or_introl eq_refl)).
    rewrite (stores_whole (rnum dec) unpack (MBool true) rt meta fd f Hg (described_readable _ _ Hd) Hs) by assumption. reflexivity.
  Qed.

  (** What is opened of a part: the part of the values, and the edges of its cells. *)
  Lemma open_part_described ps abs ca cb : cuts_select ps (fd_cells fd) (fd_nc fd) abs ca cb ->
    exists x y, open_file dec (field_bytes rt meta fd) = Ok x /\ open_part dec f ps = Ok y /\
      dd_basis (i_data y) = dd_basis (i_data x) /\ dd_poly (i_data y) = dd_poly (i_data x) /\ i_modal y = i_modal x /\
      dd_grid_type (i_data y) = "uniform" /\
      wf (dd_values (i_data y)) /\ shape (dd_values (i_data y)) = cut_cells abs ++ [cb - ca] /\
      (forall idx c, in_range (cut_cells abs) idx -> c < cb - ca ->
        get (dd_values (i_data y)) (idx ++ [c]) = get (dd_values (i_data x)) (map2 (fun ab i => fst ab + i) abs idx ++ [ca + c])) /\
      uniform_axes (cut_cells abs) (fun a => edge dc fd a (cells_along fd a) (fst (nth a abs (0, 0)))) (fun a => edge dc fd a (cells_along fd a) (snd (nth a abs (0, 0)))) (dd_grid (i_data y)).
  Proof.
    intros Hcut. destruct (stores_part (rnum dec) unpack (MBool true) rt meta fd f Hg (described_readable _ _ Hd) Hs [] ps abs ca cb Hcut) as (g & p & E1 & E2 & Gr & Ec & W & Sh & V).
    exists (file_data g), (file_data p). unfold open_file, open_part. rewrite (stores_compatible rt meta fd f Hs), (stores_compatible rt meta fd _ (or_introl eq_refl)), E1, E2. cbn [bind].
    split; [reflexivity|]. split; [reflexivity|]. unfold file_data. cbn [i_data dd_basis dd_poly i_modal dd_grid_type dd_values dd_grid]. rewrite Ec.
    do 4 (split; [reflexivity|]). do 3 (split; [assumption|]).
    destruct (cuts_good _ _ _ _ _ _ Hcut) as [[Hla Hgc] Hcc]. pose proof Hg as ((_ & Hll & Hlu & _) & _).
    assert (Hbd := apply_cuts_bounds (rnum dec) (fd_cells fd) (List.map (fdec (rnum dec) (width_of rt)) (fd_lower fd)) (List.map (fdec (rnum dec) (width_of rt)) (fd_upper fd))
       (Z.of_nat (fd_nc fd)) (Z.of_nat (prod (fd_cells fd))) abs (Z.of_nat ca, (Z.of_nat (fd_nc fd) - Z.of_nat cb)%Z)).
    cbv zeta in Hbd. rewrite !map_length in Hbd. destruct (Hbd Hll Hlu Hla) as (B1 & B2 & B3). clear Hbd.
    fold (part_domain (rnum dec) rt fd (prod (fd_cells fd)) abs ca cb) in B1, B2, B3.
    assert (Hlc : length (cut_cells abs) = length (fd_cells fd)) by (unfold cut_cells; now rewrite map_length).
    split; [rewrite map_length, Gr; unfold grid_for; rewrite map_length, !combine_length; lia|].
    intros a x Hx. rewrite nth_error_map in Hx. destruct (nth_error (l_grid p) a) as [l|] eqn:El; [|discriminate]. injection Hx as <-. cbn [flat line_nda].
    assert (La : a < length (fd_cells fd)).
    { assert (a < length (l_grid p)) as L by (apply nth_error_Some; congruence). rewrite Gr in L. unfold grid_for in L. rewrite map_length, !combine_length in L. lia. }
    destruct (nth_error (fd_cells fd) a) as [n|] eqn:En; [|apply nth_error_None in En; lia].
    destruct (nth_error abs a) as [[u v]|] eqn:Ea; [|apply nth_error_None in Ea; lia]. pose proof (Hgc _ _ _ _ En Ea) as Huv.
    destruct (nth_error (List.map (fdec (rnum dec) (width_of rt)) (fd_lower fd)) a) as [lo|] eqn:E3; [|apply nth_error_None in E3; rewrite map_length in E3; lia].
    destruct (nth_error (List.map (fdec (rnum dec) (width_of rt)) (fd_upper fd)) a) as [up|] eqn:E4; [|apply nth_error_None in E4; rewrite map_length in E4; lia].
    destruct (B3 _ _ _ _ _ _ En Ea E3 E4) as (L1 & U1).
    assert (Ec2 : nth_error (cut_cells abs) a = Some (v - u)) by (unfold cut_cells; now rewrite nth_error_map, Ea).
    rewrite Gr in El. rewrite (grid_for_nth (rnum dec) _ _ _ _ _ _ _ Ec2 L1 U1) in El. injection El as <-. rewrite linspace_rnum.
    rewrite (nth_error_nth _ _ (0, 0) Ea), (nth_error_nth _ _ 0 Ec2). cbn [fst snd].
    assert (N : (0 < INR n)%R) by (apply lt_0_INR; lia). unfold edge, cells_along. rewrite (nth_error_nth _ _ 0 En).
    rewrite (nth_map_dec _ _ _ _ E3 []), (nth_map_dec _ _ _ _ E4 []). cbn [rnum fdec fadd fsub fmul fdiv fofZ]. fold dc. fold (low dc fd a). fold (high dc fd a).
    f_equal.
    - rewrite <- !INR_IZR_INZ. field. lra.
    - rewrite minus_IZR, <- !INR_IZR_INZ. field. lra.
  Qed.
End Opened.

(** ** Interpolating *)

(** Position of a part in the whole. *)
Definition moved (abs : list (nat * nat)) (ns q : list nat) : list nat := map2 (fun an i => fst (fst an) * snd an + i) (combine abs ns) q.

Lemma moved_sub abs : forall ns i k, length abs = length ns -> length i = length ns -> length k = length ns ->
  moved abs ns (sub_index ns i k) = sub_index ns (map2 (fun ab j => fst ab + j) abs i) k.
Proof.
  unfold moved, sub_index. induction abs as [|[a b] abs IH]; intros [|n ns] [|i is] [|k ks]; cbn [length]; intros L1 L2 L3; try lia; [reflexivity|].
  cbn [combine List.map map2 fst snd]. f_equal; [lia|]. apply IH; lia.
Qed.

Lemma moved_nth abs : forall ns q a, length abs = length ns -> length q = length ns -> a < length ns ->
  nth a (moved abs ns q) 0 = fst (nth a abs (0, 0)) * nth a ns 0 + nth a q 0.
Proof.
  unfold moved. induction abs as [|[u v] abs IH]; intros [|n ns] [|i q] [|a]; cbn [length]; intros L1 L2 L3; try lia; [reflexivity|].
  cbn [combine map2 nth]. apply IH; lia.
Qed.

Lemma in_moved cells abs : forall i, length abs = length cells -> (forall d n a b, nth_error cells d = Some n -> nth_error abs d = Some (a, b) -> a < b <= n) ->
  in_range (cut_cells abs) i -> in_range cells (map2 (fun ab j => fst ab + j) abs i).
Proof.
  revert abs. induction cells as [|n cells IH]; intros [|[a b] abs] i L H Hi; try discriminate L; inversion Hi as [|j m i' sh Hj Hi']; subst; cbn [map2]; constructor.
  - cbn [fst snd] in *. pose proof (H 0 n a b eq_refl eq_refl). lia.
  - apply IH; [cbn in L; lia| |exact Hi']. intros d. apply (H (S d)).
Qed.
