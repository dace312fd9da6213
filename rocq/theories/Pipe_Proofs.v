(** * Proofs about opening, selecting and writing. *)
From Coq Require Import String Ascii List ZArith QArith Bool Lia.
From Verif Require Import Prelude PreludeFacts NdArray GData_Model Select_Model Select_Spec Select_Proofs Select_Props
  Gkyl_Model Gkyl_Spec Gkyl_Proofs Gkyl_Proofs2 Gkyl_Proofs3 Gkyl_Props Pipe_Model Pipe_Spec.
Import ListNotations.
Open Scope string_scope. Open Scope list_scope. Open Scope nat_scope.

Lemma nth_error_lt {A} (l : list A) k : k < length l -> exists x, nth_error l k = Some x.
Proof. intros H. destruct (nth_error l k) eqn:E; eauto. apply nth_error_None in E. lia. Qed.
Lemma nth_error_len {A} (l : list A) k x : nth_error l k = Some x -> k < length l.
Proof. intros H. apply nth_error_Some. congruence. Qed.

(** ** The arguments mean the same to the reader and to [select] *)

Lemma show_nat k : show_Z (Z.of_nat k) = show_N (N.of_nat k).
Proof. destruct k; reflexivity. Qed.

Lemma plain_range n z a b qstr : plain_cut n z a b -> cut_range n (cut_text qstr z) a b.
Proof.
  intros H. destruct H; cbn [cut_text].
  - now constructor.
  - now constructor.
  - rewrite <- show_nat. now constructor.
  - rewrite <- !show_nat. apply (cr_slice n (Some (Z.of_nat a)) (Some (Z.of_nat b))); try lia.
    unfold slice_indices, adjust_pos. cbn.
    destruct (Z.ltb_spec (Z.of_nat a) 0); [lia|]. destruct (Z.ltb_spec (Z.of_nat b) 0); [lia|].
    rewrite !Z.min_l by lia. reflexivity.
  - rewrite <- !show_nat. apply (cr_slice n (Some (Z.of_nat a)) None); try lia; auto.
    unfold slice_indices, adjust_pos. cbn.
    destruct (Z.ltb_spec (Z.of_nat a) 0); [lia|].
    rewrite !Z.min_l by lia. reflexivity.
  - rewrite <- !show_nat. apply (cr_slice n None (Some (Z.of_nat b))); try lia; auto.
    unfold slice_indices, adjust_pos. cbn.
    destruct (Z.ltb_spec (Z.of_nat b) 0); [lia|].
    rewrite !Z.min_l by lia. reflexivity.
  - apply (cr_slice n None None); auto; try lia.
Qed.

Lemma plain_comp_range n z a b qstr : plain_comp n z a b -> cut_range n (cut_text qstr z) a b.
Proof.
  intros H. apply plain_range. destruct H; now constructor.
Qed.

Lemma plain_means pf g n z a b : plain_cut n z a b -> cut_means pf g n z a b.
Proof. intros H. destruct H; constructor; lia. Qed.

Lemma plain_comp_means n z a b : plain_comp n z a b -> comp_means n z (seq a (b - a)).
Proof.
  intros H. destruct H.
  - rewrite Nat.sub_0_r. constructor.
  - replace (S k - k) with 1 by lia. now constructor.
  - replace (S k - k) with 1 by lia. now constructor.
  - constructor. lia.
  - rewrite Nat.sub_0_r. constructor. lia.
Qed.

Lemma plain_lt n z a b : plain_cut n z a b -> a < b <= n.
Proof. intros H. destruct H; lia. Qed.
Lemma plain_comp_lt n z a b : plain_comp n z a b -> a < b <= n.
Proof. intros H. destruct H; lia. Qed.

Lemma plain_good cells zs cuts : plain_cuts cells zs cuts -> good_cuts cells cuts.
Proof. intros [H1 H2]. split; auto. intros. eapply plain_lt; eauto. Qed.

Lemma plain_cuts_select qstr cells nc zs comp cuts ca cb :
  length cells <= 6 -> plain_cuts cells zs cuts -> plain_comp nc comp ca cb ->
  cuts_select (List.map (fun k => cut_text qstr (nth k zs None)) (seq 0 6) ++ [cut_text qstr comp])
              cells nc cuts ca cb.
Proof.
  intros H6 [Hl Hc] Hk. split; [reflexivity|]. split; [auto|]. split; [auto|]. split.
  - intros d s n a b Hs Hn Hab. pose proof (nth_error_len _ _ _ Hn) as Hd.
    rewrite nth_error_app1 in Hs by (rewrite map_length, seq_length; lia).
    rewrite nth_error_map, nth_error_seq in Hs. destruct (Nat.ltb_spec d 6); [|lia].
    simpl in Hs. injection Hs as <-. apply plain_range. eapply Hc; eauto.
  - intros s Hs. cbn in Hs. injection Hs as <-. now apply plain_comp_range.
Qed.

Lemma good_pos cells cuts : good_cuts cells cuts -> Forall (fun n => 0 < n) cells.
Proof.
  intros [Hl H]. apply Forall_forall. intros n Hin. apply In_nth_error in Hin as [k Hk].
  pose proof (nth_error_len _ _ _ Hk).
  destruct (nth_error_lt cuts k) as [[a b] Hab]; [lia|]. specialize (H _ _ _ _ Hk Hab). lia.
Qed.

(** ** Opening *)
Section Open.
  Context {M : Type} (dec : nat -> list Z -> Q)
          (unpack : list Z -> option (option (list (string * M)))) (mtrue : M) (qstr : Q -> string).
  Let fo := qops dec.

  Definition LO (rt : Z) (fd : field) := List.map (dec (width_of rt)) (fd_lower fd).
  Definition UP (rt : Z) (fd : field) := List.map (dec (width_of rt)) (fd_upper fd).
  Definition nodes (rt : Z) (fd : field) := grid_for fo (fd_cells fd) (LO rt fd) (UP rt fd).

  Lemma file_compatible rt meta fd rs : is_compatible (field_file rt meta fd rs) = true.
  Proof.
    destruct rs as [rs|]; simpl.
    - eapply (is_compatible_header _ 3 meta). apply At_0.
    - eapply (is_compatible_header _ 1 meta). apply At_0.
  Qed.

  Lemma good_file_domain rt meta fd rs : good_file rt meta fd rs -> good_domain rt (width_of rt) meta fd.
  Proof. destruct rs; simpl; intros H; apply H. Qed.

  Lemma load_whole rt meta fd rs ctx :
    good_file rt meta fd rs -> meta_readable unpack meta -> 0 < fd_nc fd ->
    Forall (fun n => 0 < n) (fd_cells fd) ->
    exists data ctx',
      load fo unpack mtrue (field_file rt meta fd rs) None ctx
      = Ok (mk_loaded (nodes rt fd) data (List.map Z.of_nat (fd_cells fd)) (LO rt fd) (UP rt fd)
              (Z.of_nat (fd_nc fd)) ctx') /\
      wf data /\ shape data = fd_cells fd ++ [fd_nc fd].
  Proof.
    intros Hfile Hm Hnc Hpos. pose proof (meta_readable_ok _ _ Hm) as Hmo.
    destruct rs as [rs|]; simpl in Hfile |- *.
    - destruct Hfile as (Hd & Hn & Hrs).
      destruct (load_t3 fo unpack mtrue (multi_bytes rt meta fd rs) rt meta fd rs ctx None (uncut (fd_cells fd)) 0 (fd_nc fd)
              eq_refl Hd Hmo Hn Hrs) as (df & lo & up & E1 & B1 & W & Sh & _).
      { repeat split; auto. }
      injection B1 as -> ->. rewrite cut_cells_uncut, Nat.sub_0_r in *.
      do 2 eexists. split; [exact E1|]. split; auto.
    - assert (Ef : field_bytes rt meta fd = header_bytes 1 meta ++ u64 rt ++ u64n (length (fd_cells fd)) ++ flat_map u64n (fd_cells fd)
        ++ concat (fd_lower fd) ++ concat (fd_upper fd)
        ++ u64n (fd_nc fd * width_of rt) ++ u64n (prod (fd_cells fd)) ++ concat (fd_data fd)).
      { unfold field_bytes, domain_bytes. rewrite <- !app_assoc. reflexivity. }
      assert (Hfit : fits (Z.of_nat (prod (fd_cells fd)))) by apply Hfile.
      pose proof (load_t1 fo unpack mtrue _ rt meta fd _ ctx Ef Hfile Hmo Hfit (le_n _)) as E1.
      do 2 eexists. split; [exact E1|]. split; [|reflexivity].
      unfold wf. cbn [flat shape]. rewrite map_length, prod_app. destruct Hfile as (_ & _ & ->).
      change (prod [fd_nc fd]) with (fd_nc fd * 1). lia.
  Qed.

  Lemma map_to_nat l : List.map Z.to_nat (List.map Z.of_nat l) = l.
  Proof. rewrite map_map. rewrite <- (map_id l) at 2. apply map_ext. intros. apply Nat2Z.id. Qed.

  Lemma of_loaded_field grid data cells lo up nc ctx' :
    length lo = length cells ->
    of_loaded (mk_loaded grid data (List.map Z.of_nat cells) lo up (Z.of_nat nc) ctx' : loaded (M := M))
    = mk_gdata (Some (List.map line grid)) (Some data) (Some cells) (Some nc) (Some lo) (Some up).
  Proof.
    intros H. unfold of_loaded. cbn [l_grid l_data l_cells l_nc l_lower l_upper].
    rewrite map_to_nat, Nat2Z.id. destruct lo, cells; simpl in *; try discriminate; reflexivity.
  Qed.

  Lemma lo_length rt meta fd rs : good_file rt meta fd rs -> length (LO rt fd) = length (fd_cells fd).
  Proof. intros H. apply good_file_domain in H as (_ & H & _). unfold LO. now rewrite map_length. Qed.
  Lemma up_length rt meta fd rs : good_file rt meta fd rs -> length (UP rt fd) = length (fd_cells fd).
  Proof. intros H. apply good_file_domain in H as (_ & _ & H & _). unfold UP. now rewrite map_length. Qed.

  (** The dataset of a whole file. *)
  Definition whole_data rt fd data : gdata Q :=
    mk_gdata (Some (List.map line (nodes rt fd))) (Some data) (Some (fd_cells fd)) (Some (fd_nc fd))
             (Some (LO rt fd)) (Some (UP rt fd)).

  Lemma open_whole rt meta fd rs ctx :
    good_file rt meta fd rs -> meta_readable unpack meta -> 0 < fd_nc fd ->
    Forall (fun n => 0 < n) (fd_cells fd) ->
    exists data,
      open_gdata dec unpack mtrue qstr (field_file rt meta fd rs) [] None ctx = Ok (whole_data rt fd data) /\
      wf data /\ shape data = fd_cells fd ++ [fd_nc fd] /\
      exists ctx', load fo unpack mtrue (field_file rt meta fd rs) None ctx
      = Ok (mk_loaded (nodes rt fd) data (List.map Z.of_nat (fd_cells fd)) (LO rt fd) (UP rt fd)
              (Z.of_nat (fd_nc fd)) ctx').
  Proof.
    intros Hfile Hm Hnc Hpos.
    destruct (load_whole rt meta fd rs ctx Hfile Hm Hnc Hpos) as (data & ctx' & E & W & Sh).
    exists data. split; [|split; [auto|split; [auto|eauto]]].
    unfold open_gdata. rewrite file_compatible. unfold partial_idxs. cbn [existsb given firstn orb].
    change (qnum dec) with fo. rewrite E. cbn [bind].
    rewrite of_loaded_field by (eapply lo_length; eauto). reflexivity.
  Qed.

  Lemma nodes_length rt meta fd rs : good_file rt meta fd rs -> length (nodes rt fd) = length (fd_cells fd).
  Proof.
    intros H. unfold nodes, grid_for. rewrite map_length, !combine_length.
    rewrite (lo_length _ _ _ _ H), (up_length _ _ _ _ H). lia.
  Qed.

  Lemma nodes_nth rt meta fd rs k n : good_file rt meta fd rs -> nth_error (fd_cells fd) k = Some n ->
    exists l u, nth_error (LO rt fd) k = Some l /\ nth_error (UP rt fd) k = Some u /\
      nth_error (nodes rt fd) k = Some (linspace fo l u n).
  Proof.
    intros H Hn. pose proof (nth_error_len _ _ _ Hn) as Hk.
    destruct (nth_error_lt (LO rt fd) k) as [l Hl]; [erewrite lo_length by eauto; auto|].
    destruct (nth_error_lt (UP rt fd) k) as [u Hu]; [erewrite up_length by eauto; auto|].
    exists l, u. split; [auto|]. split; [auto|]. now apply grid_for_nth.
  Qed.

  Lemma whole_rect rt meta fd rs data :
    good_file rt meta fd rs -> wf data -> shape data = fd_cells fd ++ [fd_nc fd] -> fd_cells fd <> [] ->
    rect_data (whole_data rt fd data) (nodes rt fd) data (fd_cells fd) (fd_nc fd).
  Proof.
    intros H W Sh Hne. constructor; try reflexivity; auto.
    - eexists. reflexivity.
    - apply Forall2_nth_error_intro; [symmetry; eapply nodes_length; eauto|].
      intros k n g Hn Hg. destruct (nodes_nth _ _ _ _ _ _ H Hn) as (l & u & _ & _ & E).
      rewrite E in Hg. injection Hg as <-. left. unfold edges_of. apply linspace_length.
  Qed.

  Lemma map2_shift (cuts : list (nat * nat)) (idx : list nat) :
    map2 (fun ab i => fst ab + i) cuts idx = map2 Nat.add (List.map fst cuts) idx.
  Proof. revert idx. induction cuts as [|c cuts IH]; intros [|i idx]; simpl; auto. now rewrite IH. Qed.

  (** Loading a part. *)
  Lemma open_part rt meta fd rs ctx zs comp cuts ca cb data :
    good_file rt meta fd rs -> meta_readable unpack meta ->
    0 < length (fd_cells fd) <= 6 ->
    plain_cuts (fd_cells fd) zs cuts -> plain_comp (fd_nc fd) comp ca cb ->
    open_gdata dec unpack mtrue qstr (field_file rt meta fd rs) [] None ctx = Ok (whole_data rt fd data) ->
    exists e, open_gdata dec unpack mtrue qstr (field_file rt meta fd rs) zs comp ctx = Ok e /\
      part_of (whole_data rt fd data) cuts ca cb e.
  Proof.
    intros Hfile Hm H6 Hc Hk Hopen.
    pose proof (plain_good _ _ _ Hc) as Hgood. pose proof (plain_comp_lt _ _ _ _ Hk) as Hcc.
    pose proof (good_pos _ _ Hgood) as Hpos. pose proof Hgood as [Hlc Hgc].
    destruct (open_whole rt meta fd rs ctx Hfile Hm) as (data' & E' & W & Sh & ctx' & EL); [lia|auto|].
    rewrite Hopen in E'. assert (data' = data) as -> by (injection E'; auto). clear E'.
    assert (Hcut := plain_cuts_select qstr (fd_cells fd) (fd_nc fd) zs comp cuts ca cb (proj2 H6) Hc Hk).
    assert (Hlcc : length (cut_cells cuts) = length (fd_cells fd)) by (unfold cut_cells; now rewrite map_length).
    destruct (existsb given (comp :: firstn 6 zs)) eqn:Eg.
    - set (ps := (List.map (fun k => cut_text qstr (nth k zs None)) (seq 0 6) ++ [cut_text qstr comp])%list) in Hcut.
      destruct (C07_partial_grid M dec unpack mtrue rt meta fd rs ctx ps cuts ca cb Hfile Hm Hcut)
        as (full & part & F1 & P1 & Lg & _ & Hg).
      assert (Hval : exists full' part', load fo unpack mtrue (field_file rt meta fd rs) None ctx = Ok full' /\
         load fo unpack mtrue (field_file rt meta fd rs) (Some ps) ctx = Ok part' /\
         l_cells part' = List.map Z.of_nat (cut_cells cuts) /\ l_nc part' = Z.of_nat (cb - ca) /\
         wf (l_data part') /\ shape (l_data part') = cut_cells cuts ++ [(cb - ca)%nat] /\
         forall idx c, in_range (cut_cells cuts) idx -> (c < cb - ca)%nat ->
         exists v, get (l_data part') (idx ++ [c]) = Some v /\
           get (l_data full') (map2 (fun ab i => (fst ab + i)%nat) cuts idx ++ [(ca + c)%nat]) = Some v).
      { destruct rs as [rs|]; simpl in Hfile |- *.
        - destruct Hfile as (Hd & Hn & Hrs).
          destruct (C06_partial_multi_range Q M fo unpack mtrue rt meta fd rs ctx ps cuts ca cb Hd Hm Hn Hrs Hcut)
            as (a1 & a2 & Q1 & Q2 & Q3 & Q4 & _ & Q5 & Q6 & Q7). exists a1, a2. auto 10.
        - destruct (C05_partial_is_slice Q M fo unpack mtrue rt meta fd ctx ps cuts ca cb Hfile Hm Hcut)
            as (a1 & a2 & Q1 & Q2 & Q3 & Q4 & _ & Q5 & Q6 & Q7). exists a1, a2. auto 10. }
      destruct Hval as (full' & part' & F2 & P2 & Vc & Vn & Vw & Vs & Vg).
      change (qops dec) with fo in F1, P1.
      rewrite F1 in F2. injection F2 as <-. rewrite P1 in P2. injection P2 as <-.
      rewrite EL in F1. injection F1 as <-. cbn [l_data l_grid] in *.
      assert (Hll : forall k, k < length cuts -> (exists x, nth_error (l_lower part) k = Some x) /\ (exists x, nth_error (l_upper part) k = Some x)).
      { intros k Hk'. destruct (nth_error_lt cuts k Hk') as [[a b] Hab].
        destruct (Hg _ _ _ Hab) as (gp & gf & lo & up & _ & _ & G3 & G4 & _). eauto. }
      (* the lengths of the bounds *)
      assert (Hlen : length (l_lower part) = length (fd_cells fd) /\ length (l_upper part) = length (fd_cells fd)).
      { pose proof (meta_readable_ok _ _ Hm) as Hmo. pose proof (good_file_domain _ _ _ _ Hfile) as Hd.
        pose proof Hd as (_ & Hl1 & Hl2 & _).
        assert (Hbd := apply_cuts_bounds fo (fd_cells fd) (LO rt fd) (UP rt fd)
             (Z.of_nat (fd_nc fd)) (Z.of_nat (prod (fd_cells fd))) cuts (Z.of_nat ca, Z.of_nat (fd_nc fd) - Z.of_nat cb)%Z).
        cbv zeta in Hbd. unfold LO, UP in Hbd. rewrite !map_length in Hbd. destruct (Hbd Hl1 Hl2 Hlc) as (B1 & B2 & _).
        clear Hbd. destruct rs as [rs|]; simpl in Hfile, P1.
        - destruct Hfile as (_ & Hn & Hrs).
          destruct (load_t3 fo unpack mtrue (multi_bytes rt meta fd rs) rt meta fd rs ctx (Some ps) cuts ca cb eq_refl Hd Hmo Hn Hrs Hcut)
            as (dp & lo' & up' & E2 & Bb & _).
          rewrite E2 in P1. injection P1 as <-. cbn [l_lower l_upper]. cbv zeta in Bb. injection Bb as -> ->.
          split; [exact B1|exact B2].
        - assert (Ef : field_bytes rt meta fd = header_bytes 1 meta ++ u64 rt ++ u64n (length (fd_cells fd)) ++ flat_map u64n (fd_cells fd)
            ++ concat (fd_lower fd) ++ concat (fd_upper fd)
            ++ u64n (fd_nc fd * width_of rt) ++ u64n (prod (fd_cells fd)) ++ concat (fd_data fd)).
          { unfold field_bytes, domain_bytes. rewrite <- !app_assoc. reflexivity. }
          assert (Hfit : fits (Z.of_nat (prod (fd_cells fd)))) by apply Hd.
          pose proof (load_partial_t1 fo unpack mtrue _ rt meta fd _ ctx ps cuts ca cb Ef Hfile Hmo Hfit Hcut) as E2.
          rewrite E2 in P1. injection P1 as <-. cbn [l_lower l_upper]. split; [exact B1|exact B2]. }
      destruct Hlen as [Hlen1 Hlen2].
      exists (mk_gdata (Some (List.map line (l_grid part))) (Some (l_data part)) (Some (cut_cells cuts)) (Some (cb - ca))
                       (Some (l_lower part)) (Some (l_upper part))).
      split.
      + unfold open_gdata. rewrite file_compatible. unfold partial_idxs. rewrite Eg.
        change (qnum dec) with fo. fold ps. rewrite P1. cbn [bind]. f_equal.
        destruct part as [pg pd pc pl pu pn pctx]. cbn [l_grid l_data l_cells l_nc l_lower l_upper l_ctx] in *. subst pc pn.
        apply of_loaded_field. congruence.
      + do 6 eexists. do 8 (split; [reflexivity|]). split; [auto|]. split; [auto|]. split.
        { intros idx c Hi Hc'. destruct (Vg idx c Hi Hc') as (x & -> & Hx). now rewrite <- map2_shift, Hx. }
        split; [congruence|]. split; [congruence|]. split; [congruence|].
        intros k a b Hab. destruct (Hg _ _ _ Hab) as (gp & gf & lo & up & G1 & G2 & G3 & G4 & G5 & G6 & (y & G7 & G8) & (y' & G9 & G10)).
        exists gf, gp, lo, up, y, y'. auto 12.
    - (* nothing is cut *)
      assert (Hz : forall k, k < 6 -> nth k zs None = None /\ comp = None).
      { intros k Hk6. cbn [existsb] in Eg. apply orb_false_iff in Eg as [Ec Ez]. split.
        - destruct (nth_error zs k) as [z|] eqn:Ek.
          + rewrite (nth_error_nth _ _ _ Ek). destruct z as [z|]; auto. exfalso.
            assert (In (Some z) (firstn 6 zs)).
            { assert (E6 : nth_error (firstn 6 zs) k = Some (Some z)).
              { rewrite <- (firstn_skipn 6 zs) in Ek. rewrite nth_error_app1 in Ek; auto.
                rewrite firstn_length. apply nth_error_len in Ek. rewrite firstn_skipn in Ek. lia. }
              eapply nth_error_In; eauto. }
            assert (Hx : existsb given (firstn 6 zs) = true) by (apply existsb_exists; eexists; split; [exact H|reflexivity]).
            congruence.
          + apply nth_overflow. apply nth_error_None in Ek. lia.
        - destruct comp; [discriminate|auto]. }
      assert (Hcomp : comp = None) by (apply (Hz 0); lia). subst comp.
      assert (Hu : forall k n a b, nth_error (fd_cells fd) k = Some n -> nth_error cuts k = Some (a, b) -> a = 0 /\ b = n).
      { intros k n a b Hn Hab. destruct Hc as [_ Hc]. specialize (Hc _ _ _ _ Hn Hab).
        rewrite (proj1 (Hz k ltac:(apply nth_error_len in Hn; lia))) in Hc. inversion Hc; auto. }
      assert (Hcu : cut_cells cuts = fd_cells fd).
      { apply nth_error_ext. intros k. unfold cut_cells. rewrite nth_error_map.
        destruct (nth_error cuts k) as [[a b]|] eqn:Eab; simpl.
        - destruct (nth_error_lt (fd_cells fd) k) as [n Hn]; [apply nth_error_len in Eab; lia|].
          destruct (Hu _ _ _ _ Hn Eab) as [-> ->]. rewrite Hn. f_equal. lia.
        - symmetry. apply nth_error_None. apply nth_error_None in Eab. lia. }
      assert (Hfst : List.map fst cuts = List.map (fun _ => 0) (fd_cells fd)).
      { apply nth_error_ext. intros k. rewrite !nth_error_map.
        destruct (nth_error cuts k) as [[a b]|] eqn:Eab; simpl.
        - destruct (nth_error_lt (fd_cells fd) k) as [n Hn]; [apply nth_error_len in Eab; lia|].
          destruct (Hu _ _ _ _ Hn Eab) as [-> ->]. now rewrite Hn.
        - destruct (nth_error (fd_cells fd) k) eqn:E; auto. apply nth_error_len in E. apply nth_error_None in Eab. lia. }
      assert (ca = 0 /\ cb = fd_nc fd) as [-> ->] by (inversion Hk; auto).
      exists (whole_data rt fd data). split.
      + rewrite <- Hopen. unfold open_gdata, partial_idxs. rewrite Eg. reflexivity.
      + unfold whole_data. do 6 eexists. do 4 (split; [reflexivity|]). rewrite Hcu, Nat.sub_0_r.
        do 4 (split; [reflexivity|]). split; [auto|]. split; [auto|]. split.
        { intros idx c Hi _. rewrite Hfst. simpl. f_equal. f_equal. apply in_range_length in Hi. revert Hi.
          generalize (fd_cells fd) as cs. clear. induction idx as [|i idx IH]; intros [|c cs]; simpl; try discriminate; auto.
          intros [= H]. now rewrite <- IH. }
        split; [rewrite Hlc; eapply nodes_length; eauto|].
        split; [rewrite Hlc; eapply lo_length; eauto|]. split; [rewrite Hlc; eapply up_length; eauto|].
        intros k a b Hab. destruct (nth_error_lt (fd_cells fd) k) as [n Hn]; [apply nth_error_len in Hab; lia|].
        destruct (Hu _ _ _ _ Hn Hab) as [-> ->]. rewrite Nat.sub_0_r.
        destruct (nodes_nth _ _ _ _ _ _ Hfile Hn) as (l & u & Hl & Hu' & Hg).
        specialize (Hgc _ _ _ _ Hn Hab).
        destruct (linspace_q dec l u n 0) as (x & Hx & Ex); [lia|lia|].
        destruct (linspace_q dec l u n n) as (y & Hy & Ey); [lia|lia|].
        assert (Hnz : ~ (inject_Z (Z.of_nat n) == 0)%Q).
        { intros E. unfold Qeq in E. cbn [Qnum Qden inject_Z] in E. lia. }
        exists (linspace fo l u n), (linspace fo l u n), l, u, x, y.
        do 4 (split; [auto|]). split; [apply linspace_length|]. split.
        { intros i Hi. destruct (nth_error_lt (linspace fo l u n) i) as [z Hz']; [rewrite linspace_length; lia|].
          exists z, z. split; [auto|]. split; [auto|]. reflexivity. }
        split; [auto|]. split; [rewrite Ex; simpl; field; auto|]. split; [auto|]. rewrite Ey. field; auto.
  Qed.

  (** ** Selecting *)

  Lemma min_first l : forall x : Q, (forall y, In y l -> (x <= y)%Q) -> fold_left qmin l x = x.
  Proof.
    induction l as [|y l IH]; intros x H; [reflexivity|]. cbn [fold_left].
    assert (E : qmin x y = x).
    { unfold qmin. assert (Hy : (x <= y)%Q) by (apply H; now left). apply Qle_bool_iff in Hy. now rewrite Hy. }
    rewrite E. apply IH. intros z Hz. apply H. now right.
  Qed.

  Definition rising (g : list Q) : Prop :=
    forall i j x y, i < j -> nth_error g i = Some x -> nth_error g j = Some y -> (x <= y)%Q.

  Lemma max_last l : forall x : Q, rising (x :: l) -> nth_error (x :: l) (length l) = Some (fold_left qmax l x).
  Proof.
    induction l as [|y l IH]; intros x H; [reflexivity|]. cbn [fold_left length].
    assert (E : qmax x y = y).
    { unfold qmax. assert (Hy : (x <= y)%Q) by (apply (H 0 1); auto). apply Qle_bool_iff in Hy. now rewrite Hy. }
    rewrite E. change (nth_error (y :: l) (length l) = Some (fold_left qmax l y)). apply IH.
    intros i j a b Hij Ha Hb. apply (H (S i) (S j)); auto. lia.
  Qed.

  Lemma rising_bounds (g : list Q) n : rising g -> length g = S n ->
    exists x y, nth_error g 0 = Some x /\ nth_error g n = Some y /\
      arr_min (line g) = Ok x /\ arr_max (line g) = Ok y.
  Proof.
    intros H Hl. destruct g as [|x l]; [discriminate|]. simpl in Hl. injection Hl as <-.
    exists x, (fold_left qmax l x). split; [reflexivity|]. split; [now apply max_last|]. split; [|reflexivity].
    unfold arr_min. cbn [flat line]. f_equal. apply min_first.
    intros y Hy. apply In_nth_error in Hy as [k Hk]. apply (H 0 (S k)); auto. lia.
  Qed.

  Lemma select_push pf {A} (d : gdata A) zs comp g v d' :
    select pf d zs comp true = Ok (g, v, d') -> push d g v = (d', None).
  Proof.
    unfold select.
    destruct (g_grid d) as [grid|]; [|discriminate].
    destruct (g_vals d) as [vv|]; [|discriminate].
    destruct (get_bounds d) as [bd|]; [|discriminate]. simpl bind.
    destruct (length (shape vv) <=? get_num_dims d)%nat; [discriminate|].
    destruct grid as [|g0 grid]; [discriminate|].
    match goal with |- bind ?m _ = _ -> _ => destruct m as [sl|]; [|discriminate] end. simpl bind.
    match goal with |- bind ?m _ = _ -> _ => destruct m as [vo|]; [|discriminate] end. simpl bind.
    match goal with |- bind ?m _ = _ -> _ => destruct m as [go|]; [|discriminate] end. simpl bind.
    destruct (push d go vo) as [d2 [x|]] eqn:Ep; [discriminate|]. intros H.
    assert (go = g) by congruence. assert (vo = v) by congruence. assert (d2 = d') by congruence.
    subst. exact Ep.
  Qed.

  Lemma push_bounds {A} (d : gdata A) gs v cells nc d' :
    shape v = cells ++ [nc] -> push d (List.map line gs) v = (d', None) ->
    exists lo up, grid_bounds (List.map line gs) (length cells) = Ok (lo, up) /\
      c_lower d' = Some lo /\ c_upper d' = Some up.
  Proof.
    intros Hs. unfold push.
    destruct (set_values_spec d v cells nc Hs) as (d3 & -> & H3v & H3c & H3n).
    unfold set_grid. unfold get_num_dims. simpl c_cells. rewrite H3c.
    destruct (grid_bounds (List.map line gs) (length cells)) as [[lo up]|e]; [|discriminate].
    intros [= <-]. exists lo, up. auto.
  Qed.

  Lemma grid_bounds_nth gs n lo up : grid_bounds (List.map line gs) n = Ok (lo, up) ->
    length lo = n /\ length up = n /\
    forall k, k < n -> exists g l u, nth_error gs k = Some g /\ nth_error lo k = Some l /\ nth_error up k = Some u /\
      arr_min (line g) = Ok l /\ arr_max (line g) = Ok u.
  Proof.
    unfold grid_bounds. destruct (mapM _ _) as [bs|] eqn:E; [|discriminate]. cbn [bind]. intros [= <- <-].
    apply mapM_ok in E. pose proof (Forall2_length _ _ _ E) as Hl. rewrite seq_length in Hl.
    rewrite !map_length. split; [auto|]. split; [auto|]. intros k Hk.
    destruct (nth_error_lt bs k) as [[l u] Hb]; [lia|].
    assert (Hs : nth_error (seq 0 n) k = Some k).
    { rewrite nth_error_seq. destruct (Nat.ltb_spec k n); [reflexivity|lia]. }
    pose proof (Forall2_nth_error _ _ _ _ _ _ E Hs Hb) as H. cbv beta in H.
    unfold grid_bound1 in H. rewrite nth_error_map in H.
    destruct (nth_error gs k) as [g|] eqn:Eg; [|discriminate]. simpl option_map in H. cbv iota in H.
    destruct (arr_min (line g)) as [x|] eqn:E1; [|discriminate]. cbn [bind] in H.
    destruct (arr_max (line g)) as [y|] eqn:E2; [|discriminate]. cbn [bind] in H. injection H as -> ->.
    exists g, l, u. rewrite !nth_error_map, Hb. auto 10.
  Qed.

  Lemma linspace_rising l u n : 0 < n -> (l <= u)%Q -> rising (linspace fo l u n).
  Proof.
    intros Hn Hlu i j x y Hij Hx Hy.
    pose proof (nth_error_len _ _ _ Hy) as Hj. rewrite linspace_length in Hj.
    destruct (linspace_q dec l u n i) as (x' & Hx' & Ex); [lia|lia|].
    destruct (linspace_q dec l u n j) as (y' & Hy' & Ey); [lia|lia|].
    unfold fo in Hx, Hy. assert (x = x') as -> by congruence. assert (y = y') as -> by congruence.
    rewrite Ex, Ey. apply Qplus_le_compat; [apply Qle_refl|]. apply Qmult_le_compat_r.
    - rewrite <- Zle_Qle. lia.
    - unfold Qdiv. apply Qmult_le_0_compat.
      + change (0 <= u + - l)%Q. rewrite <- Qle_minus_iff. exact Hlu.
      + apply Qinv_le_0_compat. change 0%Q with (inject_Z 0). rewrite <- Zle_Qle. lia.
  Qed.

  Lemma select_part pf rt meta fd rs data zs comp cuts ca cb :
    good_file rt meta fd rs -> wf data -> shape data = fd_cells fd ++ [fd_nc fd] ->
    0 < length (fd_cells fd) ->
    (forall k l u, nth_error (LO rt fd) k = Some l -> nth_error (UP rt fd) k = Some u -> (l <= u)%Q) ->
    plain_cuts (fd_cells fd) zs cuts -> plain_comp (fd_nc fd) comp ca cb ->
    exists g v e, select pf (whole_data rt fd data) zs comp true = Ok (g, v, e) /\
      g_grid e = Some g /\ g_vals e = Some v /\
      part_of (whole_data rt fd data) cuts ca cb e.
  Proof.
    intros Hfile W Sh Hne Hlu Hc Hk.
    assert (R : rect_data (whole_data rt fd data) (nodes rt fd) data (fd_cells fd) (fd_nc fd)).
    { eapply whole_rect; eauto. destruct (fd_cells fd); [simpl in Hne; lia|discriminate]. }
    pose proof (plain_good _ _ _ Hc) as Hgood. pose proof (plain_comp_lt _ _ _ _ Hk) as Hcc.
    pose proof Hgood as [Hlc Hgc].
    assert (HC : cuts_mean pf zs (nodes rt fd) (fd_cells fd) cuts).
    { destruct Hc as [H1 H2]. split; [auto|]. intros. apply plain_means. eauto. }
    assert (HN : nonempty_cuts cuts).
    { apply Forall_forall. intros [a b] Hin. apply In_nth_error in Hin as [k Hab].
      destruct (nth_error_lt (fd_cells fd) k) as [n Hn]; [apply nth_error_len in Hab; lia|].
      specialize (Hgc _ _ _ _ Hn Hab). simpl. lia. }
    pose proof (plain_comp_means _ _ _ _ Hk) as HK.
    destruct (select_overwrite_lemma pf _ _ _ _ _ zs comp cuts _ R HC HN HK) as (e & E & R').
    destruct (C10_select_block pf _ _ _ _ _ _ zs comp cuts _ R HC HK) as (gout & vout & E0 & Vw & Vs & Vg & Lg & Hgr).
    pose proof (select_block_lemma pf _ _ _ _ _ zs comp cuts _ R HC HK) as E1.
    rewrite E1 in E0.
    assert (Hv : take (sel_of cuts ++ [seq ca (cb - ca)]) data = vout) by congruence.
    assert (Hg : grid_of (fd_cells fd) (nodes rt fd) cuts = gout).
    { assert (Hm : List.map line (grid_of (fd_cells fd) (nodes rt fd) cuts) = List.map line gout) by congruence.
      apply (f_equal (List.map (@flat Q))) in Hm. rewrite !map_map in Hm. unfold line in Hm. cbn [flat] in Hm.
      now rewrite !map_id in Hm. }
    rewrite Hv, Hg in *. clear E0 E1. rewrite seq_length in *.
    destruct (push_bounds _ _ _ _ _ _ Vs (select_push _ _ _ _ _ _ _ E)) as (lo & up & Hb & Hlo & Hup).
    rewrite map_length in Hb. destruct (grid_bounds_nth _ _ _ _ Hb) as (L1 & L2 & L3).
    exists (List.map line gout), vout, e. split; [exact E|]. split; [apply (rd_grid _ _ _ _ _ R')|].
    split; [apply (rd_vals _ _ _ _ _ R')|].
    exists (nodes rt fd), data, gout, vout, lo, up.
    split; [reflexivity|]. split; [reflexivity|]. split; [apply (rd_grid _ _ _ _ _ R')|].
    split; [apply (rd_vals _ _ _ _ _ R')|]. split; [apply (rd_cells _ _ _ _ _ R')|].
    split; [apply (rd_comps _ _ _ _ _ R')|]. split; [auto|]. split; [auto|]. split; [auto|]. split; [exact Vs|].
    split.
    { intros idx c Hi Hc'. apply Vg; auto. rewrite nth_error_seq. destruct (Nat.ltb_spec c (cb - ca)); [reflexivity|lia]. }
    split; [congruence|]. split; [auto|]. split; [auto|].
    intros k a b Hab.
    destruct (nth_error_lt (fd_cells fd) k) as [n Hn]; [apply nth_error_len in Hab; lia|].
    specialize (Hgc _ _ _ _ Hn Hab).
    destruct (nodes_nth _ _ _ _ _ _ Hfile Hn) as (l & u & Hl & Hu & Hnd).
    destruct (Hgr _ _ _ _ _ Hn Hnd Hab) as (g' & Hg' & He & _ & Hi).
    assert (Hlg : length g' = S (b - a)) by (apply He; unfold edges_of; apply linspace_length).
    destruct (L3 k) as (g2 & l2 & u2 & M1 & M2 & M3 & M4 & M5); [apply nth_error_len in Hab; auto|].
    assert (g2 = g') as -> by congruence.
    assert (Hr : rising g').
    { intros i j x y Hij Hx Hy. pose proof (nth_error_len _ _ _ Hx). pose proof (nth_error_len _ _ _ Hy).
      rewrite Hi in Hx, Hy by auto. eapply (linspace_rising l u n); [lia|eauto| |exact Hx|exact Hy]. lia. }
    destruct (rising_bounds _ _ Hr Hlg) as (x & y & X1 & X2 & X3 & X4).
    assert (l2 = x) as -> by congruence. assert (u2 = y) as -> by congruence.
    exists (linspace fo l u n), g', x, y, x, y. do 5 (split; [auto|]).
    split.
    { intros i Hi'. destruct (nth_error_lt g' i) as [z Hz]; [lia|]. exists z, z. split; [auto|].
      split; [|reflexivity]. rewrite <- Hi; auto. lia. }
    rewrite Hi in X1 by lia. rewrite Hi in X2 by lia. rewrite Nat.add_0_r in X1.
    replace (a + (b - a)) with b in X2 by lia.
    split; [auto|]. split; [reflexivity|]. split; [auto|reflexivity].
  Qed.

  (** ** Writing a part and loading it again *)

  Lemma prod_mono a b : Forall2 le a b -> prod a <= prod b.
  Proof.
    induction 1 as [|x y a b Hx _ IH]; [reflexivity|].
    change (prod (x :: a)) with (x * prod a). change (prod (y :: b)) with (y * prod b). nia.
  Qed.
  Lemma prod_pos a : Forall (fun n => 0 < n) a -> 0 < prod a.
  Proof.
    induction 1 as [|x a Hx _ IH]; [cbv; lia|]. change (prod (x :: a)) with (x * prod a). nia.
  Qed.
  Lemma in_le_prod a n : Forall (fun n => 0 < n) a -> In n a -> n <= prod a.
  Proof.
    induction 1 as [|x a Hx Ha IH]; intros Hin; [destruct Hin|].
    change (prod (x :: a)) with (x * prod a). pose proof (prod_pos a Ha).
    destruct Hin as [->|Hin]; [nia|]. specialize (IH Hin). nia.
  Qed.

  Lemma cut_le cells cuts : good_cuts cells cuts -> Forall2 le (cut_cells cuts) cells.
  Proof.
    intros [Hl H]. apply Forall2_nth_error_intro; [unfold cut_cells; now rewrite map_length|].
    intros k x n Hx Hn. unfold cut_cells in Hx. rewrite nth_error_map in Hx.
    destruct (nth_error cuts k) as [[a b]|] eqn:E; [|discriminate]. simpl in Hx. injection Hx as <-.
    specialize (H _ _ _ _ Hn E). lia.
  Qed.
  Lemma cut_pos cells cuts : good_cuts cells cuts -> Forall (fun n => 0 < n) (cut_cells cuts).
  Proof.
    intros [Hl H]. apply Forall_forall. intros x Hx. apply In_nth_error in Hx as [k Hx].
    unfold cut_cells in Hx. rewrite nth_error_map in Hx.
    destruct (nth_error cuts k) as [[a b]|] eqn:E; [|discriminate]. simpl in Hx. injection Hx as <-.
    destruct (nth_error_lt cells k) as [n Hn]; [apply nth_error_len in E; lia|]. specialize (H _ _ _ _ Hn E). lia.
  Qed.

  Lemma write_part enc rt meta fd rs data cuts ca cb e ctx :
    good_file rt meta fd rs -> 0 < length (fd_cells fd) <= 6 ->
    good_cuts (fd_cells fd) cuts -> ca < cb <= fd_nc fd ->
    fits (Z.of_nat (prod (fd_cells fd) * fd_nc fd * 8)) ->
    (forall x, length (enc x) = 8) ->
    part_of (whole_data rt fd data) cuts ca cb e ->
    (forall v x, g_vals e = Some v -> In x (flat v) -> dec 8 (enc x) = x) ->
    (forall l x, c_lower e = Some l \/ c_upper e = Some l -> In x l -> (dec 8 (enc x) == x)%Q) ->
    exists bytes e', write_gdata enc e = Ok bytes /\
      open_gdata dec unpack mtrue qstr bytes [] None ctx = Ok e' /\
      g_vals e' = g_vals e /\ part_of (whole_data rt fd data) cuts ca cb e'.
  Proof.
    intros Hfile H6 Hgood Hcc Hfit He Hpart Hv Hb.
    destruct Hpart as (gs & v & gs' & v' & lo & up & P1 & P2 & P3 & P4 & P5 & P6 & P7 & P8 & P9 & P10 & P11 & P12 & P13 & P14 & P15).
    pose proof (good_pos _ _ Hgood) as Hpos. pose proof (cut_pos _ _ Hgood) as Hcpos.
    pose proof Hgood as [Hlc Hgc].
    assert (Hlcc : length (cut_cells cuts) = length cuts) by (unfold cut_cells; now rewrite map_length).
    assert (Hcp : prod (cut_cells cuts) <= prod (fd_cells fd)) by (apply prod_mono, cut_le; auto).
    pose proof (prod_pos _ Hcpos) as Hcp0.
    assert (Hsz : prod (shape v') = prod (cut_cells cuts) * (cb - ca)).
    { rewrite P10, prod_app. change (prod [cb - ca]) with ((cb - ca) * 1). lia. }
    assert (Hsmall : forall n, n <= prod (cut_cells cuts) * (cb - ca) * 8 -> fits (Z.of_nat n)).
    { intros n Hn. unfold fits in *. assert (n <= prod (fd_cells fd) * fd_nc fd * 8) by nia. lia. }
    set (bytes := write_gkyl enc (List.map Z.of_nat (cut_cells cuts)) lo up (Z.of_nat (cb - ca)) v').
    assert (Ew : write_gdata enc e = Ok bytes).
    { unfold write_gdata, get_num_comps, get_bounds, get_num_cells. rewrite P4, P5, P6, P7, P8.
      destruct (cb - ca) as [|m] eqn:Em; [lia|]. cbn [bind]. unfold bytes. reflexivity. }
    exists bytes.
    set (lo' := List.map (dec 8) (List.map enc lo)). set (up' := List.map (dec 8) (List.map enc up)).
    assert (Hflat : List.map (dec 8) (List.map enc (flat v')) = flat v').
    { rewrite map_map. rewrite <- (map_id (flat v')) at 2. apply map_ext_in. intros x Hx. eapply Hv; eauto. }
    assert (Hnear : forall l k x, (l = lo \/ l = up) -> nth_error l k = Some x ->
              exists y, nth_error (List.map (dec 8) (List.map enc l)) k = Some y /\ (y == x)%Q).
    { intros l k x Hl Hx. rewrite !nth_error_map, Hx. eexists. split; [reflexivity|].
      apply (Hb l); [destruct Hl as [->| ->]; auto|]. eapply nth_error_In; eauto. }
    assert (El : load fo unpack mtrue bytes None ctx
       = Ok (mk_loaded (grid_for fo (cut_cells cuts) lo' up') v' (List.map Z.of_nat (cut_cells cuts)) lo' up'
               (Z.of_nat (cb - ca)) (ctx_after unpack mtrue ctx []))).
    { set (fd' := mk_field (cut_cells cuts) (cb - ca) (List.map enc lo) (List.map enc up) (List.map enc (flat v'))).
      pose proof (load_t1 fo unpack mtrue bytes 2 [] fd' (prod (shape v')) ctx) as H.
      change (width_of 2) with 8 in H. cbn [fd_cells fd_nc fd_lower fd_upper fd_data fd'] in H.
      change (fdec fo 8) with (dec 8) in H. rewrite Hflat in H.
      replace (mk_nda (cut_cells cuts ++ [cb - ca]) (flat v')) with v' in H by (destruct v' as [a c]; cbn [shape flat] in *; now subst a).
      apply H.
      - unfold bytes. apply write_gkyl_bytes.
      - split; [|split].
        + unfold good_domain; cbn [fd_cells fd_nc fd_lower fd_upper fd_data fd']. rewrite !map_length.
          change (width_of 2) with 8.
          split; [now right|]. split; [lia|]. split; [lia|].
          split; [apply all_width_map; auto|]. split; [apply all_width_map; auto|].
          split; [split; reflexivity || (vm_compute; congruence)|].
          split; [unfold fits; lia|]. split.
          * apply Forall_forall. intros n Hn. apply Hsmall. pose proof (in_le_prod _ _ Hcpos Hn). nia.
          * split; apply Hsmall; nia.
        + apply all_width_map; auto.
        + cbn [fd_data fd_cells fd_nc fd']. rewrite map_length. unfold wf in P9. rewrite P9. exact Hsz.
      - now left.
      - apply Hsmall. rewrite Hsz. nia.
      - rewrite Hsz. nia. }
    assert (Hl' : length lo' = length cuts) by (unfold lo'; now rewrite !map_length).
    assert (Hu' : length up' = length cuts) by (unfold up'; now rewrite !map_length).
    exists (mk_gdata (Some (List.map line (grid_for fo (cut_cells cuts) lo' up'))) (Some v') (Some (cut_cells cuts))
              (Some (cb - ca)) (Some lo') (Some up')).
    split; [exact Ew|]. split.
    { unfold open_gdata.
      assert (Hcomp : is_compatible bytes = true).
      { unfold bytes. rewrite write_gkyl_bytes. set (g := header_bytes 1 [] ++ _).
        apply (is_compatible_header g 1 [] (skipn (length (header_bytes 1 [])) g)).
        pose proof (At_0 g) as HA. unfold g at 2 in HA. unfold g at 2.
        rewrite skipn_app_exact by reflexivity. exact HA. }
      rewrite Hcomp. unfold partial_idxs. cbn [existsb given firstn orb]. change (qnum dec) with fo. rewrite El.
      cbn [bind]. f_equal. apply of_loaded_field. congruence. }
    split; [rewrite P4; reflexivity|].
    exists gs, v, (grid_for fo (cut_cells cuts) lo' up'), v', lo', up'.
    split; [auto|]. split; [auto|]. do 6 (split; [reflexivity|]). split; [auto|]. split; [auto|]. split; [auto|].
    split; [unfold grid_for; rewrite map_length, !combine_length; lia|].
    split; [auto|]. split; [auto|].
    intros k a b Hab. destruct (P15 _ _ _ Hab) as (g & g' & l & u & x & y & G1 & G2 & G3 & G4 & G5 & G6 & G7 & G8 & G9 & G10).
    destruct (nth_error_lt (fd_cells fd) k) as [n Hn]; [apply nth_error_len in Hab; lia|].
    specialize (Hgc _ _ _ _ Hn Hab).
    destruct (Hnear lo k l (or_introl eq_refl) G3) as (l1 & N1 & N2).
    destruct (Hnear up k u (or_intror eq_refl) G4) as (u1 & N3 & N4).
    fold lo' in N1. fold up' in N3.
    assert (Ec : nth_error (cut_cells cuts) k = Some (b - a)) by (unfold cut_cells; now rewrite nth_error_map, Hab).
    exists g, (linspace fo l1 u1 (b - a)), l1, u1, x, y.
    split; [auto|]. split; [now apply grid_for_nth|]. split; [auto|]. split; [auto|].
    split; [apply linspace_length|]. split; [|split; [auto|split; [now rewrite N2|split; [auto|now rewrite N4]]]].
    intros i Hi.
    (* the grid of the whole file is uniform *)
    destruct (nodes_nth _ _ _ _ _ _ Hfile Hn) as (L & U & HL & HU & Hnd).
    assert (Hgs : gs = nodes rt fd).
    { unfold whole_data in P1. cbn [g_grid] in P1. injection P1 as P1.
      apply (f_equal (List.map (@flat Q))) in P1. rewrite !map_map in P1. unfold line in P1. cbn [flat] in P1.
      now rewrite !map_id in P1. }
    subst gs. rewrite G1 in Hnd. injection Hnd as ->.
    destruct (linspace_q dec L U n a) as (x1 & X1 & EX); [lia|lia|].
    destruct (linspace_q dec L U n b) as (y1 & Y1 & EY); [lia|lia|].
    destruct (linspace_q dec L U n (a + i)) as (z1 & Z1 & EZ); [lia|lia|].
    destruct (linspace_q dec l1 u1 (b - a) i) as (w1 & W1 & EW); [lia|lia|].
    unfold fo in G7, G9. assert (x = x1) as -> by congruence. assert (y = y1) as -> by congruence.
    exists w1, z1. split; [exact W1|]. split; [exact Z1|].
    rewrite EW, EZ, N2, N4, G8, G10, EX, EY.
    assert (Hnz : ~ (inject_Z (Z.of_nat n) == 0)%Q).
    { intros E. unfold Qeq in E. cbn [Qnum Qden inject_Z] in E. lia. }
    assert (Hmz : ~ (inject_Z (Z.of_nat b) - inject_Z (Z.of_nat a) == 0)%Q).
    { intros E. unfold Qminus in E. rewrite <- inject_Z_opp, <- inject_Z_plus in E.
      unfold Qeq in E. cbn [Qnum Qden inject_Z] in E. lia. }
    rewrite Nat2Z.inj_sub, Nat2Z.inj_add by lia.
    unfold Z.sub. rewrite !inject_Z_plus, !inject_Z_opp. field. split; auto.
  Qed.

  (** ** A part is determined *)
  Lemma part_alike d cuts ca cb e e' : part_of d cuts ca cb e -> part_of d cuts ca cb e' -> alike e e'.
  Proof.
    intros (gs & v & gs' & v' & lo & up & P1 & P2 & P3 & P4 & P5 & P6 & P7 & P8 & P9 & P10 & P11 & P12 & P13 & P14 & P15)
      (gs2 & v2 & gs2' & v2' & lo2 & up2 & R1 & R2 & R3 & R4 & R5 & R6 & R7 & R8 & R9 & R10 & R11 & R12 & R13 & R14 & R15).
    rewrite P2 in R2. injection R2 as <-.
    assert (gs2 = gs) as ->.
    { rewrite P1 in R1. injection R1 as R1. symmetry.
      apply (f_equal (List.map (@flat Q))) in R1. rewrite !map_map in R1. unfold line in R1. cbn [flat] in R1.
      now rewrite !map_id in R1. }
    split; [|split; [congruence|split; [congruence|split; [|split]]]].
    - rewrite P4, R4. f_equal. apply nda_ext; auto; [congruence|].
      intros idx Hi. rewrite P10 in Hi. unfold in_range in Hi.
      apply Forall2_app_inv_r in Hi as (i & l & Hi & Hl & ->).
      inversion Hl as [|c ? ? ? Hc Hr]; subst. inversion Hr; subst.
      rewrite P11, R11; auto.
    - exists gs', gs2'. split; [auto|]. split; [auto|]. apply Forall2_nth_error_intro; [congruence|].
      intros k g g2 Hg Hg2. destruct (nth_error_lt cuts k) as [[a b] Hab]; [apply nth_error_len in Hg; lia|].
      destruct (P15 _ _ _ Hab) as (h & h' & l & u & x & y & G1 & G2 & _ & _ & G5 & G6 & _).
      destruct (R15 _ _ _ Hab) as (k0 & k' & l' & u' & x' & y' & K1 & K2 & _ & _ & K5 & K6 & _).
      assert (k0 = h) as -> by congruence. assert (h' = g) as -> by congruence. assert (k' = g2) as -> by congruence.
      apply Forall2_nth_error_intro; [congruence|]. intros i p q Hp Hq.
      pose proof (nth_error_len _ _ _ Hp) as Hi. rewrite G5 in Hi.
      destruct (G6 i) as (p1 & r1 & A1' & A2' & A3'); [lia|]. destruct (K6 i) as (q1 & s1 & B1' & B2' & B3'); [lia|].
      assert (p1 = p) as -> by congruence. assert (q1 = q) as -> by congruence. assert (s1 = r1) as -> by congruence.
      now rewrite A3', B3'.
    - exists lo, lo2. split; [auto|]. split; [auto|]. apply Forall2_nth_error_intro; [congruence|].
      intros k p q Hp Hq. destruct (nth_error_lt cuts k) as [[a b] Hab]; [apply nth_error_len in Hp; lia|].
      destruct (P15 _ _ _ Hab) as (h & h' & l & u & x & y & G1 & _ & G3 & G4 & _ & _ & G7 & G8 & G9 & G10).
      destruct (R15 _ _ _ Hab) as (k0 & k' & l' & u' & x' & y' & K1 & _ & K3 & K4 & _ & _ & K7 & K8 & K9 & K10).
      assert (k0 = h) as -> by congruence. assert (x' = x) as -> by congruence.
      assert (l = p) as -> by congruence. assert (l' = q) as -> by congruence. now rewrite G8, K8.
    - exists up, up2. split; [auto|]. split; [auto|]. apply Forall2_nth_error_intro; [congruence|].
      intros k p q Hp Hq. destruct (nth_error_lt cuts k) as [[a b] Hab]; [apply nth_error_len in Hp; lia|].
      destruct (P15 _ _ _ Hab) as (h & h' & l & u & x & y & G1 & _ & G3 & G4 & _ & _ & G7 & G8 & G9 & G10).
      destruct (R15 _ _ _ Hab) as (k0 & k' & l' & u' & x' & y' & K1 & _ & K3 & K4 & _ & _ & K7 & K8 & K9 & K10).
      assert (k0 = h) as -> by congruence. assert (y' = y) as -> by congruence.
      assert (u = p) as -> by congruence. assert (u' = q) as -> by congruence. now rewrite G10, K10.
  Qed.
End Open.
