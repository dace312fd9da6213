(** * C123: files cut short *)
From Coq Require Import String Ascii List ZArith Bool Lia QArith.
From Verif Require Import Prelude PreludeFacts NdArray Gkyl_Model Gkyl_Spec Gkyl_Proofs Gkyl_Proofs2 Gkyl_Proofs3 Gkyl_Props Cut_Proofs Cut_Proofs2.
Import ListNotations.
Open Scope list_scope. Open Scope Z_scope.

Lemma width_pos rt : (0 < width_of rt)%nat.
Proof. unfold width_of. destruct (rt =? 1); lia. Qed.

Section C123.
  Context {F M : Type} (fo : fops F) (unpack : list Z -> option (option (list (string * M)))) (mtrue : M).

  (** The common beginning of all kinds of files. *)
  Lemma cut_header p r ft meta rt rest cuts ctx g : p ++ r = header_bytes ft meta ++ u64 rt ++ rest ->
    fits ft -> rt = 1 \/ rt = 2 -> fits (Z.of_nat (length meta)) -> load fo unpack mtrue p cuts ctx = Ok g ->
    is_compatible p = is_compatible (p ++ r) /\ is_compatible (p ++ r) = true /\
    exists s, read_header unpack mtrue p (init_rst ctx) = Ok s /\ read_header unpack mtrue (p ++ r) (init_rst ctx) = Ok s /\
      r_w s = width_of rt /\ r_type s = ft /\ r_ver s = 1 /\ At (p ++ r) (r_off s) rest /\ r_off s <= Z.of_nat (length p).
  Proof.
    intros Ef Hft Hrt Hm H. assert (Frt : fits rt) by (unfold fits; lia).
    assert (HA : At (p ++ r) 0 (header_bytes ft meta ++ u64 rt ++ rest)) by (rewrite <- Ef; apply At_0).
    assert (Cf : is_compatible (p ++ r) = true) by (eapply is_compatible_header; eauto).
    assert (Cp : is_compatible p = true).
    { destruct (is_compatible p) eqn:E; [reflexivity|]. exfalso. destruct (Nat.lt_ge_cases (length p) 16) as [L|L].
      - exact (short_fails p r fo unpack mtrue cuts ctx g E L H).
      - rewrite (compatible_long p r Cf) in E by lia. discriminate. }
    split; [congruence|]. split; [exact Cf|]. pose proof H as H'. unfold load in H'. apply bind_ok in H' as (s & Es & _). exists s. split; [exact Es|].
    destruct (header_pre p r unpack mtrue _ _ (eq_trans Cp (eq_sym Cf)) Es) as (Esf & Lo). split; [exact Esf|].
    destruct (read_header_off unpack mtrue (p ++ r) (init_rst ctx) s ft meta rt rest Cf HA Hft Frt Hm Esf) as (W & T & V & A). split; [|auto].
    rewrite W. reflexivity.
  Qed.

  Lemma zprod_app_nat cells nc : zprod (List.map Z.of_nat cells ++ [Z.of_nat nc]) = Z.of_nat (prod cells * nc).
  Proof. rewrite map_snoc_of_nat, zprod_of_nat, prod_app. f_equal. unfold prod at 2. cbn [fold_right]. lia. Qed.

  (** The part of a field file up to the data. *)
  Lemma cut_domain_read p r ft rt meta fd asz rest cuts ctx g :
    p ++ r = header_bytes ft meta ++ u64 rt ++ u64n (length (fd_cells fd)) ++ flat_map u64n (fd_cells fd)
        ++ concat (fd_lower fd) ++ concat (fd_upper fd) ++ u64n (fd_nc fd * width_of rt) ++ u64n asz ++ rest ->
    fits ft -> ft = 1 \/ ft = 3 -> good_domain rt (width_of rt) meta fd -> fits (Z.of_nat asz) -> load fo unpack mtrue p cuts ctx = Ok g ->
    exists s d s1, read_header unpack mtrue p (init_rst ctx) = Ok s /\ read_header unpack mtrue (p ++ r) (init_rst ctx) = Ok s /\
      r_type s = ft /\ r_ver s = 1 /\
      read_domain fo p cuts s = Ok (d, s1) /\ read_domain fo (p ++ r) cuts s = Ok (d, s1) /\
      r_w s1 = width_of rt /\ r_type s1 = ft /\ r_ver s1 = 1 /\ At (p ++ r) (r_off s1) rest /\ r_off s1 <= Z.of_nat (length p) /\
      (cuts = None -> d_cells d = List.map Z.of_nat (fd_cells fd) /\ d_nc d = Z.of_nat (fd_nc fd) /\ d_orig d = List.map Z.of_nat (fd_cells fd) /\ d_orig_nc d = Z.of_nat (fd_nc fd) /\ d_asize d = Z.of_nat asz) /\
      d_orig d = List.map Z.of_nat (fd_cells fd) /\ d_orig_nc d = Z.of_nat (fd_nc fd).
  Proof.
    intros Ef Hft Ht Hd Hs H. pose proof Hd as (Hrt & _ & _ & _ & _ & Hm & _).
    destruct (cut_header p r ft meta rt _ cuts ctx g Ef Hft Hrt Hm H) as (_ & _ & s & Es & Esf & W & T & V & A & _).
    unfold load in H. rewrite Es in H. cbn [bind] in H. rewrite T, V in H.
    assert (Et : ((ft =? 1) || (ft =? 3) || (1 =? 0))%bool = true) by (destruct Ht as [-> | ->]; reflexivity). rewrite Et in H.
    apply bind_ok in H as ((d & s1) & Ed & _). pose proof (width_pos rt) as Wp.
    destruct (domain_pre p r fo cuts s d s1 ltac:(lia) Ed) as (Edf & Lo).
    exists s, d, s1. do 6 (split; [assumption|]).
    destruct (read_domain_raw_at fo (p ++ r) s rt fd meta rest asz A W Hd Hs) as (o & Er & Ao).
    unfold read_domain in Edf. rewrite Er in Edf. cbn [bind] in Edf.
    destruct cuts as [ps|].
    - apply bind_ok in Edf as (go & _ & Edf). apply bind_ok in Edf as (gc & _ & Edf). injection Edf as <- <-. cbn [r_w r_type r_ver r_off apply_cuts d_orig d_orig_nc] in *.
      do 5 (split; [assumption|]). split; [discriminate|]. auto.
    - injection Edf as <- <-. cbn [r_w r_type r_ver r_off d_cells d_nc d_orig d_orig_nc d_asize] in *. do 5 (split; [assumption|]). split; auto.
  Qed.

  (** Field files, whatever is recorded as their size. *)
  Lemma cut_field p r rt meta fd asz ctx g :
    p ++ r = header_bytes 1 meta ++ u64 rt ++ u64n (length (fd_cells fd)) ++ flat_map u64n (fd_cells fd)
        ++ concat (fd_lower fd) ++ concat (fd_upper fd) ++ u64n (fd_nc fd * width_of rt) ++ u64n asz ++ concat (fd_data fd) ->
    good_field rt (width_of rt) meta fd -> fits (Z.of_nat asz) -> load fo unpack mtrue p None ctx = Ok g -> r = [].
  Proof.
    intros Ef (Hd & Hwd & Hld) Hs H.
    destruct (cut_domain_read p r 1 rt meta fd asz _ None ctx g Ef ltac:(unfold fits; lia) (or_introl eq_refl) Hd Hs H)
      as (s & d & s1 & Es & _ & T & V & Ed & _ & W1 & T1 & V1 & A & Lo & Hc & _). destruct (Hc eq_refl) as (Dc & Dn & _).
    unfold load in H. rewrite Es in H. cbn [bind] in H. rewrite T, V in H. cbn [Z.eqb Pos.eqb orb] in H. rewrite Ed in H. cbn [bind] in H. rewrite T1 in H. cbn [Z.eqb Pos.eqb orb] in H.
    apply bind_ok in H as (data & Edt & _). apply bind_ok in Edt as (b & Eb & _). unfold read_t1 in Eb. apply bind_ok in Eb as (x & Ex & _).
    pose proof (data_needs p [] fo d (r_w s1) _ _ x ltac:(rewrite W1; apply width_pos) Ex) as N. rewrite Dc, Dn, zprod_app_nat, W1 in N.
    apply At_end in A. rewrite (concat_length (width_of rt)), Hld, app_length in A by exact Hwd.
    destruct r as [|z r]; [reflexivity|]. exfalso. cbn [length] in A.
    destruct (Nat.eq_dec (prod (fd_cells fd) * fd_nc fd) 0) as [E0|E0]; [rewrite E0 in A; cbn in A; lia|]. specialize (N ltac:(lia)).
    set (q := (prod (fd_cells fd) * fd_nc fd)%nat) in *. clearbody q. rewrite Nat2Z.inj_mul in A. lia.
  Qed.

  (** A field file that lost its end, were it a single byte, is not loaded. *)
  Theorem C123_field rt meta fd ctx k : good_field rt (width_of rt) meta fd -> (k < length (field_bytes rt meta fd))%nat ->
    exists e, load fo unpack mtrue (firstn k (field_bytes rt meta fd)) None ctx = Err e.
  Proof.
    intros Hg Hk. destruct (load fo unpack mtrue (firstn k (field_bytes rt meta fd)) None ctx) as [g|e] eqn:E; [|eauto]. exfalso.
    assert (skipn k (field_bytes rt meta fd) = []) as N.
    { eapply (cut_field _ _ rt meta fd (prod (fd_cells fd)) ctx g); [rewrite firstn_skipn|exact Hg|apply Hg|exact E].
      unfold field_bytes, domain_bytes. rewrite <- !app_assoc. reflexivity. }
    apply (f_equal (@length _)) in N. rewrite skipn_length in N. change (length (@nil Z)) with 0%nat in N. lia.
  Qed.

  (** Distributed files. *)
  Lemma cut_ranges p r d w nc cells rs : (0 < w)%nat -> forall off data x,
    Forall (good_range w cells nc) rs -> Forall (fun n => fits (Z.of_nat n)) cells -> fits (Z.of_nat (prod cells)) ->
    d_orig d = List.map Z.of_nat cells -> d_nc d = Z.of_nat nc -> d_orig_nc d = Z.of_nat nc ->
    At (p ++ r) off (flat_map range_bytes rs) -> off <= Z.of_nat (length p) ->
    t3_loop fo p false d w (length rs) off data = Ok x -> r = [].
  Proof.
    intros Hw. induction rs as [|rg rs IH]; intros off data x Hg Hc Hpc Do Dn Dnn A Lo H.
    - apply At_end in A. rewrite app_length in A. destruct r; [reflexivity|cbn [length flat_map] in A; lia].
    - inversion_clear Hg as [|? ? G1 G2]. cbn [length t3_loop] in H. rewrite Do, map_length in H.
      pose proof G1 as (Ll & Lu & Hin & Hwd & Hld).
      destruct (rg_fits _ _ _ _ G1 Hc Hpc) as (Fl & Fu & Fe).
      apply bind_ok in H as (lo & El & H). apply bind_ok in H as (up & Eu & H). apply bind_ok in H as (asz & Ea & H).
      destruct (Z.eqb_spec (Z.of_nat (length lo)) (Z.of_nat (length cells))) as [L1|]; [|discriminate].
      destruct (Z.eqb_spec (Z.of_nat (length up)) (Z.of_nat (length cells))) as [L2|]; [|discriminate]. cbn [andb] in H.
      destruct (read_i64s_pre p r (Z.of_nat (length cells)) _ _ (Nat2Z.is_nonneg _) El L1) as (El' & _). destruct (read_i64s_pre p r (Z.of_nat (length cells)) _ _ (Nat2Z.is_nonneg _) Eu L2) as (Eu' & _). destruct (read_i64_pre p r _ _ Ea) as (_ & _ & Oa).
      cbn [flat_map] in A. unfold range_bytes in A. rewrite <- !app_assoc in A.
      destruct (read_i64s_at _ _ _ _ (Z.of_nat (length cells)) A Fl ltac:(lia)) as (E1 & A1). rewrite E1 in El'. injection El' as <-.
      destruct (read_i64s_at _ _ _ _ (Z.of_nat (length cells)) A1 Fu ltac:(lia)) as (E2 & A2). rewrite E2 in Eu'. injection Eu' as <-.
      replace (off + Z.of_nat (length cells) * 8 + Z.of_nat (length cells) * 8) with (off + Z.of_nat (length cells) * 16) in A2 by lia.
      destruct (read_i64_at _ _ _ _ A2 Fe) as (E3 & A3). destruct (read_i64_pre p r _ _ Ea) as (Ea' & _). rewrite E3 in Ea'. injection Ea' as <-.
      apply bind_ok in H as (y & Ey & H). destruct y as [[blk slices] off']. apply bind_ok in H as (data' & _ & H).
      unfold get_data in Ey. cbn [negb] in Ey. apply bind_ok in Ey as (items & Ei & Ey). apply bind_ok in Ey as (a & Eres & Ey). injection Ey as _ _ Eo.
      apply reshape_length in Eres as (Lr & _). rewrite map_length, Dn in Lr.
      assert (Ez : map2 (fun l u => u - l + 1) (List.map Z.of_nat (rg_lo rg)) (List.map Z.of_nat (rg_up rg)) = List.map Z.of_nat (rg_ext rg)).
      { unfold rg_ext. assert (Hle : forall k l u, nth_error (rg_lo rg) k = Some l -> nth_error (rg_up rg) k = Some u -> (l <= u)%nat).
        { intros k l u El2 Eu2. destruct (nth_error cells k) as [c|] eqn:Ec; [pose proof (Hin k l u c El2 Eu2 Ec); lia|]. apply nth_error_None in Ec.
          assert (k < length (rg_lo rg))%nat by (apply nth_error_Some; congruence). lia. }
        clear - Hle. revert Hle. generalize (rg_up rg) as us. generalize (rg_lo rg) as ls. induction ls as [|l ls IHl]; intros [|u us] Hle; cbn [List.map map2]; try reflexivity.
        f_equal; [|apply IHl; intros k; apply (Hle (S k))]. pose proof (Hle 0%nat l u eq_refl eq_refl). lia. }
      rewrite Ez, zprod_app_nat in Lr.
      destruct (fromfile_pre p r _ _ _ _ Hw Ei) as (_ & _ & Hl & Hle & _).
      rewrite Dnn in Eo.
      assert (Ld : Z.of_nat (length (concat (rg_data rg))) = Z.of_nat (prod (rg_ext rg)) * Z.of_nat nc * Z.of_nat w) by (rewrite (concat_length w) by exact Hwd; rewrite Hld; lia).
      eapply (IH off' data' x); try assumption.
      + rewrite <- Eo. eapply At_step; [exact A3|]. lia.
      + rewrite <- Eo. destruct items as [|i0 items]; [cbn [length] in Lr; nia|]. specialize (Hl ltac:(discriminate)). nia.
  Qed.

  (** A distributed file that lost its end is not loaded. *)
  Theorem C123_multi rt meta fd rs ctx k : good_domain rt (width_of rt) meta fd -> fits (Z.of_nat (length rs)) ->
    Forall (good_range (width_of rt) (fd_cells fd) (fd_nc fd)) rs -> (k < length (multi_bytes rt meta fd rs))%nat ->
    exists e, load fo unpack mtrue (firstn k (multi_bytes rt meta fd rs)) None ctx = Err e.
  Proof.
    intros Hd Hn Hg Hk. destruct (load fo unpack mtrue (firstn k (multi_bytes rt meta fd rs)) None ctx) as [g|e] eqn:H; [|eauto]. exfalso.
    assert (skipn k (multi_bytes rt meta fd rs) = []) as N.
    { revert H. set (p := firstn k (multi_bytes rt meta fd rs)). set (r := skipn k (multi_bytes rt meta fd rs)). intros H.
      assert (Ef : p ++ r = header_bytes 3 meta ++ u64 rt ++ u64n (length (fd_cells fd)) ++ flat_map u64n (fd_cells fd)
        ++ concat (fd_lower fd) ++ concat (fd_upper fd) ++ u64n (fd_nc fd * width_of rt) ++ u64n (prod (fd_cells fd)) ++ u64n (length rs) ++ flat_map range_bytes rs).
      { unfold p, r. rewrite firstn_skipn. unfold multi_bytes, domain_bytes. rewrite <- !app_assoc. reflexivity. }
      clearbody p r. pose proof Hd as (_ & _ & _ & _ & _ & _ & _ & Hc & _ & Hs).
      destruct (cut_domain_read p r 3 rt meta fd (prod (fd_cells fd)) _ None ctx g Ef ltac:(unfold fits; lia) (or_intror eq_refl) Hd Hs H)
        as (s & d & s1 & Es & _ & T & V & Ed & _ & W1 & T1 & V1 & A & Lo & Hcn & _). destruct (Hcn eq_refl) as (Dc & Dn & Do & Dnn & _).
      unfold load in H. rewrite Es in H. cbn [bind] in H. rewrite T, V in H. cbn [Z.eqb Pos.eqb orb] in H. rewrite Ed in H. cbn [bind] in H. rewrite T1, V1 in H. cbn [Z.eqb Pos.eqb orb] in H.
      apply bind_ok in H as (data & Edt & _). unfold read_t3 in Edt. apply bind_ok in Edt as (nr & En & Edt). destruct (read_i64_pre p r _ _ En) as (En' & _ & Ln).
      destruct (read_i64_at _ _ _ _ A Hn) as (En2 & A2). rewrite En2 in En'. injection En' as <-. rewrite Nat2Z.id in Edt.
      destruct (forallb _ _); [|discriminate]. rewrite W1 in Edt.
      eapply (cut_ranges p r d (width_of rt) (fd_nc fd) (fd_cells fd) rs (width_pos rt)); eauto. }
    apply (f_equal (@length _)) in N. rewrite skipn_length in N. change (length (@nil Z)) with 0%nat in N. lia.
  Qed.

  (** Time traces. *)
  Lemma cut_trace p r nc : (0 < nc)%nat -> is_compatible p = true -> is_compatible (p ++ r) = true ->
    forall fuel rest c s cells time data dnc x, Forall (good_chunk 2 nc) (c :: rest) -> r_w s = 8%nat ->
    At (p ++ r) (r_off s) (u64n (nc * width_of 2) ++ u64n (length (ch_time c)) ++ concat (ch_time c) ++ concat (ch_data c) ++ flat_map (chunk_bytes 2 nc) rest) ->
    t2_loop fo unpack mtrue p fuel s cells time data dnc = Ok x ->
    exists rest1 rest2, rest = rest1 ++ rest2 /\ r = flat_map (chunk_bytes 2 nc) rest2.
  Proof.
    intros Hnc Cp Cf. induction fuel as [|fuel IH]; intros rest c s cells time data dnc x Hg Hw A H; [discriminate|].
    inversion_clear Hg as [|? ? G1 G2]. pose proof G1 as (T0 & T8 & D8 & Ld & Fm & Fn & Ft).
    cbn [t2_loop] in H. rewrite Hw in H. change (Z.of_nat 8) with 8 in H. apply bind_ok in H as (esz & Ee & H). apply bind_ok in H as (lc & Elc & H).
    destruct (read_i64_at _ _ _ _ A Fn) as (E1 & A1). destruct (read_i64_pre p r _ _ Ee) as (Ee' & _). rewrite E1 in Ee'. injection Ee' as <-.
    destruct (read_i64_at _ _ _ _ A1 Ft) as (E2 & A2). destruct (read_i64_pre p r _ _ Elc) as (El' & _). rewrite E2 in El'. injection El' as <-.
    change (width_of 2) with 8%nat in *. rewrite Nat2Z.inj_mul in H. change (Z.of_nat 8) with 8 in H. rewrite Z.quot_mul in H by lia.
    apply bind_ok in H as (lt & _ & H). apply bind_ok in H as (raw & Er & H).
    destruct ((0 <=? Z.of_nat (length (ch_time c))) && (0 <=? Z.of_nat nc) && (Z.of_nat (length raw) =? Z.of_nat nc * Z.of_nat (length (ch_time c))))%bool eqn:Eb; [|discriminate].
    apply andb_true_iff in Eb as (_ & Lr). apply Z.eqb_eq in Lr.
    destruct (fromfile_pre p r 8 _ _ _ ltac:(lia) Er) as (_ & _ & Hl & _). assert (Hne : raw <> []) by (destruct raw; [cbn [length] in Lr; nia|discriminate]). specialize (Hl Hne).
    apply bind_ok in H as (data' & _ & H).
    set (o := r_off s + 16 + Z.of_nat (length (ch_time c)) * 8 + Z.of_nat (length (ch_time c)) * (Z.of_nat nc * 8)) in *.
    assert (Lo : o <= Z.of_nat (length p)) by (unfold o; lia).
    assert (Ao : At (p ++ r) o (flat_map (chunk_bytes 2 nc) rest)).
    { replace o with (r_off s + 8 + 8 + Z.of_nat (length (concat (ch_time c))) + Z.of_nat (length (concat (ch_data c)))).
      2:{ rewrite (concat_length 8 _ T8), (concat_length 8 _ D8), Ld. unfold o. lia. }
      eapply At_step; [|reflexivity]. eapply At_step; [|reflexivity]. exact A2. }
    destruct (Z.leb_spec (Z.of_nat (length p)) o) as [Q|Q].
    - exists [], rest. split; [reflexivity|]. destruct Ao as (_ & Ao). replace (Z.to_nat o) with (length p) in Ao by lia.
      rewrite skipn_app, skipn_all, Nat.sub_diag in Ao. exact Ao.
    - apply bind_ok in H as (s2 & Es & H). destruct rest as [|c2 rest].
      { apply At_end in Ao. rewrite app_length in Ao. cbn [flat_map length] in Ao. lia. }
      destruct (header_pre p r unpack mtrue _ _ (eq_trans Cp (eq_sym Cf)) Es) as (Esf & _).
      inversion G2 as [|? ? G3 _]; subst. pose proof G3 as (_ & _ & _ & _ & Fm2 & _).
      cbn [flat_map] in Ao. unfold chunk_bytes in Ao at 1. rewrite <- !app_assoc in Ao.
      destruct (read_header_off unpack mtrue (p ++ r) (mk_rst o 8%nat (r_type s) (r_ver s) (r_ctx s)) s2 2 (ch_meta c2) 2 _ Cf Ao ltac:(unfold fits; lia) ltac:(unfold fits; lia) Fm2 Esf) as (W & T & _ & A3).
      cbn [Z.eqb Pos.eqb r_w] in W. rewrite T in H. cbn [Z.eqb Pos.eqb] in H.
      destruct (IH rest c2 s2 _ _ _ _ x G2 W A3 H) as (r1 & r2 & -> & Er2). exists (c2 :: r1), r2. auto.
  Qed.

  (** Of a time trace that lost its end, what is loaded are whole chunks: it must
      have been cut between two of them. *)
  Theorem C123_trace nc chunks cuts ctx k g : (0 < nc)%nat -> chunks <> [] -> Forall (good_chunk 2 nc) chunks ->
    load fo unpack mtrue (firstn k (flat_map (chunk_bytes 2 nc) chunks)) cuts ctx = Ok g ->
    exists n, (0 < n <= length chunks)%nat /\ firstn k (flat_map (chunk_bytes 2 nc) chunks) = flat_map (chunk_bytes 2 nc) (firstn n chunks).
  Proof.
    intros Hnc Hne Hg. set (f := flat_map (chunk_bytes 2 nc) chunks). pose proof (firstn_skipn k f) as Ef.
    revert Ef. set (p := firstn k f). set (r := skipn k f). clearbody p r. intros Ef H. destruct chunks as [|c rest]; [congruence|].
    inversion Hg as [|? ? G1 _]; subst. pose proof G1 as (_ & _ & _ & _ & Fm & _).
    assert (Ef' : p ++ r = header_bytes 2 (ch_meta c) ++ u64 2 ++ u64n (nc * width_of 2) ++ u64n (length (ch_time c)) ++ concat (ch_time c) ++ concat (ch_data c) ++ flat_map (chunk_bytes 2 nc) rest).
    { rewrite Ef. unfold f. cbn [flat_map]. unfold chunk_bytes at 1. now rewrite <- !app_assoc. }
    destruct (cut_header p r 2 (ch_meta c) 2 _ cuts ctx g Ef' ltac:(unfold fits; lia) (or_intror eq_refl) Fm H) as (Cp & Cf & s & Es & _ & W & T & V & A & _).
    unfold load in H. rewrite Es in H. cbn [bind] in H. rewrite T, V in H. cbn [Z.eqb Pos.eqb orb] in H. apply bind_ok in H as (x & Ex & _).
    destruct (cut_trace p r nc Hnc (eq_trans Cp Cf) Cf _ rest c s _ _ _ _ x Hg W A Ex) as (r1 & r2 & -> & Er).
    exists (S (length r1)). split; [cbn [length]; rewrite app_length; lia|]. cbn [firstn]. rewrite firstn_app, firstn_all, Nat.sub_diag, firstn_O, app_nil_r.
    rewrite Er in Ef. unfold f in Ef. cbn [flat_map] in *. rewrite flat_map_app, app_assoc in Ef. now apply app_inv_tail in Ef.
  Qed.

  (** A file written by postgkyl that lost its end is not loaded. *)
  Theorem C123_written (enc : F -> list Z) cells nc lo up vals ctx k :
    (forall x, length (enc x) = 8%nat) -> wf vals -> shape vals = cells ++ [nc] -> (0 < nc)%nat ->
    length lo = length cells -> length up = length cells ->
    fits (Z.of_nat (length cells)) -> Forall (fun n => fits (Z.of_nat n)) cells ->
    fits (Z.of_nat (nc * 8)) -> fits (Z.of_nat (prod (shape vals))) ->
    let f := write_gkyl enc (List.map Z.of_nat cells) lo up (Z.of_nat nc) vals in
    (k < length f)%nat -> exists e, load fo unpack mtrue (firstn k f) None ctx = Err e.
  Proof.
    intros He Hwf Hsh Hnc Hlo Hup F1 F2 F3 F4 f Hk. destruct (load fo unpack mtrue (firstn k f) None ctx) as [g|e] eqn:E; [|eauto]. exfalso.
    assert (Hp : prod (shape vals) = (prod cells * nc)%nat) by (rewrite Hsh, prod_app; unfold prod at 2; cbn [fold_right]; lia).
    assert (skipn k f = []) as N.
    { eapply (cut_field _ _ 2 [] (mk_field cells nc (List.map enc lo) (List.map enc up) (List.map enc (flat vals))) (prod (shape vals)) ctx g); [rewrite firstn_skipn| |exact F4|exact E].
      - unfold f. apply write_gkyl_bytes.
      - change (width_of 2) with 8%nat. split; [|split].
        + unfold good_domain; cbn [fd_cells fd_nc fd_lower fd_upper fd_data]. rewrite !map_length.
          split; [now right|]. split; [auto|]. split; [auto|].
          split; [apply all_width_map; auto|]. split; [apply all_width_map; auto|].
          split; [split; reflexivity || (vm_compute; congruence)|]. do 3 (split; [auto|]). unfold fits in *. rewrite Hp in F4. nia.
        + apply all_width_map; auto.
        + cbn [fd_data fd_cells fd_nc]. rewrite map_length, Hwf. exact Hp. }
    apply (f_equal (@length _)) in N. rewrite skipn_length in N. change (length (@nil Z)) with 0%nat in N. lia.
  Qed.

  (** Anything after a complete field file is ignored. *)
  Theorem C123_trailing rt meta fd ctx junk : good_field rt (width_of rt) meta fd -> meta_readable unpack meta ->
    exists g, load fo unpack mtrue (field_bytes rt meta fd) None ctx = Ok g /\
              load fo unpack mtrue (field_bytes rt meta fd ++ junk) None ctx = Ok g.
  Proof.
    intros Hg Hm. destruct (C02_documented_file F M fo unpack mtrue rt meta fd ctx Hg Hm) as (_ & g & H & _). exists g. split; [exact H|].
    pose proof Hg as (Hd & _). pose proof Hd as (_ & _ & _ & _ & _ & _ & _ & _ & _ & Hs).
    assert (Ef : field_bytes rt meta fd ++ junk = header_bytes 1 meta ++ u64 rt ++ u64n (length (fd_cells fd)) ++ flat_map u64n (fd_cells fd)
        ++ concat (fd_lower fd) ++ concat (fd_upper fd) ++ u64n (fd_nc fd * width_of rt) ++ u64n (prod (fd_cells fd)) ++ concat (fd_data fd) ++ junk)
      by (unfold field_bytes, domain_bytes; rewrite <- !app_assoc; reflexivity).
    revert Ef H. generalize (field_bytes rt meta fd) as p. intros p Ef H.
    destruct (cut_domain_read p junk 1 rt meta fd (prod (fd_cells fd)) _ None ctx g Ef ltac:(unfold fits; lia) (or_introl eq_refl) Hd Hs H)
      as (s & d & s1 & Es & Esf & T & V & Ed & Edf & W1 & T1 & V1 & A & Lo & Hc & _). destruct (Hc eq_refl) as (Dc & Dn & _ & _ & Da).
    unfold load in H |- *. rewrite Es in H. rewrite Esf. cbn [bind] in H |- *. rewrite T, V in H |- *. cbn [Z.eqb Pos.eqb orb] in H |- *. rewrite Ed in H. rewrite Edf. cbn [bind] in H |- *.
    rewrite T1 in H |- *. cbn [Z.eqb Pos.eqb orb] in H |- *.
    apply bind_ok in H as (data & Edt & H). apply bind_ok in Edt as (b & Eb & Edt). unfold read_t1 in Eb |- *. apply bind_ok in Eb as (x & Ex & Eb).
    unfold get_data in Ex |- *. cbn [negb] in Ex |- *. apply bind_ok in Ex as (items & Ei & Ex). pose proof Ex as Ex2. apply bind_ok in Ex2 as (a & Ea & _).
    apply reshape_length in Ea as (La & _). rewrite map_length, Dc, Dn, zprod_app_nat in La.
    assert (Wp : (0 < r_w s1)%nat) by (rewrite W1; apply width_pos).
    rewrite (fromfile_same p junk (r_w s1) (d_asize d * d_nc d) _ items Wp ltac:(rewrite Da, Dn; lia) Ei ltac:(rewrite Da, Dn, La; lia)). cbn [bind].
    rewrite Ex. cbn [bind]. injection Eb as <-. rewrite Edt. cbn [bind]. exact H.
  Qed.

  (** Partial loading of a field file that lost its end: whatever is loaded
      agrees with the same part of the complete file, except that the components
      of the very last cell may all be replaced by the first of them. *)
  Lemma part_of_cut rt meta fd ps ctx k g g' : good_field rt (width_of rt) meta fd ->
    load fo unpack mtrue (field_bytes rt meta fd) (Some ps) ctx = Ok g ->
    load fo unpack mtrue (firstn k (field_bytes rt meta fd)) (Some ps) ctx = Ok g' ->
    (l_grid g' = l_grid g /\ l_cells g' = l_cells g /\ l_lower g' = l_lower g /\ l_upper g' = l_upper g /\ l_nc g' = l_nc g /\ l_ctx g' = l_ctx g) /\
    shape (l_data g') = shape (l_data g) /\ same_but_last (l_nc g) (flat (l_data g')) (flat (l_data g)).
  Proof.
    intros Hg Hf H. pose proof Hg as (Hd & _). pose proof Hd as (_ & _ & _ & _ & _ & _ & _ & _ & _ & Hs). revert Hf H.
    assert (Ef : firstn k (field_bytes rt meta fd) ++ skipn k (field_bytes rt meta fd) = header_bytes 1 meta ++ u64 rt ++ u64n (length (fd_cells fd)) ++ flat_map u64n (fd_cells fd)
        ++ concat (fd_lower fd) ++ concat (fd_upper fd) ++ u64n (fd_nc fd * width_of rt) ++ u64n (prod (fd_cells fd)) ++ concat (fd_data fd))
      by (rewrite firstn_skipn; unfold field_bytes, domain_bytes; rewrite <- !app_assoc; reflexivity).
    rewrite <- (firstn_skipn k (field_bytes rt meta fd)) at 1. revert Ef.
    generalize (firstn k (field_bytes rt meta fd)) as p. generalize (skipn k (field_bytes rt meta fd)) as r. intros r p Ef Hf H.
    destruct (cut_domain_read p r 1 rt meta fd (prod (fd_cells fd)) _ (Some ps) ctx g' Ef ltac:(unfold fits; lia) (or_introl eq_refl) Hd Hs H)
      as (s & d & s1 & Es & Esf & T & V & Ed & Edf & W1 & T1 & V1 & A & Lo & _ & Do & Don).
    unfold load in H, Hf. rewrite Es in H. rewrite Esf in Hf. cbn [bind] in H, Hf. rewrite T, V in H, Hf. cbn [Z.eqb Pos.eqb orb] in H, Hf. rewrite Ed in H. rewrite Edf in Hf. cbn [bind] in H, Hf.
    rewrite T1 in H, Hf. cbn [Z.eqb Pos.eqb orb] in H, Hf.
    apply bind_ok in H as (data' & Edt & H). apply bind_ok in Edt as (b' & Eb & Edt). unfold read_t1 in Eb. apply bind_ok in Eb as (((x1 & x2) & x3) & Ex & Eb). injection Eb as <-.
    apply bind_ok in Hf as (data & Edt' & Hf). apply bind_ok in Edt' as (b & Eb & Edt'). unfold read_t1 in Eb. apply bind_ok in Eb as (((y1 & y2) & y3) & Ey & Eb). injection Eb as <-. cbn [fst] in *.
    assert (Dp : shape data' = shape data /\ same_but_last (d_nc d) (flat data') (flat data)).
    { assert (Wp : (0 < r_w s1)%nat) by (rewrite W1; apply width_pos).
      assert (Op : Forall (fun n => 0 <= n) (d_orig d)) by (rewrite Do; apply Forall_forall; intros n Hn; apply in_map_iff in Hn as (m & <- & _); lia).
      assert (Np : 0 <= d_orig_nc d) by lia.
      pose proof (data_part_pre p r fo d (r_w s1) _ _ _ _ _ _ _ _ Wp Op Np Ex Ey) as Q.
      destruct x1 as [a|], y1 as [a'|]; try contradiction; injection Edt as <-; injection Edt' as <-; [exact Q|]. split; [reflexivity|now left]. }
    destruct Dp as (Sh & Q). rewrite Sh in H. apply bind_ok in H as (adj & Eadj & H). apply bind_ok in H as (grid & Egr & H). injection H as <-.
    rewrite Eadj in Hf. cbn [bind] in Hf. rewrite Egr in Hf. cbn [bind] in Hf. injection Hf as <-. cbn [l_grid l_data l_cells l_lower l_upper l_nc l_ctx]. auto 10.
  Qed.

  Theorem C123_part rt meta fd ps ctx k g g' : good_field rt (width_of rt) meta fd ->
    load fo unpack mtrue (field_bytes rt meta fd) (Some ps) ctx = Ok g ->
    load fo unpack mtrue (firstn k (field_bytes rt meta fd)) (Some ps) ctx = Ok g' ->
    (l_grid g' = l_grid g /\ l_cells g' = l_cells g /\ l_lower g' = l_lower g /\ l_upper g' = l_upper g /\ l_nc g' = l_nc g /\ l_ctx g' = l_ctx g) /\
    shape (l_data g') = shape (l_data g) /\
    (l_data g' = l_data g \/
     exists before x others, flat (l_data g) = before ++ x :: others /\ Z.of_nat (length (x :: others)) = l_nc g /\
       flat (l_data g') = before ++ x :: List.map (fun _ => x) others).
  Proof.
    intros Hg Hf H. destruct (part_of_cut rt meta fd ps ctx k g g' Hg Hf H) as (E & Sh & Q). split; [exact E|]. split; [exact Sh|]. destruct Q as [Q|(a & x & t & Q1 & Q2 & L)].
    - left. destruct (l_data g) as [u1 u2], (l_data g') as [v1 v2]. cbn [shape flat] in *. congruence.
    - right. exists a, x, t. split; [exact Q2|]. split; [exact L|]. rewrite Q1. cbn [repeat]. do 2 f_equal. clear. induction t as [|y t IH]; cbn [length repeat List.map]; [reflexivity|]. now rewrite IH.
  Qed.

  (** With a single component selected nothing is lost unnoticed. *)
  Theorem C123_part_one rt meta fd ps ctx k g g' : good_field rt (width_of rt) meta fd ->
    load fo unpack mtrue (field_bytes rt meta fd) (Some ps) ctx = Ok g -> l_nc g = 1 ->
    load fo unpack mtrue (firstn k (field_bytes rt meta fd)) (Some ps) ctx = Ok g' -> g' = g.
  Proof.
    intros Hg Hf Hn H. destruct (C123_part rt meta fd ps ctx k g g' Hg Hf H) as ((E1 & E2 & E3 & E4 & E5 & E6) & Sh & Q).
    assert (l_data g' = l_data g) as Q'.
    { destruct Q as [Q|(a & x & t & Q1 & L & Q2)]; [exact Q|]. destruct t as [|y t]; [|cbn [length] in L; lia]. cbn [List.map] in Q2. rewrite <- Q1 in Q2.
      destruct (l_data g) as [u1 u2], (l_data g') as [v1 v2]. cbn [shape flat] in *. congruence. }
    destruct g as [a1 a2 a3 a4 a5 a6 a7], g' as [b1 b2 b3 b4 b5 b6 b7]. cbn [l_grid l_data l_cells l_lower l_upper l_nc l_ctx] in *. congruence.
  Qed.
End C123.

(** Without that restriction the values loaded from a cut file can be wrong: a
    file of two cells with three components that lost its last two numbers is
    loaded without complaint, the last two components equal to the first. *)
Definition cut_fd : field := mk_field [2]%nat 3 [d8 0] [d8 2] (List.map (fun k => d8 (Z.of_nat k)) (seq 1 6)).
Definition cut_ps : list string := ["0:"; ":"; ":"; ":"; ":"; ":"; ":"]%string.
Definition cut_k : nat := length (field_bytes 2 [] cut_fd) - 16.
Theorem C123_part_refuted : exists fd ps k g g', good_field 2 8 [] fd /\ meta_readable ex_unpack [] /\ (k < length (field_bytes 2 [] fd))%nat /\
  load ex_ops ex_unpack 1 (field_bytes 2 [] fd) (Some ps) [] = Ok g /\
  load ex_ops ex_unpack 1 (firstn k (field_bytes 2 [] fd)) (Some ps) [] = Ok g' /\
  flat (l_data g) = List.map inject_Z [1; 2; 3; 4; 5; 6] /\ flat (l_data g') = List.map inject_Z [1; 2; 3; 4; 4; 4].
Proof.
  exists cut_fd, cut_ps, cut_k. do 2 eexists. split; [good_field_tac|]. split; [now left|]. split; [vm_compute; lia|].
  split; [vm_compute; reflexivity|]. split; [vm_compute; reflexivity|]. split; vm_compute; reflexivity.
Qed.

(** A file written by postgkyl records its size times the number of components,
    so anything after its end keeps it from being loaded. *)
Theorem C123_trailing_refuted : exists (vals : nda Q) g e, wf vals /\
  load ex_ops ex_unpack 1 (write_gkyl (fun q => d8 (Qnum q)) [2] [inject_Z 0] [inject_Z 4] 2 vals) None [] = Ok g /\
  load ex_ops ex_unpack 1 (write_gkyl (fun q => d8 (Qnum q)) [2] [inject_Z 0] [inject_Z 4] 2 vals ++ d8 7) None [] = Err e.
Proof.
  exists (mk_nda [2; 2]%nat [inject_Z 1; inject_Z 2; inject_Z 3; inject_Z 4]). do 2 eexists. split; [reflexivity|]. split; vm_compute; reflexivity.
Qed.

(** ** Examples *)
Example C123_hyps : good_field 2 8 [] cut_fd /\ meta_readable ex_unpack [] /\ length (field_bytes 2 [] cut_fd) = 133%nat.
Proof. split; [good_field_tac|]. split; [now left|vm_compute; reflexivity]. Qed.
Example C123_field_ex : (exists e, load ex_ops ex_unpack 1 (firstn 132 (field_bytes 2 [] cut_fd)) None [] = Err e) /\
  (exists e, load ex_ops ex_unpack 1 (firstn 125 (field_bytes 2 [] cut_fd)) None [] = Err e).
Proof. split; (apply (C123_field ex_ops ex_unpack 1 2 [] cut_fd); [exact (proj1 C123_hyps)|vm_compute; lia]). Qed.
Example C123_multi_ex : exists e, load ex_ops ex_unpack 1 (firstn 100 (multi_bytes 2 [] ex_multi ex_ranges)) None [] = Err e.
Proof. eexists. vm_compute. reflexivity. Qed.
Example C123_trace_ex : (exists g, load ex_ops ex_unpack 1 (firstn (length (flat_map (chunk_bytes 2 2) (firstn 1 ex_chunks))) (flat_map (chunk_bytes 2 2) ex_chunks)) None [] = Ok g /\ length (flat (l_data g)) <> 0%nat) /\
  exists e, load ex_ops ex_unpack 1 (firstn 60 (flat_map (chunk_bytes 2 2) ex_chunks)) None [] = Err e.
Proof. split; eexists; [split; [vm_compute; reflexivity|vm_compute; discriminate]|vm_compute; reflexivity]. Qed.
(** One component of the same cut file is loaded correctly or not at all. *)
Example C123_part_one_ex : exists g, l_nc g = 1 /\
  load ex_ops ex_unpack 1 (field_bytes 2 [] cut_fd) (Some ["0:"; ":"; ":"; ":"; ":"; ":"; "0"]%string) [] = Ok g /\
  load ex_ops ex_unpack 1 (firstn cut_k (field_bytes 2 [] cut_fd)) (Some ["0:"; ":"; ":"; ":"; ":"; ":"; "0"]%string) [] = Ok g.
Proof. eexists. split; [|split; vm_compute; reflexivity]. vm_compute. reflexivity. Qed.

Print Assumptions C123_field.
Print Assumptions C123_multi.
Print Assumptions C123_trace.
Print Assumptions C123_written.
Print Assumptions C123_trailing.
Print Assumptions C123_part.
Print Assumptions C123_part_one.
Print Assumptions C123_part_refuted.
Print Assumptions C123_trailing_refuted.
