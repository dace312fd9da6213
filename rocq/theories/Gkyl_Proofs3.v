(** * Time traces (file type 2), and consequences used in [Gkyl_Props]. *)
From Coq Require Import String Ascii List ZArith Bool Lia QArith Qfield.
From Verif Require Import Prelude PreludeFacts NdArray Gkyl_Model Gkyl_Spec Gkyl_Proofs Gkyl_Proofs2.
Import ListNotations.
Open Scope list_scope.
Open Scope Z_scope.

Section Trace.
  Context {F M : Type}.
  Variable fo : fops F.
  Variable unpack : list Z -> option (option (list (string * M))).
  Variable mtrue : M.
  Variable f : list Z.

  Definition chunk_body (nc : nat) (c : chunk) : list Z :=
    u64n (nc * 8) ++ u64n (length (ch_time c)) ++ concat (ch_time c) ++ concat (ch_data c).

  Lemma At_end off rest : At f off rest -> (Z.of_nat (length f) <=? off) = true <-> rest = [].
  Proof.
    intros [H0 H]. rewrite Z.leb_le. apply (f_equal (@length Z)) in H as HL. rewrite skipn_length in HL.
    split; intros H1.
    - destruct rest; [auto|]. simpl in HL. lia.
    - rewrite H1 in HL. simpl in HL. lia.
  Qed.

  Definition ctx_all (ctx : list (string * M)) (cs : list chunk) : list (string * M) :=
    fold_left (fun x c => ctx_after unpack mtrue x (ch_meta c)) cs ctx.

  Lemma t2_loop_ok nc cs : is_compatible f = true ->
    forall c fuel (s : @rst M) cells time data,
    (length cs < fuel)%nat -> r_w s = 8%nat ->
    At f (r_off s) (chunk_body nc c ++ flat_map (chunk_bytes 2 nc) cs) ->
    Forall (good_chunk 2 nc) (c :: cs) -> Forall (fun c => meta_ok unpack (ch_meta c)) cs ->
    0 <= cells -> (cells = 0 -> data = []) ->
    forall dnc, (cells <> 0 -> dnc = Z.of_nat nc) ->
    exists s', t2_loop fo unpack mtrue f fuel s cells time data dnc
    = Ok (time ++ List.map (fdec fo 8) (flat_map ch_time (c :: cs)),
          data ++ List.map (fdec fo 8) (flat_map ch_data (c :: cs)), Z.of_nat nc,
          cells + Z.of_nat (length (flat_map ch_time (c :: cs))), s') /\
      r_ctx s' = ctx_all (r_ctx s) cs.
  Proof.
    intros Hc. induction cs as [|c' cs IH]; intros c fuel s cells time data Hfuel Hw HA Hg Hm Hcells Hd0 dnc Hdnc;
      (destruct fuel as [|fuel]; [simpl in Hfuel; lia|]); cbn [t2_loop]; rewrite Hw;
      inversion Hg as [|? ? Hgc Hgcs]; subst;
      pose proof Hgc as (Hpos & Hwt & Hwd & Hld & Hfm & Hfn & Hft); change (width_of 2) with 8%nat in *;
      unfold chunk_body in HA; rewrite <- !app_assoc in HA;
      destruct (read_i64_at _ _ _ _ HA Hfn) as [-> HA1]; cbn [bind];
      destruct (read_i64_at _ _ _ _ HA1 Hft) as [-> HA2]; cbn [bind];
      (replace (r_off s + 16) with (r_off s + 8 + 8) by lia);
      (destruct (fromfile_at _ 8 _ _ _ (Z.of_nat (length (ch_time c))) HA2 Hwt) as [-> HA3]; [lia|reflexivity|]);
      cbn [bind]; change (Z.of_nat 8) with 8 in *;
      (replace (Z.quot (Z.of_nat (nc * 8)) 8) with (Z.of_nat nc)
         by (rewrite Nat2Z.inj_mul; symmetry; apply Z.quot_mul; lia));
      (destruct (fromfile_at _ 8 _ _ _ (Z.of_nat nc * Z.of_nat (length (ch_time c))) HA3 Hwd) as [-> HA4];
        [lia|rewrite Hld; lia|]); cbn [bind];
      (replace (Z.of_nat (length (ch_data c)) =? _) with true by (symmetry; apply Z.eqb_eq; rewrite Hld; lia));
      (replace (0 <=? Z.of_nat (length (ch_time c))) with true by (symmetry; apply Z.leb_le; lia));
      (replace (0 <=? Z.of_nat nc) with true by (symmetry; apply Z.leb_le; lia));
      cbn [andb];
      (assert (ED : (if cells =? 0 then Ok (List.map (fdec fo 8) (ch_data c))
                     else if dnc =? Z.of_nat nc then Ok (data ++ List.map (fdec fo 8) (ch_data c)) else Err ValueError)
                = Ok (data ++ List.map (fdec fo 8) (ch_data c)));
       [destruct (Z.eqb_spec cells 0); [now rewrite Hd0|]; rewrite Hdnc, Z.eqb_refl by auto; reflexivity|]);
      rewrite ED; clear ED; cbn [bind];
      (replace (r_off s + 8 + 8 + Z.of_nat (length (ch_time c)) * 8 + Z.of_nat nc * Z.of_nat (length (ch_time c)) * Z.of_nat 8)
        with (r_off s + 8 + 8 + Z.of_nat (length (ch_time c)) * 8 + Z.of_nat (length (ch_time c)) * Z.of_nat (nc * 8)) in HA4 by lia);
      set (o := r_off s + 8 + 8 + _ + _) in *.
    - simpl in HA4. rewrite (proj2 (At_end _ _ HA4) eq_refl).
      eexists; split; [cbn [flat_map]; rewrite !app_nil_r; reflexivity|reflexivity].
    - destruct (Z.of_nat (length f) <=? o) eqn:EL.
      { apply (At_end _ _ HA4) in EL. discriminate EL. }
      cbn [flat_map] in HA4. unfold chunk_bytes at 1 in HA4. rewrite <- !app_assoc in HA4.
      inversion Hm as [|? ? Hmc Hmcs]; subst. inversion Hgcs as [|? ? Hgc' Hgcs']; subst.
      pose proof Hgc' as (Hpos' & _ & _ & _ & Hfm' & _ & _).
      destruct (read_header_at unpack mtrue f (mk_rst o 8 (r_type s) (r_ver s) (r_ctx s)) 2 (ch_meta c') 2 _ Hc HA4)
        as (o' & -> & _ & HA5); auto; try (unfold fits; lia).
      cbn [bind r_type r_w r_ctx]. change (2 =? 2) with true. cbv iota.
      edestruct (IH c' fuel) as (s' & E & Hctx); [| | |exact Hgcs|exact Hmcs| | | |].
      7:{ rewrite E. exists s'. split; [|exact Hctx].
          f_equal. f_equal. f_equal. f_equal. f_equal.
          - cbn [flat_map]. rewrite !map_app, <- !app_assoc. reflexivity.
          - cbn [flat_map]. rewrite !map_app, <- !app_assoc. reflexivity.
          - cbn [flat_map]. rewrite !app_length. lia. }
      + simpl in Hfuel; lia.
      + reflexivity.
      + cbn [r_off]. unfold chunk_body. rewrite <- !app_assoc. exact HA5.
      + lia.
      + intros; lia.
      + auto.
  Qed.

  (** A whole file of chunks. *)
  Lemma load_t2 nc c cs cuts ctx :
    f = flat_map (chunk_bytes 2 nc) (c :: cs) ->
    Forall (good_chunk 2 nc) (c :: cs) -> Forall (fun c => meta_ok unpack (ch_meta c)) (c :: cs) ->
    load fo unpack mtrue f cuts ctx
    = Ok (mk_loaded [List.map (fdec fo 8) (flat_map ch_time (c :: cs))]
            (mk_nda [length (flat_map ch_time (c :: cs)); nc] (List.map (fdec fo 8) (flat_map ch_data (c :: cs))))
            [Z.of_nat (length (flat_map ch_time (c :: cs)))] [] [] (Z.of_nat nc) (ctx_all ctx (c :: cs))).
  Proof.
    intros Hf Hg Hm.
    pose proof (At_0 f) as HA. rewrite Hf in HA at 2. cbn [flat_map] in HA.
    unfold chunk_bytes at 1 in HA. rewrite <- !app_assoc in HA.
    assert (Hc : is_compatible f = true) by (eapply is_compatible_header; eauto).
    pose proof (Forall_inv Hg) as Hgc. pose proof (Forall_inv Hm) as Hmc. pose proof (Forall_inv_tail Hm) as Hmcs.
    pose proof Hgc as (Hpos & _ & _ & _ & Hfm & _ & _).
    unfold load.
    destruct (read_header_at unpack mtrue f (init_rst ctx) 2 (ch_meta c) 2 _ Hc HA) as (o1 & -> & _ & HA1); auto;
      try (unfold fits; lia).
    cbn [bind r_type r_ver]. simpl (_ || _)%bool. cbv iota. change (2 =? 2) with true. cbv iota.
    edestruct (t2_loop_ok nc cs Hc c) as (s' & E & Hctx); [| | |exact Hg|exact Hmcs| | | |].
    7:{ rewrite E. cbn [bind].
        destruct (ch_time c) as [|t ts] eqn:ET; [simpl in Hpos; lia|].
        cbn [flat_map]. rewrite ET. cbn [app List.map].
        rewrite Hctx. cbn [r_ctx]. cbn [app] in *. rewrite Z.add_0_l, !Nat2Z.id. reflexivity. }
    - assert (H : forall l, (length l <= length (flat_map (chunk_bytes 2 nc) l))%nat).
      { induction l as [|x l IHl]; [simpl; lia|].
        cbn [flat_map length]. rewrite app_length. unfold chunk_bytes at 1, header_bytes. rewrite !app_length, u64_length. lia. }
      specialize (H cs). rewrite Hf. cbn [flat_map]. rewrite app_length.
      unfold chunk_bytes at 1, header_bytes. rewrite !app_length, u64_length. lia.
    - reflexivity.
    - cbn [r_off]. unfold chunk_body. rewrite <- !app_assoc. exact HA1.
    - lia.
    - auto.
    - intros H; elim H; reflexivity.
  Qed.
End Trace.

(** ** Metadata *)

Lemma last_assign_app {M} k (l m : list (string * M)) :
  last_assign k (l ++ m) = match last_assign k m with Some v => Some v | None => last_assign k l end.
Proof.
  unfold last_assign. rewrite rev_app_distr.
  induction (rev m) as [|x r IH]; simpl; [reflexivity|].
  destruct (String.eqb k (fst x)); auto.
Qed.

Lemma aget_assigns {M} k (l ctx : list (string * M)) :
  aget k (fold_left (fun c kv => aset (fst kv) (snd kv) c) l ctx)
  = match last_assign k l with Some v => Some v | None => aget k ctx end.
Proof.
  revert ctx. induction l as [|[k0 v0] l IH]; intros ctx; [reflexivity|].
  change ((k0, v0) :: l) with ([(k0, v0)] ++ l) at 2. rewrite last_assign_app. simpl fold_left.
  rewrite IH. destruct (last_assign k l); auto. rewrite aget_aset.
  unfold last_assign. simpl. destruct (String.eqb k k0); reflexivity.
Qed.

Lemma store_meta_assigns {M} (mtrue : M) ctx d :
  store_meta mtrue ctx d
  = fold_left (fun c kv => aset (fst kv) (snd kv) c) (flat_map (meta_assigns mtrue) d) ctx.
Proof.
  unfold store_meta. revert ctx. induction d as [|[k v] d IH]; intros ctx; [reflexivity|].
  cbn [flat_map fold_left fst snd]. rewrite fold_left_app, IH. f_equal.
  unfold meta_assigns, norm_key. cbn [fst snd].
  destruct (String.eqb_spec k "polyOrder") as [->|N1]; [reflexivity|].
  destruct (String.eqb_spec k "poly_order") as [->|N2]; [reflexivity|].
  destruct (String.eqb_spec k "basisType") as [->|N3]; [reflexivity|].
  destruct (String.eqb_spec k "basis_type") as [->|N4]; reflexivity.
Qed.

Lemma store_meta_lookup {M} (mtrue : M) ctx d k :
  aget k (store_meta mtrue ctx d) = meta_lookup mtrue ctx (Some (Some d)) k.
Proof. rewrite store_meta_assigns, aget_assigns. reflexivity. Qed.

Lemma ctx_after_lookup {M} unpack (mtrue : M) ctx meta k :
  aget k (ctx_after unpack mtrue ctx meta)
  = meta_lookup mtrue ctx (match meta with [] => None | _ => unpack meta end) k.
Proof.
  unfold ctx_after. destruct meta as [|b meta]; [reflexivity|].
  destruct (unpack (b :: meta)) as [[d|]|]; [apply store_meta_lookup|reflexivity|reflexivity].
Qed.

Lemma meta_readable_ok {M} unpack meta : @meta_readable M unpack meta -> meta_ok unpack meta.
Proof. intros [H|[d H]]; [now left|right; congruence]. Qed.

(** ** Writing *)

Lemma all_width_map {A} (enc : A -> list Z) l w : (forall x, length (enc x) = w) -> all_width w (List.map enc l).
Proof. intros H. apply Forall_forall. intros b Hb. apply in_map_iff in Hb as (x & <- & _). apply H. Qed.

Lemma map_dec_enc {F} (dec : list Z -> F) enc l : (forall x, dec (enc x) = x) -> List.map dec (List.map enc l) = l.
Proof. intros H. rewrite map_map. rewrite <- (map_id l) at 2. apply map_ext. auto. Qed.

Lemma flat_map_enc cells : flat_map enc_i64 (List.map Z.of_nat cells) = flat_map u64n cells.
Proof. induction cells as [|c l IH]; [reflexivity|]. cbn [List.map flat_map]. rewrite IH, enc_i64_u64. reflexivity. Qed.

Lemma write_gkyl_bytes {F} (enc : F -> list Z) cells lo up nc (vals : nda F) :
  write_gkyl enc (List.map Z.of_nat cells) lo up (Z.of_nat nc) vals
  = header_bytes 1 [] ++ u64 2 ++ u64n (length cells) ++ flat_map u64n cells
    ++ concat (List.map enc lo) ++ concat (List.map enc up)
    ++ u64n (nc * 8) ++ u64n (prod (shape vals)) ++ concat (List.map enc (flat vals)).
Proof.
  unfold write_gkyl, header_bytes. rewrite of_ascii_magic, map_length, flat_map_enc, !flat_map_concat_map'.
  rewrite !enc_i64_u64. unfold u64n. rewrite Nat2Z.inj_mul. simpl length. change (Z.of_nat 8) with 8.
  rewrite <- !app_assoc. reflexivity.
Qed.

(** ** Ranges *)

Lemma after_ranges_last {F} (fo : fops F) w nc cells abs ca rs idx c v0 o :
  length abs = length cells -> Forall (good_range w cells nc) rs -> length idx = length cells ->
  last_covering rs (shift_by abs idx) o ->
  after_ranges fo w nc cells abs ca rs idx c v0
  = match o with None => v0 | Some r => option_map (fdec fo w) (stored r nc (shift_by abs idx) (ca + c)) end.
Proof.
  intros Hla Hg Hli Hlast. unfold after_ranges.
  assert (Hcov : forall r, In r rs -> p_covs (zipD cells abs (rg_lo r) (rg_up r)) idx = true <-> covers r (shift_by abs idx)).
  { intros r Hr. rewrite Forall_forall in Hg. destruct (Hg r Hr) as (L1 & L2 & _). now apply p_covs_spec. }
  assert (Hnone : forall l v, (forall r, In r l -> In r rs) -> (forall r, In r l -> ~ covers r (shift_by abs idx)) ->
     fold_left (fun acc r => if p_covs (zipD cells abs (rg_lo r) (rg_up r)) idx
                            then range_value fo w nc r (shift_by abs idx) (ca + c) else acc) l v = v).
  { induction l as [|r l IH]; intros v H1 H2; [reflexivity|]. cbn [fold_left].
    destruct (p_covs (zipD cells abs (rg_lo r) (rg_up r)) idx) eqn:E.
    - exfalso. apply (H2 r); [now left|]. apply Hcov; [apply H1; now left|exact E].
    - apply IH; intros; [apply H1|apply H2]; now right. }
  destruct o as [r|]; simpl in Hlast.
  - destruct Hlast as (bef & aft & Hrs & Hc & Haft). 
    assert (Hr : In r rs) by (rewrite Hrs; apply in_elt).
    pose proof (proj2 (Hcov r Hr) Hc) as E.
    assert (Hin : forall r', In r' aft -> In r' rs) by (intros; rewrite Hrs; apply in_or_app; right; now right).
    specialize (Hnone aft (range_value fo w nc r (shift_by abs idx) (ca + c)) Hin Haft).
    rewrite Hrs, fold_left_app. cbn [fold_left]. rewrite E. exact Hnone.
  - apply Hnone; auto.
Qed.

Lemma last_covering_exists rs idx : exists o, last_covering rs idx o.
Proof.
  assert (Hdec : forall r, covers r idx \/ ~ covers r idx).
  { intros r. unfold covers. destruct (Nat.eq_dec (length idx) (length (rg_lo r))) as [E|E]; [|right; tauto].
    destruct r as [lo up dat]; simpl in *. clear dat. revert idx up E.
    induction lo as [|l lo IH]; intros [|i idx] up E; try discriminate.
    - left. split; auto. intros [|d]; discriminate.
    - destruct up as [|u up].
      + left. split; auto. intros [|d]; discriminate.
      + destruct (IH idx up) as [H|H]; [simpl in E; lia| |].
        * destruct (le_dec l (i + 1)) as [H1|H1]; [|right; intros [_ H']; specialize (H' 0%nat l u i eq_refl eq_refl eq_refl); lia].
          destruct (le_dec (i + 1) u) as [H2|H2]; [|right; intros [_ H']; specialize (H' 0%nat l u i eq_refl eq_refl eq_refl); lia].
          left. split; auto. intros [|d] l' u' i'; simpl.
          -- intros [= <-] [= <-] [= <-]. lia.
          -- apply H.
        * right. intros [_ H']. apply H. split; [simpl in E; lia|]. intros d. exact (H' (S d)). }
  induction rs as [|r rs (o & IH)].
  - exists None. simpl. auto.
  - destruct o as [r'|].
    + exists (Some r'). destruct IH as (b & a & -> & H1 & H2). exists (r :: b), a. auto.
    + simpl in IH. destruct (Hdec r) as [H|H].
      * exists (Some r). exists [], rs. auto.
      * exists None. simpl. intros r' [<-|Hr']; auto.
Qed.

Lemma stored_some w cells nc r idx c :
  good_range w cells nc r -> covers r idx -> (c < nc)%nat -> exists b, stored r nc idx c = Some b.
Proof.
  intros (L1 & L2 & L3 & _ & Hl) [Hi Hc] Hcn. unfold stored. apply get_in.
  - unfold wf. cbn [flat shape]. rewrite prod_app, Hl. unfold prod at 3. simpl. lia.
  - cbn [shape]. apply Forall2_app; [|repeat constructor; auto].
    unfold rg_ext. apply Forall2_nth_error_intro; [rewrite !map2_length; lia|].
    intros k x y Hx Hy. rewrite nth_error_map2 in Hx, Hy.
    destruct (nth_error idx k) as [i|] eqn:Ei; [|discriminate].
    destruct (nth_error (rg_lo r) k) as [l|] eqn:El; [|discriminate].
    destruct (nth_error (rg_up r) k) as [u|] eqn:Eu; [|discriminate].
    injection Hx as <-. injection Hy as <-. specialize (Hc _ _ _ _ El Eu Ei). lia.
Qed.

Lemma in_range_shift cells abs idx :
  good_cuts cells abs -> in_range (cut_cells abs) idx -> in_range cells (shift_by abs idx).
Proof.
  intros [Hl Hg] Hi. unfold in_range, shift_by. pose proof (in_range_length _ _ Hi) as Hli.
  unfold cut_cells in Hli. rewrite map_length in Hli.
  apply Forall2_nth_error_intro; [rewrite map2_length; lia|].
  intros k x n Hx Hn. rewrite nth_error_map2 in Hx.
  destruct (nth_error abs k) as [[a b]|] eqn:Ea; [|discriminate].
  destruct (nth_error idx k) as [i|] eqn:Ei; [|discriminate]. injection Hx as <-.
  specialize (Hg _ _ _ _ Hn Ea).
  assert (i < b - a)%nat.
  { eapply (Forall2_nth_error _ _ _ k i (b - a)%nat) in Hi; eauto.
    unfold cut_cells. now rewrite nth_error_map, Ea. }
  cbn [fst]. lia.
Qed.

(** Reading one element of a cut. *)
Lemma get_kept {A} (v : nda A) cells nc abs ca cb idx c :
  wf v -> shape v = cells ++ [nc] -> good_cuts cells abs -> (ca < cb <= nc)%nat ->
  in_range (cut_cells abs) idx -> (c < cb - ca)%nat ->
  get (take (kept abs ca cb) v) (idx ++ [c]) = get v (shift_by abs idx ++ [(ca + c)%nat]).
Proof.
  intros Hwf Hsh [Hl Hg] Hc Hi Hcl. pose proof (in_range_length _ _ Hi) as Hli.
  unfold cut_cells in Hli. rewrite map_length in Hli.
  assert (Hn1 : forall k a b n, nth_error (abs ++ [(ca, cb)]) k = Some (a, b) ->
            nth_error (cells ++ [nc]) k = Some n -> (a < b <= n)%nat).
  { intros k a b n Ea Hn. destruct (Nat.lt_ge_cases k (length abs)) as [L|L].
    + rewrite nth_error_app1 in Ea, Hn by lia. exact (Hg _ _ _ _ Hn Ea).
    + rewrite nth_error_app2 in Ea, Hn by lia. rewrite <- Hl in Hn.
      destruct (k - length abs)%nat as [|j]; [|destruct j; discriminate].
      injection Ea as <- <-. injection Hn as <-. lia. }
  apply get_take.
  - exact Hwf.
  - rewrite Hsh. unfold kept. apply Forall2_nth_error_intro; [rewrite map_length, !app_length; simpl; lia|].
    intros k s n Hs Hn. rewrite nth_error_map in Hs.
    destruct (nth_error (abs ++ [(ca, cb)]) k) as [[a b]|] eqn:Ea; [|discriminate].
    injection Hs as <-. cbn [fst snd]. intros x Hx. apply in_seq in Hx.
    specialize (Hn1 _ _ _ _ Ea Hn). lia.
  - rewrite shape_kept. apply Forall2_app; auto.
  - unfold kept. rewrite map_app. cbn [List.map fst snd]. unfold shift_by.
    clear Hn1 Hg Hsh Hl. revert idx Hi Hli. induction abs as [|[a b] abs IH]; intros [|i idx] Hi Hli; try discriminate.
    + simpl. constructor; [|constructor]. cbn [fst snd]. rewrite nth_error_seq.
      destruct (Nat.ltb_spec c (cb - ca)); [reflexivity|lia].
    + inversion Hi as [|? ? ? ? Hi1 Hi2]; subst. cbn [List.map app combine map2 fst snd].
      constructor; [|apply IH; auto].
      cbn [fst snd] in *. rewrite nth_error_seq. destruct (Nat.ltb_spec i (b - a)); [reflexivity|lia].
Qed.

(** ** Bounds and grids over the rationals *)

(** Exact arithmetic with any decoding of the stored numbers. *)
Definition qops (dec : nat -> list Z -> Q) : fops Q :=
  mk_fops Q dec 0%Q Qplus Qminus Qmult Qdiv inject_Z.

Lemma linspace_length {F} (fo : fops F) lo up n : length (linspace fo lo up n) = S n.
Proof. destruct n; [reflexivity|]. unfold linspace. rewrite app_length, map_length, seq_length. simpl. lia. Qed.

Lemma linspace_q dec lo up n i :
  (0 < n)%nat -> (i <= n)%nat ->
  exists x, nth_error (linspace (qops dec) lo up n) i = Some x /\
    (x == lo + inject_Z (Z.of_nat i) * ((up - lo) / inject_Z (Z.of_nat n)))%Q.
Proof.
  intros Hn Hi. destruct n as [|n]; [lia|]. unfold linspace.
  set (step := fdiv (qops dec) _ _).
  assert (Hnz : ~ (inject_Z (Z.of_nat (S n)) == 0)%Q).
  { intros E. unfold Qeq in E. cbn [Qnum Qden inject_Z] in E. lia. }
  destruct (Nat.lt_ge_cases i (S n)) as [L|L].
  - rewrite nth_error_app1 by (rewrite map_length, seq_length; auto).
    rewrite nth_error_map, nth_error_seq. destruct (Nat.ltb_spec i (S n)); [|lia].
    eexists; split; [reflexivity|]. cbn [qops fadd fmul fofZ fdiv fsub step]. simpl Nat.add. unfold step. cbn. field. exact Hnz.
  - replace i with (S n) by lia. rewrite nth_error_app2 by (rewrite map_length, seq_length; auto).
    rewrite map_length, seq_length, Nat.sub_diag. eexists; split; [reflexivity|].
    field. exact Hnz.
Qed.

Lemma grid_for_nth {F} (fo : fops F) cells lo up d n l u :
  nth_error cells d = Some n -> nth_error lo d = Some l -> nth_error up d = Some u ->
  nth_error (grid_for fo cells lo up) d = Some (linspace fo l u n).
Proof.
  intros Hn Hl Hu. unfold grid_for. rewrite nth_error_map.
  assert (Hcomb : forall A B (x : list A) (y : list B) k p q, nth_error x k = Some p ->
        nth_error y k = Some q -> nth_error (combine x y) k = Some (p, q)).
  { clear. induction x; intros [|? y] [|k] p q; simpl; try discriminate; [congruence|apply IHx]. }
  erewrite Hcomb; [|eapply Hcomb; eauto|eauto]. reflexivity.
Qed.

Lemma cut_nodes dec l u n a b i :
  (a < b <= n)%nat -> (i <= b - a)%nat ->
  let cs := ((u - l) / inject_Z (Z.of_nat n))%Q in
  same_node (linspace (qops dec) (l + inject_Z (Z.of_nat a) * cs)%Q
                      (u - inject_Z (Z.of_nat n - Z.of_nat b)%Z * cs)%Q (b - a))
            (linspace (qops dec) l u n) a i.
Proof.
  intros Hab Hi cs. unfold same_node.
  destruct (linspace_q dec (l + inject_Z (Z.of_nat a) * cs)%Q (u - inject_Z (Z.of_nat n - Z.of_nat b)%Z * cs)%Q (b - a) i)
    as (x & Hx & Ex); [lia|lia|].
  destruct (linspace_q dec l u n (a + i)) as (y & Hy & Ey); [lia|lia|].
  exists x, y. split; [auto|]. split; [auto|]. rewrite Ex, Ey. unfold cs.
  assert (Hnz : ~ (inject_Z (Z.of_nat n) == 0)%Q).
  { intros E. unfold Qeq in E. cbn [Qnum Qden inject_Z] in E. lia. }
  assert (Hmz : ~ (inject_Z (Z.of_nat b) - inject_Z (Z.of_nat a) == 0)%Q).
  { intros E. unfold Qminus in E. rewrite <- inject_Z_opp, <- inject_Z_plus in E.
    unfold Qeq in E. cbn [Qnum Qden inject_Z] in E. lia. }
  rewrite Nat2Z.inj_sub, Nat2Z.inj_add by lia.
  unfold Z.sub. rewrite !inject_Z_plus, !inject_Z_opp. field. split; auto.
Qed.
