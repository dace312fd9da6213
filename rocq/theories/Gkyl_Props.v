(** * Properties C01-C08, C51: the binary Gkeyll format. *)
From Coq Require Import String Ascii List ZArith Bool Lia QArith.
From Verif Require Import Prelude PreludeFacts NdArray Gkyl_Model Gkyl_Spec Gkyl_Proofs Gkyl_Proofs2 Gkyl_Proofs3.
Import ListNotations.
Open Scope list_scope.
Open Scope Z_scope.

(** Concrete numbers for examples: the bytes as a little-endian integer. *)
Definition ex_ops : fops Q := qops (fun _ bs => inject_Z (le_val bs)).
Definition ex_unpack (bs : list Z) : option (option (list (string * Z))) :=
  match bs with
  | [1; n] => Some (Some [("polyOrder"%string, n); ("basisType"%string, 7)])
  | [2] => Some None
  | _ => None
  end.
(** The eight (or four) bytes of a small integer. *)
Definition d8 (z : Z) : list Z := u64 z.
Definition s4 (z : Z) : list Z := firstn 4 (u64 z).

(** ** C01 *)

(** Everything written comes back.  [enc] stands for the IEEE encoding of a
    double, of which only injectivity and the width are used. *)
Theorem C01_write_then_load : forall F M (fo : fops F) unpack (mtrue : M) enc cells nc lo up vals ctx,
  (forall x, length (enc x) = 8%nat) -> (forall x, fdec fo 8 (enc x) = x) ->
  wf vals -> shape vals = cells ++ [nc] -> (0 < nc)%nat ->
  length lo = length cells -> length up = length cells ->
  fits (Z.of_nat (length cells)) -> Forall (fun n => fits (Z.of_nat n)) cells ->
  fits (Z.of_nat (nc * 8)) -> fits (Z.of_nat (prod (shape vals))) ->
  let f := write_gkyl enc (List.map Z.of_nat cells) lo up (Z.of_nat nc) vals in
  is_compatible f = true /\
  exists g, load fo unpack mtrue f None ctx = Ok g /\
    l_data g = vals /\ l_cells g = List.map Z.of_nat cells /\ l_nc g = Z.of_nat nc /\
    l_lower g = lo /\ l_upper g = up /\ l_ctx g = ctx /\
    length (l_grid g) = length cells /\
    forall d n l u, nth_error cells d = Some n -> nth_error lo d = Some l -> nth_error up d = Some u ->
      nth_error (l_grid g) d = Some (linspace fo l u n).
Proof.
  intros F M fo unpack mtrue enc cells nc lo up vals ctx He Hd Hwf Hsh Hnc Hlo Hup Hf1 Hf2 Hf3 Hf4 f.
  unfold f. rewrite write_gkyl_bytes. set (g := header_bytes 1 [] ++ _). split.
  - apply (is_compatible_header g 1 [] (skipn (length (header_bytes 1 [])) g)).
    pose proof (At_0 g) as HA. unfold g at 2 in HA. unfold g at 2.
    rewrite skipn_app_exact by reflexivity. exact HA.
  - assert (Hp : prod (shape vals) = (prod cells * nc)%nat).
    { rewrite Hsh, prod_app. unfold prod at 2. simpl. lia. }
    set (fd := mk_field cells nc (List.map enc lo) (List.map enc up) (List.map enc (flat vals))).
    pose proof (load_t1 fo unpack mtrue g 2 [] fd (prod (shape vals)) ctx) as H.
    change (width_of 2) with 8%nat in H. unfold fd in H; cbn [fd_cells fd_nc fd_lower fd_upper fd_data] in H; fold fd in H.
    rewrite !map_dec_enc in H by auto.
    eexists. split.
    + apply H; auto.
      * split; [|split].
        -- unfold good_domain, fd; cbn [fd_cells fd_nc fd_lower fd_upper fd_data]. rewrite !map_length.
           split; [now right|]. split; [auto|]. split; [auto|].
           split; [apply all_width_map; auto|]. split; [apply all_width_map; auto|].
           split; [split; reflexivity || (vm_compute; congruence)|]. do 3 (split; [auto|]).
           unfold fits in *. rewrite Hp in Hf4. nia.
        -- apply all_width_map; auto.
        -- cbn [fd_data fd_cells fd_nc fd]. rewrite map_length. rewrite Hwf. exact Hp.
      * now left.
      * rewrite Hp. cbn [fd_cells fd]. nia.
    + cbn [l_data l_cells l_nc l_lower l_upper l_ctx l_grid]. repeat split; auto.
      * destruct vals as [sh fl]. simpl in Hsh |- *. now subst sh.
      * unfold grid_for. rewrite map_length, !combine_length. lia.
      * intros d n l u H1 H2 H3. now apply grid_for_nth.
Qed.
Print Assumptions C01_write_then_load.

Example C01_example :
  load ex_ops ex_unpack 1 
    (write_gkyl (fun q => d8 (Qnum q)) [2; 1] [inject_Z 0; inject_Z 5] [inject_Z 4; inject_Z 6] 2
       (mk_nda [2; 1; 2]%nat [inject_Z 11; inject_Z 12; inject_Z 13; inject_Z 14])) None []
  = Ok (mk_loaded [[0 * (4 # 2) + 0; 1 * (4 # 2) + 0; inject_Z 4]; [inject_Z 0 * ((6 - 5) / 1) + 5; 6]]%Q
          (mk_nda [2; 1; 2]%nat [inject_Z 11; inject_Z 12; inject_Z 13; inject_Z 14])
          [2; 1] [inject_Z 0; inject_Z 5] [inject_Z 4; inject_Z 6] 2 []).
Proof. vm_compute. reflexivity. Qed.

(** ** C02 *)

(** A file laid out as documented; bounds are stored with the width of the
    data. *)
Theorem C02_documented_file : forall F M (fo : fops F) unpack (mtrue : M) rt meta fd ctx,
  good_field rt (width_of rt) meta fd -> meta_readable unpack meta ->
  let w := width_of rt in
  let f := field_bytes rt meta fd in
  is_compatible f = true /\
  exists g, load fo unpack mtrue f None ctx = Ok g /\
    l_cells g = List.map Z.of_nat (fd_cells fd) /\ l_nc g = Z.of_nat (fd_nc fd) /\
    l_lower g = List.map (fdec fo w) (fd_lower fd) /\ l_upper g = List.map (fdec fo w) (fd_upper fd) /\
    shape (l_data g) = fd_cells fd ++ [fd_nc fd] /\
    flat (l_data g) = List.map (fdec fo w) (fd_data fd) /\
    (forall k, aget k (l_ctx g)
               = meta_lookup mtrue ctx (match meta with [] => None | _ => unpack meta end) k) /\
    length (l_grid g) = length (fd_cells fd) /\
    forall d n l u, nth_error (fd_cells fd) d = Some n -> nth_error (l_lower g) d = Some l ->
      nth_error (l_upper g) d = Some u -> nth_error (l_grid g) d = Some (linspace fo l u n).
Proof.
  intros F M fo unpack mtrue rt meta fd ctx Hg Hm w f. split.
  - apply (is_compatible_header f 1 meta (domain_bytes rt fd ++ concat (fd_data fd))).
    apply At_0.
  - eexists. split.
    + apply (load_t1 fo unpack mtrue f rt meta fd (prod (fd_cells fd)) ctx).
      * unfold f, field_bytes, domain_bytes. rewrite <- !app_assoc. reflexivity.
      * exact Hg.
      * now apply meta_readable_ok.
      * apply Hg.
      * lia.
    + cbn [l_data l_cells l_nc l_lower l_upper l_ctx l_grid shape flat]. repeat split; auto.
      * intros k. apply ctx_after_lookup.
      * destruct Hg as ((_ & H1 & H2 & _) & _). unfold grid_for. rewrite map_length, !combine_length, !map_length. lia.
      * intros d n l u H1 H2 H3. now apply grid_for_nth.
Qed.
Print Assumptions C02_documented_file.

Ltac fits_tac := unfold fits; vm_compute; split; congruence.
Ltac width_tac := repeat (first [apply Forall_nil | apply Forall_cons; [reflexivity|]]).
Ltac good_field_tac :=
  split; [split; [first [now right | now left]|]; split; [reflexivity|]; split; [reflexivity|];
          split; [width_tac|]; split; [width_tac|]; split; [fits_tac|]; split; [fits_tac|];
          split; [repeat (first [apply Forall_nil | apply Forall_cons; [fits_tac|]])|];
          split; [fits_tac|fits_tac]
         |split; [width_tac|reflexivity]].
Definition ex_fd (b : Z -> list Z) : field :=
  mk_field [2; 3]%nat 2 [d8 0; d8 10] [d8 4; d8 40] (List.map (fun k => b (Z.of_nat k)) (seq 1 12)).
Example C02_example_hyps : good_field 2 8 [1; 3] (ex_fd d8) /\ meta_readable ex_unpack [1; 3].
Proof.
  split; [|right; eexists; reflexivity].
  good_field_tac.
Qed.
Example C02_example :
  exists g, load ex_ops ex_unpack 1 (field_bytes 2 [1; 3] (ex_fd d8)) None [] = Ok g /\
    get (l_data g) [1; 0; 1]%nat = Some (inject_Z 8) /\
    l_ctx g = [("poly_order"%string, 3); ("basis_type"%string, 7); ("is_modal"%string, 1)].
Proof. eexists. split; [vm_compute; reflexivity|]. split; reflexivity. Qed.

(** Documented single precision: bounds are float64, data float32.  The reader
    takes the bounds as float32, so everything after them is misread. *)
Definition ex_fd4 : field := ex_fd s4.
Theorem C02_single_precision_refuted :
  exists fd, good_field 1 8 [] fd /\
    forall g, load ex_ops ex_unpack 1 (field_bytes 1 [] fd) None [] = Ok g ->
      flat (l_data g) <> List.map (fdec ex_ops 4) (fd_data fd).
Proof.
  exists ex_fd4. split.
  - good_field_tac.
  - intros g H.
    assert (E : exists e, load ex_ops ex_unpack 1 (field_bytes 1 [] ex_fd4) None [] = Err e).
    { eexists. vm_compute. reflexivity. }
    destruct E as [e E]. rewrite E in H. discriminate.
Qed.
Print Assumptions C02_single_precision_refuted.

(** ** C51: metadata *)

(** What each key means after reading metadata dictionary [d] into [ctx]:
    the last entry for it wins, "polyOrder" and "basisType" are stored as
    "poly_order" and "basis_type", a basis marks the data as modal, and every
    other key keeps its value. *)
Theorem C51_metadata : forall M (mtrue : M) ctx d k,
  aget k (store_meta mtrue ctx d) = meta_lookup mtrue ctx (Some (Some d)) k.
Proof. exact @store_meta_lookup. Qed.
Print Assumptions C51_metadata.

Theorem C51_old_names_never_stored : forall M (mtrue : M) d k,
  k = "polyOrder"%string \/ k = "basisType"%string ->
  aget k (store_meta mtrue [] d) = None.
Proof.
  intros M mtrue d k Hk. rewrite store_meta_lookup. unfold meta_lookup.
  assert (H : last_assign k (flat_map (meta_assigns mtrue) d) = None); [|now rewrite H].
  induction d as [|[k0 v] d IH]; [reflexivity|]. cbn [flat_map]. rewrite last_assign_app, IH.
  unfold meta_assigns, norm_key; cbn [fst snd].
  assert (Hx : forall k1, k1 <> "polyOrder"%string -> k1 <> "basisType"%string -> String.eqb k k1 = false).
  { intros k1 N1 N2. apply String.eqb_neq. intuition congruence. }
  destruct (String.eqb_spec k0 "polyOrder") as [->|N1]; [|destruct (String.eqb_spec k0 "basisType") as [->|N2]].
  - unfold last_assign. simpl. rewrite Hx by discriminate. reflexivity.
  - unfold last_assign. simpl. rewrite !Hx by discriminate. reflexivity.
  - destruct (String.eqb_spec k0 "basis_type") as [->|N3]; unfold last_assign; simpl; rewrite !Hx by (congruence || discriminate);
      reflexivity.
Qed.
Print Assumptions C51_old_names_never_stored.

Example C51_example :
  let c := store_meta 1 [("time"%string, 5)] [("polyOrder"%string, 2); ("basis_type"%string, 9); ("poly_order"%string, 3)] in
  aget "poly_order" c = Some 3 /\ aget "is_modal" c = Some 1 /\ aget "time" c = Some 5.
Proof. repeat split. Qed.

(** ** C03 *)

Theorem C03_multi_range : forall F M (fo : fops F) unpack (mtrue : M) rt meta fd rs ctx,
  good_domain rt (width_of rt) meta fd -> meta_readable unpack meta -> fits (Z.of_nat (length rs)) ->
  Forall (good_range (width_of rt) (fd_cells fd) (fd_nc fd)) rs ->
  (0 < fd_nc fd)%nat -> Forall (fun n => (0 < n)%nat) (fd_cells fd) ->
  exists g, load fo unpack mtrue (multi_bytes rt meta fd rs) None ctx = Ok g /\
    l_cells g = List.map Z.of_nat (fd_cells fd) /\ l_nc g = Z.of_nat (fd_nc fd) /\
    l_lower g = List.map (fdec fo (width_of rt)) (fd_lower fd) /\
    l_upper g = List.map (fdec fo (width_of rt)) (fd_upper fd) /\
    wf (l_data g) /\ shape (l_data g) = fd_cells fd ++ [fd_nc fd] /\
    forall idx c, in_range (fd_cells fd) idx -> (c < fd_nc fd)%nat ->
      exists o, last_covering rs idx o /\
      match o with
      | None => get (l_data g) (idx ++ [c]) = Some (fzero fo)
      | Some r => exists b, stored r (fd_nc fd) idx c = Some b /\
                            get (l_data g) (idx ++ [c]) = Some (fdec fo (width_of rt) b)
      end.
Proof.
  intros F M fo unpack mtrue rt meta fd rs ctx Hd Hm Hn Hrs Hnc Hpos.
  destruct (load_t3 fo unpack mtrue (multi_bytes rt meta fd rs) rt meta fd rs ctx None (uncut (fd_cells fd)) 0 (fd_nc fd)
              eq_refl Hd (meta_readable_ok _ _ Hm) Hn Hrs)
    as (data & lo & up & E & Eb & Hwf & Hsh & Hget); [auto|].
  injection Eb as -> ->. rewrite cut_cells_uncut, Nat.sub_0_r in *.
  eexists. split; [exact E|]. cbn [l_data l_cells l_nc l_lower l_upper].
  do 6 (split; [auto|]). intros idx c Hi Hc.
  pose proof (in_range_length _ _ Hi) as Hli.
  destruct (last_covering_exists rs idx) as [o Ho]. exists o. split; [exact Ho|].
  specialize (Hget idx c Hi Hc).
  rewrite (after_ranges_last fo (width_of rt) (fd_nc fd) (fd_cells fd) (uncut (fd_cells fd)) 0 rs idx c _ o) in Hget;
    auto; [|unfold uncut; now rewrite map_length|rewrite shift_uncut; auto].
  rewrite shift_uncut in Hget by auto. rewrite Hget. destruct o as [r|]; [|reflexivity].
  destruct Ho as (bef & aft & -> & Hcov & _).
  assert (Hr : good_range (width_of rt) (fd_cells fd) (fd_nc fd) r).
  { rewrite Forall_forall in Hrs. apply Hrs. apply in_elt. }
  destruct (stored_some _ _ _ _ idx c Hr Hcov Hc) as [b Hb]. exists b. simpl Nat.add. rewrite Hb. auto.
Qed.
Print Assumptions C03_multi_range.

(** If the ranges cover the domain and each holds its part of the field, the
    multi-range file loads like the single-range one, whatever the order. *)
Theorem C03_tiling : forall F M (fo : fops F) unpack (mtrue : M) rt meta fd rs ctx,
  good_field rt (width_of rt) meta fd -> meta_readable unpack meta -> fits (Z.of_nat (length rs)) ->
  Forall (good_range (width_of rt) (fd_cells fd) (fd_nc fd)) rs ->
  (0 < fd_nc fd)%nat -> Forall (fun n => (0 < n)%nat) (fd_cells fd) ->
  (forall idx, in_range (fd_cells fd) idx -> exists r, In r rs /\ covers r idx) ->
  (forall r idx c, In r rs -> covers r idx -> in_range (fd_cells fd) idx -> (c < fd_nc fd)%nat ->
     stored r (fd_nc fd) idx c = get (mk_nda (fd_cells fd ++ [fd_nc fd]) (fd_data fd)) (idx ++ [c])) ->
  load fo unpack mtrue (multi_bytes rt meta fd rs) None ctx
  = load fo unpack mtrue (field_bytes rt meta fd) None ctx.
Proof.
  intros F M fo unpack mtrue rt meta fd rs ctx Hg Hm Hn Hrs Hnc Hpos Hcov Hst.
  pose proof Hg as (Hd & Hwd & Hld).
  destruct (load_t3 fo unpack mtrue (multi_bytes rt meta fd rs) rt meta fd rs ctx None (uncut (fd_cells fd)) 0 (fd_nc fd)
              eq_refl Hd (meta_readable_ok _ _ Hm) Hn Hrs)
    as (data & lo & up & E & Eb & Hwf & Hsh & Hget); [auto|].
  injection Eb as -> ->. rewrite cut_cells_uncut, Nat.sub_0_r in *. rewrite E.
  rewrite (load_t1 fo unpack mtrue (field_bytes rt meta fd) rt meta fd (prod (fd_cells fd)) ctx); auto.
  2:{ unfold field_bytes, domain_bytes. rewrite <- !app_assoc. reflexivity. }
  2:{ now apply meta_readable_ok. }
  2:{ apply Hd. }
  do 2 f_equal. apply nda_ext; auto.
  { unfold wf. cbn [flat shape]. rewrite map_length, Hld, prod_app. unfold prod at 3. simpl. lia. }
  intros idx Hi. rewrite Hsh in Hi.
  apply Forall2_app_inv_r in Hi as (i1 & i2 & Hi1 & Hi2 & ->).
  inversion Hi2 as [|c ? ? ? Hc Hnil]; subst. inversion Hnil; subst.
  pose proof (in_range_length _ _ Hi1) as Hli.
  rewrite Hget by auto.
  destruct (last_covering_exists rs i1) as [o Ho].
  rewrite (after_ranges_last fo (width_of rt) (fd_nc fd) (fd_cells fd) (uncut (fd_cells fd)) 0 rs i1 c _ o);
    auto; [|unfold uncut; now rewrite map_length|rewrite shift_uncut; auto].
  rewrite shift_uncut by auto. simpl Nat.add. destruct o as [r|].
  - destruct Ho as (bef & aft & -> & Hc1 & _). rewrite Hst; auto; [|apply in_elt].
    symmetry. apply get_map_nda.
  - exfalso. destruct (Hcov i1 Hi1) as (r & Hr & Hc1). exact (Ho r Hr Hc1).
Qed.
Print Assumptions C03_tiling.

(** Two ranges splitting 3 x 2 cells, stored upper part first. *)
Definition ex_multi : field := mk_field [3; 2]%nat 1 [d8 0; d8 0] [d8 3; d8 2] (List.map d8 [1; 2; 3; 4; 5; 6]).
Definition ex_ranges : list range :=
  [mk_range [2; 1]%nat [3; 2]%nat (List.map d8 [3; 4; 5; 6]);
   mk_range [1; 1]%nat [1; 2]%nat (List.map d8 [1; 2])].
Example C03_example_hyps :
  good_field 2 8 [] ex_multi /\ Forall (good_range 8 [3; 2]%nat 1) ex_ranges /\
  (forall idx, in_range [3; 2]%nat idx -> exists r, In r ex_ranges /\ covers r idx).
Proof.
  split; [|split].
  - good_field_tac.
  - repeat (first [apply Forall_nil | apply Forall_cons;
      [split; [reflexivity|split; [reflexivity|split; [|split; [width_tac|reflexivity]]]]|]]);
      intros [|[|[|d]]] l u n; simpl; try discriminate; intros [= <-] [= <-] [= <-]; lia.
  - intros idx H. inversion H as [|i ? ? ? Hi H']; subst. inversion H' as [|j ? ? ? Hj H'']; subst. inversion H''; subst.
    destruct i as [|i].
    + exists (mk_range [1; 1]%nat [1; 2]%nat (List.map d8 [1; 2])). split; [right; left; reflexivity|].
      split; [reflexivity|]. intros [|[|[|d]]] l u k; simpl; try discriminate; intros [= <-] [= <-] [= <-]; lia.
    + exists (mk_range [2; 1]%nat [3; 2]%nat (List.map d8 [3; 4; 5; 6])). split; [left; reflexivity|].
      split; [reflexivity|]. intros [|[|[|d]]] l u k; simpl; try discriminate; intros [= <-] [= <-] [= <-]; lia.
Qed.
Example C03_example :
  load ex_ops ex_unpack 1 (multi_bytes 2 [] ex_multi ex_ranges) None []
  = load ex_ops ex_unpack 1 (field_bytes 2 [] ex_multi) None [] /\
  exists g, load ex_ops ex_unpack 1 (multi_bytes 2 [] ex_multi (firstn 1 ex_ranges)) None [] = Ok g /\
    flat (l_data g) = List.map inject_Z [0; 0; 3; 4; 5; 6].
Proof. split; [vm_compute; reflexivity|]. eexists. split; vm_compute; reflexivity. Qed.

(** ** C04 *)

Theorem C04_chunks_concatenate : forall F M (fo : fops F) unpack (mtrue : M) nc chunks cuts ctx,
  chunks <> [] -> Forall (good_chunk 2 nc) chunks ->
  Forall (fun c => meta_readable unpack (ch_meta c)) chunks ->
  let f := flat_map (chunk_bytes 2 nc) chunks in
  is_compatible f = true /\
  exists g, load fo unpack mtrue f cuts ctx = Ok g /\
    l_grid g = [List.map (fdec fo 8) (flat_map ch_time chunks)] /\
    shape (l_data g) = [length (flat_map ch_time chunks); nc] /\
    flat (l_data g) = List.map (fdec fo 8) (flat_map ch_data chunks) /\
    l_cells g = [Z.of_nat (length (flat_map ch_time chunks))] /\ l_nc g = Z.of_nat nc.
Proof.
  intros F M fo unpack mtrue nc [|c cs] cuts ctx Hne Hg Hm f; [congruence|]. split.
  - unfold f. cbn [flat_map]. unfold chunk_bytes at 1. rewrite <- !app_assoc.
    eapply is_compatible_header. apply At_0.
  - eexists. split.
    + apply (load_t2 fo unpack mtrue f nc c cs cuts ctx); auto.
      eapply Forall_impl; [|exact Hm]. intros. now apply meta_readable_ok.
    + cbn [l_data l_cells l_nc l_grid shape flat]. auto 6.
Qed.
Print Assumptions C04_chunks_concatenate.

(** Row [i] of the values belongs to time [i]: the chunk that holds time [i]
    as its [j]-th entry holds row [i] as its [j]-th row. *)
Theorem C04_rows_match_times : forall nc before c after j t cc,
  Forall (good_chunk 2 nc) (before ++ c :: after) ->
  nth_error (ch_time c) j = Some t -> (cc < nc)%nat ->
  let chunks := before ++ c :: after in
  let i := (length (flat_map ch_time before) + j)%nat in
  nth_error (flat_map ch_time chunks) i = Some t /\
  get (mk_nda [length (flat_map ch_time chunks); nc] (flat_map ch_data chunks)) [i; cc]
  = nth_error (ch_data c) (j * nc + cc).
Proof.
  intros nc before c after j t cc Hg Ht Hcc chunks i.
  assert (Hj : (j < length (ch_time c))%nat) by (apply nth_error_Some; congruence).
  assert (Hb : length (flat_map ch_data before) = (length (flat_map ch_time before) * nc)%nat).
  { apply Forall_app in Hg as [Hg _]. induction Hg as [|x l Hx Hl IH]; [reflexivity|].
    cbn [flat_map]. rewrite !app_length, IH. destruct Hx as (_ & _ & _ & -> & _). lia. }
  assert (Hc : length (ch_data c) = (length (ch_time c) * nc)%nat).
  { apply Forall_app in Hg as [_ Hg]. inversion Hg as [|? ? Hx]; subst. apply Hx. }
  assert (E1 : flat_map ch_time chunks = flat_map ch_time before ++ ch_time c ++ flat_map ch_time after).
  { unfold chunks. rewrite flat_map_app. reflexivity. }
  assert (E2 : flat_map ch_data chunks = flat_map ch_data before ++ ch_data c ++ flat_map ch_data after).
  { unfold chunks. rewrite flat_map_app. reflexivity. }
  split.
  - rewrite E1. unfold i. rewrite nth_error_app2 by lia. rewrite nth_error_app1 by lia.
    rewrite <- Ht. f_equal. lia.
  - unfold get; simpl shape; simpl flat. unfold ravel.
    destruct (Nat.ltb_spec i (length (flat_map ch_time chunks))) as [L|L].
    2:{ rewrite E1, !app_length in L. unfold i in L. lia. }
    destruct (Nat.ltb_spec cc nc); [|lia]. unfold prod; simpl.
    rewrite E2. rewrite nth_error_app2 by (rewrite Hb; unfold i; nia).
    rewrite nth_error_app1 by (rewrite Hb, Hc; unfold i; nia).
    f_equal. rewrite Hb. unfold i. nia.
Qed.
Print Assumptions C04_rows_match_times.

Ltac good_chunk_tac :=
  split; [simpl; lia|]; split; [width_tac|]; split; [width_tac|]; split; [reflexivity|];
  split; [fits_tac|]; split; [fits_tac|fits_tac].
Ltac good_chunks_tac := repeat (first [apply Forall_nil | apply Forall_cons; [good_chunk_tac|]]).
Definition ex_chunks : list chunk :=
  [mk_chunk [1; 3] [d8 1; d8 2] (List.map d8 [10; 11; 20; 21]); mk_chunk [] [d8 3] (List.map d8 [30; 31])].
Example C04_example_hyps : Forall (good_chunk 2 2) ex_chunks /\
  Forall (fun c => meta_readable ex_unpack (ch_meta c)) ex_chunks.
Proof.
  split.
  - good_chunks_tac.
  - constructor; [right; eexists; reflexivity|constructor; [now left|constructor]].
Qed.
Example C04_example :
  exists g, load ex_ops ex_unpack 1 (flat_map (chunk_bytes 2 2) ex_chunks) None [] = Ok g /\
    l_grid g = [List.map inject_Z [1; 2; 3]] /\
    l_data g = mk_nda [3; 2]%nat (List.map inject_Z [10; 11; 20; 21; 30; 31]).
Proof. eexists. split; [vm_compute; reflexivity|]. split; reflexivity. Qed.

(** In single precision (times float64, data float32) the times are misread. *)
Theorem C04_single_precision_refuted :
  exists chunks, chunks <> [] /\ Forall (good_chunk 1 1) chunks /\
    forall g, load ex_ops ex_unpack 1 (flat_map (chunk_bytes 1 1) chunks) None [] = Ok g ->
      l_grid g <> [List.map (fdec ex_ops 8) (flat_map ch_time chunks)].
Proof.
  exists [mk_chunk [] [d8 1; d8 2] (List.map s4 [10; 20])]. split; [discriminate|]. split.
  - good_chunks_tac.
  - intros g H.
    assert (E : exists g', load ex_ops ex_unpack 1
              (flat_map (chunk_bytes 1 1) [mk_chunk [] [d8 1; d8 2] (List.map s4 [10; 20])]) None [] = Ok g' /\
              l_grid g' = [[inject_Z 1; inject_Z 0]]).
    { eexists. split; [vm_compute; reflexivity|reflexivity]. }
    destruct E as (g' & E & Eg). rewrite E in H. injection H as <-. rewrite Eg. vm_compute. congruence.
Qed.
Print Assumptions C04_single_precision_refuted.

(** ** C05 *)

Theorem C05_partial_is_slice : forall F M (fo : fops F) unpack (mtrue : M) rt meta fd ctx ps abs ca cb,
  good_field rt (width_of rt) meta fd -> meta_readable unpack meta ->
  cuts_select ps (fd_cells fd) (fd_nc fd) abs ca cb ->
  let f := field_bytes rt meta fd in
  exists full part, load fo unpack mtrue f None ctx = Ok full /\
    load fo unpack mtrue f (Some ps) ctx = Ok part /\
    l_cells part = List.map Z.of_nat (cut_cells abs) /\ l_nc part = Z.of_nat (cb - ca) /\
    l_ctx part = l_ctx full /\
    wf (l_data part) /\ shape (l_data part) = cut_cells abs ++ [(cb - ca)%nat] /\
    forall idx c, in_range (cut_cells abs) idx -> (c < cb - ca)%nat ->
      exists v, get (l_data part) (idx ++ [c]) = Some v /\
        get (l_data full) (map2 (fun ab i => (fst ab + i)%nat) abs idx ++ [(ca + c)%nat]) = Some v.
Proof.
  intros F M fo unpack mtrue rt meta fd ctx ps abs ca cb Hg Hm Hcut f.
  pose proof Hg as (Hd & Hwd & Hld). destruct (cuts_good _ _ _ _ _ _ Hcut) as [Hgood Hcc].
  assert (Ef : f = header_bytes 1 meta ++ u64 rt ++ u64n (length (fd_cells fd)) ++ flat_map u64n (fd_cells fd)
        ++ concat (fd_lower fd) ++ concat (fd_upper fd)
        ++ u64n (fd_nc fd * width_of rt) ++ u64n (prod (fd_cells fd)) ++ concat (fd_data fd)).
  { unfold f, field_bytes, domain_bytes. rewrite <- !app_assoc. reflexivity. }
  pose proof (meta_readable_ok _ _ Hm) as Hmo.
  assert (Hfit : fits (Z.of_nat (prod (fd_cells fd)))) by apply Hd.
  pose proof (load_t1 fo unpack mtrue f rt meta fd _ ctx Ef Hg Hmo Hfit (le_n _)) as E1.
  pose proof (load_partial_t1 fo unpack mtrue f rt meta fd _ ctx ps abs ca cb Ef Hg Hmo Hfit Hcut) as E2.
  cbv zeta in E2. eexists _, _. split; [exact E1|]. split; [exact E2|].
  cbn [l_data l_cells l_nc l_ctx]. set (v := mk_nda _ _).
  assert (Hwf : wf v).
  { unfold wf, v. cbn [flat shape]. rewrite map_length, Hld, prod_app. unfold prod at 3. simpl. lia. }
  split; [auto|]. split; [auto|]. split; [auto|].
  assert (Hsh : shape (take (kept abs ca cb) v) = cut_cells abs ++ [(cb - ca)%nat]) by apply shape_kept.
  split; [|split; [exact Hsh|]].
  { apply wf_take; auto. unfold v; cbn [shape]. destruct Hgood as [Hl Hgc].
    apply Forall2_nth_error_intro; [unfold kept; rewrite map_length, !app_length; simpl; lia|].
    intros k s n Hs Hn x Hx. unfold kept in Hs. rewrite nth_error_map in Hs.
    destruct (nth_error (abs ++ [(ca, cb)]) k) as [[a b]|] eqn:Ea; [|discriminate].
    injection Hs as <-. cbn [fst snd] in Hx. apply in_seq in Hx.
    destruct (Nat.lt_ge_cases k (length abs)) as [L|L].
    + rewrite nth_error_app1 in Ea, Hn by lia. specialize (Hgc _ _ _ _ Hn Ea). lia.
    + rewrite nth_error_app2 in Ea, Hn by lia. rewrite <- Hl in Hn.
      destruct (k - length abs)%nat as [|j]; [|destruct j; discriminate].
      injection Ea as <- <-. injection Hn as <-. lia. }
  intros idx c Hi Hc. fold (shift_by abs idx).
  rewrite (get_kept v (fd_cells fd) (fd_nc fd)) by auto.
  destruct (get_in v (shift_by abs idx ++ [(ca + c)%nat])) as [x Hx]; auto.
  - unfold v; cbn [shape]. apply Forall2_app; [now apply in_range_shift with (abs := abs)|]. repeat constructor. lia.
  - exists x. auto.
Qed.
Print Assumptions C05_partial_is_slice.

(** Third dimension uncut, second cut to one index, first to a slice, one of
    the two components. *)
Definition ex_cuts' : list string := ["1:"; "2"; ""; ""; ""; ""; ":-1"]%string.
Example C05_example_hyps : cuts_select ex_cuts' [2; 3]%nat 2 [(1, 2); (2, 3)]%nat 0 1.
Proof.
  split; [reflexivity|]. split; [simpl; lia|]. split; [reflexivity|]. split.
  - intros [|[|[|d]]] s n a b; simpl; try discriminate; intros [= <-] [= <-] [= <- <-].
    + apply (cr_slice 2 (Some 1) None); simpl; auto; lia.
    + apply (cr_index 3 2). lia.
  - intros s [= <-]. apply (cr_slice 2 None (Some (-1))); simpl; auto; lia.
Qed.
Example C05_example :
  exists g, load ex_ops ex_unpack 1 (field_bytes 2 [] (ex_fd d8)) (Some ex_cuts') [] = Ok g /\
    l_data g = mk_nda [1; 1; 1]%nat [inject_Z 11].
Proof. eexists. split; vm_compute; reflexivity. Qed.

(** ** C06 *)

Theorem C06_partial_multi_range : forall F M (fo : fops F) unpack (mtrue : M) rt meta fd rs ctx ps abs ca cb,
  good_domain rt (width_of rt) meta fd -> meta_readable unpack meta -> fits (Z.of_nat (length rs)) ->
  Forall (good_range (width_of rt) (fd_cells fd) (fd_nc fd)) rs ->
  cuts_select ps (fd_cells fd) (fd_nc fd) abs ca cb ->
  let f := multi_bytes rt meta fd rs in
  exists full part, load fo unpack mtrue f None ctx = Ok full /\
    load fo unpack mtrue f (Some ps) ctx = Ok part /\
    l_cells part = List.map Z.of_nat (cut_cells abs) /\ l_nc part = Z.of_nat (cb - ca) /\
    l_ctx part = l_ctx full /\
    wf (l_data part) /\ shape (l_data part) = cut_cells abs ++ [(cb - ca)%nat] /\
    forall idx c, in_range (cut_cells abs) idx -> (c < cb - ca)%nat ->
      exists v, get (l_data part) (idx ++ [c]) = Some v /\
        get (l_data full) (map2 (fun ab i => (fst ab + i)%nat) abs idx ++ [(ca + c)%nat]) = Some v.
Proof.
  intros F M fo unpack mtrue rt meta fd rs ctx ps abs ca cb Hd Hm Hn Hrs Hcut f.
  destruct (cuts_good _ _ _ _ _ _ Hcut) as [Hgood Hcc]. pose proof (meta_readable_ok _ _ Hm) as Hmo.
  assert (Hpos : Forall (fun n => (0 < n)%nat) (fd_cells fd)).
  { apply Forall_forall. intros n Hin. apply In_nth_error in Hin as [k Hk]. destruct Hgood as [Hl Hg].
    destruct (nth_error abs k) as [[a b]|] eqn:Ea.
    - specialize (Hg _ _ _ _ Hk Ea). lia.
    - apply nth_error_None in Ea. assert (k < length (fd_cells fd))%nat by (apply nth_error_Some; congruence). lia. }
  destruct (load_t3 fo unpack mtrue f rt meta fd rs ctx None (uncut (fd_cells fd)) 0 (fd_nc fd)
              eq_refl Hd Hmo Hn Hrs)
    as (df & lo & up & E1 & _ & Hwf1 & Hsh1 & Hget1).
  { repeat split; auto. lia. }
  destruct (load_t3 fo unpack mtrue f rt meta fd rs ctx (Some ps) abs ca cb eq_refl Hd Hmo Hn Hrs Hcut)
    as (dp & lo' & up' & E2 & _ & Hwf2 & Hsh2 & Hget2).
  rewrite cut_cells_uncut, Nat.sub_0_r in *.
  eexists _, _. split; [exact E1|]. split; [exact E2|].
  cbn [l_data l_cells l_nc l_ctx]. do 5 (split; [auto|]).
  intros idx c Hi Hc. fold (shift_by abs idx).
  pose proof (in_range_length _ _ Hi) as Hli. unfold cut_cells in Hli. rewrite map_length in Hli.
  pose proof (in_range_shift _ _ _ Hgood Hi) as Hsi. pose proof (in_range_length _ _ Hsi) as Hlsi.
  rewrite Hget2, Hget1 by (auto; lia).
  destruct (last_covering_exists rs (shift_by abs idx)) as [o Ho].
  pose proof Hgood as [Hla _].
  rewrite (after_ranges_last fo (width_of rt) (fd_nc fd) (fd_cells fd) abs ca rs idx c _ o); auto; [|lia].
  rewrite (after_ranges_last fo (width_of rt) (fd_nc fd) (fd_cells fd) (uncut (fd_cells fd)) 0 rs _ _ _ o);
    auto; [|unfold uncut; now rewrite map_length|rewrite shift_uncut; auto].
  rewrite shift_uncut by auto. simpl Nat.add. destruct o as [r|]; [|eauto].
  destruct Ho as (bef & aft & -> & Hcov & _).
  assert (Hr : good_range (width_of rt) (fd_cells fd) (fd_nc fd) r).
  { rewrite Forall_forall in Hrs. apply Hrs. apply in_elt. }
  destruct (stored_some _ _ _ _ (shift_by abs idx) (ca + c) Hr Hcov) as [b Hb]; [lia|].
  rewrite Hb. simpl. eauto.
Qed.
Print Assumptions C06_partial_multi_range.

Example C06_example_hyps : cuts_select ["1:"; "1"; ""; ""; ""; ""; ""]%string [3; 2]%nat 1 [(1, 3); (1, 2)]%nat 0 1.
Proof.
  split; [reflexivity|]. split; [simpl; lia|]. split; [reflexivity|]. split.
  - intros [|[|[|d]]] s n a b; simpl; try discriminate; intros [= <-] [= <-] [= <- <-].
    + apply (cr_slice 3 (Some 1) None); simpl; auto; lia.
    + apply (cr_index 2 1). lia.
  - intros s [= <-]. apply (cr_all 1). lia.
Qed.
Example C06_example :
  exists g, load ex_ops ex_unpack 1 (multi_bytes 2 [] ex_multi ex_ranges)
              (Some ["1:"; "1"; ""; ""; ""; ""; ""]%string) [] = Ok g /\
    l_data g = mk_nda [2; 1; 1]%nat (List.map inject_Z [4; 6]).
Proof. eexists. split; vm_compute; reflexivity. Qed.

(** ** C07 *)

(** Stated for single-range and multi-range files alike. *)
Definition field_file (rt : Z) (meta : list Z) (fd : field) (rs : option (list range)) : list Z :=
  match rs with None => field_bytes rt meta fd | Some l => multi_bytes rt meta fd l end.
Definition good_file (rt : Z) (meta : list Z) (fd : field) (rs : option (list range)) : Prop :=
  match rs with
  | None => good_field rt (width_of rt) meta fd
  | Some l => good_domain rt (width_of rt) meta fd /\ fits (Z.of_nat (length l)) /\
              Forall (good_range (width_of rt) (fd_cells fd) (fd_nc fd)) l
  end.

Theorem C07_partial_grid : forall M dec unpack (mtrue : M) rt meta fd rs ctx ps abs ca cb,
  good_file rt meta fd rs -> meta_readable unpack meta ->
  cuts_select ps (fd_cells fd) (fd_nc fd) abs ca cb ->
  exists full part, load (qops dec) unpack mtrue (field_file rt meta fd rs) None ctx = Ok full /\
    load (qops dec) unpack mtrue (field_file rt meta fd rs) (Some ps) ctx = Ok part /\
    length (l_grid part) = length (fd_cells fd) /\ length (l_grid full) = length (fd_cells fd) /\
    forall d a b, nth_error abs d = Some (a, b) ->
      exists gp gf lo up, nth_error (l_grid part) d = Some gp /\ nth_error (l_grid full) d = Some gf /\
        nth_error (l_lower part) d = Some lo /\ nth_error (l_upper part) d = Some up /\
        length gp = S (b - a) /\
        (forall i, (i <= b - a)%nat -> same_node gp gf a i) /\
        (exists y, nth_error gf a = Some y /\ lo == y)%Q /\ (exists y, nth_error gf b = Some y /\ up == y)%Q.
Proof.
  intros M dec unpack mtrue rt meta fd rs ctx ps abs ca cb Hfile Hm Hcut.
  destruct (cuts_good _ _ _ _ _ _ Hcut) as [Hgood Hcc]. pose proof (meta_readable_ok _ _ Hm) as Hmo.
  pose proof Hgood as [Hla Hgc].
  set (fo := qops dec). set (w := width_of rt).
  set (LO := List.map (fdec fo w) (fd_lower fd)). set (UP := List.map (fdec fo w) (fd_upper fd)).
  set (dd := part_domain fo rt fd (prod (fd_cells fd)) abs ca cb).
  assert (Hd : good_domain rt (width_of rt) meta fd) by (destruct rs; simpl in Hfile; apply Hfile).
  pose proof Hd as (_ & Hll & Hlu & _).
  assert (H : exists df dp nf np cf cp,
     load fo unpack mtrue (field_file rt meta fd rs) None ctx
     = Ok (mk_loaded (grid_for fo (fd_cells fd) LO UP) df cf LO UP nf (ctx_after unpack mtrue ctx meta)) /\
     load fo unpack mtrue (field_file rt meta fd rs) (Some ps) ctx
     = Ok (mk_loaded (grid_for fo (cut_cells abs) (d_lower dd) (d_upper dd)) dp cp (d_lower dd) (d_upper dd) np
             (ctx_after unpack mtrue ctx meta))).
  { destruct rs as [rs|].
    - destruct Hfile as (_ & Hn & Hrs).
      assert (Hpos : Forall (fun n => (0 < n)%nat) (fd_cells fd)).
      { apply Forall_forall. intros n Hin. apply In_nth_error in Hin as [k Hk].
        destruct (nth_error abs k) as [[a b]|] eqn:Ea.
        - specialize (Hgc _ _ _ _ Hk Ea). lia.
        - apply nth_error_None in Ea. assert (k < length (fd_cells fd))%nat by (apply nth_error_Some; congruence). lia. }
      destruct (load_t3 fo unpack mtrue (multi_bytes rt meta fd rs) rt meta fd rs ctx None (uncut (fd_cells fd)) 0 (fd_nc fd)
              eq_refl Hd Hmo Hn Hrs) as (df & lo & up & E1 & B1 & _).
      { repeat split; auto. lia. }
      destruct (load_t3 fo unpack mtrue (multi_bytes rt meta fd rs) rt meta fd rs ctx (Some ps) abs ca cb eq_refl Hd Hmo Hn Hrs Hcut)
        as (dp & lo' & up' & E2 & B2 & _).
      injection B1 as -> ->. cbv zeta in B2. injection B2 as -> ->. rewrite cut_cells_uncut in E1.
      do 6 eexists. split; [exact E1|exact E2].
    - simpl in Hfile |- *.
      assert (Ef : field_bytes rt meta fd = header_bytes 1 meta ++ u64 rt ++ u64n (length (fd_cells fd)) ++ flat_map u64n (fd_cells fd)
        ++ concat (fd_lower fd) ++ concat (fd_upper fd)
        ++ u64n (fd_nc fd * width_of rt) ++ u64n (prod (fd_cells fd)) ++ concat (fd_data fd)).
      { unfold field_bytes, domain_bytes. rewrite <- !app_assoc. reflexivity. }
      assert (Hfit : fits (Z.of_nat (prod (fd_cells fd)))) by apply Hd.
      pose proof (load_t1 fo unpack mtrue _ rt meta fd _ ctx Ef Hfile Hmo Hfit (le_n _)) as E1.
      pose proof (load_partial_t1 fo unpack mtrue _ rt meta fd _ ctx ps abs ca cb Ef Hfile Hmo Hfit Hcut) as E2.
      do 6 eexists. split; [exact E1|exact E2]. }
  destruct H as (df & dp & nf & np & cf & cp & E1 & E2).
  assert (Hbd := apply_cuts_bounds fo (fd_cells fd) LO UP
       (Z.of_nat (fd_nc fd)) (Z.of_nat (prod (fd_cells fd))) abs (Z.of_nat ca, Z.of_nat (fd_nc fd) - Z.of_nat cb)).
  cbv zeta in Hbd. unfold LO, UP in Hbd. rewrite !map_length in Hbd. destruct (Hbd Hll Hlu Hla) as (B1 & B2 & B3).
  change (length (d_lower dd) = length (fd_cells fd)) in B1.
  change (length (d_upper dd) = length (fd_cells fd)) in B2.
  change (forall d n a b l u, nth_error (fd_cells fd) d = Some n -> nth_error abs d = Some (a, b) ->
      nth_error LO d = Some l -> nth_error UP d = Some u ->
      nth_error (d_lower dd) d
        = Some (fadd fo l (fmul fo (fofZ fo (Z.of_nat a)) (fdiv fo (fsub fo u l) (fofZ fo (Z.of_nat n))))) /\
      nth_error (d_upper dd) d
        = Some (fsub fo u (fmul fo (fofZ fo (Z.of_nat n - Z.of_nat b))
                                (fdiv fo (fsub fo u l) (fofZ fo (Z.of_nat n)))))) in B3.
  eexists _, _. split; [exact E1|]. split; [exact E2|]. cbn [l_grid l_lower l_upper].
  assert (Hlc : length (cut_cells abs) = length (fd_cells fd)) by (unfold cut_cells; now rewrite map_length).
  split; [unfold grid_for; rewrite map_length, !combine_length; lia|].
  split; [unfold grid_for, LO, UP; rewrite map_length, !combine_length, !map_length; lia|].
  intros d a b Hab.
  destruct (nth_error (fd_cells fd) d) as [n|] eqn:En.
  2:{ apply nth_error_None in En. assert (d < length abs)%nat by (apply nth_error_Some; congruence). lia. }
  specialize (Hgc _ _ _ _ En Hab).
  assert (Hdl : (d < length (fd_cells fd))%nat) by (apply nth_error_Some; congruence).
  destruct (nth_error LO d) as [l|] eqn:El.
  2:{ apply nth_error_None in El. unfold LO in El. rewrite map_length in El. lia. }
  destruct (nth_error UP d) as [u|] eqn:Eu.
  2:{ apply nth_error_None in Eu. unfold UP in Eu. rewrite map_length in Eu. lia. }
  destruct (B3 _ _ _ _ _ _ En Hab El Eu) as [L1 U1].
  assert (Ec : nth_error (cut_cells abs) d = Some (b - a)%nat) by (unfold cut_cells; now rewrite nth_error_map, Hab).
  do 4 eexists.
  split; [eapply grid_for_nth; eauto|]. split; [eapply grid_for_nth; eauto|].
  split; [exact L1|]. split; [exact U1|]. split; [apply linspace_length|].
  assert (Hz : forall i, (i <= b - a)%nat ->
     same_node (linspace fo (fadd fo l (fmul fo (fofZ fo (Z.of_nat a)) (fdiv fo (fsub fo u l) (fofZ fo (Z.of_nat n)))))
        (fsub fo u (fmul fo (fofZ fo (Z.of_nat n - Z.of_nat b)) (fdiv fo (fsub fo u l) (fofZ fo (Z.of_nat n))))) (b - a))
        (linspace fo l u n) a i).
  { intros i Hi. exact (cut_nodes dec l u n a b i Hgc Hi). }
  split; [exact Hz|].
  assert (Hnz : ~ (inject_Z (Z.of_nat n) == 0)%Q).
  { intros E. unfold Qeq in E. cbn [Qnum Qden inject_Z] in E. lia. }
  split.
  - destruct (linspace_q dec l u n a) as (y & Hy & Ey); [lia|lia|]. exists y. split; [exact Hy|].
    rewrite Ey. reflexivity.
  - destruct (linspace_q dec l u n b) as (y & Hy & Ey); [lia|lia|]. exists y. split; [exact Hy|].
    rewrite Ey. unfold fo. cbn [qops fsub fmul fofZ fdiv]. unfold Z.sub.
    rewrite inject_Z_plus, inject_Z_opp. field. exact Hnz.
Qed.
Print Assumptions C07_partial_grid.

Example C07_example :
  exists g, load ex_ops ex_unpack 1 (field_bytes 2 [] (ex_fd d8)) (Some ex_cuts') [] = Ok g /\
    List.map (List.map Qred) (l_grid g) = [[inject_Z 2; inject_Z 4]; [inject_Z 30; inject_Z 40]].
Proof. eexists. split; [vm_compute; reflexivity|]. vm_compute. reflexivity. Qed.

(** ** C08 *)

(** The positions of [n] that a pair of offsets leaves. *)
Definition left_by (n : nat) (g : Z * Z) (k : nat) : Prop := fst g <= Z.of_nat k < Z.of_nat n - snd g.

(** "a:b" leaves the positions of Python's [a:b]. *)
Theorem C08_slice_follows_python : forall n start stop ks,
  match start with None => True | Some i => 0 <= i end ->
  match stop with None => True | Some j => j <> 0 /\ j <= Z.of_nat n end ->
  slice_list n start stop None = Ok ks ->
  exists g, parse_cut (show_opt start ++ ":" ++ show_opt stop) (Z.of_nat n) = Ok g /\
    forall k, (k < n)%nat -> left_by n g k <-> In k ks.
Proof.
  intros n start stop ks Hs He Hk. rewrite parse_cut_slice. eexists; split; [reflexivity|].
  intros k Hkn. unfold left_by; cbn [fst snd].
  rewrite (slice_list_In _ _ _ _ _ Hk).
  destruct start as [i|], stop as [j|]; unfold adjust_pos;
    repeat match goal with |- context [if ?x <? ?y then _ else _] => destruct (Z.ltb_spec x y) end; lia.
Qed.
Print Assumptions C08_slice_follows_python.

(** "k" leaves exactly position k. *)
Theorem C08_index : forall n k, (k < n)%nat ->
  exists g, parse_cut (show_Z (Z.of_nat k)) (Z.of_nat n) = Ok g /\
    forall j, (j < n)%nat -> left_by n g j <-> j = k.
Proof.
  intros n k Hk. rewrite parse_cut_index by lia. eexists; split; [reflexivity|].
  intros j Hj. unfold left_by; cbn [fst snd]. lia.
Qed.
Print Assumptions C08_index.

(** Two cut strings with the same meaning for every size are interchangeable
    in every load. *)
Lemma load_cut_ext {F M} (fo : fops F) unpack (mtrue : M) f ctx ps ps' :
  (forall i n, match nth_error ps i with Some s => parse_cut s n | None => Err IndexError end
             = match nth_error ps' i with Some s => parse_cut s n | None => Err IndexError end) ->
  load fo unpack mtrue f (Some ps) ctx = load fo unpack mtrue f (Some ps') ctx.
Proof.
  intros H. unfold load. destruct (read_header unpack mtrue f (init_rst ctx)) as [s|e]; [|reflexivity].
  cbn [bind]. destruct (_ || _)%bool; [|reflexivity].
  assert (E : read_domain fo f (Some ps) s = read_domain fo f (Some ps') s); [|now rewrite E].
  unfold read_domain. destruct (read_domain_raw fo f s) as [x|e]; [|reflexivity]. cbn [bind].
  destruct x as [[[[[[nd cells] lo] up] nc] asz] o].
  assert (E1 : mapM (fun i => match nth_error ps i, nth_error cells i with
                       | Some sl, Some n => parse_cut sl n | _, _ => Err IndexError end) (seq 0 (Z.to_nat nd))
             = mapM (fun i => match nth_error ps' i, nth_error cells i with
                       | Some sl, Some n => parse_cut sl n | _, _ => Err IndexError end) (seq 0 (Z.to_nat nd))).
  { induction (seq 0 (Z.to_nat nd)) as [|i l IH]; [reflexivity|]. cbn [mapM]. rewrite IH. f_equal.
    destruct (nth_error cells i) as [n|].
    - specialize (H i n). destruct (nth_error ps i), (nth_error ps' i); auto.
    - destruct (nth_error ps i), (nth_error ps' i); auto. }
  rewrite E1. specialize (H 6%nat nc). rewrite H. reflexivity.
Qed.

(** A stop of 0 loads to the end instead of nothing. *)
Theorem C08_stop_zero_means_end : forall F M (fo : fops F) unpack (mtrue : M) f ctx before after start,
  load fo unpack mtrue f (Some (before ++ (show_opt start ++ ":" ++ show_opt (Some 0))%string :: after)) ctx
  = load fo unpack mtrue f (Some (before ++ (show_opt start ++ ":" ++ show_opt None)%string :: after)) ctx.
Proof.
  intros. apply load_cut_ext. intros i n. destruct (Nat.lt_ge_cases i (length before)).
  - now rewrite !nth_error_app1.
  - rewrite !nth_error_app2 by auto. destruct (i - length before)%nat; [|reflexivity].
    cbn [nth_error]. rewrite !parse_cut_slice. reflexivity.
Qed.
Print Assumptions C08_stop_zero_means_end.

(** A negative index is ignored: everything is loaded. *)
Theorem C08_negative_index_ignored : forall F M (fo : fops F) unpack (mtrue : M) f ctx before after k,
  k < 0 ->
  load fo unpack mtrue f (Some (before ++ show_Z k :: after)) ctx
  = load fo unpack mtrue f (Some (before ++ ""%string :: after)) ctx.
Proof.
  intros F M fo unpack mtrue f ctx before after k Hk. apply load_cut_ext. intros i n.
  destruct (Nat.lt_ge_cases i (length before)).
  - now rewrite !nth_error_app1.
  - rewrite !nth_error_app2 by auto. destruct (i - length before)%nat; [|reflexivity].
    cbn [nth_error]. unfold parse_cut at 1. rewrite show_Z_neg_digits, show_Z_no_colon by auto. reflexivity.
Qed.
Print Assumptions C08_negative_index_ignored.

(** A step is rejected. *)
Theorem C08_step_rejected : forall a b c n,
  parse_cut (show_opt a ++ ":" ++ show_opt b ++ ":" ++ show_opt c) n = Err ValueError.
Proof.
  intros a b c n. unfold parse_cut. simpl (":" ++ _)%string.
  assert (Hc : has_char ":" (show_opt a ++ String ":" (show_opt b ++ String ":" (show_opt c))) = true).
  { rewrite has_char_app. simpl. now rewrite orb_true_r. }
  rewrite (is_digits_no_colon _ Hc), Hc.
  rewrite !split_on_app, !split_on_none by apply show_opt_no_colon.
  assert (E : split_on ":" (String ":" (show_opt b ++ String ":" (show_opt c))) <> []) by apply split_on_nonnil.
  reflexivity.
Qed.
Print Assumptions C08_step_rejected.

(** A negative start, meaningful to Python, makes the loader report more cells
    than there are. *)
Theorem C08_negative_start_refuted :
  exists fd ks, good_field 2 8 [] fd /\ fd_cells fd = [3]%nat /\ slice_list 3 (Some (-1)) None None = Ok ks /\
    ~ exists g, load ex_ops ex_unpack 1 (field_bytes 2 [] fd) (Some ["-1:"; ""; ""; ""; ""; ""; ""]%string) [] = Ok g /\
        shape (l_data g) = [length ks; 1%nat].
Proof.
  exists (mk_field [3]%nat 1 [d8 0] [d8 3] (List.map d8 [1; 2; 3])), [2]%nat.
  split; [|split; [reflexivity|split; [reflexivity|]]].
  - good_field_tac.
  - intros (g & Hg & Hs). vm_compute in Hg. first [discriminate Hg | injection Hg as <-; discriminate Hs].
Qed.
Print Assumptions C08_negative_start_refuted.

(** A stop beyond the end is not clamped: the data are all there, but the grid
    reaches beyond the domain. *)
Theorem C08_stop_beyond_end_refuted :
  exists fd ks g gr, good_field 2 8 [] fd /\ fd_cells fd = [3]%nat /\
    slice_list 3 None (Some 5) None = Ok ks /\ ks = [0; 1; 2]%nat /\
    load ex_ops ex_unpack 1 (field_bytes 2 [] fd) (Some [":5"; ""; ""; ""; ""; ""; ""]%string) [] = Ok g /\
    l_grid g = [gr] /\ exists x, nth_error gr 3 = Some x /\ ~ (x == 3)%Q.
Proof.
  exists (mk_field [3]%nat 1 [d8 0] [d8 3] (List.map d8 [1; 2; 3])), [0; 1; 2]%nat.
  do 2 eexists.
  split; [|split; [reflexivity|split; [reflexivity|split; [reflexivity|split; [vm_compute; reflexivity|split; [reflexivity|]]]]]].
  - good_field_tac.
  - eexists. split; [reflexivity|]. vm_compute. discriminate.
Qed.
Print Assumptions C08_stop_beyond_end_refuted.
