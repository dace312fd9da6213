(** * Proofs about the .gkyl reader and writer (lemmas). *)
From Coq Require Import String Ascii List ZArith Bool Lia.
From Verif Require Import Prelude PreludeFacts NdArray Gkyl_Model Gkyl_Spec.
Import ListNotations.
Open Scope list_scope.
Open Scope Z_scope.

(** ** Integers *)

Lemma le_val_le_bytes n z : 0 <= z < 256 ^ Z.of_nat n -> le_val (le_bytes n z) = z.
Proof.
  revert z. induction n as [|n IH]; intros z H.
  - simpl in *. lia.
  - rewrite Nat2Z.inj_succ, Z.pow_succ_r in H by lia.
    cbn [le_bytes le_val]. rewrite IH.
    + pose proof (Z.div_mod z 256). lia.
    + split; [apply Z.div_pos; lia|]. apply Z.div_lt_upper_bound; lia.
Qed.

Lemma le_bytes_spec n z :
  le_bytes n z = List.map (fun k => (z / 256 ^ Z.of_nat k) mod 256) (seq 0 n).
Proof.
  revert z. induction n as [|n IH]; intros z; [reflexivity|].
  cbn [le_bytes]. rewrite IH. change (seq 0 (S n)) with (0%nat :: seq 1 n).
  cbn [List.map]. f_equal.
  - now rewrite Z.pow_0_r, Z.div_1_r.
  - rewrite <- seq_shift, map_map. apply map_ext. intros k.
    rewrite Nat2Z.inj_succ, Z.pow_succ_r by lia.
    rewrite Z.div_div; [reflexivity|lia|]. apply Z.pow_pos_nonneg; lia.
Qed.

Lemma enc_i64_u64 z : enc_i64 z = u64 z.
Proof. apply le_bytes_spec. Qed.

Arguments u64 : simpl never.
Arguments u64n : simpl never.

Lemma u64_length z : length (u64 z) = 8%nat.
Proof. reflexivity. Qed.

Lemma dec_u64 z : fits z -> dec_i64 (u64 z) = z.
Proof.
  intros [H0 H1]. unfold dec_i64. rewrite <- enc_i64_u64. unfold enc_i64.
  rewrite le_val_le_bytes by (change (256 ^ Z.of_nat 8) with (2 ^ 64); lia).
  destruct (Z.ltb_spec z (2 ^ 63)); lia.
Qed.

(** ** Reading at an offset *)

Lemma skipn_skipn_add {A} n m (l : list A) : skipn n (skipn m l) = skipn (m + n) l.
Proof.
  revert l; induction m as [|m IH]; intros l; simpl; auto.
  destruct l; [now rewrite skipn_nil|apply IH].
Qed.

(** The bytes from offset [off] on are [rest]. *)
Definition At (f : list Z) (off : Z) (rest : list Z) : Prop :=
  0 <= off /\ skipn (Z.to_nat off) f = rest.

Lemma At_0 f : At f 0 f.
Proof. split; [lia|reflexivity]. Qed.

Lemma At_step f off a b k : At f off (a ++ b) -> k = Z.of_nat (length a) -> At f (off + k) b.
Proof.
  intros [H0 H] ->. split; [lia|].
  rewrite Z2Nat.inj_add, Nat2Z.id by lia. rewrite <- skipn_skipn_add, H.
  now apply skipn_app_exact.
Qed.

Lemma At_length f off rest : At f off rest -> (length rest <= length f)%nat.
Proof. intros [_ <-]. rewrite skipn_length. lia. Qed.

Lemma chunks_concat w xs rest n :
  all_width w xs -> (0 < w)%nat -> n = length xs -> chunks w n (concat xs ++ rest) = xs.
Proof.
  intros H Hw ->. induction H as [|x xs Hx Hxs IH]; simpl; auto.
  rewrite <- app_assoc.
  destruct (Nat.leb_spec w (length (x ++ concat xs ++ rest))) as [L|L].
  - rewrite firstn_app_exact, skipn_app_exact by auto. now rewrite IH.
  - rewrite app_length in L. lia.
Qed.

Lemma chunks_concat_end w xs n :
  all_width w xs -> (0 < w)%nat -> (length xs <= n)%nat -> chunks w n (concat xs) = xs.
Proof.
  intros H Hw. revert n. induction H as [|x xs Hx Hxs IH]; intros [|n] Hn; simpl in *; auto; try lia.
  - destruct (Nat.leb_spec w 0); auto. lia.
  - destruct (Nat.leb_spec w (length (x ++ concat xs))) as [L|L].
    + rewrite firstn_app_exact, skipn_app_exact by auto. rewrite IH; auto. lia.
    + rewrite app_length in L. lia.
Qed.

Lemma concat_length w xs : all_width w xs -> length (concat xs) = (length xs * w)%nat.
Proof. induction 1; simpl; auto. rewrite app_length. lia. Qed.

Lemma fromfile_at f w off xs rest count :
  At f off (concat xs ++ rest) -> all_width w xs -> (0 < w)%nat ->
  count = Z.of_nat (length xs) ->
  fromfile f w count off = Ok xs /\ At f (off + count * Z.of_nat w) rest.
Proof.
  intros HA Hx Hw ->. split.
  - unfold fromfile. destruct HA as [H0 H]. destruct (Z.ltb_spec off 0); [lia|].
    destruct (Z.ltb_spec (Z.of_nat (length xs)) 0); [lia|].
    rewrite H. f_equal. apply chunks_concat; auto.
    pose proof (At_length f off _ (conj H0 H)) as L.
    rewrite app_length, (concat_length w) in L by auto. nia.
  - eapply At_step; eauto. rewrite (concat_length w) by auto. lia.
Qed.

Lemma fromfile_at_end f w off xs count :
  At f off (concat xs) -> all_width w xs -> (0 < w)%nat ->
  Z.of_nat (length xs) <= count -> fromfile f w count off = Ok xs.
Proof.
  intros HA Hx Hw Hc. unfold fromfile. destruct HA as [H0 H]. destruct (Z.ltb_spec off 0); [lia|].
  destruct (Z.ltb_spec count 0); [lia|]. rewrite H. f_equal. apply chunks_concat_end; auto.
  pose proof (At_length f off _ (conj H0 H)) as L.
  rewrite (concat_length w) in L by auto. nia.
Qed.

Lemma read_i64_at f off z rest :
  At f off (u64 z ++ rest) -> fits z -> read_i64 f off = Ok z /\ At f (off + 8) rest.
Proof.
  intros HA Hz.
  destruct (fromfile_at f 8 off [u64 z] rest 1) as [E HA'].
  - change (concat [u64 z]) with (u64 z ++ []). now rewrite app_nil_r.
  - repeat constructor.
  - lia.
  - reflexivity.
  - unfold read_i64. rewrite E. cbn [bind]. rewrite dec_u64 by auto.
    split; [reflexivity|exact HA'].
Qed.

Lemma flat_map_concat_map' {A B} (g : A -> list B) l : flat_map g l = concat (List.map g l).
Proof. induction l; simpl; auto. now rewrite IHl. Qed.

Lemma read_i64s_at f off (ns : list nat) rest count :
  At f off (flat_map u64n ns ++ rest) -> Forall (fun n => fits (Z.of_nat n)) ns ->
  count = Z.of_nat (length ns) ->
  read_i64s f count off = Ok (List.map Z.of_nat ns) /\ At f (off + count * 8) rest.
Proof.
  intros HA Hn ->. rewrite flat_map_concat_map' in HA.
  destruct (fromfile_at f 8 off _ rest (Z.of_nat (length ns)) HA) as [E HA'].
  - apply Forall_forall. intros b Hb. apply in_map_iff in Hb as (n & <- & _). reflexivity.
  - lia.
  - now rewrite map_length.
  - unfold read_i64s. rewrite E. cbn [bind]. split; [|exact HA'].
    f_equal. rewrite map_map. clear -Hn. induction Hn; simpl; auto.
    f_equal; auto. now apply dec_u64.
Qed.

(** ** Header *)

Lemma of_ascii_magic : of_ascii "gkyl0" = magic.
Proof. reflexivity. Qed.

Lemma At_header f off ft meta rest :
  At f off (header_bytes ft meta ++ rest) ->
  At f off (magic ++ u64 1 ++ u64 ft ++ u64n (length meta) ++ meta ++ rest).
Proof. unfold header_bytes. rewrite of_ascii_magic. now rewrite <- ?app_assoc. Qed.

Lemma is_compatible_at f rest v :
  At f 0 (magic ++ u64 v ++ rest) -> fits v -> is_compatible f = true.
Proof.
  intros HA Hv. unfold is_compatible.
  destruct (fromfile_at f 1 0 (List.map (fun b => [b]) magic) (u64 v ++ rest) 5) as [E HA'];
    auto; [repeat constructor|].
  rewrite E. destruct (list_eq_dec _ _ _) as [_|n]; [|now elim n].
  now destruct (read_i64_at f 5 v rest HA' Hv) as [-> _].
Qed.

Lemma is_compatible_header f ft meta rest :
  At f 0 (header_bytes ft meta ++ rest) -> is_compatible f = true.
Proof. intros H. apply At_header in H. eapply is_compatible_at; eauto. unfold fits; lia. Qed.

Section ReaderProofs.
  Context {F M : Type}.
  Variable fo : fops F.
  Variable unpack : list Z -> option (option (list (string * M))).
  Variable mtrue : M.
  Variable f : list Z.

  (** Metadata the reader can take: absent or decodable. *)
  Definition meta_ok (meta : list Z) : Prop := meta = [] \/ unpack meta <> None.

  (** What the context becomes. *)
  Definition ctx_after (ctx : list (string * M)) (meta : list Z) : list (string * M) :=
    match meta, unpack meta with
    | _ :: _, Some (Some d) => store_meta mtrue ctx d
    | _, _ => ctx
    end.

  Lemma read_header_at s ft meta rt rest :
    is_compatible f = true ->
    At f (r_off s) (header_bytes ft meta ++ u64 rt ++ rest) ->
    fits ft -> fits rt -> fits (Z.of_nat (length meta)) -> meta_ok meta ->
    exists off',
      read_header unpack mtrue f s
      = Ok (mk_rst off' (if rt =? 1 then 4%nat else r_w s) ft 1 (ctx_after (r_ctx s) meta))
      /\ off' = r_off s + 37 + Z.of_nat (length meta)
      /\ At f off' rest.
  Proof.
    intros Hc HA Hft Hrt Hm Hok. apply At_header in HA.
    unfold read_header. rewrite Hc. unfold read_magic_header.
    eapply At_step in HA; [|reflexivity]. change (Z.of_nat (length magic)) with 5 in HA.
    assert (H1 : fits 1) by (unfold fits; lia).
    destruct (read_i64_at _ _ _ _ HA H1) as [-> HA1]. cbn [bind].
    destruct (read_i64_at _ _ _ _ HA1 Hft) as [-> HA2]. cbn [bind].
    destruct (read_i64_at _ _ _ _ HA2 Hm) as [E HA3].
    replace (r_off s + 5 + 16) with (r_off s + 5 + 8 + 8) by lia. rewrite E. clear E. cbn [bind].
    pose proof HA3 as [Hoff Hskip].
    destruct (Z.ltb_spec 0 (Z.of_nat (length meta))) as [L|L].
    - replace (r_off s + 5 + 8 + 8 + 8) with (r_off s + 5 + 24) in * by lia.
      rewrite Hskip, Nat2Z.id, firstn_app_exact by auto.
      eapply At_step in HA3; [|reflexivity].
      destruct (read_i64_at _ _ _ _ HA3 Hrt) as [E HA4].
      unfold ctx_after. destruct Hok as [->|Hok]; [simpl in L; lia|].
      destruct meta as [|m0 meta]; [simpl in L; lia|].
      destruct (unpack (m0 :: meta)) as [[dd|]|]; [| |congruence];
        cbn [bind r_off]; rewrite E; cbn [bind r_off r_w r_type r_ver r_ctx];
        (eexists; split; [reflexivity|]; split; [lia|exact HA4]).
    - assert (meta = []) as -> by (destruct meta; simpl in L; auto; lia).
      simpl app in HA3. replace (r_off s + 5 + 8 + 8 + 8) with (r_off s + 5 + 24) in * by lia.
      destruct (read_i64_at _ _ _ _ HA3 Hrt) as [E HA4].
      cbn [bind r_off]; rewrite E; cbn [bind r_off r_w r_type r_ver r_ctx].
      eexists; split; [reflexivity|]; split; [simpl length; lia|exact HA4].
  Qed.

  (** ** Domain *)

  Lemma read_domain_raw_at (s : @rst M) rt fd meta rest asz :
    At f (r_off s) (u64n (length (fd_cells fd)) ++ flat_map u64n (fd_cells fd)
        ++ concat (fd_lower fd) ++ concat (fd_upper fd)
        ++ u64n (fd_nc fd * width_of rt) ++ u64n asz ++ rest) ->
    r_w s = width_of rt -> good_domain rt (width_of rt) meta fd -> fits (Z.of_nat asz) ->
    exists off',
      read_domain_raw fo f s
      = Ok (Z.of_nat (length (fd_cells fd)), List.map Z.of_nat (fd_cells fd),
            List.map (fdec fo (width_of rt)) (fd_lower fd),
            List.map (fdec fo (width_of rt)) (fd_upper fd),
            Z.of_nat (fd_nc fd), Z.of_nat asz, off')
      /\ At f off' rest.
  Proof.
    intros HA Hw (Hrt & Hll & Hlu & Hwl & Hwu & _ & Hnd & Hcells & Hnc & _) Hsz.
    assert (Hwpos : (0 < width_of rt)%nat) by (unfold width_of; destruct (rt =? 1); lia).
    unfold read_domain_raw. rewrite Hw.
    destruct (read_i64_at _ _ _ _ HA Hnd) as [-> HA1]. cbn [bind].
    destruct (Z.ltb_spec (Z.of_nat (length (fd_cells fd))) 0); [lia|].
    destruct (read_i64s_at _ _ _ _ _ HA1 Hcells eq_refl) as [-> HA2]. cbn [bind].
    destruct (fromfile_at _ (width_of rt) _ _ _ (Z.of_nat (length (fd_cells fd))) HA2) as [-> HA3]; auto.
    cbn [bind].
    destruct (fromfile_at _ (width_of rt) _ _ _ (Z.of_nat (length (fd_cells fd))) HA3) as [-> HA4]; auto.
    cbn [bind].
    destruct (read_i64_at _ _ _ _ HA4 Hnc) as [-> HA5]. cbn [bind].
    destruct (read_i64_at _ _ _ _ HA5 Hsz) as [-> HA6]. cbn [bind].
    rewrite map_length, Hll, Hlu, Z.eqb_refl. simpl andb.
    eexists. split; [|exact HA6].
    rewrite Nat2Z.inj_mul, Z.quot_mul by lia. reflexivity.
  Qed.

  (** ** Full load of a field *)

  Lemma zprod_of_nat ns : zprod (List.map Z.of_nat ns) = Z.of_nat (prod ns).
  Proof.
    induction ns as [|n ns IH]; [reflexivity|].
    change (zprod (List.map Z.of_nat (n :: ns))) with (Z.of_nat n * zprod (List.map Z.of_nat ns)).
    rewrite IH, <- Nat2Z.inj_mul. reflexivity.
  Qed.

  Lemma reshape_ok ns (l : list F) :
    length l = prod ns -> reshape (List.map Z.of_nat ns) l = Ok (mk_nda ns l).
  Proof.
    intros H. unfold reshape. rewrite zprod_of_nat, H, Z.eqb_refl, andb_true_r.
    replace (forallb (fun n => 0 <=? n) (List.map Z.of_nat ns)) with true.
    - rewrite map_map. f_equal. f_equal. rewrite <- (map_id ns) at 2.
      apply map_ext. intros. apply Nat2Z.id.
    - symmetry. apply forallb_forall. intros z Hz. apply in_map_iff in Hz as (n & <- & _).
      apply Z.leb_le. lia.
  Qed.

  Lemma map_snoc_of_nat ns n : List.map Z.of_nat ns ++ [Z.of_nat n] = List.map Z.of_nat (ns ++ [n]).
  Proof. now rewrite map_app. Qed.

  (** No ghost-cell adjustment when cells and data agree. *)
  Lemma ghost_none c lo up : ghost_adjust fo (Z.of_nat c) lo up c = (Z.of_nat c, lo, up).
  Proof. unfold ghost_adjust. now rewrite Z.eqb_refl. Qed.

  Lemma adj_ok (cells : list nat) (lo up : list F) (sh : list nat) :
    length lo = length cells -> length up = length cells ->
    (exists tl, sh = cells ++ tl) ->
    mapM (fun k =>
          match nth_error (List.map Z.of_nat cells) k, nth_error lo k, nth_error up k, nth_error sh k with
          | Some c, Some l, Some u, Some n => Ok (ghost_adjust fo c l u n)
          | _, _, _, _ => Err IndexError
          end) (seq 0 (length (List.map Z.of_nat cells)))
    = Ok (combine (combine (List.map Z.of_nat cells) lo) up).
  Proof.
    intros Hl Hu [tl ->].
    apply mapM_ok. apply Forall2_nth_error_intro.
    - rewrite seq_length, !combine_length, map_length. lia.
    - intros k a b Ha Hb. rewrite nth_error_seq in Ha.
      rewrite map_length in Ha. destruct (Nat.ltb_spec k (length cells)) as [L|]; [|discriminate].
      injection Ha as <-. simpl Nat.add.
      destruct (nth_error cells k) as [c|] eqn:Ec; [|apply nth_error_None in Ec; lia].
      destruct (nth_error lo k) as [l|] eqn:El; [|apply nth_error_None in El; lia].
      destruct (nth_error up k) as [u|] eqn:Eu; [|apply nth_error_None in Eu; lia].
      rewrite nth_error_map, Ec. cbn [option_map].
      rewrite nth_error_app1, Ec by auto. rewrite ghost_none.
      assert (Hcomb : nth_error (combine (combine (List.map Z.of_nat cells) lo) up) k
                      = Some (Z.of_nat c, l, u)).
      { clear - Ec El Eu. revert k lo up Ec El Eu.
        induction cells as [|c0 cells IH]; intros [|k] [|l0 lo] [|u0 up]; simpl; try discriminate.
        - congruence.
        - apply IH. }
      congruence.
  Qed.

  Lemma combine_proj (cells : list Z) (lo up : list F) :
    length lo = length cells -> length up = length cells ->
    List.map (fun x => fst (fst x)) (combine (combine cells lo) up) = cells /\
    List.map (fun x => snd (fst x)) (combine (combine cells lo) up) = lo /\
    List.map snd (combine (combine cells lo) up) = up.
  Proof.
    revert lo up. induction cells as [|c cells IH]; intros [|l lo] [|u up]; simpl; try discriminate; auto.
    intros [= Hl] [= Hu]. destruct (IH lo up Hl Hu) as (-> & -> & ->). auto.
  Qed.

  (** Grid of the loaded dataset. *)
  Definition grid_for (cells : list nat) (lo up : list F) : list (list F) :=
    List.map (fun x => linspace fo (snd (fst x)) (snd x) (fst (fst x))) (combine (combine cells lo) up).

  Lemma grid_ok (cells : list nat) (lo up : list F) :
    mapM (fun x => let '(c, l, u) := x in
                          if c + 1 <? 0 then Err ValueError
                          else if c + 1 =? 0 then Ok [] else Ok (linspace fo l u (Z.to_nat c)))
         (combine (combine (List.map Z.of_nat cells) lo) up)
    = Ok (grid_for cells lo up).
  Proof.
    revert lo up. induction cells as [|c cells IH]; intros [|l lo] [|u up]; simpl; auto.
    destruct (Z.ltb_spec (Z.of_nat c + 1) 0); [lia|].
    destruct (Z.eqb_spec (Z.of_nat c + 1) 0); [lia|]. rewrite Nat2Z.id. cbn [bind].
    rewrite IH. reflexivity.
  Qed.

  (** A full load of type 1, whatever is recorded as size, provided enough
      items can be read. *)
  Lemma load_t1 rt meta fd asz ctx :
    f = header_bytes 1 meta ++ u64 rt ++ u64n (length (fd_cells fd)) ++ flat_map u64n (fd_cells fd)
        ++ concat (fd_lower fd) ++ concat (fd_upper fd)
        ++ u64n (fd_nc fd * width_of rt) ++ u64n asz ++ concat (fd_data fd) ->
    good_field rt (width_of rt) meta fd -> meta_ok meta -> fits (Z.of_nat asz) ->
    (prod (fd_cells fd) <= asz)%nat ->
    load fo unpack mtrue f None ctx
    = Ok (mk_loaded
            (grid_for (fd_cells fd) (List.map (fdec fo (width_of rt)) (fd_lower fd))
                      (List.map (fdec fo (width_of rt)) (fd_upper fd)))
            (mk_nda (fd_cells fd ++ [fd_nc fd]) (List.map (fdec fo (width_of rt)) (fd_data fd)))
            (List.map Z.of_nat (fd_cells fd))
            (List.map (fdec fo (width_of rt)) (fd_lower fd))
            (List.map (fdec fo (width_of rt)) (fd_upper fd))
            (Z.of_nat (fd_nc fd)) (ctx_after ctx meta)).
  Proof.
    intros Hf (Hd & Hwd & Hld) Hmeta Hsz Hle.
    pose proof Hd as (Hrt & Hll & Hlu & Hwl & Hwu & Hm & Hnd & Hcells & Hnc & _).
    assert (Hwpos : (0 < width_of rt)%nat) by (unfold width_of; destruct (rt =? 1); lia).
    pose proof (At_0 f) as HA. rewrite Hf in HA at 2.
    assert (Hc : is_compatible f = true) by (eapply is_compatible_header; eauto).
    unfold load.
    destruct (read_header_at (init_rst ctx) 1 meta rt _ Hc HA) as (o1 & -> & _ & HA1); auto;
      try (unfold fits; lia).
    cbn [bind r_type r_ver]. simpl (_ || _)%bool. cbv iota.
    unfold read_domain.
    edestruct (read_domain_raw_at (mk_rst o1 (if rt =? 1 then 4%nat else r_w (init_rst ctx)) 1 1
                 (ctx_after (r_ctx (init_rst ctx)) meta)) rt fd meta) as (o2 & -> & HA2);
      [exact HA1 | reflexivity | exact Hd | exact Hsz |].
    cbn [bind r_type r_ver r_w r_ctx]. simpl (_ || _)%bool. cbv iota.
    unfold read_t1, get_data. cbn [negb r_w r_off d_asize d_nc d_cells d_lower d_upper].
    change (if rt =? 1 then 4%nat else r_w (init_rst ctx)) with (width_of rt).
    rewrite (fromfile_at_end f (width_of rt) o2 (fd_data fd)); auto; [|nia].
    cbn [bind]. rewrite map_snoc_of_nat, reshape_ok.
    2:{ rewrite map_length, Hld, prod_app. unfold prod at 3. simpl. lia. }
    cbn [bind fst shape]. rewrite adj_ok; [|now rewrite map_length|now rewrite map_length|eauto].
    cbn [bind]. rewrite grid_ok. cbn [bind].
    destruct (combine_proj (List.map Z.of_nat (fd_cells fd))
       (List.map (fdec fo (width_of rt)) (fd_lower fd))
       (List.map (fdec fo (width_of rt)) (fd_upper fd))) as (-> & -> & ->);
      [now rewrite !map_length | now rewrite !map_length |].
    reflexivity.
  Qed.

  (** ** Reading a sub-block *)

  (** One dimension of a block: leading skip, cells read, trailing skip. *)
  Definition bdim := (nat * nat * nat)%type.
  Definition b_ext (b : bdim) : nat := (fst (fst b) + snd (fst b) + snd b)%nat.
  Definition b_sel (b : bdim) : list nat := seq (fst (fst b)) (snd (fst b)).

  (** The argument of [get_block] for these dimensions. *)
  Fixpoint bdims (bs : list bdim) (onc : nat) : list (Z * Z * Z * Z) :=
    match bs with
    | [] => []
    | b :: bs' =>
        (Z.of_nat (fst (fst b)), Z.of_nat (snd (fst b)), Z.of_nat (snd b),
         Z.of_nat (prod (List.map b_ext bs' ++ [onc]))) :: bdims bs' onc
    end.

  Lemma firstn_map' {A B} (g : A -> B) n l : firstn n (List.map g l) = List.map g (firstn n l).
  Proof. apply firstn_map. Qed.

  Lemma all_width_firstn w n l : all_width w l -> all_width w (firstn n l).
  Proof. intros H. apply Forall_forall. intros x Hx. rewrite <- (firstn_skipn n l) in H.
    apply Forall_app in H as [H _]. rewrite Forall_forall in H. auto. Qed.

  Lemma all_width_skipn w n l : all_width w l -> all_width w (skipn n l).
  Proof. intros H. rewrite <- (firstn_skipn n l) in H. now apply Forall_app in H. Qed.

  Lemma At_skip w off xs rest n :
    At f off (concat xs ++ rest) -> all_width w xs -> (n <= length xs)%nat ->
    At f (off + Z.of_nat (n * w)) (concat (skipn n xs) ++ rest).
  Proof.
    intros HA Hw Hn. rewrite <- (firstn_skipn n xs), concat_app, <- app_assoc in HA.
    eapply At_step; eauto. rewrite (concat_length w) by now apply all_width_firstn.
    rewrite firstn_length. f_equal. f_equal. lia.
  Qed.

  Lemma take_flat_1 {A} (n a m : nat) (l : list A) :
    length l = n -> (a + m <= n)%nat -> take_flat [n] [seq a m] l = firstn m (skipn a l).
  Proof.
    intros Hl Hm. simpl. unfold prod; simpl.
    revert a l n Hl Hm. induction m as [|m IH]; intros a l n Hl Hm; [reflexivity|].
    cbn [seq flat_map]. rewrite (IH (S a) l n) by lia.
    rewrite Nat.mul_1_r.
    destruct (skipn a l) as [|x r] eqn:E.
    - apply (f_equal (@length A)) in E. rewrite skipn_length in E. simpl in E. lia.
    - replace (S a) with (a + 1)%nat by lia. rewrite <- skipn_skipn_add, E. reflexivity.
  Qed.

  Lemma skipn_firstn_comm' {A} m n (l : list A) : skipn m (firstn n l) = firstn (n - m) (skipn m l).
  Proof. apply skipn_firstn_comm. Qed.

  Lemma get_block_at w onc c0 nc c1 bs :
    (0 < w)%nat -> (c0 + nc + c1 = onc)%nat ->
    forall off xs rest,
    At f off (concat xs ++ rest) -> all_width w xs ->
    length xs = prod (List.map b_ext bs ++ [onc]) ->
    get_block fo f w (bdims bs onc) (Z.of_nat c0) (Z.of_nat nc) (Z.of_nat c1) off
    = Ok (off + Z.of_nat (length xs * w),
          List.map (fdec fo w)
            (take_flat (List.map b_ext bs ++ [onc]) (List.map b_sel bs ++ [seq c0 nc]) xs)).
  Proof.
    intros Hw Honc. induction bs as [|[[s0 n] s1] bs IH]; intros off xs rest HA Hx Hl.
    - simpl List.map in Hl. unfold prod in Hl; simpl in Hl. rewrite Nat.mul_1_r in Hl.
      cbn [bdims get_block].
      assert (HA1 : At f (off + Z.of_nat (c0 * w)) (concat (skipn c0 xs) ++ rest))
        by (apply At_skip; auto; lia).
      rewrite Nat2Z.inj_mul in HA1.
      rewrite <- (firstn_skipn nc (skipn c0 xs)), concat_app, <- app_assoc in HA1.
      destruct (fromfile_at f w _ _ _ (Z.of_nat nc) HA1) as [E _].
      + now apply all_width_firstn, all_width_skipn.
      + exact Hw.
      + rewrite firstn_length, skipn_length. lia.
      + rewrite E. cbn [bind]. rewrite map_length, firstn_length, skipn_length.
        replace (Nat.min nc (length xs - c0)) with nc by lia. rewrite Z.eqb_refl. cbn [bind].
        change (List.map b_ext [] ++ [onc]) with [onc].
        change (List.map b_sel [] ++ [seq c0 nc]) with [seq c0 nc].
        rewrite (take_flat_1 onc) by lia. f_equal. f_equal. nia.
    - cbn [bdims get_block fst snd].
      set (p := prod (List.map b_ext bs ++ [onc])) in *.
      assert (Hlp : length xs = ((s0 + n + s1) * p)%nat).
      { rewrite Hl. reflexivity. }
      set (T := fun ys : list (list Z) => take_flat (List.map b_ext bs ++ [onc]) (List.map b_sel bs ++ [seq c0 nc]) ys) in *.
      assert (Hloop : forall k o ys rest', At f o (concat ys ++ rest') -> all_width w ys ->
        length ys = (k * p)%nat ->
        (fix loop (k : nat) (o : Z) : res (Z * list F) :=
                     match k with
                     | O => Ok (o, [])
                     | S k' => let* a := get_block fo f w (bdims bs onc) (Z.of_nat c0) (Z.of_nat nc) (Z.of_nat c1) o in
                               let* b := loop k' (fst a) in
                               Ok (fst b, snd a ++ snd b)
                     end) k o
        = Ok (o + Z.of_nat (k * p * w),
              List.map (fdec fo w) (flat_map (fun i => T (firstn p (skipn (i * p) ys))) (seq 0 k)))).
      { induction k as [|k IHk]; intros o ys rest' HAy Hy Hly.
        - simpl. rewrite Z.add_0_r. reflexivity.
        - pose proof HAy as HAy'.
          rewrite <- (firstn_skipn p ys), concat_app, <- app_assoc in HAy'.
          rewrite (IH o (firstn p ys) _ HAy').
          2:{ now apply all_width_firstn. }
          2:{ rewrite firstn_length. lia. }
          cbn [bind fst snd].
          replace (length (firstn p ys)) with p by (rewrite firstn_length; lia).
          assert (HA2 : At f (o + Z.of_nat (p * w)) (concat (skipn p ys) ++ rest')).
          { apply At_skip; auto. lia. }
          rewrite (IHk _ (skipn p ys) rest' HA2).
          2:{ now apply all_width_skipn. }
          2:{ rewrite skipn_length. lia. }
          cbn [bind fst snd]. f_equal. f_equal; [nia|].
          change (seq 0 (S k)) with (0%nat :: seq 1 k). cbn [flat_map].
          rewrite map_app. f_equal.
          rewrite <- seq_shift. rewrite !flat_map_concat_map', map_map.
          do 2 f_equal. apply map_ext. intros i. f_equal. f_equal.
          now rewrite skipn_skipn_add. }
      assert (HA1 : At f (off + Z.of_nat (s0 * p * w)) (concat (skipn (s0 * p) xs) ++ rest)).
      { apply At_skip; auto. nia. }
      rewrite Nat2Z.id.
      replace (off + Z.of_nat s0 * Z.of_nat p * Z.of_nat w) with (off + Z.of_nat (s0 * p * w)) by nia.
      rewrite <- (firstn_skipn (n * p) (skipn (s0 * p) xs)), concat_app, <- app_assoc in HA1.
      rewrite (Hloop n _ _ _ HA1).
      2:{ now apply all_width_firstn, all_width_skipn. }
      2:{ rewrite firstn_length, skipn_length. nia. }
      cbn [bind fst snd]. f_equal. f_equal; [nia|]. f_equal.
      cbn [List.map app take_flat]. fold p.
      replace (b_sel (s0, n, s1)) with (seq (s0 + 0) n) by (unfold b_sel; simpl; f_equal; lia).
      rewrite !flat_map_concat_map'. f_equal.
      apply nth_error_ext. intros k. rewrite !nth_error_map, !nth_error_seq.
      destruct (Nat.ltb_spec k n) as [Lk|]; [|reflexivity]. cbn [option_map]. f_equal.
      unfold T. f_equal. rewrite skipn_firstn_comm', firstn_firstn, skipn_skipn_add.
      replace (Nat.min p (n * p - (0 + k) * p)) with p by nia.
      f_equal. f_equal. nia.
  Qed.

  (** ** Partial load of a range *)

  Lemma map2_map {A B C D} (g : A -> B) (h : A -> C) (k : B -> C -> D) (l : list A) :
    map2 k (List.map g l) (List.map h l) = List.map (fun x => k (g x) (h x)) l.
  Proof. induction l; simpl; auto. now rewrite IHl. Qed.

  Lemma combine_map {A B C} (g : A -> B) (h : A -> C) (l : list A) :
    combine (List.map g l) (List.map h l) = List.map (fun x => (g x, h x)) l.
  Proof. induction l; simpl; auto. now rewrite IHl. Qed.

  (** One dimension: [p_n] cells of which [p_a .. p_b-1] are wanted, and the
      stored range [p_lo .. p_up] (1-based). *)
  Record pd := mk_pd { p_n : nat; p_a : nat; p_b : nat; p_lo : nat; p_up : nat }.
  Definition pd_ok (d : pd) : Prop :=
    (p_a d < p_b d <= p_n d)%nat /\ (1 <= p_lo d <= p_up d)%nat /\ (p_up d <= p_n d)%nat.
  Definition p_ext d := (p_up d + 1 - p_lo d)%nat.
  Definition p_s0 d := (p_a d + 1 - p_lo d)%nat.
  Definition p_s1 d := (p_up d - p_b d)%nat.
  Definition p_len d := (p_ext d - p_s0 d - p_s1 d)%nat.
  Definition p_empty d := (p_ext d <=? p_s0 d + p_s1 d)%nat.
  Definition p_at d := (p_lo d - 1 - p_a d)%nat.
  Definition p_bdim d : bdim := (p_s0 d, p_len d, p_s1 d).
  Definition p_sel d := seq (p_s0 d) (p_len d).

  (** The domain a partial load with these cuts produces. *)
  Definition cut_domain (dd : @domain F) (D : list pd) (onc ca cb : nat) : Prop :=
    d_goff dd = List.map (fun d => (Z.of_nat (p_a d), Z.of_nat (p_n d) - Z.of_nat (p_b d))) D /\
    d_orig dd = List.map (fun d => Z.of_nat (p_n d)) D /\
    d_orig_nc dd = Z.of_nat onc /\
    d_nc dd = Z.of_nat (cb - ca) /\
    d_goff_c dd = (Z.of_nat ca, Z.of_nat onc - Z.of_nat cb).

  Lemma zprod_pos_map (D : list pd) (g : pd -> Z) : (forall d, In d D -> 0 <= g d) -> 0 <= zprod (List.map g D).
  Proof.
    induction D as [|d D IH]; intros H; [cbv; discriminate|].
    change (zprod (List.map g (d :: D))) with (g d * zprod (List.map g D)).
    apply Z.mul_nonneg_nonneg; [apply H; now left|apply IH; intros; apply H; now right].
  Qed.

  Lemma get_data_partial dd D onc ca cb w count off xs rest :
    cut_domain dd D onc ca cb -> Forall pd_ok D -> (ca < cb <= onc)%nat -> (0 < w)%nat ->
    At f off (concat xs ++ rest) -> all_width w xs ->
    length xs = prod (List.map p_ext D ++ [onc]) -> count = Z.of_nat (length xs) ->
    get_data fo f true dd w count
      (Some (List.map (fun d => Z.of_nat (p_lo d)) D, List.map (fun d => Z.of_nat (p_up d)) D)) off
    = Ok (if existsb p_empty D
          then (None, [], off + count * Z.of_nat w)
          else (Some (mk_nda (List.map p_len D ++ [(cb - ca)%nat])
                        (List.map (fdec fo w)
                          (take_flat (List.map p_ext D ++ [onc])
                                     (List.map p_sel D ++ [seq ca (cb - ca)]) xs))),
                List.map (fun d => (Z.of_nat (p_at d), Z.of_nat (p_at d + p_len d))) D,
                off + count * Z.of_nat w)).
  Proof.
    intros (Hg & Ho & Honc & Hnc & Hgc) HD Hc Hw HA Hx Hl ->.
    unfold get_data. cbn [negb]. rewrite Hg, Ho, Honc, Hnc, Hgc. cbn [fst snd].
    rewrite !combine_map, !map2_map, !combine_map, !map2_map. cbn [fst snd].
    rewrite Forall_forall in HD.
    assert (Hcells : List.map (fun x => Z.of_nat (p_up x) - Z.of_nat (p_lo x) + 1
              - clip 0 (Z.of_nat (p_n x) - Z.of_nat (p_b x) - (Z.of_nat (p_n x) - Z.of_nat (p_up x)))
              - clip 0 (Z.of_nat (p_a x) - (Z.of_nat (p_lo x) - 1))) D
            = List.map (fun d => Z.of_nat (p_ext d) - Z.of_nat (p_s0 d) - Z.of_nat (p_s1 d)) D).
    { apply map_ext_in. intros d Hd. specialize (HD d Hd). unfold pd_ok in HD.
      unfold p_ext, p_s0, p_s1, clip. lia. }
    rewrite Hcells.
    assert (Hemp : existsb (fun c => c <? 1)
        (List.map (fun d => Z.of_nat (p_ext d) - Z.of_nat (p_s0 d) - Z.of_nat (p_s1 d)) D)
        = existsb p_empty D).
    { clear. induction D as [|d D IH]; simpl; auto. rewrite IH. f_equal.
      unfold p_empty. destruct (Z.ltb_spec (Z.of_nat (p_ext d) - Z.of_nat (p_s0 d) - Z.of_nat (p_s1 d)) 1),
        (Nat.leb_spec (p_ext d) (p_s0 d + p_s1 d)); auto; lia. }
    rewrite Hemp. destruct (existsb p_empty D) eqn:E; [reflexivity|].
    assert (Hne : forall d, In d D -> (p_s0 d + p_s1 d < p_ext d)%nat).
    { intros d Hd. destruct (p_empty d) eqn:Ed.
      - assert (existsb p_empty D = true) by (apply existsb_exists; eauto). congruence.
      - unfold p_empty in Ed. apply Nat.leb_gt in Ed. lia. }
    destruct (Z.ltb_spec (zprod (List.map (fun d =>
       Z.of_nat (p_ext d) - Z.of_nat (p_s0 d) - Z.of_nat (p_s1 d)) D) * Z.of_nat (cb - ca)) 0) as [L|_].
    { exfalso. assert (0 <= zprod (List.map (fun d =>
       Z.of_nat (p_ext d) - Z.of_nat (p_s0 d) - Z.of_nat (p_s1 d)) D)).
      { apply zprod_pos_map. intros d Hd. specialize (Hne d Hd). lia. }
      nia. }
    assert (Hdims : map2 (fun gc p => (fst (fst gc), snd gc, snd (fst gc), p))
       (List.map (fun x : pd => ((clip 0 (Z.of_nat (p_a x) - (Z.of_nat (p_lo x) - 1)),
                 clip 0 (Z.of_nat (p_n x) - Z.of_nat (p_b x) - (Z.of_nat (p_n x) - Z.of_nat (p_up x)))),
                 Z.of_nat (p_up x) - Z.of_nat (p_lo x) + 1
              - clip 0 (Z.of_nat (p_n x) - Z.of_nat (p_b x) - (Z.of_nat (p_n x) - Z.of_nat (p_up x)))
              - clip 0 (Z.of_nat (p_a x) - (Z.of_nat (p_lo x) - 1)))) D)
       (tails_prod (List.map (fun x => Z.of_nat (p_up x) - Z.of_nat (p_lo x) + 1) D ++ [Z.of_nat onc]))
       = bdims (List.map p_bdim D) onc
       /\ List.map b_ext (List.map p_bdim D) = List.map p_ext D
       /\ zprod (List.map (fun x => Z.of_nat (p_up x) - Z.of_nat (p_lo x) + 1) D ++ [Z.of_nat onc])
          = Z.of_nat (prod (List.map p_ext D ++ [onc]))).
    { clear - HD Hne. induction D as [|d D IH].
      - split; [reflexivity|]. split; [reflexivity|].
        cbn [List.map app]. change [Z.of_nat onc] with (List.map Z.of_nat [onc]).
        apply zprod_of_nat.
      - assert (HdO := HD d (or_introl eq_refl)). assert (HdN := Hne d (or_introl eq_refl)).
        destruct IH as (IH1 & IH2 & IH3); [intros; apply HD; now right|intros; apply Hne; now right|].
        unfold pd_ok in HdO. split; [|split].
        + cbn [List.map app tails_prod map2 bdims fst snd]. rewrite IH1, IH2, IH3. f_equal.
          unfold p_bdim; cbn [fst snd].
          replace (clip 0 (Z.of_nat (p_a d) - (Z.of_nat (p_lo d) - 1))) with (Z.of_nat (p_s0 d))
            by (unfold p_s0, clip; lia).
          replace (clip 0 (Z.of_nat (p_n d) - Z.of_nat (p_b d) - (Z.of_nat (p_n d) - Z.of_nat (p_up d))))
            with (Z.of_nat (p_s1 d)) by (unfold p_s1, clip; lia).
          replace (Z.of_nat (p_up d) - Z.of_nat (p_lo d) + 1 - Z.of_nat (p_s1 d) - Z.of_nat (p_s0 d))
            with (Z.of_nat (p_len d)) by (unfold p_len, p_ext in *; lia). reflexivity.
        + cbn [List.map]. rewrite IH2. f_equal. unfold b_ext, p_bdim, p_len; cbn [fst snd]. lia.
        + cbn [List.map app].
          match goal with |- zprod (?a :: ?l) = _ => change (zprod (a :: l)) with (a * zprod l) end.
          rewrite IH3.
          match goal with |- _ = Z.of_nat (prod (?a :: ?l)) => change (prod (a :: l)) with (a * prod l)%nat end.
          rewrite Nat2Z.inj_mul. f_equal. unfold p_ext. lia. }
    destruct Hdims as (Hd1 & Hd2 & _). rewrite Hd1.
    assert (Hsel : List.map b_sel (List.map p_bdim D) = List.map p_sel D)
      by (rewrite map_map; reflexivity).
    replace (clip 0 (Z.of_nat ca)) with (Z.of_nat ca) by (unfold clip; lia).
    replace (clip 0 (Z.of_nat onc - Z.of_nat cb)) with (Z.of_nat (onc - cb)) by (unfold clip; lia).
    rewrite (get_block_at w onc ca (cb - ca) (onc - cb) (List.map p_bdim D) Hw ltac:(lia) off xs rest HA Hx)
      by (now rewrite Hd2).
    cbn [bind fst snd].
    assert (Hlo : forall d, clip 1 (Z.of_nat (p_lo d) - Z.of_nat (p_a d)) = Z.of_nat (p_at d) + 1)
      by (intros d; unfold clip, p_at; lia).
    assert (Hup : forall x, In x D -> clip 1 (Z.of_nat (p_up x) - Z.of_nat (p_a x) -
               clip 0 (Z.of_nat (p_n x) - Z.of_nat (p_b x) - (Z.of_nat (p_n x) - Z.of_nat (p_up x))))
                  = Z.of_nat (p_at x + p_len x)).
    { intros d Hd. specialize (HD d Hd). specialize (Hne d Hd). unfold pd_ok in HD.
      unfold clip, p_at, p_len, p_ext, p_s0, p_s1 in *. lia. }
    match goal with |- context [reshape (List.map ?g D ++ _) _] =>
      assert (Hsh : List.map g D ++ [Z.of_nat (cb - ca)]
                  = List.map Z.of_nat (List.map p_len D ++ [(cb - ca)%nat])) end.
    { rewrite map_app, map_map. f_equal. apply map_ext_in. intros d Hd. cbv beta.
      rewrite (Hup d Hd), Hlo. lia. }
    rewrite Hsh, reshape_ok.
    2:{ rewrite map_length, Hd2, Hsel. rewrite take_flat_length.
        - rewrite map_app, map_map. cbn [List.map]. rewrite seq_length.
          f_equal. f_equal. apply map_ext. intros d. unfold p_sel. now rewrite seq_length.
        - now rewrite !app_length, !map_length.
        - apply Forall2_app.
          + clear - HD Hne. induction D as [|d D IH]; simpl; constructor.
            * intros i Hi. unfold p_sel in Hi. apply in_seq in Hi.
              specialize (Hne d (or_introl eq_refl)). unfold p_len in Hi. lia.
            * apply IH; intros; [apply HD|apply Hne]; now right.
          + repeat constructor. intros i Hi. apply in_seq in Hi. lia.
        - exact Hl. }
    cbn [bind]. rewrite Hd2, Hsel. f_equal. f_equal; [|lia]. f_equal.
    apply map_ext_in. intros d Hd. rewrite (Hup d Hd), Hlo. f_equal. lia.
  Qed.
End ReaderProofs.
