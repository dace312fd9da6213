(** * C118: the metadata of a .gkyl file are those its MessagePack bytes stand for *)
From Coq Require Import String Ascii List ZArith Bool Lia.
From Verif Require Import Prelude PreludeFacts NdArray Extract_Model Extract_Props Gkyl_Model Gkyl_Spec Gkyl_Proofs Gkyl_Props
  Msgpack_Model Msgpack_Spec Msgpack_Proofs.
Import ListNotations.
Open Scope string_scope. Open Scope list_scope. Open Scope Z_scope.

(** Every encoding is decoded to the value it encodes. *)
Theorem C118_decode v b : encodes v b -> unpackb b = Some v.
Proof.
  intros H. destruct parse_encoded as (P & _). destruct (P v b H) as (_ & Q). unfold unpackb.
  rewrite <- (app_nil_r b) at 2. rewrite Q by lia. reflexivity.
Qed.
Print Assumptions C118_decode.

(** Only encodings are. *)
Theorem C118_only v b : Forall byte b -> unpackb b = Some v -> encodes v b.
Proof.
  intros HB. unfold unpackb. destruct (parse (S (length b)) b) as [[w [|x r]]|] eqn:E; try discriminate.
  intros X; inversion X; subst. destruct (parse_sound _ _ _ _ HB E) as (c & -> & Hc). now rewrite app_nil_r.
Qed.
Print Assumptions C118_only.

(** Bytes encode one value, and are not the beginning of another encoding. *)
Theorem C118_unique v w b c : encodes v b -> encodes w (b ++ c) -> c = [] /\ v = w.
Proof.
  intros Hv Hw. destruct parse_encoded as (P & _). destruct (P v b Hv) as (_ & Q1). destruct (P w _ Hw) as (_ & Q2).
  specialize (Q1 (length (b ++ c)) c). rewrite app_length in Q1. specialize (Q1 ltac:(lia)).
  specialize (Q2 (length (b ++ c)) [] (le_n _)). rewrite app_nil_r in Q2. rewrite app_length in Q2. rewrite Q1 in Q2.
  inversion Q2; subst. now split.
Qed.
Print Assumptions C118_unique.

(** Bytes after the object make the block unreadable. *)
Theorem C118_trailing v b c : encodes v b -> c <> [] -> unpackb (b ++ c) = None.
Proof.
  intros Hv Hc. destruct parse_encoded as (P & _). destruct (P v b Hv) as (_ & Q). unfold unpackb.
  rewrite Q by (rewrite app_length; lia). destruct c; [contradiction|reflexivity].
Qed.
Print Assumptions C118_trailing.

(** The entries with a text as key, in order. *)
Definition named (d : list (mkey * mval)) : list (string * mval) :=
  flat_map (fun kv => match fst kv with (false, s) => [(s, snd kv)] | (true, _) => [] end) d.
Lemma named_entries d : text_entries d = named d.
Proof. unfold text_entries, named. induction d as [|[[[|] s] v] d IH]; cbn; [reflexivity|exact IH|]. now rewrite <- IH. Qed.

Section File.
  Context {F : Type} (fo : fops F).

  (** A file whose metadata block encodes a dictionary: the context is the given one with
      the entries assigned in order. *)
  Theorem C118_metadata rt meta d fd ctx : encodes (MMap d) meta -> good_field rt (width_of rt) meta fd ->
    exists g, load fo unpack (MBool true) (field_bytes rt meta fd) None ctx = Ok g /\
      forall k, aget k (l_ctx g) = meta_lookup (MBool true) ctx (Some (Some (named d))) k.
  Proof.
    intros He Hg. assert (Eu : unpack meta = Some (Some (named d))) by (unfold unpack; rewrite (C118_decode _ _ He); now rewrite named_entries).
    destruct (C02_documented_file F mval fo unpack (MBool true) rt meta fd ctx Hg (or_intror (ex_intro _ _ Eu))) as (_ & g & El & _ & _ & _ & _ & _ & _ & Hk & _).
    exists g. split; [exact El|]. intros k. rewrite Hk, Eu. destruct meta; [|reflexivity].
    destruct parse_encoded as (P & _). destruct (P _ _ He) as (L & _). cbn in L. lia.
  Qed.

  (** A block that encodes something else is skipped. *)
  Theorem C118_not_dictionary rt meta v fd ctx : encodes v meta -> (forall d, v <> MMap d) -> good_field rt (width_of rt) meta fd ->
    exists g, load fo unpack (MBool true) (field_bytes rt meta fd) None ctx = Ok g /\ forall k, aget k (l_ctx g) = aget k ctx.
  Proof.
    intros He Hd Hg. assert (Eu : unpack meta = Some None) by (unfold unpack; rewrite (C118_decode _ _ He); destruct v; try reflexivity; exfalso; now apply (Hd d)).
    destruct (C02_documented_file F mval fo unpack (MBool true) rt meta fd ctx Hg (or_intror (ex_intro _ _ Eu))) as (_ & g & El & _ & _ & _ & _ & _ & _ & Hk & _).
    exists g. split; [exact El|]. intros k. rewrite Hk, Eu. now destruct meta.
  Qed.

  (** A block that encodes nothing makes every load of the file fail, whatever follows. *)
  Theorem C118_unreadable ft meta rest cuts ctx : Forall byte meta -> meta <> [] -> (forall v, ~ encodes v meta) ->
    fits ft -> fits (Z.of_nat (length meta)) ->
    load fo unpack (MBool true) (header_bytes ft meta ++ rest) cuts ctx = Err ValueError.
  Proof.
    intros HB Hn Hv Hft Hm. set (f := header_bytes ft meta ++ rest).
    assert (Eu : unpack meta = None).
    { unfold unpack. destruct (unpackb meta) as [v|] eqn:E; [|reflexivity]. exfalso. apply (Hv v). now apply C118_only. }
    assert (Hc : is_compatible f = true) by (apply (is_compatible_header f ft meta rest); apply At_0).
    assert (HA : At f 0 (header_bytes ft meta ++ rest)) by apply At_0.
    unfold load, read_header. rewrite Hc. unfold read_magic_header. cbn [r_off init_rst].
    unfold header_bytes in HA. rewrite <- !app_assoc in HA. change (of_ascii "gkyl0") with magic in HA.
    eapply At_step in HA; [|reflexivity]. change (0 + Z.of_nat (length magic)) with 5 in HA.
    assert (H1 : fits 1) by (unfold fits; lia). change (0 + 5) with 5.
    destruct (read_i64_at _ _ _ _ HA H1) as [-> HA1]. cbn [bind].
    destruct (read_i64_at _ _ _ _ HA1 Hft) as [-> HA2]. cbn [bind].
    destruct (read_i64_at _ _ _ _ HA2 Hm) as [E HA3].
    replace (5 + 16) with (5 + 8 + 8) by lia. rewrite E. cbn [bind].
    destruct HA3 as [_ Hskip]. change (5 + 24) with (5 + 8 + 8 + 8).
    destruct (Z.ltb_spec 0 (Z.of_nat (length meta))) as [L|L]; [|destruct meta; [contradiction|cbn in L; lia]].
    rewrite Hskip, Nat2Z.id, firstn_app_exact by auto. rewrite Eu. reflexivity.
  Qed.
End File.
Print Assumptions C118_metadata.
Print Assumptions C118_not_dictionary.
Print Assumptions C118_unreadable.

(** What that means for single entries. *)
Lemma dict_nodup ps d : is_dict ps d -> NoDup (List.map fst d).
Proof. intros (E & _). rewrite E. apply firsts_nodup. Qed.
Lemma encoded_nodup d b : encodes (MMap d) b -> NoDup (List.map fst d).
Proof. intros H. inversion H as [? ? Hp| | | | |? ? ? ? ? ? Hd]; subst; [inversion Hp|]. now apply dict_nodup in Hd. Qed.

Lemma in_named d s v : In (s, v) (named d) <-> In ((false, s), v) d.
Proof.
  unfold named. rewrite in_flat_map. split.
  - intros ([[[|] s'] v'] & Hi & Hx); cbn in Hx; [contradiction|]. destruct Hx as [X|[]]. inversion X; subst. exact Hi.
  - intros H. exists ((false, s), v). split; [exact H|]. now left.
Qed.

(** The last assignment to a name, when all assignments to it give the same value. *)
Lemma last_assign_only {M} k (v : M) l : In (k, v) l -> (forall w, In (k, w) l -> w = v) -> last_assign k l = Some v.
Proof.
  intros Hin Hu. unfold last_assign. destruct (find (fun kv => String.eqb k (fst kv)) (rev l)) as [[k' w]|] eqn:E.
  - apply find_some in E as (E1 & E2). cbn [fst] in E2. apply String.eqb_eq in E2. subst k'. apply in_rev in E1. cbn [snd]. f_equal. now apply Hu.
  - exfalso. rewrite in_rev in Hin. apply (find_none _ _ E) in Hin. cbn [fst] in Hin. now rewrite String.eqb_refl in Hin.
Qed.

Lemma nodup_value (d : list (mkey * mval)) k v w : NoDup (List.map fst d) -> In (k, v) d -> In (k, w) d -> v = w.
Proof.
  induction d as [|[k0 v0] d IH]; cbn [List.map fst In]; intros ND; [intros []|]. inversion ND as [|? ? Hn HN]; subst.
  intros [A|A] [B|B].
  - congruence.
  - exfalso. inversion A; subst. apply Hn. now apply (in_map fst) in B.
  - exfalso. inversion B; subst. apply Hn. now apply (in_map fst) in A.
  - now apply IH.
Qed.

Lemma in_assigns {M} (t : M) x w l : In (x, w) (flat_map (meta_assigns t) l) ->
  (exists k, In (k, w) l /\ norm_key k = x) \/ (x = "is_modal" /\ w = t).
Proof.
  rewrite in_flat_map. intros ([k v] & Hi & Hx). unfold meta_assigns in Hx. cbn [fst snd In] in Hx. destruct Hx as [X|X].
  - inversion X; subst. left. now exists k.
  - right. destruct (String.eqb (norm_key k) "basis_type"); [|contradiction]. destruct X as [X|[]]. now inversion X.
Qed.
Lemma norm_inv k x : norm_key k = x -> k = x \/ (x = "poly_order" /\ k = "polyOrder") \/ (x = "basis_type" /\ k = "basisType").
Proof.
  unfold norm_key. destruct (String.eqb_spec k "polyOrder") as [->|_]; [intros <-; now right; left|].
  destruct (String.eqb_spec k "basisType") as [->|_]; intros <-; [now right; right|now left].
Qed.

Section Entries.
  Context {F : Type} (fo : fops F) (rt : Z) (meta : list Z) (d : list (mkey * mval)) (fd : field) (ctx : list (string * mval)).
  Context (He : encodes (MMap d) meta) (Hg : good_field rt (width_of rt) meta fd).

  Lemma entry_value k x v : In ((false, k), v) d -> norm_key k = x -> x <> "is_modal" ->
    (forall k' w, In ((false, k'), w) d -> norm_key k' = x -> k' = k) ->
    exists g, load fo unpack (MBool true) (field_bytes rt meta fd) None ctx = Ok g /\ aget x (l_ctx g) = Some v.
  Proof.
    intros Hin Hx Hm Hu. destruct (C118_metadata fo rt meta d fd ctx He Hg) as (g & El & Hk). exists g. split; [exact El|]. rewrite Hk. unfold meta_lookup.
    rewrite (last_assign_only x v); [reflexivity| |].
    - apply in_flat_map. exists (k, v). split; [now apply in_named|]. left. cbn [fst snd]. now rewrite Hx.
    - intros w Hw. apply in_assigns in Hw as [(k' & Hk' & Hn)|(X & _)]; [|contradiction]. apply in_named in Hk'. rewrite (Hu k' w Hk' Hn) in Hk'.
      exact (nodup_value d _ _ _ (encoded_nodup _ _ He) Hk' Hin).
  Qed.

  (** An entry with any other name is found under that name; a polynomial order and a
      basis under either spelling, if it is written once; a basis makes the data modal. *)
  Theorem C118_entry k v : In ((false, k), v) d -> ~ In k ["polyOrder"; "poly_order"; "basisType"; "basis_type"; "is_modal"] ->
    exists g, load fo unpack (MBool true) (field_bytes rt meta fd) None ctx = Ok g /\ aget k (l_ctx g) = Some v.
  Proof.
    intros Hin Hs. cbn [In] in Hs.
    assert (N : norm_key k = k).
    { unfold norm_key. destruct (String.eqb_spec k "polyOrder") as [->|_]; [exfalso; tauto|]. destruct (String.eqb_spec k "basisType") as [->|_]; [exfalso; tauto|reflexivity]. }
    apply (entry_value k k v Hin N).
    - intros ->. tauto.
    - intros k' w _ Hk'. apply norm_inv in Hk' as [A|[(-> & _)|(-> & _)]]; [exact A|exfalso; tauto|exfalso; tauto].
  Qed.

  Theorem C118_poly_order k v : In k ["polyOrder"; "poly_order"] -> In ((false, k), v) d ->
    (forall k' w, In k' ["polyOrder"; "poly_order"] -> In ((false, k'), w) d -> k' = k) ->
    exists g, load fo unpack (MBool true) (field_bytes rt meta fd) None ctx = Ok g /\ aget "poly_order" (l_ctx g) = Some v.
  Proof.
    intros Hs Hin Hu. apply (entry_value k "poly_order" v Hin).
    - destruct Hs as [<-|[<-|[]]]; reflexivity.
    - discriminate.
    - intros k' w Hk' Hn. apply (Hu k' w); [|exact Hk']. apply norm_inv in Hn as [->|[(_ & ->)|(X & _)]]; [cbn; tauto|cbn; tauto|discriminate X].
  Qed.

  Theorem C118_basis k v : In k ["basisType"; "basis_type"] -> In ((false, k), v) d ->
    (forall k' w, In k' ["basisType"; "basis_type"] -> In ((false, k'), w) d -> k' = k) ->
    exists g, load fo unpack (MBool true) (field_bytes rt meta fd) None ctx = Ok g /\ aget "basis_type" (l_ctx g) = Some v /\
      ((forall w, ~ In ((false, "is_modal"), w) d) -> aget "is_modal" (l_ctx g) = Some (MBool true)).
  Proof.
    intros Hs Hin Hu.
    assert (Nk : norm_key k = "basis_type") by (destruct Hs as [<-|[<-|[]]]; reflexivity).
    destruct (entry_value k "basis_type" v Hin Nk) as (g & El & Hv); [discriminate| |].
    - intros k' w Hk' Hn. apply (Hu k' w); [|exact Hk']. apply norm_inv in Hn as [->|[(X & _)|(_ & ->)]]; [cbn; tauto|discriminate X|cbn; tauto].
    - exists g. split; [exact El|]. split; [exact Hv|]. intros Hno.
      destruct (C118_metadata fo rt meta d fd ctx He Hg) as (g' & El' & Hk). rewrite El in El'. inversion El'; subst g'. rewrite Hk. unfold meta_lookup.
      rewrite (last_assign_only "is_modal" (MBool true)); [reflexivity| |].
      + apply in_flat_map. exists (k, v). split; [now apply in_named|]. unfold meta_assigns. cbn [fst snd]. rewrite Nk. right. now left.
      + intros w Hw. apply in_assigns in Hw as [(k' & Hk' & Hn)|(_ & ->)]; [|reflexivity]. apply in_named in Hk'.
        apply norm_inv in Hn as [->|[(X & _)|(X & _)]]; [exfalso; exact (Hno w Hk')|discriminate X|discriminate X].
  Qed.
End Entries.
Print Assumptions C118_entry.
Print Assumptions C118_poly_order.
Print Assumptions C118_basis.

Lemma bytes_b l : forallb (fun b => (0 <=? b) && (b <? 256)) l = true -> Forall byte l.
Proof. rewrite forallb_forall, Forall_forall. intros H b Hb. specialize (H b Hb). unfold byte. apply andb_true_iff in H as (A & B). apply Z.leb_le in A. apply Z.ltb_lt in B. lia. Qed.

(** Of the two spellings of the polynomial order the one written last counts: the model
    and the code assign both to the same name, so "each entry is found" fails. *)
Theorem C118_two_spellings_refuted :
  exists d meta fd k v, encodes (MMap d) meta /\ good_field 2 8 meta fd /\ In ((false, k), v) d /\ norm_key k = "poly_order" /\
    forall g, load ex_ops unpack (MBool true) (field_bytes 2 meta fd) None [] = Ok g -> aget "poly_order" (l_ctx g) <> Some v.
Proof.
  exists [((false, "polyOrder"), MInt 1); ((false, "poly_order"), MInt 2)],
    ([130] ++ ([169] ++ codes "polyOrder") ++ [1] ++ ([170] ++ codes "poly_order") ++ [2] ++ []), (ex_fd d8), "polyOrder", (MInt 1).
  split.
  { apply (C118_only); [apply bytes_b; vm_compute; reflexivity|vm_compute; reflexivity]. }
  split; [good_field_tac|]. split; [now left|]. split; [reflexivity|]. intros g. vm_compute. intros X. inversion X. discriminate.
Qed.
Print Assumptions C118_two_spellings_refuted.

(** ** Examples *)
Definition ex_meta : list Z :=
  [132] ++ ([164] ++ codes "time") ++ (203 :: [63; 240; 0; 0; 0; 0; 0; 0]) ++ ([165] ++ codes "frame") ++ (205 :: [1; 44])
  ++ ([169] ++ codes "polyOrder") ++ [1] ++ ([169] ++ codes "basisType") ++ (217 :: 10 :: codes "serendipit").
Definition ex_dict : list (mkey * mval) :=
  [((false, "time"), MF64 [63; 240; 0; 0; 0; 0; 0; 0]); ((false, "frame"), MInt 300); ((false, "polyOrder"), MInt 1); ((false, "basisType"), MStr "serendipit")].
Example ex_encodes : encodes (MMap ex_dict) ex_meta.
Proof. apply C118_only; [apply bytes_b; vm_compute; reflexivity|vm_compute; reflexivity]. Qed.
Example ex_encodes_by_hand : encodes (MArr [MInt (-1); MStr "a"; MNil]) [147; 255; 161; 97; 192].
Proof.
  apply (enc_arr _ [147] [255; 161; 97; 192]); [apply (arr_fix 3); lia|].
  apply (encs_cons (MInt (-1)) _ [255] [161; 97; 192]); [constructor; apply (sc_neg (-1)); lia|].
  apply (encs_cons (MStr "a") _ [161; 97] [192]).
  { apply (enc_str "a" [161] [97]); [apply (str_fix 1); lia|]. apply (utf8_cons 97 [] [97] []); [|constructor]. now vm_compute; constructor. }
  apply (encs_cons MNil [] [192] []); constructor. constructor.
Qed.
Example C118_decode_example : unpackb [147; 255; 161; 97; 192] = Some (MArr [MInt (-1); MStr "a"; MNil]).
Proof. exact (C118_decode _ _ ex_encodes_by_hand). Qed.
Example C118_repeated_key : unpackb [131; 161; 97; 1; 161; 98; 2; 161; 97; 3] = Some (MMap [((false, "a"), MInt 3); ((false, "b"), MInt 2)]).
Proof. vm_compute. reflexivity. Qed.
Example C118_bad : unpackb [193] = None /\ unpackb [161; 255] = None /\ unpackb [129; 1; 2] = None /\ unpackb [146; 1] = None /\ unpackb [] = None.
Proof. vm_compute. repeat split. Qed.
Example C118_metadata_example : exists g,
  load ex_ops unpack (MBool true) (field_bytes 2 ex_meta (ex_fd d8)) None [] = Ok g /\
  aget "poly_order" (l_ctx g) = Some (MInt 1) /\ aget "basis_type" (l_ctx g) = Some (MStr "serendipit") /\ aget "is_modal" (l_ctx g) = Some (MBool true) /\
  aget "frame" (l_ctx g) = Some (MInt 300).
Proof. eexists. split; [vm_compute; reflexivity|]. repeat split. Qed.
Example C118_metadata_hyps : good_field 2 8 ex_meta (ex_fd d8).
Proof. good_field_tac. Qed.
Example C118_unreadable_hyps : Forall byte [193] /\ [193] <> [] /\ (forall v, ~ encodes v [193]) /\ fits 1.
Proof.
  split; [apply bytes_b; reflexivity|]. split; [discriminate|]. split; [|fits_tac]. intros v H. apply C118_decode in H. vm_compute in H. discriminate.
Qed.
