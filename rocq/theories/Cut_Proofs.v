(** * Reading the beginning of a file: what succeeds there succeeds on the whole file *)
From Coq Require Import String Ascii List ZArith Bool Lia.
From Verif Require Import Prelude PreludeFacts NdArray Gkyl_Model Gkyl_Spec Gkyl_Proofs.
Import ListNotations.
Open Scope list_scope. Open Scope Z_scope.

Lemma chunks_app w a b : (0 < w)%nat -> forall n m, (n <= m)%nat -> exists t, chunks w m (a ++ b) = chunks w n a ++ t.
Proof.
  intros Hw n. revert a. induction n as [|n IH]; intros a m Hm; [cbn; eauto|].
  destruct m as [|m]; [lia|]. cbn [chunks]. destruct (Nat.leb_spec w (length a)) as [L|L]; [|cbn [app]; eauto].
  destruct (Nat.leb_spec w (length (a ++ b))) as [L2|L2]; [|rewrite app_length in L2; lia].
  destruct (IH (skipn w a) m ltac:(lia)) as (t & E). exists t. rewrite firstn_app, skipn_app.
  replace (w - length a)%nat with 0%nat by lia. rewrite firstn_O, app_nil_r, skipn_O. cbn [app]. now rewrite E.
Qed.

Lemma chunks_count w l : (0 < w)%nat -> forall n, (length (chunks w n l) <= n)%nat /\ (length (chunks w n l) * w <= length l)%nat /\
  ((length (chunks w n l) < n)%nat -> (length l < (length (chunks w n l) + 1) * w)%nat).
Proof.
  intros Hw n. revert l. induction n as [|n IH]; intros l; cbn [chunks]; [cbn; lia|].
  destruct (Nat.leb_spec w (length l)) as [L|L]; [|cbn [length]; lia].
  destruct (IH (skipn w l)) as (H1 & H2 & H3). rewrite skipn_length in *. cbn [length]. split; [lia|]. split; [lia|]. intros H. specialize (H3 ltac:(lia)). lia.
Qed.

Section Prefix.
  Context (p r : list Z).
  Let f := p ++ r.

  Lemma fromfile_pre w c off l : (0 < w)%nat -> fromfile p w c off = Ok l ->
    0 <= off /\ (exists t, fromfile f w c off = Ok (l ++ t)) /\ (l <> [] -> off + Z.of_nat (length l * w) <= Z.of_nat (length p)) /\
    (0 <= c -> Z.of_nat (length l) <= c) /\
    (Z.of_nat (length l) < c -> Z.of_nat (length p) < off + Z.of_nat ((length l + 1) * w)).
  Proof.
    intros Hw. unfold fromfile, f. destruct (Z.ltb_spec off 0) as [|H0]; [discriminate|]. intros E. injection E as <-.
    set (n := if c <? 0 then length p else Z.to_nat (Z.min c (Z.of_nat (length p)))).
    set (m := if c <? 0 then length (p ++ r) else Z.to_nat (Z.min c (Z.of_nat (length (p ++ r))))).
    assert (L : (n <= m)%nat) by (unfold n, m; rewrite app_length; destruct (c <? 0); lia).
    destruct (chunks_count w (skipn (Z.to_nat off) p) Hw n) as (C1 & C2 & C3).
    rewrite skipn_length in *. split; [exact H0|]. split; [|split; [|split]].
    - rewrite skipn_app. destruct (chunks_app w (skipn (Z.to_nat off) p) (skipn (Z.to_nat off - length p) r) Hw n m L) as (t & ->). eauto.
    - intros Hl. destruct (chunks w n (skipn (Z.to_nat off) p)) as [|x l]; [congruence|]. cbn [length] in *. nia.
    - intros Hc. assert (Z.of_nat n <= c) by (unfold n; destruct (Z.ltb_spec c 0); lia). lia.
    - intros Hc. destruct (Nat.lt_ge_cases (length (chunks w n (skipn (Z.to_nat off) p))) n) as [Q|Q].
      { specialize (C3 Q). set (u := ((length (chunks w n (skipn (Z.to_nat off) p)) + 1) * w)%nat) in *. clearbody u. lia. }
      assert (length (chunks w n (skipn (Z.to_nat off) p)) = n) as En by lia. rewrite En in *.
      assert (n = length p) as E by (unfold n in *; destruct (Z.ltb_spec c 0); lia). clearbody n. subst n. nia.
  Qed.

  Lemma fromfile_same w c off l : (0 < w)%nat -> 0 <= c -> fromfile p w c off = Ok l -> Z.of_nat (length l) = c -> fromfile f w c off = Ok l.
  Proof.
    intros Hw Hc E L. destruct (fromfile_pre w c off l Hw E) as (_ & (t & Et) & _).
    assert (Bd : Z.of_nat (length (l ++ t)) <= c).
    { unfold fromfile in Et. destruct (off <? 0); [discriminate|]. injection Et as <-. destruct (Z.ltb_spec c 0); [lia|].
      destruct (chunks_count w (skipn (Z.to_nat off) f) Hw (Z.to_nat (Z.min c (Z.of_nat (length f))))). lia. }
    rewrite app_length in Bd. destruct t; [now rewrite app_nil_r in Et|cbn in Bd; lia].
  Qed.

  Lemma read_i64_pre off v : read_i64 p off = Ok v -> read_i64 f off = Ok v /\ 0 <= off /\ off + 8 <= Z.of_nat (length p).
  Proof.
    unfold read_i64. intros H. apply bind_ok in H as (l & E & H). destruct l as [|b l]; [discriminate|]. injection H as <-.
    destruct (fromfile_pre 8 1 off (b :: l) ltac:(lia) E) as (H0 & (t & ->) & Hl & _). cbn [bind app]. split; [reflexivity|]. split; [exact H0|].
    specialize (Hl ltac:(discriminate)). cbn [length] in Hl. lia.
  Qed.

  Lemma read_i64s_pre c off l : 0 <= c -> read_i64s p c off = Ok l -> Z.of_nat (length l) = c ->
    read_i64s f c off = Ok l /\ 0 <= off /\ (0 < c -> off + c * 8 <= Z.of_nat (length p)).
  Proof.
    unfold read_i64s. intros Hc H L. apply bind_ok in H as (bs & E & H). injection H as <-. rewrite map_length in L.
    rewrite (fromfile_same 8 c off bs) by (auto; lia). split; [reflexivity|].
    destruct (fromfile_pre 8 c off bs ltac:(lia) E) as (H0 & _ & Hl & _). split; [exact H0|]. intros Hp.
    assert (bs <> []) by (destruct bs; cbn in L; [lia|discriminate]). specialize (Hl H). lia.
  Qed.

  Lemma compatible_pre : is_compatible p = true -> is_compatible f = true.
  Proof.
    unfold is_compatible. destruct (fromfile p 1 5 0) as [l|] eqn:E; [|discriminate]. destruct (list_eq_dec _ _ _) as [->|]; [|discriminate].
    rewrite (fromfile_same 1 5 0 _ ltac:(lia) ltac:(lia) E eq_refl). destruct (list_eq_dec _ _ _) as [_|n]; [|now elim n].
    destruct (read_i64 p 5) as [v|] eqn:Ev; [|discriminate]. apply read_i64_pre in Ev as (-> & _). auto.
  Qed.

  Lemma compatible_long : is_compatible f = true -> (13 <= length p)%nat -> is_compatible p = true.
  Proof.
    unfold is_compatible. intros H L. destruct (fromfile p 1 5 0) as [l|e] eqn:E; [|cbn in E; discriminate].
    assert (Ll : Z.of_nat (length l) = 5).
    { destruct (fromfile_pre 1 5 0 l ltac:(lia) E) as (_ & _ & _ & H1 & H2). destruct (Z.eq_dec (Z.of_nat (length l)) 5); [auto|]. specialize (H2 ltac:(lia)). lia. }
    rewrite (fromfile_same 1 5 0 l ltac:(lia) ltac:(lia) E Ll) in H. destruct (list_eq_dec _ _ _) as [_|]; [|discriminate].
    unfold read_i64 at 1. unfold fromfile. cbn [Z.ltb Z.compare]. replace (Z.to_nat (Z.min 1 (Z.of_nat (length p)))) with 1%nat by lia. cbn [bind chunks].
    destruct (Nat.leb_spec 8 (length (skipn (Z.to_nat 5) p))) as [_|Q]; [reflexivity|]. rewrite skipn_length in Q. lia.
  Qed.

  Context {F M : Type} (fo : fops F) (unpack : list Z -> option (option (list (string * M)))) (mtrue : M).

  Lemma header_pre s s' : is_compatible p = is_compatible f -> read_header unpack mtrue p s = Ok s' ->
    read_header unpack mtrue f s = Ok s' /\ r_off s' <= Z.of_nat (length p).
  Proof.
    intros Ec H. unfold read_header in *. rewrite <- Ec. apply bind_ok in H as (s1 & E1 & H). apply bind_ok in H as (rt & Ert & H). injection H as <-.
    apply read_i64_pre in Ert as (Ert & H0 & Hp). cbn [r_off]. split; [|lia]. destruct (is_compatible p); [|injection E1 as <-; cbn [bind]; rewrite Ert; reflexivity].
    replace (read_magic_header unpack mtrue f s) with (Ok s1); [cbn [bind]; rewrite Ert; reflexivity|]. symmetry.
    unfold read_magic_header in *. apply bind_ok in E1 as (ver & E & E1). apply read_i64_pre in E as (-> & _). cbn [bind].
    apply bind_ok in E1 as (ft & E & E1). apply read_i64_pre in E as (-> & _). cbn [bind].
    apply bind_ok in E1 as (ms & E & E1). apply read_i64_pre in E as (-> & Ho & Hm). cbn [bind].
    destruct (Z.ltb_spec 0 ms) as [Q|Q]; [|exact E1].
    assert (Lm : r_off s + 5 + 24 + ms + 8 <= Z.of_nat (length p)).
    { destruct (unpack _) as [[d|]|]; try discriminate; injection E1 as <-; cbn [r_off] in Hp; lia. }
    replace (firstn (Z.to_nat ms) (skipn (Z.to_nat (r_off s + 5 + 24)) f)) with (firstn (Z.to_nat ms) (skipn (Z.to_nat (r_off s + 5 + 24)) p)); [exact E1|].
    unfold f. rewrite skipn_app, firstn_app, skipn_length. replace (Z.to_nat ms - _)%nat with 0%nat by lia. now rewrite firstn_O, app_nil_r.
  Qed.

  Lemma domain_raw_pre (s : @rst M) x : (0 < r_w s)%nat -> read_domain_raw fo p s = Ok x ->
    read_domain_raw fo f s = Ok x /\ snd x <= Z.of_nat (length p).
  Proof.
    intros Hw H. unfold read_domain_raw in *. apply bind_ok in H as (nd & E & H). apply read_i64_pre in E as (-> & _). cbn [bind].
    destruct (Z.ltb_spec nd 0) as [|Hn]; [discriminate|]. apply bind_ok in H as (cells & Ec & H). apply bind_ok in H as (lo & El & H). apply bind_ok in H as (up & Eu & H).
    apply bind_ok in H as (esz & Ee & H). apply bind_ok in H as (asz & Ea & H).
    destruct (Z.eqb_spec (Z.of_nat (length cells)) nd) as [L1|]; [|discriminate]. destruct (Z.eqb_spec (Z.of_nat (length lo)) nd) as [L2|]; [|discriminate].
    destruct (Z.eqb_spec (Z.of_nat (length up)) nd) as [L3|]; [|discriminate]. cbn [andb] in H. injection H as <-.
    destruct (read_i64s_pre _ _ _ Hn Ec L1) as (-> & _). cbn [bind]. rewrite (fromfile_same _ _ _ _ Hw Hn El L2), (fromfile_same _ _ _ _ Hw Hn Eu L3). cbn [bind].
    destruct (read_i64_pre _ _ Ee) as (-> & _). cbn [bind]. destruct (read_i64_pre _ _ Ea) as (-> & _ & Ha). cbn [bind].
    rewrite (proj2 (Z.eqb_eq _ _) L1), (proj2 (Z.eqb_eq _ _) L2), (proj2 (Z.eqb_eq _ _) L3). cbn [andb snd]. split; [reflexivity|]. lia.
  Qed.

  Lemma domain_pre cuts (s : @rst M) d s1 : (0 < r_w s)%nat -> read_domain fo p cuts s = Ok (d, s1) ->
    read_domain fo f cuts s = Ok (d, s1) /\ r_off s1 <= Z.of_nat (length p).
  Proof.
    intros Hw H. unfold read_domain in *. apply bind_ok in H as (x & E & H). destruct (domain_raw_pre s x Hw E) as (-> & Hx). cbn [bind].
    split; [exact H|]. destruct x as [[[[[[nd cells] lo] up] nc] asz] o]. cbn [snd] in Hx. destruct cuts as [ps|].
    - apply bind_ok in H as (go & _ & H). apply bind_ok in H as (gc & _ & H). injection H as _ <-. exact Hx.
    - injection H as _ <-. exact Hx.
  Qed.

  (** What is reshaped has been read. *)
  Lemma reshape_length sh (l : list F) a : reshape sh l = Ok a -> Z.of_nat (length l) = zprod sh /\ Forall (fun n => 0 <= n) sh.
  Proof.
    unfold reshape. destruct (forallb _ sh) eqn:E; [|discriminate]. destruct (Z.eqb_spec (Z.of_nat (length l)) (zprod sh)); [|discriminate]. intros _. split; [auto|].
    rewrite forallb_forall in E. apply Forall_forall. intros n Hn. apply E in Hn. lia.
  Qed.

  Lemma data_needs d w count off x : (0 < w)%nat -> get_data fo p false d w count None off = Ok x ->
    0 < zprod (d_cells d ++ [d_nc d]) -> off + zprod (d_cells d ++ [d_nc d]) * Z.of_nat w <= Z.of_nat (length p).
  Proof.
    intros Hw H Hz. unfold get_data in H. cbn [negb] in H. apply bind_ok in H as (l & E & H). apply bind_ok in H as (a & Ea & _).
    apply reshape_length in Ea as (La & _). rewrite map_length in La. destruct (fromfile_pre _ _ _ _ Hw E) as (_ & _ & Hl & _).
    assert (Hne : l <> []) by (destruct l; cbn in La; [lia|discriminate]). specialize (Hl Hne). lia.
  Qed.

  (** A file shorter than 16 bytes that is not recognised is not read. *)
  Lemma short_fails cuts ctx g : is_compatible p = false -> (length p < 16)%nat -> load fo unpack mtrue p cuts ctx <> Ok g.
  Proof.
    intros Hc L H. unfold load in H. apply bind_ok in H as (s & E & H). unfold read_header in E. rewrite Hc in E. cbn [bind] in E.
    apply bind_ok in E as (rt & _ & E). injection E as <-. cbn in H. apply bind_ok in H as (ds & E & _). unfold read_domain in E. apply bind_ok in E as (x & E & _).
    unfold read_domain_raw in E. cbn [r_off init_rst] in E. apply bind_ok in E as (nd & E & _). apply read_i64_pre in E as (_ & _ & E). lia.
  Qed.
End Prefix.

Section Layout.
  Context {F M : Type} (fo : fops F) (unpack : list Z -> option (option (list (string * M)))) (mtrue : M).
  Context (f : list Z).

  (** As [read_header_at], from the success instead of readable metadata. *)
  Lemma read_header_off s s' ft meta rt rest : is_compatible f = true ->
    At f (r_off s) (header_bytes ft meta ++ u64 rt ++ rest) -> fits ft -> fits rt -> fits (Z.of_nat (length meta)) ->
    read_header unpack mtrue f s = Ok s' ->
    r_w s' = (if rt =? 1 then 4%nat else r_w s) /\ r_type s' = ft /\ r_ver s' = 1 /\ At f (r_off s') rest.
  Proof.
    intros Hc HA Hft Hrt Hm H.
    assert (Ok' : meta_ok unpack meta).
    { destruct meta as [|m0 meta]; [now left|]. right. intros U. apply At_header in HA. unfold read_header in H. rewrite Hc in H. unfold read_magic_header in H.
      eapply At_step in HA; [|reflexivity]. change (Z.of_nat (length magic)) with 5 in HA. assert (H1 : fits 1) by (unfold fits; lia).
      destruct (read_i64_at _ _ _ _ HA H1) as [E HA1]. rewrite E in H. cbn [bind] in H. destruct (read_i64_at _ _ _ _ HA1 Hft) as [E2 HA2]. rewrite E2 in H. cbn [bind] in H.
      destruct (read_i64_at _ _ _ _ HA2 Hm) as [E3 [_ HA3]]. replace (r_off s + 5 + 16) with (r_off s + 5 + 8 + 8) in H by lia. rewrite E3 in H. cbn [bind] in H.
      replace (r_off s + 5 + 8 + 8 + 8) with (r_off s + 5 + 24) in HA3 by lia. rewrite HA3, Nat2Z.id, firstn_app_exact in H by auto. rewrite U in H.
      destruct (Z.ltb_spec 0 (Z.of_nat (length (m0 :: meta)))); [discriminate H|cbn [length] in *; lia]. }
    destruct (read_header_at unpack mtrue f s ft meta rt rest Hc HA Hft Hrt Hm Ok') as (off' & E & _ & HA'). rewrite E in H. injection H as <-. cbn [r_w r_type r_ver r_off]. auto.
  Qed.

  Lemma At_end off rest : At f off rest -> Z.of_nat (length rest) = Z.max 0 (Z.of_nat (length f) - off).
  Proof. intros [H <-]. rewrite skipn_length. lia. Qed.
End Layout.
