From Coq Require Import String Ascii List ZArith Bool Lia.
From Verif Require Import Prelude PreludeFacts Extract_Model Extract_Props Msgpack_Model Msgpack_Spec.
Import ListNotations.
Open Scope list_scope. Open Scope Z_scope.

(** ** Bytes *)
Lemma be_length n z : length (be n z) = n.
Proof. unfold be. now rewrite map_length, rev_length, seq_length. Qed.
Lemma be_S n z : be (S n) z = (z / 256 ^ Z.of_nat n) mod 256 :: be n z.
Proof. unfold be. rewrite seq_S, rev_app_distr. reflexivity. Qed.
Lemma be_val_app a b : be_val (a ++ b) = fold_left (fun x y => 256 * x + y) b (be_val a).
Proof. unfold be_val. apply fold_left_app. Qed.
Lemma fold_be b : forall a, fold_left (fun x y => 256 * x + y) b a = a * 256 ^ Z.of_nat (length b) + be_val b.
Proof.
  induction b as [|y b IH]; intros a; [cbn; lia|].
  cbn [fold_left length]. rewrite IH. unfold be_val. cbn [fold_left]. rewrite (IH (256 * 0 + y)).
  rewrite Nat2Z.inj_succ, Z.pow_succ_r by lia. unfold be_val. ring.
Qed.
Lemma be_val_cons y b : be_val (y :: b) = y * 256 ^ Z.of_nat (length b) + be_val b.
Proof. unfold be_val at 1. cbn [fold_left]. rewrite fold_be. ring. Qed.
Lemma be_val_be n : forall z, be_val (be n z) = z mod 256 ^ Z.of_nat n.
Proof.
  induction n as [|n IH]; intros z; [cbn; now rewrite Z.mod_1_r|].
  rewrite be_S, be_val_cons, be_length, IH, Nat2Z.inj_succ, Z.pow_succ_r by lia.
  assert (P : 0 < 256 ^ Z.of_nat n) by (apply Z.pow_pos_nonneg; lia).
  rewrite (Z.mul_comm 256). rewrite Z.rem_mul_r by lia. ring.
Qed.
Lemma be_val_range w : Forall byte w -> 0 <= be_val w < 256 ^ Z.of_nat (length w).
Proof.
  induction w as [|y w IH]; intros H; [cbn; lia|].
  inversion H as [|? ? Hy Hw]; subst. specialize (IH Hw). rewrite be_val_cons. cbn [length].
  rewrite Nat2Z.inj_succ, Z.pow_succ_r by lia. unfold byte in Hy. nia.
Qed.
Lemma be_be_val w : Forall byte w -> be (length w) (be_val w) = w.
Proof.
  induction w as [|y w IH]; intros H; [reflexivity|].
  inversion H as [|? ? Hy Hw]; subst. cbn [length]. rewrite be_S, be_val_cons.
  assert (R := be_val_range w Hw). unfold byte in Hy. set (P := 256 ^ Z.of_nat (length w)) in *.
  f_equal.
  - rewrite Z.div_add_l by lia. rewrite Z.div_small by lia. rewrite Z.add_0_r. apply Z.mod_small; lia.
  - transitivity (be (length w) (be_val w)); [|exact (IH Hw)]. unfold be. apply map_ext_in. intros i Hi. apply in_rev, in_seq in Hi.
    assert (E : P = 256 ^ (Z.of_nat (length w) - Z.of_nat i - 1) * 256 * 256 ^ Z.of_nat i).
    { unfold P. replace (Z.of_nat (length w)) with ((Z.of_nat (length w) - Z.of_nat i - 1) + 1 + Z.of_nat i) at 1 by lia.
      rewrite !Z.pow_add_r by lia. reflexivity. }
    rewrite E. replace (y * (256 ^ (Z.of_nat (length w) - Z.of_nat i - 1) * 256 * 256 ^ Z.of_nat i) + be_val w)
      with (be_val w + (y * 256 ^ (Z.of_nat (length w) - Z.of_nat i - 1) * 256) * 256 ^ Z.of_nat i) by ring.
    rewrite Z.div_add by (apply Z.pow_nonzero; lia). rewrite Z.mod_add by lia. reflexivity.
Qed.

Lemma top_pow i : top i = 256 ^ Z.of_nat (sizeof i).
Proof. unfold top. rewrite Z.pow_mul_r by lia. reflexivity. Qed.

Lemma cut_app n a b : n = Z.of_nat (length a) -> cut n (a ++ b) = Some (a, b).
Proof.
  intros ->. unfold cut. destruct (Z.leb_spec (Z.of_nat (length a)) (Z.of_nat (length (a ++ b)))) as [_|H].
  - rewrite Nat2Z.id, firstn_app, skipn_app, Nat.sub_diag, firstn_all, skipn_all. cbn [firstn skipn]. now rewrite app_nil_r.
  - rewrite app_length in H. lia.
Qed.
Lemma cut_ok n l a b : 0 <= n -> cut n l = Some (a, b) -> l = a ++ b /\ n = Z.of_nat (length a).
Proof.
  unfold cut. intros H0. destruct (Z.leb_spec n (Z.of_nat (length l))) as [H|H]; intros E; inversion E; subst.
  rewrite firstn_skipn. split; [reflexivity|]. rewrite firstn_length. lia.
Qed.
Lemma unsigned_be n z i r : n = Z.of_nat (sizeof i) -> 0 <= z < top i -> unsigned n (be (sizeof i) z ++ r) = Some (z, r).
Proof.
  intros -> Hz. unfold unsigned. rewrite cut_app by (now rewrite be_length). cbn [obind fst snd].
  rewrite be_val_be, Z.mod_small by (rewrite <- top_pow; exact Hz). reflexivity.
Qed.
Lemma unsigned_ok n i l z r : n = Z.of_nat (sizeof i) -> Forall byte l -> unsigned n l = Some (z, r) ->
  0 <= z < top i /\ l = be (sizeof i) z ++ r /\ Forall byte r.
Proof.
  intros -> HB. unfold unsigned. destruct (cut _ l) as [[a b]|] eqn:E; [|discriminate].
  cbn [obind fst snd]. intros X; inversion X; subst. apply cut_ok in E as (-> & El); [|lia].
  apply Nat2Z.inj in El. apply Forall_app in HB as (Ha & Hb). rewrite top_pow, El.
  split; [now apply be_val_range|]. split; [|exact Hb]. now rewrite be_be_val.
Qed.
Lemma signed_ok n i l z r : (i <= 3)%nat -> n = Z.of_nat (sizeof i) -> Forall byte l -> signed n l = Some (z, r) ->
  - (top i / 2) <= z < top i / 2 /\ l = be (sizeof i) (z mod top i) ++ r /\ Forall byte r.
Proof.
  intros Hi En HB. unfold signed. destruct (unsigned n l) as [[v b]|] eqn:E; [|discriminate].
  cbn [obind fst snd]. intros X; inversion X; subst z b. destruct (unsigned_ok n i l v r En HB E) as (Hv & El & Hr).
  assert (Et : 2 ^ (8 * n - 1) = top i / 2 /\ 2 ^ (8 * n) = top i /\ 0 < top i /\ top i = 2 * (top i / 2))
    by (subst n; do 4 (destruct i as [|i]; [vm_compute; repeat split|]); lia).
  destruct Et as (E1 & E2 & E3 & E4). unfold to_signed. rewrite E1, E2.
  destruct (Z.ltb_spec v (top i / 2)).
  - split; [lia|]. rewrite Z.mod_small by lia. now split.
  - split; [lia|]. replace (v - top i) with (v + (-1) * top i) by ring. rewrite Z.mod_add, Z.mod_small by lia. now split.
Qed.
Lemma signed_be n i z r : (i <= 3)%nat -> n = Z.of_nat (sizeof i) -> - (top i / 2) <= z < top i / 2 ->
  signed n (be (sizeof i) (z mod top i) ++ r) = Some (z, r).
Proof.
  intros Hi En Hz. unfold signed.
  assert (Et : 2 ^ (8 * n - 1) = top i / 2 /\ 2 ^ (8 * n) = top i /\ 0 < top i /\ top i = 2 * (top i / 2))
    by (subst n; do 4 (destruct i as [|i]; [vm_compute; repeat split|]); lia).
  destruct Et as (E1 & E2 & E3 & E4).
  rewrite (unsigned_be n (z mod top i) i) by (try exact En; apply Z.mod_pos_bound; lia). cbn [obind fst snd].
  unfold to_signed. rewrite E1, E2. do 2 f_equal.
  destruct (Z.ltb_spec z 0).
  - replace (z mod top i) with (z + top i) by (apply (Z.mod_unique z (top i) (-1)); lia).
    destruct (Z.ltb_spec (z + top i) (top i / 2)); lia.
  - rewrite Z.mod_small by lia. destruct (Z.ltb_spec z (top i / 2)); lia.
Qed.

(** ** Strings *)
Lemma text_codes s : text (codes s) = s.
Proof.
  unfold text, codes. rewrite map_map. transitivity (string_of_list_ascii (list_ascii_of_string s)); [|apply string_of_list_ascii_of_string].
  f_equal. transitivity (List.map (fun c : ascii => c) (list_ascii_of_string s)); [|apply map_id].
  apply map_ext. intros c. rewrite Nat2Z.id. apply ascii_nat_embedding.
Qed.
Lemma codes_text w : Forall byte w -> codes (text w) = w.
Proof.
  intros H. unfold text, codes. rewrite list_ascii_of_string_of_list_ascii, map_map.
  rewrite <- (map_id w) at 2. apply map_ext_in. intros b Hb. rewrite Forall_forall in H. specialize (H b Hb). unfold byte in H.
  rewrite nat_ascii_embedding by lia. lia.
Qed.
Lemma codes_length s : length (codes s) = String.length s.
Proof. unfold codes. rewrite map_length. induction s; cbn; [reflexivity|]. now rewrite IHs. Qed.

(** ** First bytes *)
Ltac small := repeat match goal with
  | |- context [?a <? ?b] => destruct (Z.ltb_spec a b); [try lia|try lia]
  | |- context [?a <=? ?b] => destruct (Z.leb_spec a b); [try lia|try lia]
  end.
Lemma sized_be n i k z r : n = Z.of_nat (sizeof i) -> 0 <= z < top i -> sized n k (be (sizeof i) z ++ r) = Some (k z, r).
Proof. intros E H. unfold sized. now rewrite (unsigned_be n z i r E H). Qed.

Ltac cases i := do 5 (destruct i as [|i]; [try lia; reflexivity|]); lia.
Lemma head_uint i l : (i <= 3)%nat -> head (204 + Z.of_nat i :: l) = sized (Z.of_nat (sizeof i)) (fun v => HVal (MInt v)) l.
Proof. intros H. cases i. Qed.
Lemma head_int i l : (i <= 3)%nat -> head (208 + Z.of_nat i :: l) = obind (signed (Z.of_nat (sizeof i)) l) (fun p => Some (HVal (MInt (fst p)), snd p)).
Proof. intros H. cases i. Qed.
Lemma head_str i l : (i <= 2)%nat -> head (217 + Z.of_nat i :: l) = sized (Z.of_nat (sizeof i)) HStr l.
Proof. intros H. cases i. Qed.
Lemma head_bin i l : (i <= 2)%nat -> head (196 + Z.of_nat i :: l) = sized (Z.of_nat (sizeof i)) HBin l.
Proof. intros H. cases i. Qed.
Lemma head_arr i l : (1 <= i <= 2)%nat -> head (220 + Z.of_nat (i - 1) :: l) = sized (Z.of_nat (sizeof i)) HArr l.
Proof. intros H. cases i. Qed.
Lemma head_map i l : (1 <= i <= 2)%nat -> head (222 + Z.of_nat (i - 1) :: l) = sized (Z.of_nat (sizeof i)) HMap l.
Proof. intros H. cases i. Qed.
Lemma head_ext i l : (i <= 2)%nat -> head (199 + Z.of_nat i :: l) = obind (unsigned (Z.of_nat (sizeof i)) l) (fun p => coded (fst p) (snd p)).
Proof. intros H. cases i. Qed.
Lemma head_fixext i l : (i <= 4)%nat -> head (212 + Z.of_nat i :: l) = coded (Z.of_nat (sizeof i)) l.
Proof. intros H. cases i. Qed.

Lemma head_plain b v r : plain b v -> head (b ++ r) = Some (HVal v, r).
Proof.
  intros H. destruct H as [z H|z H| | | |w H|w H|i z Hi H|i z Hi H].
  - cbn [app head]. small. reflexivity.
  - cbn [app head]. small. do 2 f_equal. f_equal. f_equal. lia.
  - reflexivity.
  - reflexivity.
  - reflexivity.
  - change (head ((202 :: w) ++ r)) with (obind (cut 4 (w ++ r)) (fun p => Some (HVal (MF32 (fst p)), snd p))).
    rewrite cut_app by lia. reflexivity.
  - change (head ((203 :: w) ++ r)) with (obind (cut 8 (w ++ r)) (fun p => Some (HVal (MF64 (fst p)), snd p))).
    rewrite cut_app by lia. reflexivity.
  - change (head (204 + Z.of_nat i :: (be (sizeof i) z ++ r)) = Some (HVal (MInt z), r)). rewrite head_uint by exact Hi. now apply sized_be.
  - change (head (208 + Z.of_nat i :: (be (sizeof i) (z mod top i) ++ r)) = Some (HVal (MInt z), r)). rewrite head_int by exact Hi.
    rewrite signed_be by (auto; lia). reflexivity.
Qed.

Lemma coded_ok n c r : 0 <= c <= 127 -> coded n (c :: r) = Some (HExt n c, r).
Proof.
  intros H. unfold coded. assert (E : c :: r = be (sizeof 0) (c mod top 0) ++ r).
  { change (top 0) with 256. change (be (sizeof 0) (c mod 256)) with [((c mod 256) / 1) mod 256]. cbn [app].
    rewrite Z.div_1_r, Z.mod_mod by lia. rewrite Z.mod_small by lia. reflexivity. }
  rewrite E. rewrite (signed_be 1 0 c r); [reflexivity|lia|reflexivity|]. change (top 0) with 256. change (256 / 2) with 128. lia.
Qed.

Lemma head_of_str n h r : str_head n h -> head (h ++ r) = Some (HStr n, r).
Proof.
  intros [H|h' [i Hi H]].
  - cbn [app head]. small. do 2 f_equal. f_equal. lia.
  - replace (i - 0)%nat with i by lia. cbn [app]. rewrite head_str by lia. now apply sized_be.
Qed.
Lemma head_of_bin n h r : lengthed 196 0 n h -> head (h ++ r) = Some (HBin n, r).
Proof. intros [i Hi H]. replace (i - 0)%nat with i by lia. cbn [app]. rewrite head_bin by lia. now apply sized_be. Qed.
Lemma head_of_arr n h r : arr_head n h -> head (h ++ r) = Some (HArr n, r).
Proof.
  intros [H|h' [i Hi H]].
  - cbn [app head]. small. do 2 f_equal. f_equal. lia.
  - cbn [app]. rewrite head_arr by lia. now apply sized_be.
Qed.
Lemma head_of_map n h r : map_head n h -> head (h ++ r) = Some (HMap n, r).
Proof.
  intros [H|h' [i Hi H]].
  - cbn [app head]. small. do 2 f_equal. f_equal. lia.
  - cbn [app]. rewrite head_map by lia. now apply sized_be.
Qed.
Lemma head_of_ext n c h r : 0 <= c <= 127 -> ext_head n c h -> head (h ++ r) = Some (HExt n c, r).
Proof.
  intros Hc [i Hi ->|h' [i Hi H]].
  - cbn [app]. rewrite head_fixext by exact Hi. now apply coded_ok.
  - replace (i - 0)%nat with i by lia. rewrite <- app_assoc. cbn [app]. rewrite head_ext by lia.
    rewrite (unsigned_be _ n i) by (auto; lia). cbn [obind fst snd]. now apply coded_ok.
Qed.

(** The head forms, conversely. *)
Definition head_fits (k : kind) (h : list Z) : Prop :=
  match k with
  | HVal v => plain h v
  | HStr n => str_head n h
  | HBin n => lengthed 196 0 n h
  | HExt n c => 0 <= n /\ (0 <= c -> c <= 127 /\ ext_head n c h)
  | HArr n => arr_head n h
  | HMap n => map_head n h
  end.

Lemma sized_ok n i k l x r : n = Z.of_nat (sizeof i) -> Forall byte l -> sized n k l = Some (x, r) ->
  exists z, x = k z /\ 0 <= z < top i /\ l = be (sizeof i) z ++ r /\ Forall byte r.
Proof.
  intros E HB. unfold sized. destruct (unsigned n l) as [[z r']|] eqn:E1; [|discriminate]. cbn [obind fst snd]. intros X; inversion X; subst.
  exists z. split; [reflexivity|]. exact (unsigned_ok _ i l z r eq_refl HB E1).
Qed.
Lemma coded_inv n l x r : Forall byte l -> coded n l = Some (x, r) ->
  exists c b, x = HExt n c /\ l = b :: r /\ (0 <= c -> c = b /\ c <= 127) /\ Forall byte r.
Proof.
  intros HB. unfold coded. destruct (signed 1 l) as [[c r']|] eqn:E; [|discriminate]. cbn [obind fst snd]. intros X; inversion X; subst.
  destruct (signed_ok 1 0 l c r) as (Hc & El & Hr); [lia|reflexivity|exact HB|exact E|].
  change (top 0) with 256 in *. change (256 / 2) with 128 in *. change (be (sizeof 0) (c mod 256)) with [((c mod 256) / 1) mod 256] in El.
  rewrite Z.div_1_r, Z.mod_mod in El by lia. exists c, (c mod 256). split; [reflexivity|]. split; [exact El|]. split; [|exact Hr].
  intros H0. rewrite Z.mod_small by lia. split; lia.
Qed.

Lemma head_ok l k r : Forall byte l -> head l = Some (k, r) -> exists h, l = h ++ r /\ h <> [] /\ head_fits k h.
Proof.
  intros HB. destruct l as [|b l]; [discriminate|]. inversion HB as [|? ? Hb Hl]; subst. unfold byte in Hb. unfold head.
  destruct (Z.ltb_spec b 128). { intros X; inversion X; subst. exists [b]. split; [reflexivity|]. split; [discriminate|]. constructor; lia. }
  destruct (Z.ltb_spec b 144). { intros X; inversion X; subst. exists [128 + (b - 128)]. split; [cbn [app]; f_equal; lia|]. split; [discriminate|]. constructor; lia. }
  destruct (Z.ltb_spec b 160). { intros X; inversion X; subst. exists [144 + (b - 144)]. split; [cbn [app]; f_equal; lia|]. split; [discriminate|]. constructor; lia. }
  destruct (Z.ltb_spec b 192). { intros X; inversion X; subst. exists [160 + (b - 160)]. split; [cbn [app]; f_equal; lia|]. split; [discriminate|]. constructor; lia. }
  destruct (Z.leb_spec 224 b). { intros X; inversion X; subst. exists [256 + (b - 256)]. split; [cbn [app]; f_equal; lia|]. split; [discriminate|]. constructor; lia. }
  destruct (Z.eqb_spec b 192) as [->|_]. { intros X; inversion X; subst. exists [192]. split; [reflexivity|]. split; [discriminate|]. constructor. }
  destruct (Z.eqb_spec b 194) as [->|_]. { intros X; inversion X; subst. exists [194]. split; [reflexivity|]. split; [discriminate|]. constructor. }
  destruct (Z.eqb_spec b 195) as [->|_]. { intros X; inversion X; subst. exists [195]. split; [reflexivity|]. split; [discriminate|]. constructor. }
  destruct (Z.eqb_spec b 196) as [->|_].
  { intros X. destruct (sized_ok 1 0 _ l k r eq_refl Hl X) as (z & -> & Hz & -> & _). exists (196 + Z.of_nat (0 - 0) :: be (sizeof 0) z).
    split; [reflexivity|]. split; [discriminate|]. red. constructor; [lia|exact Hz]. }
  destruct (Z.eqb_spec b 197) as [->|_].
  { intros X. destruct (sized_ok 2 1 _ l k r eq_refl Hl X) as (z & -> & Hz & -> & _). exists (196 + Z.of_nat (1 - 0) :: be (sizeof 1) z).
    split; [reflexivity|]. split; [discriminate|]. red. constructor; [lia|exact Hz]. }
  destruct (Z.eqb_spec b 198) as [->|_].
  { intros X. destruct (sized_ok 4 2 _ l k r eq_refl Hl X) as (z & -> & Hz & -> & _). exists (196 + Z.of_nat (2 - 0) :: be (sizeof 2) z).
    split; [reflexivity|]. split; [discriminate|]. red. constructor; [lia|exact Hz]. }
  destruct (Z.eqb_spec b 199) as [->|_].
  { destruct (unsigned 1 l) as [[z l']|] eqn:E; [|discriminate]. cbn [obind fst snd]. intros X.
    destruct (unsigned_ok 1 0 l z l' eq_refl Hl E) as (Hz & -> & Hl').
    destruct (coded_inv z l' k r Hl' X) as (c & b & -> & -> & Hc & _). exists ((199 + Z.of_nat (0 - 0) :: be (sizeof 0) z) ++ [b]).
    split; [rewrite <- app_assoc; reflexivity|]. split; [discriminate|]. cbn [head_fits]. split; [lia|]. intros H'. destruct (Hc H') as (<- & Hc').
    split; [exact Hc'|]. apply ext_len. constructor; [lia|exact Hz]. }
  destruct (Z.eqb_spec b 200) as [->|_].
  { destruct (unsigned 2 l) as [[z l']|] eqn:E; [|discriminate]. cbn [obind fst snd]. intros X.
    destruct (unsigned_ok 2 1 l z l' eq_refl Hl E) as (Hz & -> & Hl').
    destruct (coded_inv z l' k r Hl' X) as (c & b & -> & -> & Hc & _). exists ((199 + Z.of_nat (1 - 0) :: be (sizeof 1) z) ++ [b]).
    split; [rewrite <- app_assoc; reflexivity|]. split; [discriminate|]. cbn [head_fits]. split; [lia|]. intros H'. destruct (Hc H') as (<- & Hc').
    split; [exact Hc'|]. apply ext_len. constructor; [lia|exact Hz]. }
  destruct (Z.eqb_spec b 201) as [->|_].
  { destruct (unsigned 4 l) as [[z l']|] eqn:E; [|discriminate]. cbn [obind fst snd]. intros X.
    destruct (unsigned_ok 4 2 l z l' eq_refl Hl E) as (Hz & -> & Hl').
    destruct (coded_inv z l' k r Hl' X) as (c & b & -> & -> & Hc & _). exists ((199 + Z.of_nat (2 - 0) :: be (sizeof 2) z) ++ [b]).
    split; [rewrite <- app_assoc; reflexivity|]. split; [discriminate|]. cbn [head_fits]. split; [lia|]. intros H'. destruct (Hc H') as (<- & Hc').
    split; [exact Hc'|]. apply ext_len. constructor; [lia|exact Hz]. }
  destruct (Z.eqb_spec b 202) as [->|_].
  { destruct (cut 4 l) as [[w l']|] eqn:E; [|discriminate]. cbn [obind fst snd]. intros X; inversion X; subst.
    apply cut_ok in E as (-> & El); [|lia]. exists (202 :: w). split; [reflexivity|]. split; [discriminate|]. apply sc_f32. lia. }
  destruct (Z.eqb_spec b 203) as [->|_].
  { destruct (cut 8 l) as [[w l']|] eqn:E; [|discriminate]. cbn [obind fst snd]. intros X; inversion X; subst.
    apply cut_ok in E as (-> & El); [|lia]. exists (203 :: w). split; [reflexivity|]. split; [discriminate|]. apply sc_f64. lia. }
  destruct (Z.eqb_spec b 204) as [->|_].
  { intros X. destruct (sized_ok 1 0 _ l k r eq_refl Hl X) as (z & -> & Hz & -> & _). exists (204 + Z.of_nat 0 :: be (sizeof 0) z).
    split; [reflexivity|]. split; [discriminate|]. apply sc_uint; [lia|exact Hz]. }
  destruct (Z.eqb_spec b 205) as [->|_].
  { intros X. destruct (sized_ok 2 1 _ l k r eq_refl Hl X) as (z & -> & Hz & -> & _). exists (204 + Z.of_nat 1 :: be (sizeof 1) z).
    split; [reflexivity|]. split; [discriminate|]. apply sc_uint; [lia|exact Hz]. }
  destruct (Z.eqb_spec b 206) as [->|_].
  { intros X. destruct (sized_ok 4 2 _ l k r eq_refl Hl X) as (z & -> & Hz & -> & _). exists (204 + Z.of_nat 2 :: be (sizeof 2) z).
    split; [reflexivity|]. split; [discriminate|]. apply sc_uint; [lia|exact Hz]. }
  destruct (Z.eqb_spec b 207) as [->|_].
  { intros X. destruct (sized_ok 8 3 _ l k r eq_refl Hl X) as (z & -> & Hz & -> & _). exists (204 + Z.of_nat 3 :: be (sizeof 3) z).
    split; [reflexivity|]. split; [discriminate|]. apply sc_uint; [lia|exact Hz]. }
  destruct (Z.eqb_spec b 208) as [->|_].
  { destruct (signed 1 l) as [[z l']|] eqn:E; [|discriminate]. cbn [obind fst snd]. intros X; inversion X; subst.
    destruct (signed_ok 1 0 l z r ltac:(lia) eq_refl Hl E) as (Hz & -> & _). exists (208 + Z.of_nat 0 :: be (sizeof 0) (z mod top 0)).
    split; [reflexivity|]. split; [discriminate|]. apply sc_int; [lia|exact Hz]. }
  destruct (Z.eqb_spec b 209) as [->|_].
  { destruct (signed 2 l) as [[z l']|] eqn:E; [|discriminate]. cbn [obind fst snd]. intros X; inversion X; subst.
    destruct (signed_ok 2 1 l z r ltac:(lia) eq_refl Hl E) as (Hz & -> & _). exists (208 + Z.of_nat 1 :: be (sizeof 1) (z mod top 1)).
    split; [reflexivity|]. split; [discriminate|]. apply sc_int; [lia|exact Hz]. }
  destruct (Z.eqb_spec b 210) as [->|_].
  { destruct (signed 4 l) as [[z l']|] eqn:E; [|discriminate]. cbn [obind fst snd]. intros X; inversion X; subst.
    destruct (signed_ok 4 2 l z r ltac:(lia) eq_refl Hl E) as (Hz & -> & _). exists (208 + Z.of_nat 2 :: be (sizeof 2) (z mod top 2)).
    split; [reflexivity|]. split; [discriminate|]. apply sc_int; [lia|exact Hz]. }
  destruct (Z.eqb_spec b 211) as [->|_].
  { destruct (signed 8 l) as [[z l']|] eqn:E; [|discriminate]. cbn [obind fst snd]. intros X; inversion X; subst.
    destruct (signed_ok 8 3 l z r ltac:(lia) eq_refl Hl E) as (Hz & -> & _). exists (208 + Z.of_nat 3 :: be (sizeof 3) (z mod top 3)).
    split; [reflexivity|]. split; [discriminate|]. apply sc_int; [lia|exact Hz]. }
  destruct (Z.eqb_spec b 212) as [->|_].
  { intros X. destruct (coded_inv 1 l k r Hl X) as (c & b & -> & -> & Hc & _). exists [212 + Z.of_nat 0; b].
    split; [reflexivity|]. split; [discriminate|]. cbn [head_fits]. split; [lia|]. intros H'. destruct (Hc H') as (<- & Hc').
    split; [exact Hc'|]. apply ext_fix; [lia|reflexivity]. }
  destruct (Z.eqb_spec b 213) as [->|_].
  { intros X. destruct (coded_inv 2 l k r Hl X) as (c & b & -> & -> & Hc & _). exists [212 + Z.of_nat 1; b].
    split; [reflexivity|]. split; [discriminate|]. cbn [head_fits]. split; [lia|]. intros H'. destruct (Hc H') as (<- & Hc').
    split; [exact Hc'|]. apply ext_fix; [lia|reflexivity]. }
  destruct (Z.eqb_spec b 214) as [->|_].
  { intros X. destruct (coded_inv 4 l k r Hl X) as (c & b & -> & -> & Hc & _). exists [212 + Z.of_nat 2; b].
    split; [reflexivity|]. split; [discriminate|]. cbn [head_fits]. split; [lia|]. intros H'. destruct (Hc H') as (<- & Hc').
    split; [exact Hc'|]. apply ext_fix; [lia|reflexivity]. }
  destruct (Z.eqb_spec b 215) as [->|_].
  { intros X. destruct (coded_inv 8 l k r Hl X) as (c & b & -> & -> & Hc & _). exists [212 + Z.of_nat 3; b].
    split; [reflexivity|]. split; [discriminate|]. cbn [head_fits]. split; [lia|]. intros H'. destruct (Hc H') as (<- & Hc').
    split; [exact Hc'|]. apply ext_fix; [lia|reflexivity]. }
  destruct (Z.eqb_spec b 216) as [->|_].
  { intros X. destruct (coded_inv 16 l k r Hl X) as (c & b & -> & -> & Hc & _). exists [212 + Z.of_nat 4; b].
    split; [reflexivity|]. split; [discriminate|]. cbn [head_fits]. split; [lia|]. intros H'. destruct (Hc H') as (<- & Hc').
    split; [exact Hc'|]. apply ext_fix; [lia|reflexivity]. }
  destruct (Z.eqb_spec b 217) as [->|_].
  { intros X. destruct (sized_ok 1 0 _ l k r eq_refl Hl X) as (z & -> & Hz & -> & _). exists (217 + Z.of_nat (0 - 0) :: be (sizeof 0) z).
    split; [reflexivity|]. split; [discriminate|]. apply str_len. constructor; [lia|exact Hz]. }
  destruct (Z.eqb_spec b 218) as [->|_].
  { intros X. destruct (sized_ok 2 1 _ l k r eq_refl Hl X) as (z & -> & Hz & -> & _). exists (217 + Z.of_nat (1 - 0) :: be (sizeof 1) z).
    split; [reflexivity|]. split; [discriminate|]. apply str_len. constructor; [lia|exact Hz]. }
  destruct (Z.eqb_spec b 219) as [->|_].
  { intros X. destruct (sized_ok 4 2 _ l k r eq_refl Hl X) as (z & -> & Hz & -> & _). exists (217 + Z.of_nat (2 - 0) :: be (sizeof 2) z).
    split; [reflexivity|]. split; [discriminate|]. apply str_len. constructor; [lia|exact Hz]. }
  destruct (Z.eqb_spec b 220) as [->|_].
  { intros X. destruct (sized_ok 2 1 _ l k r eq_refl Hl X) as (z & -> & Hz & -> & _). exists (220 + Z.of_nat (1 - 1) :: be (sizeof 1) z).
    split; [reflexivity|]. split; [discriminate|]. apply arr_len. constructor; [lia|exact Hz]. }
  destruct (Z.eqb_spec b 221) as [->|_].
  { intros X. destruct (sized_ok 4 2 _ l k r eq_refl Hl X) as (z & -> & Hz & -> & _). exists (220 + Z.of_nat (2 - 1) :: be (sizeof 2) z).
    split; [reflexivity|]. split; [discriminate|]. apply arr_len. constructor; [lia|exact Hz]. }
  destruct (Z.eqb_spec b 222) as [->|_].
  { intros X. destruct (sized_ok 2 1 _ l k r eq_refl Hl X) as (z & -> & Hz & -> & _). exists (222 + Z.of_nat (1 - 1) :: be (sizeof 1) z).
    split; [reflexivity|]. split; [discriminate|]. apply map_len. constructor; [lia|exact Hz]. }
  destruct (Z.eqb_spec b 223) as [->|_].
  { intros X. destruct (sized_ok 4 2 _ l k r eq_refl Hl X) as (z & -> & Hz & -> & _). exists (222 + Z.of_nat (2 - 1) :: be (sizeof 2) z).
    split; [reflexivity|]. split; [discriminate|]. apply map_len. constructor; [lia|exact Hz]. }
  discriminate.
Qed.

(** ** Dictionaries *)
Lemma key_eqb_spec a b : reflect (a = b) (key_eqb a b).
Proof.
  destruct a as [x s], b as [y t]. unfold key_eqb. cbn [fst snd].
  destruct (Bool.eqb_spec x y) as [->|N]; cbn [andb]; [|constructor; congruence].
  destruct (String.eqb_spec s t) as [->|N]; constructor; congruence.
Qed.

Definition keys (d : list (mkey * mval)) : list mkey := List.map fst d.
Lemma put_keys k v d : keys (put k v d) = if in_dec key_dec k (keys d) then keys d else keys d ++ [k].
Proof.
  induction d as [|[k0 v0] d IH]; [reflexivity|]. cbn [put fst]. destruct (key_eqb_spec k0 k) as [->|N].
  - cbn [keys List.map fst]. destruct (in_dec key_dec k (k :: List.map fst d)) as [_|X]; [reflexivity|]. exfalso. apply X. now left.
  - cbn [keys List.map fst]. change (List.map fst (put k v d)) with (keys (put k v d)). rewrite IH. change (List.map fst d) with (keys d).
    destruct (in_dec key_dec k (keys d)) as [I|I]; destruct (in_dec key_dec k (k0 :: keys d)) as [J|J]; try reflexivity.
    + exfalso. apply J. now right.
    + destruct J as [J|J]; contradiction.
Qed.
Lemma put_in k v d x w : NoDup (keys d) -> In (x, w) (put k v d) -> (x = k /\ w = v) \/ (x <> k /\ In (x, w) d).
Proof.
  induction d as [|[k0 v0] d IH]; cbn [put fst]; intros ND.
  - intros [X|[]]. inversion X; subst. now left.
  - cbn [keys List.map fst] in ND. inversion ND as [|? ? Hn HN]; subst. destruct (key_eqb_spec k0 k) as [->|N].
    + intros [X|X]; [inversion X; subst; now left|]. right. split; [|now right]. intros ->. apply Hn. now apply (in_map fst) in X.
    + intros [X|X]; [inversion X; subst; right; split; [exact N|now left]|]. destruct (IH HN X) as [A|(A & B)]; [now left|]. right. split; [exact A|now right].
Qed.

Lemma in_firsts k ks : In k (firsts ks) <-> In k ks.
Proof.
  induction ks as [|x ks IH]; [tauto|]. cbn [firsts In]. rewrite filter_In, IH. destruct (key_dec k x) as [->|N]; [tauto|].
  intuition congruence.
Qed.
Lemma firsts_nodup ks : NoDup (firsts ks).
Proof.
  induction ks as [|x ks IH]; cbn [firsts]; constructor.
  - rewrite filter_In. destruct (key_dec x x); intuition congruence.
  - now apply NoDup_filter.
Qed.
Lemma filter_app_one {A} (p : A -> bool) l x : filter p (l ++ [x]) = filter p l ++ (if p x then [x] else []).
Proof. rewrite filter_app. reflexivity. Qed.
Lemma firsts_snoc ks k : firsts (ks ++ [k]) = if in_dec key_dec k ks then firsts ks else firsts ks ++ [k].
Proof.
  induction ks as [|x ks IH]; [reflexivity|]. cbn [app firsts]. rewrite IH.
  destruct (in_dec key_dec k ks) as [I|I]; destruct (in_dec key_dec k (x :: ks)) as [J|J]; try reflexivity.
  - exfalso. apply J. now right.
  - destruct J as [->|J]; [|contradiction]. rewrite filter_app_one. destruct (key_dec k k); [|congruence]. now rewrite app_nil_r.
  - rewrite filter_app_one. destruct (key_dec k x) as [->|N]; [exfalso; apply J; now left|]. reflexivity.
Qed.

Definition built (ps : list (mkey * mval)) : list (mkey * mval) := fold_left (fun d kv => put (fst kv) (snd kv) d) ps [].
Lemma built_dict ps : is_dict ps (built ps).
Proof.
  induction ps as [|[k v] ps IH] using rev_ind; [split; [reflexivity|intros k v []]|].
  destruct IH as (IK & IV). unfold built. rewrite fold_left_app. cbn [fold_left fst snd]. change (fold_left _ ps []) with (built ps).
  assert (ND : NoDup (keys (built ps))) by (unfold keys; rewrite IK; apply firsts_nodup).
  split.
  - change (List.map fst (put k v (built ps))) with (keys (put k v (built ps))). rewrite put_keys, map_app. cbn [List.map fst].
    rewrite firsts_snoc. change (List.map fst (built ps)) with (keys (built ps)) in IK. rewrite IK.
    destruct (in_dec key_dec k (firsts (List.map fst ps))) as [I|I]; destruct (in_dec key_dec k (List.map fst ps)) as [J|J]; try reflexivity;
      rewrite in_firsts in I; contradiction.
  - intros x w Hin. destruct (put_in k v _ x w ND Hin) as [(-> & ->)|(Hx & Hin')].
    + exists ps, []. split; [reflexivity|intros []].
    + destruct (IV x w Hin') as (a & b & -> & Hb). exists a, (b ++ [(k, v)]). split; [now rewrite <- app_assoc|].
      rewrite map_app, in_app_iff. cbn. intuition congruence.
Qed.
Lemma last_unique (k : mkey) (v w : mval) : forall a a' b b', a ++ (k, v) :: b = a' ++ (k, w) :: b' -> ~ In k (List.map fst b) -> ~ In k (List.map fst b') -> v = w.
Proof.
  induction a as [|x a IH]; intros [|x' a'] b b' E Hb Hb'; cbn [app] in E; inversion E; subst.
  - reflexivity.
  - exfalso. apply Hb. rewrite map_app, in_app_iff. right. now left.
  - exfalso. apply Hb'. rewrite map_app, in_app_iff. right. now left.
  - eapply IH; eassumption.
Qed.
Lemma dict_unique ps d e : is_dict ps d -> is_dict ps e -> d = e.
Proof.
  intros (DK & DV) (EK & EV). rewrite <- EK in DK. clear EK. revert e DK EV. induction d as [|[k v] d IH]; intros [|[k' w] e] DK EV; cbn [List.map fst] in DK; inversion DK; subst; [reflexivity|].
  f_equal; [f_equal|].
  - destruct (DV k' v (or_introl eq_refl)) as (a & b & Ea & Hb). destruct (EV k' w (or_introl eq_refl)) as (a' & b' & Ea' & Hb'). rewrite Ea in Ea'.
    eapply last_unique; eassumption.
  - apply IH; [intros x y Hx; apply DV; now right|assumption|intros x y Hx; apply EV; now right].
Qed.

(** ** Objects *)
Lemma plain_len b v : plain b v -> (1 <= length b)%nat.
Proof. intros H; destruct H; cbn [length]; lia. Qed.
Lemma heads_len h k : head (h ++ []) = Some (k, []) -> (1 <= length h)%nat.
Proof. destruct h; [discriminate|cbn; lia]. Qed.

Lemma key_of_val k : key_of (key_val k) = Some k.
Proof. destruct k as [[|] s]; reflexivity. Qed.
Lemma key_val_of v k : key_of v = Some k -> v = key_val k.
Proof. destruct v; cbn; intros X; inversion X; reflexivity. Qed.

Theorem parse_encoded :
  (forall v b, encodes v b -> (1 <= length b)%nat /\ forall fuel r, (length b <= fuel)%nat -> parse fuel (b ++ r) = Some (v, r)) /\
  (forall vs b, encodes_seq vs b -> (length vs <= length b)%nat /\ forall fuel r, (length b <= fuel)%nat -> items (parse fuel) (length vs) (b ++ r) = Some (vs, r)) /\
  (forall ps b, encodes_pairs ps b -> (length ps <= length b)%nat /\ forall fuel r, (length b <= fuel)%nat -> items (pair (parse fuel)) (length ps) (b ++ r) = Some (ps, r)).
Proof.
  apply encodes_ind3.
  - intros v b H. split; [now apply plain_len in H|]. intros [|fuel] r Hf; [apply plain_len in H; lia|].
    cbn [parse]. rewrite (head_plain _ _ _ H). reflexivity.
  - intros s h t H Hu. assert (L := heads_len h _ (head_of_str _ _ [] H)). rewrite app_length. split; [lia|].
    intros [|fuel] r Hf; [lia|]. cbn [parse]. rewrite <- app_assoc, (head_of_str _ _ _ H). cbn [obind fst snd].
    rewrite cut_app by (now rewrite codes_length). cbn [obind fst snd]. rewrite (decode_spec _ _ Hu), text_codes. reflexivity.
  - intros s h H. assert (L := heads_len h _ (head_of_bin _ _ [] H)). rewrite app_length. split; [lia|].
    intros [|fuel] r Hf; [lia|]. cbn [parse]. rewrite <- app_assoc, (head_of_bin _ _ _ H). cbn [obind fst snd].
    rewrite cut_app by (now rewrite codes_length). cbn [obind fst snd]. rewrite text_codes. reflexivity.
  - intros c s h Hc H. assert (L := heads_len h _ (head_of_ext _ _ _ [] Hc H)). rewrite app_length. split; [lia|].
    intros [|fuel] r Hf; [lia|]. cbn [parse]. rewrite <- app_assoc, (head_of_ext _ _ _ _ Hc H). cbn [obind fst snd].
    rewrite cut_app by (now rewrite codes_length). cbn [obind fst snd]. destruct (Z.ltb_spec c 0); [lia|]. rewrite text_codes. reflexivity.
  - intros vs h b H Hs (IHl & IH). assert (L := heads_len h _ (head_of_arr _ _ [] H)). rewrite app_length. split; [lia|].
    intros [|fuel] r Hf; [lia|]. cbn [parse]. rewrite <- app_assoc, (head_of_arr _ _ _ H). cbn [obind fst snd].
    destruct (Z.ltb_spec (Z.of_nat (length (b ++ r))) (Z.of_nat (length vs))) as [X|_]; [rewrite app_length in X; lia|].
    rewrite Nat2Z.id, IH by lia. reflexivity.
  - intros ps d h b H Hs (IHl & IH) Hd. assert (L := heads_len h _ (head_of_map _ _ [] H)). rewrite app_length. split; [lia|].
    intros [|fuel] r Hf; [lia|]. cbn [parse]. rewrite <- app_assoc, (head_of_map _ _ _ H). cbn [obind fst snd].
    destruct (Z.ltb_spec (Z.of_nat (length (b ++ r))) (Z.of_nat (length ps))) as [X|_]; [rewrite app_length in X; lia|].
    rewrite Nat2Z.id, IH by lia. cbn [obind fst snd]. do 3 f_equal. exact (dict_unique ps _ d (built_dict ps) Hd).
  - split; [cbn; lia|]. intros fuel r _. reflexivity.
  - intros v vs b bs H (L1 & IH1) Hs (L2 & IH2). rewrite app_length. cbn [length]. split; [lia|]. intros fuel r Hf.
    cbn [items]. rewrite <- app_assoc, IH1 by lia. cbn [obind fst snd]. rewrite IH2 by lia. reflexivity.
  - split; [cbn; lia|]. intros fuel r _. reflexivity.
  - intros k v ps kb b bs Hk (L1 & IH1) Hv (L2 & IH2) Hs (L3 & IH3). rewrite !app_length. cbn [length]. split; [lia|]. intros fuel r Hf.
    cbn [items]. unfold pair at 1. rewrite <- !app_assoc, IH1 by lia. cbn [obind fst snd]. rewrite key_of_val. cbn [obind]. rewrite IH2 by lia. cbn [obind fst snd].
    rewrite IH3 by lia. reflexivity.
Qed.

Lemma items_encoded p : (forall l v r, Forall byte l -> p l = Some (v, r) -> exists b, l = b ++ r /\ encodes v b) ->
  forall n l vs r, Forall byte l -> items p n l = Some (vs, r) -> length vs = n /\ exists b, l = b ++ r /\ encodes_seq vs b.
Proof.
  intros Hp. induction n as [|n IH]; intros l vs r HB; cbn [items].
  - intros X; inversion X; subst. split; [reflexivity|]. exists []. split; [reflexivity|constructor].
  - destruct (p l) as [[v l']|] eqn:E; [|discriminate]. cbn [obind fst snd]. destruct (items p n l') as [[vs' r']|] eqn:E'; [|discriminate].
    cbn [obind fst snd]. intros X; inversion X; subst. destruct (Hp _ _ _ HB E) as (b & -> & Hb). apply Forall_app in HB as (_ & HB).
    destruct (IH _ _ _ HB E') as (<- & bs & -> & Hbs). split; [reflexivity|]. exists (b ++ bs). rewrite <- app_assoc. split; [reflexivity|]. now constructor.
Qed.
Lemma pairs_encoded p : (forall l v r, Forall byte l -> p l = Some (v, r) -> exists b, l = b ++ r /\ encodes v b) ->
  forall n l vs r, Forall byte l -> items (pair p) n l = Some (vs, r) -> length vs = n /\ exists b, l = b ++ r /\ encodes_pairs vs b.
Proof.
  intros Hp. induction n as [|n IH]; intros l vs r HB; cbn [items].
  - intros X; inversion X; subst. split; [reflexivity|]. exists []. split; [reflexivity|constructor].
  - unfold pair at 1. destruct (p l) as [[kv l']|] eqn:E; [|discriminate]. cbn [obind fst snd]. destruct (key_of kv) as [k|] eqn:Ek; [|discriminate]. cbn [obind].
    destruct (p l') as [[v l'']|] eqn:E1; [|discriminate]. cbn [obind fst snd]. destruct (items (pair p) n l'') as [[vs' r']|] eqn:E'; [|discriminate].
    cbn [obind fst snd]. intros X; inversion X; subst. apply key_val_of in Ek. subst kv. destruct (Hp _ _ _ HB E) as (kb & -> & Hkb). apply Forall_app in HB as (_ & HB).
    destruct (Hp _ _ _ HB E1) as (b & -> & Hb). apply Forall_app in HB as (_ & HB).
    destruct (IH _ _ _ HB E') as (<- & bs & -> & Hbs). split; [reflexivity|]. exists (kb ++ b ++ bs). rewrite <- !app_assoc. split; [reflexivity|]. now constructor.
Qed.

Theorem parse_sound fuel : forall l v r, Forall byte l -> parse fuel l = Some (v, r) -> exists b, l = b ++ r /\ encodes v b.
Proof.
  induction fuel as [|fuel IH]; intros l v r HB; [discriminate|]. cbn [parse]. destruct (head l) as [[k r0]|] eqn:E; [|discriminate]. cbn [obind fst snd].
  destruct (head_ok _ _ _ HB E) as (h & -> & Hn & Hk). apply Forall_app in HB as (_ & HB). destruct k as [v0|n|n|n c|n|n]; cbn [head_fits] in Hk.
  - intros X; inversion X; subst. exists h. split; [reflexivity|]. now constructor.
  - assert (H0 : 0 <= n) by (destruct Hk as [|h' []]; lia).
    destruct (cut n r0) as [[w r']|] eqn:Ec; [|discriminate]. cbn [obind fst snd]. destruct (utf8_decode w) as [t|e] eqn:Eu; [|discriminate].
    intros X; inversion X; subst. apply cut_ok in Ec as (-> & ->); [|exact H0]. apply Forall_app in HB as (HB & _).
    exists (h ++ w). split; [now rewrite <- app_assoc|]. assert (E1 := codes_text w HB). assert (E2 := codes_length (text w)). rewrite E1 in E2.
    rewrite <- E1 at 2. apply (enc_str _ _ t); [now rewrite <- E2|]. rewrite E1. now apply (decode_sound (length w)).
  - assert (H0 : 0 <= n) by (destruct Hk; lia).
    destruct (cut n r0) as [[w r']|] eqn:Ec; [|discriminate]. cbn [obind fst snd].
    intros X; inversion X; subst. apply cut_ok in Ec as (-> & ->); [|exact H0]. apply Forall_app in HB as (HB & _).
    exists (h ++ w). split; [now rewrite <- app_assoc|]. assert (E1 := codes_text w HB). assert (E2 := codes_length (text w)). rewrite E1 in E2.
    rewrite <- E1 at 2. apply enc_bin. now rewrite <- E2.
  - destruct Hk as (H0 & Hk). destruct (cut n r0) as [[w r']|] eqn:Ec; [|discriminate]. cbn [obind fst snd]. destruct (Z.ltb_spec c 0) as [|Hc]; [discriminate|].
    intros X; inversion X; subst. apply cut_ok in Ec as (-> & ->); [|exact H0]. apply Forall_app in HB as (HB & _). destruct (Hk Hc) as (Hc' & Hh).
    exists (h ++ w). split; [now rewrite <- app_assoc|]. assert (E1 := codes_text w HB). assert (E2 := codes_length (text w)). rewrite E1 in E2.
    rewrite <- E1 at 2. apply enc_ext; [lia|]. now rewrite <- E2.
  - assert (H0 : 0 <= n) by (destruct Hk as [|h' []]; lia). destruct (Z.of_nat (length r0) <? n); [discriminate|].
    destruct (items (parse fuel) (Z.to_nat n) r0) as [[vs r']|] eqn:Ei; [|discriminate]. cbn [obind fst snd]. intros X; inversion X; subst.
    destruct (items_encoded _ IH _ _ _ _ HB Ei) as (En & b & -> & Hb). exists (h ++ b). split; [now rewrite <- app_assoc|]. apply enc_arr; [|exact Hb]. rewrite En, Z2Nat.id; assumption.
  - assert (H0 : 0 <= n) by (destruct Hk as [|h' []]; lia). destruct (Z.of_nat (length r0) <? n); [discriminate|].
    destruct (items (pair (parse fuel)) (Z.to_nat n) r0) as [[vs r']|] eqn:Ei; [|discriminate]. cbn [obind fst snd]. intros X; inversion X; subst.
    destruct (pairs_encoded _ IH _ _ _ _ HB Ei) as (En & b & -> & Hb). exists (h ++ b). split; [now rewrite <- app_assoc|]. apply (enc_map vs); [|exact Hb|apply built_dict]. rewrite En, Z2Nat.id; assumption.
Qed.
