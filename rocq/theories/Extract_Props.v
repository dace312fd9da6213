(** * C110: the embedded input file, and printing *)
From Coq Require Import String List ZArith QArith Bool Lia.
From Verif Require Import Prelude PreludeFacts NdArray GData_Model DataSpace_Model DataSpace_Spec DataSpace_Proofs DataSpace_Proofs2 Extract_Model.
Import ListNotations.
Open Scope Z_scope.
Open Scope list_scope.

Ltac eucl := Z.to_euclidean_division_equations; lia.

(** ** Specification *)

(** UTF-8 as in RFC 3629: the bits of the character are spread over the bytes, in as few
    bytes as possible. *)
Definition six (x : Z) : Prop := 0 <= x < 64.
Inductive char_bytes : Z -> list Z -> Prop :=
| one_byte c : 0 <= c < 128 -> char_bytes c [c]
| two_bytes x y : 0 <= x < 32 -> six y -> 128 <= x * 64 + y -> char_bytes (x * 64 + y) [192 + x; 128 + y]
| three_bytes x y z : 0 <= x < 16 -> six y -> six z -> 2048 <= (x * 64 + y) * 64 + z -> ~ 55296 <= (x * 64 + y) * 64 + z <= 57343 ->
    char_bytes ((x * 64 + y) * 64 + z) [224 + x; 128 + y; 128 + z]
| four_bytes x y z w : 0 <= x < 8 -> six y -> six z -> six w -> 65536 <= ((x * 64 + y) * 64 + z) * 64 + w <= 1114111 ->
    char_bytes (((x * 64 + y) * 64 + z) * 64 + w) [240 + x; 128 + y; 128 + z; 128 + w].
Inductive utf8 : list Z -> list Z -> Prop :=
| utf8_nil : utf8 [] []
| utf8_cons c t b bs : char_bytes c b -> utf8 t bs -> utf8 (c :: t) (b ++ bs).

(** Base64 as in RFC 4648: [letters] is the alphabet; three bytes and four letters are the
    same number, at the end one or two bytes are filled up with zero bits. *)
Definition letters : list Z :=
  List.map (fun k => 65 + Z.of_nat k) (seq 0 26) ++ List.map (fun k => 97 + Z.of_nat k) (seq 0 26) ++ List.map (fun k => 48 + Z.of_nat k) (seq 0 10) ++ [43; 47].
Definition pad : Z := 61.
Definition letter (c s : Z) : Prop := 0 <= s /\ nth_error letters (Z.to_nat s) = Some c.
Definition byte (b : Z) : Prop := 0 <= b < 256.
Inductive base64 : list Z -> list Z -> Prop :=
| b64_end : base64 [] []
| b64_one b c1 c2 s1 s2 : byte b -> letter c1 s1 -> letter c2 s2 -> s1 * 64 + s2 = b * 16 -> base64 [b] [c1; c2; pad; pad]
| b64_two b1 b2 c1 c2 c3 s1 s2 s3 : byte b1 -> byte b2 -> letter c1 s1 -> letter c2 s2 -> letter c3 s3 -> (s1 * 64 + s2) * 64 + s3 = (b1 * 256 + b2) * 4 -> base64 [b1; b2] [c1; c2; c3; pad]
| b64_three b1 b2 b3 l c1 c2 c3 c4 s1 s2 s3 s4 cs : byte b1 -> byte b2 -> byte b3 -> letter c1 s1 -> letter c2 s2 -> letter c3 s3 -> letter c4 s4 ->
    ((s1 * 64 + s2) * 64 + s3) * 64 + s4 = (b1 * 256 + b2) * 256 + b3 -> base64 l cs -> base64 (b1 :: b2 :: b3 :: l) (c1 :: c2 :: c3 :: c4 :: cs).

(** Line breaks and other characters that do not belong to the encoding, anywhere. *)
Definition noise (c : Z) : Prop := ~ In c letters /\ c <> pad.
Inductive spread : list Z -> list Z -> Prop :=
| spread_nil : spread [] []
| spread_keep c l l' : spread l l' -> spread (c :: l) (c :: l')
| spread_noise c l l' : noise c -> spread l l' -> spread l (c :: l').

(** ** UTF-8 *)

Lemma div_add x y : six y -> (x * 64 + y) / 64 = x /\ (x * 64 + y) mod 64 = y.
Proof. unfold six. intros H. split; eucl. Qed.

Lemma char_encode c b : char_bytes c b -> utf8_char c = Ok b.
Proof.
  unfold utf8_char. intros [c' H|x y Hx Hy H|x y z Hx Hy Hz H Hs|x y z w Hx Hy Hz Hw H]; unfold six in *.
  - destruct (Z.ltb_spec c' 128); [reflexivity|lia].
  - destruct (Z.ltb_spec (x * 64 + y) 128); [lia|]. destruct (Z.ltb_spec (x * 64 + y) 2048); [|lia]. repeat f_equal; eucl.
  - destruct (Z.ltb_spec ((x * 64 + y) * 64 + z) 128); [lia|]. destruct (Z.ltb_spec ((x * 64 + y) * 64 + z) 2048); [lia|].
    destruct (Z.leb_spec 55296 ((x * 64 + y) * 64 + z)), (Z.leb_spec ((x * 64 + y) * 64 + z) 57343); cbn [andb]; try lia; destruct (Z.ltb_spec ((x * 64 + y) * 64 + z) 65536); try lia; repeat f_equal; eucl.
  - set (v := ((x * 64 + y) * 64 + z) * 64 + w) in *. destruct (Z.ltb_spec v 128); [lia|]. destruct (Z.ltb_spec v 2048); [lia|].
    destruct (Z.leb_spec 55296 v), (Z.leb_spec v 57343); cbn [andb]; try lia; destruct (Z.ltb_spec v 65536); try lia; unfold v in *; repeat f_equal; eucl.
Qed.

Lemma encode_spec t b : utf8 t b -> utf8_encode t = Ok b.
Proof. induction 1 as [|c t b bs Hc _ IH]; [reflexivity|]. cbn [utf8_encode]. now rewrite (char_encode _ _ Hc), IH. Qed.

Lemma cont_ok y : six y -> cont (128 + y) = true.
Proof. unfold six, cont. intros H. destruct (Z.leb_spec 128 (128 + y)), (Z.ltb_spec (128 + y) 192); try lia; reflexivity. Qed.

Ltac step_lt := match goal with
  | |- context [?a <? ?b] => let H := fresh in destruct (Z.ltb_spec a b) as [H|H]; try lia
  | |- context [?a <=? ?b] => let H := fresh in destruct (Z.leb_spec a b) as [H|H]; try lia
  end; cbn [negb andb].

Lemma decode_spec t b : utf8 t b -> utf8_decode b = Ok t.
Proof.
  induction 1 as [|c t b bs Hc _ IH]; [reflexivity|]. destruct Hc as [c H|x y Hx Hy H|x y z Hx Hy Hz H Hs|x y z w Hx Hy Hz Hw H]; cbn [app utf8_decode]; rewrite ?cont_ok, IH by assumption; cbn [negb bind].
  - step_lt. reflexivity.
  - unfold six in *. do 3 step_lt. replace ((192 + x - 192) * 64 + (128 + y - 128)) with (x * 64 + y) by lia. step_lt. reflexivity.
  - unfold six in *. do 4 step_lt. replace ((224 + x - 224) * 4096 + (128 + y - 128) * 64 + (128 + z - 128)) with ((x * 64 + y) * 64 + z) by lia.
    do 2 step_lt; try reflexivity. step_lt. reflexivity.
  - unfold six in *. do 4 step_lt. replace ((240 + x - 240) * 262144 + (128 + y - 128) * 4096 + (128 + z - 128) * 64 + (128 + w - 128)) with (((x * 64 + y) * 64 + z) * 64 + w) by lia.
    do 3 step_lt. reflexivity.
Qed.

(** Every text of proper characters has an encoding. *)
Definition scalar (c : Z) : Prop := 0 <= c <= 1114111 /\ ~ 55296 <= c <= 57343.
Lemma char_total c : scalar c -> exists b, char_bytes c b.
Proof.
  intros (H & Hs). destruct (Z_lt_dec c 128) as [H1|H1]; [exists [c]; constructor; lia|].
  destruct (Z_lt_dec c 2048) as [H2|H2].
  { pose proof (two_bytes (c / 64) (c mod 64)) as K. replace (c / 64 * 64 + c mod 64) with c in K by eucl. eexists. apply K; unfold six; eucl. }
  destruct (Z_lt_dec c 65536) as [H3|H3].
  { pose proof (three_bytes (c / 4096) (c / 64 mod 64) (c mod 64)) as K. replace ((c / 4096 * 64 + c / 64 mod 64) * 64 + c mod 64) with c in K by eucl. eexists. apply K; unfold six; eucl. }
  pose proof (four_bytes (c / 262144) (c / 4096 mod 64) (c / 64 mod 64) (c mod 64)) as K. replace (((c / 262144 * 64 + c / 4096 mod 64) * 64 + c / 64 mod 64) * 64 + c mod 64) with c in K by eucl. eexists. apply K; unfold six; eucl.
Qed.

Lemma utf8_total t : Forall scalar t -> exists b, utf8 t b.
Proof. induction 1 as [|c t Hc _ (bs & IH)]; [exists []; constructor|]. destruct (char_total c Hc) as (b & Hb). exists (b ++ bs). now constructor. Qed.

Lemma encode_sound t b : Forall (fun c => 0 <= c <= 1114111) t -> utf8_encode t = Ok b -> utf8 t b.
Proof.
  intros Ht. revert b. induction Ht as [|c t Hc _ IH]; intros b E; cbn [utf8_encode] in E; [injection E as <-; constructor|].
  apply bind_ok in E as (bc & Ec & E). apply bind_ok in E as (bs & Eb & E). injection E as <-. constructor; [|now apply IH].
  assert (Sc : scalar c). { split; [exact Hc|]. intros Hs. unfold utf8_char in Ec. destruct (Z.ltb_spec c 128); [lia|]. destruct (Z.ltb_spec c 2048); [lia|]. destruct (Z.leb_spec 55296 c), (Z.leb_spec c 57343); cbn [andb] in Ec; try lia. discriminate Ec. }
  destruct (char_total c Sc) as (b' & Hb). rewrite (char_encode _ _ Hb) in Ec. now injection Ec as <-.
Qed.

Ltac step_in H := match type of H with
  | context [?a <? ?b] => let K := fresh in destruct (Z.ltb_spec a b) as [K|K]
  | context [?a <=? ?b] => let K := fresh in destruct (Z.leb_spec a b) as [K|K]
  end; cbn [negb andb] in H; try discriminate H.

Lemma cont_six b : cont b = true -> six (b - 128).
Proof. unfold cont, six. intros H. apply andb_true_iff in H as (H1 & H2). apply Z.leb_le in H1. apply Z.ltb_lt in H2. lia. Qed.

Lemma decode_sound n : forall b t, (length b <= n)%nat -> Forall byte b -> utf8_decode b = Ok t -> utf8 t b.
Proof.
  induction n as [|n IH]; intros b t Hn Hb E; [destruct b; [injection E as <-; constructor|cbn in Hn; lia]|].
  destruct b as [|a l1]; [injection E as <-; constructor|]. pose proof (Forall_inv Hb) as Ba. pose proof (Forall_inv_tail Hb) as B1. unfold byte in Ba. cbn [length] in Hn. cbn [utf8_decode] in E.
  step_in E. { apply bind_ok in E as (t' & Et & E). injection E as <-. apply (utf8_cons a t' [a] l1); [constructor; lia|]. apply IH; [lia|exact B1|exact Et]. }
  step_in E. destruct l1 as [|b l2]; [discriminate E|]. pose proof (Forall_inv_tail B1) as B2. cbn [length] in Hn. destruct (cont b) eqn:Cb; cbn [negb] in E; [|discriminate E]. apply cont_six in Cb.
  step_in E. { step_in E. apply bind_ok in E as (t' & Et & E). injection E as <-. apply (utf8_cons _ t' [a; b] l2); [|apply IH; [lia|exact B2|exact Et]].
    replace [a; b] with [192 + (a - 192); 128 + (b - 128)] by (repeat f_equal; lia). apply two_bytes; [lia|exact Cb|lia]. }
  destruct l2 as [|c l3]; [discriminate E|]. pose proof (Forall_inv_tail B2) as B3. cbn [length] in Hn. destruct (cont c) eqn:Cc; cbn [negb] in E; [|discriminate E]. apply cont_six in Cc.
  step_in E.
  { assert (V : 2048 <= (a - 224) * 4096 + (b - 128) * 64 + (c - 128) /\ ~ 55296 <= (a - 224) * 4096 + (b - 128) * 64 + (c - 128) <= 57343). { step_in E. step_in E; [step_in E|]; lia. }
    match type of E with (if ?u then _ else _) = _ => destruct u; [|discriminate E] end.
    apply bind_ok in E as (t' & Et & E). injection E as <-. apply (utf8_cons _ t' [a; b; c] l3); [|apply IH; [lia|exact B3|exact Et]].
    replace [a; b; c] with [224 + (a - 224); 128 + (b - 128); 128 + (c - 128)] by (repeat f_equal; lia). replace ((a - 224) * 4096 + (b - 128) * 64 + (c - 128)) with (((a - 224) * 64 + (b - 128)) * 64 + (c - 128)) in * by lia. apply three_bytes; [lia|assumption..|lia|lia]. }
  destruct l3 as [|d l4]; [discriminate E|]. pose proof (Forall_inv_tail B3) as B4. cbn [length] in Hn. destruct (cont d) eqn:Cd; cbn [negb] in E; [|discriminate E]. apply cont_six in Cd.
  step_in E. step_in E. step_in E. apply bind_ok in E as (t' & Et & E). injection E as <-. apply (utf8_cons _ t' [a; b; c; d] l4); [|apply IH; [lia|exact B4|exact Et]].
  replace [a; b; c; d] with [240 + (a - 240); 128 + (b - 128); 128 + (c - 128); 128 + (d - 128)] by (repeat f_equal; lia).
  replace ((a - 240) * 262144 + (b - 128) * 4096 + (c - 128) * 64 + (d - 128)) with ((((a - 240) * 64 + (b - 128)) * 64 + (c - 128)) * 64 + (d - 128)) in * by lia. apply four_bytes; [lia|assumption..|lia].
Qed.

(** ** Base64 *)

Lemma sextet_letter c s : letter c s -> sextet c = Some s /\ 0 <= s < 64 /\ c <> pad /\ 0 <= c < 128.
Proof.
  intros (H0 & H). assert (L : (Z.to_nat s < 64)%nat) by (change 64%nat with (length letters); apply nth_error_Some; congruence).
  assert (A : forall k, (k < 64)%nat -> exists c, nth_error letters k = Some c /\ sextet c = Some (Z.of_nat k) /\ c <> pad /\ 0 <= c < 128).
  { assert (F : forallb (fun k => match nth_error letters k with Some c => match sextet c with Some v => (v =? Z.of_nat k) && negb (c =? pad) && (0 <=? c) && (c <? 128) | None => false end | None => false end) (seq 0 64) = true) by (vm_compute; reflexivity).
    rewrite forallb_forall in F. intros k Hk. specialize (F k ltac:(apply in_seq; lia)). destruct (nth_error letters k) as [x|]; [|discriminate F]. exists x. split; [reflexivity|]. destruct (sextet x) as [v|]; [|discriminate F].
    apply andb_true_iff in F as (F & F4). apply andb_true_iff in F as (F & F3). apply andb_true_iff in F as (F1 & F2). apply Z.eqb_eq in F1 as ->. apply negb_true_iff, Z.eqb_neq in F2. apply Z.leb_le in F3. apply Z.ltb_lt in F4. auto. }
  destruct (A (Z.to_nat s) L) as (c' & E & Es & Hp & Hr). rewrite E in H. injection H as ->. rewrite Z2Nat.id in Es by exact H0. repeat split; try assumption; lia.
Qed.

Lemma letter_sextet c s : sextet c = Some s -> letter c s.
Proof.
  unfold sextet, letter. intros H.
  assert (R : forall k, (k < 64)%nat -> nth_error letters k = Some (if (k <? 26)%nat then 65 + Z.of_nat k else if (k <? 52)%nat then 71 + Z.of_nat k else if (k <? 62)%nat then Z.of_nat k - 4 else if (k =? 62)%nat then 43 else 47)).
  { assert (F : forallb (fun k => match nth_error letters k with Some c => c =? (if (k <? 26)%nat then 65 + Z.of_nat k else if (k <? 52)%nat then 71 + Z.of_nat k else if (k <? 62)%nat then Z.of_nat k - 4 else if (k =? 62)%nat then 43 else 47) | None => false end) (seq 0 64) = true) by (vm_compute; reflexivity).
    rewrite forallb_forall in F. intros k Hk. specialize (F k ltac:(apply in_seq; lia)). destruct (nth_error letters k); [|discriminate F]. apply Z.eqb_eq in F. now rewrite F. }
  revert H. destruct (Z.leb_spec 65 c), (Z.leb_spec c 90); cbn [andb]; try lia; [intros [= <-]|..].
  { split; [lia|]. rewrite R by lia. destruct (Nat.ltb_spec (Z.to_nat (c - 65)) 26); [|lia]. f_equal. lia. }
  all: destruct (Z.leb_spec 97 c), (Z.leb_spec c 122); cbn [andb]; try lia; try (intros [= <-]; split; [lia|]; rewrite R by lia; destruct (Nat.ltb_spec (Z.to_nat (c - 71)) 26); [lia|]; destruct (Nat.ltb_spec (Z.to_nat (c - 71)) 52); [|lia]; f_equal; lia).
  all: destruct (Z.leb_spec 48 c), (Z.leb_spec c 57); cbn [andb]; try lia; try (intros [= <-]; split; [lia|]; rewrite R by lia; destruct (Nat.ltb_spec (Z.to_nat (c + 4)) 26); [lia|]; destruct (Nat.ltb_spec (Z.to_nat (c + 4)) 52); [lia|]; destruct (Nat.ltb_spec (Z.to_nat (c + 4)) 62); [|lia]; f_equal; lia).
  all: destruct (Z.eqb_spec c 43) as [->|]; try (intros [= <-]; split; [lia|reflexivity]); destruct (Z.eqb_spec c 47) as [->|]; try (intros [= <-]; split; [lia|reflexivity]); discriminate.
Qed.

Lemma noise_skip c : noise c -> (c =? 61) = false /\ sextet c = None.
Proof.
  intros (Hl & Hp). split; [now apply Z.eqb_neq|]. destruct (sextet c) as [s|] eqn:E; [|reflexivity]. destruct (letter_sextet c s E) as (_ & H). apply nth_error_In in H. contradiction.
Qed.

(** Noise in front is skipped. *)
Lemma skip_to x cs l q pads left : spread (x :: cs) l -> exists l', spread cs l' /\ a2b q pads left l = a2b q pads left (x :: l').
Proof.
  intros H. remember (x :: cs) as k eqn:Ek. revert x cs Ek. induction H as [|c m m' H IH|c m m' Hc H IH]; intros x cs Ek; [discriminate Ek|..].
  - injection Ek as -> ->. exists m'. auto.
  - destruct (IH x cs Ek) as (l' & Hs & E). exists l'. split; [exact Hs|]. destruct (noise_skip c Hc) as (E1 & E2). cbn [a2b]. rewrite E1, E2. exact E.
Qed.
Lemma skip_end l : spread [] l -> a2b 0 0 0 l = Ok [].
Proof.
  intros H. remember [] as k eqn:Ek. induction H as [|c m m' H IH|c m m' Hc H IH]; [reflexivity|discriminate Ek|]. destruct (noise_skip c Hc) as (E1 & E2). cbn [a2b]. rewrite E1, E2. now apply IH.
Qed.

Lemma a2b_letter q pads left c s l : letter c s ->
  a2b q pads left (c :: l) = if q =? 0 then a2b 1 0 s l else if q =? 1 then let* r := a2b 2 0 (s mod 16) l in Ok (left * 4 + s / 16 :: r) else if q =? 2 then let* r := a2b 3 0 (s mod 4) l in Ok (left * 16 + s / 4 :: r) else let* r := a2b 0 0 0 l in Ok (left * 64 + s :: r).
Proof. intros H. destruct (sextet_letter c s H) as (E & _ & Hp & _). cbn [a2b]. destruct (Z.eqb_spec c 61); [contradiction|]. now rewrite E. Qed.

(** The four letters of a group, wherever they are. *)
Lemma two_letters c1 c2 s1 s2 cs l : letter c1 s1 -> letter c2 s2 -> spread (c1 :: c2 :: cs) l ->
  exists l', spread cs l' /\ a2b 0 0 0 l = let* r := a2b 2 0 (s2 mod 16) l' in Ok (s1 * 4 + s2 / 16 :: r).
Proof.
  intros L1 L2 H. destruct (skip_to _ _ _ 0 0 0 H) as (l1 & H1 & ->). rewrite (a2b_letter _ _ _ _ _ _ L1). cbn [Z.eqb]. destruct (skip_to _ _ _ 1 0 s1 H1) as (l2 & H2 & ->). rewrite (a2b_letter _ _ _ _ _ _ L2). cbn [Z.eqb Pos.eqb]. exists l2. auto.
Qed.

Lemma join4 s1 s2 s3 s4 b1 b2 b3 : 0 <= s1 < 64 -> 0 <= s2 < 64 -> 0 <= s3 < 64 -> 0 <= s4 < 64 -> 0 <= b1 < 256 -> 0 <= b2 < 256 -> 0 <= b3 < 256 ->
  ((s1 * 64 + s2) * 64 + s3) * 64 + s4 = (b1 * 256 + b2) * 256 + b3 -> s1 * 4 + s2 / 16 = b1 /\ s2 mod 16 * 16 + s3 / 4 = b2 /\ s3 mod 4 * 64 + s4 = b3.
Proof. intros. assert (A : s1 * 4 + s2 / 16 = b1) by eucl. assert (B : s2 mod 16 * 16 + s3 / 4 = b2) by eucl. split; [exact A|]. split; [exact B|]. eucl. Qed.

Lemma join3 s1 s2 s3 b1 b2 : 0 <= s1 < 64 -> 0 <= s2 < 64 -> 0 <= s3 < 64 -> 0 <= b1 < 256 -> 0 <= b2 < 256 ->
  (s1 * 64 + s2) * 64 + s3 = (b1 * 256 + b2) * 4 -> s1 * 4 + s2 / 16 = b1 /\ s2 mod 16 * 16 + s3 / 4 = b2.
Proof. intros. assert (A : s1 * 4 + s2 / 16 = b1) by eucl. split; [exact A|]. eucl. Qed.

Theorem C110_base64 d cs l : base64 d cs -> spread cs l -> decodebytes l = Ok d.
Proof.
  unfold decodebytes. intros H. revert l. induction H as [|b c1 c2 s1 s2 Hb L1 L2 E|b1 b2 c1 c2 c3 s1 s2 s3 B1 B2 L1 L2 L3 E|b1 b2 b3 d c1 c2 c3 c4 s1 s2 s3 s4 cs B1 B2 B3 L1 L2 L3 L4 E _ IH]; intros l Hs; unfold byte in *.
  - now apply skip_end.
  - destruct (two_letters _ _ _ _ _ _ L1 L2 Hs) as (l' & H' & ->). destruct (skip_to _ _ _ 2 0 (s2 mod 16) H') as (l2 & H2 & ->). cbn [a2b]. unfold pad. cbn [Z.eqb Pos.eqb Z.leb Z.compare Pos.compare Pos.compare_cont Z.add]. destruct (skip_to _ _ _ 2 1 (s2 mod 16) H2) as (l3 & H3 & ->). cbn. destruct (sextet_letter _ _ L1) as (_ & R1 & _), (sextet_letter _ _ L2) as (_ & R2 & _). repeat f_equal. eucl.
  - destruct (two_letters _ _ _ _ _ _ L1 L2 Hs) as (l' & H' & ->). destruct (skip_to _ _ _ 2 0 (s2 mod 16) H') as (l2 & H2 & ->). rewrite (a2b_letter _ _ _ _ _ _ L3). cbn [Z.eqb Pos.eqb]. destruct (skip_to _ _ _ 3 0 (s3 mod 4) H2) as (l3 & H3 & ->). cbn [a2b]. unfold pad. cbn [Z.eqb Pos.eqb Z.leb Z.compare Pos.compare Pos.compare_cont Z.add Pos.add bind].
    destruct (sextet_letter _ _ L1) as (_ & R1 & _), (sextet_letter _ _ L2) as (_ & R2 & _), (sextet_letter _ _ L3) as (_ & R3 & _). destruct (join3 s1 s2 s3 b1 b2) as (-> & ->); auto.
  - destruct (two_letters _ _ _ _ _ _ L1 L2 Hs) as (l' & H' & ->). destruct (skip_to _ _ _ 2 0 (s2 mod 16) H') as (l2 & H2 & ->). rewrite (a2b_letter _ _ _ _ _ _ L3). cbn [Z.eqb Pos.eqb]. destruct (skip_to _ _ _ 3 0 (s3 mod 4) H2) as (l3 & H3 & ->). rewrite (a2b_letter _ _ _ _ _ _ L4). cbn [Z.eqb Pos.eqb]. rewrite (IH l3 H3). cbn [bind].
    destruct (sextet_letter _ _ L1) as (_ & R1 & _), (sextet_letter _ _ L2) as (_ & R2 & _), (sextet_letter _ _ L3) as (_ & R3 & _), (sextet_letter _ _ L4) as (_ & R4 & _). destruct (join4 s1 s2 s3 s4 b1 b2 b3) as (-> & -> & ->); auto.
Qed.

Lemma has_letter s : 0 <= s < 64 -> exists c, letter c s.
Proof. intros H. destruct (nth_error letters (Z.to_nat s)) as [c|] eqn:E; [exists c; split; [lia|exact E]|]. apply nth_error_None in E. change (length letters) with 64%nat in E. lia. Qed.

(** All bytes can be encoded. *)
Theorem C110_encodable d : Forall byte d -> exists cs, base64 d cs.
Proof.
  assert (G : forall n d, (length d <= n)%nat -> Forall byte d -> exists cs, base64 d cs).
  { induction n as [|n IH]; intros l Hn Hl; [destruct l; [exists []; constructor|cbn in Hn; lia]|].
    destruct l as [|b1 [|b2 [|b3 l]]]; [exists []; constructor|..].
    - pose proof (Forall_inv Hl) as B. unfold byte in B. destruct (has_letter (b1 / 4)) as (c1 & L1); [eucl|]. destruct (has_letter (b1 mod 4 * 16)) as (c2 & L2); [eucl|]. exists [c1; c2; pad; pad]. apply (b64_one b1 c1 c2 _ _ B L1 L2). eucl.
    - pose proof (Forall_inv Hl) as B1. pose proof (Forall_inv (Forall_inv_tail Hl)) as B2. unfold byte in B1, B2. destruct (has_letter (b1 / 4)) as (c1 & L1); [eucl|]. destruct (has_letter (b1 mod 4 * 16 + b2 / 16)) as (c2 & L2); [eucl|]. destruct (has_letter (b2 mod 16 * 4)) as (c3 & L3); [eucl|]. exists [c1; c2; c3; pad]. apply (b64_two b1 b2 c1 c2 c3 _ _ _ B1 B2 L1 L2 L3). eucl.
    - pose proof (Forall_inv Hl) as B1. pose proof (Forall_inv (Forall_inv_tail Hl)) as B2. pose proof (Forall_inv (Forall_inv_tail (Forall_inv_tail Hl))) as B3. unfold byte in B1, B2, B3.
      destruct (has_letter (b1 / 4)) as (c1 & L1); [eucl|]. destruct (has_letter (b1 mod 4 * 16 + b2 / 16)) as (c2 & L2); [eucl|]. destruct (has_letter (b2 mod 16 * 4 + b3 / 64)) as (c3 & L3); [eucl|]. destruct (has_letter (b3 mod 64)) as (c4 & L4); [eucl|].
      destruct (IH l) as (cs & Hcs); [cbn in Hn; lia|apply Forall_inv_tail, Forall_inv_tail, Forall_inv_tail in Hl; exact Hl|]. exists (c1 :: c2 :: c3 :: c4 :: cs). apply (b64_three b1 b2 b3 l c1 c2 c3 c4 _ _ _ _ cs B1 B2 B3 L1 L2 L3 L4); [eucl|exact Hcs]. }
  intros H. exact (G (length d) d (le_n _) H).
Qed.

(** What follows the padding is not looked at. *)
Theorem C110_after_padding d cs rest : base64 d cs -> In pad cs -> decodebytes (cs ++ rest) = Ok d.
Proof.
  unfold decodebytes. intros H Hp. induction H as [|b c1 c2 s1 s2 Hb L1 L2 E|b1 b2 c1 c2 c3 s1 s2 s3 B1 B2 L1 L2 L3 E|b1 b2 b3 d c1 c2 c3 c4 s1 s2 s3 s4 cs B1 B2 B3 L1 L2 L3 L4 E _ IH]; unfold byte in *; cbn [app].
  - destruct Hp.
  - rewrite (a2b_letter _ _ _ _ _ _ L1). cbn [Z.eqb]. rewrite (a2b_letter _ _ _ _ _ _ L2). cbn [Z.eqb Pos.eqb]. cbn [a2b]. unfold pad. cbn. destruct (sextet_letter _ _ L1) as (_ & R1 & _), (sextet_letter _ _ L2) as (_ & R2 & _). repeat f_equal. eucl.
  - rewrite (a2b_letter _ _ _ _ _ _ L1). cbn [Z.eqb]. rewrite (a2b_letter _ _ _ _ _ _ L2). cbn [Z.eqb Pos.eqb]. rewrite (a2b_letter _ _ _ _ _ _ L3). cbn [Z.eqb Pos.eqb]. cbn [a2b]. unfold pad. cbn. destruct (sextet_letter _ _ L1) as (_ & R1 & _), (sextet_letter _ _ L2) as (_ & R2 & _), (sextet_letter _ _ L3) as (_ & R3 & _). destruct (join3 s1 s2 s3 b1 b2) as (-> & ->); auto.
  - rewrite (a2b_letter _ _ _ _ _ _ L1). cbn [Z.eqb]. rewrite (a2b_letter _ _ _ _ _ _ L2). cbn [Z.eqb Pos.eqb]. rewrite (a2b_letter _ _ _ _ _ _ L3). cbn [Z.eqb Pos.eqb]. rewrite (a2b_letter _ _ _ _ _ _ L4). cbn [Z.eqb Pos.eqb]. destruct (sextet_letter _ _ L1) as (_ & R1 & P1 & _), (sextet_letter _ _ L2) as (_ & R2 & P2 & _), (sextet_letter _ _ L3) as (_ & R3 & P3 & _), (sextet_letter _ _ L4) as (_ & R4 & P4 & _).
    rewrite IH by (destruct Hp as [Hp|[Hp|[Hp|[Hp|Hp]]]]; try contradiction; exact Hp). cbn [bind]. destruct (join4 s1 s2 s3 s4 b1 b2 b3) as (-> & -> & ->); auto.
Qed.

(** Without padding the letters must come in fours. *)
Definition is_letter (c : Z) : bool := List.existsb (Z.eqb c) letters.
Lemma is_letter_sextet c : is_letter c = match sextet c with Some _ => true | None => false end.
Proof.
  unfold is_letter. destruct (sextet c) as [s|] eqn:E.
  - apply existsb_exists. exists c. split; [|apply Z.eqb_refl]. destruct (letter_sextet c s E) as (_ & H). exact (nth_error_In _ _ H).
  - destruct (existsb (Z.eqb c) letters) eqn:H; [|reflexivity]. apply existsb_exists in H as (x & Hx & Hc). apply Z.eqb_eq in Hc as <-. apply In_nth_error in Hx as (n & Hn). destruct (sextet_letter c (Z.of_nat n)) as (E' & _); [split; [lia|now rewrite Nat2Z.id]|]. congruence.
Qed.

Theorem C110_fours l : ~ In pad l -> (exists d, decodebytes l = Ok d) <-> (length (List.filter is_letter l) mod 4 = 0)%nat.
Proof.
  unfold decodebytes. assert (G : forall l q left, (q < 4)%nat -> ~ In pad l -> (exists d, a2b (Z.of_nat q) 0 left l = Ok d) <-> ((q + length (List.filter is_letter l)) mod 4 = 0)%nat).
  { clear l. induction l as [|c l IH]; intros q left Hq Hp.
    - cbn [a2b List.filter length]. rewrite Nat.add_0_r, Nat.mod_small by exact Hq. destruct (Z.eqb_spec (Z.of_nat q) 0) as [E|E]; split; try (intros (d & H); discriminate H); try lia; intros _. now exists [].
    - assert (Hl : ~ In pad l) by (intros H; apply Hp; now right). cbn [List.filter]. rewrite is_letter_sextet. cbn [a2b]. destruct (Z.eqb_spec c 61) as [->|Hc]; [exfalso; apply Hp; now left|]. destruct (sextet c) as [v|]; [|now apply IH].
      cbn [length]. destruct q as [|[|[|[|q]]]]; [..|lia]; cbn [Z.of_nat Z.eqb Pos.of_succ_nat Pos.succ Pos.eqb Nat.add].
      + rewrite (IH 1%nat v ltac:(lia) Hl). reflexivity.
      + rewrite <- (IH 2%nat (v mod 16) ltac:(lia) Hl). cbn [Z.of_nat Pos.of_succ_nat Pos.succ]. destruct (a2b 2 0 (v mod 16) l); cbn [bind]; split; intros (d & H); try discriminate H; eauto.
      + rewrite <- (IH 3%nat (v mod 4) ltac:(lia) Hl). cbn [Z.of_nat Pos.of_succ_nat Pos.succ]. destruct (a2b 3 0 (v mod 4) l); cbn [bind]; split; intros (d & H); try discriminate H; eauto.
      + replace ((S (S (S (S (length (List.filter is_letter l)))))) mod 4)%nat with ((0 + length (List.filter is_letter l)) mod 4)%nat.
        * rewrite <- (IH 0%nat 0 ltac:(lia) Hl). cbn [Z.of_nat]. destruct (a2b 0 0 0 l); cbn [bind]; split; intros (d & H); try discriminate H; eauto.
        * replace (S (S (S (S (length (List.filter is_letter l)))))) with (length (List.filter is_letter l) + 1 * 4)%nat by lia. now rewrite Nat.mod_add by lia. }
  intros Hp. exact (G l 0%nat 0 ltac:(lia) Hp).
Qed.

(** Decoded bytes are bytes. *)
Theorem C110_bytes l d : decodebytes l = Ok d -> Forall byte d.
Proof.
  unfold decodebytes. assert (G : forall l q pads left d, (q = 0 \/ q = 1 /\ 0 <= left < 64 \/ q = 2 /\ 0 <= left < 16 \/ q = 3 /\ 0 <= left < 4) -> a2b q pads left l = Ok d -> Forall byte d).
  { clear. induction l as [|c l IH]; intros q pads left d Hq E; cbn [a2b] in E; [destruct (q =? 0); [injection E as <-; constructor|discriminate E]|].
    destruct (c =? 61); [destruct (2 <=? q); [destruct (4 <=? q + (pads + 1)); [injection E as <-; constructor|]|]; eapply IH; eauto|].
    destruct (sextet c) as [v|] eqn:Ev; [|eapply IH; eauto]. destruct (sextet_letter c v (letter_sextet c v Ev)) as (_ & Hv & _).
    destruct Hq as [->|[(-> & Hl)|[(-> & Hl)|(-> & Hl)]]]; cbn [Z.eqb Pos.eqb] in E.
    - eapply IH; [|exact E]. auto.
    - apply bind_ok in E as (r & Er & E). injection E as <-. constructor; [unfold byte; eucl|]. eapply IH; [|exact Er]. right; right; left. split; [reflexivity|eucl].
    - apply bind_ok in E as (r & Er & E). injection E as <-. constructor; [unfold byte; eucl|]. eapply IH; [|exact Er]. right; right; right. split; [reflexivity|eucl].
    - apply bind_ok in E as (r & Er & E). injection E as <-. constructor; [unfold byte; eucl|]. eapply IH; [|exact Er]. now left. }
  intros E. eapply G; [|exact E]. now left.
Qed.

(** ** The command *)

(** Text between ASCII and bytes. *)
Lemma char_noise c b : scalar c -> noise c -> char_bytes c b -> forall cs l, spread cs l -> spread cs (b ++ l).
Proof.
  intros _ Hn Hb. assert (High : forall x, 128 <= x -> noise x).
  { intros x Hx. split; [|unfold pad; lia]. intros Hi. apply In_nth_error in Hi as (n & E). destruct (sextet_letter x (Z.of_nat n)) as (_ & _ & _ & H); [split; [lia|now rewrite Nat2Z.id]|]. lia. }
  destruct Hb as [c H|x y Hx Hy H|x y z Hx Hy Hz H Hs|x y z w Hx Hy Hz Hw H]; intros cs l Hl; unfold six in *; cbn [app]; repeat (apply spread_noise; [first [exact Hn|apply High; lia]|]); exact Hl.
Qed.

Lemma base64_ascii d cs : base64 d cs -> Forall (fun c => 0 <= c < 128) cs.
Proof.
  induction 1 as [|b c1 c2 s1 s2 Hb L1 L2 E|b1 b2 c1 c2 c3 s1 s2 s3 B1 B2 L1 L2 L3 E|b1 b2 b3 d c1 c2 c3 c4 s1 s2 s3 s4 cs B1 B2 B3 L1 L2 L3 L4 E _ IH]; repeat (apply Forall_cons; [first [eapply sextet_letter; eassumption|unfold pad; lia]|]); try constructor. exact IH.
Qed.

Lemma encoded_spread cs enc : spread cs enc -> Forall (fun c => 0 <= c < 128) cs -> Forall scalar enc -> exists b, utf8 enc b /\ spread cs b.
Proof.
  induction 1 as [|c l l' H IH|c l l' Hc H IH]; intros Ha Hs.
  - exists []. split; constructor.
  - destruct (IH (Forall_inv_tail Ha) (Forall_inv_tail Hs)) as (b & Hb & Hsp). exists ([c] ++ b). split; [|now apply spread_keep]. apply utf8_cons; [constructor; exact (Forall_inv Ha)|exact Hb].
  - destruct (IH Ha (Forall_inv_tail Hs)) as (b & Hb & Hsp). destruct (char_total c (Forall_inv Hs)) as (bc & Hbc). exists (bc ++ b). split; [now apply utf8_cons|]. apply (char_noise c bc (Forall_inv Hs) Hc Hbc). exact Hsp.
Qed.

Section Command.
  Context (read_attribute : string -> res (list (list Z))).

  (** The input file that was encoded into the attribute is printed, whatever else than
      base64 (line breaks) the attribute has in between. *)
  Theorem C110_extract file t bytes cs enc more : read_attribute file = Ok (enc :: more) -> utf8 t bytes -> base64 bytes cs -> spread cs enc -> Forall scalar enc -> enc <> [] ->
    extract_one read_attribute file = Ok [Text t].
  Proof.
    intros Er Ht Hb Hs Hsc Hne. unfold extract_one, get_input_file. rewrite Er. cbn [bind]. destruct (encoded_spread cs enc Hs (base64_ascii _ _ Hb) Hsc) as (b & Hb8 & Hsp). destruct enc as [|e0 enc]; [contradiction|]. rewrite (encode_spec _ _ Hb8). cbn [bind]. rewrite (C110_base64 _ _ _ Hb Hsp). cbn [bind]. rewrite (decode_spec _ _ Ht). reflexivity.
  Qed.

  (** Nothing else than the text whose UTF-8 form is the decoded attribute is printed. *)
  Theorem C110_only file out : (forall enc more, read_attribute file = Ok (enc :: more) -> Forall (fun c => 0 <= c <= 1114111) enc) ->
    extract_one read_attribute file = Ok out ->
    (exists more, read_attribute file = Ok ([] :: more) /\ out = [NoInput]) \/
    exists enc more b d t, read_attribute file = Ok (enc :: more) /\ enc <> [] /\ utf8 enc b /\ decodebytes b = Ok d /\ utf8 t d /\ out = [Text t].
  Proof.
    intros Hr. unfold extract_one, get_input_file. destruct (read_attribute file) as [[|enc more]|e] eqn:Er; cbn [bind]; [discriminate| |discriminate]. destruct enc as [|e0 enc]; [intros [= <-]; left; eauto|]. intros E.
    apply bind_ok in E as (b & Eb & E). apply bind_ok in E as (d & Ed & E). apply bind_ok in E as (t & Et & E). injection E as <-. right. exists (e0 :: enc), more, b, d, t. split; [reflexivity|]. split; [discriminate|]. split; [apply encode_sound; [eapply Hr; reflexivity|exact Eb]|]. split; [exact Ed|]. split; [|reflexivity].
    exact (decode_sound (length d) d t (le_n _) (C110_bytes _ _ Ed) Et).
  Qed.

  Theorem C110_nothing file : (forall more, read_attribute file = Ok ([] :: more) -> extract_one read_attribute file = Ok [NoInput]) /\
    (read_attribute file = Ok [] -> extract_one read_attribute file = Err IndexError) /\ (forall e, read_attribute file = Err e -> extract_one read_attribute file = Err e).
  Proof. unfold extract_one, get_input_file. split; [|split]; intros; rewrite H; reflexivity. Qed.
End Command.

(** ** Commands that print for each dataset *)

(** The active datasets under the tags, in order. *)
Definition active_sets {X} (ds : dspace X) (ts : list string) : list (dset X) :=
  flat_map (fun t => match aget t ds with Some l => List.filter ds_status l | None => [] end) ts.

Section Echo.
  Context {X T : Type} (f : dset X -> res (list T)).
  Let sp := fun st : dspace X * list T => fst st.

  Fixpoint all_out (l : list (dset X)) : res (list T) :=
    match l with [] => Ok [] | d :: l' => let* o := f d in let* os := all_out l' in Ok (o ++ os) end.
  Lemma all_out_app l m : all_out (l ++ m) = let* a := all_out l in let* b := all_out m in Ok (a ++ b).
  Proof. induction l as [|d l IH]; cbn [app all_out]; [cbn [bind]; now destruct (all_out m)|]. destruct (f d) as [o|]; cbn [bind]; [|reflexivity]. rewrite IH. destruct (all_out l) as [a|]; cbn [bind]; [|reflexivity]. destruct (all_out m); cbn [bind]; [now rewrite app_assoc|reflexivity]. Qed.

  Definition sets_at (ds : dspace X) (rs : list ref) : list (dset X) := flat_map (fun r => match lookup ds r with Some d => if ds_status d then [d] else [] | None => [] end) rs.

  Lemma echo_fold ds cs : forall acc, foldM (vis sp (echo_body f) true) cs (ds, acc) = let* o := all_out (sets_at ds (List.map snd cs)) in Ok (ds, acc ++ o).
  Proof.
    induction cs as [|[i r] cs IH]; intros acc; cbn [foldM List.map sets_at flat_map]; [cbn [all_out bind]; now rewrite app_nil_r|]. unfold vis at 1, visit, sp at 1. cbn [fst snd negb orb]. rewrite all_out_app. fold (sets_at ds (List.map snd cs)).
    destruct (lookup ds r) as [d|] eqn:Ed; [|cbn [bind all_out]; rewrite IH; destruct (all_out (sets_at ds (List.map snd cs))); reflexivity].
    destruct (ds_status d); [|cbn [bind all_out]; rewrite IH; destruct (all_out (sets_at ds (List.map snd cs))); reflexivity].
    unfold echo_body. cbn [fst snd]. rewrite Ed. cbn [all_out]. destruct (f d) as [o|]; cbn [bind]; [|reflexivity]. rewrite IH. destruct (all_out (sets_at ds (List.map snd cs))); cbn [bind]; [now rewrite <- app_assoc, !app_nil_r|reflexivity].
  Qed.

  Lemma sets_at_all ds ts : sets_at ds (selected ts (all_of ds)) = active_sets ds ts.
  Proof.
    induction ts as [|t ts IH]; [reflexivity|]. unfold selected, active_sets, sets_at in *. cbn [flat_map]. etransitivity; [apply flat_map_app|]. f_equal; [|exact IH]. unfold all_of. destruct (aget t ds) as [l|] eqn:E; [|reflexivity].
    assert (G : forall m pre, l = pre ++ m -> flat_map (fun r => match lookup ds r with Some d => if ds_status d then [d] else [] | None => [] end) (List.map (pair t) (seq (length pre) (length m))) = List.filter ds_status m).
    { induction m as [|d m IHm]; intros pre Hp; [reflexivity|]. cbn [length seq List.map flat_map List.filter]. unfold lookup at 1. cbn [fst snd]. rewrite E, Hp, nth_error_app2, Nat.sub_diag by lia. cbn [nth_error].
      specialize (IHm (pre ++ [d]) ltac:(rewrite <- app_assoc; exact Hp)). rewrite app_length, Nat.add_1_r in IHm. rewrite IHm. now destruct (ds_status d). }
    exact (G l [] eq_refl).
  Qed.

  Theorem C110_each use ds ts : names ds use ts -> Forall (fun t => In t (List.map fst ds)) ts -> echo_all f use ds = all_out (active_sets ds ts).
  Proof.
    intros Hn Hk. unfold echo_all. destruct (iterate_selected sp (echo_body f) true use None ts (all_of ds) (ds, [])) as (cs & Es & _ & E); [exact Hn|apply picks_none_wf|now apply picks_all_under| |].
    { intros i r st st' Hst t _. unfold echo_body in Hst. destruct (lookup (fst st) r) as [d|]; [|discriminate Hst]. destruct (f d); cbn [bind] in Hst; [injection Hst as <-; reflexivity|discriminate Hst]. }
    change (sel_of_index None) with SelNone in E. unfold sp in E at 1. rewrite E, echo_fold, Es, sets_at_all. destruct (all_out (active_sets ds ts)); reflexivity.
  Qed.
End Echo.

(** extractinput prints one line per active dataset under the tags, in order; the first
    failure ends it. *)
Theorem C110_command {X} read (ds : dspace X) use ts outs : names ds use ts -> Forall (fun t => In t (List.map fst ds)) ts ->
  Forall2 (fun d o => extract_one read (ds_file d) = Ok [o]) (active_sets ds ts) outs -> extractinput read use ds = Ok outs.
Proof.
  intros Hn Hk H. unfold extractinput. rewrite (C110_each _ use ds ts Hn Hk). induction H as [|d o l os H _ IH]; [reflexivity|]. cbn [all_out]. rewrite H. cbn [bind]. now rewrite IH.
Qed.
Theorem C110_failure {X} read (ds : dspace X) use ts a d b e outs : names ds use ts -> Forall (fun t => In t (List.map fst ds)) ts ->
  active_sets ds ts = a ++ d :: b -> Forall2 (fun d o => extract_one read (ds_file d) = Ok o) a outs -> extract_one read (ds_file d) = Err e -> extractinput read use ds = Err e.
Proof.
  intros Hn Hk El H He. unfold extractinput. rewrite (C110_each _ use ds ts Hn Hk), El. clear El. induction H as [|d' o l os H _ IH]; cbn [app all_out]; [now rewrite He|]. rewrite H. cbn [bind]. now rewrite IH.
Qed.

(** pr prints the coordinate arrays or the values without the axes of length 1; both have
    the elements of the dataset. *)
Theorem C110_pr {A} (ds : dspace (gdata A)) use ts : names ds use ts -> Forall (fun t => In t (List.map fst ds)) ts ->
  (forall gs, Forall2 (fun d g => g_grid (ds_data d) = Some g) (active_sets ds ts) gs -> pr true use ds = Ok (List.map inl (concat gs))) /\
  (forall vs, Forall2 (fun d v => g_vals (ds_data d) = Some v) (active_sets ds ts) vs -> exists ws, pr false use ds = Ok (List.map inr ws) /\ Forall2 (fun v w => flat w = flat v /\ prod (shape w) = prod (shape v) /\ ~ In 1%nat (shape w) /\ exists m, shape w = List.filter m (shape v) /\ forall n, n <> 1%nat -> m n = true) vs ws).
Proof.
  intros Hn Hk. unfold pr. split.
  - intros gs H. rewrite (C110_each _ use ds ts Hn Hk). induction H as [|d g l gs H _ IH]; [reflexivity|]. cbn [all_out]. unfold pr_one at 1. rewrite H. cbn [bind]. rewrite IH. cbn [bind concat]. now rewrite map_app.
  - intros vs H. exists (List.map squeezed vs). split.
    + rewrite (C110_each _ use ds ts Hn Hk). induction H as [|d g l gs H _ IH]; [reflexivity|]. cbn [all_out]. unfold pr_one at 1. rewrite H. cbn [bind]. rewrite IH. reflexivity.
    + clear. induction vs as [|v vs IH]; constructor; [|exact IH]. unfold squeezed. cbn [flat shape]. split; [reflexivity|]. split.
      { induction (shape v) as [|n sh IHs]; [reflexivity|]. cbn [List.filter]. destruct (Nat.eqb_spec n 1) as [->|]; cbn [negb]; unfold prod in *; cbn [fold_right]; rewrite IHs; lia. }
      split; [intros Hi; apply filter_In in Hi as (_ & Hi); discriminate Hi|]. exists (fun n => negb (Nat.eqb n 1)). split; [reflexivity|]. intros n Hn1. apply negb_true_iff, Nat.eqb_neq. exact Hn1.
Qed.

(** ** Examples: "é;" is C3 A9 3B, in base64 "w6k7"; one byte "A" is "QQ==" *)
Example ex_utf8 : utf8 [233; 59] [195; 169; 59].
Proof. apply (utf8_cons 233 [59] [195; 169] [59]); [apply (two_bytes 3 41); unfold six; lia|]. apply (utf8_cons 59 [] [59] []); [constructor; lia|constructor]. Qed.
Example ex_base64 : base64 [195; 169; 59] [119; 54; 107; 55].
Proof. apply (b64_three 195 169 59 [] 119 54 107 55 48 58 36 59 []); unfold byte; try lia; try (split; [lia|reflexivity]). constructor. Qed.
Example ex_extract : extract_one (fun _ => Ok [[119; 10; 54; 107; 8364; 55; 10]]) "f.bp"%string = Ok [Text [233; 59]].
Proof.
  eapply C110_extract; [reflexivity|exact ex_utf8|exact ex_base64| | |discriminate].
  - assert (N : forall c, c = 10 \/ c = 8364 -> noise c) by (intros c Hc; split; [|unfold pad; lia]; intros Hi; cbn in Hi; lia). apply spread_keep, spread_noise; [apply N; auto|]. apply spread_keep, spread_keep, spread_noise; [apply N; auto|]. apply spread_keep, spread_noise; [apply N; auto|]. constructor.
  - repeat (constructor; [unfold scalar; lia|]). constructor.
Qed.
Example ex_padding : decodebytes ([81; 81; 61; 61] ++ [81; 81; 61; 61]) = Ok [65].
Proof. apply C110_after_padding; [apply (b64_one 65 81 81 16 16); unfold byte; try lia; split; try lia; reflexivity|cbn; auto]. Qed.
Example ex_fours : ~ exists d, decodebytes [81; 81; 10; 81] = Ok d.
Proof. rewrite C110_fours by (cbn; unfold pad; lia). vm_compute. discriminate. Qed.

Print Assumptions C110_extract.
Print Assumptions C110_only.
Print Assumptions C110_command.
Print Assumptions C110_pr.
