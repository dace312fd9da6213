(** * C129: the digits of the text dump *)
From Coq Require Import String Ascii List Arith ZArith QArith Qabs Qpower Qreals Reals Bool Lia Lra.
From Flocq Require Import Core Relative.
From Verif Require Import Prelude PreludeFacts NdArray Float_Model Float_Props FloatQ_Model FloatQ_Props Digits_Model Digits_Spec Digits_Proofs.
From Verif Require GData_Model GData_Props Write_Model Write_Props.
Import ListNotations.
Open Scope string_scope. Open Scope list_scope. Open Scope Z_scope.

(** ** Lemmas *)
Lemma text_decimal p q : decimal (p + 1) (text_value p q).
Proof.
  unfold text_value. destruct (Z.eq_dec (Qnum q) 0) as [E|E].
  - unfold mantissa. rewrite (proj2 (Z.eqb_eq _ _) E). rewrite Z.mul_0_r. exists 0, (0 - Z.of_nat p). split; [|reflexivity].
    cbn [Z.abs]. apply Z.pow_pos_nonneg; lia.
  - pose proof (mantissa_spec p q E) as X. destruct (mantissa p q) as (m & e). destruct X as (X & _).
    assert (0 < 10 ^ Z.of_nat p) by (apply Z.pow_pos_nonneg; lia).
    eexists _, _. split; [|reflexivity]. replace (Z.of_nat (p + 1)) with (Z.of_nat p + 1) by lia. destruct (Qnum q <? 0); lia.
Qed.
Lemma text_nearest p q : nearest_decimal (p + 1) q (text_value p q).
Proof.
  split; [apply text_decimal|]. intros d (m & k & M & D). apply Rle_Qle. rewrite !Q2R_abs, !Q2R_minus, text_value_round.
  rewrite (Qeq_eqR _ _ D), Q2R_mult, Q2R_inject, Q2R_power. apply round10_nearest.
  replace (Z.of_nat p + 1) with (Z.of_nat (p + 1)) by lia. exact M.
Qed.
Lemma digits_all k m : all_digits (digits k m) /\ String.length (digits k m) = k.
Proof.
  induction k as [|k (I1 & I2)]; [split; [constructor|reflexivity]|]. cbn [digits String.length]. split; [|congruence].
  unfold all_digits. cbn [list_ascii_of_string]. constructor; [|exact I1].
  rewrite digit_read by (apply Z.mod_pos_bound; lia). discriminate.
Qed.

(** ** Theorems *)

(** What is written for a number reads as the nearest number of that many digits,
    whatever follows it. *)
Theorem C129_text p q s : stops s ->
  exists v, read_number (fmt_e p q ++ s) = Some (v, s) /\ nearest_decimal (p + 1) q v /\
    (Qabs (v - q) <= (1 # 2) * Qpower 10 (- Z.of_nat p) * Qabs q)%Q.
Proof.
  intros Hs. exists (text_value p q). split; [now apply read_text|]. split; [apply text_nearest|].
  apply Rle_Qle. rewrite !Q2R_mult, !Q2R_abs, Q2R_minus, text_value_round, Q2R_power.
  replace (Q2R (1 # 2)) with (/ 2)%R by (unfold Q2R; cbn; lra). apply round10_rel.
Qed.
Print Assumptions C129_text.

(** Half-way cases go to the even digit. *)
Theorem C129_even p q s : stops s ->
  exists v, read_number (fmt_e p q ++ s) = Some (v, s) /\
    Q2R v = round radix10 (FLX_exp (Z.of_nat p + 1)) ZnearestE (Q2R q).
Proof. intros Hs. exists (text_value p q). split; [now apply read_text|apply text_value_round]. Qed.
Print Assumptions C129_even.

(** The shape: a sign when negative, one digit that is zero for zero only, the point,
    [p] digits, and a signed exponent of at least two digits. *)
Theorem C129_shape p q : (1 <= p)%nat ->
  exists a ds c es, fmt_e p q = ((if Qlt_le_dec q 0 then "-" else "") ++ String a ("." ++ ds ++ "e" ++ String c es))%string /\
    digit_value a <> None /\ (digit_value a = Some 0 <-> (q == 0)%Q) /\
    all_digits ds /\ String.length ds = p /\ (c = "+"%char \/ c = "-"%char) /\ all_digits es /\ (2 <= String.length es)%nat.
Proof.
  intros Hp. unfold fmt_e.
  assert (M : 0 <= fst (mantissa p q) < 10 ^ (Z.of_nat p + 1) /\ (fst (mantissa p q) / 10 ^ Z.of_nat p = 0 <-> Qnum q = 0)).
  { assert (0 < 10 ^ Z.of_nat p) by (apply Z.pow_pos_nonneg; lia). assert (0 < 10 ^ (Z.of_nat p + 1)) by (apply Z.pow_pos_nonneg; lia).
    destruct (Z.eq_dec (Qnum q) 0) as [E|E].
    - unfold mantissa. rewrite (proj2 (Z.eqb_eq _ _) E). cbn [fst]. rewrite Z.div_0_l by lia. lia.
    - pose proof (mantissa_spec p q E) as X. destruct (mantissa p q) as (m & e). cbn [fst]. split; [lia|].
      assert (1 <= m / 10 ^ Z.of_nat p) by (apply Z.div_le_lower_bound; lia). lia. }
  destruct (mantissa p q) as (m & e). cbn [fst] in M. destruct M as (M & M0).
  assert (P1 : 10 ^ (Z.of_nat p + 1) = 10 ^ Z.of_nat p * 10) by (rewrite Z.add_1_r, Z.pow_succ_r by lia; lia).
  assert (P0 : 0 < 10 ^ Z.of_nat p) by (apply Z.pow_pos_nonneg; lia).
  assert (A : 0 <= m / 10 ^ Z.of_nat p < 10) by (split; [apply Z.div_pos; lia|apply Z.div_lt_upper_bound; lia]).
  set (ke := Nat.max 2 _). destruct (digits_all p m) as (D1 & D2). destruct (digits_all ke (Z.abs e)) as (E1 & E2).
  exists (digit (m / 10 ^ Z.of_nat p)), (digits p m), (if e <? 0 then "-"%char else "+"%char), (digits ke (Z.abs e)).
  split.
  { assert (S1 : (Qnum q <? 0) = true <-> (q < 0)%Q) by (rewrite Z.ltb_lt; unfold Qlt; cbn; lia).
    cbn [digits append]. change (10 ^ Z.of_nat 0) with 1. rewrite Z.div_1_r, (Z.mod_small _ 10) by exact A.
    destruct (Qlt_le_dec q 0) as [L|L].
    - rewrite (proj2 S1 L). destruct (e <? 0); reflexivity.
    - destruct (Qnum q <? 0) eqn:F; [exfalso; apply (Qlt_not_le _ _ (proj1 S1 eq_refl) L)|]. destruct (e <? 0); reflexivity. }
  rewrite digit_read by exact A. split; [discriminate|]. split.
  { rewrite Qeq_alt. unfold Qcompare. cbn. rewrite Z.mul_1_r, Z.compare_eq_iff. split; [intros H; injection H as H; tauto|intros H; f_equal; tauto]. }
  split; [exact D1|]. split; [exact D2|]. split; [destruct (e <? 0); auto|]. split; [exact E1|]. rewrite E2. unfold ke. lia.
Qed.
Print Assumptions C129_shape.

(** The order of two numbers is never reversed by writing them. *)
Theorem C129_order p q1 q2 s : stops s -> (q1 <= q2)%Q ->
  exists v1 v2, read_number (fmt_e p q1 ++ s) = Some (v1, s) /\ read_number (fmt_e p q2 ++ s) = Some (v2, s) /\ (v1 <= v2)%Q.
Proof.
  intros Hs H. exists (text_value p q1), (text_value p q2). split; [now apply read_text|]. split; [now apply read_text|].
  apply Rle_Qle. rewrite !text_value_round. apply round10_le. now apply Qle_Rle.
Qed.
Print Assumptions C129_order.

(** A double that stands for a number of at most sixteen digits (that number is less than
    half as far away as any other double) is read back from the dump as the same double. *)
Theorem C129_reads_back x d s : stops s -> format (Q2R x) -> decimal 16 d ->
  (forall y, format y -> y <> Q2R x -> (2 * Rabs (Q2R d - Q2R x) < Rabs (y - Q2R x))%R) ->
  exists v, read_number (fmt_e 15 x ++ s) = Some (v, s) /\ (qfl v == x)%Q.
Proof.
  intros Hs Fx D Hd. exists (text_value 15 x). split; [now apply read_text|].
  apply eqR_Qeq. rewrite C112_rounding. apply nearest_is; [exact Fx|]. intros y Fy Ny. specialize (Hd y Fy Ny).
  destruct (text_nearest 15 x) as (_ & N). specialize (N d D). apply Qle_Rle in N. rewrite !Q2R_abs, !Q2R_minus in N. lra.
Qed.
Print Assumptions C129_reads_back.

(** Seventeen digits would bring back every double. *)
Theorem C129_seventeen x s : stops s -> format (Q2R x) ->
  exists v, read_number (fmt_e 16 x ++ s) = Some (v, s) /\ (qfl v == x)%Q.
Proof.
  intros Hs Fx. exists (text_value 16 x). split; [now apply read_text|].
  apply eqR_Qeq. rewrite C112_rounding, text_value_round. now apply round10_17.
Qed.
Print Assumptions C129_seventeen.

(** The sixteen of the dump do not: 0.1 + 0.2 is read back as another double. *)
Definition point3 : Q := 1351079888211149 # 4503599627370496. (* 0.30000000000000004 *)
Theorem C129_reads_back_refuted : exists x v, format (Q2R x) /\
  fmt_e 15 x = "3.000000000000000e-01" /\ read_number (fmt_e 15 x) = Some (v, "") /\ ~ (qfl v == x)%Q.
Proof.
  exists point3. assert (E : fmt_e 15 point3 = "3.000000000000000e-01") by (vm_compute; reflexivity).
  eexists. split; [|split; [exact E|]].
  - assert (Q : (qfl point3 == point3)%Q) by (vm_compute; reflexivity). rewrite <- (Qeq_eqR _ _ Q), C112_rounding.
    apply generic_format_round; [apply fltv|apply valid_rnd_N].
  - rewrite E. split; [vm_compute; reflexivity|]. vm_compute. discriminate.
Qed.
Print Assumptions C129_reads_back_refuted.

(** The lines of a dump: read again, the numbers of a line are the sixteen-digit values of
    the centre of its cell and then of the values there. *)
Theorem C129_dump (d : GData_Model.gdata Q) gs v cells nc :
  Write_Props.holds d gs v cells nc -> (0 < nc)%nat ->
  Forall2 (fun n g => length g = n + 1)%nat cells gs ->
  exists lines, snd (Write_Model.write_txt (fmt_e 15) (fmt_e 15) d) = Ok lines /\ length lines = Prelude.prod cells /\
    forall idx k, ravel cells idx = Some k ->
      exists line xs vs ws, nth_error lines k = Some line /\ read_line (String.length line) line = Some ws /\
        Forall2 (nearest_decimal 16) (xs ++ vs) ws /\ length xs = length cells /\ length vs = nc /\
        (forall j g i x, nth_error gs j = Some g -> nth_error idx j = Some i -> nth_error xs j = Some x ->
           exists a b, nth_error g i = Some a /\ nth_error g (S i) = Some b /\ x = ((1 # 2) * (b + a))%Q) /\
        (forall c, (c < nc)%nat -> nth_error vs c = get v (idx ++ [c])).
Proof.
  intros H Hn Hg. destruct (Write_Props.C14_rows_in_order Q (fmt_e 15) (fmt_e 15) d gs v cells nc H Hn Hg) as (lines & E & L & R).
  exists lines. split; [exact E|]. split; [exact L|]. intros idx k Hr.
  destruct (R idx k Hr) as (line & El & xs & vs & Hl & Lx & Lv & Hx & Hv).
  exists line, xs, vs, (List.map (text_value 15) (xs ++ vs)). split; [exact El|].
  rewrite <- map_app in Hl. split.
  { rewrite Hl. apply read_line_ok.
    - intros C. apply app_eq_nil in C. destruct C as (_ & ->). cbn in Lv. lia.
    - rewrite length_app. pose proof (join_length 15 (xs ++ vs)). lia. }
  split.
  { clear. induction (xs ++ vs) as [|x l IH]; [constructor|]. cbn [List.map]. constructor; [apply (text_nearest 15)|exact IH]. }
  split; [rewrite Lx; symmetry; exact (Forall2_length _ _ _ Hg)|]. auto.
Qed.
Print Assumptions C129_dump.

(** ** Examples *)
Example C129_example :
  List.map (fmt_e 15) [0; 1; (-5 # 4); (1 # 3); 9999999999999999 # 1; 99999999999999995 # 1; 1 # 8; inject_Z (2 ^ 400); Qpower 10 (-5)]%Q =
  ["0.000000000000000e+00"; "1.000000000000000e+00"; "-1.250000000000000e+00"; "3.333333333333333e-01"; "9.999999999999999e+15"; "1.000000000000000e+17";
   "1.250000000000000e-01"; "2.582249878086909e+120"; "1.000000000000000e-05"].
Proof. vm_compute. reflexivity. Qed.

Example C129_read : read_line 100 ("1.250000000000000e-01, -2.500000000000000e+01" ++ String (ascii_of_nat 10) "") =
  Some [inject_Z 1250000000000000 * Qpower 10 (-1 - 15); inject_Z (-2500000000000000) * Qpower 10 (1 - 15)]%Q.
Proof. vm_compute. reflexivity. Qed.

(** The double written 0.1, and the number 0.1 of one digit. *)
Definition point1 : Q := qfl (1 # 10).
Example C129_hyps : format (Q2R point1) /\ decimal 16 (1 # 10) /\
  (forall y, format y -> y <> Q2R point1 -> (2 * Rabs (Q2R (1 # 10) - Q2R point1) < Rabs (y - Q2R point1))%R) /\
  stops (", " ++ "x") /\ fmt_e 15 point1 = "1.000000000000000e-01" /\ fmt_e 16 point3 = "3.0000000000000004e-01".
Proof.
  assert (F : format (Q2R point1)) by (unfold point1; rewrite C112_rounding; apply generic_format_round; [apply fltv|apply valid_rnd_N]).
  assert (E : (point1 == 3602879701896397 # 36028797018963968)%Q) by (vm_compute; reflexivity).
  assert (V : Q2R point1 = (3602879701896397 / 36028797018963968)%R) by (rewrite (Qeq_eqR _ _ E); unfold Q2R; cbn [Qnum Qden]; reflexivity).
  split; [exact F|]. split; [exists 1, (-1); split; reflexivity|]. split; [|split; [reflexivity|split; vm_compute; reflexivity]].
  intros y Fy Ny. assert (N0 : Q2R point1 <> 0%R) by (rewrite V; lra).
  destruct (spacing _ y F Fy Ny N0) as (_ & S1).
  assert (Mg : mag radix2 (Q2R point1) = -3 :> Z).
  { apply mag_unique. rewrite V, Rabs_pos_eq by lra. cbn. lra. }
  unfold cexp in S1. rewrite Mg in S1.
  assert (NP : Rabs (Q2R point1) <> bpow radix2 (-3 - 1)) by (rewrite V, Rabs_pos_eq by lra; cbn; lra). specialize (S1 NP). change (FLT_exp (-1074) 53 (-3)) with (-56) in S1.
  change (bpow radix2 (-56)) with (/ 72057594037927936)%R in S1.
  replace (Q2R (1 # 10)) with (1 / 10)%R by (unfold Q2R; cbn; lra). rewrite V in S1 |- *.
  rewrite (Rabs_minus_sym (1 / 10)), (Rabs_pos_eq (3602879701896397 / 36028797018963968 - 1 / 10)) by lra. lra.
Qed.

Definition ex_txt : GData_Model.gdata Q :=
  GData_Model.mk_gdata (Some [GData_Props.ex_line [0; 1; 3]%Q]) (Some (mk_nda [2; 1]%nat [1 # 3; -7 # 1]%Q))
    (Some [2]%nat) (Some 1%nat) (Some [0]%Q) (Some [3]%Q).
Example C129_dump_hyps : Write_Props.holds ex_txt [[0; 1; 3]]%Q (mk_nda [2; 1]%nat [1 # 3; -7 # 1]%Q) [2]%nat 1 /\
  Forall2 (fun n g => length g = n + 1)%nat [2]%nat [[0; 1; 3]]%Q /\
  snd (Write_Model.write_txt (fmt_e 15) (fmt_e 15) ex_txt) =
    Ok ["5.000000000000000e-01, 3.333333333333333e-01" ++ Write_Model.newline; "2.000000000000000e+00, -7.000000000000000e+00" ++ Write_Model.newline]%string.
Proof.
  split; [|split; [repeat constructor|vm_compute; reflexivity]].
  constructor; [reflexivity|reflexivity|reflexivity|reflexivity|reflexivity|reflexivity|]. eexists. vm_compute. reflexivity.
Qed.
