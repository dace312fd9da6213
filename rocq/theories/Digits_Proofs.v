(** * Proofs about Digits_Model *)
From Coq Require Import String Ascii List Arith ZArith QArith Qabs Qpower Qreals Reals Bool Lia Lra.
From Flocq Require Import Core Relative.
From Verif Require Import Prelude PreludeFacts Float_Model Float_Props FloatQ_Model FloatQ_Props Digits_Model Digits_Spec.
Import ListNotations.
Open Scope string_scope. Open Scope Z_scope.

(** ** Decimal digits of integers *)
Lemma ndigits_spec fuel n : 1 <= n < 2 ^ (Z.of_nat fuel + 1) -> 1 <= ndigits fuel n /\ 10 ^ (ndigits fuel n - 1) <= n < 10 ^ ndigits fuel n.
Proof.
  revert n. induction fuel as [|f IH]; intros n H.
  - cbn in H |- *. lia.
  - cbn [ndigits]. destruct (Z.ltb_spec n 10) as [L|L]; [cbn; lia|].
    assert (P : 2 ^ (Z.of_nat (S f) + 1) = 2 * 2 ^ (Z.of_nat f + 1)) by (rewrite <- Z.pow_succ_r by lia; f_equal; lia).
    pose proof (Z.div_mod n 10 ltac:(lia)) as D. pose proof (Z.mod_pos_bound n 10 ltac:(lia)) as B.
    destruct (IH (n / 10)) as (I1 & I2 & I3); [lia|]. set (k := ndigits f (n / 10)) in *.
    replace (1 + k - 1) with (Z.succ (k - 1)) by lia. replace (1 + k) with (Z.succ k) by lia.
    rewrite !Z.pow_succ_r by lia. lia.
Qed.
Lemma num_digits_spec n : 1 <= n -> 1 <= num_digits n /\ 10 ^ (num_digits n - 1) <= n < 10 ^ num_digits n.
Proof.
  intros H. apply ndigits_spec. pose proof (Z.log2_nonneg n). rewrite Z2Nat.id by lia. pose proof (Z.log2_spec n ltac:(lia)). lia.
Qed.
Lemma num_digits_top n : 0 <= n -> 1 <= num_digits n /\ n < 10 ^ num_digits n.
Proof. intros H. destruct (Z.eq_dec n 0) as [->|N]; [cbn; lia|]. pose proof (num_digits_spec n ltac:(lia)). lia. Qed.

Lemma digit_read d : 0 <= d < 10 -> digit_value (digit d) = Some d.
Proof.
  intros H. assert (D : In d [0; 1; 2; 3; 4; 5; 6; 7; 8; 9]) by (cbn; lia).
  cbn in D. repeat destruct D as [<-|D]; try reflexivity. destruct D.
Qed.

Lemma read_digits_ok k m acc s : stops s -> read_digits acc (digits k m ++ s) = (acc * 10 ^ Z.of_nat k + m mod 10 ^ Z.of_nat k, k, s).
Proof.
  intros Hs. revert acc. induction k as [|k IH]; intros acc.
  - cbn [digits append]. replace (acc * 10 ^ Z.of_nat 0 + m mod 10 ^ Z.of_nat 0) with acc by (cbn; rewrite Z.mod_1_r; lia).
    destruct s as [|c s]; [reflexivity|]. cbn [stops] in Hs. cbn [read_digits]. rewrite Hs. reflexivity.
  - cbn [digits append read_digits]. rewrite digit_read by (apply Z.mod_pos_bound; lia). rewrite IH. f_equal. f_equal.
    assert (P : 10 ^ Z.of_nat (S k) = 10 ^ Z.of_nat k * 10) by (rewrite Nat2Z.inj_succ, Z.pow_succ_r by lia; lia).
    rewrite P. assert (0 < 10 ^ Z.of_nat k) by (apply Z.pow_pos_nonneg; lia). rewrite Z.rem_mul_r by lia. ring.
Qed.

(** ** Powers of ten *)
Definition radix10 : radix := Build_radix 10 eq_refl.
Lemma Q2R_ten e : Q2R (ten e) = bpow radix10 e.
Proof.
  unfold ten. destruct (Z.ltb_spec e 0) as [H|H].
  - rewrite Q2R_inv, Q2R_inject.
    + change 10%Z with (radix_val radix10). rewrite IZR_Zpower by lia. rewrite <- bpow_opp. f_equal. lia.
    + intros C. assert (E : inject_Z (10 ^ (- e)) == inject_Z 0) by exact C. rewrite inject_Z_injective in E.
      pose proof (Z.pow_pos_nonneg 10 (- e)). lia.
  - rewrite Q2R_inject. change 10%Z with (radix_val radix10). now rewrite IZR_Zpower.
Qed.
Lemma Q2R_power e : Q2R (Qpower 10 e) = bpow radix10 e.
Proof.
  rewrite <- Q2R_ten. apply Qeq_eqR. unfold ten. destruct (Z.ltb_spec e 0) as [H|H].
  - replace e with (- (- e)) at 1 by lia. rewrite Qpower_opp. rewrite Zpower_Qpower by lia. reflexivity.
  - rewrite Zpower_Qpower by lia. reflexivity.
Qed.

(** ** The decimal exponent *)
Lemma Q2R_abs q : Q2R (Qabs q) = Rabs (Q2R q).
Proof.
  unfold Q2R. destruct q as [n d]. cbn [Qabs Qnum Qden]. rewrite Rabs_mult, <- abs_IZR. f_equal. symmetry. apply Rabs_pos_eq.
  left. apply Rinv_0_lt_compat. now apply IZR_lt.
Qed.
Lemma test_spec k n d : 0 < d -> ((if k <? 0 then d <=? n * 10 ^ (- k) else d * 10 ^ k <=? n) = true <-> (bpow radix10 k * IZR d <= IZR n)%R).
Proof.
  intros D. destruct (Z.ltb_spec k 0) as [H|H]; rewrite Z.leb_le.
  - assert (P : (0 < bpow radix10 k)%R) by apply bpow_gt_0.
    assert (E : (IZR (10 ^ (- k)) * bpow radix10 k = 1)%R).
    { change 10 with (radix_val radix10). rewrite IZR_Zpower by lia. rewrite <- bpow_plus. replace (- k + k) with 0 by lia. reflexivity. }
    split; intros L.
    + apply IZR_le in L. rewrite mult_IZR in L. apply Rmult_le_compat_r with (r := bpow radix10 k) in L; [|lra]. rewrite Rmult_assoc, E in L. lra.
    + apply le_IZR. rewrite mult_IZR. assert (Q : (0 < IZR (10 ^ (- k)))%R) by (apply IZR_lt; apply Z.pow_pos_nonneg; lia).
      apply Rmult_le_compat_l with (r := IZR (10 ^ (- k))) in L; [|lra]. rewrite <- Rmult_assoc, E in L. lra.
  - assert (E : (IZR (10 ^ k) = bpow radix10 k)%R) by (change 10 with (radix_val radix10); now rewrite IZR_Zpower).
    rewrite <- E. split; intros L.
    + apply IZR_le in L. rewrite mult_IZR in L. lra.
    + apply le_IZR. rewrite mult_IZR. lra.
Qed.
Lemma dexp_spec q : Qnum q <> 0 -> (bpow radix10 (dexp q) <= Rabs (Q2R q) < bpow radix10 (dexp q + 1))%R.
Proof.
  intros Hn. rewrite <- Q2R_abs. unfold Q2R. destruct q as [n d]. cbn [Qabs Qnum Qden] in *. unfold dexp. cbn [Qnum Qden].
  set (a := Z.abs n) in *. set (b := Z.pos d) in *. assert (Ha : 1 <= a) by lia. assert (Hb : 1 <= b) by lia.
  destruct (num_digits_spec a Ha) as (A0 & A1 & A2). destruct (num_digits_spec b Hb) as (B0 & B1 & B2).
  set (ka := num_digits a) in *. set (kb := num_digits b) in *.
  assert (W : forall z, 0 <= z -> IZR (10 ^ z) = bpow radix10 z) by (intros z Hz; change 10 with (radix_val radix10); now rewrite IZR_Zpower).
  apply IZR_le in A1, B1. apply IZR_lt in A2, B2. rewrite W in A1, A2, B1, B2 by lia.
  assert (Pb : (0 < IZR b)%R) by (apply IZR_lt; lia).
  assert (Div : forall z, (bpow radix10 z * IZR b <= IZR a)%R <-> (bpow radix10 z <= IZR a * / IZR b)%R).
  { intros z. split; intros L.
    - apply Rmult_le_reg_r with (IZR b); [exact Pb|]. rewrite Rmult_assoc, Rinv_l by lra. lra.
    - apply Rmult_le_compat_r with (r := IZR b) in L; [|lra]. rewrite Rmult_assoc, Rinv_l in L by lra. lra. }
  pose proof (test_spec (ka - kb) a b ltac:(lia)) as T.
  assert (Lt : forall z, ~ (bpow radix10 z <= IZR a * / IZR b)%R -> (IZR a * / IZR b < bpow radix10 z)%R) by (intros; lra).
  destruct (if ka - kb <? 0 then b <=? a * 10 ^ (- (ka - kb)) else b * 10 ^ (ka - kb) <=? a) eqn:E.
  - split; [apply Div, T; reflexivity|]. apply Lt. rewrite <- Div.
    intros C. assert (X : (bpow radix10 (ka - kb + 1) * bpow radix10 (kb - 1) <= bpow radix10 (ka - kb + 1) * IZR b)%R) by (apply Rmult_le_compat_l; [apply bpow_ge_0|lra]).
    rewrite <- bpow_plus in X. replace (ka - kb + 1 + (kb - 1)) with ka in X by lia. lra.
  - replace (ka - kb - 1 + 1) with (ka - kb) by lia. split.
    + apply Div. assert (X : (bpow radix10 (ka - kb - 1) * IZR b <= bpow radix10 (ka - kb - 1) * bpow radix10 kb)%R) by (apply Rmult_le_compat_l; [apply bpow_ge_0|lra]).
      rewrite <- bpow_plus in X. replace (ka - kb - 1 + kb) with (ka - 1) in X by lia. lra.
    + apply Lt. rewrite <- Div. intros C. apply T in C. congruence.
Qed.

(** ** The digits are those of the rounded number *)
Definition round10 (p : nat) (x : R) : R := round radix10 (FLX_exp (Z.of_nat p + 1)) ZnearestE x.
#[local] Instance prec10 (p : nat) : Prec_gt_0 (Z.of_nat p + 1).
Proof. unfold Prec_gt_0. lia. Qed.

Lemma mantissa_spec p q : Qnum q <> 0 -> let (m, e) := mantissa p q in
  10 ^ Z.of_nat p <= m < 10 ^ (Z.of_nat p + 1) /\ (IZR m * bpow radix10 (e - Z.of_nat p) = round10 p (Rabs (Q2R q)))%R.
Proof.
  intros Hn. unfold mantissa. destruct (Z.eqb_spec (Qnum q) 0) as [C|_]; [contradiction|]. pose proof (dexp_spec q Hn) as (E1 & E2). set (e := dexp q) in *. cbv zeta.
  set (x := Rabs (Q2R q)) in *.
  assert (Q1 : qnear (Qabs q * ten (Z.of_nat p - e)) = ZnearestE (x * bpow radix10 (Z.of_nat p - e))).
  { rewrite <- qnear_spec, Q2R_mult, Q2R_ten, Q2R_abs. reflexivity. }
  rewrite Q1. set (y := (x * bpow radix10 (Z.of_nat p - e))%R).
  assert (W : forall z, 0 <= z -> IZR (10 ^ z) = bpow radix10 z) by (intros z Hz; change 10 with (radix_val radix10); now rewrite IZR_Zpower).
  assert (Y1 : (IZR (10 ^ Z.of_nat p) <= y)%R).
  { rewrite W by lia. unfold y. replace (Z.of_nat p) with (e + (Z.of_nat p - e)) at 1 by lia. rewrite bpow_plus. apply Rmult_le_compat_r; [apply bpow_ge_0|exact E1]. }
  assert (Y2 : (y <= IZR (10 ^ (Z.of_nat p + 1)))%R).
  { rewrite W by lia. unfold y. replace (Z.of_nat p + 1) with ((e + 1) + (Z.of_nat p - e)) by lia. rewrite bpow_plus. apply Rmult_le_compat_r; [apply bpow_ge_0|lra]. }
  assert (M1 : 10 ^ Z.of_nat p <= ZnearestE y) by (rewrite <- (Zrnd_IZR ZnearestE (10 ^ Z.of_nat p)); apply Zrnd_le; [apply valid_rnd_N|exact Y1]).
  assert (M2 : ZnearestE y <= 10 ^ (Z.of_nat p + 1)) by (rewrite <- (Zrnd_IZR ZnearestE (10 ^ (Z.of_nat p + 1))); apply Zrnd_le; [apply valid_rnd_N|exact Y2]).
  assert (Px : (0 < x)%R) by (pose proof (bpow_gt_0 radix10 e); lra).
  assert (R : (round10 p x = IZR (ZnearestE y) * bpow radix10 (e - Z.of_nat p))%R).
  { unfold round10, round, F2R, scaled_mantissa, cexp. cbn [Fnum Fexp].
    assert (Mg : mag radix10 x = e + 1 :> Z). { apply mag_unique_pos. replace (e + 1 - 1) with e by lia. split; assumption. }
    rewrite Mg. unfold FLX_exp. replace (e + 1 - (Z.of_nat p + 1)) with (e - Z.of_nat p) by lia. replace (- (e - Z.of_nat p)) with (Z.of_nat p - e) by lia. reflexivity. }
  rewrite R. assert (G : 10 ^ Z.of_nat p < 10 ^ (Z.of_nat p + 1)) by (apply Z.pow_lt_mono_r; lia).
  destruct (Z.eqb_spec (ZnearestE y) (10 ^ (Z.of_nat p + 1))) as [C|C].
  - split; [lia|]. rewrite C, !W by lia. rewrite <- !bpow_plus. f_equal. lia.
  - split; [lia|reflexivity].
Qed.

(** ** Reading the text *)
Definition text_value (p : nat) (q : Q) : Q :=
  let (m, e) := mantissa p q in (inject_Z ((if Qnum q <? 0 then -1 else 1) * m) * Qpower 10 (e - Z.of_nat p))%Q.

Lemma str_app_assoc (a b c : string) : (a ++ b) ++ c = a ++ (b ++ c).
Proof. induction a as [|x a IH]; [reflexivity|]. cbn [append]. now rewrite IH. Qed.

Lemma digit_not_minus d : 0 <= d < 10 -> digit d <> "-"%char.
Proof. intros H C. pose proof (digit_read d H) as E. rewrite C in E. discriminate E. Qed.

Lemma read_text p q s : stops s -> read_number (fmt_e p q ++ s) = Some (text_value p q, s).
Proof.
  intros Hs. unfold fmt_e, text_value.
  assert (M : 0 <= fst (mantissa p q) < 10 ^ (Z.of_nat p + 1)).
  { destruct (Z.eq_dec (Qnum q) 0) as [E|E].
    - unfold mantissa. rewrite (proj2 (Z.eqb_eq _ _) E). cbn [fst]. assert (0 < 10 ^ (Z.of_nat p + 1)) by (apply Z.pow_pos_nonneg; lia). lia.
    - pose proof (mantissa_spec p q E) as X. destruct (mantissa p q) as (m & e). cbn [fst]. assert (0 < 10 ^ Z.of_nat p) by (apply Z.pow_pos_nonneg; lia). lia. }
  destruct (mantissa p q) as (m & e). cbn [fst] in M.
  assert (P0 : 0 < 10 ^ Z.of_nat p) by (apply Z.pow_pos_nonneg; lia).
  assert (P1 : 10 ^ (Z.of_nat p + 1) = 10 ^ Z.of_nat p * 10) by (rewrite Z.add_1_r, Z.pow_succ_r by lia; lia).
  assert (A : 0 <= m / 10 ^ Z.of_nat p < 10) by (split; [apply Z.div_pos; lia|apply Z.div_lt_upper_bound; lia]).
  set (ke := Nat.max 2 (Z.to_nat (num_digits (Z.abs e)))).
  assert (X : Z.abs e mod 10 ^ Z.of_nat ke = Z.abs e).
  { apply Z.mod_small. pose proof (num_digits_top (Z.abs e) ltac:(lia)) as (N1 & N2). split; [lia|].
    apply Z.lt_le_trans with (10 ^ num_digits (Z.abs e)); [exact N2|]. apply Z.pow_le_mono_r; [lia|]. unfold ke. lia. }
  assert (Hk : (0 < ke)%nat) by (unfold ke; lia).
  (* without the sign *)
  assert (Core : forall sign,
     (let '(a, ka, s0) := read_digits 0 ((digits 1 (m / 10 ^ Z.of_nat p) ++ "." ++ digits p m ++ "e" ++ (if e <? 0 then "-" else "+") ++ digits ke (Z.abs e)) ++ s) in
      match s0 with
      | String "." s0 =>
          let '(b, kb, s0) := read_digits a s0 in
          match s0 with
          | String "e" (String c s0) =>
              let '(x, kx, s0) := read_digits 0 s0 in
              let x := if Ascii.eqb c "-" then - x else x in
              if ((0 <? ka) && (0 <? kx))%nat && (Ascii.eqb c "-" || Ascii.eqb c "+")
              then Some ((inject_Z (sign * b) * Qpower 10 (x - Z.of_nat kb))%Q, s0)
              else None
          | _ => None
          end
      | _ => None
      end) = Some ((inject_Z (sign * m) * Qpower 10 (e - Z.of_nat p))%Q, s)).
  { intros sign. rewrite !str_app_assoc. rewrite read_digits_ok by reflexivity.
    cbn [append]. rewrite read_digits_ok by reflexivity.
    replace ((0 * 10 ^ Z.of_nat 1 + (m / 10 ^ Z.of_nat p) mod 10 ^ Z.of_nat 1) * 10 ^ Z.of_nat p + m mod 10 ^ Z.of_nat p) with m.
    2:{ change (10 ^ Z.of_nat 1) with 10. rewrite (Z.mod_small (m / 10 ^ Z.of_nat p)) by lia. pose proof (Z.div_mod m (10 ^ Z.of_nat p) ltac:(lia)). lia. }
    destruct (Z.ltb_spec e 0) as [L|L]; cbn [append]; rewrite read_digits_ok by assumption; rewrite X, Z.mul_0_l, Z.add_0_l.
    - change (Ascii.eqb "-" "-") with true. cbv iota. assert (E : (0 <? ke)%nat = true) by now apply Nat.ltb_lt. rewrite E. cbn [Nat.ltb Nat.leb andb orb]. replace (- Z.abs e) with e by lia. reflexivity.
    - change (Ascii.eqb "+" "-") with false. change (Ascii.eqb "+" "+") with true. cbv iota. assert (E : (0 <? ke)%nat = true) by now apply Nat.ltb_lt. rewrite E. cbn [Nat.ltb Nat.leb andb orb]. replace (Z.abs e) with e by lia. reflexivity. }
  unfold read_number. destruct (Qnum q <? 0).
  - cbn [append]. exact (Core (-1)).
  - specialize (Core 1). cbn [append digits] in Core |- *.
    set (c := digit _) in *. assert (Nc : c <> "-"%char) by (apply digit_not_minus, Z.mod_pos_bound; lia).
    destruct c as [[] [] [] [] [] [] [] []]; try exact Core. exfalso. apply Nc. reflexivity.
Qed.

Lemma text_value_round p q : Q2R (text_value p q) = round10 p (Q2R q).
Proof.
  unfold text_value. destruct (Z.eq_dec (Qnum q) 0) as [E|E].
  - unfold mantissa. rewrite (proj2 (Z.eqb_eq _ _) E). rewrite Z.mul_0_r, Q2R_mult, Q2R_inject, Rmult_0_l.
    assert (Z0 : Q2R q = 0%R) by (unfold Q2R; rewrite E; ring). rewrite Z0. symmetry. apply round_0, valid_rnd_N.
  - pose proof (mantissa_spec p q E) as X. destruct (mantissa p q) as (m & e). destruct X as (_ & X).
    rewrite Q2R_mult, Q2R_inject, Q2R_power, mult_IZR.
    assert (Sg : (0 < Qnum q -> (0 <= Q2R q)%R) /\ (Qnum q < 0 -> (Q2R q <= 0)%R)).
    { unfold Q2R. assert (P : (0 < / IZR (Z.pos (Qden q)))%R) by (apply Rinv_0_lt_compat; now apply IZR_lt).
      split; intros H; [apply Rmult_le_pos; [apply IZR_le; lia|lra]|]. apply IZR_lt in H. nra. }
    destruct (Z.ltb_spec (Qnum q) 0) as [L|L].
    + rewrite Rabs_left1 in X by (apply Sg; lia). unfold round10 in X |- *. rewrite round_NE_opp in X. lra.
    + rewrite Rabs_pos_eq in X by (apply Sg; lia). lra.
Qed.

(** ** Lines *)
Lemma string_pos (s : string) : s <> "" -> (1 <= String.length s)%nat.
Proof. destruct s; [congruence|cbn; lia]. Qed.
Lemma length_app (a b : string) : String.length (a ++ b) = (String.length a + String.length b)%nat.
Proof. induction a as [|c a IH]; [reflexivity|]. cbn [append String.length Nat.add]. now rewrite IH. Qed.

Lemma read_line_ok p l fuel : l <> [] -> (length l <= fuel)%nat ->
  read_line fuel (join ", " (List.map (fmt_e p) l) ++ String (ascii_of_nat 10) "") = Some (List.map (text_value p) l).
Proof.
  revert fuel. induction l as [|q l IH]; intros fuel N L; [congruence|]. destruct fuel as [|fuel]; [cbn in L; lia|].
  destruct l as [|q' l].
  - cbn [List.map join]. cbn [read_line]. rewrite read_text by reflexivity. reflexivity.
  - cbn [List.map]. change (join ", " (fmt_e p q :: fmt_e p q' :: List.map (fmt_e p) l)) with (fmt_e p q ++ ", " ++ join ", " (List.map (fmt_e p) (q' :: l))).
    rewrite !str_app_assoc. cbn [read_line]. rewrite read_text by reflexivity. cbn [append].
    change (Ascii.eqb "," (ascii_of_nat 10)) with false. change (Ascii.eqb "," ",") with true. cbv iota.
    rewrite IH; [reflexivity|congruence|cbn in L |- *; lia].
Qed.
Lemma fmt_length p q : (1 <= String.length (fmt_e p q))%nat.
Proof. unfold fmt_e. destruct (mantissa p q) as (m & e). rewrite !length_app. cbn [digits String.length]. lia. Qed.
Lemma join_length p l : (length l <= String.length (join ", " (List.map (fmt_e p) l)))%nat.
Proof.
  induction l as [|q l IH]; [cbn; lia|]. destruct l as [|q' l]; [cbn [List.map join length]; apply fmt_length|].
  cbn [List.map] in *. change (join ", " (fmt_e p q :: fmt_e p q' :: List.map (fmt_e p) l)) with (fmt_e p q ++ ", " ++ join ", " (fmt_e p q' :: List.map (fmt_e p) l)).
  rewrite !length_app. pose proof (fmt_length p q). cbn [length] in *. lia.
Qed.

(** ** Reading back as a double *)
Lemma round10_error p x e : (bpow radix10 e <= Rabs x < bpow radix10 (e + 1))%R -> (Rabs (round10 p x - x) <= / 2 * bpow radix10 (e - Z.of_nat p))%R.
Proof.
  intros H. assert (N : (x <> 0)%R) by (intros ->; rewrite Rabs_R0 in H; pose proof (bpow_gt_0 radix10 e); lra).
  pose proof (error_le_half_ulp radix10 (FLX_exp (Z.of_nat p + 1)) (fun z => negb (Z.even z)) x) as E.
  rewrite ulp_neq_0 in E by exact N. unfold cexp in E.
  assert (Mg : mag radix10 x = e + 1 :> Z) by (apply mag_unique; replace (e + 1 - 1) with e by lia; exact H).
  rewrite Mg in E. unfold FLX_exp in E at 2. replace (e + 1 - (Z.of_nat p + 1)) with (e - Z.of_nat p) in E by lia. exact E.
Qed.

Lemma fltv : Valid_exp (FLT_exp (-1074) 53).
Proof. apply FLT_exp_valid. reflexivity. Qed.
Lemma nearest_is x v : format x -> (forall y, format y -> y <> x -> (2 * Rabs (v - x) < Rabs (y - x))%R) -> fl v = x.
Proof.
  intros Fx H. destruct (Req_dec (fl v) x) as [E|E]; [exact E|]. exfalso.
  assert (Ff : format (fl v)) by (apply generic_format_round; [apply FLT_exp_valid; reflexivity|apply valid_rnd_N]).
  specialize (H _ Ff E).
  pose proof (@round_N_pt radix2 (FLT_exp (-1074) 53) fltv (fun z => negb (Z.even z)) v) as (_ & Nr). specialize (Nr _ Fx).
  change (round radix2 (FLT_exp (-1074) 53) (Znearest (fun z => negb (Z.even z))) v) with (fl v) in Nr.
  pose proof (Rabs_triang (fl v - v) (v - x)) as T. replace (fl v - v + (v - x))%R with (fl v - x)%R in T by ring.
  rewrite (Rabs_minus_sym x v) in Nr. lra.
Qed.

(** Two different doubles are at least half a unit apart, and a whole unit next to one that is not a power of two. *)
Lemma multiple_apart a b c : a <> b -> (bpow radix2 c <= Rabs (IZR a * bpow radix2 c - IZR b * bpow radix2 c))%R.
Proof.
  intros N. rewrite <- Rmult_minus_distr_r, Rabs_mult, (Rabs_pos_eq (bpow radix2 c)) by apply bpow_ge_0.
  rewrite <- minus_IZR, <- abs_IZR. assert (L : (1 <= IZR (Z.abs (a - b)))%R) by (apply IZR_le; lia).
  pose proof (bpow_gt_0 radix2 c). nra.
Qed.
Lemma as_multiple x c : format x -> c <= cexp radix2 (FLT_exp (-1074) 53) x -> exists m, x = (IZR m * bpow radix2 c)%R.
Proof.
  intros F L. unfold generic_format in F. set (m := Ztrunc (scaled_mantissa radix2 (FLT_exp (-1074) 53) x)) in F.
  set (k := cexp radix2 (FLT_exp (-1074) 53) x) in *. exists (m * 2 ^ (k - c)). rewrite mult_IZR. change 2 with (radix_val radix2).
  rewrite IZR_Zpower by lia. rewrite Rmult_assoc, <- bpow_plus. replace (k - c + c) with k by lia. exact F.
Qed.
Lemma mag_bounds x : x <> 0%R -> (bpow radix2 (mag radix2 x - 1) <= Rabs x < bpow radix2 (mag radix2 x))%R.
Proof. intros N. destruct (mag radix2 x) as (k & H). exact (H N). Qed.

Lemma spacing x y : format x -> format y -> y <> x -> x <> 0%R ->
  let c := cexp radix2 (FLT_exp (-1074) 53) x in
  (/ 2 * bpow radix2 c <= Rabs (y - x))%R /\
  (Rabs x <> bpow radix2 (mag radix2 x - 1) -> bpow radix2 c <= Rabs (y - x))%R.
Proof.
  intros Fx Fy N Nx c. set (cy := cexp radix2 (FLT_exp (-1074) 53) y).
  assert (H1 : forall k, k <= c -> k <= cy -> (bpow radix2 k <= Rabs (y - x))%R).
  { intros k K1 K2. destruct (as_multiple x k Fx K1) as (m & Em). destruct (as_multiple y k Fy K2) as (n & En).
    rewrite Em, En. apply multiple_apart. intros ->. apply N. now rewrite Em, En. }
  assert (Half : (/ 2 * bpow radix2 c = bpow radix2 (c - 1))%R) by (unfold Z.sub; rewrite bpow_plus; cbn; lra).
  pose proof (mag_bounds x Nx) as (B1 & B2).
  assert (Y : cy < c -> c = mag radix2 x - 53 /\ (Rabs y < bpow radix2 (cy + 53))%R).
  { intros L. unfold c, cy, cexp, FLT_exp in L |- *. split; [lia|].
    destruct (Req_dec y 0) as [->|Ny]; [rewrite Rabs_R0; apply bpow_gt_0|]. pose proof (mag_bounds y Ny) as (_ & D).
    apply Rlt_le_trans with (1 := D). apply bpow_le. lia. }
  assert (T : (Rabs x - Rabs y <= Rabs (y - x))%R) by (rewrite (Rabs_minus_sym y x); apply Rabs_triang_inv).
  split.
  - rewrite Half. destruct (Z_le_gt_dec (c - 1) cy) as [L|L]; [apply H1; lia|].
    destruct (Y ltac:(lia)) as (Ec & Yb).
    assert (Y2 : (Rabs y < bpow radix2 (mag radix2 x - 2))%R) by (apply Rlt_le_trans with (1 := Yb), bpow_le; lia).
    assert (D : (bpow radix2 (mag radix2 x - 1) = 2 * bpow radix2 (mag radix2 x - 2))%R).
    { replace (mag radix2 x - 1) with (1 + (mag radix2 x - 2)) by lia. rewrite bpow_plus. reflexivity. }
    assert (C1 : (bpow radix2 (c - 1) <= bpow radix2 (mag radix2 x - 2))%R) by (apply bpow_le; lia). lra.
  - intros Np. destruct (Z_le_gt_dec c cy) as [L|L]; [apply H1; lia|].
    destruct (Y ltac:(lia)) as (Ec & Yb).
    assert (Y2 : (Rabs y < bpow radix2 (mag radix2 x - 1))%R) by (apply Rlt_le_trans with (1 := Yb), bpow_le; lia).
    destruct (as_multiple (Rabs x) c) as (m & Em); [now apply generic_format_abs|rewrite cexp_abs; unfold c; lia|].
    assert (Em2 : bpow radix2 (mag radix2 x - 1) = (IZR (2 ^ 52) * bpow radix2 c)%R).
    { change (IZR (2 ^ 52)) with (bpow radix2 52). rewrite <- bpow_plus. f_equal. lia. }
    assert (Gap : (bpow radix2 c <= Rabs (Rabs x - bpow radix2 (mag radix2 x - 1)))%R).
    { rewrite Em, Em2. apply multiple_apart. intros ->. apply Np. now rewrite Em, Em2. }
    rewrite Rabs_pos_eq in Gap by lra. lra.
Qed.

Lemma decimal_small e p : (bpow radix10 (e - Z.of_nat p) = bpow radix10 e * bpow radix10 (- Z.of_nat p))%R.
Proof. unfold Z.sub. apply bpow_plus. Qed.

(** Seventeen digits tell any two doubles apart. *)
Lemma round10_17 x : format x -> fl (round10 16 x) = x.
Proof.
  intros Fx. destruct (Req_dec x 0) as [->|Nx].
  { unfold round10. rewrite round_0 by apply valid_rnd_N. apply round_0, valid_rnd_N. }
  destruct (mag radix10 x) as (e1 & Me). specialize (Me Nx).
  pose proof (round10_error 16 x (e1 - 1) ltac:(replace (e1 - 1 + 1) with e1 by lia; exact Me)) as Er.
  rewrite decimal_small in Er. change (bpow radix10 (- Z.of_nat 16)) with (/ 10000000000000000)%R in Er.
  set (c := cexp radix2 (FLT_exp (-1074) 53) x) in *.
  assert (Xc : mag radix2 x <= c + 53) by (unfold c, cexp, FLT_exp; lia).
  pose proof (mag_bounds x Nx) as (B1 & B2).
  assert (Pc : (0 < bpow radix2 c)%R) by apply bpow_gt_0.
  apply nearest_is; [exact Fx|]. intros y Fy Ny. destruct (spacing x y Fx Fy Ny Nx) as (S1 & S2). fold c in S1, S2.
  destruct (Req_dec (Rabs x) (bpow radix2 (mag radix2 x - 1))) as [P|P].
  - assert (Xb : (Rabs x <= 4503599627370496 * bpow radix2 c)%R).
    { rewrite P. change 4503599627370496%R with (bpow radix2 52). rewrite <- bpow_plus. apply bpow_le. lia. }
    lra.
  - assert (Xb : (Rabs x <= 9007199254740992 * bpow radix2 c)%R).
    { left. apply Rlt_le_trans with (1 := B2). change 9007199254740992%R with (bpow radix2 53). rewrite <- bpow_plus. apply bpow_le. lia. }
    specialize (S2 P). lra.
Qed.

(** The rounded number is the nearest one of that many digits. *)
Lemma decimal_format n m k : Z.abs m < 10 ^ n -> 0 < n -> generic_format radix10 (FLX_exp n) (IZR m * bpow radix10 k)%R.
Proof.
  intros H Hn. apply generic_format_FLX. exists (Float radix10 m k); [reflexivity|exact H].
Qed.
Lemma round10_nearest p x m k : Z.abs m < 10 ^ (Z.of_nat p + 1) -> (Rabs (round10 p x - x) <= Rabs (IZR m * bpow radix10 k - x))%R.
Proof.
  intros H. pose proof (round_N_pt radix10 (FLX_exp (Z.of_nat p + 1)) (fun z => negb (Z.even z)) x) as (_ & Nr).
  apply Nr. apply decimal_format; [exact H|lia].
Qed.
Lemma round10_le p x y : (x <= y)%R -> (round10 p x <= round10 p y)%R.
Proof. intros H. apply round_le; [apply FLX_exp_valid, prec10|apply valid_rnd_N|exact H]. Qed.
Lemma round10_rel p x : (Rabs (round10 p x - x) <= / 2 * bpow radix10 (- Z.of_nat p) * Rabs x)%R.
Proof.
  destruct (Req_dec x 0) as [->|Nx].
  { unfold round10. rewrite round_0 by apply valid_rnd_N. rewrite Rminus_0_r, Rabs_R0. lra. }
  destruct (mag radix10 x) as (e1 & Me). specialize (Me Nx).
  pose proof (round10_error p x (e1 - 1) ltac:(replace (e1 - 1 + 1) with e1 by lia; exact Me)) as Er.
  rewrite decimal_small in Er. pose proof (bpow_gt_0 radix10 (- Z.of_nat p)). nra.
Qed.
