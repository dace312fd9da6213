(** * C130: integration in double precision *)
From Coq Require Import String Ascii List Arith ZArith QArith Qreals Bool Lia Reals Lra Permutation Psatz.
From Flocq Require Import Core.
From Verif Require Import Prelude PreludeFacts NdArray Sort Ev_Model Tools_Arr Calc_Model Calc_Spec Calc_Proofs
  Float_Model Float_Props FloatQ_Model FloatQ_Props FInt_Model FInt_Spec FInt_Proofs.
Import ListNotations.
Open Scope list_scope.
Open Scope R_scope.

(** ** Lemmas *)
Lemma pw_small n : (1 + u) ^ n * (1 - INR n * u) <= 1.
Proof.
  induction n as [|n IH]; [cbn [pow INR]; lra|]. rewrite S_INR. change ((1 + u) ^ S n) with ((1 + u) * (1 + u) ^ n).
  pose proof u_pos. pose proof (pos_INR n). pose proof (pw_ge n). set (p := (1 + u) ^ n) in *. set (k := INR n) in *.
  apply Rle_trans with (2 := IH). nra.
Qed.
Lemma pw_bound n : INR n * u <= / 2 -> (1 + u) ^ n - 1 <= 2 * (INR n * u) /\ (1 + u) ^ n <= 2.
Proof. intros H. pose proof (pw_small n). pose proof (pw_ge n). pose proof u_pos. pose proof (pos_INR n). nra. Qed.

Lemma total_nonneg_ext grid sh axes f idx : (forall j, 0 <= f j) -> total grid sh axes (fun j => Rabs (f j)) idx = total grid sh axes f idx.
Proof.
  intros H. revert idx. induction axes as [|a r IH]; intros idx; cbn [total]; [apply Rabs_pos_eq, H|].
  apply rsum_ext. intros k _. now rewrite IH.
Qed.

Lemma total_abs_nonneg grid sh axes f idx : (forall a, In a axes -> good grid sh a) -> (forall j, 0 <= f j) -> 0 <= total grid sh axes f idx.
Proof.
  intros G H. revert idx. induction axes as [|a r IH]; intros idx; cbn [total]; [apply H|].
  destruct (G a (or_introl eq_refl)) as (_ & Fi & As & _).
  apply rsum_nonneg. intros k Hk. apply in_seq in Hk. apply Rmult_le_pos; [apply width_pos; [exact Fi|exact As|lia]|].
  apply IH. intros b Hb. apply G. now right.
Qed.

Lemma nth_mids mid axes grid a : (forall b, In b axes -> (b < length grid)%nat) ->
  nth a (mids mid axes grid) [] = if existsb (Nat.eqb a) axes then [mid a (nth a grid [])] else nth a grid [].
Proof.
  induction axes as [|b r IH]; intros H; [reflexivity|]. cbn [mids fold_right existsb]. fold (mids mid r grid).
  rewrite nth_set by (rewrite mids_length; apply H; now left). rewrite IH by (intros c Hc; apply H; now right).
  destruct (Nat.eqb_spec a b) as [->|N]; cbn [orb]; reflexivity.
Qed.

(** ** Theorems *)
Section Integral.
  (** np.dot and np.sum: any order of the additions. *)
  Context (dot : nat -> list nat -> list R -> list R -> R) (sum : nat -> list nat -> list R -> R).
  Context (Hdot : forall a i v w, length v = length w -> dots (combine v w) (dot a i v w)).
  Context (Hsum : forall a i v, sums v (sum a i v)).
  (** Values and coordinates are doubles, coordinates never decrease, and the axes to be integrated are distinct. *)
  Context (grid : list (list R)) (v : arr) (sh : list nat) (f : list nat -> R) (axes : list nat).
  Context (ND : NoDup axes) (Hv : holds sh v f) (Ff : forall j, in_range sh j -> format (f j)) (Lg : (length grid <= length sh)%nat).
  Context (Hg : forall a, In a axes -> (a < length grid)%nat /\ fits (nth a grid []) (nth a sh 0%nat) /\
                  ascending (nth a grid []) /\ List.Forall (fun x => format x) (nth a grid [])).

  (** However the additions are ordered, the integral differs from the exact sum of values times
      widths by no more than the roundings allow: one for every value and one more per axis,
      relative to the integral of the absolute values, and some halves of the smallest double. *)
  Theorem C130_error nd : exists g w, fintegrate dot sum nd (AxTuple (List.map Z.of_nat axes)) (grid, v) = Ok (g, w) /\
    wf w /\ shape w = collapse_shape axes sh /\
    forall idx, in_range (collapse_shape axes sh) idx -> exists x, get w idx = Some x /\ format x /\
      Rabs (x - total grid sh axes f idx) <=
        ((1 + u) ^ roundings sh axes - 1) * total grid sh axes (fun j => Rabs (f j)) idx + (1 + u) ^ roundings sh axes * (room grid sh axes * tiny).
  Proof using Hdot Hsum ND Hv Ff Lg Hg.
    destruct (fintegrate_ok dot sum nd (AxTuple (List.map Z.of_nat axes)) grid v sh f axes Hdot Hsum eq_refl ND Hv Ff Lg Hg) as (w & E & R).
    exists (mids (fmean sum) axes grid), w. split; [exact E|exact R].
  Qed.

  (** With fewer than 2^52 roundings the relative error is at most twice as many units. *)
  Theorem C130_small nd : INR (roundings sh axes) * u <= / 2 ->
    exists g w, fintegrate dot sum nd (AxTuple (List.map Z.of_nat axes)) (grid, v) = Ok (g, w) /\
    forall idx, in_range (collapse_shape axes sh) idx -> exists x, get w idx = Some x /\
      Rabs (x - total grid sh axes f idx) <=
        2 * (INR (roundings sh axes) * u) * total grid sh axes (fun j => Rabs (f j)) idx + 2 * (room grid sh axes * tiny).
  Proof using Hdot Hsum ND Hv Ff Lg Hg.
    intros HN. destruct (C130_error nd) as (g & w & E & _ & _ & V). exists g, w. split; [exact E|]. intros idx Hx.
    destruct (V idx Hx) as (x & Gx & _ & Ex). exists x. split; [exact Gx|]. destruct (pw_bound _ HN) as (B1 & B2).
    pose proof (room_ge grid sh axes Hg) as P. pose proof tiny_pos as T.
    assert (T0 : 0 <= total grid sh axes (fun j => Rabs (f j)) idx) by (apply total_abs_nonneg; [exact Hg|intros; apply Rabs_pos]).
    apply Rle_trans with (1 := Ex). apply Rplus_le_compat; [now apply Rmult_le_compat_r|]. apply Rmult_le_compat_r; [|exact B2]. apply Rmult_le_pos; lra.
  Qed.

  (** Values of one sign: relative to the integral itself. *)
  Theorem C130_relative nd : INR (roundings sh axes) * u <= / 2 -> (forall j, 0 <= f j) ->
    exists g w, fintegrate dot sum nd (AxTuple (List.map Z.of_nat axes)) (grid, v) = Ok (g, w) /\
    forall idx, in_range (collapse_shape axes sh) idx -> exists x, get w idx = Some x /\
      Rabs (x - total grid sh axes f idx) <= 2 * (INR (roundings sh axes) * u) * total grid sh axes f idx + 2 * (room grid sh axes * tiny).
  Proof using Hdot Hsum ND Hv Ff Lg Hg.
    intros HN P. destruct (C130_small nd HN) as (g & w & E & V). exists g, w. split; [exact E|]. intros idx Hx.
    destruct (V idx Hx) as (x & Gx & Ex). exists x. split; [exact Gx|]. now rewrite total_nonneg_ext in Ex.
  Qed.

  (** The coordinate left on an integrated axis is near the mean; other axes keep theirs. *)
  Theorem C130_coordinate nd : exists g w, fintegrate dot sum nd (AxTuple (List.map Z.of_nat axes)) (grid, v) = Ok (g, w) /\
    (forall a, In a axes -> let c := nth a grid [] in exists y, nth a g [] = [y] /\
      Rabs (y - mean c) <= ((1 + u) ^ (length c + 1) - 1) * mean (List.map Rabs c) + (1 + u) ^ (length c + 1) * (INR (length c) * tiny)) /\
    (forall a, ~ In a axes -> nth a g [] = nth a grid []) /\ length g = length grid.
  Proof using Hdot Hsum ND Hv Ff Lg Hg.
    destruct (fintegrate_ok dot sum nd (AxTuple (List.map Z.of_nat axes)) grid v sh f axes Hdot Hsum eq_refl ND Hv Ff Lg Hg) as (w & E & _).
    exists (mids (fmean sum) axes grid), w. split; [exact E|]. split; [|split; [|apply mids_length]].
    - intros a Ha c. exists (fmean sum a c). split.
      { rewrite nth_mids by (intros b Hb; now apply Hg). destruct (existsb (Nat.eqb a) axes) eqn:X; [reflexivity|].
        exfalso. assert (Y : existsb (Nat.eqb a) axes = true) by (apply existsb_exists; exists a; split; [exact Ha|apply Nat.eqb_refl]). congruence. }
      destruct (Hg a Ha) as (_ & Fi & _ & Fo). fold c in Fi, Fo.
      assert (Pn : (0 < length c)%nat) by (destruct Fi as [[L _]|[L _]]; lia).
      assert (Ec : forall (q : R -> R), List.map (fun k => q (nth k c 0)) (seq 0 (length c)) = List.map q c).
      { intros q. clear. rewrite <- (map_map (fun k => nth k c 0) q). f_equal. induction c as [|x c IH]; [reflexivity|]. cbn [length seq List.map nth]. f_equal.
        rewrite <- seq_shift, map_map. exact IH. }
      pose proof (mean_axis_error (length c) (fun _ => / INR (length c)) (fun k => nth k c 0) (fun k => nth k c 0) ((1 + u) ^ (length c + 1)) (fmean sum a c) (sum a [] c)) as M.
      cbv zeta beta in M.
      assert (X : forall (q : R -> R), rsum (List.map (fun k => / INR (length c) * q (nth k c 0)) (seq 0 (length c))) = mean (List.map q c)).
      { intros q. rewrite rsum_scale, (Ec q). unfold mean. rewrite map_length. unfold Rdiv. ring. }
      rewrite (X Rabs), (X (fun x => x)), map_id in M.
      rewrite (rsum_ext (fun k => / INR (length c) * Rabs (nth k c 0 - nth k c 0)) (fun k => / INR (length c) * 0)) in M.
      2:{ intros k _. now rewrite Rminus_diag_eq, Rabs_R0 by reflexivity. }
      rewrite (X (fun _ => 0)) in M.
      assert (Z0 : mean (List.map (fun _ => 0) c) = 0).
      { unfold mean. replace (rsum (List.map (fun _ : R => 0) c)) with 0; [unfold Rdiv; ring|]. clear. induction c as [|x c IH]; [reflexivity|]. unfold rsum in *. cbn [List.map fold_right] in *. lra. }
      rewrite Z0, Rmult_0_r, Rplus_0_r in M. apply M; [reflexivity|exact Pn|reflexivity| | |reflexivity].
      + intros k Hk. apply in_seq in Hk. rewrite List.Forall_forall in Fo. apply Fo. apply nth_In. lia.
      + pose proof (Ec (fun x => x)) as Y. cbv beta in Y. rewrite map_id in Y. rewrite Y. apply Hsum.
    - intros a Ha. rewrite nth_mids by (intros b Hb; now apply Hg). destruct (existsb (Nat.eqb a) axes) eqn:X; [|reflexivity].
      apply existsb_exists in X as (b & Hb & Q). apply Nat.eqb_eq in Q. subst b. contradiction.
  Qed.
End Integral.

(** The ways of naming axes, as with exact numbers (C43). *)
Theorem C130_axes dot sum nd s a l :
  fintegrate dot sum nd (AxInt a) s = fintegrate dot sum nd (AxTuple [a]) s /\
  fintegrate dot sum nd AxNone s = fintegrate dot sum nd (AxTuple (List.map Z.of_nat (seq 0 nd))) s /\
  (l <> [] -> fintegrate dot sum nd (AxStr (join "," (List.map show_Z l))) s = fintegrate dot sum nd (AxTuple l) s) /\
  fintegrate dot sum nd AxOther s = Err TypeError.
Proof.
  split; [reflexivity|]. split; [reflexivity|]. split; [|reflexivity]. intros NE.
  unfold fintegrate. f_equal. unfold parse_axis.
  assert (ES : split_on "," (join "," (List.map show_Z l)) = List.map show_Z l).
  { clear s a. induction l as [|x l IH]; [congruence|]. destruct l as [|y l].
    - cbn. apply split_on_none. apply show_Z_has; [|discriminate]. unfold digit_char. cbn. intuition discriminate.
    - cbn [List.map join] in *.
      change (String "," "" ++ ?t)%string with (String "," t).
      rewrite split_on_app; [|apply show_Z_has; [|discriminate]; unfold digit_char; cbn; intuition discriminate].
      f_equal. apply IH. discriminate. }
  rewrite ES, map_length. destruct l as [|x [|y l]]; [congruence| |].
  - cbn [length List.map join Nat.ltb Nat.leb]. rewrite split_on_none; [|apply show_Z_has; [|discriminate]; unfold digit_char; cbn; intuition discriminate].
    cbn [length Nat.eqb]. rewrite py_int_show_Z. reflexivity.
  - cbn [length Nat.ltb Nat.leb]. generalize (x :: y :: l). intros m. induction m as [|z m IH]; [reflexivity|].
    cbn [List.map mapM]. rewrite py_int_show_Z. cbn [bind]. rewrite IH. reflexivity.
Qed.

(** ** Examples: adding from the right and from the left *)
Fixpoint chain (l : list (R * R)) : R :=
  match l with
  | [] => 0
  | [(a, b)] => fl (a * b)
  | (a, b) :: r => fl (fl (a * b) + chain r)
  end.
Fixpoint chains (l : list R) : R :=
  match l with
  | [] => 0
  | [a] => a
  | a :: r => fl (a + chains r)
  end.
Definition rdot (a : nat) (i : list nat) (v w : list R) : R := chain (combine v w).
Definition ldot (a : nat) (i : list nat) (v w : list R) : R := chain (rev (combine v w)).
Definition rsum_ (a : nat) (i : list nat) (v : list R) : R := chains v.

Lemma chain_dots l : dots l (chain l).
Proof.
  induction l as [|(a & b) [|p r] IH]; [constructor|constructor|]. change (chain ((a, b) :: p :: r)) with (fl (fl (a * b) + chain (p :: r))).
  apply (dots_add [(a, b)] (p :: r)); [constructor|exact IH].
Qed.
Lemma chains_sums l : sums l (chains l).
Proof.
  induction l as [|a [|b r] IH]; [constructor|constructor|]. change (chains (a :: b :: r)) with (fl (a + chains (b :: r))).
  apply (sums_add [a] (b :: r)); [constructor|exact IH].
Qed.
Lemma rdot_ok a i v w : length v = length w -> dots (combine v w) (rdot a i v w).
Proof. intros _. apply chain_dots. Qed.
Lemma ldot_ok a i v w : length v = length w -> dots (combine v w) (ldot a i v w).
Proof. intros _. eapply dots_perm; [apply Permutation_sym, Permutation_rev|apply chain_dots]. Qed.
Lemma rsum_ok a i v : sums v (rsum_ a i v). Proof. apply chains_sums. Qed.

Lemma q_format q : (qfl q == q)%Q -> format (Q2R q).
Proof. intros H. rewrite <- (Qeq_eqR _ _ H), C112_rounding. apply fl_format. Qed.

(** Cells of width one with the values 1, 2^-53, 2^-53. *)
Definition ulp_ : Q := 1 # (2 ^ 53).
Definition ex_grid : list (list R) := [List.map Q2R [0; 1; 2; 3]%Q].
Definition ex_f (i : list nat) : R := Q2R (nth (hd 0%nat i) [1; ulp_; ulp_]%Q 0%Q).
Definition ex_v : arr := tabulate [3%nat; 1%nat] ex_f.

Example C130_hyps :
  NoDup [0%nat] /\ holds [3%nat; 1%nat] ex_v ex_f /\ (forall j, in_range [3%nat; 1%nat] j -> format (ex_f j)) /\ (length ex_grid <= 2)%nat /\
  (forall a, In a [0%nat] -> (a < length ex_grid)%nat /\ fits (nth a ex_grid []) (nth a [3%nat; 1%nat] 0%nat) /\
     ascending (nth a ex_grid []) /\ List.Forall (fun x => format x) (nth a ex_grid [])) /\
  INR (roundings [3%nat; 1%nat] [0%nat]) * u <= / 2 /\ (forall j, 0 <= ex_f j).
Proof.
  split; [repeat constructor; intros []|]. split; [apply holds_tab|]. split.
  { intros j Hj. unfold ex_f. apply q_format. destruct (hd 0%nat j) as [|[|[|[|k]]]]; vm_compute; reflexivity. }
  split; [cbn; lia|]. split.
  { intros a [<-|[]]. split; [cbn; lia|]. split; [right; cbn; lia|]. split.
    - intros k Hk. cbn in Hk. destruct k as [|[|[|k]]]; cbn [nth ex_grid List.map]; [apply Qle_Rle..|lia]; vm_compute; discriminate.
    - repeat constructor; apply q_format; vm_compute; reflexivity. }
  split.
  { change (roundings [3%nat; 1%nat] [0%nat]) with 4%nat. change (INR 4) with (1 + 1 + 1 + 1). unfold u. change (-53)%Z with (-3 + -50)%Z. rewrite bpow_plus.
    change (bpow radix2 (-3)) with (/ 8). assert (bpow radix2 (-50) <= 1) by (change 1 with (bpow radix2 0); apply bpow_le; lia). lra. }
  intros j. unfold ex_f. replace 0 with (Q2R 0) by (unfold Q2R; cbn; lra). apply Qle_Rle. destruct (hd 0%nat j) as [|[|[|[|k]]]]; vm_compute; discriminate.
Qed.

(** The order matters: a claim that the result is determined by the file fails. *)
Theorem C130_order_refuted : exists dot dot' sum nd arg s,
  (forall a i v w, length v = length w -> dots (combine v w) (dot a i v w)) /\
  (forall a i v w, length v = length w -> dots (combine v w) (dot' a i v w)) /\
  (forall a i v, sums v (sum a i v)) /\
  fintegrate dot sum nd arg s <> fintegrate dot' sum nd arg s.
Proof.
  exists rdot, ldot, rsum_, 1%nat, (AxTuple [0%Z]), (ex_grid, ex_v).
  split; [exact rdot_ok|]. split; [exact ldot_ok|]. split; [exact rsum_ok|].
  assert (Q : forall q r s, (qfl (q + r) == s)%Q -> fl (Q2R q + Q2R r) = Q2R s) by (intros q r s H; rewrite <- Q2R_plus, <- C112_rounding; now apply Qeq_eqR).
  assert (M : forall q r s, (qfl (q - r) == s)%Q -> fl (Q2R q - Q2R r) = Q2R s) by (intros q r s H; rewrite <- Q2R_minus, <- C112_rounding; now apply Qeq_eqR).
  assert (T : forall q r s, (qfl (q * r) == s)%Q -> fl (Q2R q * Q2R r) = Q2R s) by (intros q r s H; rewrite <- Q2R_mult, <- C112_rounding; now apply Qeq_eqR).
  assert (W : fdz_of (List.map Q2R [0; 1; 2; 3]%Q) 3 = List.map Q2R [1; 1; 1]%Q).
  { unfold fdz_of. cbn [List.map length Nat.ltb Nat.leb Nat.eqb andb fdiffs]. rewrite (M 1%Q 0%Q 1%Q), (M 2%Q 1%Q 1%Q), (M 3%Q 2%Q 1%Q) by (vm_compute; reflexivity). reflexivity. }
  assert (W0 : fdz_all ex_grid [3%nat; 1%nat] = Ok [List.map Q2R [1; 1; 1]%Q]) by (change (fdz_all ex_grid [3%nat; 1%nat]) with (Ok [fdz_of (List.map Q2R [0; 1; 2; 3]%Q) 3]); now rewrite W).
  intros C.
  assert (X : forall dot, exists g, fintegrate dot rsum_ 1 (AxTuple [0%Z]) (ex_grid, ex_v) =
     Ok (g, tabulate [1%nat; 1%nat] (fun _ => dot 0%nat [0%nat] (List.map Q2R [1; ulp_; ulp_]%Q) (List.map Q2R [1; 1; 1]%Q)))).
  { intros dot. eexists. unfold fintegrate. cbn [parse_axis bind fst snd]. change (shape ex_v) with [3%nat; 1%nat]. rewrite W0. reflexivity. }
  destruct (X rdot) as (g1 & E1), (X ldot) as (g2 & E2). rewrite E1, E2 in C. assert (C' : rdot 0 [0%nat] (List.map Q2R [1; ulp_; ulp_]%Q) (List.map Q2R [1; 1; 1]%Q) = ldot 0 [0%nat] (List.map Q2R [1; ulp_; ulp_]%Q) (List.map Q2R [1; 1; 1]%Q)).
  { injection C as _ C. exact C. }
  clear C. rename C' into C.
  unfold rdot, ldot in C. cbn [combine List.map rev app chain] in C.
  rewrite !(T 1%Q 1%Q 1%Q), !(T ulp_ 1%Q ulp_) in C by (vm_compute; reflexivity).
  rewrite (Q ulp_ ulp_ (2 * ulp_)%Q), (Q 1%Q (2 * ulp_)%Q (1 + 2 * ulp_)%Q), (Q ulp_ 1%Q 1%Q), (Q ulp_ 1%Q 1%Q) in C by (vm_compute; reflexivity).
  apply eqR_Qeq in C. vm_compute in C. discriminate.
Qed.

(** The theorem on the example, adding from the left: 1 instead of 1 + 2^-52. *)
Example C130_example : exists g w, fintegrate ldot rsum_ 1 (AxTuple [0%Z]) (ex_grid, ex_v) = Ok (g, w) /\
  exists x, get w [0%nat; 0%nat] = Some x /\
    Rabs (x - total ex_grid [3%nat; 1%nat] [0%nat] ex_f [0%nat; 0%nat]) <=
      2 * (INR 4 * u) * total ex_grid [3%nat; 1%nat] [0%nat] ex_f [0%nat; 0%nat] + 2 * (room ex_grid [3%nat; 1%nat] [0%nat] * tiny).
Proof.
  destruct C130_hyps as (ND & Hv & Ff & Lg & Hg & HN & Hp).
  destruct (C130_relative ldot rsum_ ldot_ok rsum_ok ex_grid ex_v [3%nat; 1%nat] ex_f [0%nat] ND Hv Ff Lg Hg 1 HN Hp) as (g & w & E & V).
  exists g, w. split; [exact E|]. apply V. repeat constructor.
Qed.

Print Assumptions C130_error.
Print Assumptions C130_small.
Print Assumptions C130_relative.
Print Assumptions C130_coordinate.
Print Assumptions C130_axes.
Print Assumptions C130_order_refuted.
