(** * C112: integers computed through floating-point numbers are exact *)
From Coq Require Import String List ZArith Reals Bool Lia Lra Psatz.
From Flocq Require Import Core.
From Verif Require Import Prelude PreludeFacts NdArray Float_Model.
From Verif Require Plot_Model Write_Model Write_Props Growth_Model Traj_Model.
Import ListNotations.
Open Scope R_scope.

Notation format := (generic_format radix2 (FLT_exp (-1074) 53)).

Lemma fl_le x y : x <= y -> fl x <= fl y.
Proof. apply round_le; apply _ || apply FLT_exp_valid; reflexivity. Qed.

Lemma int_format (k : Z) : (Z.abs k <= 2 ^ 53)%Z -> format (IZR k).
Proof.
  intros H. destruct (Z.eq_dec (Z.abs k) (2 ^ 53)) as [E|E].
  - assert (E' : (k = 2 ^ 53 \/ k = - 2 ^ 53)%Z) by lia.
    assert (F : format (bpow radix2 53)) by (apply generic_format_bpow; unfold FLT_exp; lia).
    change (bpow radix2 53) with (IZR (2 ^ 53)) in F. destruct E' as [-> | ->]; [exact F|].
    rewrite opp_IZR. now apply generic_format_opp.
  - apply generic_format_FLT. exists (Float radix2 k 0).
    + unfold F2R. cbn. ring.
    + cbn [Fnum]. change (radix2 ^ 53)%Z with (2 ^ 53)%Z. lia.
    + cbn. lia.
Qed.

Lemma fl_int k : (Z.abs k <= 2 ^ 53)%Z -> fl (IZR k) = IZR k.
Proof. intros H. apply round_generic; [apply _|now apply int_format]. Qed.

Lemma fl_near x : bpow radix2 (-53) <= x -> Rabs (fl x - x) <= x * bpow radix2 (-53).
Proof.
  intros H. assert (P : 0 < x) by (pose proof (bpow_gt_0 radix2 (-53)); lra).
  unfold fl. eapply Rle_trans; [apply error_le_half_ulp; apply FLT_exp_valid; reflexivity|].
  assert (U : ulp radix2 (FLT_exp (-1074) 53) x <= Rabs x * bpow radix2 (1 - 53)).
  { apply ulp_FLT_le. rewrite Rabs_pos_eq by lra. eapply Rle_trans; [|exact H]. apply bpow_le. lia. }
  rewrite Rabs_pos_eq in U by lra. change (1 - 53)%Z with (-53 + 1)%Z in U. rewrite bpow_plus in U.
  change (bpow radix2 1) with 2 in U. lra.
Qed.

(** A value computed with a relative error below 2^-53 of a quotient lies on the same
    side of every integer. *)
Lemma quotient_between a b : (0 <= a < 2 ^ 53)%Z -> (1 <= b <= 2 ^ 53)%Z ->
  IZR (a / b) <= f_div a b < IZR (a / b) + 1 /\ ((a mod b <> 0)%Z -> IZR (a / b) < f_div a b).
Proof.
  intros A B. unfold f_div.
  assert (Bp : 0 < IZR b) by (apply IZR_lt; lia).
  assert (E : IZR a = IZR b * IZR (a / b) + IZR (a mod b)).
  { rewrite <- mult_IZR, <- plus_IZR. f_equal. apply Z.div_mod. lia. }
  pose proof (Z.mod_pos_bound a b ltac:(lia)) as M.
  assert (Q0 : (0 <= a / b)%Z) by (apply Z.div_pos; lia).
  assert (Q1 : (a / b <= a)%Z) by (apply Z.div_le_upper_bound; nia).
  set (k := (a / b)%Z) in *. set (r := (a mod b)%Z) in *.
  assert (X : IZR a / IZR b = IZR k + IZR r / IZR b) by (rewrite E; field; lra).
  assert (R0 : 0 <= IZR r / IZR b) by (unfold Rdiv; apply Rmult_le_pos; [apply IZR_le; lia|left; now apply Rinv_0_lt_compat]).
  assert (L : IZR k <= fl (IZR a / IZR b)).
  { rewrite <- (fl_int k) by lia. apply fl_le. lra. }
  destruct (Z.eq_dec r 0) as [Z0|Z0].
  { assert (X' : IZR a / IZR b = IZR k) by (rewrite X, Z0; field; lra).
    rewrite X', fl_int by lia. split; [lra|intros C; now elim C]. }
  assert (A1 : (1 <= a)%Z) by (destruct (Z.eq_dec a 0) as [-> | N]; [subst r; rewrite Z.mod_0_l in Z0 by lia; lia|lia]).
  assert (Pw : bpow radix2 (-53) = / IZR (2 ^ 53)) by reflexivity.
  assert (P53 : 0 < IZR (2 ^ 53)) by (apply IZR_lt; reflexivity).
  assert (Xl : bpow radix2 (-53) <= IZR a / IZR b).
  { rewrite Pw. apply Rmult_le_reg_r with (IZR b); [exact Bp|]. unfold Rdiv. rewrite Rmult_assoc, Rinv_l, Rmult_1_r by lra.
    apply Rle_trans with 1; [|apply IZR_le; lia]. apply Rmult_le_reg_l with (IZR (2 ^ 53)); [exact P53|].
    rewrite <- Rmult_assoc, Rinv_r, Rmult_1_l, Rmult_1_r by lra. apply IZR_le. lia. }
  pose proof (fl_near _ Xl) as N. apply Rabs_le_inv in N.
  assert (S : IZR a / IZR b * bpow radix2 (-53) < / IZR b).
  { rewrite Pw. unfold Rdiv. rewrite (Rmult_comm (IZR a)), Rmult_assoc. rewrite <- (Rmult_1_r (/ IZR b)) at 2.
    apply Rmult_lt_compat_l; [now apply Rinv_0_lt_compat|]. apply Rmult_lt_reg_r with (IZR (2 ^ 53)); [exact P53|].
    rewrite Rmult_assoc, Rinv_l, Rmult_1_l, Rmult_1_r by lra. apply IZR_lt. lia. }
  assert (Rl : / IZR b <= IZR r / IZR b).
  { unfold Rdiv. rewrite <- (Rmult_1_l (/ IZR b)) at 1. apply Rmult_le_compat_r; [left; now apply Rinv_0_lt_compat|apply IZR_le; lia]. }
  assert (Ru : IZR r / IZR b <= 1 - / IZR b).
  { replace (1 - / IZR b) with ((IZR b - 1) / IZR b) by (field; lra). unfold Rdiv.
    apply Rmult_le_compat_r; [left; now apply Rinv_0_lt_compat|]. rewrite <- minus_IZR. apply IZR_le. lia. }
  rewrite X in *. split; [|intros _]; lra.
Qed.

(** ** The theorems *)

(** [int(np.floor(a/b))] is the integer quotient, [int(np.ceil(a/b))] the least integer
    that is not smaller than the quotient. *)
Theorem C112_quotient a b : (0 <= a < 2 ^ 53)%Z -> (1 <= b <= 2 ^ 53)%Z ->
  (exists q, int_floor_div a b = Ok q /\ int_div a b = Ok q /\ b * q <= a < b * (q + 1))%Z /\
  (exists q, int_ceil_div a b = Ok q /\ b * (q - 1) < a <= b * q)%Z.
Proof.
  intros A B. destruct (quotient_between a b A B) as [[L U] N].
  assert (E : (a = b * (a / b) + a mod b)%Z) by (apply Z.div_mod; lia).
  pose proof (Z.mod_pos_bound a b ltac:(lia)) as M.
  unfold int_floor_div, int_ceil_div, int_div. destruct (Z.eqb_spec b 0) as [C|_]; [lia|].
  assert (F : Zfloor (f_div a b) = (a / b)%Z).
  { apply Zfloor_imp. rewrite plus_IZR. split; lra. }
  split.
  - exists (a / b)%Z. rewrite F. split; [reflexivity|]. split; [|nia].
    rewrite Ztrunc_floor, F; [reflexivity|]. apply Rle_trans with (2 := L). apply IZR_le. apply Z.div_pos; lia.
  - destruct (Z.eq_dec (a mod b) 0) as [Z0|Z0].
    + exists (a / b)%Z. split; [|nia]. f_equal. 
      assert (X : f_div a b = IZR (a / b)).
      { unfold f_div. replace (IZR a / IZR b) with (IZR (a / b)).
        - apply fl_int. assert (0 <= a / b)%Z by (apply Z.div_pos; lia). assert (a / b <= a)%Z by (apply Z.div_le_upper_bound; nia). lia.
        - rewrite E at 2. rewrite Z0, Z.add_0_r, mult_IZR. field. apply not_0_IZR. lia. }
      rewrite X. apply Zceil_IZR.
    + exists (a / b + 1)%Z. split; [|nia]. f_equal. apply Zceil_imp. rewrite plus_IZR, minus_IZR, plus_IZR. specialize (N Z0). lra.
Qed.

Lemma root_between n : (0 <= n < 2 ^ 50)%Z ->
  IZR (Z.sqrt n) <= f_sqrt n < IZR (Z.sqrt n) + 1 /\
  ((Z.sqrt n * Z.sqrt n <> n)%Z -> IZR (Z.sqrt n) < f_sqrt n) /\ ((Z.sqrt n * Z.sqrt n = n)%Z -> f_sqrt n = IZR (Z.sqrt n)).
Proof.
  intros B. unfold f_sqrt. rewrite fl_int by lia.
  pose proof (Z.sqrt_spec n ltac:(lia)) as S0. pose proof (Z.sqrt_nonneg n) as S1. cbv zeta in S0. set (s := Z.sqrt n) in *.
  cbv zeta in S0. unfold Z.succ in S0.
  assert (Sb : (s < 2 ^ 25)%Z) by (apply Z.square_lt_simpl_nonneg; [lia|change (2 ^ 25 * 2 ^ 25)%Z with (2 ^ 50)%Z; lia]).
  assert (Sr : 0 <= IZR s) by (apply IZR_le; lia).
  destruct (Z.eq_dec (s * s) n) as [E|E].
  { assert (X : sqrt (IZR n) = IZR s) by (rewrite <- E, mult_IZR; apply sqrt_square, Sr).
    rewrite X, fl_int by lia. split; [lra|]. split; [intros C; now elim C|auto]. }
  assert (N0 : 0 <= IZR n) by (apply IZR_le; lia).
  set (x := sqrt (IZR n)). assert (X0 : 0 <= x) by apply sqrt_pos.
  assert (X2 : x * x = IZR n) by (apply sqrt_sqrt, N0).
  assert (Lo : IZR s * IZR s + 1 <= x * x).
  { rewrite X2, <- mult_IZR, <- plus_IZR. apply IZR_le. lia. }
  assert (Hi : x * x <= (IZR s + 1) * (IZR s + 1) - 1).
  { rewrite X2. change 1 with (IZR 1). rewrite <- plus_IZR, <- mult_IZR, <- minus_IZR. apply IZR_le. lia. }
  assert (Sm : IZR s + 1 <= 33554432) by (change 1 with (IZR 1); rewrite <- plus_IZR; apply IZR_le; lia).
  assert (Pw : bpow radix2 (-53) = / 9007199254740992) by reflexivity.
  assert (X1 : 1 <= x) by nra.
  assert (N : Rabs (fl x - x) <= x * bpow radix2 (-53)) by (apply fl_near; rewrite Pw; lra).
  rewrite Pw in N. apply Rabs_le_inv in N.
  assert (A : IZR s < x - x * / 9007199254740992).
  { apply Rnot_le_lt. intros C. assert (0 <= x - x * / 9007199254740992) by nra.
    assert (D : (x - x * / 9007199254740992) * (x - x * / 9007199254740992) <= IZR s * IZR s) by nra. nra. }
  assert (Bq : x + x * / 9007199254740992 < IZR s + 1).
  { apply Rnot_le_lt. intros C.
    assert (D : (IZR s + 1) * (IZR s + 1) <= (x + x * / 9007199254740992) * (x + x * / 9007199254740992)) by nra. nra. }
  split; [lra|]. split; [intros _; lra|intros C; contradiction].
Qed.

(** The number of bins of the isotropic spectrum is the integer root. *)
Theorem C112_bins ns : (Z.of_nat (fold_right (fun m s => m * m + s)%nat 0%nat ns) < 2 ^ 50)%Z ->
  (0 <= f_bins ns)%Z /\
  (f_bins ns * f_bins ns <= Z.of_nat (fold_right (fun m s => m * m + s)%nat 0%nat ns) < (f_bins ns + 1) * (f_bins ns + 1))%Z.
Proof.
  intros H. unfold f_bins. set (n := fold_right _ _ ns) in *. clearbody n.
  destruct (root_between (Z.of_nat n) ltac:(lia)) as [[L U] _].
  pose proof (Z.sqrt_spec (Z.of_nat n) ltac:(lia)) as S0. cbv zeta in S0. unfold Z.succ in S0. pose proof (Z.sqrt_nonneg (Z.of_nat n)) as S1.
  assert (E : Ztrunc (f_sqrt (Z.of_nat n)) = Z.sqrt (Z.of_nat n)).
  { rewrite Ztrunc_floor by (apply Rle_trans with (2 := L); now apply IZR_le). apply Zfloor_imp. rewrite plus_IZR. lra. }
  rewrite E. auto.
Qed.

(** Rows and columns of panels are those of the exact computation (C47). *)
Theorem C112_layout rows cols n : (0 <= n < 2 ^ 50)%Z ->
  (forall r, rows = Some r -> 1 <= r < 2 ^ 53)%Z -> (forall c, cols = Some c -> 1 <= c < 2 ^ 53)%Z ->
  f_layout rows cols n = Plot_Model.layout rows cols n.
Proof.
  intros N R C.
  assert (D : forall r, (1 <= r < 2 ^ 53)%Z -> int_ceil_div n r = Plot_Model.ceil_div n r).
  { intros r Hr. destruct (C112_quotient n r ltac:(lia) ltac:(lia)) as [_ (q & -> & Q)].
    unfold Plot_Model.ceil_div. destruct (Z.eqb_spec r 0) as [Z0|_]; [lia|]. f_equal.
    assert (E : (- n / r = - q)%Z); [|lia]. symmetry. apply Z.div_unique with (- n + r * q)%Z; nia. }
  unfold f_layout, Plot_Model.layout. destruct rows as [r|]; [now rewrite (D r (R r eq_refl))|].
  destruct cols as [c|]; [now rewrite (D c (C c eq_refl))|].
  destruct (root_between n N) as ([L U] & A & B). pose proof (Z.sqrt_nonneg n) as S1.
  pose proof (Z.sqrt_spec n ltac:(lia)) as S0. cbv zeta in S0. unfold Z.succ in S0.
  unfold Plot_Model.floor_sqrt, Plot_Model.ceil_sqrt. set (s := Z.sqrt n) in *.
  assert (Sb : (s < 2 ^ 25)%Z) by (apply Z.square_lt_simpl_nonneg; [lia|change (2 ^ 25 * 2 ^ 25)%Z with (2 ^ 50)%Z; lia]).
  assert (F : Zfloor (f_sqrt n) = s) by (apply Zfloor_imp; rewrite plus_IZR; lra).
  destruct (Z.eqb_spec (s * s) n) as [E|E].
  - rewrite (B E), Zceil_IZR, Ztrunc_IZR. rewrite Req_bool_true by reflexivity. now rewrite Z.eqb_refl.
  - specialize (A E). assert (G : Zceil (f_sqrt n) = (s + 1)%Z) by (apply Zceil_imp; rewrite minus_IZR, plus_IZR; lra).
    rewrite G, F. rewrite Req_bool_false by (rewrite plus_IZR; lra).
    destruct (Z.eqb_spec s (s + 1)) as [Z0|_]; [lia|].
    unfold f_mul. rewrite <- mult_IZR, fl_int by nia.
    destruct (Z.leb_spec n ((s + 1) * s)) as [X|X].
    + rewrite Rle_bool_true by (apply IZR_le; lia). reflexivity.
    + rewrite Rle_bool_false by (apply IZR_lt; lia). reflexivity.
Qed.

(** Ghost cells: below and above together they are the difference, and there is at most
    one more above. *)
Theorem C112_ghosts c z : (Z.abs (c - z) < 2 ^ 53)%Z ->
  let (l, u) := ghosts c z in (l + u = c - z /\ 0 <= u - l <= 1)%Z.
Proof.
  intros H. unfold ghosts. set (d := (c - z)%Z) in *. clearbody d.
  assert (E : f_mul (IZR d) 0.5 = IZR d / IZR 2).
  { unfold f_mul. replace (IZR d * 0.5) with (IZR d / IZR 2) by lra.
    unfold fl. apply round_generic; [apply valid_rnd_N|]. apply generic_format_FLT. exists (Float radix2 d (-1)).
    - unfold F2R. cbn. change (Z.pow_pos 2 1) with 2%Z. field.
    - cbn [Fnum]. change (radix2 ^ 53)%Z with (2 ^ 53)%Z. lia.
    - cbn. lia. }
  rewrite E. unfold Zceil. replace (- (IZR d / IZR 2)) with (IZR (- d) / IZR 2) by (rewrite opp_IZR; field).
  rewrite !Zfloor_div by lia. Z.to_euclidean_division_equations. lia.
Qed.

(** The components of each coordinate of a mapping that stores equally many for each. *)
Theorem C112_slices m nd d : (0 <= m)%Z -> (0 <= d < nd)%Z -> (nd * m < 2 ^ 53)%Z -> (nd < 2 ^ 53)%Z ->
  f_slice (nd * m) nd d = (d * m, (d + 1) * m)%Z.
Proof.
  intros M D B Nb. assert (Np : IZR nd <> 0) by (apply not_0_IZR; lia).
  assert (E : f_div (nd * m) nd = IZR m).
  { unfold f_div. rewrite mult_IZR. replace (IZR nd * IZR m / IZR nd) with (IZR m) by (field; exact Np). apply fl_int. nia. }
  unfold f_slice. rewrite E. unfold f_mul. rewrite <- !mult_IZR, !fl_int by nia. now rewrite !Ztrunc_IZR.
Qed.

Lemma floor_divide_nat i b : (Z.of_nat i < 2 ^ 53)%Z -> (1 <= b)%nat -> (Z.of_nat b < 2 ^ 53)%Z ->
  f_floor_divide (INR i) (INR b) = INR (i / b) /\ fmod (INR i) (INR b) = INR (i mod b).
Proof.
  intros I B Bb. rewrite !INR_IZR_INZ. set (x := Z.of_nat i) in *. set (y := Z.of_nat b) in *.
  rewrite Nat2Z.inj_div, Nat2Z.inj_mod. fold x y.
  assert (Y : (1 <= y)%Z) by lia. assert (X : (0 <= x)%Z) by lia. clearbody x y. clear i b B.
  assert (T : Ztrunc (IZR x / IZR y) = (x / y)%Z).
  { rewrite Ztrunc_floor; [apply Zfloor_div; lia|]. unfold Rdiv. apply Rmult_le_pos; [now apply IZR_le|]. left. apply Rinv_0_lt_compat, IZR_lt. lia. }
  assert (Ed : (x = y * (x / y) + x mod y)%Z) by (apply Z.div_mod; lia).
  assert (M : fmod (IZR x) (IZR y) = IZR (x mod y)).
  { unfold fmod. rewrite T, <- mult_IZR, <- minus_IZR. f_equal. lia. }
  split; [|exact M]. unfold f_floor_divide. rewrite M, <- minus_IZR.
  pose proof (Z.mod_pos_bound x y ltac:(lia)) as Mb. assert (Q0 : (0 <= x / y)%Z) by (apply Z.div_pos; lia).
  assert (Q1 : (x / y <= x)%Z) by (apply Z.div_le_upper_bound; nia).
  rewrite fl_int by lia. replace (x - x mod y)%Z with (y * (x / y))%Z by lia.
  rewrite mult_IZR. replace (IZR y * IZR (x / y) / IZR y) with (IZR (x / y)) by (field; apply not_0_IZR; lia).
  rewrite fl_int by lia. rewrite Zfloor_IZR. destruct (Rlt_dec _ _) as [C|_]; [lra|reflexivity].
Qed.

Lemma f_basis_exact cells : (Z.of_nat (prod cells) < 2 ^ 53)%Z -> Forall (fun n => 0 < n)%nat cells ->
  f_basis cells = List.map INR (Write_Model.basis cells).
Proof.
  intros B P. unfold f_basis, Write_Model.basis. rewrite map_map. apply map_ext_in. intros d Hd.
  destruct (d <? length cells - 1)%nat; [|reflexivity].
  change (fold_right Nat.mul 1%nat (skipn (S d) cells)) with (prod (skipn (S d) cells)).
  rewrite INR_IZR_INZ. apply fl_int.
  assert (L : (prod (skipn (S d) cells) <= prod cells)%nat).
  { rewrite <- (firstn_skipn (S d) cells) at 2. rewrite prod_app.
    assert (1 <= prod (firstn (S d) cells))%nat; [|nia]. clear -P. revert P. generalize (S d). intros k.
    revert k. induction cells as [|n l IH]; intros k P; destruct k; cbn [firstn prod fold_right]; try lia.
    inversion P; subst. specialize (IH k H2). unfold prod in IH |- *. cbn [fold_right]. nia. }
  lia.
Qed.

(** Line [k] of the text dump is about the cell with row-major number [k]. *)
Theorem C112_lines cells idx k : (Z.of_nat (prod cells) < 2 ^ 53)%Z -> ravel cells idx = Some k ->
  f_unrank (f_basis cells) (INR k) = List.map Z.of_nat idx.
Proof.
  intros B E. pose proof (ravel_lt _ _ _ E) as K.
  assert (P : Forall (fun n => 0 < n)%nat cells).
  { apply Forall_forall. intros n Hn. apply ravel_Some_in_range in E. clear -E Hn.
    revert idx E. induction cells as [|c cs IH]; intros idx E; [destruct Hn|]. inversion E; subst.
    destruct Hn as [<-|Hn]; [lia|]. eauto. }
  rewrite (f_basis_exact cells B P).
  assert (U : Write_Model.unrank (Write_Model.basis cells) k = idx) by now apply Write_Props.unrank_ravel.
  rewrite <- U.
  assert (Bs : Forall (fun b => (1 <= b)%nat /\ (Z.of_nat b < 2 ^ 53)%Z) (Write_Model.basis cells)).
  { apply Forall_forall. intros b Hb. unfold Write_Model.basis in Hb. apply in_map_iff in Hb. destruct Hb as (d & <- & Hd).
    destruct (d <? length cells - 1)%nat; [|lia].
    pose proof (firstn_skipn (S d) cells) as FS.
    assert (G : (prod cells = prod (firstn (S d) cells) * prod (skipn (S d) cells))%nat) by (rewrite <- FS at 1; apply prod_app).
    assert (Pp : (0 < prod cells)%nat) by lia.
    assert (P1 : (1 <= prod (skipn (S d) cells))%nat) by (destruct (prod (skipn (S d) cells)); lia).
    assert (P0 : (1 <= prod (firstn (S d) cells))%nat) by (destruct (prod (firstn (S d) cells)); lia).
    split; [exact P1|]. nia. }
  assert (Kb : (Z.of_nat k < 2 ^ 53)%Z) by lia. clear -Bs Kb. revert k Kb.
  induction Bs as [|b bs [H1 H2] _ IH]; intros k Kb; [reflexivity|].
  cbn [f_unrank List.map Write_Model.unrank]. destruct (floor_divide_nat k b Kb H1 H2) as [-> ->].
  rewrite INR_IZR_INZ, Ztrunc_IZR. f_equal. rewrite IH; [reflexivity|].
  pose proof (Nat.mod_upper_bound k b ltac:(lia)). lia.
Qed.

(** The quotients in the models of the reader (components per cell), of the trajectory
    command (frames to leap over) and of the growth fit (smallest region). *)
Theorem C112_sites : 
  (forall size nc, (1 <= size)%Z -> (0 <= nc)%Z -> (size * nc < 2 ^ 53)%Z -> (size < 2 ^ 53)%Z -> int_div (size * nc) size = Ok nc) /\
  (forall num_pos k, (Z.of_nat num_pos < 2 ^ 53)%Z -> (1 <= k < 2 ^ 53)%Z ->
     int_floor_div (Z.of_nat num_pos) k = Ok (fst (Traj_Model.timing num_pos (Some k)))) /\
  (forall {A} (x : list A), (Z.of_nat (length x) < 2 ^ 53)%Z -> int_div (Z.of_nat (length x)) 10 = Ok (Z.of_nat (length x / 10))).
Proof.
  split; [|split].
  - intros s c S C B Sb. destruct (C112_quotient (s * c) s ltac:(nia) ltac:(lia)) as [(q & _ & -> & Q) _]. f_equal. nia.
  - intros n k B K. destruct (C112_quotient (Z.of_nat n) k ltac:(lia) ltac:(lia)) as [(q & -> & _ & Q) _]. f_equal.
    unfold Traj_Model.timing. destruct (Z.eqb_spec k 0) as [C|_]; [lia|]. cbn [fst]. apply Z.div_unique with (Z.of_nat n - k * q)%Z; nia.
  - intros A x B. destruct (C112_quotient (Z.of_nat (length x)) 10 ltac:(lia) ltac:(lia)) as [(q & _ & -> & Q) _]. f_equal.
    rewrite Nat2Z.inj_div. change (Z.of_nat 10) with 10%Z. apply Z.div_unique with (Z.of_nat (length x) - 10 * q)%Z; lia.
Qed.

Lemma ln_mono x y : 0 < x -> x <= y -> ln x <= ln y.
Proof. intros P [L| ->]; [left; now apply ln_increasing|right; reflexivity]. Qed.

Lemma exp_close t : Rabs t <= / 8589934592 -> Rabs (exp t - 1) <= / 4294967296.
Proof.
  intros H. apply Rabs_le_inv in H. apply Rabs_le.
  pose proof (exp_ineq1_le t) as A. pose proof (exp_ineq1_le (- t)) as B. rewrite exp_Ropp in B.
  pose proof (exp_pos t) as P.
  assert (C : exp t * (1 - t) <= 1).
  { replace 1 with (exp t * / exp t) at 2 by (field; lra). apply Rmult_le_compat_l; lra. }
  split; [lra|]. nra.
Qed.

(** The number of points per direction, for any power function with a relative error of at
    most 2^-40. *)
Theorem C112_root pw d m :
  (forall x y, 0 < x -> Rabs (pw x y - Rpower x y) <= Rpower x y * / 1099511627776) ->
  (1 <= d)%nat -> (Z.of_nat d < 2 ^ 53)%Z -> (1 <= m)%nat -> (Z.of_nat m < 2 ^ 20)%Z ->
  f_root pw d (m ^ d) = m.
Proof.
  intros Pw D Db M Mb. unfold f_root. rewrite pow_INR.
  assert (Dr : 1 <= INR d) by (change 1 with (INR 1); now apply le_INR).
  assert (Mr : 1 <= INR m) by (change 1 with (INR 1); now apply le_INR).
  assert (Mu : INR m <= 1048576) by (rewrite INR_IZR_INZ; apply IZR_le; lia).
  assert (Du : INR d <= 9007199254740992) by (rewrite INR_IZR_INZ; apply IZR_le; lia).
  assert (Y : Rabs (fl (1 / INR d) - 1 / INR d) <= 1 / INR d * / 9007199254740992).
  { apply fl_near. change (bpow radix2 (-53)) with (/ 9007199254740992). unfold Rdiv. rewrite Rmult_1_l. apply Rinv_le; lra. }
  set (y := fl (1 / INR d)) in *.
  assert (E : Rpower (INR m ^ d) y = INR m * exp ((y * INR d - 1) * ln (INR m))).
  { rewrite <- (Rpower_pow d (INR m)) by lra. rewrite Rpower_mult. unfold Rpower.
    replace (INR d * y * ln (INR m)) with (ln (INR m) + (y * INR d - 1) * ln (INR m)) by ring.
    rewrite exp_plus, exp_ln by lra. reflexivity. }
  assert (L0 : 0 <= ln (INR m)) by (rewrite <- ln_1; apply ln_mono; lra).
  assert (L1 : ln (INR m) <= 1048576).
  { apply Rle_trans with (INR m); [|exact Mu]. rewrite <- (ln_exp (INR m)) at 2. apply ln_mono; [lra|]. pose proof (exp_ineq1_le (INR m)); lra. }
  assert (T : Rabs (y * INR d - 1) <= / 9007199254740992).
  { replace (y * INR d - 1) with ((y - 1 / INR d) * INR d) by (field; lra). rewrite Rabs_mult, (Rabs_pos_eq (INR d)) by lra.
    apply Rle_trans with (1 / INR d * / 9007199254740992 * INR d); [apply Rmult_le_compat_r; lra|]. right. field. lra. }
  assert (X : Rabs (exp ((y * INR d - 1) * ln (INR m)) - 1) <= / 4294967296).
  { apply exp_close. rewrite Rabs_mult, (Rabs_pos_eq (ln _)) by exact L0.
    apply Rle_trans with (/ 9007199254740992 * 1048576); [apply Rmult_le_compat; try lra; apply Rabs_pos|lra]. }
  assert (Mp : 0 < INR m ^ d) by (apply pow_lt; lra).
  specialize (Pw (INR m ^ d) y Mp). rewrite E in Pw. set (e := exp _) in *. set (v := pw _ _) in *. clearbody e v.
  apply Rabs_le_inv in X. apply Rabs_le_inv in Pw.
  assert (V : Rabs (v - IZR (Z.of_nat m)) < / 2).
  { rewrite <- INR_IZR_INZ. apply Rabs_lt. split; nra. }
  rewrite (Znearest_imp _ _ _ V). apply Nat2Z.id.
Qed.

(** Concrete inputs meeting the hypotheses. *)
Example C112_quotient_ex : int_floor_div 7 2 = Ok 3%Z /\ int_ceil_div 7 2 = Ok 4%Z /\ int_div 9007199254740991 3 = Ok 3002399751580330%Z.
Proof.
  destruct (C112_quotient 7 2 ltac:(lia) ltac:(lia)) as [(q & -> & _ & Q) (c & -> & C)].
  destruct (C112_quotient 9007199254740991 3 ltac:(lia) ltac:(lia)) as [(p & _ & -> & P) _].
  repeat split; f_equal; lia.
Qed.
Example C112_bins_ex : f_bins [3; 4]%nat = 5%Z /\ f_bins [7; 8; 1]%nat = 10%Z.
Proof.
  pose proof (C112_bins [3; 4]%nat ltac:(vm_compute; reflexivity)) as (A & B).
  pose proof (C112_bins [7; 8; 1]%nat ltac:(vm_compute; reflexivity)) as (C & D).
  change (Z.of_nat _) with 25%Z in B. change (Z.of_nat _) with 114%Z in D. nia.
Qed.
Example C112_layout_ex : f_layout None None 5 = Ok (2, 3)%Z /\ f_layout (Some 2%Z) None 5 = Ok (2, 3)%Z /\ f_layout None None 7 = Ok (3, 3)%Z.
Proof.
  rewrite !C112_layout; try lia; try discriminate; [|intros r [= <-]; lia]. now vm_compute.
Qed.
Example C112_ghosts_ex : ghosts 35 32 = (1, 2)%Z.
Proof.
  pose proof (C112_ghosts 35 32 ltac:(vm_compute; reflexivity)) as H. destruct (ghosts 35 32) as [l u]. f_equal; lia.
Qed.
Example C112_slices_ex : f_slice 24 3 1 = (8, 16)%Z.
Proof. exact (C112_slices 8 3 1 ltac:(lia) ltac:(lia) ltac:(lia) ltac:(lia)). Qed.
Example C112_lines_ex : f_unrank (f_basis [3; 4; 5]%nat) (INR 37) = [1; 3; 2]%Z.
Proof. exact (C112_lines [3; 4; 5]%nat [1; 3; 2]%nat 37 ltac:(vm_compute; reflexivity) ltac:(vm_compute; reflexivity)). Qed.
Example C112_sites_ex : int_div (60 * 8) 60 = Ok 8%Z /\ int_div (Z.of_nat (length (repeat tt 37))) 10 = Ok 3%Z.
Proof.
  destruct C112_sites as (A & _ & C). split; [apply A; lia|]. rewrite C; [now vm_compute|vm_compute; reflexivity].
Qed.
Example C112_root_ex : f_root Rpower 3 64 = 4%nat.
Proof.
  apply (C112_root Rpower 3 4); try lia. intros x y _. unfold Rminus. rewrite Rplus_opp_r, Rabs_R0.
  apply Rmult_le_pos; [left; apply exp_pos|lra].
Qed.

Print Assumptions C112_quotient.
Print Assumptions C112_bins.
Print Assumptions C112_layout.
Print Assumptions C112_ghosts.
Print Assumptions C112_slices.
Print Assumptions C112_lines.
Print Assumptions C112_sites.
Print Assumptions C112_root.
