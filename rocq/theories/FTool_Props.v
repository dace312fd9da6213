(** * C134: squared magnitudes and relative changes in double precision *)
From Coq Require Import String Ascii List Arith ZArith QArith Qreals Bool Lia Reals Lra Psatz Permutation.
From Flocq Require Import Core.
From Verif Require Import Prelude PreludeFacts NdArray Ev_Model Ev_Arith Tools_Arr Tools_Model Tools_Proofs Calc_Spec Float_Model Float_Props FloatQ_Model FloatQ_Props FGrid_Proofs
  FInt_Model FInt_Spec FInt_Proofs FInt_Props FDg_Props FTool_Model.
Import ListNotations.
Open Scope string_scope. Open Scope list_scope. Open Scope nat_scope.

Section Relative.
  Context (cells : list nat) (m m0 : nat) (v v0 : arr) (f f0 : list nat -> nat -> R).
  Context (Sv : shows cells m v f) (S0 : shows cells m0 v0 f0).
  Open Scope R_scope.

  Lemma y_rel_comp k ref r out h :
    shows cells m out h -> (k < m)%nat -> (k < m0)%nat -> norm_index m0 ref = Ok r -> (r < m0)%nat ->
    yields (frel_comp k v v0 ref out) cells m (fun x j => if (j =? k)%nat then fl (fl (f x k - f0 x k) / f0 x r) else h x j).
  Proof using Sv S0.
    intros So Hk Hk0 Er Hr. unfold frel_comp, fsub_, fdiv_.
    destruct (holds_comp k v _ _ _ Sv Hk) as (a & -> & Ha). cbn [bind].
    destruct (holds_comp k v0 _ _ _ S0 Hk0) as (c & -> & Hc). cbn [bind].
    destruct (holds_rb (fun x y => fl (x - y)) _ _ _ _ _ Ha Hc) as (d & -> & Hd). cbn [bind].
    assert (E : shape v0 = cells ++ [m0]) by apply S0. rewrite E, last_snoc, Er. cbn [bind].
    destruct (holds_comp r v0 _ _ _ S0 Hr) as (e & -> & He). cbn [bind].
    destruct (holds_rb (fun x y => fl (x / y)) _ _ _ _ _ Hd He) as (q & -> & Hq). cbn [bind].
    eapply yields_ext; [eapply yields_set_col; [exact Hq|exact So|exact Hk]|]. intros x j Hx Hj. reflexivity.
  Qed.

  Lemma y_loop cmp (rf : nat -> nat) : (m <= m0)%nat -> (forall k, (k < m)%nat -> (rf k < m0)%nat) ->
    (forall k, (k < m)%nat -> exists z, match cmp with Some s => py_int s | None => Ok (Z.of_nat k) end = Ok z /\ norm_index m0 z = Ok (rf k)) ->
    forall ks out h, (forall k, In k ks -> (k < m)%nat) -> shows cells m out h ->
    yields (frel_loop v v0 cmp ks out) cells m
      (fun x j => if existsb (Nat.eqb j) ks then fl (fl (f x j - f0 x j) / f0 x (rf j)) else h x j).
  Proof using Sv S0.
    intros Hm Hr Hz. induction ks as [|k ks IH]; intros out h Hk So.
    - apply yields_ok. exact So.
    - cbn [frel_loop]. destruct (Hz k) as (z & Ez & En); [apply Hk; left; reflexivity|]. rewrite Ez. cbn [bind].
      assert (Hkm : (k < m)%nat) by (apply Hk; left; reflexivity).
      eapply yields_bind; [eapply (y_rel_comp k z (rf k)); [exact So|exact Hkm|lia|exact En|auto]|].
      intros o Ho. eapply yields_ext; [apply IH; [intros; apply Hk; right; assumption|exact Ho]|].
      intros x j Hx Hj. cbv beta. cbn [existsb]. destruct (Nat.eqb_spec j k); [subst j; cbn [orb]|reflexivity].
      destruct (existsb (Nat.eqb k) ks); reflexivity.
  Qed.

  Lemma y_rel_none : (m <= m0)%nat ->
    yields (frel_change v0 v None) cells m (fun x j => fl (fl (f x j - f0 x j) / f0 x j)).
  Proof using Sv S0.
    intros Hm. unfold frel_change. assert (E : shape v = cells ++ [m]) by apply Sv. rewrite E, last_snoc.
    eapply yields_ext; [apply (y_loop None (fun k => k) Hm)|].
    - intros; lia.
    - intros k Hk. exists (Z.of_nat k). split; [reflexivity|]. unfold norm_index.
      replace (Z.of_nat k <? 0)%Z with false by (symmetry; apply Z.ltb_ge; lia). cbn.
      destruct (Z.leb_spec 0 (Z.of_nat k)); [|lia]. destruct (Z.ltb_spec (Z.of_nat k) (Z.of_nat m0)); [|lia].
      cbn. now rewrite Nat2Z.id.
    - intros k Hk. apply in_seq in Hk. lia.
    - apply shows_zeros.
    - intros x j Hx Hj. cbv beta. replace (existsb (Nat.eqb j) (seq 0 m)) with true; [reflexivity|].
      symmetry. apply existsb_exists. exists j. split; [apply in_seq; lia|apply Nat.eqb_refl].
  Qed.

  Lemma y_rel_some s z r : (m <= m0)%nat -> py_int s = Ok z -> norm_index m0 z = Ok r -> (r < m0)%nat ->
    yields (frel_change v0 v (Some s)) cells m (fun x j => fl (fl (f x j - f0 x j) / f0 x r)).
  Proof using Sv S0.
    intros Hm Es Er Hr. unfold frel_change. assert (E : shape v = cells ++ [m]) by apply Sv. rewrite E, last_snoc.
    eapply yields_ext; [apply (y_loop (Some s) (fun _ => r) Hm)|].
    - intros; lia.
    - intros k Hk. exists z. auto.
    - intros k Hk. apply in_seq in Hk. lia.
    - apply shows_zeros.
    - intros x j Hx Hj. cbv beta. replace (existsb (Nat.eqb j) (seq 0 m)) with true; [reflexivity|].
      symmetry. apply existsb_exists. exists j. split; [apply in_seq; lia|apply Nat.eqb_refl].
  Qed.
End Relative.

Open Scope R_scope.

(** ** Sums of squares *)
Lemma sums_pos l s : sums l s -> List.Forall (fun x => 0 <= x) l -> 0 <= s.
Proof.
  assert (F0 : fl 0 = 0) by (apply fl_id, generic_format_0).
  induction 1 as [|a|l m s t H1 IH1 H2 IH2|l m s P H IH]; intros F.
  - lra.
  - now inversion F.
  - apply List.Forall_app in F as (A & B). rewrite <- F0. apply fl_le. specialize (IH1 A). specialize (IH2 B). lra.
  - apply IH. apply List.Forall_forall. intros x Hx. rewrite List.Forall_forall in F. apply F. eapply Permutation_in; eassumption.
Qed.

Lemma squares_error l s : sums (List.map (fun x => fl (x * x)) l) s ->
  format s /\ 0 <= s /\
  Rabs (s - rsum (List.map (fun x => x * x) l)) <= ((1 + u) ^ (length l + 1) - 1) * rsum (List.map (fun x => x * x) l) + (1 + u) ^ length l * (INR (length l) * tiny).
Proof.
  intros H. assert (F0 : fl 0 = 0) by (apply fl_id, generic_format_0).
  assert (P : List.Forall (fun x => 0 <= x) (List.map (fun x => fl (x * x)) l)).
  { apply List.Forall_forall. intros y Hy. apply in_map_iff in Hy as (x & <- & _). rewrite <- F0. apply fl_le. nra. }
  destruct (sums_error _ _ H) as (Fs & _ & E).
  { apply List.Forall_forall. intros y Hy. apply in_map_iff in Hy as (x & <- & _). apply FInt_Proofs.fl_format. }
  split; [exact Fs|]. split; [now apply (sums_pos _ _ H)|]. rewrite map_length in E.
  assert (B : absum (List.map (fun x => fl (x * x)) l) = rsum (List.map (fun x => fl (x * x)) l)).
  { clear - P. unfold absum, rsum. induction l as [|x l IH]; cbn [List.map fold_right] in *; [reflexivity|]. inversion P; subst. rewrite Rabs_pos_eq by assumption. f_equal. now apply IH. }
  assert (C : Rabs (rsum (List.map (fun x => fl (x * x)) l) - rsum (List.map (fun x => x * x) l)) <= u * rsum (List.map (fun x => x * x) l) + INR (length l) * tiny /\
              0 <= rsum (List.map (fun x => x * x) l)).
  { clear. unfold rsum. induction l as [|x l IH]; cbn [List.map fold_right length]; [rewrite Rminus_0_r, Rabs_R0; cbn [INR]; lra|]. rewrite S_INR. destruct IH as (I1 & I2).
    pose proof (fl_error (x * x)) as Ex. rewrite (Rabs_pos_eq (x * x)) in Ex by nra.
    set (A := fold_right Rplus 0 (List.map (fun x0 => fl (x0 * x0)) l)) in *. set (B := fold_right Rplus 0 (List.map (fun x0 => x0 * x0) l)) in *. split; [|nra].
    replace (fl (x * x) + A - (x * x + B)) with ((fl (x * x) - x * x) + (A - B)) by ring. apply Rle_trans with (1 := Rabs_triang _ _). lra. }
  rewrite B in E. destruct C as (C & S0). pose proof (pw_ge (length l)) as G. rewrite pow_add, pow_1.
  set (g := (1 + u) ^ length l) in *. set (T := rsum (List.map (fun x => fl (x * x)) l)) in *. set (X := rsum (List.map (fun x => x * x) l)) in *. set (k := INR (length l) * tiny) in *.
  assert (T1 : T <= (1 + u) * X + k) by (apply Rabs_le_inv in C; lra).
  assert (T2 : (g - 1) * T <= (g - 1) * ((1 + u) * X + k)) by (apply Rmult_le_compat_l; lra).
  replace (s - X) with ((s - T) + (T - X)) by ring. apply Rle_trans with (1 := Rabs_triang _ _).
  replace ((g * (1 + u) - 1) * X + g * k) with ((g - 1) * ((1 + u) * X + k) + (u * X + k)) by ring. lra.
Qed.

Section Magnitude.
  (** np.sum adds in any order. *)
  Context (sum : list nat -> list R -> R) (Hsum : forall i l, sums l (sum i l)).

  (** Components [a] to [b - 1] of any array: a double that is not negative, off by one rounding per
      component and one more, relative to the magnitude itself, and halves of the smallest double. *)
  Theorem C134_magsq cells n v f coords a b : shows cells n v f ->
    split_on ":" coords = [show_Z (Z.of_nat a); show_Z (Z.of_nat b)] -> (a < b <= n)%nat ->
    exists m : list nat -> R, yields (fmag_sq sum coords v) cells 1 (fun x _ => m x) /\
      forall x, in_range cells x -> let exact := rsum (List.map (fun k => (f x k) ^ 2) (seq a (b - a))) in
        format (m x) /\ 0 <= m x /\
        Rabs (m x - exact) <= ((1 + u) ^ (b - a + 1) - 1) * exact + (1 + u) ^ (b - a) * (INR (b - a) * tiny).
  Proof using Hsum.
    intros Sh Es H. unfold fmag_sq. rewrite Es. rewrite !py_int_show_Z. cbn [bind].
    assert (Sl : slice2 n (Z.of_nat a) (Z.of_nat b) = seq a (b - a)).
    { unfold slice2, adjust_pos.
      replace (Z.of_nat a <? 0)%Z with false by (symmetry; apply Z.ltb_ge; lia).
      replace (Z.of_nat b <? 0)%Z with false by (symmetry; apply Z.ltb_ge; lia).
      rewrite !Z.min_l by lia. f_equal; lia. }
    destruct (yields_cols (Z.of_nat a) (Z.of_nat b) v cells n f Sh) as (w & -> & Hw). rewrite Sl, seq_length in Hw. cbn [bind].
    destruct (holds_comp 0 w _ _ _ Hw ltac:(lia)) as (c & Ec & _). rewrite Ec. cbn [bind].
    destruct (yields_rb (fun x y => fl (x * y)) w w _ _ _ _ Hw Hw) as (p & Ep & Hp). unfold fmul_. rewrite Ep. cbn [bind].
    assert (L : forall x, List.map (fun k => f x (nth k (seq a (b - a)) 0%nat)) (seq 0 (b - a)) = List.map (f x) (seq a (b - a))).
    { intros x. rewrite <- (map_map (fun k => nth k (seq a (b - a)) 0%nat) (f x)). f_equal.
      transitivity (List.map (fun k => (a + k)%nat) (seq 0 (b - a))); [apply map_ext_in; intros k Hk; apply in_seq in Hk; apply seq_nth; lia|].
      clear. generalize (b - a)%nat as m. intros m. revert a. induction m as [|m IH]; intros a; [reflexivity|]. cbn [seq List.map]. f_equal; [lia|].
      rewrite <- (IH (S a)), <- seq_shift, map_map. apply map_ext. intros i. lia. }
    pose proof Hp as (Wp & Sp & Vp). unfold fsum_comps. destruct (snoc_shape p cells (b - a) Sp) as (a0 & l & E). rewrite E. cbv iota. rewrite <- E, Sp, last_snoc, removelast_snoc. cbn [bind].
    set (m := fun idx => sum idx (List.map (fun c => val p (idx ++ [c])) (seq 0 (b - a)))).
    exists m. split.
    - apply yields_ok. split.
      { unfold wf, add_axis. cbn [shape flat]. pose proof (wf_tabulate cells m) as Wt. unfold wf in Wt. rewrite Wt. cbn [tabulate shape]. rewrite prod_app. unfold prod at 3. cbn. lia. }
      split; [reflexivity|]. intros x j Hx Hj. assert (j = 0)%nat by lia. subst j.
      pose proof (get_tabulate cells m x Hx) as G. unfold get, add_axis in *. cbn [shape flat tabulate] in *.
      assert (R : ravel (cells ++ [1%nat]) (x ++ [0%nat]) = ravel cells x).
      { clear - Hx. unfold in_range in Hx. induction Hx as [|i n x cells H _ IH]; [reflexivity|]. cbn [app ravel].
        destruct (i <? n)%nat; [|reflexivity]. rewrite IH, prod_app. unfold prod at 2. cbn [fold_right]. rewrite Nat.mul_1_r. reflexivity. }
      rewrite R. exact G.
    - intros x Hx. set (ex := rsum (List.map (fun k => f x k ^ 2) (seq a (b - a)))). assert (Em : sums (List.map (fun t => fl (t * t)) (List.map (f x) (seq a (b - a)))) (m x)).
      { assert (Q : List.map (fun t => fl (t * t)) (List.map (f x) (seq a (b - a))) = List.map (fun c => val p (x ++ [c])) (seq 0 (b - a))).
        { rewrite <- L, map_map. apply map_ext_in. intros k Hk. apply in_seq in Hk. unfold val. rewrite Vp by (auto; lia). reflexivity. }
        rewrite Q. apply Hsum. }
      destruct (squares_error _ _ Em) as (A & B & C). rewrite map_length, seq_length in C. split; [exact A|]. split; [exact B|].
      replace ex with (rsum (List.map (fun t => t * t) (List.map (f x) (seq a (b - a))))); [exact C|]. unfold ex. rewrite map_map. f_equal. apply map_ext. intros k. ring.
  Qed.
End Magnitude.

(** ** Relative changes *)
Lemma change_error a b r : format a -> format b -> r <> 0 ->
  Rabs (fl (fl (a - b) / r) - (a - b) / r) <= (2 * u + u ^ 2) * Rabs ((a - b) / r) + tiny.
Proof.
  intros Fa Fb Hr. pose proof (fl_minus_error a b Fa Fb) as E1. pose proof (fl_error (fl (a - b) / r)) as E2. pose proof u_pos.
  set (d := fl (a - b)) in *. assert (P : 0 < Rabs r) by now apply Rabs_pos_lt.
  assert (E3 : Rabs (d / r - (a - b) / r) <= u * Rabs ((a - b) / r)).
  { replace (d / r - (a - b) / r) with ((d - (a - b)) * / r) by (unfold Rdiv; ring). unfold Rdiv. rewrite !(Rabs_mult _ (/ r)), <- Rmult_assoc.
    apply Rmult_le_compat_r; [apply Rabs_pos|exact E1]. }
  set (Q := (a - b) / r) in *. set (y := d / r) in *.
  assert (E4 : Rabs y <= (1 + u) * Rabs Q) by (replace y with (Q + (y - Q)) by ring; apply Rle_trans with (1 := Rabs_triang _ _); lra).
  assert (E5 : u * Rabs y <= u * ((1 + u) * Rabs Q)) by (apply Rmult_le_compat_l; lra).
  replace (fl y - Q) with ((fl y - y) + (y - Q)) by ring. apply Rle_trans with (1 := Rabs_triang _ _).
  replace ((2 * u + u ^ 2) * Rabs Q) with (u * ((1 + u) * Rabs Q) + u * Rabs Q) by ring. lra.
Qed.

(** ** Changes do not vanish *)
Lemma multiple a e : format a -> bpow radix2 (e - 2) <= Rabs a -> exists k : Z, a = IZR k * bpow radix2 (e - 54).
Proof.
  intros F H. assert (M : (e - 1 <= mag radix2 a)%Z) by (apply mag_ge_bpow; replace (e - 1 - 1)%Z with (e - 2)%Z by lia; exact H).
  unfold format, generic_format in F. set (c := cexp radix2 (FLT_exp (-1074) 53) a) in F.
  assert (C : (e - 54 <= c)%Z) by (unfold c, cexp, FLT_exp; lia).
  set (k := Ztrunc (scaled_mantissa radix2 (FLT_exp (-1074) 53) a)) in F.
  exists (k * 2 ^ (c - (e - 54)))%Z. rewrite F at 1. unfold F2R. cbn [Fnum Fexp].
  rewrite mult_IZR, (IZR_Zpower radix2) by lia. rewrite Rmult_assoc, <- bpow_plus. do 2 f_equal. lia.
Qed.

(** Different doubles differ by more than 2^-54 relative to either. *)
Lemma apart a b : format a -> format b -> b <> 0 -> a <> b -> bpow radix2 (-54) * Rabs b <= Rabs (a - b).
Proof.
  intros Fa Fb Hb N. assert (P : 0 < Rabs b) by now apply Rabs_pos_lt.
  assert (B54 : bpow radix2 (-54) <= / 4) by (change (/ 4) with (bpow radix2 (-2)); apply bpow_le; lia).
  destruct (Rle_dec (/ 4 * Rabs b) (Rabs (a - b))) as [G|G]; [nra|].
  destruct (mag radix2 b) as (e & He). specialize (He Hb). destruct He as (L & U).
  assert (E2 : bpow radix2 (e - 1) = 2 * bpow radix2 (e - 2)) by (replace (e - 1)%Z with (1 + (e - 2))%Z by lia; rewrite bpow_plus; reflexivity).
  pose proof (bpow_gt_0 radix2 (e - 2)) as P2. pose proof (bpow_gt_0 radix2 (e - 54)) as P3.
  assert (A : Rabs b <= Rabs a + Rabs (a - b)) by (replace b with (a + - (a - b)) at 1 by ring; rewrite <- (Rabs_Ropp (a - b)); apply Rabs_triang).
  destruct (multiple a e Fa) as (k & Ek); [lra|]. destruct (multiple b e Fb) as (l & El); [lra|].
  assert (K : (1 <= Z.abs (k - l))%Z) by (assert (k <> l) by (intros ->; apply N; congruence); lia).
  apply IZR_le in K. rewrite abs_IZR in K.
  assert (D : Rabs (a - b) = Rabs (IZR (k - l)) * bpow radix2 (e - 54)).
  { rewrite minus_IZR. replace (a - b) with ((IZR k - IZR l) * bpow radix2 (e - 54)) by (rewrite Ek, El; ring). rewrite Rabs_mult, (Rabs_pos_eq (bpow _ _)) by lra. reflexivity. }
  rewrite D.
  apply Rle_trans with (bpow radix2 (e - 54)); [|nra].
  replace (e - 54)%Z with (-54 + e)%Z by lia. rewrite bpow_plus. apply Rmult_le_compat_l; [apply bpow_ge_0|lra].
Qed.

(** A relative change with respect to the same component is 0 only where nothing changed. *)
Theorem C134_change_seen a b : format a -> format b -> b <> 0 -> fl (fl (a - b) / b) = 0 <-> a = b.
Proof.
  intros Fa Fb Hb. split.
  - intros Z. destruct (Req_dec a b) as [|N]; [assumption|exfalso].
    pose proof (change_error a b b Fa Fb Hb) as E. pose proof (apart a b Fa Fb Hb N) as D. rewrite Z in E.
    assert (P : 0 < Rabs b) by now apply Rabs_pos_lt.
    set (Q := (a - b) / b) in *. rewrite Rminus_0_l, Rabs_Ropp in E.
    assert (G : bpow radix2 (-54) <= Rabs Q).
    { apply Rmult_le_reg_r with (1 := P). rewrite <- Rabs_mult. replace (Q * b) with (a - b) by (unfold Q; field; exact Hb). exact D. }
    assert (T : tiny < / 2 * bpow radix2 (-54)).
    { apply Rlt_le_trans with (bpow radix2 (-1000)); [unfold tiny; apply bpow_lt; lia|]. change (/ 2) with (bpow radix2 (-1)). rewrite <- bpow_plus. apply bpow_le. lia. }
    assert (U : 0 < u <= / 16) by (split; [apply u_pos|unfold u; change (/ 16) with (bpow radix2 (-4)); apply bpow_le; lia]).
    assert (2 * u + u ^ 2 <= / 4) by nra. pose proof (bpow_gt_0 radix2 (-54)). nra.
  - intros ->. assert (Z : fl 0 = 0) by (apply fl_id, generic_format_0). rewrite Rminus_eq_0, Z. unfold Rdiv. rewrite Rmult_0_l. exact Z.
Qed.

(** Of doubles, component by component: off by two roundings relative to the change itself and half of
    the smallest double; 0 exactly where nothing changed. *)
Theorem C134_relchange cells m m0 v v0 f f0 :
  shows cells m v f -> shows cells m0 v0 f0 -> (m <= m0)%nat ->
  (forall x j, in_range cells x -> (j < m)%nat -> format (f x j)) -> (forall x j, in_range cells x -> (j < m0)%nat -> format (f0 x j) /\ f0 x j <> 0) ->
  exists q : list nat -> nat -> R, yields (frel_change v0 v None) cells m q /\
    forall x j, in_range cells x -> (j < m)%nat ->
      format (q x j) /\ (q x j = 0 <-> f x j = f0 x j) /\
      Rabs (q x j - (f x j - f0 x j) / f0 x j) <= (2 * u + u ^ 2) * Rabs ((f x j - f0 x j) / f0 x j) + tiny.
Proof.
  intros Sv S0 Hm Ff F0. eexists. split; [eapply y_rel_none; eauto|]. intros x j Hx Hj. destruct (F0 x j Hx ltac:(lia)) as (A & B). cbv beta.
  split; [apply FInt_Proofs.fl_format|]. pose proof (Ff x j Hx Hj). split; [now apply C134_change_seen|now apply change_error].
Qed.

Theorem C134_relchange_comp cells m m0 v v0 f f0 z r :
  shows cells m v f -> shows cells m0 v0 f0 -> (m <= m0)%nat -> (r < m0)%nat -> z = Z.of_nat r \/ z = (Z.of_nat r - Z.of_nat m0)%Z ->
  (forall x j, in_range cells x -> (j < m)%nat -> format (f x j)) -> (forall x j, in_range cells x -> (j < m0)%nat -> format (f0 x j)) ->
  (forall x, in_range cells x -> f0 x r <> 0) ->
  exists q : list nat -> nat -> R, yields (frel_change v0 v (Some (show_Z z))) cells m q /\
    forall x j, in_range cells x -> (j < m)%nat ->
      format (q x j) /\ (f x j = f0 x j -> q x j = 0) /\
      Rabs (q x j - (f x j - f0 x j) / f0 x r) <= (2 * u + u ^ 2) * Rabs ((f x j - f0 x j) / f0 x r) + tiny.
Proof.
  intros Sv S0 Hm Hr Hz Ff F0 Nz. eexists. split.
  { eapply y_rel_some; eauto; [apply py_int_show_Z|]. apply norm_index_ok. split; [exact Hr|exact Hz]. }
  intros x j Hx Hj. cbv beta. split; [apply FInt_Proofs.fl_format|]. split; [|apply change_error; [now apply Ff|apply F0; auto; lia|now apply Nz]].
  intros ->. assert (Z : fl 0 = 0) by (apply fl_id, generic_format_0). rewrite Rminus_eq_0, Z. unfold Rdiv. rewrite Rmult_0_l. exact Z.
Qed.

(** ** No purely relative bound holds: squares of small doubles vanish. *)
Theorem C134_relative_refuted : exists x, format x /\ x * x > 0 /\ forall s, sums [fl (x * x)] s -> s = 0.
Proof.
  exists (bpow radix2 (-600)). split; [apply generic_format_FLT_bpow; [reflexivity|lia]|]. pose proof (bpow_gt_0 radix2 (-600)) as P. split; [nra|].
  rewrite <- bpow_plus. assert (Z : fl (bpow radix2 (-600 + -600)) = 0).
  { apply round_N_small_pos with (ex := (-1199)%Z); [split; [apply bpow_le; lia|apply bpow_lt; lia]|reflexivity]. }
  rewrite Z. intros s H. assert (List.Forall format [0]) as F by (constructor; [apply generic_format_0|constructor]).
  destruct (sums_error _ _ H F) as (_ & _ & E).
  assert (A0 : absum [0] = 0) by (unfold absum; cbn; rewrite Rabs_R0; ring). assert (R0 : rsum [0] = 0) by (unfold rsum; cbn; ring).
  rewrite A0, R0, Rmult_0_r, Rminus_0_r in E. destruct (Req_dec s 0) as [|N]; [assumption|]. apply Rabs_pos_lt in N. lra.
Qed.

(** With another component as the reference a change may vanish. *)
Theorem C134_change_seen_refuted : exists a b r, format a /\ format b /\ format r /\ r <> 0 /\ a <> b /\ fl (fl (a - b) / r) = 0.
Proof.
  assert (F : forall e, (-1074 <= e)%Z -> format (bpow radix2 e)) by (intros e He; apply generic_format_FLT_bpow; [reflexivity|exact He]).
  exists (bpow radix2 (-1074)), 0, (bpow radix2 2). pose proof (bpow_gt_0 radix2 (-1074)). pose proof (bpow_gt_0 radix2 2).
  split; [apply F; lia|]. split; [apply generic_format_0|]. split; [apply F; lia|]. split; [lra|]. split; [lra|].
  rewrite Rminus_0_r, (fl_id (bpow radix2 (-1074))) by (apply F; lia). unfold Rdiv. rewrite <- bpow_opp, <- bpow_plus.
  apply round_N_small_pos with (ex := (-1075)%Z); [split; [apply bpow_le; lia|apply bpow_lt; lia]|reflexivity].
Qed.

(** ** Example: components 0 and 1 of (3, 4, 9), and the change from (2, 8) to (3, 4). *)
Example C134_example sum : (forall i l, sums l (sum i l)) ->
  (exists m : list nat -> R, yields (fmag_sq sum "0:2" (mk_nda [1%nat; 3%nat] [3; 4; 9])) [1%nat] 1 (fun x _ => m x) /\ Rabs (m [0%nat] - 25) <= ((1 + u) ^ 3 - 1) * 25 + (1 + u) ^ 2 * (2 * tiny)) /\
  (exists q : list nat -> nat -> R, yields (frel_change (mk_nda [1%nat; 2%nat] [2; 8]) (mk_nda [1%nat; 2%nat] [3; 4]) None) [1%nat] 2 q /\
     Rabs (q [0%nat] 0%nat - 1 / 2) <= (2 * u + u ^ 2) * (1 / 2) + tiny /\ Rabs (q [0%nat] 1%nat - - (1 / 2)) <= (2 * u + u ^ 2) * (1 / 2) + tiny).
Proof.
  intros Hs. assert (I0 : in_range [1%nat] [0%nat]) by (repeat constructor).
  assert (S : forall n l, length l = n -> shows [1%nat] n (mk_nda [1%nat; n] l) (fun _ k => nth k l 0)).
  { intros n l L. split; [unfold wf, prod; cbn; lia|]. split; [reflexivity|]. intros x k Hx Hk. inversion Hx as [|i ? x' ? Hi Hx']; subst. inversion Hx'; subst. assert (i = 0)%nat by lia. subst i.
    assert (Q : (k <? length l)%nat = true) by (apply Nat.ltb_lt; lia). unfold get. cbn [shape flat app ravel]. rewrite Q. cbn. rewrite ?Nat.mul_1_r, ?Nat.add_0_r. apply nth_error_nth'. lia. }
  split.
  - destruct (C134_magsq sum Hs [1%nat] 3 _ _ "0:2" 0 2 (S 3%nat [3; 4; 9] eq_refl) eq_refl ltac:(lia)) as (m & Y & B). exists m. split; [exact Y|].
    destruct (B _ I0) as (_ & _ & E). unfold rsum in E. cbn [seq Nat.sub List.map fold_right nth] in E. cbn [Nat.add INR] in E.
    replace (3 ^ 2 + (4 ^ 2 + 0)) with 25 in E by ring. replace (1 + 1) with 2 in E by ring. exact E.
  - assert (FZ : forall z, (Z.abs z < 2 ^ 53)%Z -> format (IZR z)).
    { intros z Hz. apply generic_format_FLT. exists (Float radix2 z 0); [unfold F2R; cbn; ring|exact Hz|cbn; lia]. }
    destruct (C134_relchange [1%nat] 2 2 _ _ _ _ (S 2%nat [3; 4] eq_refl) (S 2%nat [2; 8] eq_refl) ltac:(lia)) as (q & Y & B).
    + intros x j _ Hj. destruct j as [|[|j]]; [apply (FZ 3%Z); lia|apply (FZ 4%Z); lia|lia].
    + intros x j _ Hj. destruct j as [|[|j]]; [split; [apply (FZ 2%Z); lia|cbn; lra]|split; [apply (FZ 8%Z); lia|cbn; lra]|lia].
    + exists q. split; [exact Y|]. destruct (B _ 0%nat I0 ltac:(lia)) as (_ & _ & E0). destruct (B _ 1%nat I0 ltac:(lia)) as (_ & _ & E1). cbn [nth] in E0, E1.
      replace ((3 - 2) / 2) with (1 / 2) in E0 by lra. rewrite (Rabs_pos_eq (1 / 2)) in E0 by lra.
      replace ((4 - 8) / 8) with (- (1 / 2)) in E1 by lra. rewrite (Rabs_Ropp (1 / 2)), (Rabs_pos_eq (1 / 2)) in E1 by lra. split; [exact E0|exact E1].
Qed.

Print Assumptions C134_magsq.
Print Assumptions C134_relchange_comp.
