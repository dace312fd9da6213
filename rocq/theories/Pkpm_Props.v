(** * C66, C67: composing Laguerre coefficients, moving to another frame. *)
From Coq Require Import String Ascii List Arith ZArith Bool Lia Reals Lra.
From Verif Require Import Prelude PreludeFacts NdArray Ev_Model Tools_Arr Tools_Model Calc_Model DataSpace_Model DataSpace_Spec
  DataSpace_Proofs DataSpace_Proofs2 DataSpace_Proofs3 DataSpace_Props Pkpm_Model.
From Verif Require Ev_Arith Calc_Spec Calc_Props3.
From Coquelicot Require Import Coquelicot.
Import ListNotations.
Open Scope list_scope.
Open Scope R_scope.

(** ** Specification: the shape of the distribution

    Over the perpendicular speed the distribution is a Maxwellian of
    temperature [T] times a polynomial of degree one in [v^2]. *)
Definition laguerre_shape (T : R) (h : R -> R) : Prop :=
  exists a b, forall v, h v = (a + b * v ^ 2) * exp (- (v ^ 2 / (2 * T))).

(** [int_0^oo w(v) h(v) 2 pi v dv = m] as an improper integral. *)
Definition perp_moment (w h : R -> R) (m : R) : Prop :=
  is_lim (fun b => RInt (fun v => w v * h v * (2 * PI * v)) 0 b) p_infty m.

(** The midpoint of cell [k]. *)
Definition mid (c : list R) (k : nat) : R := (nth k c 0 + nth (S k) c 0) / 2.

(** ** The integrals *)
Section Moments.
  Context (T F0 F1 : R) (HT : 0 < T).
  Let h (v : R) : R := (F0 + F1 * (1 - v ^ 2 / 2 / T)) / (2 * PI * T) * exp (- v ^ 2 / 2 / T).
  Let s (v : R) : R := v ^ 2 / 2 / T.

  Lemma exp_tail n : (n <= 2)%nat -> is_lim (fun v => s v ^ n * exp (- s v)) p_infty 0.
  Proof.
    intros Hn.
    assert (B : forall x, 3 <= x -> 0 <= x ^ n * exp (- x) <= 27 / x).
    { intros x Hx. assert (E : exp x = exp (x / 3) ^ 3).
      { replace x with (x / 3 + x / 3 + x / 3) at 1 by field. rewrite !exp_plus. ring. }
      assert (P : 1 + x / 3 < exp (x / 3)) by (apply exp_ineq1; lra).
      assert (Q : (x / 3) ^ 3 <= exp x).
      { rewrite E. apply pow_incr. lra. }
      rewrite exp_Ropp. pose proof (exp_pos x) as EP. split.
      - apply Rmult_le_pos; [apply pow_le; lra|]. apply Rlt_le, Rinv_0_lt_compat, EP.
      - apply (Rmult_le_reg_r (exp x * x)); [nra|].
        replace (x ^ n * / exp x * (exp x * x)) with (x ^ n * x) by (field; lra).
        replace (27 / x * (exp x * x)) with (27 * exp x) by (field; lra).
        apply Rle_trans with (x ^ 3); [|nra].
        destruct n as [|[|[|n]]]; [| | |lia]; cbn [pow]; nra. }
    assert (L : is_lim s p_infty p_infty).
    { apply is_lim_spec. intros M. exists (Rmax 1 (2 * T * M)). intros y Hy.
      pose proof (Rmax_l 1 (2 * T * M)). pose proof (Rmax_r 1 (2 * T * M)).
      unfold s. apply (Rmult_lt_reg_r (2 * T)); [lra|].
      replace (y ^ 2 / 2 / T * (2 * T)) with (y ^ 2) by (field; lra). nra. }
    apply (is_lim_comp (fun x => x ^ n * exp (- x)) s p_infty 0 p_infty); [|exact L|exists 0; intros; discriminate].
    apply is_lim_le_le_loc with (fun _ => 0) (fun x => 27 / x).
    - exists 3. intros x Hx. apply B. lra.
    - apply is_lim_const.
    - replace (Finite 0) with (Rbar_div 27 p_infty) by (cbn; f_equal; ring).
      apply is_lim_div; [apply is_lim_const|apply is_lim_id|discriminate|]. cbn. auto.
  Qed.

  Lemma lim_scal (a : R) (f : R -> R) : is_lim f p_infty 0 -> is_lim (fun v => a * f v) p_infty (a * 0).
  Proof. intros H. apply (is_lim_scal_l f a p_infty 0 H). Qed.

  Lemma moment_of (w A : R -> R) (m : R) :
    (forall v, is_derive A v (w v * h v * (2 * PI * v))) -> (forall v, continuous (fun v => w v * h v * (2 * PI * v)) v) ->
    is_lim A p_infty 0 -> - A 0 = m -> perp_moment w h m.
  Proof.
    intros D C L <-. unfold perp_moment.
    apply is_lim_ext_loc with (fun b => A b - A 0).
    - exists 0. intros b Hb. symmetry. apply is_RInt_unique. apply (is_RInt_derive A); [intros; apply D|intros; apply C].
    - replace (Finite (- A 0)) with (Rbar_minus 0 (A 0)) by (cbn; f_equal; ring).
      apply is_lim_minus'; [exact L|apply is_lim_const].
  Qed.

  Lemma cont_h (w : R -> R) : (forall v, ex_derive w v) -> forall v, continuous (fun v => w v * h v * (2 * PI * v)) v.
  Proof.
    intros W v. apply (ex_derive_continuous (fun v => w v * h v * (2 * PI * v))). unfold h. auto_derive. repeat split; auto.
  Qed.

  Lemma moment0 : perp_moment (fun _ => 1) h F0.
  Proof.
    pose proof PI_RGT_0 as HP.
    apply moment_of with (fun v => - F0 * exp (- s v) + F1 * (s v * exp (- s v))).
    - intros v. unfold s, h. auto_derive; [auto|]. replace (- v ^ 2 / 2 / T) with (- (v ^ 2 / 2 / T)) by (field; lra).
      change (v * (v * 1) * / 2 * / T) with (v ^ 2 / 2 / T). generalize (exp (- (v ^ 2 / 2 / T))). intros e. field. lra.
    - apply cont_h. intros v. apply ex_derive_const.
    - replace 0 with (- F0 * 0 + F1 * 0) by ring.
      apply is_lim_plus'; (apply lim_scal). 
      + eapply is_lim_ext; [|apply (exp_tail 0); lia]. intros; cbn; ring.
      + eapply is_lim_ext; [|apply (exp_tail 1); lia]. intros; cbn; ring.
    - unfold s. replace (- (0 ^ 2 / 2 / T)) with 0 by (field; lra). rewrite exp_0. field. lra.
  Qed.

  Lemma moment1 : perp_moment (fun v => v ^ 2 / 2) h (T * (F0 - F1)).
  Proof.
    pose proof PI_RGT_0 as HP.
    apply moment_of with (fun v => T * ((F1 - F0) * exp (- s v) + (F1 - F0) * (s v * exp (- s v)) + F1 * (s v ^ 2 * exp (- s v)))).
    - intros v. unfold s, h. auto_derive; [auto|]. replace (- v ^ 2 / 2 / T) with (- (v ^ 2 / 2 / T)) by (field; lra).
      change (v * (v * 1) * / 2 * / T) with (v ^ 2 / 2 / T). generalize (exp (- (v ^ 2 / 2 / T))). intros e. field. lra.
    - apply cont_h. intros v. auto_derive. auto.
    - replace (Finite 0) with (Finite (T * 0)) by (f_equal; ring). apply lim_scal.
      replace 0 with ((F1 - F0) * 0 + (F1 - F0) * 0 + F1 * 0) by ring. apply is_lim_plus'; [apply is_lim_plus'|]; apply lim_scal.
      + eapply is_lim_ext; [|apply (exp_tail 0); lia]. intros; cbn; ring.
      + eapply is_lim_ext; [|apply (exp_tail 1); lia]. intros; cbn; ring.
      + apply (exp_tail 2); lia.
    - unfold s. replace (- (0 ^ 2 / 2 / T)) with 0 by (field; lra). rewrite exp_0. field. lra.
  Qed.
End Moments.

(** ** Broadcasting *)
Lemma ravel_ones sh x : in_range sh x -> ravel (sh ++ [1%nat]) (x ++ [0%nat]) = ravel sh x.
Proof.
  unfold in_range. induction 1 as [|i n x sh H _ IH]; [reflexivity|]. cbn [app ravel]. rewrite IH.
  destruct (Nat.ltb_spec i n); [|reflexivity]. destruct (ravel sh x); [|reflexivity].
  assert (E : prod (sh ++ [1%nat]) = prod sh). { clear. induction sh as [|a l IH]; cbn; [reflexivity|]. unfold prod in IH. rewrite IH. lia. }
  now rewrite E.
Qed.

Lemma holds_add_axis sh a f : Tools_Arr.holds sh a f -> Tools_Arr.holds (sh ++ [1%nat]) (add_axis a) (fun x => f (removelast x)).
Proof.
  intros (W & S & V). split; [|split].
  - unfold wf, add_axis in *. cbn [shape flat]. rewrite W. generalize (shape a). clear. induction l as [|n l IH]; cbn; [reflexivity|].
    unfold prod in IH. lia.
  - cbn. now rewrite S.
  - intros x Hx. apply Ev_Arith.in_range_app_inv in Hx as (i & j & -> & Hi & Hj).
    inversion Hj as [|k ? ? ? Hk Hn]; subst. inversion Hn; subst. replace k with 0%nat by lia. rewrite removelast_snoc.
    rewrite <- (V i Hi). unfold get, add_axis. cbn [shape flat]. pose proof (ravel_ones _ i Hi) as RO. rewrite RO. reflexivity.
Qed.

Lemma holds_map sh a f h : Tools_Arr.holds sh a f -> Tools_Arr.holds sh (rmap h a) (fun x => h (f x)).
Proof.
  intros (W & S & V). split; [unfold wf, rmap, map_nda in *; cbn; now rewrite map_length|]. split; [exact S|].
  intros x Hx. specialize (V x Hx). revert V. unfold get, rmap, map_nda; cbn. destruct (ravel (shape a) x); [|discriminate].
  rewrite nth_error_map. intros ->. reflexivity.
Qed.

Lemma holds_transpose sh a f : Tools_Arr.holds sh a f -> Tools_Arr.holds (rev sh) (transpose 0 a) (fun x => f (rev x)).
Proof.
  intros (W & S & V). unfold transpose. rewrite S. eapply holds_ext; [apply holds_tab|]. intros x Hx. cbv beta.
  rewrite V; [reflexivity|]. apply Ev_Arith.in_range_rev_iff. exact Hx.
Qed.

Lemma holds_rb_gen op a b sa sb f g sh :
  Tools_Arr.holds sa a f -> Tools_Arr.holds sb b g ->
  let n := Nat.max (length sa) (length sb) in
  bdims (pad_front n sa) (pad_front n sb) = Ok sh ->
  (forall x, in_range sh x -> in_range sa (bidx sa (skipn (n - length sa) x)) /\ in_range sb (bidx sb (skipn (n - length sb) x))) ->
  exists w, rb op a b = Ok w /\
    Tools_Arr.holds sh w (fun x => op (f (bidx sa (skipn (n - length sa) x))) (g (bidx sb (skipn (n - length sb) x)))).
Proof.
  intros (Wa & Sa & Va) (Wb & Sb & Vb) n E H. unfold rb, broadcast. rewrite Sa, Sb. fold n. rewrite E. cbn [bind].
  eexists. split; [reflexivity|]. eapply holds_ext; [apply holds_tab|]. intros x Hx. cbv beta.
  destruct (H x Hx) as [Ha Hb]. rewrite (Va _ Ha), (Vb _ Hb). reflexivity.
Qed.

Lemma bix n i : (i < n)%nat -> (if (n =? 1)%nat then 0%nat else i) = i.
Proof. intros. destruct (Nat.eqb_spec n 1); lia. Qed.

Lemma bdim_1r n : bdim n 1 = Ok n.
Proof. unfold bdim. destruct (Nat.eqb_spec n 1); [now subst|]. reflexivity. Qed.
Lemma bdim_1l n : bdim 1 n = Ok n.
Proof. apply Ev_Arith.bdim_one. Qed.

Lemma ir2 a b x : in_range [a; b] x -> exists i j, x = [i; j] /\ (i < a)%nat /\ (j < b)%nat.
Proof.
  intros H. inversion H as [|i ? x1 ? H1 T1]; subst. inversion T1 as [|j ? x2 ? H2 T2]; subst. inversion T2; subst. eauto.
Qed.
Lemma ir3 a b c x : in_range [a; b; c] x -> exists i j k, x = [i; j; k] /\ (i < a)%nat /\ (j < b)%nat /\ (k < c)%nat.
Proof.
  intros H. inversion H as [|i ? x1 ? H1 T1]; subst. inversion T1 as [|j ? x2 ? H2 T2]; subst.
  inversion T2 as [|k ? x3 ? H3 T3]; subst. inversion T3; subst. eauto 8.
Qed.

Ltac bc := cbn [length Nat.max pad_front Nat.sub repeat app bdims bind skipn]; unfold pad_front; cbn [length Nat.sub repeat app bdims];
  rewrite ?Ev_Arith.bdim_same, ?bdim_1r, ?bdim_1l; reflexivity.

(** Arrays over cells [nx; nv] combined with arrays over [nx; 1]. *)
Lemma rb_23 op a b nx nv nw f g :
  Tools_Arr.holds [nx; nv; 1%nat] a f -> Tools_Arr.holds [nx; nv; nw] b g ->
  exists w, rb op a b = Ok w /\ Tools_Arr.holds [nx; nv; nw] w (fun x => op (f [nth 0 x 0; nth 1 x 0; 0]%nat) (g x)).
Proof.
  intros Ha Hb. destruct (holds_rb_gen op a b _ _ f g [nx; nv; nw] Ha Hb) as (w & E & Hw).
  - bc.
  - intros x Hx. apply ir3 in Hx as (i & j & k & -> & Hi & Hj & Hk). unfold bidx. cbn. rewrite !bix by assumption. repeat constructor; auto.
  - exists w. split; [exact E|]. eapply holds_ext; [exact Hw|]. intros x Hx. apply ir3 in Hx as (i & j & k & -> & Hi & Hj & Hk).
    unfold bidx. cbn. rewrite !bix by assumption. reflexivity.
Qed.

Lemma rb_13 op a b nx nv nw f g :
  Tools_Arr.holds [nx; nv; nw] a f -> Tools_Arr.holds [nx; 1%nat; 1%nat] b g ->
  exists w, rb op a b = Ok w /\ Tools_Arr.holds [nx; nv; nw] w (fun x => op (f x) (g [nth 0 x 0; 0; 0]%nat)).
Proof.
  intros Ha Hb. destruct (holds_rb_gen op a b _ _ f g [nx; nv; nw] Ha Hb) as (w & E & Hw).
  - bc.
  - intros x Hx. apply ir3 in Hx as (i & j & k & -> & Hi & Hj & Hk). unfold bidx. cbn. rewrite !bix by assumption. repeat constructor; auto.
  - exists w. split; [exact E|]. eapply holds_ext; [exact Hw|]. intros x Hx. apply ir3 in Hx as (i & j & k & -> & Hi & Hj & Hk).
    unfold bidx. cbn. rewrite !bix by assumption. reflexivity.
Qed.

Lemma rb_12 op a b nv nx f g :
  Tools_Arr.holds [nv; nx] a f -> Tools_Arr.holds [nx] b g ->
  exists w, rb op a b = Ok w /\ Tools_Arr.holds [nv; nx] w (fun x => op (f x) (g [nth 1 x 0]%nat)).
Proof.
  intros Ha Hb. destruct (holds_rb_gen op a b _ _ f g [nv; nx] Ha Hb) as (w & E & Hw).
  - bc.
  - intros x Hx. apply ir2 in Hx as (i & j & -> & Hi & Hj). unfold bidx. cbn. rewrite !bix by assumption. repeat constructor; auto.
  - exists w. split; [exact E|]. eapply holds_ext; [exact Hw|]. intros x Hx. apply ir2 in Hx as (i & j & -> & Hi & Hj).
    unfold bidx. cbn. rewrite !bix by assumption. reflexivity.
Qed.

Lemma nth_centres_mid c k : (S k < length c)%nat -> nth k (centres c) 0 = mid c k.
Proof. intros H. rewrite Calc_Props3.nth_centres by exact H. unfold Calc_Spec.centre, mid. field. Qed.

(** ** C66

    [F j i] and [G i j] are the two coefficients in cell [(i, j)], [T i] the
    temperature over mass. *)
Theorem C66_compose x vpar rest fv tv nx nv nc nt (F : list nat -> nat -> R) (Tm : list nat -> nat -> R) :
  length x = S nx -> length vpar = S nv -> (2 <= nc)%nat -> (1 <= nt)%nat ->
  shows [nx; nv] nc fv F -> shows [nx] nt tv Tm ->
  exists w h, laguerre_compose (x :: vpar :: rest) fv tv = Ok ([x; vpar; vpar], w) /\
    shape w = [nx; nv; nv; 1]%nat /\
    (forall i j k, (i < nx)%nat -> (j < nv)%nat -> (k < nv)%nat -> get w [i; j; k; 0]%nat = Some (h i j (mid vpar k))) /\
    forall i j, (i < nx)%nat -> (j < nv)%nat -> 0 < Tm [i] 0%nat ->
      laguerre_shape (Tm [i] 0%nat) (h i j) /\
      perp_moment (fun _ => 1) (h i j) (F [i; j] 0%nat) /\
      perp_moment (fun v => v ^ 2 / 2) (h i j) (F [i; j] 1%nat).
Proof.
  intros Lx Lv Hc Ht Sf St. unfold laguerre_compose.
  destruct (holds_comp 0 _ _ _ _ Sf ltac:(lia)) as (F0 & E0 & H0). rewrite E0. cbn [bind].
  destruct (holds_comp 1 _ _ _ _ Sf ltac:(lia)) as (G & E1 & H1). rewrite E1. cbn [bind].
  destruct (holds_comp 0 _ _ _ _ St ltac:(lia)) as (T & E2 & H2). rewrite E2. cbn [bind].
  destruct (rb_12 Rdiv _ _ _ _ _ _ (holds_transpose _ _ _ H1) H2) as (q & E3 & H3). rewrite E3. cbn [bind].
  destruct (holds_rb Rminus _ _ _ _ _ H0 (holds_transpose _ _ _ H3)) as (F1 & E4 & H4). rewrite E4. cbn [bind].
  pose proof (holds_add_axis _ _ _ (holds_add_axis _ _ _ H2)) as H2'.
  assert (HV : Tools_Arr.holds [nx; nv; nv] (mesh3 (centres x) (centres vpar) (centres vpar)) (fun y => mid vpar (nth 2 y 0%nat))).
  { unfold mesh3. rewrite !Calc_Props3.centres_length, Lx, Lv. cbn [Nat.sub]. rewrite !Nat.sub_0_r.
    eapply holds_ext; [apply holds_tab|]. intros y Hy. apply ir3 in Hy as (i & j & k & -> & Hi & Hj & Hk). cbn [nth].
    apply nth_centres_mid. lia. }
  destruct (rb_13 Rdiv _ _ _ _ _ _ _ (holds_map _ _ _ (fun v => v ^ 2 / 2) HV) H2') as (a & E5 & H5). rewrite E5. cbn [bind].
  destruct (rb_23 Rmult _ _ _ _ _ _ _ (holds_add_axis _ _ _ H4) (holds_map _ _ _ (fun s => 1 - s) H5)) as (b & E6 & H6). rewrite E6. cbn [bind].
  destruct (rb_23 Rplus _ _ _ _ _ _ _ (holds_add_axis _ _ _ H0) H6) as (c & E7 & H7). rewrite E7. cbn [bind].
  destruct (rb_13 Rdiv _ _ _ _ _ _ _ H7 (holds_map _ _ _ (fun t => 2 * PI * t) H2')) as (d & E8 & H8). rewrite E8. cbn [bind].
  destruct (rb_13 Rdiv _ _ _ _ _ _ _ (holds_map _ _ _ (fun v => - v ^ 2 / 2) HV) H2') as (e & E9 & H9). rewrite E9. cbn [bind].
  destruct (holds_rb Rmult _ _ _ _ _ H8 (holds_map _ _ _ exp H9)) as (f & E10 & H10). rewrite E10. cbn [bind].
  pose proof (holds_add_axis _ _ _ H10) as (_ & Sw & Vw).
  exists (add_axis f), (fun i j v => let t := Tm [i] 0%nat in let f0 := F [i; j] 0%nat in let f1 := f0 - F [i; j] 1%nat / t in
     (f0 + f1 * (1 - v ^ 2 / 2 / t)) / (2 * PI * t) * exp (- v ^ 2 / 2 / t)).
  split; [reflexivity|]. split; [exact Sw|]. split.
  - intros i j k Hi Hj Hk. rewrite Vw by (repeat constructor; auto). cbn. reflexivity.
  - intros i j Hi Hj HT. cbv zeta. set (t := Tm [i] 0%nat) in *. set (f0 := F [i; j] 0%nat). set (g := F [i; j] 1%nat).
    pose proof PI_RGT_0 as HP. split; [|split].
    + exists ((2 * f0 - g / t) / (2 * PI * t)), (- (f0 - g / t) / (2 * t) / (2 * PI * t)). intros v.
      replace (- v ^ 2 / 2 / t) with (- (v ^ 2 / (2 * t))) by (field; lra).
      generalize (exp (- (v ^ 2 / (2 * t)))). intros ex. field. lra.
    + apply (moment0 t f0 (f0 - g / t) HT).
    + assert (EG : t * (f0 - (f0 - g / t)) = g) by (field; lra).
      pose proof (moment1 t f0 (f0 - g / t) HT) as M. rewrite EG in M. exact M.
Qed.

(** With one component there is no second coefficient. *)
Theorem C66_one_component grid fv tv cells :
  (2 <= length grid)%nat -> wf fv -> shape fv = cells ++ [1%nat] -> laguerre_compose grid fv tv = Err IndexError.
Proof.
  intros L W Sv. destruct grid as [|x [|v r]]; cbn [length] in L; try lia. unfold laguerre_compose.
  destruct (comp 0 fv) as [a|e] eqn:E0.
  - cbn [bind]. rewrite (comp_err 1 fv cells 1 Sv) by lia. reflexivity.
  - assert (Sh : shows cells 1 fv (fun x j => val fv (x ++ [j]))).
    { split; [exact W|]. split; [exact Sv|]. intros y j Hy Hj.
      assert (I : in_range (shape fv) (y ++ [j])) by (rewrite Sv; apply Ev_Arith.in_range_app; [exact Hy|constructor; [lia|constructor]]).
      destruct (get_in fv _ W I) as [z Ez]. unfold val. rewrite Ez. reflexivity. }
    destruct (holds_comp 0 _ _ _ _ Sh ltac:(lia)) as (w & Ew & _). congruence.
Qed.

(** A case with one spatial cell and two velocity cells. *)
Definition lag_f : arr := mk_nda [1; 2; 2]%nat [1; 2; 3; 4].
Definition lag_t : arr := mk_nda [1; 1]%nat [2].
Lemma lag_f_shows : shows [1; 2]%nat 2 lag_f (fun x j => nth (nth 1 x 0 * 2 + j)%nat [1; 2; 3; 4] 0).
Proof.
  split; [reflexivity|]. split; [reflexivity|]. intros x j Hx Hj. apply ir2 in Hx as (a & b & -> & Ha & Hb).
  replace a with 0%nat by lia. destruct b as [|[|]]; [| |lia]; (destruct j as [|[|]]; [| |lia]); reflexivity.
Qed.
Example C66_ex : exists w h, laguerre_compose [[0; 1]; [-2; 0; 2]] lag_f lag_t = Ok ([[0; 1]; [-2; 0; 2]; [-2; 0; 2]], w) /\
  get w [0; 1; 1; 0]%nat = Some (h 1) /\ perp_moment (fun _ => 1) h 3 /\ perp_moment (fun v => v ^ 2 / 2) h 4.
Proof.
  destruct (C66_compose [0; 1] [-2; 0; 2] [] lag_f lag_t 1 2 2 1 _ (fun _ _ => 2) eq_refl eq_refl ltac:(lia) ltac:(lia) lag_f_shows)
    as (w & h & E & _ & V & M).
  { split; [reflexivity|]. split; [reflexivity|]. intros x j Hx Hj. inversion Hx as [|a ? ? ? Ha Hn]; subst. inversion Hn; subst.
    replace a with 0%nat by lia. replace j with 0%nat by lia. reflexivity. }
  destruct (M 0%nat 1%nat ltac:(lia) ltac:(lia) ltac:(lra)) as (_ & M0 & M1).
  exists w, (h 0%nat 1%nat). split; [exact E|]. split; [|split; [exact M0|exact M1]].
  rewrite (V 0%nat 1%nat 1%nat) by lia. f_equal. f_equal. unfold mid. cbn. field.
Qed.

(** ** C67: specification

    The velocity of node [i] of [nx] nodes: the mean over the cells that touch
    it. *)
Definition touching (nx i : nat) : list nat := List.filter (fun c => (c =? i) || (S c =? i))%nat (seq 0 (nx - 1)).
Definition mean (l : list R) : R := fold_right Rplus 0 l / INR (length l).
Definition node_velocity (nx i : nat) (u : nat -> R) : R := mean (List.map u (touching nx i)).

Lemma filter_window n i a : (forall c, (a <= c < a + n)%nat -> ~ (c = i \/ S c = i)) ->
  List.filter (fun c => (c =? i) || (S c =? i))%nat (seq a n) = [].
Proof.
  revert a. induction n as [|n IH]; intros a H; [reflexivity|]. cbn [seq List.filter].
  specialize (H a ltac:(lia)) as Ha. destruct (Nat.eqb_spec a i); [lia|]. destruct (Nat.eqb_spec (S a) i); [lia|]. cbn [orb].
  apply IH. intros c Hc. apply H. lia.
Qed.

Lemma touching_val nx i : (i < nx)%nat -> (2 <= nx)%nat ->
  touching nx i = if (i =? 0)%nat then [0%nat] else if (i =? nx - 1)%nat then [(i - 1)%nat] else [(i - 1)%nat; i].
Proof.
  intros Hi Hn. unfold touching. destruct (Nat.eqb_spec i 0) as [->|N0].
  - destruct (nx - 1)%nat as [|n] eqn:E; [lia|]. cbn [seq List.filter Nat.eqb orb]. f_equal. apply filter_window. lia.
  - replace (seq 0 (nx - 1)) with (seq 0 (i - 1) ++ seq (i - 1) (nx - 1 - (i - 1))) by (rewrite <- seq_app; f_equal; lia).
    rewrite filter_app, filter_window by lia. cbn [app].
    destruct (Nat.eqb_spec i (nx - 1)) as [El|Nl].
    + replace (nx - 1 - (i - 1))%nat with 1%nat by lia. cbn [seq List.filter].
      destruct (Nat.eqb_spec (i - 1) i); [lia|]. destruct (Nat.eqb_spec (S (i - 1)) i); [reflexivity|lia].
    + destruct (nx - 1 - (i - 1))%nat as [|[|n]] eqn:E; [lia|lia|]. cbn [seq List.filter].
      destruct (Nat.eqb_spec (i - 1) i); [lia|]. destruct (Nat.eqb_spec (S (i - 1)) i); [|lia]. cbn [orb].
      destruct (Nat.eqb_spec (S (i - 1)) i); [|lia]. cbn [orb]. replace (S (i - 1))%nat with i by lia.
      f_equal. f_equal. apply filter_window. lia.
Qed.

Lemma nth_map_seq {A} (g : nat -> A) n i d : (i < n)%nat -> nth i (List.map g (seq 0 n)) d = g i.
Proof. intros H. rewrite (nth_indep _ d (g 0%nat)) by (rewrite map_length, seq_length; exact H). rewrite map_nth, seq_nth by exact H. reflexivity. Qed.

(** Reading the velocity of a cell from a scalar, a stretched or a full array. *)
Definition reads (nx : nat) (w : arr) (u : nat -> R) : Prop :=
  (shape w = [] /\ forall c, u c = val w []) \/ (shape w = [(nx - 1)%nat] /\ forall c, (c < nx - 1)%nat -> u c = val w [c]) \/
  (shape w = [1%nat] /\ forall c, u c = val w [0%nat]).

Lemma iadd_reads nx a b w u e : reads nx w u -> (b - a = nx - 1)%nat -> (b <= length e)%nat ->
  iadd_slice a b w e = Ok (List.map (fun i => if (a <=? i)%nat && (i <? b)%nat then nth i e 0 + u (i - a)%nat else nth i e 0) (seq 0 (length e))).
Proof.
  intros H Hb Hl. unfold iadd_slice. rewrite Hb.
  assert (X : forall g, (forall c, (c < nx - 1)%nat -> g c = u c) ->
     List.map (fun i => if (a <=? i)%nat && (i <? b)%nat then nth i e 0 + g (i - a)%nat else nth i e 0) (seq 0 (length e)) =
     List.map (fun i => if (a <=? i)%nat && (i <? b)%nat then nth i e 0 + u (i - a)%nat else nth i e 0) (seq 0 (length e))).
  { intros g Hg. apply map_ext_in. intros i _. destruct (Nat.leb_spec a i); [|reflexivity]. destruct (Nat.ltb_spec i b); [|reflexivity].
    cbn [andb]. rewrite Hg by lia. reflexivity. }
  destruct H as [[-> H]|[[-> H]|[-> H]]].
  - f_equal. apply (X (fun _ => val w [])). auto.
  - rewrite Nat.eqb_refl. f_equal. apply (X (fun i => val w [i])). intros. symmetry. auto.
  - destruct (Nat.eqb_spec 1 (nx - 1)) as [E|N].
    + f_equal. apply (X (fun i => val w [i])). intros c Hc. replace c with 0%nat by lia. symmetry. apply H.
    + cbn. f_equal. apply (X (fun _ => val w [0%nat])). auto.
Qed.

Lemma ext_u_val nx w u : reads nx w u -> (2 <= nx)%nat ->
  exists e, ext_u nx w = Ok e /\ length e = nx /\ forall i, (i < nx)%nat -> nth i e 0 = node_velocity nx i u.
Proof.
  intros H Hn. unfold ext_u. rewrite (iadd_reads nx 0 (nx - 1) w u) by (auto; rewrite ?repeat_length; lia). cbn [bind].
  rewrite (iadd_reads nx 1 nx w u) by (auto; rewrite ?map_length, ?seq_length, ?repeat_length; lia). cbn [bind].
  rewrite map_length, seq_length, repeat_length.
  eexists. split; [reflexivity|]. split; [now rewrite map_length, seq_length|]. intros i Hi.
  rewrite nth_map_seq by exact Hi. rewrite !nth_map_seq by exact Hi. unfold node_velocity. rewrite touching_val by assumption.
  assert (Z : nth i (repeat 0 nx) 0 = 0). { clear. revert i. induction nx; intros [|i]; cbn; auto. }
  rewrite Z. unfold mean.
  destruct (Nat.leb_spec 0 i); [|lia]. destruct (Nat.eqb_spec i 0) as [->|N0].
  - cbn [Nat.leb andb]. destruct (Nat.ltb_spec 0 (nx - 1)); [|lia]. cbn [List.map fold_right length INR Nat.sub]. field.
  - destruct (Nat.leb_spec 1 i); [|lia]. cbn [andb]. destruct (Nat.ltb_spec i nx); [|lia].
    destruct (Nat.eqb_spec i (nx - 1)) as [El|Nl].
    + destruct (Nat.ltb_spec i (nx - 1)); [lia|]. cbn [List.map fold_right length INR]. field.
    + destruct (Nat.ltb_spec i (nx - 1)); [|lia]. rewrite Nat.sub_0_r. cbn [List.map fold_right length INR]. field.
Qed.

Lemma add_row_holds nx sh a f i s : Tools_Arr.holds (nx :: sh) a f ->
  Tools_Arr.holds (nx :: sh) (add_row i s a) (fun x => f x + if (nth 0 x 0 =? i)%nat then s else 0).
Proof.
  intros H. pose proof H as (_ & Sa & _). unfold add_row. rewrite Sa. eapply holds_ext; [apply holds_tab|].
  intros x Hx. cbv beta. rewrite (holds_val _ _ _ _ H Hx). destruct (_ =? i)%nat; ring.
Qed.

Lemma add_rows_holds nx sh a f e : Tools_Arr.holds (nx :: sh) a f -> length e = nx ->
  Tools_Arr.holds (nx :: sh) (add_rows e a) (fun x => f x + nth (nth 0 x 0%nat) e 0).
Proof.
  intros H L. unfold add_rows.
  assert (G : forall n k a f, Tools_Arr.holds (nx :: sh) a f ->
     Tools_Arr.holds (nx :: sh) (fold_left (fun a i => add_row i (nth i e 0) a) (seq k n) a)
       (fun x => f x + if (k <=? nth 0 x 0)%nat && (nth 0 x 0 <? k + n)%nat then nth (nth 0 x 0%nat) e 0 else 0)).
  { induction n as [|n IH]; intros k b g Hb; cbn [seq fold_left].
    - eapply holds_ext; [exact Hb|]. intros x Hx. cbv beta. destruct (Nat.leb_spec k (nth 0 x 0%nat)); cbn [andb]; [|ring].
      destruct (Nat.ltb_spec (nth 0 x 0%nat) (k + 0)); [lia|ring].
    - eapply holds_ext; [apply IH; apply add_row_holds; exact Hb|]. intros x Hx. cbv beta.
      set (p := nth 0 x 0%nat). destruct (Nat.eqb_spec p k) as [->|N].
      + destruct (Nat.leb_spec (Datatypes.S k) k); [lia|]. cbn [andb]. destruct (Nat.leb_spec k k); [|lia].
        destruct (Nat.ltb_spec k (k + Datatypes.S n)); [|lia]. cbn [andb]. ring.
      + destruct (Nat.leb_spec (Datatypes.S k) p), (Nat.leb_spec k p); try lia; cbn [andb];
          destruct (Nat.ltb_spec p (Datatypes.S k + n)), (Nat.ltb_spec p (k + Datatypes.S n)); try lia; ring. }
  eapply holds_ext; [apply G; exact H|]. intros x Hx. cbv beta. inversion Hx as [|i ? r ? Hi Hr]; subst. cbn [nth].
  destruct (Nat.leb_spec 0 i); [|lia]. destruct (Nat.ltb_spec i (0 + length e)); [|lia]. reflexivity.
Qed.

Lemma nth_set_nth {A} k (a : A) l j d : (k < length l)%nat -> nth j (set_nth k a l) d = if (j =? k)%nat then a else nth j l d.
Proof.
  revert k j. induction l as [|b l IH]; intros k j H; cbn [length] in H; [lia|]. destruct k as [|k].
  - cbn [set_nth]. destruct j; reflexivity.
  - cbn [set_nth]. destruct j as [|j]; [reflexivity|]. cbn [nth Nat.eqb]. apply IH. lia.
Qed.
Lemma set_nth_len {A} k (a : A) l : length (set_nth k a l) = length l.
Proof. revert k. induction l as [|b l IH]; intros [|k]; cbn; auto. Qed.

Lemma shift_loop_spec nx sh u U vs out F : (2 <= nx)%nat ->
  List.Forall (fun v => (1 + v < length out)%nat /\ exists w, comp v u = Ok w /\ reads nx w (U v)) vs -> NoDup vs ->
  (forall k, (k < length out)%nat -> Tools_Arr.holds (nx :: sh) (nth k out (zeros [])) (F k)) ->
  exists out', shift_loop nx u vs out = Ok out' /\ length out' = length out /\
    forall k, (k < length out)%nat ->
      Tools_Arr.holds (nx :: sh) (nth k out' (zeros []))
        (fun x => F k x + if existsb (fun v => (1 + v =? k)%nat) vs then node_velocity nx (nth 0 x 0%nat) (U (k - 1)%nat) else 0).
Proof.
  intros Hn. revert out F. induction vs as [|v vs IH]; intros out F Hv Nd Ho; cbn [shift_loop existsb].
  - exists out. split; [reflexivity|]. split; [reflexivity|]. intros k Hk. eapply holds_ext; [apply Ho; exact Hk|]. intros; cbv beta; ring.
  - inversion Hv as [|? ? (Hl & w & Ew & Rw) Hv']; subst. inversion Nd as [|? ? Nv Nd']; subst.
    rewrite Ew. cbn [bind]. destruct (ext_u_val nx w (U v) Rw Hn) as (e & Ee & Le & Ve). rewrite Ee. cbn [bind].
    set (F' := fun k x => F k x + if (1 + v =? k)%nat then node_velocity nx (nth 0 x 0%nat) (U v) else 0).
    destruct (IH (set_nth (1 + v) (add_rows e (nth (1 + v) out (zeros []))) out) F') as (out' & E & L & H).
    + rewrite set_nth_len. exact Hv'.
    + exact Nd'.
    + rewrite set_nth_len. intros k Hk. rewrite nth_set_nth by exact Hl. unfold F'. rewrite Nat.eqb_sym.
      destruct (Nat.eqb_spec (1 + v) k) as [<-|N].
      * eapply holds_ext; [apply add_rows_holds; [apply Ho; exact Hk|exact Le]|]. intros x Hx. cbv beta.
        inversion Hx as [|i ? r ? Hi Hr]; subst. cbn [nth]. rewrite Ve by exact Hi. reflexivity.
      * eapply holds_ext; [apply Ho; exact Hk|]. intros; cbv beta; ring.
    + rewrite set_nth_len in *. exists out'. split; [exact E|]. split; [exact L|]. intros k Hk.
      eapply holds_ext; [apply H; exact Hk|]. intros x Hx. cbv beta. unfold F'.
      destruct (Nat.eqb_spec (1 + v) k) as [<-|N]; cbn [orb].
      * replace (existsb (fun v0 => (1 + v0 =? 1 + v)%nat) vs) with false.
        2:{ symmetry. apply not_true_is_false. rewrite existsb_exists. intros (v' & I & Q). apply Nat.eqb_eq in Q. assert (v' = v) by lia. subst. contradiction. }
        replace (1 + v - 1)%nat with v by lia. ring.
      * ring.
Qed.

(** ** C67 *)
Theorem C67_shift x vs u nc (U : list nat -> nat -> R) :
  (2 <= length x)%nat -> (length vs <= nc)%nat -> shows [(length x - 1)%nat] nc u U ->
  exists out, transform_frame (x :: vs) u 1 = Ok out /\ length out = Datatypes.S (length vs) /\
    (exists w, nth_error out 0 = Some w /\ forall idx, in_range (List.map (@length R) (x :: vs)) idx ->
       get w idx = Some (nth (nth 0 idx 0%nat) x 0)) /\
    forall v c, nth_error vs v = Some c ->
      exists w, nth_error out (Datatypes.S v) = Some w /\ forall idx, in_range (List.map (@length R) (x :: vs)) idx ->
        get w idx = Some (nth (nth (Datatypes.S v) idx 0%nat) c 0 + node_velocity (length x) (nth 0 idx 0%nat) (fun cell => U [cell] v)).
Proof.
  intros Hx Hn Su. unfold transform_frame. cbn [Z.eqb Pos.eqb].
  replace (Z.to_nat (Z.of_nat (length (x :: vs)) - 1)) with (length vs) by (cbn [length]; lia).
  set (g := x :: vs). set (out0 := List.map (mesh g) (seq 0 (length g))).
  assert (L0 : length out0 = length g) by (unfold out0; now rewrite map_length, seq_length).
  destruct (shift_loop_spec (length x) (List.map (@length R) vs) u (fun v cell => U [cell] v) (seq 0 (length vs)) out0
     (fun k idx => nth (nth k idx 0%nat) (nth k g []) 0) Hx) as (out & E & L & H).
  - apply List.Forall_forall. intros v Hv. apply in_seq in Hv. split; [rewrite L0; cbn; lia|].
    destruct (holds_comp v _ _ _ _ Su ltac:(lia)) as (w & Ew & Hw). exists w. split; [exact Ew|]. right. left.
    pose proof Hw as (_ & Sw & _). split; [exact Sw|]. intros c Hc. symmetry. apply (holds_val _ _ _ _ Hw). constructor; [exact Hc|constructor].
  - apply seq_NoDup.
  - intros k Hk. unfold out0 at 1. rewrite L0 in Hk. rewrite nth_map_seq by exact Hk. apply holds_tab.
  - exists out. split; [exact E|]. split; [rewrite L, L0; reflexivity|].
    assert (G : forall k, (k < length g)%nat -> exists w, nth_error out k = Some w /\
       Tools_Arr.holds (length x :: List.map (@length R) vs) w (fun idx => nth (nth k idx 0%nat) (nth k g []) 0 +
         if existsb (fun v => (1 + v =? k)%nat) (seq 0 (length vs)) then node_velocity (length x) (nth 0 idx 0%nat) (fun cell => U [cell] (k - 1)%nat) else 0)).
    { intros k Hk. exists (nth k out (zeros [])). split; [apply nth_error_nth'; rewrite L, L0; exact Hk|]. apply H. rewrite L0. exact Hk. }
    split.
    + destruct (G 0%nat) as (w & Ew & (_ & _ & Vw)); [cbn; lia|]. exists w. split; [exact Ew|]. intros idx Hi. rewrite Vw by exact Hi.
      replace (existsb (fun v => (1 + v =? 0)%nat) (seq 0 (length vs))) with false; [cbn [nth g]; f_equal; ring|].
      symmetry. apply not_true_is_false. rewrite existsb_exists. intros (v & _ & Q). discriminate.
    + intros v c Hc. assert (Hv : (v < length vs)%nat) by (apply nth_error_Some; congruence).
      destruct (G (Datatypes.S v)) as (w & Ew & (_ & _ & Vw)); [cbn; lia|]. exists w. split; [exact Ew|]. intros idx Hi. rewrite Vw by exact Hi.
      replace (existsb (fun v0 => (1 + v0 =? Datatypes.S v)%nat) (seq 0 (length vs))) with true.
      2:{ symmetry. apply existsb_exists. exists v. split; [apply in_seq; lia|apply Nat.eqb_refl]. }
      f_equal. f_equal.
      * f_equal. cbn [g nth]. apply nth_error_nth. exact Hc.
      * replace (Datatypes.S v - 1)%nat with v by lia. reflexivity.
Qed.

(** A uniform bulk velocity is added to every velocity coordinate. *)
Theorem C67_uniform nx i u0 (u : nat -> R) : (2 <= nx)%nat -> (i < nx)%nat ->
  (forall c, (c < nx - 1)%nat -> u c = u0) -> node_velocity nx i u = u0.
Proof.
  intros Hn Hi H. unfold node_velocity, mean. rewrite touching_val by assumption.
  destruct (Nat.eqb_spec i 0); [|destruct (Nat.eqb_spec i (nx - 1))]; cbn [List.map fold_right length INR]; rewrite !H by lia; field.
Qed.

(** A bulk velocity on another mesh is refused, as are too few components. *)
Theorem C67_mesh x c vs u m nc (U : list nat -> nat -> R) :
  m <> 1%nat -> m <> (length x - 1)%nat -> (1 <= nc)%nat -> shows [m] nc u U ->
  transform_frame (x :: c :: vs) u 1 = Err ValueError.
Proof.
  intros H1 H2 Hn Su. unfold transform_frame. cbn [Z.eqb Pos.eqb].
  replace (Z.to_nat (Z.of_nat (length (x :: c :: vs)) - 1)) with (Datatypes.S (length vs)) by (cbn [length]; lia).
  cbn [seq shift_loop]. destruct (holds_comp 0 _ _ _ _ Su ltac:(lia)) as (w & Ew & Hw). rewrite Ew. cbn [bind].
  pose proof Hw as (_ & Sw & _). unfold ext_u, iadd_slice. rewrite Sw.
  destruct (Nat.eqb_spec m (length x - 1 - 0)); [lia|]. destruct (Nat.eqb_spec m 1); [lia|]. reflexivity.
Qed.

Theorem C67_components x vs u nc (U : list nat -> nat -> R) :
  (2 <= length x)%nat -> (nc < length vs)%nat -> shows [(length x - 1)%nat] nc u U ->
  transform_frame (x :: vs) u 1 = Err IndexError.
Proof.
  intros Hx Hn Su. unfold transform_frame. cbn [Z.eqb Pos.eqb].
  replace (Z.to_nat (Z.of_nat (length (x :: vs)) - 1)) with (length vs) by (cbn [length]; lia).
  assert (G : forall k n out, (k + n = length vs)%nat -> (k <= nc)%nat -> shift_loop (length x) u (seq k n) out = Err IndexError).
  { intros k n. revert k. induction n as [|n IH]; intros k out Hk Hle; [lia|]. cbn [seq shift_loop].
    destruct (Nat.eq_dec k nc) as [->|N].
    - pose proof Su as (_ & Sh & _). rewrite (comp_err nc u [(length x - 1)%nat] nc Sh) by lia. reflexivity.
    - destruct (holds_comp k _ _ _ _ Su ltac:(lia)) as (w & Ew & Hw). rewrite Ew. cbn [bind].
      pose proof Hw as (_ & Sw & _).
      destruct (ext_u_val (length x) w (fun c => val w [c])) as (e & Ee & _).
      + right. left. split; [exact Sw|]. reflexivity.
      + exact Hx.
      + rewrite Ee. cbn [bind]. apply IH; lia. }
  apply G; lia.
Qed.

(** The code for two or three configuration dimensions cannot be reached with
    the one-dimensional coordinates of a dataset. *)
Theorem C67_higher_dim_refuted grid u (c_dim : Z) : c_dim <> 1%Z -> (c_dim < Z.of_nat (length grid))%Z ->
  transform_frame grid u c_dim = Err IndexError.
Proof.
  intros H1 H2. unfold transform_frame. destruct (Z.eqb_spec c_dim 1); [contradiction|].
  destruct (Z.to_nat (Z.of_nat (length grid) - c_dim)) eqn:E; [lia|reflexivity].
Qed.

Example C67_ex : exists out w, transform_frame [[0; 1; 2]; [-1; 1]] (mk_nda [2; 1]%nat [4; 6]) 1 = Ok out /\
  nth_error out 1 = Some w /\ get w [0; 0]%nat = Some 3 /\ get w [1; 1]%nat = Some 6 /\ get w [2; 1]%nat = Some 7.
Proof.
  destruct (C67_shift [0; 1; 2] [[-1; 1]] (mk_nda [2; 1]%nat [4; 6]) 1 (fun x j => nth (nth 0 x 0%nat) [4; 6] 0)) as (out & E & _ & _ & H).
  - cbn; lia.
  - cbn; lia.
  - split; [reflexivity|]. split; [reflexivity|]. intros x j Hx Hj. inversion Hx as [|a ? ? ? Ha Hn]; subst. inversion Hn; subst.
    replace j with 0%nat by lia. cbn in Ha. destruct a as [|[|a]]; [reflexivity|reflexivity|lia].
  - destruct (H 0%nat [-1; 1] eq_refl) as (w & Ew & Vw). exists out, w. split; [exact E|]. split; [exact Ew|].
    rewrite !Vw by (repeat constructor). unfold node_velocity, mean, touching. cbn. repeat split; f_equal; field.
Qed.

(** ** C69: the commands *)
Section C69.
  Context {X : Type} (f : X -> X -> res X) (g : X -> X -> X).
  Implicit Type ds : dspace X.


  Lemma zip_keep ps ds t : t <> ""%string -> forall ds', zip_loop f (Some t) ps ds = Ok ds' -> ds' = ds.
  Proof.
    intros Ht. induction ps as [|[r1 r2] ps IH]; intros ds' H; cbn [zip_loop] in H; [now injection H|].
    destruct (lookup ds r1); [|discriminate]. destruct (lookup ds r2); [|discriminate].
    destruct (f _ _); [|discriminate]. cbn [bind] in H. destruct (String.eqb_spec t ""); [contradiction|]. apply IH. exact H.
  Qed.

  Lemma active_refs_nodup ds t rs : t <> ""%string -> has_char "," t = false -> aget t ds <> None ->
    active_refs ds t = Ok rs -> NoDup rs.
  Proof.
    intros H1 H2 H3 E. unfold active_refs in E.
    destruct (visits_all ds (Some t) [t]) as (vs & Ev & Es).
    - now apply names_one.
    - apply known_keys. constructor; auto.
    - rewrite Ev in E. cbn [bind] in E. injection E as <-. rewrite Es. unfold active_all. apply NoDup_filter.
      apply NoDup_selected; [repeat constructor; auto|apply NoDup_all_of].
  Qed.

  Lemma zip_inplace tag ds t1 t2 : t1 <> t2 -> tag = None \/ tag = Some ""%string ->
    forall ps qs st, Forall2 (fun p q => fst (fst p) = t1 /\ fst (snd p) = t2 /\
        lookup ds (fst p) = Some (fst q) /\ lookup ds (snd p) = Some (snd q)) ps qs ->
    NoDup (List.map fst ps) ->
    (forall d1 d2, In (d1, d2) qs -> f (ds_data d1) (ds_data d2) = Ok (g (ds_data d1) (ds_data d2))) ->
    (forall r, In r (List.map fst ps) -> lookup st r = lookup ds r) ->
    (forall r, fst r <> t1 -> lookup st r = lookup ds r) ->
    exists ds', zip_loop f tag ps st = Ok ds' /\ List.map fst ds' = List.map fst st /\
      (forall r, ~ In r (List.map fst ps) -> lookup ds' r = lookup st r) /\
      Forall2 (fun p q => lookup ds' (fst p) = Some (set_data (g (ds_data (fst q)) (ds_data (snd q))) (fst q))) ps qs.
  Proof.
    intros Nt Ht ps qs st F. revert st. induction F as [|[r1 r2] [d1 d2] ps qs (T1 & T2 & L1 & L2) F IH]; intros st Nd Hf H1 H2.
    - exists st. repeat split; auto.
    - cbn [zip_loop]. cbn [fst snd List.map] in *. inversion Nd as [|? ? Nr Nd']; subst.
      rewrite (H1 r1) by now left. rewrite L1. rewrite (H2 r2) by congruence. rewrite L2. rewrite (Hf d1 d2) by now left. cbn [bind].
      set (y := g (ds_data d1) (ds_data d2)).
      assert (Em : (match tag with Some t => if String.eqb t "" then modify st r1 (set_data y) else st | None => modify st r1 (set_data y) end)
                   = modify st r1 (set_data y)) by (destruct Ht as [-> | ->]; reflexivity).
      rewrite Em. destruct (IH (modify st r1 (set_data y))) as (ds' & E & K & O & R).
      + exact Nd'.
      + intros; apply Hf; now right.
      + intros r Hr. rewrite lookup_modify. destruct (ref_eq_dec r r1) as [->|]; [contradiction|]. apply H1. now right.
      + intros r Hr. rewrite lookup_modify. destruct (ref_eq_dec r r1) as [->|]; [contradiction|]. apply H2. exact Hr.
      + exists ds'. split; [exact E|]. split; [rewrite K; apply keys_modify|]. split.
        * intros r Hr. rewrite O by (intros Hi; apply Hr; now right). rewrite lookup_modify. destruct (ref_eq_dec r r1) as [->|]; [exfalso; apply Hr; now left|reflexivity].
        * constructor; [|exact R]. cbn [fst snd]. rewrite O by exact Nr. rewrite lookup_modify.
          destruct (ref_eq_dec r1 r1); [|congruence]. rewrite (H1 r1) by now left. rewrite L1. reflexivity.
  Qed.

  (** Without [--tag] the k-th active dataset of the first tag is overwritten
      with the result for it and the k-th active dataset of the second, as far
      as both lists go; everything else stays. *)
  Theorem C69_in_place ds t1 t2 tag :
    t1 <> ""%string -> t2 <> ""%string -> has_char "," t1 = false -> has_char "," t2 = false ->
    aget t1 ds <> None -> aget t2 ds <> None -> t1 <> t2 -> tag = None \/ tag = Some ""%string ->
    (forall d1 d2, In (d1, d2) (combine (actives ds t1) (actives ds t2)) ->
       f (ds_data d1) (ds_data d2) = Ok (g (ds_data d1) (ds_data d2))) ->
    exists ds' rs, zip_command f t1 t2 tag ds = Ok ds' /\ List.map fst ds' = List.map fst ds /\
      Forall2 (fun r q => fst r = t1 /\ lookup ds r = Some (fst q) /\
                 lookup ds' r = Some (set_data (g (ds_data (fst q)) (ds_data (snd q))) (fst q)))
        rs (combine (actives ds t1) (actives ds t2)) /\
      (forall r, ~ In r rs -> lookup ds' r = lookup ds r).
  Proof.
    intros N1 N2 C1 C2 A1 A2 Nt Ht Hf. unfold zip_command.
    destruct (active_refs_run ds t1) as (ra & Ea & Fa); auto.
    destruct (active_refs_run ds t2) as (rb & Eb & Fb); auto.
    pose proof (active_refs_nodup ds t1 ra N1 C1 A1 Ea) as Nd.
    rewrite Ea. cbn [bind]. rewrite Eb.
    assert (Em : (match ra with [] => Ok [] | _ :: _ => Ok rb end : res (list ref)) = Ok (match ra with [] => [] | _ => rb end)) by (destruct ra; reflexivity).
    rewrite Em. cbn [bind].
    assert (Ec : combine ra (match ra with [] => [] | _ => rb end) = combine ra rb) by (destruct ra; reflexivity).
    rewrite Ec.
    assert (Fc : Forall2 (fun p q => fst (fst p) = t1 /\ fst (snd p) = t2 /\ lookup ds (fst p) = Some (fst q) /\ lookup ds (snd p) = Some (snd q))
                   (combine ra rb) (combine (actives ds t1) (actives ds t2))).
    { clear -Fa Fb. revert rb Fb. generalize (actives ds t2). induction Fa as [|r d rs dl [Ht Hr] _ IH]; intros l2 rb Fb; [constructor|].
      destruct Fb as [|r' d' rs' dl' [Ht' Hr'] Fb]; [constructor|]. cbn [combine]. constructor; [repeat split; auto|]. apply IH; auto. }
    assert (Nd' : NoDup (List.map fst (combine ra rb))).
    { clear -Nd. revert rb. induction Nd as [|r ra Hr Nd IH]; intros [|r' rb]; cbn; try constructor; auto.
      intros Hi. apply Hr. apply in_map_iff in Hi as ([a b] & <- & Hi). eapply in_combine_l; eauto. }
    destruct (zip_inplace tag ds t1 t2 Nt Ht _ _ ds Fc Nd' Hf) as (ds' & E & K & O & R); auto.
    exists ds', (List.map fst (combine ra rb)). split; [exact E|]. split; [exact K|]. split; [|exact O].
    clear -Fc R. revert Fc R. generalize (combine ra rb). generalize (combine (actives ds t1) (actives ds t2)).
    intros qs ps Fc R. induction Fc as [|p q ps qs (H1 & _ & H2 & _) Fc IH]; [constructor|].
    inversion R; subst. cbn. constructor; [auto|]. apply IH. assumption.
  Qed.

  (** With [--tag] no dataset is changed and none appears: the result is lost. *)
  Theorem C69_tag_lost ds t1 t2 t ds' : t <> ""%string -> zip_command f t1 t2 (Some t) ds = Ok ds' -> ds' = ds.
  Proof.
    intros Ht H. unfold zip_command in H. destruct (active_refs ds t1) as [a|]; [|discriminate]. cbn [bind] in H.
    destruct (match a with [] => Ok [] | _ => active_refs ds t2 end) as [b|]; [|discriminate]. cbn [bind] in H.
    eapply zip_keep; eauto.
  Qed.
End C69.

Example C69_ex : exists ds', zip_command (fun a b => Ok (a + b)%nat) "elc" "ion" None ex_ds = Ok ds' /\
  List.map (fun p => List.map (@ds_data nat) (snd p)) ex_ds <> List.map (fun p => List.map (@ds_data nat) (snd p)) ds' /\
  zip_command (fun a b => Ok (a + b)%nat) "elc" "ion" (Some "new"%string) ex_ds = Ok ex_ds.
Proof. eexists. split; [vm_compute; reflexivity|]. split; [vm_compute; discriminate|vm_compute; reflexivity]. Qed.

Print Assumptions C66_compose.
Print Assumptions C67_shift.
Print Assumptions C69_in_place.
Print Assumptions C69_tag_lost.
