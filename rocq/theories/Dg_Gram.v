(** * Inner products of the tabulated modal basis functions. *)
From Coq Require Import String List Arith ZArith QArith Reals Lia Lra Bool.
From Coquelicot Require Import Coquelicot.
From Verif Require Import Prelude PreludeFacts Dg_Poly Dg_TabI Dg_Spec Dg_Sem Dg_Int Dg_GramTab.
Import ListNotations.
Open Scope string_scope.
Open Scope list_scope.
Open Scope R_scope.

(** ** What the check means *)

Lemma allz_nth s d fs zs : allz s d fs = Some zs ->
  length zs = length fs /\ forall i f, nth_error fs i = Some f -> exists z, nth_error zs i = Some z /\ zterms s d f = Some z.
Proof.
  revert zs. induction fs as [|f fs IH]; cbn [allz]; intros zs H.
  - injection H as <-. split; [reflexivity|]. intros [|i]; discriminate.
  - destruct (zterms s d f) as [z|] eqn:E; [|discriminate]. destruct (allz s d fs) as [zs'|]; [|discriminate].
    injection H as <-. destruct (IH _ eq_refl) as [L N]. split; [cbn; congruence|].
    intros [|i] g; cbn; intros Hg; [injection Hg as <-; eauto|apply N, Hg].
Qed.

Lemma near_ok unit v : (0 < unit)%Z -> near unit v = true -> Rabs (IZR v / IZR unit) <= / 10 ^ 14.
Proof.
  intros Hu H. apply Z.leb_le in H. assert (U : 0 < IZR unit) by (apply IZR_lt; exact Hu).
  unfold Rdiv. rewrite Rabs_mult, <- abs_IZR, (Rabs_pos_eq (/ IZR unit)) by (left; apply Rinv_0_lt_compat; exact U).
  apply IZR_le in H. rewrite mult_IZR in H. change (10 ^ 14)%Z with (10 ^ Z.of_nat 14)%Z in H; rewrite <- pow_IZR in H.
  assert (T : 0 < 10 ^ 14) by (apply pow_lt; lra).
  apply Rmult_le_reg_r with (r := IZR unit * 10 ^ 14); [nra|].
  replace (IZR (Z.abs v) * / IZR unit * (IZR unit * 10 ^ 14)) with (IZR (Z.abs v) * 10 ^ 14) by (field; lra).
  replace (/ 10 ^ 14 * (IZR unit * 10 ^ 14)) with (IZR unit) by (field; lra). exact H.
Qed.

Lemma pairs_ok_nth unit zs : pairs_ok unit zs = true ->
  forall i j z w, (i <= j)%nat -> nth_error zs i = Some z -> nth_error zs j = Some w ->
    near unit (zprod z w - (if Nat.eqb i j then unit else 0)) = true.
Proof.
  induction zs as [|y zs IH]; cbn [pairs_ok]; intros H i j z w Hij Hi Hj; [destruct i; discriminate|].
  apply andb_prop in H. destruct H as [H H3]. apply andb_prop in H. destruct H as [H1 H2].
  destruct i as [|i].
  - injection Hi as ->. destruct j as [|j]; cbn [Nat.eqb].
    + injection Hj as ->. exact H1.
    + rewrite Z.sub_0_r. cbn in Hj. rewrite forallb_forall in H2. apply H2. eapply nth_error_In; eauto.
  - destruct j as [|j]; [lia|]. cbn [Nat.eqb]. apply (IH H3 i j); auto; lia.
Qed.

Definition delta (i j : nat) : R := if Nat.eqb i j then 1 else 0.
Definition eps : R := / 10 ^ 14.

Lemma zterms_poly_on s d f z : s <> 0%Z -> zterms s d f = Some z -> poly_on d (evalR f).
Proof.
  intros Hs H. destruct (zterms_correct s d f z Hs H) as [D E]. exists (zToR s z). split; [|exact E].
  apply Forall_map. exact D.
Qed.

Lemma gram_at_ok s d P fs zs :
  (0 < s)%Z -> allz s d fs = Some zs -> gram_at s d P zs = true ->
  (forall f, In f fs -> poly_on d (evalR f)) /\
  (forall i j f g, nth_error fs i = Some f -> nth_error fs j = Some g ->
     Rabs (cube d (fun x => evalR f x * evalR g x) - delta i j) <= eps) /\
  (exists f0 c, nth_error fs 0 = Some f0 /\ 0 < c /\ forall x, length x = d -> evalR f0 x = c) /\
  (forall f, In f fs -> exists p, dim_ok d p /\ List.Forall (fun t => P (snd t) = true) p /\
     forall x, length x = d -> evalR f x = evalP p x).
Proof.
  intros Hs Hz H. assert (Hs0 : s <> 0%Z) by lia.
  unfold gram_at in H. apply andb_prop in H. destruct H as [H H4]. apply andb_prop in H. destruct H as [H H3].
  apply andb_prop in H. destruct H as [H1 H2].
  destruct (allz_nth s d fs zs Hz) as [L N]. split; [|split; [|split]].
  - intros f Hf. apply In_nth_error in Hf. destruct Hf as [i Hi]. destruct (N i f Hi) as (z & _ & E).
    eapply zterms_poly_on; eauto.
  - assert (G : forall i j f g, (i <= j)%nat -> nth_error fs i = Some f -> nth_error fs j = Some g ->
       Rabs (cube d (fun x => evalR f x * evalR g x) - delta i j) <= eps).
    { intros i j f g Hij Hi Hj. destruct (N i f Hi) as (z & Zi & Ez). destruct (N j g Hj) as (w & Wj & Ew).
      destruct (zterms_correct s d f z Hs0 Ez) as [Dz Vz]. destruct (zterms_correct s d g w Hs0 Ew) as [Dw Vw].
      assert (Dz' : dim_ok d (zToR s z)) by (apply Forall_map; exact Dz).
      assert (Dw' : dim_ok d (zToR s w)) by (apply Forall_map; exact Dw).
      rewrite (cube_ext d _ (evalP (mulP (zToR s z) (zToR s w)))).
      2:{ intros x Hx. rewrite (evalP_mul d) by assumption. rewrite Vz, Vw by exact Hx. reflexivity. }
      rewrite cube_poly by (apply mulP_dim; assumption).
      rewrite forallb_forall in H1.
      rewrite (zprod_ok s d) by (auto; apply H1; eapply nth_error_In; eauto).
      pose proof (pairs_ok_nth _ _ H2 i j z w Hij Zi Wj) as K.
      assert (P0 : (0 < s * s * 315 ^ Z.of_nat d)%Z) by (apply Z.mul_pos_pos; [nia|apply Z.pow_pos_nonneg; lia]).
      apply (near_ok _ _ P0) in K. rewrite minus_IZR in K.
      replace (IZR s * IZR s * 315 ^ d) with (IZR (s * s * 315 ^ Z.of_nat d))
        by (rewrite !mult_IZR, <- pow_IZR; reflexivity).
      set (u := (s * s * 315 ^ Z.of_nat d)%Z) in *.
      assert (U : IZR u <> 0) by (apply not_0_IZR; lia).
      unfold delta. destruct (Nat.eqb i j).
      - replace (IZR (zprod z w) / IZR u - 1) with ((IZR (zprod z w) - IZR u) / IZR u) by (field; exact U). exact K.
      - replace (IZR (zprod z w) / IZR u - 0) with ((IZR (zprod z w) - 0) / IZR u) by (field; exact U). exact K. }
    intros i j f g Hi Hj. destruct (Nat.le_gt_cases i j) as [C|C]; [apply (G i j); auto|].
    rewrite (cube_ext d _ (fun x => evalR g x * evalR f x)) by (intros; apply Rmult_comm).
    unfold delta. rewrite Nat.eqb_sym. apply (G j i); auto; lia.
  - unfold first_const in H3. destruct fs as [|f0 fs]; [cbn in Hz; injection Hz as <-; discriminate|].
    destruct (N 0%nat f0 eq_refl) as (z & Z0 & E). destruct zs as [|z' zs]; [discriminate|]. injection Z0 as ->.
    destruct z as [|[k a] [|]]; try discriminate. apply andb_prop in H3. destruct H3 as [K A]. apply Z.ltb_lt in K.
    exists f0, (IZR k / IZR s). split; [reflexivity|]. split.
    { apply Rdiv_lt_0_compat; apply IZR_lt; lia. }
    intros x Hx. destruct (zterms_correct s d f0 _ Hs0 E) as [D V]. rewrite V by exact Hx.
    cbn [zToR List.map evalP fold_right fst snd].
    assert (a = zero_exp (length a)) as ->.
    { clear - A. unfold zero_exp. induction a as [|n a IH]; cbn in *; [reflexivity|]. destruct n; [|discriminate]. f_equal. auto. }
    rewrite mono_zero. ring.
  - intros f Hf. apply In_nth_error in Hf. destruct Hf as [i Hi]. destruct (N i f Hi) as (z & Zi & E).
    destruct (zterms_correct s d f z Hs0 E) as [D V]. exists (zToR s z). split; [apply Forall_map; exact D|].
    split; [|exact V]. apply Forall_map. rewrite forallb_forall in H4. apply nth_error_In in Zi. specialize (H4 _ Zi).
    rewrite forallb_forall in H4. apply Forall_forall. exact H4.
Qed.

Theorem gram d p b fs :
  interp_functions d p true b = Ok fs ->
  (forall f, In f fs -> poly_on d (evalR f)) /\
  (forall i j f g, nth_error fs i = Some f -> nth_error fs j = Some g ->
     Rabs (cube d (fun x => evalR f x * evalR g x) - delta i j) <= eps) /\
  (exists f0 c, nth_error fs 0 = Some f0 /\ 0 < c /\ forall x, length x = d -> evalR f0 x = c) /\
  (forall f, In f fs -> exists q, dim_ok d q /\ List.Forall (fun t => family_exponents d p b (snd t) = true) q /\
     forall x, length x = d -> evalR f x = evalP q x).
Proof.
  intros H. apply gram_tables in H. destruct H as [H _]. unfold gram_ok in H.
  destruct (allz scale1 d fs) as [zs|] eqn:E.
  - apply (gram_at_ok scale1 d _ fs zs); auto. reflexivity.
  - destruct (allz scale2 d fs) as [zs|] eqn:E2; [|discriminate].
    apply (gram_at_ok scale2 d _ fs zs); auto. reflexivity.
Qed.

(** ** Expansions *)

Definition expansion (q : list R) (fs : list pexp) (x : list R) : R :=
  fold_right (fun t s => fst t * evalR (snd t) x + s) 0 (combine q fs).

Definition abs_sum (q : list R) : R := fold_right (fun a s => Rabs a + s) 0 q.
Definition sq_sum (q : list R) : R := fold_right (fun a s => a * a + s) 0 q.

Lemma abs_sum_nonneg q : 0 <= abs_sum q.
Proof. unfold abs_sum. induction q as [|a q IH]; cbn [fold_right]; [lra|]. pose proof (Rabs_pos a). lra. Qed.

Lemma expansion_poly d q fs : (forall f, In f fs -> poly_on d (evalR f)) -> poly_on d (expansion q fs).
Proof.
  revert q. induction fs as [|f fs IH]; intros q H.
  - eapply poly_on_ext; [|apply (poly_on_const d 0)]. intros x _. destruct q; reflexivity.
  - destruct q as [|a q]; [eapply poly_on_ext; [|apply (poly_on_const d 0)]; reflexivity|].
    apply (poly_on_plus d (fun x => a * evalR f x) (expansion q fs)).
    + apply poly_on_scal. apply H. left. reflexivity.
    + apply IH. intros g Hg. apply H. right. exact Hg.
Qed.

(** Integral of an expansion against a polynomial. *)
Lemma cube_expansion d q fs h :
  (forall f, In f fs -> poly_on d (evalR f)) -> poly_on d h ->
  cube d (fun x => h x * expansion q fs x) =
  fold_right (fun t s => fst t * cube d (fun x => h x * evalR (snd t) x) + s) 0 (combine q fs).
Proof.
  intros Hf Hh. revert q. induction fs as [|f fs IH]; intros q.
  - rewrite (cube_ext d _ (fun _ => 0)) by (intros x _; unfold expansion; destruct q; cbn; ring).
    rewrite cube_const. destruct q; cbn; ring.
  - destruct q as [|a q].
    + rewrite (cube_ext d _ (fun _ => 0)) by (intros x _; cbn; ring). rewrite cube_const. cbn; ring.
    + cbn [combine fold_right fst snd].
      rewrite (cube_ext d _ (fun x => a * (h x * evalR f x) + h x * expansion q fs x))
        by (intros x _; unfold expansion; cbn [combine fold_right fst snd]; ring).
      assert (Hpf : poly_on d (fun x => h x * evalR f x)) by (apply poly_on_mult; [exact Hh|apply Hf; left; reflexivity]).
      rewrite cube_plus, cube_scal, IH; auto.
      * intros g Hg. apply Hf. right. exact Hg.
      * apply poly_on_scal. exact Hpf.
      * apply poly_on_mult; [exact Hh|]. apply expansion_poly. intros g Hg. apply Hf. right. exact Hg.
Qed.

(** Integral of an expansion against the [i]-th function. *)
Lemma weighted_sum_delta (q : list R) (n : nat) (G : nat -> R) (i s : nat) e :
  length q = n -> (forall j, (j < n)%nat -> Rabs (G (s + j)%nat - delta i (s + j)) <= e) ->
  Rabs (fold_right (fun t a => fst t * G (snd t) + a) 0 (combine q (seq s n))
        - (if (s <=? i)%nat then nth (i - s) q 0 else 0)) <= e * abs_sum q.
Proof.
  revert n s. induction q as [|a q IH]; intros n s Hn HG.
  - cbn [combine fold_right abs_sum]. replace (nth (i - s) [] 0) with 0 by (destruct (i - s)%nat; reflexivity).
    destruct (s <=? i)%nat; rewrite Rminus_0_r, Rabs_R0; lra.
  - destruct n as [|n]; [discriminate|]. cbn [seq combine fold_right fst snd].
    change (abs_sum (a :: q)) with (Rabs a + abs_sum q).
    assert (H0 : Rabs (G s - delta i s) <= e) by (replace s with (s + 0)%nat by lia; apply HG; lia).
    specialize (IH n (S s) ltac:(cbn in Hn; lia)). assert (IH' := IH ltac:(intros j Hj; replace (S s + j)%nat with (s + S j)%nat by lia; apply HG; lia)).
    clear IH. set (r := fold_right _ 0 (combine q (seq (S s) n))) in *.
    replace (a * G s + r - (if (s <=? i)%nat then nth (i - s) (a :: q) 0 else 0))
      with (a * (G s - delta i s) + (r - (if (S s <=? i)%nat then nth (i - S s) q 0 else 0))).
    + eapply Rle_trans; [apply Rabs_triang|]. rewrite Rabs_mult. pose proof (Rabs_pos a). nra.
    + unfold delta. destruct (Nat.leb_spec s i), (Nat.leb_spec (S s) i), (Nat.eqb_spec i s); try lia.
      * replace (i - s)%nat with (S (i - S s)) by lia. cbn [nth]. ring.
      * subst. rewrite Nat.sub_diag. cbn [nth]. ring.
      * ring.
Qed.

Lemma combine_index (q : list R) (fs : list pexp) (H : pexp -> R) (d0 : pexp) :
  fold_right (fun t s => fst t * H (snd t) + s) 0 (combine q fs) =
  fold_right (fun t s => fst t * H (nth (snd t) fs d0) + s) 0 (combine q (seq 0 (length fs))).
Proof.
  assert (G : forall k, fold_right (fun t s => fst t * H (snd t) + s) 0 (combine q fs) =
     fold_right (fun t s => fst t * H (nth (snd t - k) fs d0) + s) 0 (combine q (seq k (length fs)))).
  { revert q. induction fs as [|f fs IH]; intros q k; [destruct q; reflexivity|].
    destruct q as [|a q]; [reflexivity|]. cbn [length seq combine fold_right fst snd].
    rewrite Nat.sub_diag. cbn [nth]. f_equal. rewrite (IH q (S k)). clear IH.
    assert (forall n s, (S k <= s)%nat -> fold_right (fun t s0 => fst t * H (nth (snd t - S k) fs d0) + s0) 0 (combine q (seq s n)) =
       fold_right (fun t s0 => fst t * H (nth (snd t - k) (f :: fs) d0) + s0) 0 (combine q (seq s n))) as E.
    { intros n. revert q. induction n as [|n IHn]; intros [|b q] s Hs; cbn [seq combine fold_right fst snd]; try reflexivity.
      rewrite IHn by lia. f_equal. replace (s - k)%nat with (S (s - S k)) by lia. reflexivity. }
    apply E. lia. }
  rewrite (G 0%nat).
  assert (E : forall l : list (R * nat), fold_right (fun t s => fst t * H (nth (snd t - 0) fs d0) + s) 0 l = fold_right (fun t s => fst t * H (nth (snd t) fs d0) + s) 0 l).
  { induction l as [|[a n] l IH]; cbn [fold_right fst snd]; [reflexivity|]. rewrite IH, Nat.sub_0_r. reflexivity. }
  apply E.
Qed.

Theorem coefficient d p b fs q i f :
  interp_functions d p true b = Ok fs -> length q = length fs -> nth_error fs i = Some f ->
  Rabs (cube d (fun x => evalR f x * expansion q fs x) - nth i q 0) <= eps * abs_sum q.
Proof.
  intros H Hq Hi. destruct (gram d p b fs H) as (Hp & Hg & _).
  rewrite cube_expansion by (auto; apply Hp; eapply nth_error_In; eauto).
  rewrite (combine_index q fs (fun g => cube d (fun x => evalR f x * evalR g x)) (Nu 0 0)).
  pose proof (weighted_sum_delta q (length fs) (fun j => cube d (fun x => evalR f x * evalR (nth j fs (Nu 0 0)) x)) i 0 eps Hq) as W.
  cbn [Nat.leb Nat.add] in W. rewrite Nat.sub_0_r in W. apply W.
  intros j Hj. apply (Hg i j f); [exact Hi|]. apply nth_error_nth'. exact Hj.
Qed.
