(** * Integrals of polynomials over the reference cell [-1,1]^d. *)
From Coq Require Import List Arith ZArith QArith Reals Lia Lra.
From Coquelicot Require Import Coquelicot.
From Verif Require Import Prelude PreludeFacts Dg_Poly Dg_Sem.
Import ListNotations.
Open Scope list_scope.
Open Scope R_scope.

(** Iterated Riemann integral over the cube. *)
Fixpoint cube (d : nat) (f : list R -> R) : R :=
  match d with
  | O => f []
  | S d' => RInt (fun t => cube d' (fun x => f (t :: x))) (-1) 1
  end.

(** Integral of [t^n] over [-1,1]. *)
Definition moment (n : nat) : R := if Nat.even n then 2 / INR (S n) else 0.

Lemma is_RInt_pow n : is_RInt (fun t => t ^ n) (-1) 1 (moment n).
Proof.
  assert (H : is_RInt (fun t => t ^ n) (-1) 1 (minus (1 ^ S n / INR (S n)) ((-1) ^ S n / INR (S n)))).
  { apply (is_RInt_derive (fun t => t ^ S n / INR (S n)) (fun t => t ^ n)).
    - intros x _. auto_derive; [trivial|].
      replace (match n with O => 1 | S _ => INR n + 1 end) with (INR (S n)) by (destruct n; reflexivity).
      cbn [pred]. field. apply not_0_INR. lia.
    - intros x _. apply (ex_derive_continuous (fun t => t ^ n)). auto_derive. trivial. }
  replace (moment n) with (minus (1 ^ S n / INR (S n)) ((-1) ^ S n / INR (S n))); [exact H|].
  unfold minus, plus, opp; cbn [AbelianGroup.sort]. cbn -[INR pow Nat.even]. rewrite pow1.
  assert (Hn : INR (S n) <> 0) by (apply not_0_INR; lia).
  unfold moment. destruct (Nat.even n) eqn:E.
  - apply Nat.even_spec in E. destruct E as [k ->]. rewrite <- tech_pow_Rmult, pow_1_even. field. exact Hn.
  - assert (O : Nat.odd n = true) by (unfold Nat.odd; rewrite E; reflexivity).
    apply Nat.odd_spec in O. destruct O as [k ->]. replace (S (2 * k + 1)) with (2 * (k + 1))%nat by lia.
    rewrite pow_1_even. replace (2 * (k + 1))%nat with (S (2 * k + 1)) by lia. field. exact Hn.
Qed.

(** Integral of a monomial over the cube, and of a polynomial term by term. *)
Definition weight (a : list nat) : R := fold_right (fun n s => moment n * s) 1 a.
Definition integral (p : list (R * list nat)) : R := fold_right (fun t s => fst t * weight (snd t) + s) 0 p.

Lemma is_RInt_poly1 (l : list (R * nat)) :
  is_RInt (fun t => fold_right (fun u s => fst u * t ^ snd u + s) 0 l) (-1) 1
          (fold_right (fun u s => fst u * moment (snd u) + s) 0 l).
Proof.
  induction l as [|[c n] l IH]; cbn [fold_right fst snd].
  - pose proof (is_RInt_const (-1) 1 (0:R)) as H. unfold scal in H; cbn in H. unfold mult in H; cbn in H.
    rewrite Rmult_0_r in H. exact H.
  - apply (is_RInt_plus (fun t => c * t ^ n)); [|exact IH].
    apply (is_RInt_scal (fun t => t ^ n) (-1) 1 c). apply is_RInt_pow.
Qed.

Lemma cube_ext d f g : (forall x, length x = d -> f x = g x) -> cube d f = cube d g.
Proof.
  revert f g. induction d as [|d IH]; intros f g H; cbn [cube].
  - apply H. reflexivity.
  - apply RInt_ext. intros t _. apply IH. intros x Hx. apply H. cbn. lia.
Qed.

Theorem cube_poly d p : dim_ok d p -> cube d (evalP p) = integral p.
Proof.
  revert p. induction d as [|d IH]; intros p Hp; cbn [cube].
  - unfold evalP, integral. induction Hp as [|t p Ht Hp IHp]; cbn [List.map fold_right fst snd]; [reflexivity|].
    rewrite IHp. destruct (snd t); [|discriminate]. reflexivity.
  - (* the inner integral, for a fixed first coordinate, is a polynomial in it *)
    set (inner := List.map (fun t => (fst t * weight (tl (snd t)), hd O (snd t))) p).
    assert (Hin : forall s, cube d (fun x => evalP p (s :: x)) =
              fold_right (fun u a => fst u * s ^ snd u + a) 0 inner).
    { intros s. rewrite (cube_ext d _ (evalP (List.map (fun t => (fst t * s ^ hd O (snd t), tl (snd t))) p))).
      2:{ intros x Hx. clear - Hp. unfold evalP. induction Hp as [|t p Ht Hp IHp]; cbn [List.map fold_right fst snd]; [reflexivity|].
          rewrite IHp. destruct (snd t) as [|n a]; [discriminate|].
          change (mono (s :: x) (n :: a)) with (s ^ n * mono x a). cbn [hd tl]. ring. }
      rewrite IH.
      2:{ apply Forall_map. eapply Forall_impl; [|exact Hp]. cbn. intros t Ht. destruct (snd t); cbn in *; lia. }
      unfold integral, inner. clear. induction p as [|t p IHp]; cbn [List.map fold_right fst snd]; [reflexivity|]. rewrite IHp. ring. }
    rewrite (RInt_ext _ (fun s => fold_right (fun u a => fst u * s ^ snd u + a) 0 inner)).
    2:{ intros s _. apply Hin. }
    rewrite (is_RInt_unique _ _ _ _ (is_RInt_poly1 inner)).
    unfold integral, inner. clear Hin IH. induction Hp as [|t p Ht Hp IHp]; cbn [List.map fold_right fst snd]; [reflexivity|].
    rewrite IHp. destruct (snd t) as [|n a]; [discriminate|].
    change (weight (n :: a)) with (moment n * weight a). cbn [hd tl]. ring.
Qed.

Lemma integral_app p q : integral (p ++ q) = integral p + integral q.
Proof. unfold integral. induction p; cbn [app fold_right]; [ring|]. rewrite IHp. ring. Qed.
Lemma integral_scale k p : integral (scaleP k p) = k * integral p.
Proof. unfold integral, scaleP. induction p; cbn [List.map fold_right fst snd]; [ring|]. rewrite IHp. ring. Qed.

(** ** Integer arithmetic for the products of basis functions *)

(** 315 times the moment: an integer for exponents up to 9 (0 marks odd or large). *)
Definition moment315 (n : nat) : Z :=
  match n with
  | 0%nat => 630%Z | 2%nat => 210%Z | 4%nat => 126%Z | 6%nat => 90%Z | 8%nat => 70%Z | _ => 0%Z
  end.
Definition small (n : nat) : bool := (n <=? 9)%nat.

Fixpoint weight315 (a : list nat) : Z :=
  match a with [] => 1 | n :: a' => let m := moment315 n in if Z.eqb m 0 then 0 else m * weight315 a' end%Z.

Lemma moment315_ok n : small n = true -> IZR (moment315 n) = 315 * moment n.
Proof.
  intros H. apply Nat.leb_le in H. unfold moment.
  do 10 (destruct n as [|n]; [cbn; try lra|]); lia.
Qed.

Lemma weight315_ok a : forallb small a = true -> IZR (weight315 a) = 315 ^ length a * weight a.
Proof.
  induction a as [|n a IH]; cbn [forallb weight315 length pow weight fold_right]; [intros; ring|].
  intros H. apply andb_prop in H. destruct H as [H1 H2]. pose proof (moment315_ok n H1) as M.
  cbv zeta. destruct (Z.eqb_spec (moment315 n) 0) as [E|E].
  - rewrite E in M. assert (moment n = 0) by lra. rewrite H. ring.
  - rewrite mult_IZR, IH, M by exact H2. unfold weight. ring.
Qed.

(** [weight315] of the sum of two exponent vectors. *)
Fixpoint weight_sum (a b : list nat) : Z :=
  match a, b with
  | n :: a', m :: b' =>
      match moment315 (n + m) with Z0 => Z0 | k => match weight_sum a' b' with Z0 => Z0 | w => (k * w)%Z end end
  | _, _ => 1%Z
  end.

Lemma weight_sum_ok a b : weight_sum a b = weight315 (map2 Nat.add a b).
Proof.
  revert b. induction a as [|n a IH]; intros [|m b]; cbn [weight_sum map2 weight315]; try reflexivity.
  rewrite <- IH. cbv zeta. destruct (moment315 (n + m)) eqn:E; cbn [Z.eqb]; try reflexivity;
  destruct (weight_sum a b); reflexivity.
Qed.

(** Scaled integral of a product of two integer polynomials. *)
Definition zprod_step (t u : zterm) (s : Z) : Z :=
  match weight_sum (snd t) (snd u) with Z0 => s | w => (fst t * fst u * w + s)%Z end.

Lemma zprod_step_ok t u s : zprod_step t u s = (fst t * fst u * weight315 (map2 Nat.add (snd t) (snd u)) + s)%Z.
Proof. unfold zprod_step. rewrite <- weight_sum_ok. destruct (weight_sum (snd t) (snd u)); ring. Qed.

Definition zprod (p q : list zterm) : Z :=
  fold_right (fun t s => fold_right (zprod_step t) s q) 0%Z p.

Definition exps_small (p : list zterm) : bool := forallb (fun t => forallb (fun n => (n <=? 4)%nat) (snd t)) p.

Lemma exps_small_add a b : forallb (fun n => (n <=? 4)%nat) a = true -> forallb (fun n => (n <=? 4)%nat) b = true ->
  forallb small (map2 Nat.add a b) = true.
Proof.
  revert b. induction a as [|n a IH]; intros [|m b]; cbn; auto. intros H1 H2.
  apply andb_prop in H1, H2. destruct H1 as [A B], H2 as [C D]. rewrite IH by auto.
  apply Nat.leb_le in A, C. unfold small. destruct (Nat.leb_spec (n + m) 9); [reflexivity|lia].
Qed.

Lemma zprod_row s d (t : zterm) q acc :
  s <> 0%Z -> length (snd t) = d -> dim_ok d q ->
  forallb (fun n => (n <=? 4)%nat) (snd t) = true -> exps_small q = true ->
  integral (List.map (fun u => (IZR (fst t) / IZR s * fst u, map2 Nat.add (snd t) (snd u))) (zToR s q))
    + IZR acc / (IZR s * IZR s * 315 ^ d)
  = IZR (fold_right (zprod_step t) acc q)
    / (IZR s * IZR s * 315 ^ d).
Proof.
  intros Hs Ht Hq Et Eq. assert (Rs : IZR s <> 0) by (apply not_0_IZR; exact Hs).
  assert (R315 : 315 ^ d <> 0) by (apply pow_nonzero; lra).
  induction Hq as [|u q Hu Hq IH]; cbn [fold_right].
  - cbn [zToR List.map integral fold_right]. ring.
  - cbn [exps_small forallb] in Eq. apply andb_prop in Eq. destruct Eq as [Eu Eq]. specialize (IH Eq).
    change (zToR s (u :: q)) with ((IZR (fst u) / IZR s, snd u) :: zToR s q).
    cbn [List.map fst snd]. rewrite zprod_step_ok, plus_IZR, !mult_IZR, weight315_ok by (apply exps_small_add; auto).
    rewrite map2_add_length by congruence. rewrite Ht.
    set (rest := List.map _ (zToR s q)) in *. cbn [integral fold_right fst snd].
    fold (integral rest).
    rewrite Rplus_assoc, IH. field. auto.
Qed.

Lemma zprod_ok s d p q :
  s <> 0%Z -> dim_ok d p -> dim_ok d q -> exps_small p = true -> exps_small q = true ->
  integral (mulP (zToR s p) (zToR s q)) = IZR (zprod p q) / (IZR s * IZR s * 315 ^ d).
Proof.
  intros Hs Hp Hq Ep Eq. assert (Rs : IZR s <> 0) by (apply not_0_IZR; exact Hs).
  assert (R315 : 315 ^ d <> 0) by (apply pow_nonzero; lra).
  unfold zprod. revert Ep. induction Hp as [|t p Ht Hp IH]; intros Ep.
  - cbn. field. auto.
  - cbn [exps_small forallb] in Ep. apply andb_prop in Ep. destruct Ep as [Et Ep]. specialize (IH Ep).
    change (zToR s (t :: p)) with ((IZR (fst t) / IZR s, snd t) :: zToR s p).
    cbn [fold_right]. rewrite <- (zprod_row s d t q _ Hs Ht Hq Et Eq). rewrite <- IH.
    unfold mulP at 1. cbn [flat_map fst snd]. rewrite integral_app. reflexivity.
Qed.
