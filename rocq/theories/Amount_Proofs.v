(** * Midpoint sums and integrals of polynomials over boxes *)
From Coq Require Import String Ascii List Arith ZArith Bool Lia Reals Lra.
From Coquelicot Require Import Coquelicot.
From Verif Require Import Prelude PreludeFacts NdArray Gkyl_Spec Dg_Poly Dg_TabI Dg_Sem Dg_Int Dg_GramTab Dg_Gram Show_Spec Amount_Spec.
Import ListNotations.
Open Scope list_scope. Open Scope R_scope.

Local Notation rsum l := (fold_right Rplus 0 l).

(** ** Sums *)

Lemma rsum_ext {A} (f g : A -> R) l : (forall x, In x l -> f x = g x) -> rsum (List.map f l) = rsum (List.map g l).
Proof. induction l as [|a l IH]; cbn; intros H; [reflexivity|]. rewrite H, IH by auto. reflexivity. Qed.
Lemma rsum_scal {A} k (f : A -> R) l : rsum (List.map (fun x => k * f x) l) = k * rsum (List.map f l).
Proof. induction l as [|a l IH]; cbn; [ring|]. rewrite IH. ring. Qed.
Lemma rsum_plus {A} (f g : A -> R) l : rsum (List.map (fun x => f x + g x) l) = rsum (List.map f l) + rsum (List.map g l).
Proof. induction l as [|a l IH]; cbn; [ring|]. rewrite IH. ring. Qed.
Lemma rsum_zero {A} (l : list A) : rsum (List.map (fun _ => 0) l) = 0.
Proof. induction l as [|a l IH]; cbn; [ring|]. rewrite IH. ring. Qed.
Lemma rsum_app l m : rsum (l ++ m) = rsum l + rsum m.
Proof. induction l as [|a l IH]; cbn; [ring|]. rewrite IH. ring. Qed.

Lemma sum_over_ext sizes g h : (forall q, in_range sizes q -> g q = h q) -> sum_over sizes g = sum_over sizes h.
Proof.
  revert g h. induction sizes as [|n sizes IH]; intros g h H; cbn [sum_over].
  - apply H. constructor.
  - apply rsum_ext. intros k Hk. apply in_seq in Hk. apply IH. intros q Hq. apply H. constructor; [lia|exact Hq].
Qed.
Lemma sum_over_scal sizes k g : sum_over sizes (fun q => k * g q) = k * sum_over sizes g.
Proof.
  revert g. induction sizes as [|n sizes IH]; intros g; cbn [sum_over]; [reflexivity|].
  rewrite <- rsum_scal. apply rsum_ext. intros j _. apply IH.
Qed.
Lemma sum_over_plus sizes g h : sum_over sizes (fun q => g q + h q) = sum_over sizes g + sum_over sizes h.
Proof.
  revert g h. induction sizes as [|n sizes IH]; intros g h; cbn [sum_over]; [reflexivity|].
  rewrite <- rsum_plus. apply rsum_ext. intros j _. apply IH.
Qed.
Lemma sum_over_zero sizes : sum_over sizes (fun _ => 0) = 0.
Proof. rewrite (sum_over_ext _ _ (fun _ => 0 * 0)) by (intros; ring). rewrite sum_over_scal. ring. Qed.

(** Exchanging sums. *)
Lemma sum_over_rsum {A} sizes (l : list A) (g : A -> list nat -> R) :
  rsum (List.map (fun a => sum_over sizes (g a)) l) = sum_over sizes (fun q => rsum (List.map (fun a => g a q) l)).
Proof.
  induction l as [|a l IH]; cbn [List.map fold_right]; [symmetry; apply sum_over_zero|].
  rewrite IH, <- sum_over_plus. reflexivity.
Qed.

(** Splitting every index in the number of the cell and of the point in it. *)
Lemma seq_split N n : seq 0 (N * n) = flat_map (fun i => List.map (fun k => (i * n + k)%nat) (seq 0 n)) (seq 0 N).
Proof.
  induction N as [|N IH]; [reflexivity|]. rewrite seq_S, flat_map_app, <- IH. cbn [flat_map Nat.add]. rewrite app_nil_r.
  replace (S N * n)%nat with (N * n + n)%nat by lia. rewrite seq_app. f_equal. cbn [Nat.add].
  clear IH. generalize (N * n)%nat. intros a. revert a. induction n as [|n IH]; intros a; [reflexivity|]. cbn [seq List.map].
  rewrite Nat.add_0_r. f_equal. rewrite IH, <- seq_shift, map_map.
  rewrite <- (map_map S (fun k => (a + k)%nat)), seq_shift, <- seq_shift, map_map. apply map_ext. intros k. lia.
Qed.

Definition place2 (i n k : list nat) : list nat := map2 Nat.add (map2 Nat.mul i n) k.

Lemma sum_over_split cells ns g : length ns = length cells ->
  sum_over (map2 Nat.mul cells ns) g = sum_over cells (fun i => sum_over ns (fun k => g (place2 i ns k))).
Proof.
  revert ns g. induction cells as [|N cells IH]; intros [|n ns] g L; try discriminate L; [reflexivity|].
  cbn [map2 sum_over]. rewrite seq_split, flat_map_concat_map, concat_map, map_map.
  assert (C : forall l : list (list R), rsum (concat l) = rsum (List.map (fun x => rsum x) l)).
  { induction l as [|x l IHl]; cbn; [reflexivity|]. rewrite rsum_app, IHl. reflexivity. }
  rewrite C, map_map. apply rsum_ext. intros i _. rewrite map_map.
  rewrite (rsum_ext _ (fun k => sum_over cells (fun i' => sum_over ns (fun k' => g ((i * n + k)%nat :: place2 i' ns k'))))).
  2:{ intros k _. apply IH. cbn in L. lia. }
  rewrite sum_over_rsum. apply sum_over_ext. intros i' _. reflexivity.
Qed.

(** ** The midpoint rule on the reference cell *)

(** Centre of the [k]-th of [n] equal parts of -1..1. *)
Definition part_mid (n k : nat) : R := (2 * INR k + 1) / INR n - 1.

Lemma mid_pow0 n : rsum (List.map (fun k => part_mid n k ^ 0) (seq 0 n)) = INR n.
Proof.
  rewrite (rsum_ext _ (fun _ => 1)) by (intros; apply pow_O). generalize (seq_length n 0). generalize (seq 0 n). intros l. revert n.
  induction l as [|a l IH]; intros [|n] L; try discriminate L; [reflexivity|]. cbn [List.map fold_right]. rewrite (IH n) by (cbn in L; lia).
  rewrite S_INR. ring.
Qed.

Lemma sum_odd n : rsum (List.map (fun k => 2 * INR k + 1) (seq 0 n)) = INR n * INR n.
Proof.
  induction n as [|n IH]; [cbn; ring|]. rewrite seq_S, map_app, rsum_app, IH. cbn [List.map fold_right Nat.add]. rewrite S_INR. ring.
Qed.

Lemma mid_pow1 n : (0 < n)%nat -> rsum (List.map (fun k => part_mid n k ^ 1) (seq 0 n)) = 0.
Proof.
  intros Hn. assert (N : INR n <> 0) by (apply not_0_INR; lia).
  rewrite (rsum_ext _ (fun k => / INR n * (2 * INR k + 1) + (-1) * part_mid n k ^ 0)).
  2:{ intros k _. unfold part_mid. field. exact N. }
  rewrite rsum_plus, !rsum_scal, mid_pow0, sum_odd. field. exact N.
Qed.

Lemma mid_moment n e : (0 < n)%nat -> (e <= 1)%nat -> 2 / INR n * rsum (List.map (fun k => part_mid n k ^ e) (seq 0 n)) = moment e.
Proof.
  intros Hn He. assert (N : INR n <> 0) by (apply not_0_INR; lia). destruct e as [|[|e]]; [| |lia].
  - rewrite mid_pow0. unfold moment. cbn. field. exact N.
  - rewrite mid_pow1 by exact Hn. unfold moment. cbn. ring.
Qed.

Definition scale_of (ns : list nat) : R := fold_right (fun n s => 2 / INR n * s) 1 ns.

Lemma mid_mono ns a : List.Forall (fun n => (0 < n)%nat) ns -> length a = length ns -> List.Forall (fun e => (e <= 1)%nat) a ->
  scale_of ns * sum_over ns (fun k => mono (map2 part_mid ns k) a) = weight a.
Proof.
  intros H. revert a. induction H as [|n ns Hn H IH]; intros [|e a] L F; try discriminate L.
  - cbn. unfold mono. cbn. ring.
  - inversion F as [|? ? He Fa]; subst. cbn [scale_of fold_right sum_over weight]. fold (scale_of ns). fold (weight a).
    rewrite <- (IH a) by (cbn in L; auto; lia). rewrite <- (mid_moment n e Hn He).
    rewrite (rsum_ext _ (fun k => sum_over ns (fun q => mono (map2 part_mid ns q) a) * part_mid n k ^ e)).
    2:{ intros k _. rewrite Rmult_comm, <- sum_over_scal. apply sum_over_ext. intros q _. reflexivity. }
    rewrite rsum_scal. ring.
Qed.

Lemma mid_poly ns p : List.Forall (fun n => (0 < n)%nat) ns -> dim_ok (length ns) p ->
  List.Forall (fun t => List.Forall (fun e => (e <= 1)%nat) (snd t)) p ->
  scale_of ns * sum_over ns (fun k => evalP p (map2 part_mid ns k)) = cube (length ns) (evalP p).
Proof.
  intros Hn D Ex. rewrite cube_poly by exact D.
  induction D as [|t p Ht D IH]; inversion Ex as [|? ? Et Ep]; subst.
  - cbn [integral evalP fold_right]. rewrite sum_over_zero. ring.
  - cbn [integral fold_right]. fold (integral p). rewrite <- (IH Ep), <- (mid_mono ns (snd t) Hn Ht Et).
    change (evalP (t :: p)) with (fun x => fst t * mono x (snd t) + evalP p x). cbv beta.
    rewrite sum_over_plus, sum_over_scal. ring.
Qed.

(** ** Change of variables *)

Definition to_ref (b : R * R) (t : R) : R := 2 * (t - fst b) / (snd b - fst b) - 1.
Definition half_volume (bs : list (R * R)) : R := fold_right (fun b s => (snd b - fst b) / 2 * s) 1 bs.

Lemma inner_poly d g : poly_on (S d) g ->
  (forall t, poly_on d (fun x => g (t :: x))) /\ ex_RInt (fun t => cube d (fun x => g (t :: x))) (-1) 1.
Proof.
  intros (p & Hp & Ep).
  assert (E : forall s x, length x = d -> g (s :: x) = evalP (List.map (fun t => (fst t * s ^ hd O (snd t), tl (snd t))) p) x).
  { intros s x Hx. rewrite Ep by (cbn; lia). clear - Hp. unfold evalP. induction Hp as [|t p Ht Hp IHp]; cbn [List.map fold_right fst snd]; [reflexivity|].
    rewrite IHp. destruct (snd t) as [|n a]; [discriminate|].
    change (mono (s :: x) (n :: a)) with (s ^ n * mono x a). cbn [hd tl]. ring. }
  assert (D : forall s, dim_ok d (List.map (fun t => (fst t * s ^ hd O (snd t), tl (snd t))) p)).
  { intros s. apply Forall_map. eapply Forall_impl; [|exact Hp]. cbn. intros t Ht. destruct (snd t); cbn in *; lia. }
  split.
  - intros s. eexists. split; [apply (D s)|]. apply E.
  - set (inner := List.map (fun t => (fst t * weight (tl (snd t)), hd O (snd t))) p).
    apply (ex_RInt_ext (fun s => fold_right (fun u a => fst u * s ^ snd u + a) 0 inner)).
    + intros s _. rewrite (cube_ext d _ _ (E s)), cube_poly by apply D.
      assert (K : forall r, fold_right (fun u a => fst u * s ^ snd u + a) 0 (List.map (fun t : R * list nat => (fst t * weight (tl (snd t)), hd O (snd t))) r)
        = integral (List.map (fun t => (fst t * s ^ hd O (snd t), tl (snd t))) r)).
      { unfold integral. induction r as [|t r IHr]; cbn [List.map fold_right fst snd]; [reflexivity|]. rewrite IHr. ring. }
      exact (K p).
    + eexists. apply is_RInt_poly1.
Qed.

Lemma box_ext bs f g : (forall x, length x = length bs -> f x = g x) -> box bs f = box bs g.
Proof.
  revert f g. induction bs as [|[a b] bs IH]; intros f g H; cbn [box].
  - apply H. reflexivity.
  - apply RInt_ext. intros t _. apply IH. intros x Hx. apply H. cbn. lia.
Qed.

Lemma box_affine bs g : List.Forall (fun b => fst b < snd b) bs -> poly_on (length bs) g ->
  box bs (fun x => g (map2 to_ref bs x)) = half_volume bs * cube (length bs) g.
Proof.
  intros H. revert g. induction H as [|[a b] bs Hab H IH]; intros g P; cbn [box length cube half_volume fold_right map2].
  - cbn. ring.
  - fold (half_volume bs). cbn [fst snd] in *. destruct (inner_poly (length bs) g P) as [Pi Ex].
    rewrite (RInt_ext _ (fun t => ((b - a) / 2 * half_volume bs) * ((2 / (b - a)) * cube (length bs) (fun x => g ((2 / (b - a) * t + (- (2 * a / (b - a)) - 1)) :: x))))).
    2:{ intros t _. rewrite (IH (fun x => g (to_ref (a, b) t :: x)) (Pi _)). unfold to_ref. cbn [fst snd].
        replace (2 * (t - a) / (b - a) - 1) with (2 / (b - a) * t + (- (2 * a / (b - a)) - 1)) by (field; lra).
        match goal with |- ?u = ?w => change (@eq R u w) end. field. lra. }
    set (G := fun s => cube (length bs) (fun x => g (s :: x))).
    assert (B1 : 2 / (b - a) * a + (- (2 * a / (b - a)) - 1) = -1) by (field; lra).
    assert (B2 : 2 / (b - a) * b + (- (2 * a / (b - a)) - 1) = 1) by (field; lra).
    assert (I : is_RInt (fun t => scal (2 / (b - a)) (G (2 / (b - a) * t + (- (2 * a / (b - a)) - 1)))) a b (RInt G (-1) 1)).
    { refine (is_RInt_comp_lin G (2 / (b - a)) (- (2 * a / (b - a)) - 1) a b _ _). rewrite B1, B2. exact (RInt_correct G (-1) 1 Ex). }
    apply (is_RInt_scal _ _ _ ((b - a) / 2 * half_volume bs)) in I. exact (is_RInt_unique _ _ _ _ I).
Qed.

(** ** Expansions of order one *)

Lemma expansion_exps (P : list nat -> Prop) d fs q :
  (forall f, In f fs -> exists p, dim_ok d p /\ List.Forall (fun t => P (snd t)) p /\ forall x, length x = d -> evalR f x = evalP p x) ->
  exists p, dim_ok d p /\ List.Forall (fun t => P (snd t)) p /\ forall x, length x = d -> expansion q fs x = evalP p x.
Proof.
  revert q. induction fs as [|f fs IH]; intros q H.
  - exists []. split; [constructor|]. split; [constructor|]. intros x _. destruct q; reflexivity.
  - destruct q as [|a q]; [exists []; split; [constructor|]; split; [constructor|]; reflexivity|].
    destruct (H f (or_introl eq_refl)) as (p & D & F & E). destruct (IH q) as (p' & D' & F' & E'); [intros g Hg; apply H; now right|].
    exists (scaleP a p ++ p'). split; [apply Forall_app; split; [apply scaleP_dim, D|exact D']|].
    split; [apply Forall_app; split; [apply Forall_map; exact F|exact F']|]. intros x Hx.
    change (expansion (a :: q) (f :: fs) x) with (a * evalR f x + expansion q fs x).
    rewrite evalP_app, evalP_scale, <- E, <- E' by exact Hx. reflexivity.
Qed.

Lemma order_one d b fs : interp_functions d 1 true b = Ok fs ->
  b = "serendipity"%string \/ b = "maximal-order"%string \/ b = "tensor"%string ->
  forall f, In f fs -> exists p, dim_ok d p /\ List.Forall (fun t => List.Forall (fun e => (e <= 1)%nat) (snd t)) p /\
     forall x, length x = d -> evalR f x = evalP p x.
Proof.
  intros H Hb f Hf. destruct (gram d 1 b fs H) as (_ & _ & _ & G). destruct (G f Hf) as (p & D & F & E). exists p. split; [exact D|]. split; [|exact E].
  assert (K1 : forall a, Dg_Spec.in_maximal 1 a = true -> List.Forall (fun e => (e <= 1)%nat) a).
  { intros a. unfold Dg_Spec.in_maximal. rewrite Nat.leb_le. induction a as [|e a IH]; cbn [Dg_Spec.total_degree fold_right]; intros L; constructor; [lia|].
    apply IH. unfold Dg_Spec.total_degree. lia. }
  assert (K2 : forall a, Dg_Spec.in_serendipity 1 a = true -> List.Forall (fun e => (e <= 1)%nat) a).
  { intros a. unfold Dg_Spec.in_serendipity. cbn [Nat.eqb]. rewrite Nat.leb_le. induction a as [|e a IH]; cbn [Dg_Spec.superlinear_degree fold_right]; intros L; constructor.
    - destruct (Nat.leb_spec 2 e); lia.
    - apply IH. unfold Dg_Spec.superlinear_degree. lia. }
  assert (K3 : forall a, Dg_Spec.in_tensor 1 a = true -> List.Forall (fun e => (e <= 1)%nat) a).
  { intros a. unfold Dg_Spec.in_tensor. rewrite forallb_forall. intros L. apply Forall_forall. intros e He. apply Nat.leb_le. auto. }
  eapply Forall_impl; [|exact F]. cbv beta. intros t. unfold family_exponents.
  destruct (Nat.eqb d 1); [apply K1|]. destruct Hb as [-> | [-> | ->]]; cbn [String.eqb Ascii.eqb Bool.eqb]; [apply K2|apply K1|apply K3].
Qed.
