(** * Inner products of the tabulated modal basis functions: the check. *)
From Coq Require Import String List Arith ZArith QArith Reals Lia Lra Bool.
From Coquelicot Require Import Coquelicot.
From Verif Require Import Prelude PreludeFacts Dg_Poly Dg_TabI Dg_Spec Dg_Sem Dg_Int.
Import ListNotations.
Open Scope string_scope.
Open Scope list_scope.
Open Scope R_scope.

(** ** Polynomial functions and linearity of the integral *)

Definition poly_on (d : nat) (f : list R -> R) : Prop :=
  exists p, dim_ok d p /\ forall x, length x = d -> f x = evalP p x.

Lemma poly_on_const d c : poly_on d (fun _ => c).
Proof.
  exists [(c, zero_exp d)]. split; [constructor; [apply zero_exp_length|constructor]|].
  intros x _. cbn [evalP fold_right fst snd]. rewrite mono_zero. ring.
Qed.
Lemma poly_on_plus d f g : poly_on d f -> poly_on d g -> poly_on d (fun x => f x + g x).
Proof.
  intros (p & Hp & Ep) (q & Hq & Eq). exists (p ++ q). split; [apply Forall_app; split; assumption|].
  intros x Hx. rewrite evalP_app, Ep, Eq by exact Hx. reflexivity.
Qed.
Lemma scaleP_dim d k p : dim_ok d p -> dim_ok d (scaleP k p).
Proof. intros H. apply Forall_map. exact H. Qed.
Lemma poly_on_scal d k f : poly_on d f -> poly_on d (fun x => k * f x).
Proof.
  intros (p & Hp & Ep). exists (scaleP k p). split; [apply scaleP_dim, Hp|].
  intros x Hx. rewrite evalP_scale, Ep by exact Hx. reflexivity.
Qed.
Lemma poly_on_mult d f g : poly_on d f -> poly_on d g -> poly_on d (fun x => f x * g x).
Proof.
  intros (p & Hp & Ep) (q & Hq & Eq). exists (mulP p q). split; [apply mulP_dim; assumption|].
  intros x Hx. rewrite (evalP_mul d), Ep, Eq by assumption. reflexivity.
Qed.
Lemma poly_on_ext d f g : (forall x, length x = d -> f x = g x) -> poly_on d f -> poly_on d g.
Proof. intros E (p & Hp & Ep). exists p. split; [exact Hp|]. intros x Hx. rewrite <- E, Ep by exact Hx. reflexivity. Qed.

Lemma cube_plus d f g : poly_on d f -> poly_on d g -> cube d (fun x => f x + g x) = cube d f + cube d g.
Proof.
  intros (p & Hp & Ep) (q & Hq & Eq).
  rewrite (cube_ext d (fun x => f x + g x) (evalP (p ++ q))) by (intros x Hx; rewrite evalP_app, Ep, Eq by exact Hx; reflexivity).
  rewrite (cube_ext d f (evalP p)), (cube_ext d g (evalP q)) by assumption.
  rewrite !cube_poly by (try assumption; apply Forall_app; split; assumption). apply integral_app.
Qed.
Lemma cube_scal d k f : poly_on d f -> cube d (fun x => k * f x) = k * cube d f.
Proof.
  intros (p & Hp & Ep).
  rewrite (cube_ext d (fun x => k * f x) (evalP (scaleP k p))) by (intros x Hx; rewrite evalP_scale, Ep by exact Hx; reflexivity).
  rewrite (cube_ext d f (evalP p)) by assumption.
  rewrite !cube_poly by (try assumption; apply scaleP_dim; assumption). apply integral_scale.
Qed.
Lemma cube_const d c : cube d (fun _ => c) = c * 2 ^ d.
Proof.
  induction d as [|d IH]; cbn [cube pow]; [ring|]. rewrite (RInt_ext _ (fun _ => c * 2 ^ d)) by (intros; apply IH).
  rewrite RInt_const. unfold scal; cbn; unfold mult; cbn. ring.
Qed.

(** ** The check *)

Fixpoint allz (s : Z) (d : nat) (fs : list pexp) : option (list (list zterm)) :=
  match fs with
  | [] => Some []
  | f :: fs' => match zterms s d f, allz s d fs' with Some z, Some zs => Some (z :: zs) | _, _ => None end
  end.

Definition near (unit v : Z) : bool := (Z.abs v * 10 ^ 14 <=? unit)%Z.

Fixpoint pairs_ok (unit : Z) (zs : list (list zterm)) : bool :=
  match zs with
  | [] => true
  | z :: zs' => near unit (zprod z z - unit) && forallb (fun w => near unit (zprod z w)) zs' && pairs_ok unit zs'
  end.

(** The first function is a positive constant. *)
Definition first_const (d : nat) (zs : list (list zterm)) : bool :=
  match zs with
  | [(k, a)] :: _ => (0 <? k)%Z && forallb (Nat.eqb 0) a
  | _ => false
  end.

Definition gram_at (s : Z) (d : nat) (P : list nat -> bool) (zs : list (list zterm)) : bool :=
  (forallb exps_small zs && pairs_ok (s * s * 315 ^ Z.of_nat d) zs && first_const d zs &&
  forallb (forallb (fun t => P (snd t))) zs)%bool.

Definition scale1 : Z := Eval vm_compute in (10 ^ 20)%Z.
Definition scale2 : Z := Eval vm_compute in (10 ^ 40)%Z.

Definition gram_ok (d : nat) (P : list nat -> bool) (fs : list pexp) : bool :=
  match allz scale1 d fs with
  | Some zs => gram_at scale1 d P zs
  | None => match allz scale2 d fs with Some zs => gram_at scale2 d P zs | None => false end
  end.

(** The exponents allowed in each family. *)
Definition family_exponents (d p : nat) (b : string) : list nat -> bool :=
  if Nat.eqb d 1 then in_maximal p
  else if String.eqb b "serendipity" then in_serendipity p
  else if String.eqb b "maximal-order" then in_maximal p
  else if String.eqb b "tensor" then in_tensor p
  else match extra_dir d b with Some e => in_hybrid e | None => fun _ => false end.

Lemma gram_tables d p b fs :
  interp_functions d p true b = Ok fs -> gram_ok d (family_exponents d p b) fs = true /\ (1 <= d)%nat /\ (length fs <= 1000)%nat.
Proof.
  unfold interp_functions. cbn [andb negb].
  repeat match goal with
  | |- (if Nat.eqb d ?k then _ else _) = _ -> _ => destruct (Nat.eqb_spec d k) as [->|_]
  | |- (if String.eqb b ?k then _ else _) = _ -> _ => destruct (String.eqb_spec b k) as [->|_]
  | |- (if Nat.eqb p ?k then _ else _) = _ -> _ => destruct (Nat.eqb_spec p k) as [->|_]
  | |- Err _ = Ok _ -> _ => discriminate
  | |- (if false then _ else _) = _ -> _ => cbv beta iota
  end; intros [= <-]; (split; [|split; [lia|apply Nat.leb_le; vm_compute; reflexivity]]);
  vm_cast_no_check (eq_refl true).
Qed.

