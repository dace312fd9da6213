(** * The tabulated nodal bases: exact identities. *)
From Coq Require Import String List Arith ZArith QArith Qreals Reals Lia Lra Bool.
From Verif Require Import Prelude PreludeFacts NdArray Dg_Poly Dg_TabI Dg_Spec Dg_Sem.
Import ListNotations.
Open Scope string_scope.
Open Scope list_scope.
Open Scope R_scope.

(** ** The nodes (specification)

    Of the [p + 1] equally spaced points per direction, those with at most one
    coordinate strictly between the ends, first coordinate fastest: vertices and
    points of edges. *)
Definition on_edge (p : nat) (ks : list nat) : bool :=
  (length (filter (fun k => negb (Nat.eqb k 0 || Nat.eqb k p)) ks) <=? 1)%nat.

(** [indices] lists the last coordinate fastest. *)
Definition node_indices (d p : nat) : list (list nat) :=
  filter (on_edge p) (List.map (@rev nat) (indices (repeat (S p) d))).

Definition node_coord (p k : nat) : R := -1 + 2 * INR k / INR p.
Definition nodes (d p : nat) : list (list R) := List.map (List.map (node_coord p)) (node_indices d p).

(** ** Exact evaluation on rational points *)
Fixpoint qpow (q : Q) (n : nat) : Q := match n with O => 1%Q | S m => (q * qpow q m)%Q end.
Lemma Q2R_qpow q n : Q2R (qpow q n) = Q2R q ^ n.
Proof. induction n; cbn [qpow pow]; [unfold Q2R; cbn; field|]. rewrite Q2R_mult, IHn. reflexivity. Qed.

Definition node_coordQ (p k : nat) : Q := Qred (inject_Z (-1) + inject_Z (2 * Z.of_nat k) / inject_Z (Z.of_nat p)).
Lemma node_coordQ_ok p k : (0 < p)%nat -> Q2R (node_coordQ p k) = node_coord p k.
Proof.
  intros Hp. unfold node_coordQ. rewrite (Qeq_eqR _ _ (Qred_correct _)).
  assert (N : ~ (inject_Z (Z.of_nat p) == 0)%Q) by (unfold Qeq; cbn; lia).
  rewrite Q2R_plus, Q2R_div by exact N. unfold Q2R, inject_Z, node_coord. cbn [Qnum Qden].
  rewrite mult_IZR, <- !INR_IZR_INZ. field. apply not_0_INR. lia.
Qed.

Definition monoQ (x : list Q) (a : list nat) : Q := fold_right Qmult 1%Q (map2 qpow x a).
Lemma Q2R_mono x a : Q2R (monoQ x a) = mono (List.map Q2R x) a.
Proof.
  unfold monoQ, mono. revert a. induction x as [|t x IH]; intros [|n a]; cbn [List.map map2 fold_right]; try (unfold Q2R; cbn; field).
  rewrite Q2R_mult, Q2R_qpow, IH. reflexivity.
Qed.

(** ** Collecting like terms *)
Fixpoint add_term (t : qterm) (p : list qterm) : list qterm :=
  match p with
  | [] => [t]
  | u :: p' => if list_eq_dec Nat.eq_dec (snd t) (snd u) then (Qred (fst t + fst u), snd u) :: p' else u :: add_term t p'
  end.
Definition collect (p : list qterm) : list qterm := fold_right add_term [] p.

Lemma add_term_ok t p x : evalP (toR (add_term t p)) x = Q2R (fst t) * mono x (snd t) + evalP (toR p) x.
Proof.
  unfold evalP. induction p as [|u p IH]; cbn [add_term toR List.map fold_right fst snd]; [reflexivity|].
  destruct (list_eq_dec Nat.eq_dec (snd t) (snd u)) as [E|E]; cbn [toR List.map fold_right fst snd].
  - rewrite (Qeq_eqR _ _ (Qred_correct _)), Q2R_plus, E. ring.
  - fold (toR (add_term t p)). rewrite IH. fold (toR p). ring.
Qed.
Lemma collect_ok p x : evalP (toR (collect p)) x = evalP (toR p) x.
Proof.
  induction p as [|t p IH]; cbn [collect fold_right]; [reflexivity|]. fold (collect p). rewrite add_term_ok, IH. reflexivity.
Qed.

(** The polynomial is the monomial with exponents [a]. *)
Definition is_mono (a : list nat) (p : list qterm) : bool :=
  forallb (fun t => Qeq_bool (fst t) (if list_eq_dec Nat.eq_dec (snd t) a then 1 else 0)) p &&
  (length (filter (fun t : qterm => if list_eq_dec Nat.eq_dec (snd t) a then true else false) p) =? 1)%nat.

Lemma is_mono_ok a p x : is_mono a p = true -> evalP (toR p) x = mono x a.
Proof.
  unfold is_mono. intros H. apply andb_prop in H. destruct H as [H1 H2]. apply Nat.eqb_eq in H2.
  assert (G : forall p, forallb (fun t => Qeq_bool (fst t) (if list_eq_dec Nat.eq_dec (snd t) a then 1 else 0)) p = true ->
     evalP (toR p) x = INR (length (filter (fun t : qterm => if list_eq_dec Nat.eq_dec (snd t) a then true else false) p)) * mono x a).
  { clear. intros p. unfold evalP. induction p as [|t p IH]; cbn [forallb toR List.map fold_right fst snd filter]; intros H; [cbn; ring|].
    apply andb_prop in H. destruct H as [A B]. apply Qeq_bool_eq in A. apply Qeq_eqR in A. fold (toR p). rewrite IH by exact B. rewrite A.
    destruct (list_eq_dec Nat.eq_dec (snd t) a) as [E|E].
    - cbn [length]. rewrite S_INR, E. replace (Q2R 1) with 1 by (unfold Q2R; cbn; field). ring.
    - replace (Q2R 0) with 0 by (unfold Q2R; cbn; field). ring. }
  rewrite (G p H1), H2. cbn. ring.
Qed.

(** ** The check *)

Fixpoint allq (d : nat) (fs : list pexp) : option (list (list qterm)) :=
  match fs with
  | [] => Some []
  | f :: fs' => match terms d f, allq d fs' with Some t, Some ts => Some (t :: ts) | _, _ => None end
  end.

Definition scale_q (k : Q) (p : list qterm) : list qterm := List.map (fun t => (Qred (k * fst t), snd t)) p.

(** [sum_j (x_j)^a f_j], as a polynomial. *)
Definition sampled (xs : list (list Q)) (ts : list (list qterm)) (a : list nat) : list qterm :=
  flat_map (fun t => if Qeq_bool (monoQ (fst t) a) 0 then [] else scale_q (monoQ (fst t) a) (snd t)) (combine xs ts).

Definition nodesQ (d p : nat) : list (list Q) := List.map (List.map (node_coordQ p)) (node_indices d p).

Definition family_monomials (d p : nat) : list (list nat) :=
  filter (in_serendipity p) (indices (repeat (S p) d)).

Definition qdelta (i j : nat) : Q := if Nat.eqb i j then 1%Q else 0%Q.
Definition evalPQ (p : list qterm) (x : list Q) : Q := fold_right (fun t s => Qred (fst t * monoQ x (snd t) + s)) 0%Q p.

Definition nodal_ok (d p : nat) (fs : list pexp) : bool :=
  match allq d fs with
  | None => false
  | Some ts =>
      let cs := List.map collect ts in
      (length fs =? length (nodesQ d p))%nat && (0 <? p)%nat &&
      forallb (fun a => is_mono a (collect (sampled (nodesQ d p) cs a))) (family_monomials d p) &&
      forallb (fun u => forallb (fun t => Qeq_bool (evalPQ (snd t) (snd u)) (qdelta (fst u) (fst t)))
                                (combine (seq 0 (length cs)) cs))
              (combine (seq 0 (length (nodesQ d p))) (nodesQ d p))
  end.

Lemma nodal_tables d p b fs : interp_functions d p false b = Ok fs -> nodal_ok d p fs = true.
Proof.
  unfold interp_functions. cbn [andb negb].
  repeat match goal with
  | |- (if Nat.eqb d ?k then _ else _) = _ -> _ => destruct (Nat.eqb_spec d k) as [->|_]
  | |- (if String.eqb b ?k then _ else _) = _ -> _ => destruct (String.eqb_spec b k) as [->|_]
  | |- (if Nat.eqb p ?k then _ else _) = _ -> _ => destruct (Nat.eqb_spec p k) as [->|_]
  | |- Err _ = Ok _ -> _ => discriminate
  | |- (if false then _ else _) = _ -> _ => cbv beta iota
  end; intros [= <-]; vm_cast_no_check (eq_refl true).
Qed.
