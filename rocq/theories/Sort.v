(** * Stable sorting, as done by Python's [sorted] and [list.sort]. *)
From Coq Require Import List Bool Sorted Permutation Arith Lia.
Import ListNotations.

Section Sort.
  Context {A : Type} (leb : A -> A -> bool).

  (** Insert before the first strictly larger element. *)
  Fixpoint insert (x : A) (l : list A) : list A :=
    match l with
    | [] => [x]
    | y :: l' => if leb x y then x :: l else y :: insert x l'
    end.

  (** Elements are inserted from the right, so equal ones keep their order. *)
  Fixpoint isort (l : list A) : list A :=
    match l with
    | [] => []
    | x :: l' => insert x (isort l')
    end.

  Lemma insert_perm x l : Permutation (x :: l) (insert x l).
  Proof.
    induction l as [|y l IH]; simpl; [auto|]. destruct (leb x y); auto.
    apply perm_trans with (y :: x :: l); [apply perm_swap|auto].
  Qed.

  Theorem isort_perm l : Permutation l (isort l).
  Proof. induction l as [|x l IH]; simpl; auto. apply perm_trans with (x :: isort l); auto. apply insert_perm. Qed.

  (** [leb] only has to be total and transitive on the elements sorted. *)
  Context (P : A -> Prop).
  Context (total : forall x y, P x -> P y -> leb x y = true \/ leb y x = true).
  Context (trans : forall x y z, P x -> P y -> P z -> leb x y = true -> leb y z = true -> leb x z = true).

  Notation le := (fun x y => leb x y = true).

  Lemma insert_sorted x l : P x -> Forall P l -> StronglySorted le l -> StronglySorted le (insert x l).
  Proof.
    intros Px Pl H. induction H as [|y l H IH F]; simpl; [repeat constructor|].
    inversion Pl as [|? ? Py Pl']; subst.
    destruct (leb x y) eqn:E.
    - constructor; [constructor; auto|]. constructor; auto.
      rewrite Forall_forall in *. intros z Hz. apply trans with y; auto.
    - constructor; auto. assert (Hyx : leb y x = true) by (destruct (total x y Px Py); congruence).
      rewrite Forall_forall in *. intros z Hz. apply Permutation_in with (l' := x :: l) in Hz; [|symmetry; apply insert_perm].
      destruct Hz as [<-|Hz]; auto.
  Qed.

  Theorem isort_sorted l : Forall P l -> StronglySorted le (isort l).
  Proof.
    intros Pl. induction Pl as [|x l Px Pl IH]; simpl; [constructor|]. apply insert_sorted; auto.
    rewrite Forall_forall in *. intros z Hz. apply Pl. eapply Permutation_in; [symmetry; apply isort_perm|auto].
  Qed.

  (** Stability: elements that compare equal to [x] keep their order. *)
  Definition equiv (x y : A) : bool := leb x y && leb y x.

  Lemma insert_filter_out x y l : equiv x y = false -> filter (equiv x) (insert y l) = filter (equiv x) l.
  Proof. intros E. induction l as [|z l IH]; simpl; [now rewrite E|]. destruct (leb y z); simpl; [now rewrite E|now rewrite IH]. Qed.

  Lemma insert_filter_in x y l : P x -> P y -> Forall P l -> StronglySorted le l -> equiv x y = true ->
    filter (equiv x) (insert y l) = y :: filter (equiv x) l.
  Proof.
    intros Px Py Pl H E. induction H as [|z l H IH F]; simpl; [now rewrite E|].
    inversion Pl as [|? ? Pz Pl']; subst. destruct (leb y z) eqn:Eyz; [simpl; now rewrite E|].
    simpl. assert (Ex : equiv x z = false).
    { unfold equiv in *. apply andb_true_iff in E as [E1 E2]. apply not_true_iff_false. intros Hx.
      apply andb_true_iff in Hx as [Hx _]. assert (leb y z = true) by (apply (trans y x z); auto). congruence. }
    rewrite Ex. auto.
  Qed.

  Theorem isort_stable l x : P x -> Forall P l -> filter (equiv x) (isort l) = filter (equiv x) l.
  Proof.
    intros Px Pl. induction Pl as [|y l Py Pl IH]; simpl; [reflexivity|].
    destruct (equiv x y) eqn:E.
    - rewrite insert_filter_in; auto; [now rewrite IH| |now apply isort_sorted].
      rewrite Forall_forall in *. intros z Hz. apply Pl. eapply Permutation_in; [symmetry; apply isort_perm|auto].
    - now rewrite insert_filter_out.
  Qed.
End Sort.

(** A stable sort is determined by its specification. *)
Section Unique.
  Context {A : Type} (leb : A -> A -> bool).
  Context (refl : forall x, leb x x = true).
  Notation le := (fun x y => leb x y = true).

  Theorem stable_sort_unique l m :
    Permutation l m -> StronglySorted le l -> StronglySorted le m ->
    (forall x, filter (equiv leb x) l = filter (equiv leb x) m) -> l = m.
  Proof.
    revert m. induction l as [|a l IH]; intros m Hp Hl Hm Hf.
    - apply Permutation_nil in Hp. now subst.
    - destruct m as [|b m]. { symmetry in Hp. apply Permutation_nil in Hp. discriminate. }
      inversion Hl as [|? ? Hl' Fl]; subst. inversion Hm as [|? ? Hm' Fm]; subst.
      assert (Hab : leb a b = true).
      { assert (In b (a :: l)) as [->|Hb]; [|apply refl|rewrite Forall_forall in Fl; now apply Fl].
        apply Permutation_in with (l := b :: m); [now symmetry|now left]. }
      assert (Hba : leb b a = true).
      { assert (In a (b :: m)) as [->|Hb]; [|apply refl|rewrite Forall_forall in Fm; now apply Fm].
        apply Permutation_in with (l := a :: l); [auto|now left]. }
      pose proof (Hf a) as Ha. cbn [filter] in Ha.
      assert (Ea : equiv leb a a = true) by (unfold equiv; now rewrite refl).
      assert (Eb : equiv leb a b = true) by (unfold equiv; now rewrite Hab, Hba).
      rewrite Ea, Eb in Ha.
      injection Ha as -> Ha. f_equal. apply IH; auto.
      + now apply Permutation_cons_inv in Hp.
      + intros x. specialize (Hf x). cbn [filter] in Hf. destruct (equiv leb x b); congruence.
  Qed.
End Unique.
