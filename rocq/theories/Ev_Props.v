(** * Properties C24-C28: the [ev] command. *)
From Coq Require Import String Ascii List Arith ZArith QArith Qabs Bool Lia.
From Verif Require Import Prelude PreludeFacts NdArray GData_Model Select_Model DataSpace_Model DataSpace_Spec
  DataSpace_Proofs DataSpace_Proofs2 DataSpace_Proofs3 DataSpace_Props Ev_Model Ev_Arith.
Import ListNotations.
Open Scope list_scope.

(** ** C28: arithmetic on arrays of different shapes *)

Inductive arith := Plus | Minus | Times | Over.
Definition symbol (o : arith) : string :=
  match o with Plus => "+" | Minus => "-" | Times => "*" | Over => "/" end.
(** The meaning of [x o y]. *)
Definition num (o : arith) : Q -> Q -> Q :=
  match o with Plus => Qplus | Minus => Qminus | Times => Qmult | Over => Qdiv end.

(** [a b o] on the command line: [b] is on top of the stack, so it is popped
    first. *)
Definition calc ufun qpow (o : arith) (ga : grid) (a : nda Q) (gb : grid) (b : nda Q) : res (grid * val) :=
  match cmds_q ufun qpow (symbol o) with
  | Some (2%nat, f) => f [gb; ga] [VArr b; VArr a]
  | _ => Err NameError
  end.

(** [x] is the result array with the given shape and elements. *)
Definition is_array (x : res (grid * val)) (sh : list nat) (elt : list nat -> Q) : Prop :=
  exists g r, x = Ok (g, VArr r) /\ wf r /\ shape r = sh /\
    forall idx, in_range sh idx -> get r idx = Some (elt idx).

Section C28.
  Context (ufun : string -> Q -> Q) (qpow : Q -> Q -> Q).
  Local Notation calc := (calc ufun qpow).

  Lemma calc_eq o ga a gb b :
    calc o ga a gb b =
    let* r := (match o with Plus | Minus => qb (num o) a b | Times | Over => v_lead (num o) b a end) in
    Ok (get_grid_ev gb ga, VArr r).
  Proof.
    destruct o; cbn; try reflexivity. unfold v_add. rewrite qb_flip. rewrite (qb_ext _ Qplus); [reflexivity|].
    intros x y. apply Qplus_comm_eq.
  Qed.

  Lemma v_lead_qb f x y : shape x = shape y \/ shape x = [] \/ shape y = [] -> v_lead f x y = qb f y x.
  Proof.
    intros H. unfold v_lead. destruct H as [H|[H|H]]; rewrite ?H.
    - destruct (list_eq_dec Nat.eq_dec (shape y) (shape y)); [reflexivity|congruence].
    - cbn [length Nat.eqb]. rewrite !orb_true_r. reflexivity.
    - cbn [length Nat.eqb]. rewrite !orb_true_r. reflexivity.
  Qed.

  (** Same shape: element by element. *)
  Theorem C28_same_shape o ga a gb b :
    shape a = shape b ->
    is_array (calc o ga a gb b) (shape a) (fun i => num o (at_ a i) (at_ b i)).
  Proof.
    intros E. rewrite calc_eq. destruct (qb_same (num o) a b E) as (r & Er & W & S & H).
    exists (get_grid_ev gb ga), r. split; [|auto].
    destruct o; rewrite ?v_lead_qb by auto; rewrite Er; reflexivity.
  Qed.

  (** A constant on either side combines with every element. *)
  Theorem C28_constant o ga a gb b :
    shape b = [] ->
    is_array (calc o ga a gb b) (shape a) (fun i => num o (at_ a i) (at_ b [])) /\
    is_array (calc o gb b ga a) (shape a) (fun i => num o (at_ b []) (at_ a i)).
  Proof.
    intros E. split; rewrite calc_eq.
    - destruct (qb_scalar_r (num o) a b E) as (r & Er & W & S & H). eexists _, r. split; [|auto].
      destruct o; rewrite ?v_lead_qb by auto; rewrite Er; reflexivity.
    - destruct (qb_scalar (num o) b a E) as (r & Er & W & S & H). eexists _, r. split; [|auto].
      destruct o; rewrite ?v_lead_qb by auto; rewrite Er; reflexivity.
  Qed.

  Lemma snoc_range cc nc idx : in_range (cc ++ [nc]) idx ->
    exists i c, idx = i ++ [c] /\ in_range cc i /\ (c < nc)%nat.
  Proof.
    intros H. apply in_range_app_inv in H as (i & j & -> & Hi & Hj). inversion Hj as [|c n j' ? Hc Hj']; subst.
    inversion Hj'; subst. eauto.
  Qed.

  Lemma v_lead_conf f a b cc vv nc : shape a = cc ++ [1%nat] -> shape b = cc ++ vv ++ [nc] ->
    exists r, v_lead f b a = Ok r /\ wf r /\ shape r = shape b /\
      forall i v c, in_range cc i -> in_range vv v -> (c < nc)%nat ->
        get r (i ++ v ++ [c]) = Some (f (at_ a (i ++ [0%nat])) (at_ b (i ++ v ++ [c]))).
  Proof.
    intros Ea Eb.
    destruct (list_eq_dec Nat.eq_dec (shape b) (shape a)) as [E|E].
    - rewrite v_lead_qb by auto. destruct (qb_same f a b (eq_sym E)) as (r & Er & W & S & H).
      exists r. split; [auto|split; [auto|split; [congruence|]]]. intros i v c Hi Hv Hc.
      assert (vv = [] /\ nc = 1%nat) as [-> ->].
      { rewrite Ea, Eb in E. apply app_inv_head in E. destruct vv as [|x [|]]; inversion E; auto. }
      inversion Hv; subst. assert (c = 0%nat) by lia. subst. cbn [app]. rewrite H; [reflexivity|].
      rewrite Ea. apply in_range_snoc; auto.
    - destruct (qb_lead f a b cc vv nc Ea Eb) as (r & Er & S & H).
      exists (transpose 0%Q r). split; [|split; [apply wf_transpose|split; [|exact H]]].
      + unfold v_lead. destruct (list_eq_dec Nat.eq_dec (shape a) (shape b)) as [E'|_]; [congruence|]. cbn [orb].
        replace (length (shape a) =? 0)%nat with false.
        2:{ symmetry. apply Nat.eqb_neq. rewrite Ea, app_length. simpl. lia. }
        replace (length (shape b) =? 0)%nat with false.
        2:{ symmetry. apply Nat.eqb_neq. rewrite Eb, !app_length. simpl. lia. }
        cbn [orb]. rewrite Er. reflexivity.
      + rewrite shape_transpose, S, rev_involutive. reflexivity.
  Qed.

  (** A dataset with one component combines with every component of the other,
      on either side. *)
  Theorem C28_one_component o ga a gb b cc nc :
    shape a = cc ++ [1%nat] -> shape b = cc ++ [nc] ->
    is_array (calc o ga a gb b) (shape b) (fun i => num o (at_ a (removelast i ++ [0%nat])) (at_ b i)) /\
    is_array (calc o gb b ga a) (shape b) (fun i => num o (at_ b i) (at_ a (removelast i ++ [0%nat]))).
  Proof.
    intros Ea Eb.
    assert (Q1 : forall f, exists r, qb f a b = Ok r /\ wf r /\ shape r = shape b /\
       forall idx, in_range (shape b) idx -> get r idx = Some (f (at_ a (removelast idx ++ [0%nat])) (at_ b idx))).
    { intros f. destruct (qb_one_comp f a b cc nc Ea Eb) as (r & Er & W & S & H). exists r. split; [auto|].
      split; [auto|split; [auto|]]. intros idx Hi. rewrite Eb in Hi. apply snoc_range in Hi as (i & c & -> & Hi & Hc).
      rewrite removelast_last. auto. }
    assert (Q2 : forall f, exists r, v_lead f b a = Ok r /\ wf r /\ shape r = shape b /\
       forall idx, in_range (shape b) idx -> get r idx = Some (f (at_ a (removelast idx ++ [0%nat])) (at_ b idx))).
    { intros f. destruct (v_lead_conf f a b cc [] nc Ea Eb) as (r & Er & W & S & H). exists r. split; [auto|].
      split; [auto|split; [auto|]]. intros idx Hi. rewrite Eb in Hi. apply snoc_range in Hi as (i & c & -> & Hi & Hc).
      rewrite removelast_last. apply (H i [] c); auto. constructor. }
    split; rewrite calc_eq.
    - destruct (Q1 (num o)) as (r1 & E1 & H1). destruct (Q2 (num o)) as (r2 & E2 & H2).
      destruct o; [exists (get_grid_ev gb ga), r1; rewrite E1|exists (get_grid_ev gb ga), r1; rewrite E1
                  |exists (get_grid_ev gb ga), r2; rewrite E2|exists (get_grid_ev gb ga), r2; rewrite E2]; (split; [reflexivity|assumption]).
    - rewrite (qb_flip (num o) b a), (v_lead_flip (num o) a b).
      destruct (Q1 (fun x y => num o y x)) as (r1 & E1 & H1). destruct (Q2 (fun x y => num o y x)) as (r2 & E2 & H2).
      destruct o; [exists (get_grid_ev ga gb), r1; rewrite E1|exists (get_grid_ev ga gb), r1; rewrite E1
                  |exists (get_grid_ev ga gb), r2; rewrite E2|exists (get_grid_ev ga gb), r2; rewrite E2]; (split; [reflexivity|assumption]).
  Qed.

  (** Multiplying or dividing a phase-space dataset by a one-component
      configuration-space dataset (or the other way round) pairs up the leading
      (configuration) indices. *)
  Theorem C28_conf_phase o ga a gb b cc vv nc :
    o = Times \/ o = Over -> shape a = cc ++ [1%nat] -> shape b = cc ++ vv ++ [nc] ->
    is_array (calc o ga a gb b) (shape b) (fun i => num o (at_ a (firstn (length cc) i ++ [0%nat])) (at_ b i)) /\
    is_array (calc o gb b ga a) (shape b) (fun i => num o (at_ b i) (at_ a (firstn (length cc) i ++ [0%nat]))).
  Proof.
    intros Ho Ea Eb.
    assert (Q2 : forall f, exists r, v_lead f b a = Ok r /\ wf r /\ shape r = shape b /\
       forall idx, in_range (shape b) idx -> get r idx = Some (f (at_ a (firstn (length cc) idx ++ [0%nat])) (at_ b idx))).
    { intros f. destruct (v_lead_conf f a b cc vv nc Ea Eb) as (r & Er & W & S & H). exists r. split; [auto|].
      split; [auto|split; [auto|]]. intros idx Hi. rewrite Eb in Hi. apply in_range_app_inv in Hi as (i & j & -> & Hi & Hj).
      apply snoc_range in Hj as (v & c & -> & Hv & Hc).
      rewrite firstn_app_exact by (symmetry; now apply in_range_length). auto. }
    split; rewrite calc_eq.
    - destruct (Q2 (num o)) as (r2 & E2 & H2).
      destruct Ho as [-> | ->]; exists (get_grid_ev gb ga), r2; rewrite E2; (split; [reflexivity|assumption]).
    - rewrite (v_lead_flip (num o) a b). destruct (Q2 (fun x y => num o y x)) as (r2 & E2 & H2).
      destruct Ho as [-> | ->]; exists (get_grid_ev ga gb), r2; rewrite E2; (split; [reflexivity|assumption]).
  Qed.

  (** Sums and products do not depend on the order, whatever the shapes
      (including combinations that are rejected). *)
  Definition values_of (x : res (grid * val)) : res val := let* p := x in Ok (snd p).
  Theorem C28_commutes o ga a gb b :
    o = Plus \/ o = Times -> values_of (calc o ga a gb b) = values_of (calc o gb b ga a).
  Proof.
    intros Ho. rewrite !calc_eq. destruct Ho as [-> | ->]; cbn [num].
    - rewrite (qb_flip Qplus a b), (qb_ext (fun x y => y + x)%Q Qplus) by (intros; apply Qplus_comm_eq).
      destruct (qb Qplus b a); reflexivity.
    - rewrite (v_lead_flip Qmult b a), (v_lead_ext (fun x y => y * x)%Q Qmult) by (intros; apply Qmult_comm_eq).
      destruct (v_lead Qmult a b); reflexivity.
  Qed.

  (** The result lives on the grid with more dimensions; a constant has no
      grid. *)
  Theorem C28_grid o ga a gb b g v :
    calc o ga a gb b = Ok (g, v) ->
    match ga, gb with
    | None, _ => g = gb
    | _, None => g = ga
    | Some x, Some y => (length y <= length x -> g = ga)%nat /\ (length x < length y -> g = gb)%nat
    end.
  Proof.
    rewrite calc_eq. match goal with |- bind ?m _ = _ -> _ => destruct m; [|discriminate] end. cbn [bind].
    intros [= <- _]. destruct ga as [x|], gb as [y|]; cbn [get_grid_ev]; auto.
    destruct (Nat.ltb_spec (length x) (length y)); split; intros; (lia || reflexivity).
  Qed.
End C28.

(** Addition aligns trailing axes instead: a configuration-space and a
    phase-space dataset are rejected, or combined along the wrong axis when the
    sizes happen to agree. *)
Theorem C28_add_conf_phase_refuted :
  exists (a b : nda Q) r, shape a = [2; 1]%nat /\ shape b = [2; 2; 1]%nat /\ wf a /\ wf b /\
    values_of (calc (fun _ x => x) (fun x _ => x) Plus None a None b) = Ok (VArr r) /\
    (at_ r [0; 1; 0]%nat == at_ a [1; 0]%nat + at_ b [0; 1; 0]%nat)%Q /\
    ~ (at_ r [0; 1; 0]%nat == at_ a [0; 0]%nat + at_ b [0; 1; 0]%nat)%Q.
Proof.
  exists (mk_nda [2; 1]%nat [1; 2]%Q), (mk_nda [2; 2; 1]%nat [10; 20; 30; 40]%Q). eexists.
  split; [reflexivity|]. split; [reflexivity|]. split; [reflexivity|]. split; [reflexivity|].
  split; [vm_compute; reflexivity|]. split; [reflexivity|]. vm_compute. discriminate.
Qed.

(** Likewise the product of a configuration-space dataset with several
    components and a phase-space dataset pairs components with velocity
    cells. *)
Theorem C28_mult_components_refuted :
  exists (a b : nda Q) r, shape a = [1; 2]%nat /\ shape b = [1; 2; 2]%nat /\ wf a /\ wf b /\
    values_of (calc (fun _ x => x) (fun x _ => x) Times None a None b) = Ok (VArr r) /\
    ~ (at_ r [0; 1; 0]%nat == at_ a [0; 0]%nat * at_ b [0; 1; 0]%nat)%Q.
Proof.
  exists (mk_nda [1; 2]%nat [1; 2]%Q), (mk_nda [1; 2; 2]%nat [10; 20; 30; 40]%Q). eexists.
  split; [reflexivity|]. split; [reflexivity|]. split; [reflexivity|]. split; [reflexivity|].
  split; [vm_compute; reflexivity|]. vm_compute. discriminate.
Qed.

Example C28_ex :
  let c := calc (fun _ x => x) (fun x _ => x) in
  let a := mk_nda [2; 1]%nat [2; 4]%Q in
  let b := mk_nda [2; 3]%nat [1; 2; 3; 4; 5; 6]%Q in
  let p := mk_nda [2; 2; 1]%nat [10; 20; 30; 40]%Q in
  let k := mk_nda [] [10]%Q in
  values_of (c Minus None b None a) = Ok (VArr (mk_nda [2; 3]%nat [1 - 2; 2 - 2; 3 - 2; 4 - 4; 5 - 4; 6 - 4]%Q)) /\
  values_of (c Times None a None p) = Ok (VArr (mk_nda [2; 2; 1]%nat [20; 40; 120; 160]%Q)) /\
  values_of (c Over None b None k) = Ok (VArr (mk_nda [2; 3]%nat [1 / 10; 2 / 10; 3 / 10; 4 / 10; 5 / 10; 6 / 10]%Q)) /\
  values_of (c Plus None a None p) = Ok (VArr (mk_nda [2; 2; 1]%nat [2 + 10; 4 + 20; 2 + 30; 4 + 40]%Q)).
Proof. split; [reflexivity|]. split; [reflexivity|]. split; [reflexivity|]. reflexivity. Qed.

Print Assumptions C28_same_shape.
Print Assumptions C28_constant.
Print Assumptions C28_one_component.
Print Assumptions C28_conf_phase.
Print Assumptions C28_commutes.
Print Assumptions C28_grid.
