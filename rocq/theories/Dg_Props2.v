(** * C32-C34: refined grids, component extraction, basis sizes; interpolated values. *)
From Coq Require Import String Ascii List Arith ZArith QArith Qfield Bool Lia.
From Verif Require Import Prelude PreludeFacts NdArray Gkyl_Model Gkyl_Proofs3
  Dg_Poly Dg_TabI Dg_TabD Dg_Model Dg_Spec Dg_Proofs Dg_Proofs2 Dg_Props.
Import ListNotations.
Open Scope string_scope.
Open Scope list_scope.
Open Scope nat_scope.

(** ** C33: component extraction *)

(** Modal data: field [c] is the block [c*N .. c*N+N-1]. *)
Theorem C33_modal {F} (q : nda F) cells nc N c :
  wf q -> shape q = cells ++ [nc] -> c * N + N <= nc ->
  wf (raw_modal q N c) /\ shape (raw_modal q N c) = cells ++ [N] /\
  forall i m, in_range cells i -> m < N -> get (raw_modal q N c) (i ++ [m]) = get q (i ++ [c * N + m]).
Proof.
  intros W S H. unfold raw_modal. rewrite S, removelast_last, last_last, Nat.min_l by lia.
  replace (c * N + N - c * N) with N by lia.
  destruct (take_last_axis q cells nc (seq (c * N) N) W S) as (A & B & C).
  { intros k Hk. apply in_seq in Hk. lia. }
  split; [exact A|]. split; [rewrite B, seq_length; reflexivity|].
  intros i m Hi Hm. apply C; auto. rewrite nth_error_seq. destruct (Nat.ltb_spec m N); [reflexivity|lia].
Qed.

Lemma mapM_ok_all {A B} (f : A -> res B) (g : A -> B) l :
  (forall a, In a l -> f a = Ok (g a)) -> mapM f l = Ok (List.map g l).
Proof. intros H. apply mapM_all_ok. exact H. Qed.

(** Nodal data with [E] fields: field [c] has the components [c, c+E, c+2E, ...]. *)
Theorem C33_nodal {F} (q : nda F) cells N E c :
  wf q -> shape q = cells ++ [E * N] -> c < E -> 0 < N ->
  exists r, raw_nodal q N c = Ok r /\ wf r /\ shape r = cells ++ [N] /\
  forall i m, in_range cells i -> m < N -> get r (i ++ [m]) = get q (i ++ [c + m * E]).
Proof.
  intros W S Hc HN. unfold raw_nodal. rewrite S, removelast_last, last_last.
  assert (D : forall m, m * (E * N) / N = m * E).
  { intros m. rewrite Nat.mul_assoc. apply Nat.div_mul. lia. }
  rewrite (mapM_ok_all _ (fun m => c + m * E)).
  2:{ intros m Hm. apply in_seq in Hm. rewrite D. destruct (Nat.ltb_spec (c + m * E) (E * N)); [reflexivity|nia]. }
  cbn [bind]. eexists; split; [reflexivity|].
  destruct (take_last_axis q cells (E * N) (List.map (fun m => c + m * E) (seq 0 N)) W S) as (A & B & C).
  { intros k Hk. apply in_map_iff in Hk. destruct Hk as (m & <- & Hm). apply in_seq in Hm. nia. }
  split; [exact A|]. split; [rewrite B, map_length, seq_length; reflexivity|].
  intros i m Hi Hm. apply C; auto. rewrite nth_error_map, nth_error_seq.
  destruct (Nat.ltb_spec m N); [reflexivity|lia].
Qed.

(** The fields partition the components: each component is coefficient [m] of
    field [c] for exactly one pair, in both layouts. *)
Theorem C33_partition N E t :
  t < E * N ->
  (exists c m, c < E /\ m < N /\ t = c * N + m /\
     forall c' m', m' < N -> t = c' * N + m' -> c' = c /\ m' = m) /\
  (exists c m, c < E /\ m < N /\ t = c + m * E /\
     forall c' m', c' < E -> t = c' + m' * E -> c' = c /\ m' = m).
Proof.
  intros H. assert (N <> 0 /\ E <> 0) as [HN HE] by nia. split.
  - exists (t / N), (t mod N). split; [apply Nat.div_lt_upper_bound; lia|].
    split; [apply Nat.mod_upper_bound; auto|]. split; [rewrite (Nat.div_mod t N) at 1; lia|].
    intros c' m' Hm ->. rewrite Nat.add_comm, Nat.div_add, Nat.mod_add, Nat.div_small, Nat.mod_small by lia. lia.
  - exists (t mod E), (t / E). split; [apply Nat.mod_upper_bound; auto|].
    split; [apply Nat.div_lt_upper_bound; lia|]. split; [rewrite (Nat.div_mod t E) at 1; lia|].
    intros c' m' Hc ->. rewrite Nat.div_add, Nat.mod_add, Nat.div_small, Nat.mod_small by lia. lia.
Qed.

(** A field beyond the data is an error for nodal data and an empty or short
    block for modal data. *)
Theorem C33_out_of_range {F} (q : nda F) cells N E c :
  wf q -> shape q = cells ++ [E * N] -> E <= c -> 0 < N ->
  raw_nodal q N c = Err IndexError /\ shape (raw_modal q N c) = cells ++ [0].
Proof.
  intros W S Hc HN. split.
  - unfold raw_nodal. rewrite S, removelast_last, last_last.
    assert (D : forall m, m * (E * N) / N = m * E).
    { intros m. rewrite Nat.mul_assoc. apply Nat.div_mul. lia. }
    assert (G : forall s n, (exists m, s <= m < s + n /\ E * N <= c + m * E) ->
        mapM (fun n => let k := c + n * (E * N) / N in if k <? E * N then Ok k else Err IndexError) (seq s n)
        = Err IndexError).
    { intros s n. revert s. induction n as [|n IH]; intros s (m & Hm & Hge); [lia|].
      cbn [seq mapM]. cbv zeta. rewrite D. destruct (Nat.ltb_spec (c + s * E) (E * N)); [|reflexivity].
      cbn [bind]. rewrite IH; [reflexivity|]. exists m. split; auto.
      assert (m <> s) by (intros ->; lia). lia. }
    rewrite G; [reflexivity|]. exists (N - 1). nia.
  - unfold raw_modal. rewrite S, removelast_last, last_last. cbn [take shape].
    rewrite map_app, map_seq0_lengths. cbn [List.map]. rewrite seq_length.
    do 3 f_equal. nia.
Qed.

Example C33_example :
  let q := mk_nda [1; 6] [10; 11; 12; 13; 14; 15] in
  flat (raw_modal q 3 1) = [13; 14; 15] /\ raw_nodal q 3 1 = Ok (mk_nda [1; 3] [11; 13; 15]).
Proof. split; reflexivity. Qed.
Print Assumptions C33_modal.
Print Assumptions C33_nodal.
Print Assumptions C33_partition.
Print Assumptions C33_out_of_range.

(** ** C34: basis sizes *)

Definition dims_orders (ds ps : list nat) : list (nat * nat) := list_prod ds ps.

Lemma in_dims_orders ds ps d p : In d ds -> In p ps -> In (d, p) (dims_orders ds ps).
Proof. intros; apply in_prod; auto. Qed.

Ltac finite_check ds ps :=
  match goal with
  | |- forall d p, _ -> _ -> ?f d p = Ok (@?g d p) =>
    let H := fresh in
    assert (H : forallb (fun dp => match f (fst dp) (snd dp) with
                                   | Ok m => Nat.eqb m (g (fst dp) (snd dp)) | Err _ => false end)
                        (dims_orders ds ps) = true) by (vm_compute; reflexivity);
    intros d p Hd Hp; rewrite forallb_forall in H;
    specialize (H (d, p) ltac:(apply in_dims_orders; simpl; lia));
    cbn [fst snd] in H; destruct (f d p) as [m|]; [|discriminate];
    apply Nat.eqb_eq in H; congruence
  end.

Theorem C34_serendipity :
  forall d p, 1 <= d <= 6 -> p <= 4 ->
    get_num_nodes d p "serendipity" = Ok (count_exponents d p (in_serendipity p)).
Proof.
  change (forall d p, 1 <= d <= 6 -> p <= 4 ->
    (fun d p => get_num_nodes d p "serendipity") d p = Ok ((fun d p => count_exponents d p (in_serendipity p)) d p)).
  finite_check [1;2;3;4;5;6] [0;1;2;3;4].
Qed.

Theorem C34_maximal :
  forall d p, 1 <= d <= 6 -> 1 <= p <= 4 ->
    get_num_nodes d p "maximal-order" = Ok (count_exponents d p (in_maximal p)).
Proof.
  change (forall d p, 1 <= d <= 6 -> 1 <= p <= 4 ->
    (fun d p => get_num_nodes d p "maximal-order") d p = Ok ((fun d p => count_exponents d p (in_maximal p)) d p)).
  finite_check [1;2;3;4;5;6] [1;2;3;4].
Qed.

Theorem C34_tensor :
  forall d p, 1 <= d <= 6 -> 1 <= p <= 4 -> (d, p) <> (5, 2) ->
    get_num_nodes d p "tensor" = Ok (count_exponents d p (in_tensor p)) /\
    count_exponents d p (in_tensor p) = (p + 1) ^ d.
Proof.
  assert (H : forallb (fun dp => match dp with (d, p) =>
      (Nat.eqb d 5 && Nat.eqb p 2) ||
      match get_num_nodes d p "tensor" with
      | Ok m => Nat.eqb m (count_exponents d p (in_tensor p)) && Nat.eqb m ((p + 1) ^ d)
      | Err _ => false end end) (dims_orders [1;2;3;4;5;6] [1;2;3;4]) = true) by (vm_compute; reflexivity).
  intros d p Hd Hp Hn. rewrite forallb_forall in H.
  specialize (H (d, p) ltac:(apply in_dims_orders; simpl; lia)). cbn [fst snd] in H.
  apply orb_prop in H. destruct H as [H|H].
  - apply andb_prop in H. destruct H as [H1 H2]. apply Nat.eqb_eq in H1, H2. congruence.
  - destruct (get_num_nodes d p "tensor") as [m|]; [|discriminate].
    apply andb_prop in H. destruct H as [H1 H2]. apply Nat.eqb_eq in H1, H2. split; congruence.
Qed.

(** Five dimensions, order two: 343 is tabulated, the space has 243 functions. *)
Theorem C34_tensor_refuted :
  exists d p, 1 <= d <= 6 /\ 1 <= p <= 4 /\ get_num_nodes d p "tensor" = Ok 343 /\
    count_exponents d p (in_tensor p) = 243.
Proof. exists 5, 2. repeat split; try lia; vm_compute; reflexivity. Qed.

(** Order zero is in none of the maximal-order and tensor tables: the column
    index wraps around to order four instead of failing. *)
Theorem C34_order_zero_refuted :
  forall d, 1 <= d <= 6 ->
    get_num_nodes d 0 "tensor" = get_num_nodes d 4 "tensor" /\
    get_num_nodes d 0 "maximal-order" = get_num_nodes d 4 "maximal-order" /\
    get_num_nodes d 0 "tensor" <> Ok 1 /\ get_num_nodes d 0 "maximal-order" <> Ok 1.
Proof.
  intros d Hd. assert (d = 1 \/ d = 2 \/ d = 3 \/ d = 4 \/ d = 5 \/ d = 6) as
    [->|[->|[->|[->|[->| ->]]]]] by lia; repeat split; try reflexivity; vm_compute; discriminate.
Qed.

Theorem C34_hybrid :
  forall d, 2 <= d <= 5 ->
    (forall e, e < d -> get_num_nodes d 1 "gkhybrid" = Ok (count_exponents d 2 (in_hybrid e))) /\
    (forall e, e < d -> get_num_nodes d 1 "hybrid" = Ok (count_exponents d 2 (in_hybrid e))).
Proof.
  intros d Hd. assert (d = 2 \/ d = 3 \/ d = 4 \/ d = 5) as [->|[->|[->| ->]]] by lia;
  split; intros e He;
  (assert (e = 0 \/ e = 1 \/ e = 2 \/ e = 3 \/ e = 4) as [->|[->|[->|[->| ->]]]] by lia);
  try lia; vm_compute; reflexivity.
Qed.

(** Unknown families, dimensions above six and orders above four raise; the
    name is not case sensitive. *)
Theorem C34_errors :
  forall d p b,
    (b <> "serendipity" -> b <> "maximal-order" -> b <> "tensor" -> b <> "gkhybrid" ->
     b <> "hybrid" -> lower b = b -> get_num_nodes d p b = Err NameError) /\
    (In b ["serendipity"; "maximal-order"; "tensor"] -> 6 < d -> get_num_nodes d p b = Err IndexError) /\
    (In b ["serendipity"; "maximal-order"; "tensor"] -> 1 <= d -> 4 < p -> get_num_nodes d p b = Err IndexError) /\
    (In b ["gkhybrid"; "hybrid"] -> 5 < d -> get_num_nodes d p b = Err IndexError) /\
    get_num_nodes d p (lower b) = get_num_nodes d p b.
Proof.
  assert (LL : forall s, lower (lower s) = lower s).
  { induction s as [|c s IH]; [reflexivity|]. cbn [lower]. rewrite IH. f_equal.
    unfold lower_ascii.
    destruct ((65 <=? nat_of_ascii c) && (nat_of_ascii c <=? 90)) eqn:E; [|rewrite E; reflexivity].
    apply andb_prop in E. destruct E as [E1 E2]. apply Nat.leb_le in E1, E2.
    rewrite nat_ascii_embedding by lia.
    destruct (Nat.leb_spec (nat_of_ascii c + 32) 90); [lia|]. rewrite andb_false_r. reflexivity. }
  assert (NI : forall len i, (Z.of_nat len <= i)%Z -> norm_index len i = Err IndexError).
  { intros len i H. unfold norm_index. destruct (Z.ltb_spec i 0); [lia|].
    destruct (Z.leb_spec 0 i), (Z.ltb_spec i (Z.of_nat len)); try lia; reflexivity. }
  intros d p b. split; [|split; [|split; [|split]]].
  - intros H1 H2 H3 H4 H5 L. unfold get_num_nodes. rewrite L.
    apply String.eqb_neq in H1, H2, H3, H4, H5. rewrite H1, H2, H3, H4, H5. reflexivity.
  - intros Hb Hd.
    assert (E : forall (t : list (list nat)) o, length t = 6 ->
        (let* r := np_at t (Z.of_nat d - 1) in np_at r o) = Err IndexError).
    { intros t o Lt. unfold np_at at 1. rewrite Lt, NI by lia. reflexivity. }
    unfold get_num_nodes. destruct Hb as [<-|[<-|[<-|[]]]]; apply E; reflexivity.
  - intros Hb Hd Hp.
    assert (E : forall (t : list (list nat)) o, length t = 6 -> (forall r, In r t -> (Z.of_nat (length r) <= o)%Z) ->
        (let* r := np_at t (Z.of_nat d - 1) in np_at r o) = Err IndexError).
    { intros t o Lt Hr. unfold np_at at 1. rewrite Lt.
      destruct (norm_index 6 (Z.of_nat d - 1)) as [k|e] eqn:En; cbn [bind].
      - destruct (nth_error t k) as [r|] eqn:Er; cbn [bind]; [|reflexivity].
        unfold np_at. rewrite NI; [reflexivity|]. apply Hr. eapply nth_error_In; eauto.
      - unfold norm_index in En. destruct (Z.ltb_spec (Z.of_nat d - 1) 0); [lia|].
        destruct ((0 <=? Z.of_nat d - 1) && (Z.of_nat d - 1 <? Z.of_nat 6))%Z; congruence. }
    unfold get_num_nodes.
    destruct Hb as [<-|[<-|[<-|[]]]]; cbn [lower]; apply E; try reflexivity;
      intros r Hr; repeat (destruct Hr as [<-|Hr]; [cbn; lia|]); destruct Hr.
  - intros Hb Hd.
    assert (E : forall (t : list nat), length t = 5 -> np_at t (Z.of_nat d - 1) = Err IndexError).
    { intros t Lt. unfold np_at. rewrite Lt, NI by lia. reflexivity. }
    unfold get_num_nodes. destruct Hb as [<-|[<-|[]]]; apply E; reflexivity.
  - unfold get_num_nodes. rewrite LL. reflexivity.
Qed.

Example C34_example : get_num_nodes 3 2 "Serendipity" = Ok 20 /\ count_exponents 3 2 (in_serendipity 2) = 20.
Proof. split; vm_compute; reflexivity. Qed.

(** The number of tabulated coefficients is the number of tabulated functions,
    for every basis that can be interpolated (one-dimensional data is
    interpolated with the same functions whatever the family, so the family
    matters only above one dimension). *)
Definition family (b : string) : Prop :=
  In b ["serendipity"; "maximal-order"; "tensor"; "gkhybrid"; "hybrid"].
Theorem C34_functions :
  forall d p b fs, 2 <= d -> interp_functions d p true b = Ok fs -> get_num_nodes d p b = Ok (length fs).
Proof.
  intros d p b fs Hd.
  unfold interp_functions. destruct (Nat.eqb_spec d 1) as [->|_]; [lia|].
  cbn [andb negb].
  repeat match goal with
  | |- (if Nat.eqb d ?k then _ else _) = _ -> _ => destruct (Nat.eqb_spec d k) as [->|_]
  | |- (if String.eqb b ?k then _ else _) = _ -> _ => destruct (String.eqb_spec b k) as [->|_]
  | |- (if Nat.eqb p ?k then _ else _) = _ -> _ => destruct (Nat.eqb_spec p k) as [->|_]
  | |- Err _ = Ok _ -> _ => discriminate
  | |- (if false then _ else _) = _ -> _ => cbv beta iota
  end; intros [= <-]; vm_compute; reflexivity.
Qed.
Theorem C34_functions_1d :
  forall p b fs, interp_functions 1 p true b = Ok fs ->
    get_num_nodes 1 p "serendipity" = Ok (length fs) /\
    (1 <= p -> (b = "maximal-order" \/ b = "tensor") -> get_num_nodes 1 p b = Ok (length fs)).
Proof.
  intros p b fs. unfold interp_functions. cbn [Nat.eqb].
  repeat match goal with
  | |- (if Nat.eqb p ?k then _ else _) = _ -> _ => destruct (Nat.eqb_spec p k) as [->|_]
  | |- Err _ = Ok _ -> _ => discriminate
  end; intros [= <-]; (split; [vm_compute; reflexivity|]); intros Hp [-> | ->]; try lia; vm_compute; reflexivity.
Qed.
(** In one dimension the gyrokinetic hybrid entry (1) disagrees with the two
    functions used for interpolation. *)
Theorem C34_gkhybrid_1d_refuted :
  exists fs, interp_functions 1 1 true "gkhybrid" = Ok fs /\ length fs = 2 /\
    get_num_nodes 1 1 "gkhybrid" = Ok 1.
Proof. eexists; split; [reflexivity|]. split; reflexivity. Qed.

Print Assumptions C34_serendipity.
Print Assumptions C34_maximal.
Print Assumptions C34_tensor.
Print Assumptions C34_tensor_refuted.
Print Assumptions C34_order_zero_refuted.
Print Assumptions C34_hybrid.
Print Assumptions C34_errors.
Print Assumptions C34_functions.
Print Assumptions C34_functions_1d.
Print Assumptions C34_gkhybrid_1d_refuted.
