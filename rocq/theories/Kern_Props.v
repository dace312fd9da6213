(** * C71: the expansion kernels of modalDG against the interpolation tables. *)
From Coq Require Import String List Arith ZArith QArith Qreals Reals Lia Lra Bool.
From Verif Require Import Prelude PreludeFacts Dg_Poly Dg_TabI Dg_Sem Dg_Int Dg_GramTab Dg_Gram Kern_Exp Kern_Tab Kern_Model.
Import ListNotations.
Open Scope string_scope.
Open Scope list_scope.
Open Scope R_scope.

(** ** Kernels that are linear in the coefficients *)

(** An expression without coefficients as a polynomial expression. *)
Fixpoint pure (k : kexp) : option pexp :=
  match k with
  | Kn m e => Some (Nu m e)
  | Xv i => Some (Va i)
  | Ng a => option_map Dg_Poly.Ng (pure a)
  | Ad a b => match pure a, pure b with Some p, Some q => Some (Dg_Poly.Ad p q) | _, _ => None end
  | Su a b => match pure a, pure b with Some p, Some q => Some (Dg_Poly.Su p q) | _, _ => None end
  | Mu a b => match pure a, pure b with Some p, Some q => Some (Dg_Poly.Mu p q) | _, _ => None end
  | Po a n => option_map (fun p => Dg_Poly.Po p n) (pure a)
  | Co _ | Xo _ _ => None
  end.

(** A kernel as a list of coefficients with the functions they multiply. *)
Fixpoint lin (k : kexp) : option (list (nat * pexp)) :=
  match k with
  | Co n => Some [(n, Nu 1 0)]
  | Ng a => option_map (List.map (fun t => (fst t, Dg_Poly.Ng (snd t)))) (lin a)
  | Ad a b => match lin a, lin b with Some p, Some q => Some (p ++ q) | _, _ => None end
  | Su a b => match lin a, lin b with
              | Some p, Some q => Some (p ++ List.map (fun t => (fst t, Dg_Poly.Ng (snd t))) q) | _, _ => None end
  | Mu a b => match pure a with
              | Some p => option_map (List.map (fun t => (fst t, Dg_Poly.Mu p (snd t)))) (lin b)
              | None => match pure b with
                        | Some p => option_map (List.map (fun t => (fst t, Dg_Poly.Mu (snd t) p))) (lin a)
                        | None => None
                        end
              end
  | _ => None
  end.

Definition lin_value (l : list (nat * pexp)) (x q : list R) : R :=
  fold_right (fun t s => nth (fst t) q 0 * evalR (snd t) x + s) 0 l.

Lemma pure_ok k x q : forall p, pure k = Some p -> keval k x q = Ok (evalR p x).
Proof.
  induction k; cbn [pure keval]; intros p H; try discriminate; try (injection H as <-; reflexivity).
  - destruct (pure k); [|discriminate]. injection H as <-. rewrite (IHk _ eq_refl). reflexivity.
  - destruct (pure k1); [|discriminate]. destruct (pure k2); [|discriminate]. injection H as <-.
    rewrite (IHk1 _ eq_refl). cbn [bind]. rewrite (IHk2 _ eq_refl). reflexivity.
  - destruct (pure k1); [|discriminate]. destruct (pure k2); [|discriminate]. injection H as <-.
    rewrite (IHk1 _ eq_refl). cbn [bind]. rewrite (IHk2 _ eq_refl). reflexivity.
  - destruct (pure k1); [|discriminate]. destruct (pure k2); [|discriminate]. injection H as <-.
    rewrite (IHk1 _ eq_refl). cbn [bind]. rewrite (IHk2 _ eq_refl). reflexivity.
  - destruct (pure k); [|discriminate]. injection H as <-. rewrite (IHk _ eq_refl). reflexivity.
Qed.

Lemma lin_value_app a b x q : lin_value (a ++ b) x q = lin_value a x q + lin_value b x q.
Proof. unfold lin_value. induction a as [|t a IH]; cbn [app fold_right]; [ring|]. rewrite IH. ring. Qed.
Lemma lin_value_map (h : pexp -> pexp) (c : R) l x q : (forall p, evalR (h p) x = c * evalR p x) ->
  lin_value (List.map (fun t => (fst t, h (snd t))) l) x q = c * lin_value l x q.
Proof. intros H. unfold lin_value. induction l as [|t l IH]; cbn [List.map fold_right fst snd]; [ring|]. rewrite IH, H. ring. Qed.

Definition in_q (q : list R) (l : list (nat * pexp)) : Prop := forall t, In t l -> (fst t < length q)%nat.
Lemma in_q_app q a b : in_q q (a ++ b) -> in_q q a /\ in_q q b.
Proof. unfold in_q. split; intros t Ht; apply H; apply in_or_app; auto. Qed.
Lemma in_q_map q (h : pexp -> pexp) l : in_q q (List.map (fun t => (fst t, h (snd t))) l) -> in_q q l.
Proof. unfold in_q. intros H t Ht. apply (H (fst t, h (snd t))). apply (in_map (fun t => (fst t, h (snd t)))). exact Ht. Qed.

Lemma lin_ok k x q : forall l, lin k = Some l -> in_q q l -> keval k x q = Ok (lin_value l x q).
Proof.
  induction k; cbn [lin keval]; intros l H Hq; try discriminate.
  - injection H as <-. assert (L : (n < length q)%nat) by (apply (Hq (n, Nu 1 0)); left; reflexivity).
    destruct (nth_error q n) eqn:E; [|apply nth_error_None in E; lia]. unfold lin_value. cbn.
    rewrite (nth_error_nth q n 0 E). f_equal. unfold lit. cbn. lra.
  - destruct (lin k) as [a|]; [|discriminate]. injection H as <-. rewrite (IHk _ eq_refl (in_q_map _ _ _ Hq)). cbn [bind].
    f_equal. rewrite (lin_value_map Dg_Poly.Ng (-1)); [ring|]. intros. cbn. ring.
  - destruct (lin k1) as [a|]; [|discriminate]. destruct (lin k2) as [b|]; [|discriminate]. injection H as <-.
    apply in_q_app in Hq as [Ha Hb]. rewrite (IHk1 _ eq_refl Ha). cbn [bind]. rewrite (IHk2 _ eq_refl Hb). cbn [bind].
    now rewrite lin_value_app.
  - destruct (lin k1) as [a|]; [|discriminate]. destruct (lin k2) as [b|]; [|discriminate]. injection H as <-.
    apply in_q_app in Hq as [Ha Hb]. rewrite (IHk1 _ eq_refl Ha). cbn [bind]. rewrite (IHk2 _ eq_refl (in_q_map _ _ _ Hb)). cbn [bind].
    rewrite lin_value_app, (lin_value_map Dg_Poly.Ng (-1)) by (intros; cbn; ring). f_equal. ring.
  - destruct (pure k1) as [p|] eqn:E1.
    + rewrite (pure_ok k1 x q p E1). cbn [bind]. destruct (lin k2) as [b|]; [|discriminate]. injection H as <-.
      rewrite (IHk2 _ eq_refl (in_q_map _ _ _ Hq)). cbn [bind].
      rewrite (lin_value_map (Dg_Poly.Mu p) (evalR p x)) by (intros; reflexivity). reflexivity.
    + destruct (pure k2) as [p|] eqn:E2; [|discriminate]. destruct (lin k1) as [a|]; [|discriminate]. injection H as <-.
      rewrite (IHk1 _ eq_refl (in_q_map _ (fun p0 => Dg_Poly.Mu p0 p) _ Hq)). cbn [bind]. rewrite (pure_ok k2 x q p E2). cbn [bind].
      rewrite (lin_value_map (fun p0 => Dg_Poly.Mu p0 p) (evalR p x)) by (intros; cbn; ring). f_equal. ring.
Qed.

(** ** Bounds on the reference cell *)

Definition in_cell (x : list R) : Prop := List.Forall (fun t => -1 <= t <= 1) x.

Lemma pow_cell t n : -1 <= t <= 1 -> Rabs (t ^ n) <= 1.
Proof.
  intros H. rewrite <- RPow_abs. rewrite <- (pow1 n). apply pow_incr. split; [apply Rabs_pos|]. apply Rabs_le. lra.
Qed.
Lemma mono_cell x a : in_cell x -> Rabs (mono x a) <= 1.
Proof.
  intros H. revert a. induction H as [|t x Ht H IH]; intros [|n a]; unfold mono; cbn [map2 fold_right];
    try (rewrite Rabs_R1; lra). fold (mono x a). rewrite Rabs_mult. specialize (IH a). pose proof (pow_cell t n Ht).
  pose proof (Rabs_pos (t ^ n)). pose proof (Rabs_pos (mono x a)). nra.
Qed.

Fixpoint add_term (t : zterm) (acc : list zterm) : list zterm :=
  match acc with
  | [] => [t]
  | u :: acc' => if list_eq_dec Nat.eq_dec (snd t) (snd u) then ((fst t + fst u)%Z, snd u) :: acc' else u :: add_term t acc'
  end.
Definition collect (p : list zterm) : list zterm := fold_right add_term [] p.
Definition norm1 (p : list zterm) : Z := fold_right (fun t s => (Z.abs (fst t) + s)%Z) 0%Z p.

Lemma add_term_ok s t acc x : evalP (zToR s (add_term t acc)) x = IZR (fst t) / IZR s * mono x (snd t) + evalP (zToR s acc) x.
Proof.
  induction acc as [|u acc IH]; cbn [add_term]; [reflexivity|]. destruct (list_eq_dec _ _ _) as [E|N].
  - unfold evalP, zToR. cbn [List.map fold_right fst snd]. rewrite plus_IZR, E. unfold Rdiv. ring.
  - unfold evalP, zToR in *. cbn [List.map fold_right fst snd]. rewrite IH. ring.
Qed.
Lemma collect_ok s p x : evalP (zToR s (collect p)) x = evalP (zToR s p) x.
Proof. induction p as [|t p IH]; [reflexivity|]. cbn [collect fold_right]. fold (collect p). rewrite add_term_ok, IH. reflexivity. Qed.

Lemma norm1_ok s p x : (0 < s)%Z -> in_cell x -> Rabs (evalP (zToR s p) x) <= IZR (norm1 p) / IZR s.
Proof.
  intros Hs Hx. assert (P : 0 < IZR s) by (apply (IZR_lt 0); exact Hs). induction p as [|t p IH]; cbn [norm1 fold_right].
  - unfold evalP. cbn. rewrite Rabs_R0. unfold Rdiv. lra.
  - fold (norm1 p). unfold evalP, zToR in *. cbn [List.map fold_right fst snd]. eapply Rle_trans; [apply Rabs_triang|].
    rewrite plus_IZR, Rdiv_plus_distr. apply Rplus_le_compat; [|exact IH].
    rewrite Rabs_mult. unfold Rdiv. rewrite Rabs_mult, <- abs_IZR, (Rabs_right (/ IZR s)) by (apply Rle_ge, Rlt_le, Rinv_0_lt_compat; exact P).
    pose proof (mono_cell x (snd t) Hx). pose proof (Rabs_pos (mono x (snd t))).
    assert (0 <= IZR (Z.abs (fst t)) * / IZR s) by (apply Rmult_le_pos; [apply IZR_le; lia|apply Rlt_le, Rinv_0_lt_compat; exact P]). nra.
Qed.

(** ** The check *)

Definition kscale : Z := Eval vm_compute in (10 ^ 90)%Z.
Definition part (l : list (nat * pexp)) (i : nat) : pexp :=
  fold_right (fun t s => if Nat.eqb (fst t) i then Dg_Poly.Ad (snd t) s else s) (Nu 0 0) l.
Definition agrees (d : nat) (l : list (nat * pexp)) (fs : list pexp) : bool :=
  forallb (fun t => (fst t <? length fs)%nat) l &&
  forallb (fun i => match zterms kscale d (Dg_Poly.Su (part l i) (nth i fs (Nu 0 0))) with
                    | Some z => (norm1 (collect z) * 10 ^ 13 <=? kscale)%Z
                    | None => false
                    end) (seq 0 (length fs)).

Lemma part_sum l x q : in_q q l ->
  lin_value l x q = fold_right (fun i s => nth i q 0 * evalR (part l i) x + s) 0 (seq 0 (length q)).
Proof.
  induction l as [|t l IH]; intros H.
  - unfold lin_value. cbn [fold_right part]. induction (seq 0 (length q)) as [|i m IHm]; cbn [fold_right]; [reflexivity|].
    rewrite <- IHm. unfold evalR, lit. cbn. lra.
  - unfold lin_value. cbn [fold_right]. fold (lin_value l x q). rewrite IH by (intros u Hu; apply H; right; exact Hu).
    pose proof (H t (or_introl eq_refl)) as Ht.
    assert (G : forall s n, (s <= fst t)%nat -> (fst t < s + n)%nat ->
       fold_right (fun i r => nth i q 0 * evalR (part (t :: l) i) x + r) 0 (seq s n)
       = nth (fst t) q 0 * evalR (snd t) x + fold_right (fun i r => nth i q 0 * evalR (part l i) x + r) 0 (seq s n)).
    { intros s n. revert s. induction n as [|n IHn]; intros s H1 H2; [lia|]. cbn [seq fold_right part].
      destruct (Nat.eqb_spec (fst t) s) as [E|N].
      - subst s. cbn [evalR].
        assert (Z : forall s m, (fst t < s)%nat -> fold_right (fun i r => nth i q 0 * evalR (part (t :: l) i) x + r) 0 (seq s m)
           = fold_right (fun i r => nth i q 0 * evalR (part l i) x + r) 0 (seq s m)).
        { intros s m. revert s. induction m as [|m IHm]; intros s Hs; [reflexivity|]. cbn [seq fold_right part].
          destruct (Nat.eqb_spec (fst t) s); [lia|]. rewrite IHm by lia. reflexivity. }
        cbn [part] in Z. rewrite Z by lia. unfold part. ring.
      - cbn [part] in IHn. rewrite IHn by lia. unfold part. ring. }
    rewrite G by lia. reflexivity.
Qed.

Lemma agrees_ok d l fs x q : agrees d l fs = true -> length q = length fs -> length x = d -> in_cell x ->
  in_q q l /\ Rabs (lin_value l x q - expansion q fs x) <= / 10 ^ 13 * abs_sum q.
Proof.
  unfold agrees. rewrite andb_true_iff, !forallb_forall. intros [H1 H2] Hq Hx Hc.
  assert (I : in_q q l) by (intros t Ht; specialize (H1 t Ht); apply Nat.ltb_lt in H1; lia).
  split; [exact I|]. rewrite (part_sum l x q I).
  assert (B : forall i, (i < length fs)%nat -> Rabs (evalR (part l i) x - evalR (nth i fs (Nu 0 0)) x) <= / 10 ^ 13).
  { intros i Hi. specialize (H2 i). rewrite in_seq in H2. specialize (H2 ltac:(lia)).
    destruct (zterms _ _ _) as [z|] eqn:E; [|discriminate]. apply zterms_correct in E as [_ E]; [|discriminate].
    specialize (E x Hx). cbn [evalR] in E. rewrite E, <- collect_ok.
    eapply Rle_trans; [apply norm1_ok; [reflexivity|exact Hc]|]. apply Z.leb_le, IZR_le in H2. rewrite mult_IZR in H2.
    assert (P : 0 < IZR kscale) by (apply (IZR_lt 0); reflexivity).
    apply Rmult_le_reg_r with (r := IZR kscale); [exact P|]. unfold Rdiv. rewrite Rmult_assoc, Rinv_l, Rmult_1_r by lra.
    replace (IZR (10 ^ 13)) with (10 ^ 13) in H2 by (rewrite (pow_IZR 10 13); reflexivity).
    assert (0 < 10 ^ 13) by (apply pow_lt; lra).
    apply Rmult_le_reg_r with (r := 10 ^ 13); [assumption|].
    replace (/ 10 ^ 13 * IZR kscale * 10 ^ 13) with (IZR kscale) by (field; lra). exact H2. }
  unfold expansion. rewrite (combine_index q fs (fun f => evalR f x) (Nu 0 0)). rewrite Hq.
  assert (G : forall (q : list R) s n (F G : nat -> R), length q = n -> (forall i, (s <= i < s + n)%nat -> Rabs (F i - G i) <= / 10 ^ 13) ->
     Rabs (fold_right (fun i r => nth (i - s) q 0 * F i + r) 0 (seq s n) - fold_right (fun t r => fst t * G (snd t) + r) 0 (combine q (seq s n)))
     <= / 10 ^ 13 * abs_sum q).
  { clear. intros q. induction q as [|a q IH]; intros s n F G Hn H; cbn [length] in Hn; subst n.
    - cbn. rewrite Rminus_0_r, Rabs_R0. unfold abs_sum; cbn. lra.
    - cbn [seq combine fold_right fst snd]. rewrite Nat.sub_diag. cbn [nth].
      specialize (IH (S s) (length q) F G eq_refl ltac:(intros i Hi; apply H; lia)).
      assert (E : forall m k, (S s <= k)%nat -> fold_right (fun i r => nth (i - s) (a :: q) 0 * F i + r) 0 (seq k m)
                    = fold_right (fun i r => nth (i - S s) q 0 * F i + r) 0 (seq k m)).
      { intros m. induction m as [|m IHm]; intros k Hk; [reflexivity|]. cbn [seq fold_right]. rewrite IHm by lia.
        replace (k - s)%nat with (S (k - S s)) by lia. reflexivity. }
      rewrite E by lia.
      change (abs_sum (a :: q)) with (Rabs a + abs_sum q). specialize (H s ltac:(lia)).
      match goal with |- Rabs (a * F s + ?u - (a * G s + ?v)) <= _ => replace (a * F s + u - (a * G s + v)) with (a * (F s - G s) + (u - v)) by ring end.
      eapply Rle_trans; [apply Rabs_triang|]. rewrite Rabs_mult. pose proof (Rabs_pos a). nra. }
  specialize (G q 0%nat (length fs) (fun i => evalR (part l i) x) (fun i => evalR (nth i fs (Nu 0 0)) x) Hq ltac:(intros i Hi; apply B; lia)).
  cbv beta in G.
  assert (E : forall m, fold_right (fun i r => nth (i - 0) q 0 * evalR (part l i) x + r) 0 m = fold_right (fun i r => nth i q 0 * evalR (part l i) x + r) 0 m).
  { induction m as [|i m IHm]; [reflexivity|]. cbn [fold_right]. now rewrite IHm, Nat.sub_0_r. }
  rewrite E in G. exact G.
Qed.

(** ** C71 *)

(** The dimensions and orders whose kernels are sound. *)
Definition sound_kernels : list (nat * nat) :=
  [(1, 1); (2, 1); (2, 2); (2, 3); (2, 4); (3, 1); (3, 2); (3, 3); (4, 1); (4, 2); (4, 3); (5, 1); (6, 1)]%nat.

Definition kernel_ok (d p : nat) : bool :=
  match kernel d (Z.of_nat p), interp_functions d p true "serendipity" with
  | Some (Ok (Some k)), Ok fs => match lin k with Some l => agrees d l fs | None => false end
  | _, _ => false
  end.
Lemma kernels_ok : forallb (fun c => kernel_ok (fst c) (snd c)) sound_kernels = true.
Proof. vm_compute. reflexivity. Qed.

(** At every point of the reference cell and for all coefficients, the kernel
    gives the expansion in the serendipity basis of the interpolation tables,
    to within the rounding of the decimals. *)
Theorem C71_kernels d p fs : In (d, p) sound_kernels -> interp_functions d p true "serendipity" = Ok fs ->
  exists k, kernel d (Z.of_nat p) = Some (Ok (Some k)) /\
    forall q x, length q = length fs -> length x = d -> in_cell x ->
      exists v, keval k x q = Ok v /\ Rabs (v - expansion q fs x) <= / 10 ^ 13 * abs_sum q.
Proof.
  intros Hin Hf. pose proof kernels_ok as K. rewrite forallb_forall in K. specialize (K _ Hin). cbn [fst snd] in K.
  unfold kernel_ok in K. rewrite Hf in K. destruct (kernel d (Z.of_nat p)) as [[[k|]|]|]; try discriminate.
  exists k. split; [reflexivity|]. intros q x Hq Hx Hc. destruct (lin k) as [l|] eqn:El; [|discriminate].
  destruct (agrees_ok d l fs x q K Hq Hx Hc) as [I B]. exists (lin_value l x q). split; [apply lin_ok; assumption|exact B].
Qed.

(** ** The other kernels *)

(** In these a power is written with the exclusive-or operator. *)
Definition xor_kernels : list (nat * nat) := [(1, 2); (1, 3); (1, 4); (5, 2); (5, 3); (5, 4); (6, 2)]%nat.

Fixpoint has_xor (k : kexp) : bool :=
  match k with
  | Kn _ _ | Xv _ | Co _ => false
  | Ng a | Po a _ => has_xor a
  | Ad a b | Su a b | Mu a b => has_xor a || has_xor b
  | Xo _ _ => true
  end.
Fixpoint needs (k : kexp) : nat :=
  match k with
  | Co n => S n
  | Kn _ _ | Xv _ => 0
  | Ng a | Po a _ => needs a
  | Ad a b | Su a b | Mu a b | Xo a b => Nat.max (needs a) (needs b)
  end.

Lemma xor_fails k x q : (needs k <= length q)%nat ->
  if has_xor k then keval k x q = Err TypeError else exists v, keval k x q = Ok v.
Proof.
  assert (M : forall a b, (Nat.max a b <= length q)%nat -> (a <= length q)%nat /\ (b <= length q)%nat) by (intros; lia).
  induction k; cbn [has_xor needs keval]; intros H; eauto;
    try (apply M in H as [H1 H2]; specialize (IHk1 H1); specialize (IHk2 H2);
         destruct (has_xor k1); cbn [orb];
         [rewrite IHk1; reflexivity|destruct IHk1 as [u ->]; destruct (has_xor k2); [rewrite IHk2; reflexivity|destruct IHk2 as [v ->]; cbn; eauto]]).
  - destruct (nth_error q n) eqn:E; [eauto|]. apply nth_error_None in E. lia.
  - specialize (IHk H). destruct (has_xor k); [rewrite IHk; reflexivity|]. destruct IHk as [u ->]. cbn. eauto.
  - specialize (IHk H). destruct (has_xor k); [rewrite IHk; reflexivity|]. destruct IHk as [u ->]. cbn. eauto.
Qed.

Definition xor_ok (d p : nat) : bool :=
  match kernel d (Z.of_nat p) with
  | Some (Ok (Some k)) => has_xor k && match interp_functions d p true "serendipity" with Ok fs => (needs k <=? length fs)%nat | Err _ => true end
  | _ => false
  end.

Theorem C71_xor_refuted : forall d p, In (d, p) xor_kernels ->
  exists k, kernel d (Z.of_nat p) = Some (Ok (Some k)) /\
    (forall q x, (needs k <= length q)%nat -> keval k x q = Err TypeError) /\
    (forall fs, interp_functions d p true "serendipity" = Ok fs -> (needs k <= length fs)%nat).
Proof.
  intros d p Hin. assert (K : forallb (fun c => xor_ok (fst c) (snd c)) xor_kernels = true) by (vm_compute; reflexivity).
  rewrite forallb_forall in K. specialize (K _ Hin). cbn [fst snd] in K. unfold xor_ok in K.
  destruct (kernel d (Z.of_nat p)) as [[[k|]|]|]; try discriminate. apply andb_true_iff in K as [K1 K2].
  exists k. split; [reflexivity|]. split.
  - intros q x Hq. pose proof (xor_fails k x q Hq) as F. rewrite K1 in F. exact F.
  - intros fs E. rewrite E in K2. apply Nat.leb_le. exact K2.
Qed.

(** In these some terms have run together to products of several coefficients
    ("... * f[..., 36] * +6.889... * f[..., 37] * ..."): a field with one
    non-zero coefficient is missing from the result altogether. *)
Fixpoint qpow (a : Q) (n : nat) : Q := match n with O => 1%Q | S m => Qred (a * qpow a m) end.
Fixpoint kevalQ (k : kexp) (x q : list Q) : option Q :=
  match k with
  | Kn m e => Some (litQ m e)
  | Xv i => Some (nth i x 0%Q)
  | Co n => nth_error q n
  | Ng a => match kevalQ a x q with Some u => Some (- u)%Q | None => None end
  | Ad a b => match kevalQ a x q, kevalQ b x q with Some u, Some v => Some (Qred (u + v)) | _, _ => None end
  | Su a b => match kevalQ a x q, kevalQ b x q with Some u, Some v => Some (Qred (u - v)) | _, _ => None end
  | Mu a b => match kevalQ a x q, kevalQ b x q with Some u, Some v => Some (Qred (u * v)) | _, _ => None end
  | Po a n => match kevalQ a x q with Some u => Some (qpow u n) | None => None end
  | Xo _ _ => None
  end.

Lemma Q2R_red a : Q2R (Qred a) = Q2R a.
Proof. apply Qeq_eqR, Qred_correct. Qed.
Lemma Q2R_nth l i : nth i (List.map Q2R l) 0 = Q2R (nth i l 0%Q).
Proof. rewrite <- (map_nth Q2R). f_equal. unfold Q2R. cbn. lra. Qed.
Lemma Q2R_pow a n : Q2R (qpow a n) = Q2R a ^ n.
Proof. induction n as [|n IH]; [unfold Q2R; cbn; lra|]. cbn [pow qpow]. now rewrite Q2R_red, Q2R_mult, IH. Qed.
Lemma some_eq {A} (a b : A) : Some a = Some b -> a = b.
Proof. congruence. Qed.
Lemma kevalQ_ok k x q : forall v, kevalQ k x q = Some v -> keval k (List.map Q2R x) (List.map Q2R q) = Ok (Q2R v).
Proof.
  induction k; cbn [kevalQ keval]; intros v H; try discriminate.
  - apply some_eq in H; subst v. now rewrite Q2R_lit.
  - apply some_eq in H; subst v. now rewrite Q2R_nth.
  - rewrite nth_error_map, H. reflexivity.
  - destruct (kevalQ k x q); [|discriminate]. apply some_eq in H; subst v. rewrite (IHk _ eq_refl). cbn. now rewrite Q2R_opp.
  - destruct (kevalQ k1 x q); [|discriminate]. destruct (kevalQ k2 x q); [|discriminate]. apply some_eq in H; subst v.
    rewrite (IHk1 _ eq_refl). cbn [bind]. rewrite (IHk2 _ eq_refl). cbn [bind]. now rewrite Q2R_red, Q2R_plus.
  - destruct (kevalQ k1 x q); [|discriminate]. destruct (kevalQ k2 x q); [|discriminate]. apply some_eq in H; subst v.
    rewrite (IHk1 _ eq_refl). cbn [bind]. rewrite (IHk2 _ eq_refl). cbn [bind]. now rewrite Q2R_red, Q2R_minus.
  - destruct (kevalQ k1 x q); [|discriminate]. destruct (kevalQ k2 x q); [|discriminate]. apply some_eq in H; subst v.
    rewrite (IHk1 _ eq_refl). cbn [bind]. rewrite (IHk2 _ eq_refl). cbn [bind]. now rewrite Q2R_red, Q2R_mult.
  - destruct (kevalQ k x q); [|discriminate]. apply some_eq in H; subst v. rewrite (IHk _ eq_refl). cbn [bind]. now rewrite Q2R_pow.
Qed.

(** A table entry as a kernel without coefficients, to evaluate it. *)
Fixpoint embed (p : pexp) : option kexp :=
  match p with
  | Nu m e => Some (Kn m e)
  | Va i => Some (Xv i)
  | Dg_Poly.Ng a => option_map Ng (embed a)
  | Dg_Poly.Ad a b => match embed a, embed b with Some p, Some q => Some (Ad p q) | _, _ => None end
  | Dg_Poly.Su a b => match embed a, embed b with Some p, Some q => Some (Su p q) | _, _ => None end
  | Dg_Poly.Mu a b => match embed a, embed b with Some p, Some q => Some (Mu p q) | _, _ => None end
  | Dg_Poly.Po a n => option_map (fun k => Po k n) (embed a)
  | Dg_Poly.Di _ _ => None
  end.
Lemma embed_pure p : forall k, embed p = Some k -> pure k = Some p.
Proof.
  induction p; cbn [embed]; intros k H; try discriminate; try (injection H as <-; reflexivity).
  - destruct (embed p); [|discriminate]. injection H as <-. cbn. now rewrite (IHp _ eq_refl).
  - destruct (embed p1); [|discriminate]. destruct (embed p2); [|discriminate]. injection H as <-. cbn.
    now rewrite (IHp1 _ eq_refl), (IHp2 _ eq_refl).
  - destruct (embed p1); [|discriminate]. destruct (embed p2); [|discriminate]. injection H as <-. cbn.
    now rewrite (IHp1 _ eq_refl), (IHp2 _ eq_refl).
  - destruct (embed p1); [|discriminate]. destruct (embed p2); [|discriminate]. injection H as <-. cbn.
    now rewrite (IHp1 _ eq_refl), (IHp2 _ eq_refl).
  - destruct (embed p); [|discriminate]. injection H as <-. cbn. now rewrite (IHp _ eq_refl).
Qed.

Definition one_coeff (n i : nat) : list Q := List.map (fun j => if Nat.eqb j i then 1%Q else 0%Q) (seq 0 n).

Lemma expansion_one n i fs x f : length fs = n -> nth_error fs i = Some f ->
  expansion (List.map Q2R (one_coeff n i)) fs x = evalR f x.
Proof.
  intros Hn Hi. unfold expansion, one_coeff. rewrite List.map_map.
  assert (Z0 : Q2R 0 = 0) by (unfold Q2R; cbn; lra). assert (Z1 : Q2R 1 = 1) by (unfold Q2R; cbn; lra).
  assert (N : forall gs s, (i < s)%nat ->
     fold_right (fun t r => fst t * evalR (snd t) x + r) 0 (combine (List.map (fun j => Q2R (if Nat.eqb j i then 1%Q else 0%Q)) (seq s (length gs))) gs) = 0).
  { intros gs. induction gs as [|g gs IH]; intros s Hs; [reflexivity|]. cbn [length seq List.map combine fold_right fst snd].
    rewrite (IH (S s)) by lia. destruct (Nat.eqb_spec s i); [lia|]. rewrite Z0. ring. }
  assert (G : forall gs s, (s <= i)%nat -> nth_error gs (i - s) = Some f ->
     fold_right (fun t r => fst t * evalR (snd t) x + r) 0 (combine (List.map (fun j => Q2R (if Nat.eqb j i then 1%Q else 0%Q)) (seq s (length gs))) gs) = evalR f x).
  { intros gs. induction gs as [|g gs IH]; intros s Hs H; [destruct (i - s)%nat; discriminate|].
    cbn [length seq List.map combine fold_right fst snd]. destruct (Nat.eqb_spec s i) as [->|Ns].
    - rewrite Nat.sub_diag in H. injection H as ->. rewrite N by lia. rewrite Z1. ring.
    - replace (i - s)%nat with (S (i - S s)) in H by lia. rewrite (IH (S s)) by (auto; lia). rewrite Z0. ring. }
  subst n. apply (G fs 0%nat); [lia|]. rewrite Nat.sub_0_r. exact Hi.
Qed.

Definition lost (d p i : nat) : bool :=
  match kernel d (Z.of_nat p), interp_functions d p true "serendipity" with
  | Some (Ok (Some k)), Ok fs =>
      match kevalQ k (repeat 1%Q d) (one_coeff (length fs) i), nth_error fs i with
      | Some v, Some f => match embed f with
                          | Some e => match kevalQ e (repeat 1%Q d) [] with
                                      | Some w => Qeq_bool v 0 && Qle_bool 1 w
                                      | None => false
                                      end
                          | None => false
                          end
      | _, _ => false
      end
  | _, _ => false
  end.

Lemma lost_ok d p i : lost d p i = true ->
  exists k fs q, kernel d (Z.of_nat p) = Some (Ok (Some k)) /\ interp_functions d p true "serendipity" = Ok fs /\
    length q = length fs /\ keval k (repeat 1 d) q = Ok 0 /\ 1 <= expansion q fs (repeat 1 d).
Proof.
  unfold lost. intros H. destruct (kernel d (Z.of_nat p)) as [[[k|]|]|]; try discriminate.
  destruct (interp_functions d p true "serendipity") as [fs|] eqn:F; [|discriminate].
  destruct (kevalQ k _ _) as [v|] eqn:Ev; [|discriminate]. destruct (nth_error fs i) as [f|] eqn:Ei; [|discriminate].
  destruct (embed f) as [e|] eqn:Ee; [|discriminate]. destruct (kevalQ e _ _) as [w|] eqn:Ew; [|discriminate].
  apply andb_true_iff in H as [Hv Hw]. apply Qeq_bool_eq in Hv. apply Qle_bool_iff in Hw.
  assert (P : List.map Q2R (repeat 1%Q d) = repeat 1 d).
  { clear. induction d as [|d IH]; [reflexivity|]. cbn [repeat List.map]. rewrite IH. f_equal. unfold Q2R. cbn. lra. }
  exists k, fs, (List.map Q2R (one_coeff (length fs) i)). split; [reflexivity|]. split; [reflexivity|].
  split; [unfold one_coeff; now rewrite !map_length, seq_length|]. split.
  - rewrite <- P, (kevalQ_ok _ _ _ _ Ev). f_equal. apply Qeq_eqR in Hv. rewrite Hv. unfold Q2R. cbn. lra.
  - rewrite (expansion_one _ _ _ _ f) by auto. apply kevalQ_ok in Ew. rewrite P in Ew.
    rewrite (pure_ok e _ _ f (embed_pure _ _ Ee)) in Ew. injection Ew as ->. apply Qle_Rle in Hw.
    replace (Q2R 1) with 1 in Hw by (unfold Q2R; cbn; lra). exact Hw.
Qed.

Theorem C71_products_refuted : forall d, In d [3; 4]%nat ->
  exists k fs q x, kernel d 4 = Some (Ok (Some k)) /\ interp_functions d 4 true "serendipity" = Ok fs /\
    length q = length fs /\ length x = d /\ in_cell x /\ keval k x q = Ok 0 /\ 1 <= expansion q fs x.
Proof.
  assert (C : forall d, List.Forall (fun t => -1 <= t <= 1) (repeat 1 d)).
  { intros d. apply List.Forall_forall. intros t Ht. apply repeat_spec in Ht. subst. lra. }
  intros d [<-|[<-|[]]].
  - destruct (lost_ok 3 4 36) as (k & fs & q & H1 & H2 & H3 & H4 & H5); [vm_compute; reflexivity|].
    exists k, fs, q, (repeat 1 3). exact (conj H1 (conj H2 (conj H3 (conj eq_refl (conj (C 3%nat) (conj H4 H5)))))) .
  - destruct (lost_ok 4 4 115) as (k & fs & q & H1 & H2 & H3 & H4 & H5); [vm_compute; reflexivity|].
    exists k, fs, q, (repeat 1 4). exact (conj H1 (conj H2 (conj H3 (conj eq_refl (conj (C 4%nat) (conj H4 H5)))))) .
Qed.

(** In six dimensions the kernels of order three and four return nothing. *)
Theorem C71_empty_refuted : kernel 6 3 = Some (Ok None) /\ kernel 6 4 = Some (Ok None).
Proof. split; reflexivity. Qed.

(** Orders: zero is taken as four, above four and below minus three there is
    no kernel; other dimensions have none either. *)
Theorem C71_orders d p : (1 <= d <= 6)%nat ->
  kernel d 0 = kernel d 4 /\
  (kernel d p = Some (Err IndexError) <-> (p < -3 \/ 4 < p)%Z).
Proof.
  intros H. assert (L : exists l, expand_lists d = Some l /\ length l = 4%nat).
  { destruct d as [|[|[|[|[|[|[|d]]]]]]]; try lia; eexists; split; reflexivity. }
  destruct L as (l & E & L). unfold kernel. rewrite E, L. split; [reflexivity|].
  destruct (Z.ltb_spec (p - 1) 0).
  - destruct (Z.leb_spec 0 (p - 1 + Z.of_nat 4)); [|cbn [andb]; split; [intros _; lia|reflexivity]].
    destruct (Z.ltb_spec (p - 1 + Z.of_nat 4) (Z.of_nat 4)); [|lia]. cbn [andb].
    destruct (nth_error l _) eqn:En; [|apply nth_error_None in En; lia]. split; [discriminate|lia].
  - destruct (Z.leb_spec 0 (p - 1)); [|lia]. destruct (Z.ltb_spec (p - 1) (Z.of_nat 4)); cbn [andb]; [|split; [lia|reflexivity]].
    destruct (nth_error l _) eqn:En; [|apply nth_error_None in En; lia]. split; [discriminate|lia].
Qed.

(** In one dimension at order one: half the sum of the coefficients' functions. *)
Example C71_ex : exists fs k v, interp_functions 1 1 true "serendipity" = Ok fs /\ kernel 1 1 = Some (Ok (Some k)) /\
  keval k [1 / 2] [2; 4] = Ok v /\ Rabs (v - expansion [2; 4] fs [1 / 2]) <= / 10 ^ 13 * 6 /\ 3 < v.
Proof.
  destruct (C71_kernels 1 1 it_d1_modal_o1) as (k & Ek & H); [left; reflexivity|reflexivity|].
  destruct (H [2; 4] [1 / 2]) as (v & Ev & B); [reflexivity|reflexivity|constructor; [lra|constructor]|].
  exists it_d1_modal_o1, k, v. split; [reflexivity|]. split; [exact Ek|]. split; [exact Ev|]. split.
  - replace (abs_sum [2; 4]) with 6 in B; [exact B|]. unfold abs_sum. cbn [fold_right]. rewrite !Rabs_right by lra. lra.
  - injection Ek as <-. cbn in Ev. injection Ev as <-. unfold lit. lra.
Qed.

Print Assumptions C71_kernels.
Print Assumptions C71_xor_refuted.
Print Assumptions C71_products_refuted.
Print Assumptions C71_orders.
