(** * Property C24 on arrays: [ev] computes ordinary arithmetic, cell by
    cell. *)
From Coq Require Import String Ascii List Arith ZArith QArith Qabs Bool Lia.
From Verif Require Import Prelude PreludeFacts NdArray GData_Model Select_Model DataSpace_Model
  Ev_Model Ev_Arith Ev_Spec Ev_Props Ev_Props2.
Import ListNotations.
Open Scope list_scope.

Lemma ith_uses {E} (h : E -> val) (g : list E) (l : list (nda Q)) i e :
  List.map h g = List.map VArr l -> uses i g e -> h e = VArr (ith l i).
Proof.
  intros H [U|[L [g' ->]]].
  - assert (N : nth_error (List.map h g) i = Some (h e)) by (rewrite nth_error_map, U; reflexivity).
    rewrite H, nth_error_map in N. destruct (nth_error l i) as [a|] eqn:Ea; [|discriminate]. injection N as <-.
    f_equal. unfold ith. symmetry. now apply nth_error_nth.
  - assert (Ll : length l = length (g' ++ [e])) by (rewrite <- (map_length VArr l), <- H, map_length; reflexivity).
    unfold ith. rewrite nth_overflow by lia. rewrite map_app in H. cbn in H.
    destruct (exists_last (l := l)) as (l' & x & ->).
    { intros ->. rewrite app_length in Ll. cbn in Ll. lia. }
    rewrite last_last. rewrite map_app in H. cbn in H. apply app_inj_tail in H as [_ H]. exact H.
Qed.

Lemma ith_same l i j : (length l <= i)%nat -> (length l <= S j)%nat -> (j <= i)%nat -> l <> [] -> ith l i = ith l j.
Proof.
  intros H1 H2 H3 Hn. unfold ith. rewrite (nth_overflow l _ H1).
  destruct (Nat.lt_ge_cases j (length l)) as [L|L]; [|now rewrite nth_overflow].
  destruct (exists_last Hn) as (l' & x & ->). rewrite last_last. rewrite app_length in *. cbn in *.
  replace j with (length l') by lia. rewrite nth_middle. reflexivity.
Qed.

Lemma ith_map_seq (rr : nat -> nda Q) n i : (0 < n)%nat ->
  ith (List.map rr (seq 0 n)) i = rr (Nat.min i (n - 1)).
Proof.
  intros Hn. unfold ith. destruct (Nat.lt_ge_cases i n) as [L|L].
  - rewrite Nat.min_l by lia. apply nth_error_nth. rewrite nth_error_map, nth_error_seq.
    destruct (Nat.ltb_spec i n); [reflexivity|lia].
  - rewrite nth_overflow by now rewrite map_length, seq_length. rewrite Nat.min_r by lia.
    destruct n as [|n]; [lia|]. rewrite seq_S, map_app. cbn. rewrite last_last. f_equal. lia.
Qed.

Lemma value_ext ufun qpow (l l' : string -> Q) e :
  (forall s, In s (leaves (to_expr e)) -> l s = l' s) -> value ufun qpow l e = value ufun qpow l' e.
Proof.
  induction e; cbn [value to_expr leaves flat_map app]; intros H;
    try (rewrite IHe1, IHe2; [reflexivity|intros; apply H; apply in_or_app; right; rewrite app_nil_r; auto|intros; apply H; apply in_or_app; auto]);
    try (rewrite IHe; [reflexivity|intros; apply H; rewrite app_nil_r; auto]).
  apply H. now left.
Qed.

Section Arithmetic.
  Context {M X : Type}.
  Context (psel : X -> option string -> res (grid * val)) (meta : X -> list (string * M)) (meta_val : M -> val)
          (parse_float : string -> option val) (py_eval : string -> res val) (mcmp : M -> M -> res bool).
  Context (ufun : string -> Q -> Q) (qpow : Q -> Q -> Q).
  Context (ds : dspace X) (tags : list string) (oa : bool).
  Local Notation cmds := (cmds_q ufun qpow).
  Local Notation read_token := (read_token psel meta meta_val (@None (list garr)) parse_float py_eval VStr).
  Local Notation run := (run psel meta meta_val (@None (list garr)) parse_float py_eval VStr mcmp cmds).
  Local Notation meaning := (meaning psel meta meta_val (@None (list garr)) parse_float py_eval VStr mcmp cmds ds tags oa).
  Local Notation wf_expr := (wf_expr psel meta meta_val (@None (list garr)) parse_float py_eval VStr cmds ds tags oa).
  Local Notation entry := (@entry grid val M).
  Local Notation group := (@group grid val M).

  Definition operators : list string :=
    ["+"; "-"; "*"; "/"; "pow"; "max2"; "min2"; "abs"; "sq"]%string ++ named_funs.

  (** No tag is called like an operator, and no operator reads as a number. *)
  Context (Hops : forall o, In o operators -> in_list o tags = false /\ parse_float o = None).

  Lemma op_token o : In o operators -> read_token ds tags oa o = Ok None.
  Proof.
    intros H. destruct (Hops o H) as [H1 H2].
    assert (E : starts_with "f" o = false /\ tok_head o = o /\ (has_char "(" o || has_char "[" o) = false /\
                (has_char ":" o || has_char "," o) = false).
    { assert (A : forallb (fun o => negb (starts_with "f" o) && String.eqb (tok_head o) o &&
                    negb (has_char "(" o || has_char "[" o) && negb (has_char ":" o || has_char "," o)) operators = true)
        by reflexivity.
      rewrite forallb_forall in A. specialize (A o H). apply andb_prop in A as [A A4]. apply andb_prop in A as [A A3].
      apply andb_prop in A as [A1 A2]. apply negb_true_iff in A1, A3, A4. apply String.eqb_eq in A2. auto. }
    destruct E as (E1 & E2 & E3 & E4). unfold Ev_Model.read_token, is_ref. rewrite E1, E2, H1, E3, E4, H2. reflexivity.
  Qed.

  (** The arrays behind each leaf. *)
  Context (arrs : string -> list (nda Q)) (sh : nat -> list nat).
  (** The metadata entries, such that two of the same key can be compared. *)
  Context (okm : string -> M -> Prop) (Hcmp : forall k a b, okm k a -> okm k b -> exists c, mcmp a b = Ok c).
  Definition shows (g : group) (rs : list (nda Q)) : Prop :=
    List.map e_val g = List.map VArr rs /\ forall e k m, In e g -> In (k, m) (e_ctx e) -> okm k m.
  Definition leaf_ok (s : string) : Prop :=
    (exists (g : group) i, read_token ds tags oa s = Ok (Some (g, i)) /\ shows g (arrs s)) /\
    arrs s <> [] /\
    forall i, wf (ith (arrs s) i) /\ (shape (ith (arrs s) i) = [] \/ shape (ith (arrs s) i) = sh i).

  (** The [i]-th result [r] of the expression [e]. *)
  Definition result_at (e : aexp) (i : nat) (r : nda Q) : Prop :=
    wf r /\
    (forall s, In s (leaves (to_expr e)) -> shape (ith (arrs s) i) = [] \/ shape (ith (arrs s) i) = shape r) /\
    (exists s, In s (leaves (to_expr e)) /\ shape (ith (arrs s) i) = shape r) /\
    forall idx, in_range (shape r) idx ->
      get r idx = Some (value ufun qpow (fun s => cell (ith (arrs s) i) idx) e).

  Definition computes (e : aexp) (rs : list (nda Q)) : Prop :=
    largest_size (List.map arrs (leaves (to_expr e))) (length rs) /\ forall i, result_at e i (ith rs i).

  Lemma result_at_transfer e i j r :
    (forall s, In s (leaves (to_expr e)) -> ith (arrs s) i = ith (arrs s) j) -> result_at e j r -> result_at e i r.
  Proof.
    intros H (W & S1 & S2 & E). split; [exact W|]. split; [|split].
    - intros s Hs. rewrite (H s Hs). auto.
    - destruct S2 as (s & Hs & S2). exists s. split; [auto|]. now rewrite (H s Hs).
    - intros idx Hi. rewrite (E idx Hi). f_equal. apply value_ext. intros s Hs. now rewrite (H s Hs).
  Qed.

  Lemma leaves_len e rs s : computes e rs -> In s (leaves (to_expr e)) -> (length (arrs s) <= length rs)%nat.
  Proof.
    intros [[H _] _] Hs. rewrite Forall_forall in H. apply H. now apply in_map.
  Qed.

  Lemma computes_nonempty e rs : (forall s, In s (leaves (to_expr e)) -> arrs s <> []) -> computes e rs -> rs <> [].
  Proof.
    intros H [[_ E] _] ->. apply Exists_exists in E as (l & Hl & Ll). apply in_map_iff in Hl as (s & <- & Hs).
    apply (H s Hs). destruct (arrs s); [reflexivity|discriminate].
  Qed.

  (** One application of an operator to operands with known arrays. *)
  Lemma apply_arrays f (args : list group) (rss : list (list (nda Q))) (rr : nat -> nda Q) :
    args <> [] -> Forall2 shows args rss ->
    Forall (fun rs => rs <> []) rss ->
    (forall i gs, length gs = length args -> exists g', f gs (rev (List.map (fun rs => VArr (ith rs i)) rss)) = Ok (g', VArr (rr i))) ->
    exists out n, apply_cmd mcmp f (rev args) = Ok out /\ largest_size rss n /\ shows out (List.map rr (seq 0 n)).
  Proof.
    intros Hne F0 Hnn Hf.
    assert (F : Forall2 (fun g rs => List.map e_val g = List.map VArr rs) args rss)
      by (clear - F0; induction F0 as [|g rs args rss [Hg _] F IH]; constructor; auto).
    assert (Hk : forall i (es : list entry) a k m, Forall2 (uses i) args es -> In a es -> In (k, m) (e_ctx a) -> okm k m).
    { clear - F0. intros i es a k m U. revert rss F0. induction U as [|g e args es Hu U IH]; intros rss F0 Ha Hm; [destruct Ha|].
      inversion F0 as [|? rs ? rss' [_ Hg] F']; subst. destruct Ha as [->|Ha]; [|exact (IH _ F' Ha Hm)].
      apply (Hg a k m); [|exact Hm]. destruct Hu as [Hu|[_ [g' ->]]]; [eapply nth_error_In; eauto|apply in_or_app; right; now left]. }
    clear F0.
    assert (Hv : forall i (es : list entry), Forall2 (uses i) args es -> List.map e_val es = List.map (fun rs => VArr (ith rs i)) rss).
    { clear - F. induction F as [|g rs args rss Hg F IH]; intros i es U; inversion U; subst; [reflexivity|].
      cbn [List.map]. f_equal; [eapply ith_uses; eauto|auto]. }
    destruct (C25_succeeds mcmp f args Hne) as [out Eo].
    - clear - F Hnn. induction F as [|g rs args rss Hg F IH]; constructor; inversion Hnn; subst; auto.
      intros ->. destruct rs; [congruence|discriminate].
    - intros i es U. rewrite (Hv i es U). destruct (Hf i (rev (List.map e_grid es))) as [g' E]; [|eauto].
      rewrite rev_length, map_length. symmetry. eapply Forall2_length; eauto.
    - intros i es a b U Ha Hb k v v' Iv Iv'. apply (Hcmp k); [exact (Hk i es a k v U Ha Iv)|exact (Hk i es b k v' U Hb Iv')].
    - exists out, (length out). split; [exact Eo|]. destruct (apply_cmd_result mcmp f args out Hne Eo) as [L R]. split.
      + destruct L as [L1 L2]. clear - F L1 L2. split.
        * clear L2. induction F as [|g rs args rss Hg F IH]; constructor; inversion L1; subst; auto.
          rewrite <- (map_length VArr rs), <- Hg, map_length. auto.
        * clear L1. induction F as [|g rs args rss Hg F IH]; inversion L2; subst.
          -- left. rewrite <- (map_length VArr rs), <- Hg, map_length. auto.
          -- right. auto.
      + split.
        2:{ intros e k m He Hm. apply In_nth_error in He as [j Ej]. destruct (R j e Ej) as (es & U & _ & Ec).
            destruct (merge_ctx_In mcmp _ _ (k, m) Ec Hm) as (c & Hc & Hm'). apply in_rev, in_map_iff in Hc as (a & <- & Ha).
            exact (Hk j es a k m U Ha Hm'). }
        apply nth_error_ext. intros k. rewrite !nth_error_map, nth_error_seq.
        destruct (nth_error out k) as [e|] eqn:Ee.
        * assert (k < length out)%nat as Lk by (apply nth_error_Some; congruence).
          destruct (Nat.ltb_spec k (length out)); [|lia]. cbn [option_map].
          destruct (R k e Ee) as (es & U & Ef & _). rewrite (Hv k es U) in Ef.
          destruct (Hf k (rev (List.map e_grid es))) as [g' E].
          { rewrite rev_length, map_length. symmetry. eapply Forall2_length; eauto. }
          rewrite E in Ef. injection Ef as _ Ef. now rewrite Nat.add_0_l, Ef.
        * apply nth_error_None in Ee. destruct (Nat.ltb_spec k (length out)); [lia|reflexivity].
  Qed.

  Lemma leaves_bin op a b : leaves (Node op [to_expr a; to_expr b]) = leaves (to_expr a) ++ leaves (to_expr b).
  Proof. cbn. now rewrite app_nil_r. Qed.
  Lemma leaves_un op a : leaves (Node op [to_expr a]) = leaves (to_expr a).
  Proof. cbn. now rewrite app_nil_r. Qed.

  Lemma cell_scalar a idx : shape a = [] -> cell a idx = at_ a [].
  Proof. intros E. unfold cell, at_. now rewrite E. Qed.

  Lemma scalar_value e i r idx : result_at e i r -> shape r = [] ->
    at_ r [] = value ufun qpow (fun s => cell (ith (arrs s) i) idx) e.
  Proof.
    intros (W & S1 & S2 & E) Es. unfold at_. rewrite E by (rewrite Es; constructor).
    apply value_ext. intros s Hs. destruct (S1 s Hs) as [Z|Z]; [|rewrite Es in Z]; now rewrite !cell_scalar.
  Qed.

  Definition bin_exp (op : string) (mk : aexp -> aexp -> aexp) (h : Q -> Q -> Q) (F : list grid -> list val -> res (grid * val)) : Prop :=
    In op operators /\ cmds op = Some (2%nat, F) /\
    (forall a b, to_expr (mk a b) = Node op [to_expr a; to_expr b]) /\
    (forall l a b, value ufun qpow l (mk a b) = h (value ufun qpow l a) (value ufun qpow l b)) /\
    (forall ga gb x y, shape x = shape y \/ shape x = [] \/ shape y = [] ->
       exists g' r, F [gb; ga] [VArr y; VArr x] = Ok (g', VArr r) /\ qb h x y = Ok r).

  Lemma bin_case op mk h F a b :
    bin_exp op mk h F ->
    (forall s, In s (leaves (to_expr (mk a b))) -> leaf_ok s) ->
    (exists (g : group) rs, meaning (to_expr a) = Ok g /\ shows g rs /\ computes a rs) ->
    (exists (g : group) rs, meaning (to_expr b) = Ok g /\ shows g rs /\ computes b rs) ->
    exists (g : group) rs, meaning (to_expr (mk a b)) = Ok g /\ shows g rs /\ computes (mk a b) rs.
  Proof.
    intros (Ho & Hc & Ht & Hv & HF) Hl (ga & ra & Ea & Ra & Ca) (gb & rb & Eb & Rb & Cb).
    rewrite Ht, leaves_bin in Hl.
    assert (Na : ra <> []) by (apply (computes_nonempty a); auto; intros s Hs; apply Hl, in_or_app; auto).
    assert (Nb : rb <> []) by (apply (computes_nonempty b); auto; intros s Hs; apply Hl, in_or_app; auto).
    assert (Sh : forall i, shape (ith ra i) = [] \/ shape (ith ra i) = sh i).
    { intros i. destruct Ca as [_ Ca]. destruct (Ca i) as (_ & _ & (s & Hs & Es) & _).
      destruct (Hl s) as (_ & _ & Hi); [apply in_or_app; auto|]. rewrite <- Es. apply Hi. }
    assert (Sb : forall i, shape (ith rb i) = [] \/ shape (ith rb i) = sh i).
    { intros i. destruct Cb as [_ Cb]. destruct (Cb i) as (_ & _ & (s & Hs & Es) & _).
      destruct (Hl s) as (_ & _ & Hi); [apply in_or_app; auto|]. rewrite <- Es. apply Hi. }
    assert (Sc : forall i, shape (ith ra i) = shape (ith rb i) \/ shape (ith ra i) = [] \/ shape (ith rb i) = []).
    { intros i. destruct (Sh i) as [Z|Z], (Sb i) as [Y|Y]; auto. left; congruence. }
    (* the results *)
    assert (Hr : forall i, exists r, qb h (ith ra i) (ith rb i) = Ok r /\ result_at (mk a b) i r).
    { intros i. destruct Ca as [_ Ca]. destruct Cb as [_ Cb]. specialize (Ca i). specialize (Cb i). specialize (Sc i).
      pose proof Ca as (Wa & A1 & A2 & A3). pose proof Cb as (Wb & B1 & B2 & B3).
      assert (K : exists r, qb h (ith ra i) (ith rb i) = Ok r /\ wf r /\
        (shape r = shape (ith ra i) /\ (shape (ith rb i) = [] \/ shape (ith rb i) = shape r) \/
         shape r = shape (ith rb i) /\ (shape (ith ra i) = [] \/ shape (ith ra i) = shape r)) /\
        forall idx, in_range (shape r) idx ->
          get r idx = Some (h (value ufun qpow (fun s => cell (ith (arrs s) i) idx) a)
                              (value ufun qpow (fun s => cell (ith (arrs s) i) idx) b))).
      { destruct Sc as [Z|[Z|Z]].
        - destruct (qb_same h _ _ Z) as (r & Er & W & S & H). exists r. split; [auto|]. split; [auto|]. split.
          + left. split; [auto|]. right. congruence.
          + intros idx Hi. rewrite S in Hi. rewrite (H idx Hi). unfold at_. rewrite (A3 idx Hi), (B3 idx); [reflexivity|congruence].
        - destruct (qb_scalar h _ (ith rb i) Z) as (r & Er & W & S & H). exists r. split; [auto|]. split; [auto|]. split.
          + right. split; [auto|]. left. exact Z.
          + intros idx Hi. rewrite S in Hi. rewrite (H idx Hi). rewrite (scalar_value a i _ idx Ca Z).
            unfold at_. rewrite (B3 idx Hi). reflexivity.
        - destruct (qb_scalar_r h (ith ra i) _ Z) as (r & Er & W & S & H). exists r. split; [auto|]. split; [auto|]. split.
          + left. split; [auto|]. left. exact Z.
          + intros idx Hi. rewrite S in Hi. rewrite (H idx Hi). rewrite (scalar_value b i _ idx Cb Z).
            unfold at_. rewrite (A3 idx Hi). reflexivity. }
      destruct K as (r & Er & W & S & H). exists r. split; [exact Er|]. split; [exact W|]. rewrite Ht, leaves_bin. split; [|split].
      - intros s Hs. apply in_app_or in Hs. destruct Hs as [Hs|Hs].
        + destruct (A1 s Hs) as [Z|Z]; [auto|]. destruct S as [[S _]|[S [Q|Q]]]; [right; congruence|left; congruence|right; congruence].
        + destruct (B1 s Hs) as [Z|Z]; [auto|]. destruct S as [[S [Q|Q]]|[S _]]; [left; congruence|right; congruence|right; congruence].
      - destruct S as [[S _]|[S _]]; [destruct A2 as (s & Hs & Z)|destruct B2 as (s & Hs & Z)];
          exists s; (split; [apply in_or_app; auto|congruence]).
      - intros idx Hi. rewrite (H idx Hi), Hv. reflexivity. }
    set (rr := fun i => match qb h (ith ra i) (ith rb i) with Ok r => r | Err _ => mk_nda [] [] end).
    destruct (apply_arrays F [ga; gb] [ra; rb] rr) as (out & n & Eo & Ln & Vo).
    - discriminate.
    - constructor; [auto|constructor; [auto|constructor]].
    - constructor; [auto|constructor; [auto|constructor]].
    - intros i gs Lg. destruct gs as [|g1 [|g2 [|]]]; try discriminate. cbn [List.map rev app].
      destruct (HF g2 g1 (ith ra i) (ith rb i) (Sc i)) as (g' & r & E & Eq). exists g'. rewrite E. unfold rr. now rewrite Eq.
    - exists out, (List.map rr (seq 0 n)). split; [|split; [exact Vo|]].
      + rewrite Ht. cbn [Ev_Props2.meaning List.map all_ok]. rewrite Ea, Eb. cbn [bind all_ok]. rewrite Hc. exact Eo.
      + assert (Hn : (0 < n)%nat).
        { destruct Ln as [Ln _]. inversion Ln; subst. destruct ra; [congruence|cbn in *; lia]. }
        split.
        * rewrite Ht, leaves_bin, map_app, map_length, seq_length. destruct Ca as [[La1 La2] _], Cb as [[Lb1 Lb2] _], Ln as [Ln1 Ln2].
          inversion Ln1 as [|? ? N1 Ln1']; subst. inversion Ln1' as [|? ? N2 _]; subst. split.
          -- apply Forall_app. split; (eapply Forall_impl; [|eassumption]); cbn beta; intros; lia.
          -- apply Exists_app. inversion Ln2 as [? ? Q|? ? Q]; subst; [left|right].
             ++ exact La2.
             ++ inversion Q as [? ? Q'|? ? Q']; subst; [|inversion Q']. exact Lb2.
        * intros i. rewrite ith_map_seq by auto. set (j := Nat.min i (n - 1)).
          apply (result_at_transfer (mk a b) i j).
          -- intros s Hs. destruct (Nat.eq_dec i j) as [Eij|Hij]; [now rewrite <- Eij|].
             rewrite Ht, leaves_bin in Hs.
             assert (Hle : (length (arrs s) <= n)%nat).
             { destruct Ln as [Ln _]. inversion Ln as [|? ? N1 Ln']; subst. inversion Ln' as [|? ? N2 _]; subst.
               apply in_app_or in Hs. destruct Hs as [Hs|Hs];
                 [pose proof (leaves_len a ra s Ca Hs)|pose proof (leaves_len b rb s Cb Hs)]; lia. }
             apply ith_same; [lia|lia|lia|]. apply (Hl s Hs).
          -- destruct (Hr j) as (r & Er & Rj). unfold rr. rewrite Er. exact Rj.
  Qed.

  Definition un_exp (op : string) (mk : aexp -> aexp) (h : Q -> Q) : Prop :=
    In op operators /\ cmds op = Some (1%nat, un (el h)) /\
    (forall a, to_expr (mk a) = Node op [to_expr a]) /\
    (forall l a, value ufun qpow l (mk a) = h (value ufun qpow l a)).

  Lemma un_case op mk h a :
    un_exp op mk h ->
    (forall s, In s (leaves (to_expr (mk a))) -> leaf_ok s) ->
    (exists (g : group) rs, meaning (to_expr a) = Ok g /\ shows g rs /\ computes a rs) ->
    exists (g : group) rs, meaning (to_expr (mk a)) = Ok g /\ shows g rs /\ computes (mk a) rs.
  Proof.
    intros (Ho & Hc & Ht & Hv) Hl (ga & ra & Ea & Ra & Ca). rewrite Ht, leaves_un in Hl.
    assert (Na : ra <> []) by (apply (computes_nonempty a); auto; intros s Hs; apply Hl; auto).
    destruct (apply_arrays (un (el h)) [ga] [ra] (fun i => map_nda h (ith ra i))) as (out & n & Eo & Ln & Vo).
    - discriminate.
    - constructor; [auto|constructor].
    - constructor; [auto|constructor].
    - intros i gs Lg. destruct gs as [|g1 [|]]; try discriminate. cbn. eauto.
    - assert (n = length ra) as ->.
      { destruct Ln as [_ Ln]. inversion Ln as [? ? Q|? ? Q]; subst; [auto|inversion Q]. }
      exists out, (List.map (fun i => map_nda h (ith ra i)) (seq 0 (length ra))). split; [|split; [exact Vo|]].
      + rewrite Ht. cbn [Ev_Props2.meaning List.map all_ok]. rewrite Ea. cbn [bind all_ok]. rewrite Hc. exact Eo.
      + assert (Hn : (0 < length ra)%nat) by (destruct ra; [congruence|cbn; lia]). split.
        * rewrite Ht, leaves_un, map_length, seq_length. apply Ca.
        * intros i. rewrite ith_map_seq by auto. set (j := Nat.min i (length ra - 1)).
          apply (result_at_transfer (mk a) i j).
          -- intros s Hs. destruct (Nat.eq_dec i j) as [Eij|Hij]; [now rewrite <- Eij|]. rewrite Ht, leaves_un in Hs.
             pose proof (leaves_len a ra s Ca Hs). apply ith_same; [lia|lia|lia|]. apply (Hl s Hs).
          -- destruct Ca as [_ Ca]. destruct (Ca j) as (W & A1 & A2 & A3). split; [|rewrite Ht, leaves_un; split; [|split]].
             ++ unfold wf in *. cbn. now rewrite map_length.
             ++ exact A1.
             ++ exact A2.
             ++ intros idx Hi. cbn [shape map_nda] in Hi. specialize (A3 idx Hi). unfold get in *. cbn [shape flat map_nda].
                destruct (ravel (shape (ith ra j)) idx); [|discriminate]. rewrite nth_error_map, A3, Hv. reflexivity.
  Qed.

  Lemma qb_bin_exp op mk h f :
    In op operators -> cmds op = Some (2%nat, bin f) ->
    (forall a b, to_expr (mk a b) = Node op [to_expr a; to_expr b]) ->
    (forall l a b, value ufun qpow l (mk a b) = h (value ufun qpow l a) (value ufun qpow l b)) ->
    (forall x y, shape x = shape y \/ shape x = [] \/ shape y = [] -> f y x = qb h x y) ->
    bin_exp op mk h (bin f).
  Proof.
    intros H1 H2 H3 H4 H5. split; [auto|]. split; [auto|]. split; [auto|]. split; [auto|]. intros ga gb x y S.
    assert (K : exists r, qb h x y = Ok r).
    { destruct S as [S|[S|S]]; [destruct (qb_same h x y S) as (r & E & _)|destruct (qb_scalar h x y S) as (r & E & _)
                               |destruct (qb_scalar_r h x y S) as (r & E & _)]; eauto. }
    destruct K as [r E]. exists (get_grid_ev gb ga), r. split; [|exact E]. cbn. rewrite (H5 x y S), E. reflexivity.
  Qed.

  Lemma meaning_computes e :
    good_funs e -> (forall s, In s (leaves (to_expr e)) -> leaf_ok s) ->
    exists (g : group) rs, meaning (to_expr e) = Ok g /\ shows g rs /\ computes e rs.
  Proof.
    assert (Op : forall n, (n < length operators)%nat -> In (nth n operators ""%string) operators) by (intros; now apply nth_In).
    induction e; intros Hg Hl.
    - destruct (Hl s) as ((g & i & E & Ev) & Hn & Hs); [now left|]. exists g, (arrs s). split; [|split; [exact Ev|]].
      + cbn [to_expr Ev_Props2.meaning]. rewrite E. reflexivity.
      + split.
        * cbn. split; [constructor; [lia|constructor]|now left].
        * intros i'. destruct (Hs i') as [W S]. split; [exact W|]. cbn [to_expr leaves]. split; [|split].
          -- intros q [<-|[]]. now right.
          -- exists s. split; [now left|reflexivity].
          -- intros idx Hi. cbn [value]. unfold cell. destruct (shape (ith (arrs s) i')) eqn:Es.
             ++ inversion Hi; subst. destruct (get_in _ [] W) as [v Ev']; [rewrite Es; constructor|]. now rewrite Ev'.
             ++ destruct (get_in _ idx W) as [v Ev']; [now rewrite Es|]. now rewrite Ev'.
    - destruct Hg as [G1 G2]. assert (L1 : forall s, In s (leaves (to_expr e1)) -> leaf_ok s)
        by (intros; apply Hl; cbn [to_expr]; rewrite leaves_bin; apply in_or_app; auto).
      assert (L2 : forall s, In s (leaves (to_expr e2)) -> leaf_ok s)
        by (intros; apply Hl; cbn [to_expr]; rewrite leaves_bin; apply in_or_app; auto).
      apply (bin_case "+" Add Qplus (bin v_add)); auto. apply qb_bin_exp; auto.
      + apply (Op 0%nat); cbn; lia.
      + intros x y _. unfold v_add. rewrite qb_flip. apply qb_ext. intros; apply Qplus_comm_eq.
    - destruct Hg as [G1 G2]. assert (L1 : forall s, In s (leaves (to_expr e1)) -> leaf_ok s)
        by (intros; apply Hl; cbn [to_expr]; rewrite leaves_bin; apply in_or_app; auto).
      assert (L2 : forall s, In s (leaves (to_expr e2)) -> leaf_ok s)
        by (intros; apply Hl; cbn [to_expr]; rewrite leaves_bin; apply in_or_app; auto).
      apply (bin_case "-" Sub Qminus (bin v_sub)); auto. apply qb_bin_exp; auto.
      apply (Op 1%nat); cbn; lia.
    - destruct Hg as [G1 G2]. assert (L1 : forall s, In s (leaves (to_expr e1)) -> leaf_ok s)
        by (intros; apply Hl; cbn [to_expr]; rewrite leaves_bin; apply in_or_app; auto).
      assert (L2 : forall s, In s (leaves (to_expr e2)) -> leaf_ok s)
        by (intros; apply Hl; cbn [to_expr]; rewrite leaves_bin; apply in_or_app; auto).
      apply (bin_case "*" Mul Qmult (bin v_mult)); auto. apply qb_bin_exp; auto.
      + apply (Op 2%nat); cbn; lia.
      + intros x y S. unfold v_mult. apply v_lead_qb. destruct S as [S|[S|S]]; auto.
    - destruct Hg as [G1 G2]. assert (L1 : forall s, In s (leaves (to_expr e1)) -> leaf_ok s)
        by (intros; apply Hl; cbn [to_expr]; rewrite leaves_bin; apply in_or_app; auto).
      assert (L2 : forall s, In s (leaves (to_expr e2)) -> leaf_ok s)
        by (intros; apply Hl; cbn [to_expr]; rewrite leaves_bin; apply in_or_app; auto).
      apply (bin_case "/" Div Qdiv (bin v_div)); auto. apply qb_bin_exp; auto.
      + apply (Op 3%nat); cbn; lia.
      + intros x y S. unfold v_div. apply v_lead_qb. destruct S as [S|[S|S]]; auto.
    - destruct Hg as [G1 G2]. assert (L1 : forall s, In s (leaves (to_expr e1)) -> leaf_ok s)
        by (intros; apply Hl; cbn [to_expr]; rewrite leaves_bin; apply in_or_app; auto).
      assert (L2 : forall s, In s (leaves (to_expr e2)) -> leaf_ok s)
        by (intros; apply Hl; cbn [to_expr]; rewrite leaves_bin; apply in_or_app; auto).
      apply (bin_case "pow" Pow qpow (v_pow qpow)); auto. split; [apply (Op 4%nat); cbn; lia|].
      split; [reflexivity|]. split; [reflexivity|]. split; [reflexivity|]. intros ga gb x y S.
      assert (K : exists r, qb qpow x y = Ok r).
      { destruct S as [S|[S|S]]; [destruct (qb_same qpow x y S) as (r & E & _)|destruct (qb_scalar qpow x y S) as (r & E & _)
                                 |destruct (qb_scalar_r qpow x y S) as (r & E & _)]; eauto. }
      destruct K as [r E]. exists ga, r. split; [|exact E]. cbn. rewrite E. reflexivity.
    - destruct Hg as [G1 G2]. assert (L1 : forall s, In s (leaves (to_expr e1)) -> leaf_ok s)
        by (intros; apply Hl; cbn [to_expr]; rewrite leaves_bin; apply in_or_app; auto).
      assert (L2 : forall s, In s (leaves (to_expr e2)) -> leaf_ok s)
        by (intros; apply Hl; cbn [to_expr]; rewrite leaves_bin; apply in_or_app; auto).
      apply (bin_case "max2" Max2 (fun x y => qmax y x) (bin (qb qmax))); auto. apply qb_bin_exp; auto.
      + apply (Op 5%nat); cbn; lia.
      + intros x y _. apply qb_flip.
    - destruct Hg as [G1 G2]. assert (L1 : forall s, In s (leaves (to_expr e1)) -> leaf_ok s)
        by (intros; apply Hl; cbn [to_expr]; rewrite leaves_bin; apply in_or_app; auto).
      assert (L2 : forall s, In s (leaves (to_expr e2)) -> leaf_ok s)
        by (intros; apply Hl; cbn [to_expr]; rewrite leaves_bin; apply in_or_app; auto).
      apply (bin_case "min2" Min2 (fun x y => qmin y x) (bin (qb qmin))); auto. apply qb_bin_exp; auto.
      + apply (Op 6%nat); cbn; lia.
      + intros x y _. apply qb_flip.
    - assert (L1 : forall s, In s (leaves (to_expr e)) -> leaf_ok s)
        by (intros; apply Hl; cbn [to_expr]; rewrite leaves_un; auto).
      apply (un_case "abs" Abs Qabs); auto. split; [apply (Op 7%nat); cbn; lia|]. split; [reflexivity|]. split; reflexivity.
    - assert (L1 : forall s, In s (leaves (to_expr e)) -> leaf_ok s)
        by (intros; apply Hl; cbn [to_expr]; rewrite leaves_un; auto).
      apply (un_case "sq" Sq (fun x => x * x)%Q); auto. split; [apply (Op 8%nat); cbn; lia|]. split; [reflexivity|]. split; reflexivity.
    - destruct Hg as [Gf Hg]. assert (L1 : forall s, In s (leaves (to_expr e)) -> leaf_ok s)
        by (intros; apply Hl; cbn [to_expr]; rewrite leaves_un; auto).
      apply (un_case f (Fun f) (ufun f)); auto. split; [apply in_or_app; now right|]. split; [|split; reflexivity].
      cbn in Gf. destruct Gf as [<-|[<-|[<-|[<-|[<-|[<-|[<-|[]]]]]]]]; reflexivity.
  Qed.

  Lemma wf_to_expr e : good_funs e -> (forall s, In s (leaves (to_expr e)) -> leaf_ok s) -> wf_expr (to_expr e).
  Proof.
    assert (Op : forall n, (n < length operators)%nat -> In (nth n operators ""%string) operators) by (intros; now apply nth_In).
    induction e; cbn [good_funs to_expr]; intros Hg Hl.
    1:{ destruct (Hl s) as ((g & i & E & _) & _); [now left|]. cbn. rewrite E. eauto. }
    all: try (rewrite leaves_bin in Hl; destruct Hg as [G1 G2];
      specialize (IHe1 G1 (fun s H => Hl s (in_or_app _ _ _ (or_introl H))));
      specialize (IHe2 G2 (fun s H => Hl s (in_or_app _ _ _ (or_intror H))))).
    all: try (rewrite leaves_un in Hl; try specialize (IHe Hg Hl)).
    - split; [apply op_token, (Op 0%nat); cbn; lia|]. split; [discriminate|]. split; [eexists; reflexivity|]. cbn; auto.
    - split; [apply op_token, (Op 1%nat); cbn; lia|]. split; [discriminate|]. split; [eexists; reflexivity|]. cbn; auto.
    - split; [apply op_token, (Op 2%nat); cbn; lia|]. split; [discriminate|]. split; [eexists; reflexivity|]. cbn; auto.
    - split; [apply op_token, (Op 3%nat); cbn; lia|]. split; [discriminate|]. split; [eexists; reflexivity|]. cbn; auto.
    - split; [apply op_token, (Op 4%nat); cbn; lia|]. split; [discriminate|]. split; [eexists; reflexivity|]. cbn; auto.
    - split; [apply op_token, (Op 5%nat); cbn; lia|]. split; [discriminate|]. split; [eexists; reflexivity|]. cbn; auto.
    - split; [apply op_token, (Op 6%nat); cbn; lia|]. split; [discriminate|]. split; [eexists; reflexivity|]. cbn; auto.
    - split; [apply op_token, (Op 7%nat); cbn; lia|]. split; [discriminate|]. split; [eexists; reflexivity|]. cbn; auto.
    - split; [apply op_token, (Op 8%nat); cbn; lia|]. split; [discriminate|]. split; [eexists; reflexivity|]. cbn; auto.
    - destruct Hg as [Gf Hg]. specialize (IHe Hg Hl).
      split; [apply op_token, in_or_app; now right|]. split; [discriminate|]. split; [|cbn; auto].
      cbn in Gf. destruct Gf as [<-|[<-|[<-|[<-|[<-|[<-|[<-|[]]]]]]]]; eexists; reflexivity.
  Qed.

  (** Evaluating the reverse Polish form of an arithmetic expression pushes one
      group of arrays: as many as the largest leaf group has, the [i]-th one
      with the common shape of the [i]-th leaf arrays, and in every cell the
      value of the expression at that cell. *)
  Theorem C24_arithmetic e st :
    good_funs e -> (forall s, In s (leaves (to_expr e)) -> leaf_ok s) ->
    exists st' (out : group) rs,
      run ds tags oa (postfix (to_expr e)) st = Ok st' /\ stack st' = out :: stack st /\
      List.map e_val out = List.map VArr rs /\
      largest_size (List.map arrs (leaves (to_expr e))) (length rs) /\
      forall i, (i < length rs)%nat -> result_at e i (ith rs i).
  Proof.
    intros Hg Hl. destruct (meaning_computes e Hg Hl) as (g & rs & E & Ev & [L R]).
    pose proof (C24_postfix psel meta meta_val (@None (list garr)) parse_float py_eval VStr mcmp cmds ds tags oa (to_expr e) st
                  (wf_to_expr e Hg Hl)) as P. rewrite E in P. destruct P as (st' & E1 & S1).
    exists st', g, rs. split; [exact E1|]. split; [exact S1|]. split; [exact (proj1 Ev)|]. split; [exact L|]. auto.
  Qed.
End Arithmetic.
