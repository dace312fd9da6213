(** * Component extraction, stacking of fields and refined grids. *)
From Coq Require Import String Ascii List Arith ZArith QArith Bool Lia.
From Verif Require Import Prelude PreludeFacts NdArray Gkyl_Model Gkyl_Proofs3
  Dg_Poly Dg_Model Dg_Spec Dg_Proofs.
Import ListNotations.
Open Scope string_scope.
Open Scope list_scope.
Open Scope nat_scope.

Lemma map_seq0_lengths cells : List.map (@length nat) (List.map (seq 0) cells) = cells.
Proof. rewrite map_map. erewrite map_ext; [apply map_id|]. intros; apply seq_length. Qed.

Lemma take_last_axis {A} (q : nda A) cells nc ks :
  wf q -> shape q = cells ++ [nc] -> (forall k, In k ks -> k < nc) ->
  let r := take (List.map (seq 0) cells ++ [ks]) q in
  wf r /\ shape r = cells ++ [length ks] /\
  forall i m k, in_range cells i -> nth_error ks m = Some k -> get r (i ++ [m]) = get q (i ++ [k]).
Proof.
  intros W S Hk. cbv zeta.
  assert (Hs : Forall2 (fun s n => forall i, In i s -> i < n) (List.map (seq 0) cells ++ [ks]) (shape q)).
  { rewrite S. apply Forall2_app; [|constructor; auto].
    clear. induction cells; simpl; constructor; auto. intros i Hi. apply in_seq in Hi. lia. }
  split; [apply wf_take; auto|]. split.
  - cbn [take shape]. rewrite map_app, map_seq0_lengths. reflexivity.
  - intros i m k Hi Hm. apply get_take; auto.
    + rewrite map_app, map_seq0_lengths. apply Forall2_app; auto. constructor; [|constructor].
      cbn. assert (m < length ks) by (apply nth_error_Some; congruence). auto.
    + clear W S Hs. unfold in_range in Hi. induction Hi as [|i0 c i cells Hic _ IH]; cbn.
      * constructor; [exact Hm|constructor].
      * constructor; [|exact IH]. cbn [fst snd]. rewrite nth_error_seq.
        destruct (Nat.ltb_spec i0 c); [reflexivity|lia].
Qed.

Section Stack.
  Context {F : Type} (fo : fops F).

  Lemma append_comp_ok (vals v : nda F) sh m :
    wf vals -> wf v -> shape vals = sh ++ [m] -> shape v = sh ->
    exists out, append_comp fo vals v = Ok out /\ wf out /\ shape out = sh ++ [S m] /\
      (forall x j, in_range sh x -> j < m -> get out (x ++ [j]) = get vals (x ++ [j])) /\
      (forall x, in_range sh x -> get out (x ++ [m]) = get v x).
  Proof.
    intros W Wv S Sv. unfold append_comp. rewrite S, Sv, removelast_last, last_last, list_nat_eqb_refl.
    eexists; split; [reflexivity|]. split; [apply wf_tabulate|]. split; [reflexivity|].
    split.
    - intros x j Hx Hj. rewrite get_tabulate.
      2:{ apply Forall2_app; auto. }
      rewrite last_last. destruct (Nat.ltb_spec j m); [|lia]. symmetry. apply getz_get; auto.
      rewrite S. apply Forall2_app; auto.
    - intros x Hx. rewrite get_tabulate.
      2:{ apply Forall2_app; auto. }
      rewrite last_last, removelast_last. destruct (Nat.ltb_spec m m); [lia|]. symmetry. apply getz_get; auto.
      rewrite Sv. exact Hx.
  Qed.


  Lemma ravel_new_axis sh x : in_range sh x -> ravel (sh ++ [1]) (x ++ [0]) = ravel sh x.
  Proof.
    unfold in_range. intros H. induction H as [|i n x sh Hi _ IH]; [reflexivity|].
    cbn [app ravel]. destruct (i <? n); [|reflexivity].
    rewrite IH. destruct (ravel sh x); [|reflexivity]. cbn [option_map].
    rewrite prod_app. cbn. do 2 f_equal. lia.
  Qed.

  Lemma new_axis_ok (v : nda F) :
    wf v -> wf (new_axis v) /\ shape (new_axis v) = shape v ++ [1] /\
    forall x, in_range (shape v) x -> get (new_axis v) (x ++ [0]) = get v x.
  Proof.
    intros W. split; [|split; [reflexivity|]].
    - unfold wf, new_axis in *. cbn [flat shape]. rewrite prod_app. cbn. lia.
    - intros x Hx. unfold get, new_axis. cbn [shape flat]. rewrite ravel_new_axis by auto. reflexivity.
  Qed.

  Lemma stack_fields_ok (field : nat -> res (nda F)) (val : nat -> nda F) comps sh :
    comps <> [] ->
    (forall c, In c comps -> field c = Ok (val c) /\ wf (val c) /\ shape (val c) = sh) ->
    exists out, stack_fields fo field comps = Ok out /\ wf out /\ shape out = sh ++ [length comps] /\
      forall j c x, nth_error comps j = Some c -> in_range sh x -> get out (x ++ [j]) = get (val c) x.
  Proof.
    destruct comps as [|c0 cs]; [congruence|]. intros _ H. unfold stack_fields.
    destruct (H c0 (or_introl eq_refl)) as (E0 & W0 & S0). rewrite E0. cbn [bind].
    destruct (new_axis_ok (val c0) W0) as (Wn & Sn & Vn).
    assert (Gen : forall done vals, wf vals -> shape vals = sh ++ [length done] ->
      (forall j c x, nth_error done j = Some c -> in_range sh x -> get vals (x ++ [j]) = get (val c) x) ->
      (forall c, In c cs -> field c = Ok (val c) /\ wf (val c) /\ shape (val c) = sh) ->
      exists out, fold_left (fun acc c => let* vals := acc in let* v := field c in append_comp fo vals v) cs (Ok vals) = Ok out
        /\ wf out /\ shape out = sh ++ [length (done ++ cs)] /\
        forall j c x, nth_error (done ++ cs) j = Some c -> in_range sh x -> get out (x ++ [j]) = get (val c) x).
    { clear. induction cs as [|c cs IH]; intros done vals W S V H.
      - exists vals. rewrite app_nil_r. cbn. auto.
      - destruct (H c (or_introl eq_refl)) as (Ec & Wc & Sc).
        destruct (append_comp_ok vals (val c) sh (length done) W Wc S Sc) as (o1 & E1 & W1 & S1 & A1 & B1).
        destruct (IH (done ++ [c]) o1 W1) as (o2 & E2 & W2 & S2 & V2).
        + rewrite S1, app_length. cbn. do 3 f_equal. lia.
        + intros j c' x Hj Hx. destruct (Nat.lt_ge_cases j (length done)) as [L|L].
          * rewrite nth_error_app1 in Hj by auto. rewrite A1 by auto. eauto.
          * rewrite nth_error_app2 in Hj by auto.
            destruct (j - length done) as [|t] eqn:Ej; cbn in Hj; [|destruct t; discriminate].
            injection Hj as <-. replace j with (length done) by lia. apply B1; auto.
        + intros; apply H; right; auto.
        + exists o2. cbn [fold_left bind]. rewrite Ec. cbn [bind]. rewrite E1, E2.
          rewrite <- app_assoc in S2, V2. cbn [app] in S2, V2. auto. }
    destruct (Gen [c0] (new_axis (val c0)) Wn) as (out & E & W & S & V).
    - rewrite Sn, S0. reflexivity.
    - intros [|[|j]] c x Hj Hx; cbn in Hj; try discriminate. injection Hj as <-.
      apply Vn. rewrite S0. exact Hx.
    - intros c Hc. apply H. right. exact Hc.
    - exists out. rewrite E. cbn [app] in *. auto.
  Qed.
End Stack.
