(** * C55: nodal bases and nodal interpolation. *)
From Coq Require Import String List Arith ZArith QArith Qreals Reals Lia Lra Bool.
From Coquelicot Require Import Coquelicot.
From Verif Require Import Prelude PreludeFacts NdArray Gkyl_Model Gkyl_Proofs3 Dg_Poly Dg_TabI Dg_TabD Dg_Model Dg_Spec
  Dg_Proofs Dg_Proofs2 Dg_Props Dg_Props2 Dg_Props3 Dg_Sem Dg_Int Dg_GramTab Dg_Gram Dg_Props5 Dg_Nodal.
Import ListNotations.
Open Scope string_scope.
Open Scope list_scope.
Open Scope R_scope.

Lemma nodal_ok_parts d p fs :
  nodal_ok d p fs = true ->
  (0 < p)%nat /\ length fs = length (nodesQ d p) /\
  exists cs, length cs = length fs /\
    (forall i f, nth_error fs i = Some f -> exists c, nth_error cs i = Some c /\ forall x, length x = d -> evalR f x = evalP (toR c) x) /\
    (forall a, In a (family_monomials d p) -> is_mono a (collect (sampled (nodesQ d p) cs a)) = true) /\
    (forall i j c x, nth_error cs i = Some c -> nth_error (nodesQ d p) j = Some x -> Qeq_bool (evalPQ c x) (qdelta j i) = true).
Proof.
  unfold nodal_ok. destruct (allq d fs) as [ts|] eqn:E; [|discriminate]. intros H.
  apply andb_prop in H. destruct H as [H H4]. apply andb_prop in H. destruct H as [H H3].
  apply andb_prop in H. destruct H as [H1 H2]. apply Nat.eqb_eq in H1. apply Nat.ltb_lt in H2.
  split; [exact H2|]. split; [exact H1|]. exists (List.map collect ts).
  assert (A : forall fs ts, allq d fs = Some ts -> length ts = length fs /\
     forall i f, nth_error fs i = Some f -> exists t, nth_error ts i = Some t /\ terms d f = Some t).
  { clear. induction fs as [|f fs IH]; cbn [allq]; intros ts H.
    - injection H as <-. split; [reflexivity|]. intros [|i] f Hf; discriminate.
    - destruct (terms d f) as [t|] eqn:Et; [|discriminate]. destruct (allq d fs) as [ts'|]; [|discriminate].
      injection H as <-. destruct (IH _ eq_refl) as [L N]. split; [cbn; congruence|].
      intros [|i] g; cbn; intros Hg; [injection Hg as <-; eauto|apply N, Hg]. }
  destruct (A _ _ E) as [L N]. split; [rewrite map_length; exact L|]. split; [|split].
  - intros i f Hf. destruct (N i f Hf) as (t & Ht & Tt). exists (collect t). split; [rewrite nth_error_map, Ht; reflexivity|].
    intros x Hx. rewrite collect_ok. apply (terms_correct d f t x Tt Hx).
  - rewrite forallb_forall in H3. exact H3.
  - intros i j c x Hc Hx. rewrite forallb_forall in H4.
    assert (CI : forall {T} (l : list T) n t, nth_error l n = Some t -> In (n, t) (combine (seq 0 (length l)) l)).
    { intros T l n t Hn. assert (G : forall l s n, nth_error l n = Some t -> In ((s + n)%nat, t) (combine (seq s (length l)) l)).
      { clear. induction l as [|b l IH]; intros s [|n]; cbn; try discriminate; [intros [= ->]; left; f_equal; lia|].
        intros Hn. right. replace (s + S n)%nat with (S s + n)%nat by lia. apply IH, Hn. }
      apply (G l 0%nat n Hn). }
    specialize (H4 (j, x) (CI _ _ _ _ Hx)). rewrite forallb_forall in H4. exact (H4 (i, c) (CI _ _ _ _ Hc)).
Qed.

Lemma nodes_Q d p : (0 < p)%nat -> nodes d p = List.map (List.map Q2R) (nodesQ d p).
Proof.
  intros Hp. unfold nodes, nodesQ. rewrite map_map. apply map_ext. intros ks. rewrite map_map. apply map_ext. intros k.
  rewrite node_coordQ_ok by exact Hp. reflexivity.
Qed.

Lemma in_indices sh i : In i (indices sh) <-> in_range sh i.
Proof.
  unfold in_range. revert i. induction sh as [|n sh IH]; intros i; cbn [indices].
  - split; [intros [<-|[]]; constructor|]. intros H. inversion_clear H. left. reflexivity.
  - rewrite in_flat_map. split.
    + intros (k & Hk & Hi). apply in_seq in Hk. apply in_map_iff in Hi. destruct Hi as (j & <- & Hj).
      constructor; [lia|]. apply IH, Hj.
    + intros H. inversion H as [|k ? j ? Hk Hj E1 E2]; subst. exists k. split; [apply in_seq; lia|].
      apply in_map. apply IH, Hj.
Qed.

Lemma node_indices_length d p ks : In ks (node_indices d p) -> length ks = d.
Proof.
  unfold node_indices. intros H. apply filter_In in H. destruct H as [H _]. apply in_map_iff in H. destruct H as (i & <- & Hi).
  rewrite rev_length. apply in_indices in Hi. apply in_range_length in Hi. rewrite repeat_length in Hi. exact Hi.
Qed.

Lemma nodes_length_each d p x : In x (nodes d p) -> length x = d.
Proof. unfold nodes. intros H. apply in_map_iff in H. destruct H as (ks & <- & Hk). rewrite map_length. eapply node_indices_length; eauto. Qed.

Lemma evalPQ_ok c x : Q2R (evalPQ c x) = evalP (toR c) (List.map Q2R x).
Proof.
  unfold evalPQ, evalP. induction c as [|t c IH]; cbn [fold_right toR List.map fst snd]; [unfold Q2R; cbn; field|].
  rewrite (Qeq_eqR _ _ (Qred_correct _)), Q2R_plus, Q2R_mult, Q2R_mono, IH. reflexivity.
Qed.

(** Each function is one at its own node and zero at the others. *)
Theorem C55_cardinal :
  forall d p b fs, interp_functions d p false b = Ok fs ->
    length fs = length (nodes d p) /\
    forall i j f x, nth_error fs i = Some f -> nth_error (nodes d p) j = Some x ->
      evalR f x = if Nat.eqb i j then 1 else 0.
Proof.
  intros d p b fs H. apply nodal_tables in H. apply nodal_ok_parts in H.
  destruct H as (Hp & L & cs & Lc & N & _ & K). split; [rewrite nodes_Q, map_length by exact Hp; exact L|].
  intros i j f x Hi Hj. destruct (N i f Hi) as (c & Hc & V).
  rewrite V by (eapply nodes_length_each, nth_error_In; eauto).
  rewrite nodes_Q, nth_error_map in Hj by exact Hp. destruct (nth_error (nodesQ d p) j) as [y|] eqn:Ej; [|discriminate].
  cbn in Hj. injection Hj as <-. specialize (K i j c y Hc Ej). apply Qeq_bool_eq, Qeq_eqR in K.
  rewrite evalPQ_ok in K. rewrite K. unfold qdelta. rewrite (Nat.eqb_sym j i).
  destruct (Nat.eqb i j); unfold Q2R; cbn; field.
Qed.

Lemma in_family_monomials d p a : length a = d -> in_serendipity p a = true -> (0 < p)%nat -> In a (family_monomials d p).
Proof.
  intros L H Hp. unfold family_monomials. apply filter_In. split; [|exact H]. apply in_indices. subst d.
  unfold in_serendipity in H. destruct (Nat.eqb_spec p 0); [lia|]. apply Nat.leb_le in H.
  revert H. unfold in_range. induction a as [|e a IH]; cbn [superlinear_degree fold_right length repeat]; intros H; constructor.
  - destruct (Nat.leb_spec 2 e); lia.
  - apply IH. unfold superlinear_degree. lia.
Qed.

Lemma sampled_ok xs cs a x d fs :
  length xs = length fs -> length cs = length fs -> length x = d ->
  (forall i f, nth_error fs i = Some f -> exists c, nth_error cs i = Some c /\ forall x, length x = d -> evalR f x = evalP (toR c) x) ->
  evalP (toR (sampled xs cs a)) x = expansion (List.map (fun y => mono (List.map Q2R y) a) xs) fs x.
Proof.
  revert cs fs. induction xs as [|y xs IH]; intros [|c cs] [|f fs] L1 L2 Hx N; cbn [length] in *; try lia; [reflexivity|].
  cbn [sampled combine flat_map List.map fst snd]. rewrite toR_app, evalP_app.
  fold (sampled xs cs a). rewrite (IH cs fs); try lia.
  2:{ intros i g Hg. exact (N (S i) g Hg). }
  change (expansion (mono (List.map Q2R y) a :: List.map (fun y0 => mono (List.map Q2R y0) a) xs) (f :: fs) x)
    with (mono (List.map Q2R y) a * evalR f x + expansion (List.map (fun y0 => mono (List.map Q2R y0) a) xs) fs x).
  f_equal. destruct (N 0%nat f eq_refl) as (c' & Hc & V). injection Hc as <-. rewrite (V x Hx), <- Q2R_mono.
  destruct (Qeq_bool (monoQ y a) 0) eqn:E.
  - apply Qeq_bool_eq, Qeq_eqR in E. rewrite E. replace (Q2R 0) with 0 by (unfold Q2R; cbn; field). cbn. ring.
  - rewrite <- evalP_scale. f_equal. unfold toR, scaleP, scale_q. rewrite !map_map. apply map_ext. intros t. cbn [fst snd].
    rewrite (Qeq_eqR _ _ (Qred_correct _)), Q2R_mult. reflexivity.
Qed.

Lemma expansion_add u v fs x (k : R) :
  length u = length fs -> length v = length fs ->
  expansion (map2 (fun a b => k * a + b) u v) fs x = k * expansion u fs x + expansion v fs x.
Proof.
  revert u v. induction fs as [|f fs IH]; intros [|a u] [|b v] H1 H2; cbn in H1, H2; try lia; [unfold expansion; cbn; ring|].
  unfold expansion in *. cbn [map2 combine fold_right fst snd]. rewrite IH by lia. ring.
Qed.

(** Sampling a polynomial of the space at the nodes and interpolating gives the
    polynomial back, everywhere. *)
Theorem C55_exact :
  forall d p b fs (q : list (R * list nat)), interp_functions d p false b = Ok fs ->
    List.Forall (fun t => length (snd t) = d /\ in_serendipity p (snd t) = true) q ->
    forall x, length x = d -> expansion (List.map (evalP q) (nodes d p)) fs x = evalP q x.
Proof.
  intros d p b fs q H Hq x Hx. apply nodal_tables in H. apply nodal_ok_parts in H.
  destruct H as (Hp & L & cs & Lc & N & M & _).
  assert (Ln : length (nodes d p) = length fs) by (rewrite nodes_Q, map_length by exact Hp; congruence).
  induction Hq as [|t q [Ht Hs] Hq IH].
  - clear - Ln. unfold evalP; cbn [fold_right]. unfold expansion. revert Ln. generalize (nodes d p) as l.
    induction fs as [|f fs IH]; intros [|y l] Ln; cbn in Ln; try lia; [reflexivity|].
    cbn [List.map combine fold_right fst snd]. rewrite IH by lia. ring.
  - assert (Hmono : expansion (List.map (fun y => mono y (snd t)) (nodes d p)) fs x = mono x (snd t)).
    { rewrite nodes_Q, map_map by exact Hp. rewrite <- (sampled_ok (nodesQ d p) cs (snd t) x d fs); auto.
      rewrite <- collect_ok. apply is_mono_ok. apply M. apply in_family_monomials; auto. }
    replace (List.map (evalP (t :: q)) (nodes d p))
      with (map2 (fun a b => fst t * a + b) (List.map (fun y => mono y (snd t)) (nodes d p)) (List.map (evalP q) (nodes d p))).
    + rewrite expansion_add by (rewrite map_length; exact Ln). rewrite Hmono, IH. reflexivity.
    + clear. induction (nodes d p) as [|y l IH]; cbn [List.map map2]; [reflexivity|]. rewrite IH. reflexivity.
Qed.

(** Nodal interpolation evaluates the expansion at the sub-cell centres. *)
Theorem C55_interpolated_value root (d : dgdata) (p n E : nat) comps cells fs :
  wf (dd_values d) -> shape (dd_values d) = cells ++ [(E * length fs)%nat] ->
  (1 <= length cells)%nat ->
  interp_functions (length cells) p false "serendipity" = Ok fs -> (2 <= n)%nat ->
  comps <> [] -> (forall c, In c comps -> (c < E)%nat) ->
  (forall gr, make_1d_grids rops (repeat (root (length cells) (n ^ length cells)%nat) (length cells)) (dd_grid d) (length cells) None = Ok gr ->
  let ns := repeat n (length cells) in
  exists v, nodal_interpolate rops rdot evalR root d p "ns" (Some n) comps = Ok (gr, v) /\ wf v /\
    shape v = refined_shape cells ns ++ [length comps] /\
    forall j c i k, nth_error comps j = Some c -> in_range cells i -> in_range ns k ->
      exists u, length u = length fs /\
        (forall m, (m < length fs)%nat -> nth_error u m = get (dd_values d) (i ++ [(c + m * E)%nat])) /\
        get v (sub_index ns i k ++ [j]) = Some (expansion u fs (centres ns k))).
Proof.
  intros W S L1 Hfs Hn Hc Hcs gr Hgr ns.
  assert (Hd : dd_dims d = length cells) by (unfold dd_dims; rewrite S, removelast_last; reflexivity).
  assert (Hnn : get_num_nodes (length cells) p "serendipity" = Ok (length fs)).
  { clear - Hfs. revert Hfs. unfold interp_functions. generalize (length cells) as d. intros d. cbn [andb negb].
    repeat match goal with
    | |- (if Nat.eqb d ?k then _ else _) = _ -> _ => destruct (Nat.eqb_spec d k) as [->|_]
    | |- (if String.eqb ?b ?k then _ else _) = _ -> _ => destruct (String.eqb_spec b k); [|try congruence]
    | |- (if Nat.eqb p ?k then _ else _) = _ -> _ => destruct (Nat.eqb_spec p k) as [->|_]
    | |- Err _ = Ok _ -> _ => discriminate
    | |- (if false then _ else _) = _ -> _ => cbv beta iota
    end; intros [= <-]; vm_compute; reflexivity. }
  assert (Hf0 : (0 < length fs)%nat).
  { destruct fs; [|cbn; lia]. exfalso. clear - Hfs. revert Hfs. unfold interp_functions. generalize (length cells) as d. intros d. cbn [andb negb].
    repeat match goal with
    | |- (if Nat.eqb d ?k then _ else _) = _ -> _ => destruct (Nat.eqb_spec d k) as [->|_]
    | |- (if String.eqb ?b ?k then _ else _) = _ -> _ => destruct (String.eqb_spec b k); [|try congruence]
    | |- (if Nat.eqb p ?k then _ else _) = _ -> _ => destruct (Nat.eqb_spec p k) as [->|_]
    | |- Err _ = Ok _ -> _ => discriminate
    | |- (if false then _ else _) = _ -> _ => cbv beta iota
    end; discriminate. }
  unfold nodal_interpolate, nodal_init. cbn [String.eqb Ascii.eqb Bool.eqb]. rewrite Hd, Hnn. cbn [bind].
  unfold create_interp_matrix. cbn [andb]. rewrite Hfs. cbn [bind].
  assert (D : dims_ok (length cells) "serendipity") by (split; [exact L1|discriminate]).
  assert (Er : refine (length cells) n "serendipity" = ns) by (apply refine_plain; discriminate).
  rewrite point_counts_refine by (auto; discriminate). rewrite Er.
  destruct (rows_of_spec rops evalR false ns fs) as (Rl & Rr & Rn).
  set (cmat := rows_of rops evalR false ns fs) in *.
  set (field := fun c => let* q := raw_nodal (dd_values d) (length fs) c in interp_on_mesh rops rdot cmat q n "serendipity" false).
  assert (Hfield : forall c, In c comps -> exists o, field c = Ok o /\ wf o /\ shape o = refined_shape cells ns /\
      forall i k, in_range cells i -> in_range ns k ->
        exists u, length u = length fs /\
          (forall m, (m < length fs)%nat -> nth_error u m = get (dd_values d) (i ++ [(c + m * E)%nat])) /\
          get o (sub_index ns i k) = Some (expansion u fs (centres ns k))).
  { intros c Ic. destruct (C33_nodal (dd_values d) cells (length fs) E c W S (Hcs c Ic) Hf0) as (r & Er' & Wr & Sr & Vr).
    destruct (C31_value rops rdot cmat r n "serendipity" cells (length fs) Wr Sr D Hn) as (o & Eo & Wo & So & Vo).
    { rewrite Er. exact Rl. } { exact Rr. }
    rewrite Er in *. exists o. split; [unfold field; rewrite Er'; exact Eo|]. split; [exact Wo|]. split; [exact So|].
    intros i k Hi Hk. destruct (Vo i k Hi Hk) as (row & u & Erow & Lu & Vu & Go).
    rewrite Rn in Erow by auto. injection Erow as <-.
    exists u. split; [exact Lu|]. split; [intros m Hm; rewrite Vu by auto; apply Vr; auto|].
    rewrite Go, points_are_centres by exact Hk. rewrite rdot_expansion. reflexivity. }
  set (val := fun c => match field c with Ok o => o | Err _ => mk_nda [] [] end).
  destruct (stack_fields_ok rops field val comps (refined_shape cells ns)) as (v & Ev & Wv & Sv & Vv); auto.
  { intros c Ic. destruct (Hfield c Ic) as (o & Eo & Wo & So & _). unfold val. rewrite Eo. auto. }
  exists v. rewrite Ev. cbn [bind]. rewrite Rl. unfold ns at 1. rewrite prod_repeat, Hgr. cbn [bind].
  split; [reflexivity|]. split; [exact Wv|]. split; [exact Sv|].
  intros j c i k Hj Hi Hk. destruct (Hfield c (nth_error_In _ _ Hj)) as (o & Eo & _ & So & Vo).
  destruct (Vo i k Hi Hk) as (u & Lu & Vu & Go). exists u. split; [exact Lu|]. split; [exact Vu|].
  rewrite (Vv j c); auto.
  - unfold val. rewrite Eo. exact Go.
  - apply sub_index_in_range; auto. unfold ns. rewrite repeat_length. reflexivity.
Qed.

(** Without an explicit number of points nodal interpolation raises; so does a
    nodal gradient without a direction. *)
Theorem C55_errors :
  forall (F : Type) (fo : fops F) dot ev root (d : dgdata) p b comps nn,
    get_num_nodes (dd_dims d) p (if String.eqb b "ns" then "serendipity" else b) = Ok nn ->
    nodal_interpolate fo dot ev root d p b None comps = Err TypeError /\
    forall c n, (exists q, raw_nodal (dd_values d) nn c = Ok q) ->
      nodal_differentiate fo dot ev root d p b n None c = Err TypeError.
Proof.
  intros F fo dot ev root d p b comps nn H. unfold nodal_interpolate, nodal_differentiate, nodal_init. rewrite H. cbn [bind].
  split; [reflexivity|]. intros c n (q & E). rewrite E. reflexivity.
Qed.

(** ** Examples *)
Example C55_ex_nodes : nodes 2 1 = [[-1; -1]; [1; -1]; [-1; 1]; [1; 1]].
Proof.
  rewrite nodes_Q by lia. replace (nodesQ 2 1) with [[-(1)%Q; -(1)%Q]; [1%Q; -(1)%Q]; [-(1)%Q; 1%Q]; [1%Q; 1%Q]]%Q by (vm_compute; reflexivity).
  cbn [List.map]. rewrite Q2R_opp. replace (Q2R 1) with 1 by (unfold Q2R; cbn; field). reflexivity.
Qed.
Example C55_ex_tables :
  (exists fs, interp_functions 4 2 false "serendipity" = Ok fs /\ length fs = 48%nat) /\
  (exists fs, interp_functions 5 1 false "serendipity" = Ok fs /\ length fs = 32%nat).
Proof. split; eexists; (split; [reflexivity|reflexivity]). Qed.
(** x y^2 is in the quadratic space, sampled at the 8 nodes of the square. *)
Example C55_ex_exact x y fs :
  interp_functions 2 2 false "serendipity" = Ok fs ->
  expansion (List.map (evalP [(3, [1%nat; 2%nat]); (-1, [0%nat; 0%nat])]) (nodes 2 2)) fs [x; y] = 3 * (x * y ^ 2) - 1.
Proof.
  intros H. rewrite (C55_exact 2 2 "serendipity" fs _ H); [|repeat constructor|reflexivity].
  unfold evalP, mono. cbn. ring.
Qed.

Print Assumptions C55_cardinal.
Print Assumptions C55_exact.
Print Assumptions C55_interpolated_value.
Print Assumptions C55_errors.
