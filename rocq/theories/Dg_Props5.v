(** * C36: interpolation evaluates the expansion at the sub-cell centres,
      differentiation its derivative. *)
From Coq Require Import String List Arith ZArith QArith Reals Lia Lra Bool.
From Coquelicot Require Import Coquelicot.
From Verif Require Import Prelude PreludeFacts NdArray Gkyl_Model Gkyl_Proofs3 Dg_Poly Dg_TabI Dg_TabD Dg_Model Dg_Spec
  Dg_Proofs Dg_Proofs2 Dg_Props Dg_Props2 Dg_Props3 Dg_Sem Dg_Int Dg_GramTab Dg_Gram.
Import ListNotations.
Open Scope string_scope.
Open Scope list_scope.
Open Scope R_scope.

(** ** Real arithmetic for the model *)
Definition rops : fops R := mk_fops R (fun _ _ => 0) 0 Rplus Rminus Rmult Rdiv IZR.
Definition rdot (r u : list R) : R := fold_right (fun t s => fst t * snd t + s) 0 (combine r u).

(** Centre of the [k]-th of [n] equal parts of [-1,1]. *)
Definition centre (n k : nat) : R := -1 + (2 * INR k + 1) / INR n.
Definition centres (ns ks : list nat) : list R := map2 centre ns ks.

Theorem C36_points :
  forall n k, (k < n)%nat ->
    interp_point rops false n k = centre n k /\ -1 < centre n k < 1 /\
    (* for a cell [a,b]: the middle of the [k]-th of its [n] parts *)
    forall a b, a + (centre n k + 1) / 2 * (b - a)
      = ((a + INR k / INR n * (b - a)) + (a + INR (S k) / INR n * (b - a))) / 2.
Proof.
  intros n k Hk. assert (N : 0 < INR n) by (apply lt_0_INR; lia).
  assert (K : INR k + 1 <= INR n) by (rewrite <- S_INR; apply le_INR; lia). pose proof (pos_INR k) as K0.
  split; [|split].
  - unfold interp_point, centre, fnat, fm1. cbn [rops fofZ fadd fdiv fmul fsub]. rewrite <- !INR_IZR_INZ. cbn [INR]. field. lra.
  - unfold centre. split.
    + assert (0 < (2 * INR k + 1) / INR n) by (apply Rdiv_lt_0_compat; lra). lra.
    + assert ((2 * INR k + 1) / INR n < 2); [|lra]. apply Rmult_lt_reg_r with (r := INR n); [lra|].
      unfold Rdiv. rewrite Rmult_assoc, Rinv_l by lra. lra.
  - intros a b. unfold centre. rewrite S_INR. field. lra.
Qed.

(** With mapped grids the points are [n] equally spaced nodes, both ends included. *)
Theorem C36_nodes :
  forall n k, (k < n)%nat -> (2 <= n)%nat ->
    interp_point rops true n k = -1 + 2 * INR k / INR (n - 1) /\ -1 <= interp_point rops true n k <= 1 /\
    interp_point rops true n 0 = -1 /\ interp_point rops true n (n - 1) = 1.
Proof.
  intros n k Hk Hn. assert (N : 0 < INR (n - 1)) by (apply lt_0_INR; lia).
  assert (K : INR k <= INR (n - 1)) by (apply le_INR; lia). pose proof (pos_INR k) as K0.
  assert (E : forall j, interp_point rops true n j = -1 + 2 * INR j / INR (n - 1)).
  { intros j. unfold interp_point, fnat, fm1. cbn [rops fofZ fadd fdiv fmul fsub]. rewrite <- !INR_IZR_INZ. cbn [INR]. field. lra. }
  split; [apply E|]. rewrite !E. split; [|split].
  - assert (0 <= INR k / INR (n - 1) <= 1).
    { split; [apply Rdiv_le_0_compat; lra|]. apply Rmult_le_reg_r with (r := INR (n - 1)); [lra|].
      unfold Rdiv. rewrite Rmult_assoc, Rinv_l by lra. lra. }
    unfold Rdiv in *. rewrite Rmult_assoc. lra.
  - cbn [INR]. field. lra.
  - field. lra.
Qed.

Lemma points_are_centres ns ks : in_range ns ks -> map2 (interp_point rops false) ns ks = centres ns ks.
Proof.
  unfold in_range, centres. intros H. induction H as [|k n ks ns Hk _ IH]; [reflexivity|].
  cbn [map2]. rewrite IH. f_equal. apply C36_points. exact Hk.
Qed.

Lemma rdot_expansion fs u x : rdot (List.map (fun f => evalR f x) fs) u = expansion u fs x.
Proof.
  unfold rdot, expansion. revert u. induction fs as [|f fs IH]; intros [|a u]; try reflexivity.
  cbn [List.map combine fold_right fst snd]. rewrite IH. ring.
Qed.

(** The interpolated field at sub-point [k] of cell [i] is the expansion with
    that cell's coefficients, at the centre of the sub-cell. *)
Theorem C36_interpolated_value (d : dgdata) (g : ginterp) comps cells nc fs :
  wf (dd_values d) -> shape (dd_values d) = cells ++ [nc] ->
  gi_dims g = length cells -> dims_ok (length cells) (gi_basis g) ->
  (gi_basis g = "hybrid" -> (2 <= length cells)%nat) ->
  interp_functions (gi_dims g) (gi_poly g) true (gi_basis g) = Ok fs ->
  gi_nodes g = length fs -> (2 <= gi_interp g)%nat ->
  comps <> [] -> (forall c, In c comps -> (c * length fs + length fs <= nc)%nat) ->
  let ns := refine (length cells) (gi_interp g) (gi_basis g) in
  exists v, modal_values rops rdot evalR d g comps = Ok v /\ wf v /\
    shape v = refined_shape cells ns ++ [length comps] /\
    forall j c i k, nth_error comps j = Some c -> in_range cells i -> in_range ns k ->
      exists u, length u = length fs /\
        (forall m, (m < length fs)%nat -> nth_error u m = get (dd_values d) (i ++ [(c * length fs + m)%nat])) /\
        get v (sub_index ns i k ++ [j]) = Some (expansion u fs (centres ns k)).
Proof.
  intros W S Gd D Hh Hfs Gn Hn Hc Hcs ns.
  destruct (C36_interpolated_fields rops rdot evalR d g comps cells nc fs W S Gd D Hh Hfs Gn Hn Hc Hcs) as (v & E & Wv & Sv & V).
  exists v. split; [exact E|]. split; [exact Wv|]. split; [exact Sv|].
  intros j c i k Hj Hi Hk. destruct (V j c i k Hj Hi Hk) as (u & Lu & Vu & G).
  exists u. split; [exact Lu|]. split; [exact Vu|]. fold ns in G. rewrite G. rewrite points_are_centres by exact Hk.
  rewrite rdot_expansion. reflexivity.
Qed.

(** ** Derivatives *)

(** The derivative tables hold the same functions as the interpolation tables. *)
Theorem C36_same_tables :
  forall d p m b fs, deriv_functions d p m b = Ok fs -> interp_functions d p m b = Ok fs.
Proof.
  intros d p m b fs. unfold deriv_functions.
  destruct m; cbn [andb negb];
  repeat match goal with
  | |- (if Nat.eqb d ?k then _ else _) = _ -> _ => destruct (Nat.eqb_spec d k) as [->|_]
  | |- (if String.eqb b ?k then _ else _) = _ -> _ => destruct (String.eqb_spec b k) as [->|_]
  | |- (if Nat.eqb p ?k then _ else _) = _ -> _ => destruct (Nat.eqb_spec p k) as [->|_]
  | |- Err _ = Ok _ -> _ => discriminate
  | |- (if false then _ else _) = _ -> _ => cbv beta iota
  end; intros [= <-]; cbn [interp_functions Nat.eqb andb negb String.eqb Ascii.eqb Bool.eqb]; vm_compute; reflexivity.
Qed.

(** Only division by non-zero constants. *)
Fixpoint const_div (f : pexp) : bool :=
  match f with
  | Nu _ _ | Va _ => true
  | Ng a | Po a _ => const_div a
  | Ad a b | Su a b | Mu a b => const_div a && const_div b
  | Di a (Nu m _) => const_div a && negb (Z.eqb m 0)
  | Di _ _ => false
  end.

Lemma const_div_tables d p m b fs : deriv_functions d p m b = Ok fs -> forallb const_div fs = true.
Proof.
  unfold deriv_functions.
  destruct m; cbn [andb negb];
  repeat match goal with
  | |- (if Nat.eqb d ?k then _ else _) = _ -> _ => destruct (Nat.eqb_spec d k) as [->|_]
  | |- (if String.eqb b ?k then _ else _) = _ -> _ => destruct (String.eqb_spec b k) as [->|_]
  | |- (if Nat.eqb p ?k then _ else _) = _ -> _ => destruct (Nat.eqb_spec p k) as [->|_]
  | |- Err _ = Ok _ -> _ => discriminate
  | |- (if false then _ else _) = _ -> _ => cbv beta iota
  end; intros [= <-]; vm_compute; reflexivity.
Qed.

Lemma nth_set_nth {A} (x : list A) k t j d : (k < length x)%nat -> nth j (set_nth k t x) d = if Nat.eqb j k then t else nth j x d.
Proof.
  intros H. revert x k H. induction j as [|j IH]; intros [|a x] [|k] H; cbn in *; try lia; try reflexivity.
  rewrite IH by lia. reflexivity.
Qed.

Theorem C36_pdiff (f : pexp) (k : nat) (x : list R) (t : R) :
  const_div f = true -> (k < length x)%nat ->
  is_derive (fun s => evalR f (set_nth k s x)) t (evalR (pdiff k f) (set_nth k t x)).
Proof.
  intros C Hk. induction f; cbn [const_div] in C; cbn [evalR pdiff].
  - replace (lit 0 0) with 0 by (unfold lit; cbn; field). apply (is_derive_const (lit m e)).
  - destruct (Nat.eqb_spec k i) as [<-|N]; cbn [evalR].
    + apply (is_derive_ext (fun s => s)); [intros s; rewrite nth_set_nth, Nat.eqb_refl by exact Hk; reflexivity|].
      replace (lit 1 0) with 1 by (unfold lit; cbn; field). apply (is_derive_id t).
    + apply (is_derive_ext (fun _ => nth i x 0)).
      { intros s. rewrite nth_set_nth by exact Hk. destruct (Nat.eqb_spec i k); [lia|]. reflexivity. }
      replace (lit 0 0) with 0 by (unfold lit; cbn; field). apply (is_derive_const (nth i x 0)).
  - apply (is_derive_opp (fun s => evalR f (set_nth k s x))). apply IHf, C.
  - apply andb_prop in C. destruct C. apply (is_derive_plus (fun s => evalR f1 (set_nth k s x)) (fun s => evalR f2 (set_nth k s x))); auto.
  - apply andb_prop in C. destruct C. apply (is_derive_minus (fun s => evalR f1 (set_nth k s x)) (fun s => evalR f2 (set_nth k s x))); auto.
  - apply andb_prop in C. destruct C.
    apply (is_derive_mult (fun s => evalR f1 (set_nth k s x)) (fun s => evalR f2 (set_nth k s x))); auto. intros; apply Rmult_comm.
  - destruct f2; try discriminate. apply andb_prop in C. destruct C as [C _]. cbn [evalR].
    unfold Rdiv. apply (is_derive_ext (fun s => / lit m e * evalR f1 (set_nth k s x))); [intros; apply Rmult_comm|].
    rewrite (Rmult_comm (evalR (pdiff k f1) _)).
    apply (is_derive_scal (fun s => evalR f1 (set_nth k s x))). apply IHf1, C.
  - destruct n as [|n].
    + cbn [evalR pow]. replace (lit 0 0) with 0 by (unfold lit; cbn; field). apply (is_derive_const 1).
    + cbn [evalR]. pose proof (is_derive_pow (fun s => evalR f (set_nth k s x)) (S n) t _ (IHf C)) as P.
      cbn [pred] in P. replace (lit (Z.of_nat (S n)) 0) with (INR (S n)) by (unfold lit; rewrite INR_IZR_INZ; cbn [pow]; field).
      replace (INR (S n) * evalR f (set_nth k t x) ^ n * evalR (pdiff k f) (set_nth k t x))
        with (INR (S n) * evalR (pdiff k f) (set_nth k t x) * evalR f (set_nth k t x) ^ n) by ring.
      exact P.
Qed.

Lemma expansion_derive fs u k x t :
  forallb const_div fs = true -> (k < length x)%nat ->
  is_derive (fun s => expansion u fs (set_nth k s x)) t (expansion u (List.map (pdiff k) fs) (set_nth k t x)).
Proof.
  intros C Hk. unfold expansion. revert u. induction fs as [|f fs IH]; intros [|a u]; cbn [List.map combine fold_right fst snd];
    try apply (is_derive_const 0).
  cbn [forallb] in C. apply andb_prop in C. destruct C as [C1 C2].
  apply (is_derive_plus (fun s => a * evalR f (set_nth k s x))); [|apply IH, C2].
  apply (is_derive_scal (fun s => evalR f (set_nth k s x))). apply C36_pdiff; assumption.
Qed.

Lemma set_nth_same {A} (x : list A) k d : (k < length x)%nat -> set_nth k (nth k x d) x = x.
Proof. revert k. induction x as [|a x IH]; intros [|k] H; cbn in *; try lia; [reflexivity|]. rewrite IH by lia. reflexivity. Qed.

(** Derivative with respect to the physical coordinate of a cell [lo, hi]. *)
Lemma physical_derive fs u k xi lo hi :
  forallb const_div fs = true -> (k < length xi)%nat -> hi <> lo ->
  is_derive (fun x => expansion u fs (set_nth k (2 * (x - lo) / (hi - lo) - 1) xi))
            (lo + (nth k xi 0 + 1) / 2 * (hi - lo))
            (expansion u (List.map (pdiff k) fs) xi * 2 / (hi - lo)).
Proof.
  intros C Hk N. assert (W : hi - lo <> 0) by lra.
  set (x0 := lo + (nth k xi 0 + 1) / 2 * (hi - lo)).
  set (phi := fun x => 2 * (x - lo) / (hi - lo) - 1).
  assert (P0 : phi x0 = nth k xi 0) by (unfold phi, x0; field; exact W).
  assert (D1 : is_derive phi x0 (2 / (hi - lo))).
  { unfold phi. auto_derive; [trivial|]. field. exact W. }
  pose proof (expansion_derive fs u k xi (phi x0) C Hk) as D2.
  pose proof (is_derive_comp (fun s => expansion u fs (set_nth k s xi)) phi x0 _ _ D2 D1) as D3.
  rewrite P0, set_nth_same in D3 by exact Hk.
  replace (expansion u (List.map (pdiff k) fs) xi * 2 / (hi - lo))
    with (scal (2 / (hi - lo)) (expansion u (List.map (pdiff k) fs) xi)); [exact D3|].
  unfold scal; cbn; unfold mult; cbn. unfold Rdiv. ring.
Qed.

(** *** The values computed *)

Section Diff.
  Context (d : dgdata (F := R)) (g : ginterp) (cells : list nat) (nc c : nat) (fs : list pexp).
  Context (W : wf (dd_values d)).
  Context (S : shape (dd_values d) = cells ++ [nc]).
  Context (Gd : gi_dims g = length cells).
  Context (L1 : (1 <= length cells)%nat).
  Context (B1 : gi_basis g <> "gkhybrid").
  Context (B2 : gi_basis g <> "hybrid").
  Context (Hfs : deriv_functions (gi_dims g) (gi_poly g) true (gi_basis g) = Ok fs).
  Context (Gn : gi_nodes g = length fs).
  Context (Hn : (2 <= gi_interp g)%nat).
  Context (Hc : (c * length fs + length fs <= nc)%nat).

  Let ns := repeat (gi_interp g) (length cells).

  Definition part k :=
    let* cm := create_deriv_matrix rops evalR (gi_dims g) (gi_poly g) (gi_basis g) (gi_interp g) true k in
    interp_on_mesh rops rdot cm (raw_modal (dd_values d) (gi_nodes g) c) (gi_interp g) (gi_basis g) false.

  Lemma part_ok k :
    exists o, part k = Ok o /\ wf o /\ shape o = refined_shape cells ns /\
      forall i s, in_range cells i -> in_range ns s ->
        exists u, length u = length fs /\
          (forall m, (m < length fs)%nat -> nth_error u m = get (dd_values d) (i ++ [(c * length fs + m)%nat])) /\
          get o (sub_index ns i s) = Some (expansion u (List.map (pdiff k) fs) (centres ns s)).
  Proof using W S Gd L1 B1 B2 Hfs Gn Hn Hc.
    unfold part, create_deriv_matrix. rewrite Hfs. cbn [bind]. rewrite Gn.
    destruct (C33_modal (dd_values d) cells nc (length fs) c W S Hc) as (Wr & Sr & Vr).
    assert (D : dims_ok (length cells) (gi_basis g)) by (split; [exact L1|contradiction]).
    assert (Er : refine (length cells) (gi_interp g) (gi_basis g) = ns) by (apply refine_plain; assumption).
    rewrite Gd. fold ns.
    destruct (rows_of_spec rops evalR false ns (List.map (pdiff k) fs)) as (Rl & Rr & Rn).
    set (cmat := rows_of rops evalR false ns (List.map (pdiff k) fs)) in *.
    destruct (C31_value rops rdot cmat _ (gi_interp g) (gi_basis g) cells (length fs) Wr Sr D Hn) as (o & Eo & Wo & So & Vo).
    { rewrite Er. exact Rl. }
    { intros row Hrow. rewrite (Rr row Hrow). apply map_length. }
    rewrite Er in *. exists o. split; [exact Eo|]. split; [exact Wo|]. split; [exact So|].
    intros i s Hi Hs. destruct (Vo i s Hi Hs) as (row & u & Erow & Lu & Vu & Go).
    rewrite Rn in Erow by auto. injection Erow as <-.
    exists u. split; [exact Lu|]. split; [intros m Hm; rewrite Vu by auto; apply Vr; auto|].
    rewrite Go, points_are_centres by exact Hs. rewrite rdot_expansion. reflexivity.
  Qed.

  Lemma map_nda_ok (f : R -> R) (o : nda R) :
    wf o -> wf (map_nda f o) /\ shape (map_nda f o) = shape o /\ forall x, get (map_nda f o) x = option_map f (get o x).
  Proof.
    intros Wo. split; [|split; [reflexivity|]].
    - unfold wf, map_nda in *. cbn. rewrite map_length. exact Wo.
    - intros x. unfold get, map_nda. cbn. destruct (ravel (shape o) x); [|reflexivity]. apply nth_error_map.
  Qed.

  (** [differentiate(direction=z)]: at every sub-cell centre, the derivative of
      the cell's expansion along the chosen axis with respect to the physical
      coordinate, multiplied by the ratio of the cell's width to the width of the
      first cell (so exactly the derivative on a uniform grid). *)
  Theorem C36_derivative z k gk w :
    norm_index (length cells) z = Ok k -> nth_error (dd_grid d) k = Some gk -> cell_width rops d k = Ok w -> w <> 0 ->
    exists v, modal_diff_values rops rdot evalR d g (Some z) c = Ok v /\ wf v /\
      shape v = refined_shape cells ns ++ [1%nat] /\
      forall i s ik lo hi, in_range cells i -> in_range ns s ->
        nth_error i k = Some ik -> nth_error (flat gk) ik = Some lo -> nth_error (flat gk) (Datatypes.S ik) = Some hi ->
        hi <> lo ->
        exists u val D, length u = length fs /\
          (forall m, (m < length fs)%nat -> nth_error u m = get (dd_values d) (i ++ [(c * length fs + m)%nat])) /\
          is_derive (fun x => expansion u fs (set_nth k (2 * (x - lo) / (hi - lo) - 1) (centres ns s)))
                    (lo + (nth k (centres ns s) 0 + 1) / 2 * (hi - lo)) D /\
          get v (sub_index ns i s ++ [0%nat]) = Some val /\
          val = D * ((hi - lo) / w) /\ (hi - lo = w -> val = D).
  Proof using W S Gd L1 B1 B2 Hfs Gn Hn Hc.
    intros Hz Hgk Hw Nw. unfold modal_diff_values. rewrite Gd, Hz. cbn [bind]. rewrite <- Gd.
    destruct (part_ok k) as (o & Eo & Wo & So & Vo). unfold part in Eo. rewrite Eo. cbn [bind]. rewrite Hw. cbn [bind].
    set (h := fun a => fdiv rops (fmul rops a (fnat rops 2)) w).
    destruct (map_nda_ok h o Wo) as (Wm & Sm & Vm). destruct (new_axis_ok (map_nda h o) Wm) as (Wv & Sv & Vv).
    eexists. split; [reflexivity|]. split; [exact Wv|]. split; [rewrite Sv, Sm, So; reflexivity|].
    intros i s ik lo hi Hi Hs Hik Hlo Hhi Ew.
    destruct (Vo i s Hi Hs) as (u & Lu & Vu & Gu). set (E := expansion u (List.map (pdiff k) fs) (centres ns s)) in *.
    exists u, (h E), (E * 2 / (hi - lo)). split; [exact Lu|]. split; [exact Vu|].
    assert (Lns : length ns = length cells) by apply repeat_length.
    assert (V : h E = E * 2 / (hi - lo) * ((hi - lo) / w)).
    { unfold h, fnat. cbn [rops fdiv fmul fofZ]. change (IZR (Z.of_nat 2)) with 2. field. split; [exact Nw|lra]. }
    split; [|split; [|split]].
    - apply physical_derive.
      + eapply const_div_tables; eauto.
      + unfold centres. rewrite map2_length. pose proof (Forall2_length _ _ _ Hs) as L. rewrite L, Nat.min_id, Lns.
        pose proof (Forall2_length _ _ _ Hi) as L2. rewrite <- L2. apply nth_error_Some. congruence.
      + lra.
    - rewrite Vv. { rewrite Vm, Gu. reflexivity. }
      rewrite Sm, So. apply sub_index_in_range; auto.
    - exact V.
    - intros Q. rewrite V, Q. field. exact Nw.
  Qed.

  (** [differentiate()]: component [k] of the result is the derivative along axis
      [k], except that component 0 is half of it. *)
  Theorem C36_gradient (ws : list R) :
    length ws = length cells -> (forall k w, nth_error ws k = Some w -> cell_width rops d k = Ok w) ->
    exists v, modal_diff_values rops rdot evalR d g None c = Ok v /\ wf v /\
      shape v = refined_shape cells ns ++ [length cells] /\
      forall i s, in_range cells i -> in_range ns s ->
        exists u, length u = length fs /\
          (forall m, (m < length fs)%nat -> nth_error u m = get (dd_values d) (i ++ [(c * length fs + m)%nat])) /\
          forall k w, nth_error ws k = Some w -> w <> 0 ->
          exists val D, get v (sub_index ns i s ++ [k]) = Some val /\
            (forall lo hi, hi - lo = w ->
               is_derive (fun x => expansion u fs (set_nth k (2 * (x - lo) / (hi - lo) - 1) (centres ns s)))
                      (lo + (nth k (centres ns s) 0 + 1) / 2 * (hi - lo)) D) /\
            val = (if Nat.eqb k 0 then D / 2 else D).
  Proof using W S Gd L1 B1 B2 Hfs Gn Hn Hc.
    intros Lw Hw. unfold modal_diff_values.
    destruct (part_ok 0) as (o0 & Eo0 & Wo0 & So0 & Vo0). pose proof Eo0 as Eo0'. unfold part in Eo0'. rewrite Eo0'. clear Eo0'. cbn [bind].
    destruct ws as [|w0 ws']; [cbn in Lw; lia|]. rewrite (Hw 0%nat w0 eq_refl). cbn [bind].
    set (h0 := fun a => fdiv rops a w0). set (hk := fun w a => fmul rops a (fdiv rops (fnat rops 2) w)).
    set (P := fun k => match part k with Ok o => o | Err _ => mk_nda [] [] end).
    assert (PP : forall k, part k = Ok (P k) /\ wf (P k) /\ shape (P k) = refined_shape cells ns /\
      forall i s, in_range cells i -> in_range ns s ->
        exists u, length u = length fs /\
          (forall m, (m < length fs)%nat -> nth_error u m = get (dd_values d) (i ++ [(c * length fs + m)%nat])) /\
          get (P k) (sub_index ns i s) = Some (expansion u (List.map (pdiff k) fs) (centres ns s))).
    { intros k. destruct (part_ok k) as (o & E & Rest). unfold P. rewrite E. split; [reflexivity|exact Rest]. }
    assert (P0 : P 0%nat = o0) by (unfold P; rewrite Eo0; reflexivity).
    set (wid := fun k => nth k (w0 :: ws') 0).
    set (scaled := fun k => map_nda (if Nat.eqb k 0 then h0 else hk (wid k)) (P k)).
    assert (SC : forall k, wf (scaled k) /\ shape (scaled k) = refined_shape cells ns).
    { intros k. destruct (PP k) as (_ & Wp & Sp & _). destruct (map_nda_ok (if Nat.eqb k 0 then h0 else hk (wid k)) (P k) Wp) as (A & B & _).
      split; [exact A|]. unfold scaled. rewrite B. exact Sp. }
    destruct (new_axis_ok (scaled 0%nat) (proj1 (SC 0%nat))) as (Wn & Sn & Vn). rewrite (proj2 (SC 0%nat)) in Sn, Vn.
    (* the loop over the other axes *)
    match goal with |- context [fold_left ?st _ (Ok ?a0)] => set (step := st); replace a0 with (new_axis (scaled 0%nat)) end.
    2:{ unfold scaled. cbn [Nat.eqb]. rewrite P0. reflexivity. }
    assert (Gen : forall m j vals, wf vals -> shape vals = refined_shape cells ns ++ [j] -> (1 <= j)%nat -> (j + m = length cells)%nat ->
       (forall k x, (k < j)%nat -> in_range (refined_shape cells ns) x -> get vals (x ++ [k]) = get (scaled k) x) ->
       exists v, fold_left step (seq j m) (Ok vals) = Ok v /\ wf v /\ shape v = refined_shape cells ns ++ [length cells] /\
         forall k x, (k < length cells)%nat -> in_range (refined_shape cells ns) x -> get v (x ++ [k]) = get (scaled k) x).
    { induction m as [|m IH]; intros j vals Wv Sv Hj Hm V.
      - cbn [seq fold_left]. exists vals. rewrite Nat.add_0_r in Hm. subst j. auto.
      - cbn [seq fold_left].
        assert (Hst : step (Ok vals) j = append_comp rops vals (scaled j)).
        { unfold step. cbn [bind]. destruct (PP j) as (Ej & _). pose proof Ej as Ej'. unfold part in Ej'. rewrite Ej'. clear Ej'. cbn [bind].
          rewrite (Hw j (wid j)). 2:{ unfold wid. apply nth_error_nth'. lia. }
          cbn [bind]. unfold scaled. destruct (Nat.eqb_spec j 0); [lia|]. reflexivity. }
        rewrite Hst. destruct (append_comp_ok rops vals (scaled j) (refined_shape cells ns) j Wv (proj1 (SC j)) Sv (proj2 (SC j)))
          as (o1 & E1 & W1 & S1 & A1 & C1). rewrite E1.
        apply IH; auto; try lia. intros k x Hk Hx. destruct (Nat.eq_dec k j) as [->|N]; [apply C1; exact Hx|].
        rewrite A1 by (auto; lia). apply V; auto; lia. }
    rewrite Gd. destruct (Gen (length cells - 1)%nat 1%nat (new_axis (scaled 0%nat)) Wn Sn (le_n 1) ltac:(lia)) as (v & Ev & Wv & Sv & Vv).
    { intros k x Hk Hx. replace k with 0%nat by lia. apply Vn. exact Hx. }
    exists v. split; [exact Ev|]. split; [exact Wv|]. split; [exact Sv|].
    intros i s Hi Hs.
    assert (Lns : length ns = length cells) by apply repeat_length.
    assert (Rx : in_range (refined_shape cells ns) (sub_index ns i s)) by (apply sub_index_in_range; auto).
    destruct (PP 0%nat) as (_ & _ & _ & V0). destruct (V0 i s Hi Hs) as (u & Lu & Vu & _).
    exists u. split; [exact Lu|]. split; [exact Vu|].
    intros k w Hk Nw. assert (Hkl : (k < length cells)%nat) by (rewrite <- Lw; apply nth_error_Some; congruence).
    destruct (PP k) as (_ & Wp & _ & Vk). destruct (Vk i s Hi Hs) as (u' & Lu' & Vu' & Gk).
    assert (u' = u) as ->.
    { apply nth_error_ext. intros m. destruct (Nat.lt_ge_cases m (length fs)) as [Hm|Hm].
      - rewrite Vu, Vu' by exact Hm. reflexivity.
      - rewrite !(proj2 (nth_error_None _ _)) by lia. reflexivity. }
    set (E := expansion u (List.map (pdiff k) fs) (centres ns s)) in *.
    exists ((if Nat.eqb k 0 then h0 else hk (wid k)) E), (E * 2 / w). split; [|split].
    - rewrite Vv by auto. unfold scaled. destruct (map_nda_ok (if Nat.eqb k 0 then h0 else hk (wid k)) (P k) Wp) as (_ & _ & M).
      rewrite M, Gk. reflexivity.
    - intros lo hi Ew. rewrite <- Ew. apply physical_derive.
      + eapply const_div_tables; eauto.
      + unfold centres. rewrite map2_length. pose proof (Forall2_length _ _ _ Hs) as L. rewrite L, Nat.min_id, Lns. exact Hkl.
      + lra.
    - assert (Wk : wid k = w) by (unfold wid; erewrite nth_error_nth; eauto).
      destruct (Nat.eqb_spec k 0) as [->|Nk].
      + unfold h0. cbn [rops fdiv]. cbn in Hk. injection Hk as ->. field. exact Nw.
      + unfold hk, fnat. rewrite Wk. cbn [rops fdiv fmul fofZ]. change (IZR (Z.of_nat 2)) with 2. field. exact Nw.
  Qed.
End Diff.

(** ** Witnesses *)

Definition line_d (cells : nat) (vals grid : list R) : dgdata :=
  mk_dgdata (mk_nda [cells; 2%nat] vals) [mk_nda [length grid] grid] "uniform" (Some "serendipity") (Some 1%nat) 0 0.
Definition line_g : ginterp := mk_ginterp 1 1 "serendipity" 2 2.

Lemma line_val vals grid :
  length vals = 4%nat -> wf (dd_values (line_d 2 vals grid)).
Proof. intros H. unfold wf, line_d. cbn. exact H. Qed.

(** The first component of the gradient is not the derivative. *)
Theorem C36_gradient_refuted :
  exists (d : dgdata) (g : ginterp) (v : nda R) (val D : R) fs,
    deriv_functions 1 1 true "serendipity" = Ok fs /\
    modal_diff_values rops rdot evalR d g None 0 = Ok v /\ get v [0%nat; 0%nat] = Some val /\
    dd_grid d = [mk_nda [3%nat] [0; 2; 4]] /\ get (dd_values d) [0%nat; 0%nat] = Some 0 /\ get (dd_values d) [0%nat; 1%nat] = Some 1 /\
    is_derive (fun x => expansion [0; 1] fs [2 * (x - 0) / (2 - 0) - 1]) (1 / 2) D /\
    val <> D.
Proof.
  destruct (deriv_functions 1 1 true "serendipity") as [fs|] eqn:Efs; [|discriminate].
  set (d := line_d 2 [0; 1; 0; 1] [0; 2; 4]).
  assert (Lf : length fs = 2%nat) by (injection Efs as <-; reflexivity).
  destruct (C36_gradient d line_g [2%nat] 2 0 fs) with (ws := [2]) as (v & Ev & Wv & Sv & V);
    [reflexivity|reflexivity|reflexivity|cbn; lia|discriminate|discriminate|exact Efs|rewrite Lf; reflexivity|cbn; lia|rewrite Lf; cbn; lia|reflexivity| |].
  { intros [|[|k]] w; cbn; try discriminate. intros [= <-]. unfold cell_width. cbn. f_equal. ring. }
  destruct (V [0%nat] [0%nat]) as (u & Lu & Vu & K).
  { repeat constructor. } { repeat constructor. }
  assert (u = [0; 1]) as ->.
  { apply nth_error_ext. intros m. rewrite Lf in *. destruct m as [|[|m]].
    - rewrite Vu by lia. reflexivity.
    - rewrite Vu by lia. reflexivity.
    - rewrite !(proj2 (nth_error_None _ _)) by (cbn; lia). reflexivity. }
  destruct (K 0%nat 2 eq_refl) as (val & D & G & HD & Hv); [lra|]. cbn [Nat.eqb] in Hv.
  exists d, line_g, v, val, D, fs. split; [reflexivity|]. split; [exact Ev|].
  split; [exact G|]. split; [reflexivity|]. split; [reflexivity|]. split; [reflexivity|].
  specialize (HD 0 2 ltac:(ring)). cbn [centres map2 set_nth nth line_g gi_interp repeat length] in HD.
  assert (X : 0 + (centre 2 0 + 1) / 2 * (2 - 0) = 1 / 2) by (unfold centre; cbn [INR]; field). rewrite X in HD.
  split; [exact HD|]. subst val. intros E.
  assert (D0 : D = 0) by lra. subst D.
  (* but the derivative is 1.2247... *)
  assert (HD2 : is_derive (fun x => expansion [0; 1] fs [2 * (x - 0) / (2 - 0) - 1]) (1 / 2) (lit 1224744871391589 15)).
  { injection Efs as <-. apply (is_derive_ext (fun x => lit 1224744871391589 15 * (x - 1))).
    { assert (A : forall t : R, lit 1224744871391589 15 * (t - 1) = expansion [0; 1] dt_d1_modal_o1 [2 * (t - 0) / (2 - 0) - 1]).
      { intros t. unfold expansion, dt_d1_modal_o1. cbn [combine fold_right fst snd evalR nth]. field. }
      exact A. }
    auto_derive; [trivial|]. ring. }
  pose proof (is_derive_unique _ _ _ HD) as U1. pose proof (is_derive_unique _ _ _ HD2) as U2.
  rewrite U1 in U2. unfold lit in U2. symmetry in U2. apply Rmult_integral in U2. destruct U2 as [U2|U2]; [lra|].
  revert U2. apply Rinv_neq_0_compat, pow_nonzero. lra.
Qed.

(** On a non-uniform grid the width of the first cell is used for all: the
    values in the second cell of [0, 1, 4] are three times the derivative. *)
Theorem C36_nonuniform_refuted :
  exists (d : dgdata) (g : ginterp) (v : nda R) (val D : R) fs,
    deriv_functions 1 1 true "serendipity" = Ok fs /\
    modal_diff_values rops rdot evalR d g (Some 0%Z) 0 = Ok v /\ get v [2%nat; 0%nat] = Some val /\
    dd_grid d = [mk_nda [3%nat] [0; 1; 4]] /\ get (dd_values d) [1%nat; 0%nat] = Some 0 /\ get (dd_values d) [1%nat; 1%nat] = Some 1 /\
    is_derive (fun x => expansion [0; 1] fs [2 * (x - 1) / (4 - 1) - 1]) (1 + 3 / 4) D /\
    val <> D.
Proof.
  destruct (deriv_functions 1 1 true "serendipity") as [fs|] eqn:Efs; [|discriminate].
  set (d := line_d 2 [0; 1; 0; 1] [0; 1; 4]).
  assert (Lf : length fs = 2%nat) by (injection Efs as <-; reflexivity).
  destruct (C36_derivative d line_g [2%nat] 2 0 fs) with (z := 0%Z) (k := 0%nat) (gk := mk_nda [3%nat] [0; 1; 4]) (w := 1) as (v & Ev & Wv & Sv & V);
    [reflexivity|reflexivity|reflexivity|cbn; lia|discriminate|discriminate|exact Efs|rewrite Lf; reflexivity|cbn; lia|rewrite Lf; cbn; lia|reflexivity|reflexivity| |lra|].
  { unfold cell_width. cbn. f_equal. ring. }
  destruct (V [1%nat] [0%nat] 1%nat 1 4) as (u & val & D & Lu & Vu & HD & G & Hv & _);
    [repeat constructor|repeat constructor|reflexivity|reflexivity|reflexivity|lra|].
  assert (u = [0; 1]) as ->.
  { apply nth_error_ext. intros m. rewrite Lf in *. destruct m as [|[|m]].
    - rewrite Vu by lia. reflexivity.
    - rewrite Vu by lia. reflexivity.
    - rewrite !(proj2 (nth_error_None _ _)) by (cbn; lia). reflexivity. }
  exists d, line_g, v, val, D, fs. split; [reflexivity|]. split; [exact Ev|].
  split; [exact G|]. split; [reflexivity|]. split; [reflexivity|]. split; [reflexivity|].
  cbn [centres map2 set_nth nth line_g gi_interp repeat length] in HD.
  assert (X : 1 + (centre 2 0 + 1) / 2 * (4 - 1) = 1 + 3 / 4) by (unfold centre; cbn [INR]; field). rewrite X in HD.
  split; [exact HD|]. subst val. intros E.
  assert (D0 : D = 0) by lra. subst D.
  assert (HD2 : is_derive (fun x => expansion [0; 1] fs [2 * (x - 1) / (4 - 1) - 1]) (1 + 3 / 4) (lit 1224744871391589 15 * (2 / 3))).
  { injection Efs as <-. apply (is_derive_ext (fun x => lit 1224744871391589 15 * (2 * (x - 1) / 3 - 1))).
    { assert (A : forall t : R, lit 1224744871391589 15 * (2 * (t - 1) / 3 - 1) = expansion [0; 1] dt_d1_modal_o1 [2 * (t - 1) / (4 - 1) - 1]).
      { intros t. unfold expansion, dt_d1_modal_o1. cbn [combine fold_right fst snd evalR nth]. field. }
      exact A. }
    auto_derive; [trivial|]. field. }
  pose proof (is_derive_unique _ _ _ HD) as U1. pose proof (is_derive_unique _ _ _ HD2) as U2.
  rewrite U1 in U2. unfold lit in U2. symmetry in U2. apply Rmult_integral in U2. destruct U2 as [U2|U2]; [|lra].
  apply Rmult_integral in U2. destruct U2 as [U2|U2]; [lra|].
  revert U2. apply Rinv_neq_0_compat, pow_nonzero. lra.
Qed.

(** The hypotheses of the value and derivative theorems on a two-cell line. *)
Example C36_values_example :
  let d := line_d 2 [0; 1; 0; 1] [0; 2; 4] in
  exists fs, interp_functions 1 1 true "serendipity" = Ok fs /\ length fs = 2%nat /\
    wf (dd_values d) /\ shape (dd_values d) = [2%nat] ++ [2%nat] /\ dims_ok 1 (gi_basis line_g) /\
    gi_nodes line_g = length fs /\
    norm_index 1 0 = Ok 0%nat /\ cell_width rops d 0 = Ok (2 - 0) /\
    (exists v, modal_values rops rdot evalR d line_g [0%nat] = Ok v /\ shape v = [4%nat; 1%nat]).
Proof.
  intros d. destruct (interp_functions 1 1 true "serendipity") as [fs|] eqn:E; [|discriminate]. exists fs.
  assert (Lf : length fs = 2%nat) by (injection E as <-; reflexivity).
  split; [reflexivity|]. split; [exact Lf|]. split; [reflexivity|]. split; [reflexivity|].
  split; [split; [lia|discriminate]|]. split; [rewrite Lf; reflexivity|]. split; [reflexivity|]. split; [reflexivity|].
  destruct (C36_interpolated_value d line_g [0%nat] [2%nat] 2 fs) as (v & Ev & _ & Sv & _);
    [reflexivity|reflexivity|reflexivity|split; [cbn; lia|discriminate]|discriminate|exact E|rewrite Lf; reflexivity|cbn; lia|discriminate| |].
  - intros c [<-|[]]. rewrite Lf. lia.
  - exists v. split; [exact Ev|exact Sv].
Qed.

Print Assumptions C36_points.
Print Assumptions C36_nodes.
Print Assumptions C36_interpolated_value.
Print Assumptions C36_same_tables.
Print Assumptions C36_pdiff.
Print Assumptions C36_derivative.
Print Assumptions C36_gradient.
Print Assumptions C36_gradient_refuted.
Print Assumptions C36_nonuniform_refuted.
