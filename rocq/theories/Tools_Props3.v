(** * C42, C44, C58: rotations, energies, squared magnitude, relative change. *)
From Coq Require Import String Ascii List Arith ZArith Bool Lia Reals Lra Psatz.
From Verif Require Import Prelude PreludeFacts NdArray Ev_Model DataSpace_Model DataSpace_Proofs
  Tools_Arr Tools_Model Tools_Proofs Tools_Proofs2 Tools_Props Tools_Props2.
Import ListNotations.
Open Scope list_scope.
Open Scope R_scope.

(** The text "a:b". *)
Definition range_text (a b : nat) : string := (show_Z (Z.of_nat a) ++ ":" ++ show_Z (Z.of_nat b))%string.

Lemma range_text_split a b : split_on ":" (range_text a b) = [show_Z (Z.of_nat a); show_Z (Z.of_nat b)].
Proof.
  unfold range_text. cbn [String.append]. rewrite split_on_app by (apply show_Z_no; auto).
  rewrite split_on_none by (apply show_Z_no; auto). reflexivity.
Qed.

Lemma yields_eq r r' cells m f g :
  yields r cells m f -> yields r' cells m g -> (forall x j, in_range cells x -> (j < m)%nat -> f x j = g x j) -> r = r'.
Proof.
  intros (w & -> & W & S & V) (w' & -> & W' & S' & V') He. f_equal. apply nda_ext; auto; [congruence|].
  intros idx Hi. rewrite S in Hi. apply in_range_snoc_inv in Hi as (x & j & -> & Hx & Hj).
  rewrite V, V' by auto. f_equal. auto.
Qed.

Lemma yields_fun r cells m f w : yields r cells m f -> r = Ok w -> shows cells m w f.
Proof. intros (w' & -> & S) E. injection E as ->. exact S. Qed.

Lemma dot_nonneg (u : nat -> R) : 0 <= dot u u.
Proof.
  unfold dot, sum3. pose proof (Rle_0_sqr (u 0%nat)) as H0. pose proof (Rle_0_sqr (u 1%nat)) as H1. pose proof (Rle_0_sqr (u 2%nat)) as H2.
  unfold Rsqr in *. lra.
Qed.

(** ** C42 *)
Section Projection.
  Context (cells : list nat) (nr a : nat) (data rot : arr) (f g : list nat -> nat -> R).
  Context (Sd : shows cells 3 data f) (Sr : shows cells nr rot g) (Ha : (a + 3 <= nr)%nat).
  (** the direction *)
  Let d (x : list nat) (i : nat) : R := g x (a + i)%nat.
  Context (Nz : forall x, in_range cells x -> exists i, (i < 3)%nat /\ g x (a + i)%nat <> 0).

  Definition proj (u w : nat -> R) (i : nat) : R := dot u w / dot w w * w i.

  Lemma y_proj data' f' : shows cells 3 data' f' ->
    yields (parrotate (range_text a (a + 3)) data' rot) cells 3 (fun x j => proj (f' x) (d x) j).
  Proof using Sr Ha.
    intros S'. replace 3%nat with (a + 3 - a)%nat in S' at 1 by lia.
    pose proof (y_parrotate cells nr data' rot f' g (range_text a (a + 3)) a (a + 3) S' Sr ltac:(lia) ltac:(lia) (range_text_split _ _)) as Y.
    replace (a + 3 - a)%nat with 3%nat in Y by lia. eapply yields_ext; [exact Y|].
    intros x j Hx Hj. cbv beta. destruct (Nat.ltb_spec j 3); [|lia].
    unfold proj, dot, sum3, d. cbn [seq List.map rsum fold_right]. f_equal. f_equal; ring.
  Qed.

  Theorem C42_projection : exists o h,
    parrotate (range_text a (a + 3)) data rot = Ok o /\ shows cells 3 o h /\
    (forall x, in_range cells x ->
      (exists c, forall i, (i < 3)%nat -> h x i = c * d x i) /\
      dot (fun i => f x i - h x i) (d x) = 0 /\
      dot (h x) (h x) <= dot (f x) (f x)) /\
    parrotate (range_text a (a + 3)) o rot = Ok o.
  Proof using All.
    destruct (y_proj data f Sd) as (o & Eo & So). exists o, (fun x j => proj (f x) (d x) j).
    split; [exact Eo|]. split; [exact So|].
    assert (D : forall x, in_range cells x -> 0 < dot (d x) (d x)) by (intros x Hx; apply dot_pos; apply Nz; exact Hx).
    split.
    - intros x Hx. specialize (D x Hx). split; [exists (dot (f x) (d x) / dot (d x) (d x)); reflexivity|]. split.
      + transitivity (dot (f x) (d x) - dot (f x) (d x) / dot (d x) (d x) * dot (d x) (d x));
          [unfold proj; generalize (dot (f x) (d x) / dot (d x) (d x)); intros; unfold dot, sum3; ring|field; lra].
      + set (c := dot (f x) (d x) / dot (d x) (d x)).
        assert (E : dot (f x) (f x) - dot (proj (f x) (d x)) (proj (f x) (d x)) = dot (fun i => f x i - c * d x i) (fun i => f x i - c * d x i)).
        { assert (K : dot (f x) (d x) = c * dot (d x) (d x)) by (unfold c; field; lra).
          assert (P : dot (proj (f x) (d x)) (proj (f x) (d x)) = c * c * dot (d x) (d x)).
          { unfold proj. fold c. unfold dot at 1, sum3. unfold dot, sum3. ring. }
          rewrite P. transitivity (dot (f x) (f x) - 2 * c * dot (f x) (d x) + c * c * dot (d x) (d x)).
          - rewrite K. ring.
          - unfold dot, sum3. ring. }
        assert (0 <= dot (fun i => f x i - c * d x i) (fun i => f x i - c * d x i)) by apply dot_nonneg.
        change (fun j : nat => proj (f x) (d x) j) with (proj (f x) (d x)) in *. lra.
    - rewrite <- Eo. eapply yields_eq; [apply y_proj; exact So|apply y_proj; exact Sd|].
      intros x j Hx Hj. cbv beta. specialize (D x Hx).
      change (dot (fun j0 => proj (f x) (d x) j0) (d x) / dot (d x) (d x) * d x j = dot (f x) (d x) / dot (d x) (d x) * d x j).
      f_equal. f_equal.
      transitivity (dot (f x) (d x) / dot (d x) (d x) * dot (d x) (d x)); [|field; lra].
      unfold proj. generalize (dot (f x) (d x) / dot (d x) (d x)). intros. unfold dot, sum3. ring.
  Qed.

  (** Only the direction matters. *)
  Theorem C42_length rot' g' nr' (c : list nat -> R) :
    shows cells nr' rot' g' -> (a + 3 <= nr')%nat ->
    (forall x, in_range cells x -> c x <> 0 /\ forall i, (i < 3)%nat -> g' x (a + i)%nat = c x * g x (a + i)%nat) ->
    parrotate (range_text a (a + 3)) data rot' = parrotate (range_text a (a + 3)) data rot.
  Proof using All.
    intros Sr' Ha' Hc.
    assert (Y' : yields (parrotate (range_text a (a + 3)) data rot') cells 3 (fun x j => proj (f x) (fun i => g' x (a + i)%nat) j)).
    { pose proof Sd as S'. replace 3%nat with (a + 3 - a)%nat in S' at 1 by lia.
      pose proof (y_parrotate cells nr' data rot' f g' (range_text a (a + 3)) a (a + 3) S' Sr' ltac:(lia) ltac:(lia) (range_text_split _ _)) as Y.
      replace (a + 3 - a)%nat with 3%nat in Y by lia. eapply yields_ext; [exact Y|].
      intros x j Hx Hj. cbv beta. destruct (Nat.ltb_spec j 3); [|lia].
      unfold proj, dot, sum3. cbn [seq List.map rsum fold_right]. f_equal. f_equal; ring. }
    eapply yields_eq; [exact Y'|apply y_proj; exact Sd|].
    intros x j Hx Hj. cbv beta. destruct (Hc x Hx) as (Nc & Ec).
    assert (D : 0 < dot (d x) (d x)) by (apply dot_pos; apply Nz; exact Hx).
    unfold proj. rewrite (Ec j Hj). fold (d x j).
    replace (dot (f x) (fun i => g' x (a + i)%nat)) with (c x * dot (f x) (d x)).
    2:{ unfold dot, sum3. rewrite !Ec by lia. unfold d. ring. }
    replace (dot (fun i => g' x (a + i)%nat) (fun i => g' x (a + i)%nat)) with (c x * c x * dot (d x) (d x)).
    2:{ unfold dot, sum3. rewrite !Ec by lia. unfold d. ring. }
    field. split; [lra|exact Nc].
  Qed.

  (** The command bparrotate stores this next to the grid. *)
  Theorem C42_bparrotate grid : a = 3%nat -> exists o,
    parrotate (range_text a (a + 3)) data rot = Ok o /\ bparrotate_cmd grid data rot = Ok (VGrid grid, VArr o).
  Proof using All.
    intros E3. destruct (y_proj data f Sd) as (o & Eo & (W & S & V)). exists o. split; [exact Eo|].
    unfold bparrotate_cmd. replace (range_text a (a + 3)) with "3:6"%string in Eo by (rewrite E3; reflexivity). rewrite Eo. cbn [bind push_py].
    rewrite S. destruct cells; reflexivity.
  Qed.
End Projection.

(** A wrong number of components is always an error. *)
Theorem C42_components cells m nr data rot f g :
  shows cells m data f -> shows cells nr rot g -> (3 <= nr)%nat -> m <> 3%nat ->
  parrotate "0:3" data rot = Err (if (m =? 1)%nat then AttributeError else ValueError).
Proof.
  intros Sd Sr Hr Hm. unfold parrotate. change (split_on ":" "0:3") with ["0"; "3"]%string.
  assert (P0 : py_int "0" = Ok 0%Z) by reflexivity. assert (P3 : py_int "3" = Ok 3%Z) by reflexivity.
  cbv iota. rewrite P0, P3. cbn [bind].
  destruct (yields_cols 0 3 rot cells nr g Sr) as (w & -> & Sw). cbn [bind].
  replace (length (slice2 nr 0 3)) with 3%nat in Sw
    by (unfold slice2, adjust_pos; cbn [Z.ltb Z.compare]; rewrite seq_length; lia).
  destruct (Nat.eqb_spec m 1) as [->|N1].
  - assert (H0 : exists o0 h0, par_comp data w 0 (zeros (shape data)) = Ok o0 /\ shows cells 1 o0 h0 /\
         forall o1 h1, shows cells 1 o1 h1 -> par_comp data w 1 o1 = Err IndexError).
    { assert (Shd : shape data = cells ++ [1%nat]) by apply Sd. rewrite Shd. unfold par_comp, mul, div.
      destruct (yields_rb_gen Rmult data w cells 1 3 3 _ _ Sd Sw eq_refl) as (p & -> & Hp). cbn [bind].
      destruct (holds_sum _ _ _ _ Hp) as (n & -> & Hn). cbn [bind].
      destruct (yields_rb Rmult _ _ _ _ _ _ Sw Sw) as (c & -> & Hc). cbn [bind].
      destruct (holds_sum _ _ _ _ Hc) as (e & -> & He). cbn [bind].
      destruct (holds_rb Rdiv _ _ _ _ _ Hn He) as (q & -> & Hq). cbn [bind].
      destruct (holds_comp 0 w _ _ _ Sw ltac:(lia)) as (k0 & -> & Hk0). cbn [bind].
      destruct (holds_rb Rmult _ _ _ _ _ Hq Hk0) as (r & -> & Hr0). cbn [bind].
      destruct (yields_set_col 0 _ _ _ _ _ _ Hr0 (shows_zeros cells 1) ltac:(lia)) as (o0 & -> & Ho0).
      eexists _, _. split; [reflexivity|]. split; [exact Ho0|]. intros o1 h1 S1.
      destruct (holds_comp 1 w _ _ _ Sw ltac:(lia)) as (k1 & -> & Hk1). cbn [bind].
      destruct (holds_rb Rmult _ _ _ _ _ Hq Hk1) as (r1 & -> & Hr1). cbn [bind].
      unfold set_col, put_col. assert (E1 : shape o1 = cells ++ [1%nat]) by apply S1. rewrite E1, last_snoc. reflexivity. }
    destruct H0 as (o0 & h0 & -> & S0 & H1). cbn [bind]. rewrite (H1 o0 h0 S0). reflexivity.
  - assert (E : mul data w = Err ValueError).
    { unfold mul, rb, broadcast. assert (Shd : shape data = cells ++ [m]) by apply Sd. assert (Shw : shape w = cells ++ [3%nat]) by apply Sw.
      rewrite Shd, Shw. rewrite !app_length. cbn [length]. rewrite Nat.max_id. unfold pad_front. rewrite !app_length. cbn [length].
      rewrite Nat.sub_diag. cbn [repeat app].
      assert (B : bdims (cells ++ [m]) (cells ++ [3%nat]) = Err ValueError).
      { clear - N1 Hm. induction cells as [|c cells IH]; cbn [app bdims bdim].
        - unfold bdim. destruct (Nat.eqb_spec m 3); [congruence|]. destruct (Nat.eqb_spec m 1); [congruence|]. reflexivity.
        - unfold bdim at 1. rewrite Nat.eqb_refl. cbn [bind]. rewrite IH. reflexivity. }
      rewrite B. reflexivity. }
    assert (E0 : par_comp data w 0 (zeros (shape data)) = Err ValueError) by (unfold par_comp; rewrite E; reflexivity).
    rewrite E0. reflexivity.
Qed.

(** The perpendicular part is never computed, and the commands parrotate and
    perprotate never deliver a dataset. *)
Theorem C42_perp_refuted : forall coords data rot w, perprotate coords data rot <> Ok w.
Proof. intros. unfold perprotate. destruct (parrotate coords data rot); discriminate. Qed.

Theorem C42_command_refuted : forall grid data rot r, parrotate_cmd grid data rot <> Ok r /\ perprotate_cmd grid data rot <> Ok r.
Proof.
  intros. unfold parrotate_cmd, perprotate_cmd, perprotate. destruct (parrotate "0:3" data rot); split; discriminate.
Qed.

(** ** C44 *)
Theorem C44_magnitude cells n v f a b :
  shows cells n v f -> (a < b <= n)%nat ->
  exists q : list nat -> R, yields (mag_sq (range_text a b) v) cells 1 (fun x _ => q x) /\
    forall x, in_range cells x ->
      0 <= q x /\ (q x = 0 <-> forall k, (a <= k < b)%nat -> f x k = 0).
Proof.
  intros Sf H. eexists. split; [eapply y_mag_sq; [exact Sf|apply range_text_split|exact H]|].
  intros x Hx. cbv beta.
  assert (G : forall l : list nat, 0 <= rsum (List.map (fun k => f x k * f x k) l) /\
     (rsum (List.map (fun k => f x k * f x k) l) = 0 <-> forall k, In k l -> f x k = 0)).
  { induction l as [|k l [IH1 IH2]]; [split; [cbn; lra|split; [intros _ ? []|reflexivity]]|].
    cbn [List.map rsum fold_right]. fold (rsum (List.map (fun k => f x k * f x k) l)).
    pose proof (Rle_0_sqr (f x k)) as Q. unfold Rsqr in Q. split; [lra|]. split.
    - intros E. assert (E1 : f x k * f x k = 0) by lra. assert (E2 : rsum (List.map (fun k => f x k * f x k) l) = 0) by lra.
      intros j [<-|Hj]; [apply Rsqr_eq_0; exact E1|]. apply IH2; assumption.
    - intros Z. rewrite (Z k (or_introl eq_refl)). rewrite (proj2 IH2); [ring|]. intros j Hj. apply Z. right. exact Hj. }
  destruct (G (seq a (b - a))) as [G1 G2]. split; [exact G1|]. rewrite G2. split.
  - intros Z k Hk. apply Z. apply in_seq. lia.
  - intros Z k Hk. apply in_seq in Hk. apply Z. lia.
Qed.

(** What the two species contribute, in the terms of C37 and C38. *)
Inductive species (cells : list nat) (v : arr) (p ke : list nat -> R) : Prop :=
| five s : stores cells 5 v (euler_cons gas_gamma s) -> shape v = cells ++ [5%nat] -> (forall x, in_range cells x -> 0 < rho s x) ->
    (forall x, in_range cells x -> p x = pr s x) -> (forall x, in_range cells x -> ke x = rho s x * u2 s x / 2) -> species cells v p ke
| ten s : stores cells 10 v (tenmoment_cons s) -> shape v = cells ++ [10%nat] -> (forall x, in_range cells x -> 0 < rho s x) ->
    (forall x, in_range cells x -> p x = third s x) -> (forall x, in_range cells x -> ke x = rho s x * u2 s x / 2) -> species cells v p ke.

Lemma species_yields cells v p ke : species cells v p ke ->
  yields (get_p gas_gamma None v) cells 1 (fun x _ => p x) /\ yields (get_ke gas_gamma None v) cells 1 (fun x _ => ke x).
Proof.
  intros [s St Sh Hr Hp Hk|s St Sh Hr Hp Hk].
  - assert (G : gas_gamma <> 1) by (unfold gas_gamma; lra).
    destruct (C37_recovered gas_gamma cells 5 v s (le_n _) St G Hr "pressure" _ _ eq_refl) as (F & EF & Y). injection EF as <-.
    destruct (C37_recovered gas_gamma cells 5 v s (le_n _) St G Hr "ke" _ _ eq_refl) as (F & EF & Y'). injection EF as <-.
    destruct St as (f & Sf & _). destruct (C37_guess gas_gamma cells 5 v f Sf) as (H5 & _). destruct (H5 eq_refl) as [-> ->].
    split; [eapply yields_ext; [exact Y|]|eapply yields_ext; [exact Y'|]]; intros; cbv beta; symmetry; auto.
  - destruct (C38_recovered gas_gamma cells 10 v s (le_n _) St Hr "pressure" _ _ eq_refl) as (F & EF & Y). injection EF as <-.
    destruct (C38_recovered gas_gamma cells 10 v s (le_n _) St Hr "ke" _ _ eq_refl) as (F & EF & Y'). injection EF as <-.
    destruct St as (f & Sf & _). destruct (C37_guess gas_gamma cells 10 v f Sf) as (_ & H10 & _). destruct (H10 eq_refl) as [-> ->].
    split; [eapply yields_ext; [exact Y|]|eapply yields_ext; [exact Y'|]]; intros; cbv beta; symmetry; auto.
Qed.

Theorem C44_energetics cells nf elc ion field ff pe ke pi ki :
  species cells elc pe ke -> species cells ion pi ki -> shows cells nf field ff -> (7 <= nf)%nat ->
  (ones_first cells = true ->
   exists w, energetics elc ion field = Ok w /\ shape w = cells ++ [7%nat] /\
    forall x, in_range cells x -> exists e b t : R,
      get w (x ++ [0%nat]) = Some (pe x) /\ get w (x ++ [1%nat]) = Some (ke x) /\
      get w (x ++ [2%nat]) = Some (pi x) /\ get w (x ++ [3%nat]) = Some (ki x) /\
      get w (x ++ [4%nat]) = Some e /\ get w (x ++ [5%nat]) = Some b /\ get w (x ++ [6%nat]) = Some t /\
      e = ((ff x 0%nat)^2 + (ff x 1%nat)^2 + (ff x 2%nat)^2) / 2 /\ b = ((ff x 3%nat)^2 + (ff x 4%nat)^2 + (ff x 5%nat)^2) / 2 /\
      t = pe x + ke x + pi x + ki x + e + b) /\
  (ones_first cells = false -> energetics elc ion field = Err ValueError).
Proof.
  intros Se Si Sf Hn. destruct (species_yields _ _ _ _ Se) as [Y1 Y2]. destruct (species_yields _ _ _ _ Si) as [Y3 Y4]. split.
  - intros O. destruct (y_energetics cells nf elc ion field ff pe ke pi ki Sf Y1 Y2 Y3 Y4 Hn O) as (w & Ew & W & S & V).
    exists w. split; [exact Ew|]. split; [exact S|]. intros x Hx. exists (esq ff x), (bsq ff x), (pe x + ke x + pi x + ki x + esq ff x + bsq ff x).
    assert (V' := fun j Hj => V x j Hx Hj).
    split; [apply V'; lia|]. split; [apply V'; lia|]. split; [apply V'; lia|]. split; [apply V'; lia|].
    split; [apply V'; lia|]. split; [apply V'; lia|]. split; [apply V'; lia|].
    split; [unfold esq; field|]. split; [unfold bsq; field|]. reflexivity.
  - intros O. eapply energetics_axis; eauto. lia.
Qed.

(** Relative change: component by component, or with respect to one component
    of the reference (negative numbers count from the end). *)
Theorem C44_relchange cells m m0 v v0 f f0 :
  shows cells m v f -> shows cells m0 v0 f0 -> (m <= m0)%nat ->
  (forall x j, in_range cells x -> (j < m0)%nat -> f0 x j <> 0) ->
  exists q : list nat -> nat -> R, yields (rel_change v0 v None) cells m q /\
    (forall x j, in_range cells x -> (j < m)%nat -> f0 x j + q x j * f0 x j = f x j) /\
    (forall x j, in_range cells x -> (j < m)%nat -> (q x j = 0 <-> f x j = f0 x j)).
Proof.
  intros Sv S0 Hm Nz. eexists. split; [eapply y_rel_none; eauto|]. split.
  - intros x j Hx Hj. cbv beta. field. apply Nz; [exact Hx|lia].
  - intros x j Hx Hj. cbv beta. assert (N : f0 x j <> 0) by (apply Nz; [exact Hx|lia]). split.
    + intros E. apply Rmult_integral in E as [E|E]; [lra|]. exfalso. apply (Rinv_neq_0_compat (f0 x j)); assumption.
    + intros ->. field. exact N.
Qed.

Theorem C44_relchange_comp cells m m0 v v0 f f0 z r :
  shows cells m v f -> shows cells m0 v0 f0 -> (m <= m0)%nat -> (r < m0)%nat ->
  z = Z.of_nat r \/ z = (Z.of_nat r - Z.of_nat m0)%Z ->
  (forall x, in_range cells x -> f0 x r <> 0) ->
  exists q : list nat -> nat -> R, yields (rel_change v0 v (Some (show_Z z))) cells m q /\
    (forall x j, in_range cells x -> (j < m)%nat -> f0 x j + q x j * f0 x r = f x j) /\
    (forall x j, in_range cells x -> (j < m)%nat -> (q x j = 0 <-> f x j = f0 x j)).
Proof.
  intros Sv S0 Hm Hr Hz Nz.
  assert (En : norm_index m0 z = Ok r).
  { unfold norm_index. destruct Hz as [-> | ->].
    - destruct (Z.ltb_spec (Z.of_nat r) 0); [lia|]. destruct (Z.leb_spec 0 (Z.of_nat r)); [|lia].
      destruct (Z.ltb_spec (Z.of_nat r) (Z.of_nat m0)); [|lia]. cbn [andb]. now rewrite Nat2Z.id.
    - destruct (Z.ltb_spec (Z.of_nat r - Z.of_nat m0) 0); [|lia].
      replace (Z.of_nat r - Z.of_nat m0 + Z.of_nat m0)%Z with (Z.of_nat r) by lia.
      destruct (Z.leb_spec 0 (Z.of_nat r)); [|lia].
      destruct (Z.ltb_spec (Z.of_nat r) (Z.of_nat m0)); [|lia]. cbn [andb]. now rewrite Nat2Z.id. }
  eexists. split; [eapply (y_rel_some cells m m0 v v0 f f0 Sv S0 (show_Z z) z r); eauto using py_int_show_Z|]. split.
  - intros x j Hx Hj. cbv beta. field. auto.
  - intros x j Hx Hj. cbv beta. specialize (Nz x Hx). split.
    + intros E. apply Rmult_integral in E as [E|E]; [lra|]. exfalso. apply (Rinv_neq_0_compat (f0 x r)); assumption.
    + intros ->. field. exact Nz.
Qed.

(** ** C58: the "rotation matrix" is never a rotation

    Each row of a rotation matrix has length one.  The first row has length
    sqrt 3, whatever the vector, and the length of the vector is forgotten only
    up to the signs of its components. *)
Definition norm2 (r : list R) : R := rsum (List.map (fun x => x * x) r).

Lemma unit_sq x : x <> 0 -> x / Rabs x * (x / Rabs x) = 1.
Proof.
  intros H. assert (Rabs x <> 0) by (apply Rabs_no_R0; exact H).
  assert (E : Rabs x * Rabs x = x * x) by (rewrite <- Rabs_mult; apply Rabs_right; apply Rle_ge; apply Rle_0_sqr).
  replace (x / Rabs x * (x / Rabs x)) with (x * x / (Rabs x * Rabs x)) by (field; assumption).
  rewrite E. field. exact H.
Qed.

Theorem C58_refuted a b c : a <> 0 -> b <> 0 -> c <> 0 ->
  exists r1 r2 r3, rotation_matrix [a; b; c] = Ok [r1; r2; r3] /\
    norm2 r1 = 3 /\ norm2 r2 = 1 /\ norm2 r3 = 1 /\
    rsum (map2 Rmult r1 r2) = 0 /\ rsum (map2 Rmult r1 r3) = 0 /\ rsum (map2 Rmult r2 r3) = 0 /\
    (forall a' b' c', 0 < a * a' -> 0 < b * b' -> 0 < c * c' -> rotation_matrix [a'; b'; c'] = Ok [r1; r2; r3]).
Proof.
  intros Ha Hb Hc. pose proof (unit_sq a Ha) as Ea. pose proof (unit_sq b Hb) as Eb. pose proof (unit_sq c Hc) as Ec.
  assert (U : forall x y, 0 < x * y -> y / Rabs y = x / Rabs x).
  { intros x y H. destruct (Rtotal_order x 0) as [L|[L|L]].
    - assert (y < 0) by nra. rewrite !Rabs_left by lra. field. lra.
    - subst. lra.
    - assert (0 < y) by nra. rewrite !Rabs_right by lra. field. lra. }
  assert (K : forall a' b' c', 0 < a * a' -> 0 < b * b' -> 0 < c * c' -> rotation_matrix [a'; b'; c'] = rotation_matrix [a; b; c]).
  { intros a' b' c' Pa Pb Pc. unfold rotation_matrix. cbn [List.map]. rewrite (U a a' Pa), (U b b' Pb), (U c c' Pc). reflexivity. }
  assert (G : exists r1 r2 r3, rotation_matrix [a; b; c] = Ok [r1; r2; r3] /\
    norm2 r1 = 3 /\ norm2 r2 = 1 /\ norm2 r3 = 1 /\
    rsum (map2 Rmult r1 r2) = 0 /\ rsum (map2 Rmult r1 r3) = 0 /\ rsum (map2 Rmult r2 r3) = 0).
  { unfold rotation_matrix. cbn [List.map]. clear K U.
    eexists. eexists. eexists. split; [reflexivity|].
    revert Ea Eb Ec. generalize (a / Rabs a) as k0, (b / Rabs b) as k1, (c / Rabs c) as k2. intros k0 k1 k2 E0 E1 E2.
    set (n2 := sqrt (k1 * k1 + k2 * k2)). set (n3 := sqrt ((k1 * k1 + k2 * k2) * (k1 * k1 + k2 * k2) + k0 * k0 * k1 * k1 + k0 * k0 * k2 * k2)).
    assert (N2 : n2 * n2 = 2) by (unfold n2; rewrite sqrt_sqrt; lra).
    assert (N3 : n3 * n3 = 6).
    { unfold n3. replace (k0 * k0 * k1 * k1) with ((k0 * k0) * (k1 * k1)) by ring. replace (k0 * k0 * k2 * k2) with ((k0 * k0) * (k2 * k2)) by ring.
      rewrite E0, E1, E2. rewrite sqrt_sqrt; lra. }
    clearbody n2 n3.
    assert (Z2 : n2 <> 0) by (intros Z; rewrite Z in N2; lra). assert (Z3 : n3 <> 0) by (intros Z; rewrite Z in N3; lra).
    unfold norm2. cbn [List.map map2 rsum fold_right].
    split; [lra|]. split.
    { replace (0 * 0 + (- k2 / n2 * (- k2 / n2) + (k1 / n2 * (k1 / n2) + 0))) with ((k2 * k2 + k1 * k1) / (n2 * n2)) by (field; exact Z2).
      rewrite N2, E1, E2. lra. }
    split.
    { replace ((k1 * k1 + k2 * k2) / n3 * ((k1 * k1 + k2 * k2) / n3) + (- k0 * k1 / n3 * (- k0 * k1 / n3) + (- k0 * k2 / n3 * (- k0 * k2 / n3) + 0)))
        with (((k1 * k1 + k2 * k2) * (k1 * k1 + k2 * k2) + (k0 * k0) * (k1 * k1) + (k0 * k0) * (k2 * k2)) / (n3 * n3)) by (field; exact Z3).
      rewrite N3, E0, E1, E2. lra. }
    split; [field; exact Z2|]. split; [field; exact Z3|]. field. auto. }
  destruct G as (r1 & r2 & r3 & E & H1 & H2 & H3 & H4 & H5 & H6). exists r1, r2, r3.
  split; [exact E|]. split; [exact H1|]. split; [exact H2|]. split; [exact H3|]. split; [exact H4|]. split; [exact H5|]. split; [exact H6|].
  intros a' b' c' Pa Pb Pc. rewrite (K a' b' c' Pa Pb Pc). exact E.
Qed.

(** ** Examples *)
Example C42_ex : yields (parrotate "0:3" (one_cell [1; 2; 3]) (one_cell [0; 0; 5])) [1%nat] 3 (fun _ j => nth j [0; 0; 3] 0).
Proof.
  assert (Sd : shows [1%nat] 3 (one_cell [1; 2; 3]) _) by (apply one_cell_shows; reflexivity).
  assert (Sr : shows [1%nat] 3 (one_cell [0; 0; 5]) _) by (apply one_cell_shows; reflexivity).
  pose proof (y_proj [1%nat] 3 0 (one_cell [0; 0; 5]) _ Sr (le_n _) _ _ Sd) as Y.
  change (range_text 0 (0 + 3)) with "0:3"%string in Y.
  eapply yields_ext; [exact Y|]. intros x j Hx Hj. cbv beta. unfold proj, dot, sum3.
  destruct j as [|[|[|j]]]; try lia; cbn [nth Nat.add]; field.
Qed.

Example C44_ex : yields (rel_change (one_cell [2; 4]) (one_cell [3; 5]) (Some "-1"%string)) [1%nat] 2 (fun _ _ => 1 / 4).
Proof.
  assert (S0 : shows [1%nat] 2 (one_cell [2; 4]) _) by (apply one_cell_shows; reflexivity).
  assert (Sv : shows [1%nat] 2 (one_cell [3; 5]) _) by (apply one_cell_shows; reflexivity).
  eapply yields_ext; [eapply (y_rel_some [1%nat] 2 2 _ _ _ _ Sv S0 "-1" (-1) 1); [lia|reflexivity|reflexivity|lia]|].
  intros x j Hx Hj. cbv beta. destruct j as [|[|j]]; try lia; cbn [nth]; field.
Qed.

Example C44_energy_ex : exists w, energetics (one_cell [2; 2; 4; -2; 21 / 2]) (one_cell [2; 2; 4; -2; 21 / 2]) (one_cell [1; 0; 0; 0; 2; 0; 0; 0]) = Ok w /\
  get w [0; 6]%nat = Some (3 + 6 + 3 + 6 + 1 / 2 + 2).
Proof.
  assert (Sp : species [1%nat] (one_cell [2; 2; 4; -2; 21 / 2]) (fun _ => 3) (fun _ => 6)).
  { apply (five _ _ _ _ ex_fluid).
    - apply one_cell_stores; [reflexivity|]. intros x _. unfold euler_cons, u2, ex_fluid, gas_gamma; cbn. repeat (f_equal; try lra).
    - reflexivity.
    - intros; cbn; lra.
    - intros; reflexivity.
    - intros; unfold u2; cbn; lra. }
  assert (Sf : shows [1%nat] 8 (one_cell [1; 0; 0; 0; 2; 0; 0; 0]) _) by (apply one_cell_shows; reflexivity).
  destruct (C44_energetics [1%nat] 8 _ _ _ _ _ _ _ _ Sp Sp Sf ltac:(lia)) as [H _]. destruct (H eq_refl) as (w & Ew & _ & V).
  exists w. split; [exact Ew|].
  destruct (V [0%nat]) as (e & b & t & _ & _ & _ & _ & _ & _ & Vt & He & Hb & Ht); [repeat constructor; lia|].
  change ([0; 6]%nat) with ([0%nat] ++ [6%nat]). rewrite Vt. f_equal. rewrite Ht, He, Hb. cbn [nth]. lra.
Qed.

Print Assumptions C42_projection. Print Assumptions C42_length. Print Assumptions C42_bparrotate. Print Assumptions C42_components.
Print Assumptions C42_perp_refuted. Print Assumptions C42_command_refuted. Print Assumptions C44_magnitude. Print Assumptions C44_energetics.
Print Assumptions C44_relchange. Print Assumptions C44_relchange_comp. Print Assumptions C58_refuted.
