(** * C43: integration over a grid *)
From Coq Require Import String Ascii List Arith ZArith Bool Lia Reals Lra Permutation.
From Verif Require Import Prelude PreludeFacts NdArray Sort Ev_Model Tools_Arr Calc_Model Calc_Spec Calc_Proofs.
Import ListNotations.
Open Scope list_scope.
Open Scope nat_scope.

(** Integrating over distinct axes gives, in every remaining cell, the sum of
    the values times the widths; the axes stay, with length one, and their
    coordinate is the mean of the coordinates. *)
Theorem C43_value nd grid v sh f axes :
  NoDup axes -> holds sh v f -> length grid <= length sh ->
  (forall a, In a axes -> a < length grid /\ fits (nth a grid []) (nth a sh 0)) ->
  exists w, integrate nd (AxTuple (List.map Z.of_nat axes)) (grid, v) = Ok (collapse_grid mean axes grid, w) /\
    holds (collapse_shape axes sh) w (total grid sh axes f).
Proof. intros. eapply integrate_ok; eauto. Qed.

(** Only the listed axes change. *)
Theorem C43_others nd grid v sh f axes :
  NoDup axes -> holds sh v f -> length grid <= length sh ->
  (forall a, In a axes -> a < length grid /\ fits (nth a grid []) (nth a sh 0)) ->
  exists g w, integrate nd (AxTuple (List.map Z.of_nat axes)) (grid, v) = Ok (g, w) /\
    length g = length grid /\ length (shape w) = length sh /\
    forall b, ~ In b axes -> nth b g [] = nth b grid [] /\ nth b (shape w) 0 = nth b sh 0.
Proof.
  intros ND Hv Lg H. destruct (C43_value nd grid v sh f axes ND Hv Lg H) as (w & E & Hw).
  exists (collapse_grid mean axes grid), w. split; [exact E|]. destruct Hw as (_ & Sw & _). rewrite Sw.
  assert (Lc : forall l, length (collapse_grid mean l grid) = length grid).
  { induction l as [|a l IH]; [reflexivity|]. unfold collapse_grid in *. cbn [fold_right]. now rewrite set_nth_length. }
  split; [apply Lc|]. split; [apply collapse_length|]. intros b Nb. split.
  - clear - Lc H Nb. induction axes as [|a l IH]; [reflexivity|]. unfold collapse_grid. cbn [fold_right].
    fold (collapse_grid mean l grid). rewrite nth_set by (rewrite Lc; apply H; now left).
    destruct (Nat.eqb_spec b a) as [->|N]; [exfalso; apply Nb; now left|].
    apply IH; [intros c Hc; apply H; now right|intros Hc; apply Nb; now right].
  - apply nth_collapse_not; [|exact Nb]. intros a Ha. destruct (H a Ha). lia.
Qed.

Lemma holds_inj sh u w f g : holds sh u f -> holds sh w g -> (forall x, in_range sh x -> f x = g x) -> u = w.
Proof.
  intros (W & S & V) (W' & S' & V') E. apply nda_ext; [exact W|exact W'|congruence|].
  intros x Hx. rewrite S in Hx. rewrite V, V' by exact Hx. f_equal. now apply E.
Qed.

(** The ways of naming axes: a number, several numbers, text with commas,
    nothing for all of them. *)
Theorem C43_axes nd s a l :
  integrate nd (AxInt a) s = integrate nd (AxTuple [a]) s /\
  integrate nd AxNone s = integrate nd (AxTuple (List.map Z.of_nat (seq 0 nd))) s /\
  (l <> [] -> integrate nd (AxStr (join "," (List.map show_Z l))) s = integrate nd (AxTuple l) s) /\
  integrate nd AxOther s = Err TypeError.
Proof.
  split; [reflexivity|]. split; [reflexivity|]. split; [|reflexivity]. intros NE.
  unfold integrate. f_equal. unfold parse_axis.
  assert (ES : split_on "," (join "," (List.map show_Z l)) = List.map show_Z l).
  { clear s a. induction l as [|x l IH]; [congruence|]. destruct l as [|y l].
    - cbn. apply split_on_none. apply show_Z_has; [|discriminate]. unfold digit_char. cbn. intuition discriminate.
    - cbn [List.map join] in *.
      change (String "," "" ++ ?t)%string with (String "," t).
      rewrite split_on_app; [|apply show_Z_has; [|discriminate]; unfold digit_char; cbn; intuition discriminate].
      f_equal. apply IH. discriminate. }
  rewrite ES, map_length. destruct l as [|x [|y l]]; [congruence| |].
  - cbn [length List.map join Nat.ltb Nat.leb]. rewrite split_on_none; [|apply show_Z_has; [|discriminate]; unfold digit_char; cbn; intuition discriminate].
    cbn [length Nat.eqb]. rewrite py_int_show_Z. reflexivity.
  - cbn [length Nat.ltb Nat.leb]. generalize (x :: y :: l). intros m. induction m as [|z m IH]; [reflexivity|].
    cbn [List.map mapM]. rewrite py_int_show_Z. cbn [bind]. rewrite IH. reflexivity.
Qed.

(** A range "a:b" of axes, promised by the error message, is never accepted. *)
Theorem C43_range nd s t :
  has_char "," t = false -> length (split_on ":" t) = 2 -> integrate nd (AxStr t) s = Err TypeError.
Proof.
  intros H L. unfold integrate, parse_axis. rewrite split_on_none by exact H. cbn [length Nat.ltb Nat.leb]. rewrite L. reflexivity.
Qed.

Theorem C43_range_refuted : exists nd t lo hi s r,
  t = (show_Z lo ++ ":" ++ show_Z hi)%string /\
  integrate nd (AxTuple [lo; (lo + 1)%Z]) s = Ok r /\ hi = (lo + 2)%Z /\ integrate nd (AxStr t) s = Err TypeError.
Proof.
  exists 2, "0:2"%string, 0%Z, 2%Z, ([[0; 1]%R; [0; 1]%R], tabulate [1; 1; 1] (fun _ => 1%R)).
  eexists. split; [reflexivity|]. split; [reflexivity|]. split; reflexivity.
Qed.

(** Linear in the values. *)
Theorem C43_linear nd grid u v z sh f g c d axes :
  NoDup axes -> holds sh u f -> holds sh v g -> holds sh z (fun x => c * f x + d * g x)%R -> length grid <= length sh ->
  (forall a, In a axes -> a < length grid /\ fits (nth a grid []) (nth a sh 0)) ->
  let ax := AxTuple (List.map Z.of_nat axes) in
  exists G u' v' z', integrate nd ax (grid, u) = Ok (G, u') /\ integrate nd ax (grid, v) = Ok (G, v') /\
    integrate nd ax (grid, z) = Ok (G, z') /\ shape z' = shape u' /\ shape z' = shape v' /\
    forall x, in_range (shape z') x -> val z' x = (c * val u' x + d * val v' x)%R.
Proof.
  intros ND Hu Hv Hz Lg H ax.
  destruct (C43_value nd grid u sh f axes ND Hu Lg H) as (u' & Eu & Hu').
  destruct (C43_value nd grid v sh g axes ND Hv Lg H) as (v' & Ev & Hv').
  destruct (C43_value nd grid z sh _ axes ND Hz Lg H) as (z' & Ez & Hz').
  exists (collapse_grid mean axes grid), u', v', z'. split; [exact Eu|]. split; [exact Ev|]. split; [exact Ez|].
  pose proof Hu' as (_ & Su & _). pose proof Hv' as (_ & Sv & _). pose proof Hz' as (_ & Sz & _).
  split; [congruence|]. split; [congruence|]. intros x Hx. rewrite Sz in Hx.
  rewrite (holds_val _ _ _ _ Hu' Hx), (holds_val _ _ _ _ Hv' Hx), (holds_val _ _ _ _ Hz' Hx). apply total_lin.
Qed.

(** One axis after the other, in any order, is the same as all at once. *)
Fixpoint one_at_a_time nd (axes : list nat) s :=
  match axes with
  | [] => Ok s
  | a :: r => let* s := integrate nd (AxInt (Z.of_nat a)) s in one_at_a_time nd r s
  end.

Lemma collapse_grid_set a r grid :
  ~ In a r -> a < length grid -> collapse_grid mean r (set_nth a [mean (nth a grid [])] grid) = collapse_grid mean (a :: r) grid.
Proof.
  intros N La. unfold collapse_grid. cbn [fold_right].
  induction r as [|b r IH]; [reflexivity|]. cbn [fold_right].
  rewrite IH by (intros H; apply N; now right). rewrite nth_set by exact La.
  destruct (Nat.eqb_spec b a) as [->|Nb]; [exfalso; apply N; now left|]. apply set_comm. exact Nb.
Qed.

Lemma collapse_shape_set a r sh : ~ In a r -> collapse_shape r (set_nth a 1 sh) = collapse_shape (a :: r) sh.
Proof.
  intros N. unfold collapse_shape. cbn [fold_right]. induction r as [|b r IH]; [reflexivity|]. cbn [fold_right].
  rewrite IH by (intros H; apply N; now right). apply set_comm. intros ->. apply N. now left.
Qed.

Lemma one_by_one nd axes grid v sh f :
  NoDup axes -> holds sh v f -> length grid <= length sh ->
  (forall a, In a axes -> a < length grid /\ fits (nth a grid []) (nth a sh 0)) ->
  exists w, one_at_a_time nd axes (grid, v) = Ok (collapse_grid mean axes grid, w) /\
    holds (collapse_shape axes sh) w (total grid sh axes f).
Proof.
  revert grid v sh f. induction axes as [|a r IH]; intros grid v sh f ND Hv Lg H.
  - exists v. split; [reflexivity|exact Hv].
  - inversion ND as [|x y Na ND']; subst. destruct (H a (or_introl eq_refl)) as [La Fa].
    destruct (C43_value nd grid v sh f [a]) as (v1 & E1 & H1).
    { constructor; [tauto|constructor]. } { exact Hv. } { exact Lg. }
    { intros b [<-|[]]. auto. }
    cbn [one_at_a_time]. change (integrate nd (AxInt (Z.of_nat a)) (grid, v)) with (integrate nd (AxTuple (List.map Z.of_nat [a])) (grid, v)).
    rewrite E1. cbn [bind].
    set (grid1 := collapse_grid mean [a] grid) in *. set (sh1 := collapse_shape [a] sh) in *.
    assert (Eg : grid1 = set_nth a [mean (nth a grid [])] grid) by reflexivity.
    assert (Es : sh1 = set_nth a 1 sh) by reflexivity.
    assert (Ag : forall b, In b r -> nth b grid1 [] = nth b grid [] /\ nth b sh1 0 = nth b sh 0).
    { intros b Hb. rewrite Eg, Es, !nth_set by lia. destruct (Nat.eqb_spec b a) as [->|]; [contradiction|auto]. }
    destruct (IH grid1 v1 sh1 _ ND' H1) as (w & E & Hw).
    { rewrite Eg, Es, !set_nth_length. exact Lg. }
    { intros b Hb. destruct (Ag b Hb) as [-> ->]. rewrite Eg, set_nth_length. apply H. now right. }
    exists w. split.
    + rewrite E. do 2 f_equal. rewrite Eg. now apply collapse_grid_set.
    + rewrite Es, collapse_shape_set in Hw by exact Na. eapply holds_ext; [exact Hw|]. intros x Hx. cbv beta.
      rewrite <- Es. rewrite (total_agree grid1 sh1 grid sh) by exact Ag. rewrite <- total_app.
      apply total_perm; [symmetry; apply Permutation_cons_append|].
      eapply Permutation_NoDup; [apply Permutation_cons_append|exact ND].
Qed.

Theorem C43_one_by_one nd axes order grid v sh f :
  NoDup axes -> Permutation axes order -> holds sh v f -> length grid <= length sh ->
  (forall a, In a axes -> a < length grid /\ fits (nth a grid []) (nth a sh 0)) ->
  one_at_a_time nd order (grid, v) = integrate nd (AxTuple (List.map Z.of_nat axes)) (grid, v).
Proof.
  intros ND P Hv Lg H.
  destruct (C43_value nd grid v sh f axes ND Hv Lg H) as (w & -> & Hw).
  assert (ND' : NoDup order) by (eapply Permutation_NoDup; eauto).
  destruct (one_by_one nd order grid v sh f ND' Hv Lg) as (w' & -> & Hw').
  { intros a Ha. apply H. eapply Permutation_in; [symmetry; exact P|exact Ha]. }
  rewrite <- (collapse_grid_perm mean _ _ grid P). do 2 f_equal. rewrite <- (collapse_perm _ _ sh P) in Hw'.
  eapply holds_inj; [exact Hw'|exact Hw|]. intros x _. symmetry. now apply total_perm.
Qed.

(** Length covered by an axis. *)
Definition extent (g : list R) (n : nat) : R :=
  if length g <=? 1 then 1%R
  else if length g =? n then (last g 0 - nth 0 g 0 + (last g 0 - nth (n - 2) g 0))%R
  else (last g 0 - nth 0 g 0)%R.

Lemma telescope g m : S m <= length g ->
  rsum (List.map (fun k => nth (S k) g 0 - nth k g 0)%R (seq 0 m)) = (nth m g 0 - nth 0 g 0)%R.
Proof.
  induction m as [|m IH]; intros L; [cbn; lra|]. rewrite seq_S, map_app. cbn [List.map Nat.add].
  assert (A : forall l x, rsum (l ++ [x]) = (rsum l + x)%R).
  { induction l as [|y l IHl]; intros x; unfold rsum in *; cbn; [lra|]. rewrite IHl. lra. }
  rewrite A, IH by lia. lra.
Qed.

Lemma sum_widths g n : fits g n -> rsum (List.map (width g n) (seq 0 n)) = extent g n.
Proof.
  intros F. unfold extent, width. destruct (Nat.leb_spec (length g) 1) as [L|L].
  - destruct F as [[_ N]|[F _]]; [|lia]. rewrite <- (map_ext (fun _ => (/ INR n * 1)%R)) by (intros; lra).
    rewrite rsum_scale. assert (E : rsum (List.map (fun _ => 1%R) (seq 0 n)) = INR n).
    { clear. generalize 0. induction n as [|n IH]; intros s; [reflexivity|]. cbn [seq List.map].
      change (rsum (?x :: ?r)) with (x + rsum r)%R. rewrite IH, S_INR. lra. }
    rewrite E. apply Rinv_l. apply not_0_INR. lia.
  - destruct F as [[F _]|[_ F]]; [lia|]. destruct (Nat.eqb_spec (length g) n) as [E|E].
    + destruct n as [|n]; [lia|]. rewrite seq_S, map_app. cbn [List.map Nat.add].
      assert (A : forall l x, rsum (l ++ [x]) = (rsum l + x)%R).
      { induction l as [|y l IHl]; intros x; unfold rsum in *; cbn; [lra|]. rewrite IHl. lra. }
      rewrite A. destruct (Nat.ltb_spec (S n) (length g)); [lia|].
      rewrite (rsum_ext _ (fun k => nth (S k) g 0 - nth k g 0)%R).
      2:{ intros k Hk. apply in_seq in Hk. destruct (Nat.ltb_spec (S k) (length g)); [reflexivity|lia]. }
      rewrite telescope by lia. rewrite last_nth, E. replace (S n - 1) with n by lia. replace (S n - 2) with (n - 1) by lia. reflexivity.
    + rewrite (rsum_ext _ (fun k => nth (S k) g 0 - nth k g 0)%R).
      2:{ intros k Hk. apply in_seq in Hk. destruct (Nat.ltb_spec (S k) (length g)); [reflexivity|lia]. }
      rewrite telescope by lia. rewrite last_nth. replace (length g - 1) with n by lia. reflexivity.
Qed.

(** A constant is multiplied by the lengths of the axes. *)
Theorem C43_constant nd grid v sh c axes :
  NoDup axes -> holds sh v (fun _ => c) -> length grid <= length sh ->
  (forall a, In a axes -> a < length grid /\ fits (nth a grid []) (nth a sh 0)) ->
  exists w, integrate nd (AxTuple (List.map Z.of_nat axes)) (grid, v) = Ok (collapse_grid mean axes grid, w) /\
    forall x, in_range (collapse_shape axes sh) x ->
      get w x = Some (c * fold_right Rmult 1 (List.map (fun a => extent (nth a grid []) (nth a sh 0%nat)) axes))%R.
Proof.
  intros ND Hv Lg H. destruct (C43_value nd grid v sh _ axes ND Hv Lg H) as (w & E & (_ & _ & V)).
  exists w. split; [exact E|]. intros x Hx. rewrite V by exact Hx. f_equal. clear - H. revert x.
  induction axes as [|a r IH]; intros x; [cbn; lra|]. cbn [total List.map fold_right].
  rewrite (rsum_ext _ (fun k => (c * fold_right Rmult 1 (List.map (fun a => extent (nth a grid []) (nth a sh 0%nat)) r)) * width (nth a grid []) (nth a sh 0%nat) k)%R).
  2:{ intros k _. rewrite IH by (intros b Hb; apply H; now right). ring. }
  rewrite rsum_scale, sum_widths by (apply H; now left). ring.
Qed.

(** Cutting the domain at an edge of one axis: the integral is the sum of the
    integrals of the two pieces. *)
Definition shift (a n : nat) (x : list nat) : list nat := set_nth a (n + nth a x 0) x.

Lemma rsum_app l m : rsum (l ++ m) = (rsum l + rsum m)%R.
Proof. unfold rsum. induction l as [|y l IH]; cbn; [lra|]. rewrite IH. lra. Qed.

Lemma set_beyond {A} b (x : A) y : length y <= b -> set_nth b x y = y.
Proof. revert b. induction y as [|z y IH]; intros [|b] L; cbn [set_nth length] in *; try reflexivity; [lia|]. f_equal. apply IH. lia. Qed.

Theorem C43_split nd grid v v1 v2 sh f axes a g1 e g2 n1 n2 :
  NoDup axes -> In a axes -> holds sh v f -> length grid <= length sh ->
  nth a grid [] = g1 ++ e :: g2 -> length g1 = n1 -> length g2 = n2 -> nth a sh 0 = n1 + n2 -> 0 < n1 -> 0 < n2 ->
  (forall b, In b axes -> b < length grid /\ fits (nth b grid []) (nth b sh 0)) ->
  holds (set_nth a n1 sh) v1 f -> holds (set_nth a n2 sh) v2 (fun x => f (shift a n1 x)) ->
  let ax := AxTuple (List.map Z.of_nat axes) in
  exists w w1 w2 G G1 G2,
    integrate nd ax (grid, v) = Ok (G, w) /\
    integrate nd ax (set_nth a (g1 ++ [e]) grid, v1) = Ok (G1, w1) /\
    integrate nd ax (set_nth a (e :: g2) grid, v2) = Ok (G2, w2) /\
    shape w1 = shape w /\ shape w2 = shape w /\
    forall x, in_range (shape w) x -> val w x = (val w1 x + val w2 x)%R.
Proof.
  intros ND Ha Hv Lg Eg L1 L2 En P1 P2 H Hv1 Hv2 ax. destruct (H a Ha) as [La Fa].
  destruct (C43_value nd grid v sh f axes ND Hv Lg H) as (w & E & Hw).
  set (grid1 := set_nth a (g1 ++ [e]) grid). set (grid2 := set_nth a (e :: g2) grid).
  set (sh1 := set_nth a n1 sh) in *. set (sh2 := set_nth a n2 sh) in *.
  assert (A1 : forall b, b <> a -> nth b grid1 [] = nth b grid [] /\ nth b sh1 0 = nth b sh 0).
  { intros b Nb. unfold grid1, sh1. rewrite !nth_set by lia. destruct (Nat.eqb_spec b a); [contradiction|auto]. }
  assert (A2 : forall b, b <> a -> nth b grid2 [] = nth b grid [] /\ nth b sh2 0 = nth b sh 0).
  { intros b Nb. unfold grid2, sh2. rewrite !nth_set by lia. destruct (Nat.eqb_spec b a); [contradiction|auto]. }
  assert (B1 : nth a grid1 [] = g1 ++ [e] /\ nth a sh1 0 = n1).
  { unfold grid1, sh1. rewrite !nth_set by lia. now rewrite Nat.eqb_refl. }
  assert (B2 : nth a grid2 [] = e :: g2 /\ nth a sh2 0 = n2).
  { unfold grid2, sh2. rewrite !nth_set by lia. now rewrite Nat.eqb_refl. }
  destruct (C43_value nd grid1 v1 sh1 f axes ND Hv1) as (w1 & E1 & Hw1).
  { unfold grid1, sh1. now rewrite !set_nth_length. }
  { intros b Hb. unfold grid1 at 1. rewrite set_nth_length. split; [now apply H|].
    destruct (Nat.eq_dec b a) as [->|Nb]; [|destruct (A1 b Nb) as [-> ->]; now apply H].
    destruct B1 as [-> ->]. right. rewrite app_length. cbn [length]. lia. }
  destruct (C43_value nd grid2 v2 sh2 _ axes ND Hv2) as (w2 & E2 & Hw2).
  { unfold grid2, sh2. now rewrite !set_nth_length. }
  { intros b Hb. unfold grid2 at 1. rewrite set_nth_length. split; [now apply H|].
    destruct (Nat.eq_dec b a) as [->|Nb]; [|destruct (A2 b Nb) as [-> ->]; now apply H].
    destruct B2 as [-> ->]. right. cbn [length]. lia. }
  do 6 eexists. split; [exact E|]. split; [exact E1|]. split; [exact E2|].
  destruct (Add_inv a axes Ha) as (r & Hr). apply Permutation_Add in Hr.
  assert (Sc : forall m, collapse_shape axes (set_nth a m sh) = collapse_shape axes sh).
  { intros m. rewrite <- !(collapse_perm _ _ _ Hr). cbn [collapse_shape fold_right].
    assert (G : forall l, set_nth a 1 (fold_right (fun b s => set_nth b 1 s) (set_nth a m sh) l) = set_nth a 1 (fold_right (fun b s => set_nth b 1 s) sh l)).
    { induction l as [|b l IH]; [apply set_set|]. cbn [fold_right]. destruct (Nat.eq_dec a b) as [->|N]; [rewrite !set_set; apply IH|].
      rewrite !(set_comm a b) by exact N. now rewrite IH. }
    apply G. }
  unfold sh1 in Hw1 at 1. unfold sh2 in Hw2 at 1. rewrite Sc in Hw1, Hw2.
  pose proof Hw as (_ & Sw & _). pose proof Hw1 as (_ & Sw1 & _). pose proof Hw2 as (_ & Sw2 & _).
  split; [congruence|]. split; [congruence|]. intros x Hx. rewrite Sw in Hx.
  rewrite (holds_val _ _ _ _ Hw Hx), (holds_val _ _ _ _ Hw1 Hx), (holds_val _ _ _ _ Hw2 Hx).
  assert (NDr : NoDup (a :: r)) by (eapply Permutation_NoDup; [symmetry; exact Hr|exact ND]).
  rewrite <- !(total_perm _ _ (a :: r) axes _ _ Hr NDr). inversion NDr as [|q z Nr NDr']; subst.
  assert (Lx : a < length x) by (apply in_range_length in Hx; rewrite Hx, collapse_length; lia).
  cbn [total]. destruct B1 as [-> ->]. destruct B2 as [-> ->]. rewrite Eg, En.
  rewrite seq_app, map_app, rsum_app. f_equal.
  - apply rsum_ext. intros k Hk. apply in_seq in Hk. f_equal.
    + unfold width. rewrite !app_length. cbn [length].
      destruct (Nat.leb_spec (length g1 + S (length g2)) 1); [lia|]. destruct (Nat.leb_spec (length g1 + 1) 1); [lia|].
      destruct (Nat.ltb_spec (S k) (length g1 + S (length g2))); [|lia]. destruct (Nat.ltb_spec (S k) (length g1 + 1)); [|lia].
      destruct (Nat.eq_dec (S k) (length g1)) as [Ek|Nk].
      * rewrite (app_nth2 g1 _ _ (n := S k)), (app_nth2 g1 [e] _ (n := S k)) by lia. rewrite Ek, Nat.sub_diag.
        rewrite !(app_nth1 g1) by lia. reflexivity.
      * rewrite !(app_nth1 g1) by lia. reflexivity.
    + apply total_agree. intros b Hb. assert (Nb : b <> a) by (intros ->; contradiction). destruct (A1 b Nb) as [-> ->]. auto.
  - cbn [Nat.add]. assert (Sq : seq (length g1) (length g2) = List.map (fun k => length g1 + k) (seq 0 (length g2))).
    { clear. generalize (length g2). intros m. generalize (length g1). intros n. 
      rewrite <- (Nat.add_0_r n) at 1. generalize 0. induction m as [|m IH]; intros s; [reflexivity|]. cbn [seq List.map].
      f_equal. rewrite <- IH. f_equal. lia. }
    rewrite Sq, map_map. apply rsum_ext. intros k Hk. apply in_seq in Hk. f_equal.
    + unfold width. rewrite !app_length. cbn [length].
      destruct (Nat.leb_spec (length g1 + S (length g2)) 1); [lia|]. destruct (Nat.leb_spec (S (length g2)) 1); [lia|].
      destruct (Nat.ltb_spec (S (length g1 + k)) (length g1 + S (length g2))); [|lia]. destruct (Nat.ltb_spec (S k) (S (length g2))); [|lia].
      rewrite !(app_nth2 g1) by lia. replace (S (length g1 + k) - length g1) with (S k) by lia.
      replace (length g1 + k - length g1) with k by lia. reflexivity.
    + rewrite (total_agree grid2 sh2 grid sh r); [|intros b Hb; apply A2; intros ->; contradiction].
      clear - Nr Lx. remember (length g1 + k) as m eqn:Em.
      assert (G : forall y, a < length y -> nth a y 0 = k -> total grid sh r f (set_nth a m y) = total grid sh r (fun x0 => f (shift a (length g1) x0)) y).
      { induction r as [|b r IH]; intros y Ly Ny; [cbn [total]; unfold shift; rewrite Ny, Em; reflexivity|].
        assert (Nb : b <> a) by (intros ->; apply Nr; now left). cbn [total]. apply rsum_ext. intros j _. f_equal.
        rewrite <- IH; [rewrite (set_comm b a) by exact Nb; reflexivity|intros Hr; apply Nr; now right|now rewrite set_nth_length|].
        destruct (Nat.lt_ge_cases b (length y)) as [Lb|Lb].
        - rewrite nth_set by exact Lb. destruct (Nat.eqb_spec a b); [congruence|exact Ny].
        - rewrite set_beyond by exact Lb. exact Ny. }
      rewrite <- G; [rewrite set_set; reflexivity|now rewrite set_nth_length|]. rewrite nth_set by exact Lx. now rewrite Nat.eqb_refl.
Qed.

(** Coordinates that fit neither the cells nor the points are refused. *)
Definition misfit (g : list R) (n : nat) : Prop := 2 <= length g /\ length g <> n /\ length g <> S n.

Lemma steps_err grid dz sh axes s v :
  widths_ok grid dz sh -> wf v -> shape v = s -> desc axes ->
  (forall a, In a axes -> a < length grid /\ a < length s /\ nth a s 0 = nth a sh 0) ->
  (exists a, In a axes /\ misfit (nth a grid []) (nth a sh 0)) ->
  int_steps grid dz (List.map Z.of_nat axes) v = Err ValueError.
Proof.
  intros [Ld Hd]. revert s v. induction axes as [|a r IH]; intros s v W S D H (m & Hm & M); [destruct Hm|].
  inversion D as [|x y D' Lt]; subst x y. rewrite Forall_forall in Lt. destruct (H a (or_introl eq_refl)) as (La & Ls & Es).
  cbn [List.map int_steps]. unfold int_step at 1. rewrite (at_nat grid a []) by exact La. cbn [bind].
  assert (Hv : holds s v (val v)).
  { split; [exact W|]. split; [exact S|]. intros x Hx. apply val_get; [exact W|now rewrite S]. }
  assert (Hr : forall b, In b r -> b < length grid /\ b < length (del a s) /\ nth b (del a s) 0 = nth b sh 0).
  { intros b Hb. specialize (Lt b Hb). destruct (H b (or_intror Hb)) as (Lb & Lb' & Eb).
    rewrite del_length by exact Ls. rewrite nth_del_lt by exact Lt. split; [exact Lb|]. split; [lia|exact Eb]. }
  destruct (Nat.ltb_spec 1 (length (nth a grid []))) as [L1|L1].
  - rewrite S, norm_axis_nat by exact Ls. cbn [bind]. rewrite (at_nat dz a []) by lia. cbn [bind]. rewrite Hd by exact La.
    destruct (Nat.eq_dec (length (dz_of (nth a grid []) (nth a sh 0))) (nth a s 0)) as [E|E].
    + destruct (holds_dot a v _ s _ Hv Ls E) as (u & -> & (Wu & Su & _)). cbn [bind]. apply (IH (del a s)); auto.
      destruct Hm as [->|Hm]; [|now exists m]. exfalso. rewrite Es in E. destruct M as (M1 & M2 & M3). unfold dz_of in E.
      destruct (Nat.ltb_spec 1 (length (nth m grid []))); [|lia]. cbn [andb] in E.
      destruct (Nat.eqb_spec (length (nth m grid [])) (nth m sh 0)); [lia|]. rewrite diffs_length in E. lia.
    + rewrite dot_mismatch by (rewrite S; exact E). reflexivity.
  - rewrite S, norm_axis_nat by exact Ls. cbn [bind].
    pose proof (holds_mean a v s _ Hv Ls) as (Wu & Su & _). apply (IH (del a s)); auto.
    destruct Hm as [->|Hm]; [|now exists m]. destruct M as (M1 & _). lia.
Qed.

Theorem C43_mismatch nd grid v axes :
  NoDup axes -> wf v -> length grid <= length (shape v) -> (forall a, In a axes -> a < length grid) ->
  (exists a, In a axes /\ misfit (nth a grid []) (nth a (shape v) 0)) ->
  integrate nd (AxTuple (List.map Z.of_nat axes)) (grid, v) = Err ValueError.
Proof.
  intros ND W Lg H M. unfold integrate. cbn [parse_axis bind fst snd].
  destruct (dz_all_ok grid (shape v) Lg) as (dz & -> & Ld & Hd). cbn [bind].
  rewrite sort_of_nat, <- map_rev.
  assert (P : Permutation axes (rev (isort Nat.leb axes))) by (rewrite <- Permutation_rev; apply isort_perm).
  rewrite (steps_err grid dz (shape v) _ (shape v) v); [reflexivity|split; assumption|exact W|reflexivity|apply asc_rev, isort_asc, ND| |].
  - intros a Ha. apply Permutation_sym in P. apply (Permutation_in a P) in Ha. specialize (H a Ha). split; [exact H|]. split; [lia|reflexivity].
  - destruct M as (a & Ha & M). exists a. split; [|exact M]. now apply (Permutation_in a P).
Qed.

(** An axis the grid does not have. *)
Theorem C43_no_axis nd grid v a :
  length grid <= length (shape v) -> (Z.of_nat (length grid) <= a \/ a < - Z.of_nat (length grid))%Z ->
  integrate nd (AxInt a) (grid, v) = Err IndexError.
Proof.
  intros Lg H. unfold integrate. cbn [parse_axis bind fst snd].
  destruct (dz_all_ok grid (shape v) Lg) as (dz & -> & Ld & Hd). cbn [bind sort_axes isort insert rev app int_steps].
  unfold int_step, at_. destruct (norm_index (length grid) a) as [k|e] eqn:E.
  - apply norm_index_ok in E. lia.
  - unfold norm_index in E. destruct (_ && _) in E; [discriminate|]. injection E as <-. reflexivity.
Qed.

(** A grid with more dimensions than the array has axes: a dimension of several
    coordinates without an axis is refused whatever is integrated, and one of a
    single coordinate when it is integrated. *)
Lemma dz_all_short grid sh : forall d, length sh <= d -> 1 < length (nth d grid []) ->
  dz_all grid sh = Err IndexError.
Proof.
  revert sh. induction grid as [|c g IH]; intros sh d L H; [destruct d; cbn in H; lia|]. destruct sh as [|n sh].
  - cbn [dz_all]. destruct (Nat.ltb_spec 1 (length c)); [reflexivity|]. destruct d as [|d]; [cbn in H; lia|].
    rewrite (IH [] d); [reflexivity|cbn; lia|exact H].
  - cbn [length] in L. destruct d as [|d]; [lia|]. cbn [dz_all]. now rewrite (IH sh d); [|lia|exact H].
Qed.

Lemma dz_all_thin grid sh : (forall d, length sh <= d < length grid -> length (nth d grid []) <= 1) ->
  exists dz, dz_all grid sh = Ok dz.
Proof.
  revert sh. induction grid as [|c g IH]; intros sh H; [now exists []|]. destruct sh as [|n sh]; cbn [dz_all].
  - pose proof (H 0 ltac:(cbn; lia)) as H0. cbn [nth] in H0. destruct (Nat.ltb_spec 1 (length c)); [lia|].
    destruct (IH []) as (dz & ->); [|now eexists]. intros d D. apply (H (S d)). cbn in *. lia.
  - destruct (IH sh) as (dz & ->); [|now eexists]. intros d D. apply (H (S d)). cbn in *. lia.
Qed.

Theorem C43_missing_axis nd grid v d :
  length (shape v) <= d ->
  (1 < length (nth d grid []) -> forall a, integrate nd (AxInt a) (grid, v) = Err IndexError) /\
  ((forall e, length (shape v) <= e < length grid -> length (nth e grid []) = 1) -> d < length grid ->
   integrate nd (AxInt (Z.of_nat d)) (grid, v) = Err ValueError).
Proof.
  intros L. split.
  - intros H a. unfold integrate. cbn [parse_axis bind fst snd]. now rewrite (dz_all_short grid (shape v) d L H).
  - intros H D. unfold integrate. cbn [parse_axis bind fst snd].
    destruct (dz_all_thin grid (shape v)) as (dz & ->); [intros e E; rewrite H by exact E; lia|].
    cbn [bind sort_axes isort insert rev app int_steps]. unfold int_step, at_, norm_axis.
    rewrite norm_index_nat by exact D. cbn [bind].
    rewrite (nth_error_nth' grid [] D). cbn [bind]. rewrite H by lia. cbn [Nat.ltb Nat.leb].
    destruct (norm_index (length (shape v)) (Z.of_nat d)) as [k|e] eqn:E; [|reflexivity].
    apply norm_index_ok in E. lia.
Qed.

(** A negative number counts the dimensions of the grid but the axes of the
    array, which has one more: the sum runs over components. *)
Theorem C43_negative_refuted : exists nd grid v g w w',
  length grid = 1 /\ wf v /\
  integrate nd (AxInt 0) (grid, v) = Ok (g, w) /\ shape w = [1; 2] /\
  integrate nd (AxInt (-1)) (grid, v) = Ok (g, w') /\ shape w' = [2; 1].
Proof.
  exists 1, [[0; 1; 2]%R], (tabulate [2; 2] (fun _ => 1%R)). do 3 eexists.
  split; [reflexivity|]. split; [reflexivity|]. split; [reflexivity|]. split; [reflexivity|]. split; [|].
  - reflexivity.
  - reflexivity.
Qed.

(** ** Examples *)

Example C43_missing_axis_ex v : shape v = [2] ->
  integrate 2 (AxInt 0) ([[0; 1; 2]; [0; 1]]%R, v) = Err IndexError /\
  integrate 2 (AxInt 1) ([[0; 1; 2]; [5]]%R, v) = Err ValueError.
Proof.
  intros E. split.
  - apply (C43_missing_axis 2 [[0; 1; 2]; [0; 1]]%R v 1); [rewrite E; cbn; lia|cbn; lia].
  - apply (C43_missing_axis 2 [[0; 1; 2]; [5]]%R v 1); [rewrite E; cbn; lia| |cbn; lia].
    intros e H. rewrite E in H. cbn in H. assert (e = 1) as -> by lia. reflexivity.
Qed.

(** Two cells of widths 1 and 3, two components. *)
Definition ex_grid : list (list R) := [[0; 1; 4]; [10; 20]]%R.
Definition ex_val (x : list nat) : R := (INR (nth 0 x 0%nat) + 1)%R.
Definition ex_arr : nda R := tabulate [2; 1; 2] ex_val.

Lemma ex_fits : forall a, In a [0; 1] -> a < length ex_grid /\ fits (nth a ex_grid []) (nth a [2; 1; 2] 0).
Proof. intros a [<-|[<-|[]]]; (split; [cbn; lia|]); right; cbn; lia. Qed.

Example C43_value_ex : exists w, integrate 2 (AxStr "0,1") (ex_grid, ex_arr) = Ok (collapse_grid mean [0; 1] ex_grid, w) /\
  get w [0; 0; 1] = Some 70%R.
Proof.
  destruct (C43_value 2 ex_grid ex_arr [2; 1; 2] ex_val [0; 1]) as (w & E & (_ & _ & V)).
  - repeat constructor; cbn; intuition lia.
  - apply holds_tab.
  - cbn. lia.
  - exact ex_fits.
  - exists w. split; [exact E|]. rewrite V by (repeat constructor). cbn. f_equal. unfold ex_val, width. cbn. lra.
Qed.

Example C43_order_ex : one_at_a_time 2 [1; 0] (ex_grid, ex_arr) = integrate 2 (AxStr "0,1") (ex_grid, ex_arr).
Proof.
  apply (C43_one_by_one 2 [0; 1] [1; 0] ex_grid ex_arr [2; 1; 2] ex_val).
  - repeat constructor; cbn; intuition lia.
  - apply perm_swap.
  - apply holds_tab.
  - cbn. lia.
  - exact ex_fits.
Qed.

Example C43_mismatch_ex : integrate 1 (AxInt 0) ([[0; 1]%R], tabulate [4; 1] (fun _ => 1%R)) = Err ValueError.
Proof. reflexivity. Qed.

Example C43_split_ex : exists w w1 w2 G G1 G2,
  integrate 1 (AxInt 0) ([[0; 1; 4]%R], tabulate [2; 1] ex_val) = Ok (G, w) /\
  integrate 1 (AxInt 0) ([[0; 1]%R], tabulate [1; 1] ex_val) = Ok (G1, w1) /\
  integrate 1 (AxInt 0) ([[1; 4]%R], tabulate [1; 1] (fun x => ex_val (shift 0 1 x))) = Ok (G2, w2) /\
  val w [0; 0] = (val w1 [0; 0]%nat + val w2 [0; 0]%nat)%R.
Proof.
  destruct (C43_split 1 [[0; 1; 4]%R] (tabulate [2; 1] ex_val) (tabulate [1; 1] ex_val) (tabulate [1; 1] (fun x => ex_val (shift 0 1 x)))
    [2; 1] ex_val [0] 0 [0%R] 1%R [4%R] 1 1) as (w & w1 & w2 & G & G1 & G2 & E & E1 & E2 & S1 & S2 & V);
    try reflexivity; try apply holds_tab; try (cbn; lia); try (repeat constructor; cbn; tauto).
  - intros b [<-|[]]. split; [cbn; lia|]. right. cbn. lia.
  - exists w, w1, w2, G, G1, G2. split; [exact E|]. split; [exact E1|]. split; [exact E2|]. apply V.
    assert (Sw : shape w = [1; 1]).
    { destruct (C43_value 1 [[0; 1; 4]%R] (tabulate [2; 1] ex_val) [2; 1] ex_val [0]) as (u & Eu & (_ & Su & _)).
      - repeat constructor; cbn; tauto.
      - apply holds_tab.
      - cbn. lia.
      - intros b [<-|[]]. split; [cbn; lia|]. right. cbn. lia.
      - change (AxTuple (List.map Z.of_nat [0])) with (AxTuple [0%Z]) in *. rewrite Eu in E. injection E as _ <-. exact Su. }
    rewrite Sw. repeat constructor.
Qed.

Print Assumptions C43_value.
Print Assumptions C43_one_by_one.
Print Assumptions C43_split.
