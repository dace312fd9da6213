(** * C60 and C61: the ev commands grad, div and curl *)
From Coq Require Import String Ascii List Arith ZArith Bool Lia Reals Lra.
From Verif Require Import Prelude PreludeFacts NdArray Sort Ev_Model Tools_Arr Calc_Model Calc_Spec Calc_Proofs Calc_Props Calc_Props2.
Import ListNotations.
Open Scope list_scope.
Open Scope nat_scope.

(** ** Stencils *)

Lemma centres_length c : length (centres c) = length c - 1.
Proof. induction c as [|x [|y r] IH]; [reflexivity..|]. cbn [centres length] in *. rewrite IH. lia. Qed.

Lemma nth_centres c k : S k < length c -> nth k (centres c) 0%R = centre c k.
Proof.
  revert k. induction c as [|x [|y r] IH]; intros k H; cbn [length] in H; try lia.
  destruct k.
  - cbn. unfold centre. cbn. field.
  - change (centres (x :: y :: r)) with ((1 / 2 * (y + x))%R :: centres (y :: r)). cbn [nth].
    rewrite IH by (cbn [length]; lia). reflexivity.
Qed.

Lemma centre_lt c k : increasing c -> S (S k) < length c -> (centre c k < centre c (S k))%R.
Proof. intros I L. unfold centre. pose proof (I k ltac:(lia)). pose proof (I (S k) L). lra. Qed.

Lemma all_eq_spec h l : all_eq h l = true -> forall k, k < length l -> nth k l 0%R = h.
Proof.
  induction l as [|x l IH]; intros E k Hk; cbn [length] in Hk; [lia|]. cbn [all_eq] in E.
  destruct (Req_EM_T x h) as [->|]; [|discriminate]. destruct k; [reflexivity|]. apply IH; [exact E|lia].
Qed.

(** numpy's formulas are slopes of parabolas. *)
Lemma grad_at_slope xs n f i :
  length xs = n -> 3 <= n -> i < n -> increasing xs ->
  grad_at (diffs xs) n f i = slope (fun k => nth k xs 0%R) n f i.
Proof.
  intros L N Hi I. unfold grad_at, slope, near.
  assert (Dd : forall k, S k < n -> nth k (diffs xs) 0%R = (nth (S k) xs 0 - nth k xs 0)%R) by (intros k Hk; apply nth_diffs; lia).
  assert (Ld : length (diffs xs) = n - 1) by (rewrite diffs_length; lia).
  assert (Pos : forall k, S k < n -> (nth k xs 0 < nth (S k) xs 0)%R) by (intros k Hk; apply I; lia).
  destruct (all_eq (nth 0 (diffs xs) 0%R) (diffs xs)) eqn:E.
  - pose proof (all_eq_spec _ _ E) as U. rewrite Ld in U.
    set (h := nth 0 (diffs xs) 0%R) in *.
    assert (Step : forall k, S k < n -> nth (S k) xs 0%R = (nth k xs 0 + h)%R).
    { intros k Hk. specialize (U k ltac:(lia)). rewrite Dd in U by exact Hk. lra. }
    assert (Hp : (0 < h)%R) by (unfold h; rewrite Dd by lia; specialize (Pos 0 ltac:(lia)); lra).
    destruct (Nat.eqb_spec i 0) as [->|N0]; [|destruct (Nat.eqb_spec i (n - 1)) as [->|N1]].
    + cbn [Nat.add]. rewrite (Step 1), (Step 0) by lia. generalize (nth 0 xs 0%R). intros p. unfold app3, u_first, parabola_slope. field. lra.
    + replace (n - 1) with (S (S (n - 3))) by lia. replace (n - 2) with (S (n - 3)) by lia.
      replace (n - 3 + 1) with (S (n - 3)) by lia. replace (n - 3 + 2) with (S (S (n - 3))) by lia.
      rewrite (Step (S (n - 3))), (Step (n - 3)) by lia. generalize (nth (n - 3) xs 0%R). intros p. unfold app3, u_last, parabola_slope. field. lra.
    + destruct i as [|i]; [lia|]. replace (S i - 1) with i by lia. replace (i + 1) with (S i) by lia. replace (i + 2) with (S (S i)) by lia.
      replace (S i + 1) with (S (S i)) by lia.
      rewrite (Step (S i)), (Step i) by lia. generalize (nth i xs 0%R). intros p. unfold parabola_slope. field. lra.
  - clear E. destruct (Nat.eqb_spec i 0) as [->|N0]; [|destruct (Nat.eqb_spec i (n - 1)) as [->|N1]].
    + cbn [Nat.add]. rewrite !Dd by lia. pose proof (Pos 0 ltac:(lia)). pose proof (Pos 1 ltac:(lia)).
      revert H H0. generalize (nth 0 xs 0%R), (nth 1 xs 0%R), (nth 2 xs 0%R). intros p q r Hpq Hqr. unfold app3, g_first, parabola_slope. field. lra.
    + replace (n - 1) with (S (S (n - 3))) by lia. replace (n - 2) with (S (n - 3)) by lia.
      replace (n - 3 + 1) with (S (n - 3)) by lia. replace (n - 3 + 2) with (S (S (n - 3))) by lia.
      rewrite !Dd by lia. pose proof (Pos (n - 3) ltac:(lia)). pose proof (Pos (S (n - 3)) ltac:(lia)). revert H H0.
      generalize (nth (n - 3) xs 0%R), (nth (S (n - 3)) xs 0%R), (nth (S (S (n - 3))) xs 0%R). intros p q r Hpq Hqr.
      unfold app3, g_last, parabola_slope. field. lra.
    + destruct i as [|i]; [lia|]. replace (S i - 1) with i by lia. replace (i + 1) with (S i) by lia. replace (i + 2) with (S (S i)) by lia.
      replace (S i + 1) with (S (S i)) by lia.
      rewrite !Dd by lia. pose proof (Pos i ltac:(lia)). pose proof (Pos (S i) ltac:(lia)). revert H H0.
      generalize (nth i xs 0%R), (nth (S i) xs 0%R), (nth (S (S i)) xs 0%R). intros p q r Hpq Hqr.
      unfold app3, g_mid, parabola_slope. field. lra.
Qed.

Lemma near_lt n i : 3 <= n -> i < n -> near n i + 2 < n.
Proof. intros N Hi. unfold near. destruct (Nat.eqb_spec i 0); [lia|]. destruct (Nat.eqb_spec i (n - 1)); lia. Qed.

Lemma slope_ext x x' n y y' i :
  3 <= n -> i < n -> (forall k, k < n -> x k = x' k) -> (forall k, k < n -> y k = y' k) -> slope x n y i = slope x' n y' i.
Proof.
  intros N Hi Hx Hy. pose proof (near_lt n i N Hi). unfold slope. rewrite !Hx, !Hy by lia. reflexivity.
Qed.

(** Exact on parabolas. *)
Lemma slope_quadratic x n i a b c :
  3 <= n -> i < n -> (forall k, S k < n -> (x k < x (S k))%R) ->
  slope x n (fun k => a + b * x k + c * (x k * x k))%R i = (b + 2 * c * x i)%R.
Proof.
  intros N Hi I. pose proof (near_lt n i N Hi) as L. unfold slope. set (j := near n i) in *.
  replace (j + 1) with (S j) by lia. replace (j + 2) with (S (S j)) by lia.
  pose proof (I j ltac:(lia)). pose proof (I (S j) ltac:(lia)). revert H H0.
  generalize (x j), (x (S j)), (x (S (S j))), (x i). intros p q r t H1 H2. unfold parabola_slope. field. lra.
Qed.

Lemma slope_lin x n i f g c d : slope x n (fun k => c * f k + d * g k)%R i = (c * slope x n f i + d * slope x n g i)%R.
Proof. unfold slope, parabola_slope, Rdiv. ring. Qed.

Lemma range_set_in a k sh idx : in_range sh idx -> a < length sh -> k < nth a sh 0 -> in_range sh (set_nth a k idx).
Proof. intros H L K. apply range_set with (m := nth a sh 0); auto. now rewrite set_same. Qed.

Lemma range_nth a sh idx : in_range sh idx -> a < length sh -> nth a idx 0 < nth a sh 0.
Proof.
  unfold in_range. intros H. revert a. induction H as [|i n idx sh Hi Hr IH]; intros a L; cbn [length] in L; [lia|].
  destruct a; [exact Hi|]. apply IH. lia.
Qed.

(** ** One derivative *)

Lemma holds_gradient a v c sh f :
  holds sh v f -> a < length sh -> length c = S (nth a sh 0) -> 3 <= nth a sh 0 -> increasing c ->
  exists w, gradient v (centres c) a = Ok w /\
    holds sh w (fun x => slope (centre c) (nth a sh 0) (fun k => f (set_nth a k x)) (nth a x 0)).
Proof.
  intros Hv La Lc N I. pose proof Hv as (W & S & V). unfold gradient. rewrite S.
  destruct (Nat.leb_spec (length sh) a); [lia|]. rewrite centres_length, Lc.
  replace (Datatypes.S (nth a sh 0) - 1) with (nth a sh 0) by lia. rewrite Nat.eqb_refl. cbn [negb].
  assert (Lx : length (centres c) = nth a sh 0) by (rewrite centres_length; lia).
  pose proof (diffs_length (centres c)) as Ld. destruct (diffs (centres c)) as [|d0 dr] eqn:Ed; [cbn [length] in Ld; lia|].
  rewrite <- Ed. destruct (Nat.ltb_spec (nth a sh 0) 3); [lia|]. eexists. split; [reflexivity|].
  eapply holds_ext; [apply holds_tab|]. intros x Hx. cbv beta.
  pose proof (range_nth a sh x Hx La) as Hi.
  rewrite grad_at_slope; [|exact Lx|exact N|exact Hi|].
  - apply slope_ext; [exact N|exact Hi| |].
    + intros k Hk. apply nth_centres. lia.
    + intros k Hk. apply (holds_val sh); [exact Hv|]. now apply range_set_in.
  - intros k Hk. rewrite Lx in Hk. rewrite !nth_centres by lia. apply centre_lt; [exact I|lia].
Qed.

(** Data at the points of the grid, or fewer than three cells. *)
Theorem C60_points v c a : a < length (shape v) -> length c = nth a (shape v) 0 -> 0 < length c -> gradient v (centres c) a = Err ValueError.
Proof.
  intros La Lc Lp. unfold gradient. destruct (Nat.leb_spec (length (shape v)) a); [lia|]. rewrite centres_length.
  destruct (Nat.eqb_spec (length c - 1) (nth a (shape v) 0)); [lia|]. reflexivity.
Qed.

Theorem C60_few v c a : a < length (shape v) -> length c = S (nth a (shape v) 0) -> nth a (shape v) 0 < 3 ->
  gradient v (centres c) a = Err IndexError \/ gradient v (centres c) a = Err ValueError.
Proof.
  intros La Lc Lp. unfold gradient. destruct (Nat.leb_spec (length (shape v)) a); [lia|]. rewrite centres_length, Lc.
  replace (S (nth a (shape v) 0) - 1) with (nth a (shape v) 0) by lia. rewrite Nat.eqb_refl. cbn [negb].
  destruct (diffs (centres c)); [now left|]. destruct (Nat.ltb_spec (nth a (shape v) 0) 3); [now right|lia].
Qed.

(** ** grad *)

Lemma holds_shows cells m v f : holds (cells ++ [m]) v f -> shows cells m v (fun x j => f (x ++ [j])).
Proof. intros (W & S & V). split; [exact W|]. split; [exact S|]. intros x j Hx Hj. apply V. now apply in_range_snoc. Qed.

Lemma shows_holds cells m v f : shows cells m v f -> holds (cells ++ [m]) v (fun x => f (removelast x) (last x 0)).
Proof.
  intros (W & S & V). split; [exact W|]. split; [exact S|]. intros x Hx.
  apply in_range_snoc_inv in Hx as (y & j & -> & Hy & Hj). rewrite removelast_snoc, last_snoc. now apply V.
Qed.

Lemma nth_app_l {A} (l m : list A) k d : k < length l -> nth k (l ++ m) d = nth k l d.
Proof. intros H. now apply app_nth1. Qed.

Lemma set_nth_app {A} k (a : A) l m : k < length l -> set_nth k a (l ++ m) = set_nth k a l ++ m.
Proof.
  revert k. induction l as [|y l IH]; intros k H; cbn [length] in H; [lia|].
  destruct k; [reflexivity|]. cbn [app set_nth]. rewrite IH by lia. reflexivity.
Qed.

Lemma shows_gradient a v c cells m f :
  shows cells m v f -> a < length cells -> length c = S (nth a cells 0) -> 3 <= nth a cells 0 -> increasing c ->
  yields (gradient v (centres c) a) cells m (fun x j => slope (centre c) (nth a cells 0) (fun k => f (set_nth a k x) j) (nth a x 0)).
Proof.
  intros Hv La Lc N I. apply shows_holds in Hv.
  destruct (holds_gradient a v c _ _ Hv) with (4 := I) as (w & E & Hw).
  - rewrite app_length. cbn [length]. lia.
  - rewrite nth_app_l by exact La. exact Lc.
  - rewrite nth_app_l by exact La. exact N.
  - exists w. split; [exact E|]. apply holds_shows in Hw. eapply shows_ext; [exact Hw|]. intros x j Hx Hj. cbv beta.
    pose proof (in_range_length _ _ Hx) as Lx.
    rewrite !nth_app_l by lia. apply slope_ext; [exact N|now apply range_nth|reflexivity|]. intros k Hk.
    rewrite set_nth_app by lia. now rewrite removelast_snoc, last_snoc.
Qed.

Lemma slice2_nat n a b : a <= n -> slice2 n (Z.of_nat a) (Z.of_nat b) = seq a (Nat.min b n - a).
Proof. intros L. unfold slice2, adjust_pos. repeat (match goal with |- context[(?p <? ?q)%Z] => destruct (Z.ltb_spec p q) end); try lia; f_equal; lia. Qed.

Lemma yields_set_cols a n src out cells m f g :
  shows cells n src f -> shows cells m out g -> a + n <= m ->
  yields (set_cols a (a + n) src out) cells m (fun x j => if (a <=? j) && (j <? a + n) then f x (j - a) else g x j).
Proof.
  intros Ss So L. pose proof Ss as (Ws & Es & Vs). pose proof So as (Wo & Eo & Vo). unfold set_cols.
  rewrite Eo, last_snoc, removelast_snoc, slice2_nat by lia. rewrite seq_length. replace (Nat.min (a + n) m - a) with n by lia.
  rewrite Es. destruct (list_eq_dec Nat.eq_dec (cells ++ [n]) (cells ++ [n])) as [_|N]; [|congruence].
  eexists. split; [reflexivity|]. eapply shows_ext; [apply shows_tab|]. intros x j Hx Hj. cbv beta.
  rewrite last_snoc, removelast_snoc. destruct (Nat.leb_spec a j); cbn [andb]; [|now apply (shows_at cells m)].
  destruct (Nat.ltb_spec j (a + n)); [|now apply (shows_at cells m)]. apply (shows_at cells n); [exact Ss|exact Hx|lia].
Qed.

(** Component [d * nc + c] of the gradient is the derivative of component [c]
    along axis [d], by parabolas through neighbouring cell centres; the grid is
    kept. *)
Theorem C60_grad grid v cells nc f :
  cell_grid grid cells -> shows cells nc v f -> 0 < nc ->
  exists w, ev_grad (grid, v) = Ok (grid, w) /\
    shows cells (nc * length cells) w (fun x j => partial_d grid cells (j / nc) (fun y => f y (j mod nc)) x).
Proof.
  intros [Lg G] Sv Pc. pose proof Sv as (W & Sh & V). unfold ev_grad. cbn [fst snd]. rewrite Sh, last_snoc, removelast_snoc, app_length.
  cbn [length]. replace (length cells + 1 - 1) with (length cells) by lia.
  match goal with |- context[(fix loop ds out {struct ds} := @?F loop ds out)] => set (lp := fix loop ds out {struct ds} := F loop ds out) end.
  enough (K : forall n d out, d + n = length cells ->
    shows cells (nc * length cells) out (fun x j => if j <? d * nc then partial_d grid cells (j / nc) (fun y => f y (j mod nc)) x else 0%R) ->
    yields (lp (seq d n) out) cells (nc * length cells) (fun x j => partial_d grid cells (j / nc) (fun y => f y (j mod nc)) x)).
  { destruct (K (length cells) 0 (zeros (cells ++ [nc * length cells])) eq_refl) as (w & E & Sw).
    { eapply shows_ext; [apply shows_zeros|]. intros x j Hx Hj. reflexivity. }
    exists w. rewrite E. split; [reflexivity|exact Sw]. }
  induction n as [|n IH]; intros d out Ed So.
  - exists out. split; [reflexivity|]. eapply shows_ext; [exact So|]. intros x j Hx Hj. cbv beta.
    destruct (Nat.ltb_spec j (d * nc)); [reflexivity|]. replace d with (length cells) in * by lia. nia.
  - cbn [seq]. unfold lp at 1. fold lp. 
    rewrite (nth_error_nth' grid []) by lia.
    destruct (G d ltac:(lia)) as (Lc & N & I).
    eapply yields_bind; [apply shows_gradient; [exact Sv|lia|exact Lc|exact N|exact I]|]. intros g Sg.
    replace ((d + 1) * nc) with (d * nc + nc) by lia.
    eapply yields_bind; [apply yields_set_cols; [exact Sg|exact So|nia]|]. intros out' So'.
    apply IH; [lia|]. eapply shows_ext; [exact So'|]. intros x j Hx Hj. cbv beta.
    destruct (Nat.leb_spec (d * nc) j) as [L1|L1]; cbn [andb].
    + destruct (Nat.ltb_spec j (d * nc + nc)) as [L2|L2].
      * destruct (Nat.ltb_spec j (S d * nc)); [|lia]. unfold partial_d.
        assert (Q : j / nc = d) by (symmetry; apply Nat.div_unique with (j - d * nc); lia).
        assert (M : j mod nc = j - d * nc) by (symmetry; apply Nat.mod_unique with d; lia).
        rewrite Q, M. reflexivity.
      * destruct (Nat.ltb_spec j (d * nc)); [lia|]. destruct (Nat.ltb_spec j (S d * nc)); [lia|reflexivity].
    + destruct (Nat.ltb_spec j (d * nc)); [|lia]. destruct (Nat.ltb_spec j (S d * nc)); [reflexivity|lia].
Qed.

(** Where the values along an axis are a polynomial of degree two in the
    coordinate of the cell centre, the derivative is exact, however uneven the
    cells. *)
Lemma partial_exact grid cells a f x p q r :
  cell_grid grid cells -> in_range cells x -> a < length cells ->
  let z k := centre (nth a grid []) k in
  (forall k, k < nth a cells 0 -> f (set_nth a k x) = (p + q * z k + r * (z k * z k))%R) ->
  partial_d grid cells a f x = (q + 2 * r * z (nth a x 0%nat))%R.
Proof.
  intros [Lg G] Hx La z Hf. destruct (G a La) as (Lc & N & I). pose proof (range_nth a cells x Hx La) as Hi. unfold partial_d.
  rewrite (slope_ext _ z _ _ (fun k => p + q * z k + r * (z k * z k))%R) by (auto; reflexivity).
  apply slope_quadratic; [exact N|exact Hi|]. intros k Hk. apply centre_lt; [exact I|lia].
Qed.

Theorem C60_exact grid v cells nc f a c x p q r :
  cell_grid grid cells -> shows cells nc v f -> c < nc -> a < length cells -> in_range cells x ->
  let z k := centre (nth a grid []) k in
  (forall k, k < nth a cells 0 -> f (set_nth a k x) c = (p + q * z k + r * (z k * z k))%R) ->
  exists w, ev_grad (grid, v) = Ok (grid, w) /\ get w (x ++ [a * nc + c]) = Some (q + 2 * r * z (nth a x 0%nat))%R.
Proof.
  intros CG Sv Hc La Hx z Hf. destruct (C60_grad grid v cells nc f CG Sv ltac:(lia)) as (w & E & (_ & _ & V)).
  exists w. split; [exact E|]. rewrite V by (auto; nia). f_equal.
  assert (Q : (a * nc + c) / nc = a) by (symmetry; apply Nat.div_unique with c; lia).
  assert (M : (a * nc + c) mod nc = c) by (symmetry; apply Nat.mod_unique with a; lia).
  rewrite Q, M. now apply partial_exact with (p := p).
Qed.

(** Linear, so constants have no gradient. *)
Lemma partial_linear grid cells a f g c d x :
  partial_d grid cells a (fun y => c * f y + d * g y)%R x = (c * partial_d grid cells a f x + d * partial_d grid cells a g x)%R.
Proof. apply slope_lin. Qed.

(** ** div and curl *)

(** Derivatives along different axes commute. *)
Lemma partial_comm grid cells a b f x :
  a <> b -> a < length x -> b < length x ->
  partial_d grid cells a (partial_d grid cells b f) x = partial_d grid cells b (partial_d grid cells a f) x.
Proof.
  intros N La Lb. unfold partial_d, slope.
  assert (Eb : forall k, nth b (set_nth a k x) 0 = nth b x 0) by (intros k; rewrite nth_set by exact La; destruct (Nat.eqb_spec b a); [congruence|reflexivity]).
  assert (Ea : forall k, nth a (set_nth b k x) 0 = nth a x 0) by (intros k; rewrite nth_set by exact Lb; destruct (Nat.eqb_spec a b); [congruence|reflexivity]).
  rewrite !Ea, !Eb. rewrite !(set_comm b a) by congruence. unfold parabola_slope, Rdiv. ring.
Qed.

Lemma partial_ext grid cells a f g x :
  cell_grid grid cells -> a < length cells -> in_range cells x -> (forall y, in_range cells y -> f y = g y) ->
  partial_d grid cells a f x = partial_d grid cells a g x.
Proof.
  intros [Lg G] La Hx E. destruct (G a La) as (Lc & N & I). unfold partial_d. apply slope_ext; [exact N|now apply range_nth|reflexivity|].
  intros k Hk. apply E. now apply range_set_in.
Qed.

Lemma dcomp_ok grid v cells m f c d :
  cell_grid grid cells -> shows cells m v f -> c < m -> d < length cells ->
  exists w, dcomp (grid, v) c d = Ok w /\ holds cells w (partial_d grid cells d (fun y => f y c)).
Proof.
  intros [Lg G] Sv Hc Hd. unfold dcomp. cbn [fst snd]. rewrite (nth_error_nth' grid []) by lia.
  destruct (holds_comp c v cells m f Sv Hc) as (w & -> & Hw). cbn [bind]. destruct (G d Hd) as (Lc & N & I).
  destruct (holds_gradient d w (nth d grid []) cells _ Hw Hd Lc N I) as (u & E & Hu). exists u. split; [exact E|exact Hu].
Qed.

(** The divergence is the sum of the derivatives of component [d] along axis
    [d]; components beyond the dimensions are ignored. *)
Theorem C61_div grid v cells m f :
  cell_grid grid cells -> shows cells m v f -> length cells <= m ->
  exists w, ev_div (grid, v) = Ok (grid, w) /\
    shows cells 1 w (fun x _ => rsum (List.map (fun d => partial_d grid cells d (fun y => f y d) x) (seq 0 (length cells)))).
Proof.
  intros CG Sv Lm. pose proof CG as [Lg G]. pose proof Sv as (W & Sh & V). unfold ev_div. cbn [fst snd]. rewrite Sh, removelast_snoc, Lg.
  match goal with |- context[(fix loop ds out {struct ds} := @?F loop ds out)] => set (lp := fix loop ds out {struct ds} := F loop ds out) end.
  enough (K : forall n d out, d + n = length cells ->
    shows cells 1 out (fun x _ => rsum (List.map (fun e => partial_d grid cells e (fun y => f y e) x) (seq 0 d))) ->
    yields (lp (seq d n) out) cells 1 (fun x _ => rsum (List.map (fun e => partial_d grid cells e (fun y => f y e) x) (seq 0 (length cells))))).
  { destruct (K (length cells) 0 (zeros (cells ++ [1])) eq_refl) as (w & E & Sw).
    { eapply shows_ext; [apply shows_zeros|]. intros x j Hx Hj. reflexivity. }
    exists w. rewrite E. split; [reflexivity|exact Sw]. }
  induction n as [|n IH]; intros d out Ed So.
  - exists out. split; [reflexivity|]. replace (length cells) with d by lia. exact So.
  - cbn [seq]. unfold lp at 1. fold lp. rewrite (nth_error_nth' grid []) by lia.
    destruct (holds_comp d v cells m f Sv ltac:(lia)) as (c & -> & Hc). cbn [bind]. destruct (G d ltac:(lia)) as (Lc & N & I).
    destruct (holds_gradient d c (nth d grid []) cells _ Hc ltac:(lia) Lc N I) as (g & -> & Hg). cbn [bind].
    destruct (holds_comp 0 out cells 1 _ So ltac:(lia)) as (o & -> & Ho). cbn [bind].
    destruct (holds_rb Rplus o g cells _ _ Ho Hg) as (t & -> & Ht). cbn [bind].
    eapply yields_bind; [apply yields_set_col; [exact Ht|exact So|lia]|]. intros out' So'.
    apply IH; [lia|]. eapply shows_ext; [exact So'|]. intros x j Hx Hj. cbv beta. replace j with 0 by lia. cbn [Nat.eqb].
    rewrite seq_S, map_app, rsum_app. cbn [List.map Nat.add]. f_equal. unfold rsum, partial_d. cbn [fold_right]. lra.
Qed.

Theorem C61_div_few grid v cells m f :
  cell_grid grid cells -> shows cells m v f -> m < length cells -> ev_div (grid, v) = Err IndexError.
Proof.
  intros CG Sv Lm. pose proof CG as [Lg G]. pose proof Sv as (W & Sh & V). unfold ev_div. cbn [fst snd]. rewrite Sh, removelast_snoc, Lg.
  match goal with |- context[(fix loop ds out {struct ds} := @?F loop ds out)] => set (lp := fix loop ds out {struct ds} := F loop ds out) end.
  enough (K : forall n d out g, d + n = length cells -> d <= m -> shows cells 1 out g -> lp (seq d n) out = Err IndexError).
  { rewrite (K (length cells) 0 (zeros (cells ++ [1])) _ eq_refl ltac:(lia) (shows_zeros cells 1)). reflexivity. }
  induction n as [|n IH]; intros d out og Ed Ld So; [lia|].
  cbn [seq]. unfold lp at 1. fold lp. rewrite (nth_error_nth' grid []) by lia.
  destruct (Nat.eq_dec d m) as [->|Nd]; [rewrite (comp_err m v cells m Sh) by lia; reflexivity|].
  destruct (holds_comp d v cells m f Sv ltac:(lia)) as (c & -> & Hc). cbn [bind]. destruct (G d ltac:(lia)) as (Lc & N & I).
  destruct (holds_gradient d c (nth d grid []) cells _ Hc ltac:(lia) Lc N I) as (g & -> & Hg). cbn [bind].
  destruct (holds_comp 0 out cells 1 _ So ltac:(lia)) as (o & -> & Ho). cbn [bind].
  destruct (holds_rb Rplus o g cells _ _ Ho Hg) as (t & -> & Ht). cbn [bind].
  destruct (yields_set_col 0 t out cells 1 _ _ Ht So ltac:(lia)) as (out' & -> & So'). cbn [bind].
  apply (IH (S d) out' _ ltac:(lia) ltac:(lia) So').
Qed.

(** Curl in one dimension: derivatives along the second and third directions
    vanish. *)
Theorem C61_curl1 grid v n f :
  cell_grid grid [n] -> shows [n] 3 v f ->
  exists w, ev_curl (grid, v) = Ok (grid, w) /\
    shows [n] 3 w (fun x j => match j with
                              | 0 => 0
                              | 1 => - partial_d grid [n] 0 (fun y => f y 2%nat) x
                              | _ => partial_d grid [n] 0 (fun y => f y 1%nat) x
                              end)%R.
Proof.
  intros CG Sv. pose proof CG as [Lg G]. pose proof Sv as (W & Sh & V). unfold ev_curl. cbn [fst snd length] in *. rewrite Lg, Sh.
  cbn [app last length Nat.eqb negb]. change ([n] ++ [3]) with [n; 3] in *.
  destruct (dcomp_ok grid v [n] 3 f 2 0 CG Sv ltac:(lia) ltac:(cbn; lia)) as (a & -> & Ha). cbn [bind].
  apply (holds_rmap _ _ _ Ropp) in Ha.
  pose proof (shows_zeros [n] 3) as Z. cbn [app] in Z.
  destruct (yields_set_col 1 _ _ [n] 3 _ _ Ha Z ltac:(lia)) as (o1 & -> & S1). cbn [bind].
  destruct (dcomp_ok grid v [n] 3 f 1 0 CG Sv ltac:(lia) ltac:(cbn; lia)) as (b & -> & Hb). cbn [bind].
  destruct (yields_set_col 2 _ _ [n] 3 _ _ Hb S1 ltac:(lia)) as (o2 & -> & S2). cbn [bind].
  exists o2. split; [reflexivity|]. eapply shows_ext; [exact S2|]. intros x j Hx Hj. destruct j as [|[|[|j]]]; [reflexivity..|lia].
Qed.

(** Curl in two dimensions: of a vector in the plane, and of a full vector. *)
Theorem C61_curl2 grid v n m f :
  cell_grid grid [n; m] -> shows [n; m] 2 v f ->
  exists w, ev_curl (grid, v) = Ok (grid, w) /\
    shows [n; m] 1 w (fun x _ => partial_d grid [n; m] 0 (fun y => f y 1%nat) x - partial_d grid [n; m] 1 (fun y => f y 0%nat) x)%R.
Proof.
  intros CG Sv. pose proof CG as [Lg G]. pose proof Sv as (W & Sh & V). unfold ev_curl. cbn [fst snd length] in *. rewrite Lg, Sh.
  cbn [app last length Nat.eqb Nat.ltb Nat.leb removelast].
  destruct (dcomp_ok grid v [n; m] 2 f 1 0 CG Sv ltac:(lia) ltac:(cbn; lia)) as (a & -> & Ha). cbn [bind].
  destruct (dcomp_ok grid v [n; m] 2 f 0 1 CG Sv ltac:(lia) ltac:(cbn; lia)) as (b & -> & Hb). cbn [bind].
  destruct (holds_rb Rminus a b _ _ _ Ha Hb) as (t & -> & Ht). cbn [bind].
  pose proof (shows_zeros [n; m] 1) as Z. cbn [app] in Z.
  destruct (yields_set_col 0 _ _ [n; m] 1 _ _ Ht Z ltac:(lia)) as (o & -> & So). cbn [bind].
  exists o. split; [reflexivity|]. eapply shows_ext; [exact So|]. intros x j Hx Hj. destruct j as [|j]; [reflexivity|lia].
Qed.

Theorem C61_curl23 grid v n m k f :
  cell_grid grid [n; m] -> shows [n; m] k v f -> 3 <= k ->
  exists w, ev_curl (grid, v) = Ok (grid, w) /\
    shows [n; m] k w (fun x j => match j with
      | 0 => partial_d grid [n; m] 1 (fun y => f y 2%nat) x
      | 1 => - partial_d grid [n; m] 0 (fun y => f y 2%nat) x
      | 2 => partial_d grid [n; m] 0 (fun y => f y 1%nat) x - partial_d grid [n; m] 1 (fun y => f y 0%nat) x
      | _ => 0
      end)%R.
Proof.
  intros CG Sv Hk. pose proof CG as [Lg G]. pose proof Sv as (W & Sh & V). unfold ev_curl. cbn [fst snd length] in *. rewrite Lg, Sh.
  rewrite last_snoc. destruct (Nat.ltb_spec k 2); [lia|]. destruct (Nat.eqb_spec k 2); [lia|].
  destruct (dcomp_ok grid v [n; m] k f 2 1 CG Sv ltac:(lia) ltac:(cbn; lia)) as (a & -> & Ha). cbn [bind].
  destruct (yields_set_col 0 _ _ [n; m] k _ _ Ha (shows_zeros [n; m] k) ltac:(lia)) as (o1 & -> & S1). cbn [bind].
  destruct (dcomp_ok grid v [n; m] k f 2 0 CG Sv ltac:(lia) ltac:(cbn; lia)) as (b & -> & Hb). cbn [bind].
  apply (holds_rmap _ _ _ Ropp) in Hb.
  destruct (yields_set_col 1 _ _ [n; m] k _ _ Hb S1 ltac:(lia)) as (o2 & -> & S2). cbn [bind].
  destruct (dcomp_ok grid v [n; m] k f 1 0 CG Sv ltac:(lia) ltac:(cbn; lia)) as (c & -> & Hc). cbn [bind].
  destruct (dcomp_ok grid v [n; m] k f 0 1 CG Sv ltac:(lia) ltac:(cbn; lia)) as (d & -> & Hd). cbn [bind].
  destruct (holds_rb Rminus c d _ _ _ Hc Hd) as (t & -> & Ht). cbn [bind].
  destruct (yields_set_col 2 _ _ [n; m] k _ _ Ht S2 ltac:(lia)) as (o3 & -> & S3). cbn [bind].
  exists o3. split; [reflexivity|]. eapply shows_ext; [exact S3|]. intros x j Hx Hj. destruct j as [|[|[|j]]]; reflexivity.
Qed.

Lemma shows_same cells m w f g x j : shows cells m w f -> shows cells m w g -> in_range cells x -> j < m -> f x j = g x j.
Proof. intros (_ & _ & V) (_ & _ & V') Hx Hj. specialize (V x j Hx Hj). rewrite V' in V by auto. congruence. Qed.

(** The curl of a gradient vanishes in every cell, boundary cells included. *)
Theorem C61_curl_grad grid v n m f :
  cell_grid grid [n; m] -> shows [n; m] 1 v f ->
  exists g w, ev_grad (grid, v) = Ok (grid, g) /\ ev_curl (grid, g) = Ok (grid, w) /\ shows [n; m] 1 w (fun _ _ => 0%R).
Proof.
  intros CG Sv. destruct (C60_grad grid v [n; m] 1 f CG Sv ltac:(lia)) as (g & Eg & Sg). cbn [length Nat.mul] in Sg.
  destruct (C61_curl2 grid g n m _ CG Sg) as (w & Ew & Sw). exists g, w. split; [exact Eg|]. split; [exact Ew|].
  eapply shows_ext; [exact Sw|]. intros x j Hx Hj. cbv beta. pose proof (in_range_length _ _ Hx) as Lx. cbn [length] in Lx.
  change (1 / 1) with 1. change (1 mod 1) with 0. change (0 / 1) with 0. change (0 mod 1) with 0.
  apply Rminus_diag_eq. apply (partial_comm grid [n; m] 0 1); lia.
Qed.

(** The divergence of a curl vanishes in every cell. *)
Theorem C61_div_curl grid v n m f :
  cell_grid grid [n; m] -> shows [n; m] 3 v f ->
  exists g w, ev_curl (grid, v) = Ok (grid, g) /\ ev_div (grid, g) = Ok (grid, w) /\ shows [n; m] 1 w (fun _ _ => 0%R).
Proof.
  intros CG Sv. destruct (C61_curl23 grid v n m 3 f CG Sv ltac:(lia)) as (g & Eg & Sg).
  destruct (C61_div grid g [n; m] 3 _ CG Sg ltac:(cbn; lia)) as (w & Ew & Sw). exists g, w. split; [exact Eg|]. split; [exact Ew|].
  eapply shows_ext; [exact Sw|]. intros x j Hx Hj. cbn [length seq List.map]. unfold rsum. cbn [fold_right].
  pose proof (in_range_length _ _ Hx) as Lx. cbn [length] in Lx.
  rewrite (partial_ext grid [n; m] 1 (fun y => - partial_d grid [n; m] 0 (fun y0 => f y0 2%nat) y)%R
     (fun y => (-1) * partial_d grid [n; m] 0 (fun y0 => f y0 2%nat) y + 0 * 0)%R x CG) by (cbn; try lia; auto; intros; lra).
  rewrite partial_linear.
  pose proof (partial_comm grid [n; m] 0 1 (fun y0 => f y0 2) x ltac:(lia) ltac:(lia) ltac:(lia)) as C.
  set (A := partial_d grid [n; m] 0 (partial_d grid [n; m] 1 (fun y0 => f y0 2)) x) in C.
  set (B := partial_d grid [n; m] 1 (partial_d grid [n; m] 0 (fun y0 => f y0 2)) x) in C.
  change (A + (-1 * B + 0 * partial_d grid [n; m] 1 (fun _ => 0) x + 0) = 0)%R. rewrite C. lra.
Qed.

(** In three dimensions the curl is never computed. *)
Theorem C61_curl3 grid v cells m f :
  cell_grid grid cells -> 3 <= length cells -> shows cells m v f ->
  ev_curl (grid, v) = Err (if m <? 3 then ValueError else UnboundLocalError).
Proof.
  intros CG L3 Sv. pose proof CG as [Lg G]. pose proof Sv as (W & Sh & V). unfold ev_curl. cbn [fst snd]. rewrite Sh, last_snoc.
  destruct grid as [|g0 [|g1 [|g2 gr]]]; cbn [length] in *; try lia.
  destruct (Nat.ltb_spec m 3); [reflexivity|].
  destruct (dcomp_ok _ v cells m f 2 1 CG Sv ltac:(lia) ltac:(lia)) as (a & -> & Ha). cbn [bind].
  destruct (dcomp_ok _ v cells m f 1 2 CG Sv ltac:(lia) ltac:(lia)) as (b & -> & Hb). cbn [bind].
  destruct (holds_rb Rminus a b _ _ _ Ha Hb) as (t & -> & _). reflexivity.
Qed.

Theorem C61_curl3_refuted : exists grid v,
  cell_grid grid [3; 3; 3] /\ wf v /\ shape v = [3; 3; 3; 3] /\ forall r, ev_curl (grid, v) <> Ok r.
Proof.
  set (g := [0; 1; 2; 3]%R). assert (I : increasing g) by (intros [|[|[|k]]] H; cbn in *; lra || lia).
  assert (CG : cell_grid [g; g; g] [3; 3; 3]).
  { split; [reflexivity|]. intros [|[|[|a]]] Ha; cbn [length nth] in *; try lia; (split; [reflexivity|]; split; [lia|exact I]). }
  exists [g; g; g], (tabulate [3; 3; 3; 3] (fun _ => 0%R)).
  split; [exact CG|]. split; [apply wf_tabulate|]. split; [reflexivity|]. intros r.
  pose proof (shows_tab [3; 3; 3] 3 (fun _ => 0%R)) as Sv. cbn [app] in Sv.
  rewrite (C61_curl3 _ _ _ _ _ CG ltac:(cbn; lia) Sv). discriminate.
Qed.

(** ** Examples *)

(** An uneven grid and a parabola along its only axis. *)
Definition ex_edges : list R := [0; 1; 3; 4; 8]%R.

Lemma ex_cells : cell_grid [ex_edges] [4].
Proof.
  split; [reflexivity|]. intros [|a] Ha; cbn [length] in Ha; [|lia]. split; [reflexivity|]. split; [cbn; lia|].
  intros [|[|[|[|k]]]] H; cbn in *; lra || lia.
Qed.

Example C60_grad_ex : exists w,
  ev_grad ([ex_edges], tabulate [4; 1] (fun x => centre ex_edges (nth 0 x 0%nat) * centre ex_edges (nth 0 x 0%nat))%R) = Ok ([ex_edges], w) /\
  get w [3; 0] = Some 12%R.
Proof.
  pose proof (shows_tab [4] 1 (fun x => centre ex_edges (nth 0 x 0%nat) * centre ex_edges (nth 0 x 0%nat))%R) as Sv. cbn [app] in Sv.
  destruct (C60_grad [ex_edges] _ [4] 1 _ ex_cells Sv ltac:(lia)) as (w & E & (_ & _ & V)).
  exists w. split; [exact E|]. change [3; 0] with ([3] ++ [0]). rewrite V by (try (repeat constructor); cbn; lia). f_equal.
  change (0 / 1) with 0. change (0 mod 1) with 0.
  rewrite (partial_exact [ex_edges] [4] 0 _ [3] 0 0 1 ex_cells); [|repeat constructor|cbn; lia|].
  - unfold centre. cbn. lra.
  - intros k Hk. cbn [set_nth app nth]. lra.
Qed.

Lemma ex_cells2 : cell_grid [ex_edges; [0; 1; 2; 3]%R] [4; 3].
Proof.
  split; [reflexivity|]. intros [|[|a]] Ha; cbn [length] in Ha; [| |lia]; (split; [reflexivity|]; split; [cbn; lia|]).
  - intros [|[|[|[|k]]]] H; cbn in *; lra || lia.
  - intros [|[|[|k]]] H; cbn in *; lra || lia.
Qed.

Example C61_curl_grad_ex : exists g w,
  ev_grad ([ex_edges; [0; 1; 2; 3]%R], tabulate [4; 3; 1] ex_val) = Ok ([ex_edges; [0; 1; 2; 3]%R], g) /\
  ev_curl ([ex_edges; [0; 1; 2; 3]%R], g) = Ok ([ex_edges; [0; 1; 2; 3]%R], w) /\ get w [3; 2; 0] = Some 0%R.
Proof.
  pose proof (shows_tab [4; 3] 1 ex_val) as Sv. cbn [app] in Sv.
  destruct (C61_curl_grad _ _ 4 3 _ ex_cells2 Sv) as (g & w & E & E' & (_ & _ & V)).
  exists g, w. split; [exact E|]. split; [exact E'|]. change [3; 2; 0] with ([3; 2] ++ [0]). apply V; [repeat constructor|lia].
Qed.

Print Assumptions C60_grad.
Print Assumptions C61_div_curl.
