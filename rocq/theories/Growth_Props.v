(** * C99: fitting growth rates *)
From Coq Require Import String Ascii List Arith ZArith Bool Lia Reals Lra.
From Verif Require Import Prelude PreludeFacts NdArray Growth_Model.
Import ListNotations.
Open Scope list_scope.
Open Scope nat_scope.

(** ** Specification *)

(** Sum over positions. *)
Definition sum_of (n : nat) (g : nat -> R) : R := fold_right Rplus 0%R (List.map g (seq 0 n)).

(** The coefficient of determination of the model values [m j] for the [n] data
    values [d j]. It exists if the data are not all the same. *)
Definition mean (n : nat) (d : nat -> R) : R := (sum_of n d / INR n)%R.
Definition scatter (n : nat) (d : nat -> R) : R := sum_of n (fun j => (d j - mean n d)²)%R.
Definition determination (n : nat) (d m : nat -> R) : R := (1 - sum_of n (fun j => (d j - m j)²) / scatter n d)%R.

(** How good the parameters [ps] are for the first [n] points. *)
Definition quality (f : list R -> R -> R) (x y : list R) (M : R) (n : nat) (ps : list R) : R :=
  determination n (fun j => nth j y 0%R) (fun j => f ps (nth j x 0 / M))%R.

(** What happened in a round: no fit was found, or one, with these parameters. *)
Definition round := (nat * option (list R))%type.

(** [w] is the first of the best rounds of [h]; [None] if no round is better
    than the mean. *)
Definition first_best (q : nat -> list R -> R) (ok : nat -> Prop) (h : list round) (w : option (nat * list R)) : Prop :=
  let good n ps r := ok n /\ (r < q n ps)%R in
  match w with
  | None => forall n ps, In (n, Some ps) h -> ~ good n ps 0%R
  | Some (n, ps) => good n ps 0%R /\ exists h1 h2, h = h1 ++ (n, Some ps) :: h2 /\
      (forall n' ps', In (n', Some ps') h1 -> ok n' -> (q n' ps' < q n ps)%R) /\
      (forall n' ps', In (n', Some ps') h2 -> ok n' -> (q n' ps' <= q n ps)%R)
  end.

(** ** The sums *)

Lemma sum_nth (l : list R) (g : R -> R) : sum_of (length l) (fun j => g (nth j l 0%R)) = rsum (List.map g l).
Proof.
  unfold sum_of, rsum. f_equal. rewrite <- (map_map (fun j => nth j l 0%R) g). f_equal.
  induction l as [|a l IH]; [reflexivity|]. cbn [length seq List.map nth]. f_equal.
  rewrite <- seq_shift, map_map. exact IH.
Qed.

Lemma sum_ext n g h : (forall j, j < n -> g j = h j) -> sum_of n g = sum_of n h.
Proof. intros H. unfold sum_of. f_equal. apply map_ext_in. intros j Hj. apply in_seq in Hj. apply H. lia. Qed.

Lemma rsum_nth (l : list R) : rsum l = sum_of (length l) (fun j => nth j l 0%R).
Proof. rewrite (sum_nth l (fun v => v)), map_id. reflexivity. Qed.

Lemma firstn_at (l : list R) n j : j < n -> nth j (firstn n l) 0%R = nth j l 0%R.
Proof. revert n j. induction l as [|a l IH]; intros [|n] [|j] H; cbn; try reflexivity; try lia. apply IH. lia. Qed.

Lemma upto_nat {A} n (l : list A) : upto (Z.of_nat n) l = firstn n l.
Proof. unfold upto. destruct (Z.ltb_spec (Z.of_nat n) 0); [lia|]. now rewrite Nat2Z.id. Qed.

Lemma combine_sum (xs ys : list R) (g : R * R -> R) : length xs = length ys ->
  rsum (List.map g (combine xs ys)) = sum_of (length ys) (fun j => g (nth j xs 0%R, nth j ys 0%R)).
Proof.
  intros L. unfold rsum, sum_of. f_equal. revert ys L. induction xs as [|a xs IH]; intros [|b ys] L; cbn in *; try discriminate; [reflexivity|].
  f_equal. rewrite <- seq_shift, map_map. apply IH. now injection L.
Qed.

Lemma R2_quality f x y M n ps : n <= length x -> n <= length y -> M <> 0%R ->
  R2_of f (List.map (fun v => (v / M)%R) (firstn n x)) (firstn n y) ps =
  Ok (if Req_EM_T (scatter n (fun j => nth j y 0%R)) 0 then None else Some (quality f x y M n ps)).
Proof.
  intros Lx Ly HM. unfold R2_of. rewrite map_length, !firstn_length, !Nat.min_l, Nat.eqb_refl by assumption. cbn [negb].
  assert (Ln : length (firstn n y) = n) by (rewrite firstn_length; lia).
  assert (Em : (rsum (firstn n y) / INR n = mean n (fun j => nth j y 0))%R).
  { unfold mean. f_equal. rewrite rsum_nth, Ln. apply sum_ext. intros. now apply firstn_at. }
  rewrite Em. set (mu := mean n _).
  assert (Et : rsum (List.map (fun v => ((v - mu) * (v - mu))%R) (firstn n y)) = scatter n (fun j => nth j y 0%R)).
  { rewrite <- (sum_nth (firstn n y) (fun v => ((v - mu) * (v - mu))%R)), Ln. apply sum_ext. intros j Hj. rewrite firstn_at by assumption. reflexivity. }
  rewrite Et. rewrite map_map, combine_sum by (rewrite map_length, !firstn_length; lia). rewrite Ln.
  unfold quality, determination. do 2 f_equal. destruct (Req_EM_T _ _); [reflexivity|]. do 3 f_equal. apply sum_ext. intros j Hj. cbn [fst snd].
  rewrite firstn_at by assumption.
  replace (nth j (List.map (fun v => (v / M)%R) (firstn n x)) 0%R) with (nth j x 0 / M)%R; [reflexivity|].
  replace 0%R with (0 / M)%R at 2 by (unfold Rdiv; ring). rewrite (map_nth (fun v => (v / M)%R)). now rewrite firstn_at.
Qed.

(** ** Rounds *)

Section Rounds.
  Context (f : list R -> R -> R) (fit : list R -> list R -> option (list R) -> res (list R)).
  Context (x y : list R) (M : R) (p0 : guess).

  Definition ok_at (n : nat) : Prop := scatter n (fun j => nth j y 0%R) <> 0%R.

  (** The start of a round is the first of the best rounds before. *)
  Definition start (w : option (nat * list R)) : option (list R) :=
    match w with None => guess_vals p0 | Some (_, ps) => Some ps end.

  Definition region (n : nat) : list R * list R := (List.map (fun v => (v / M)%R) (firstn n x), firstn n y).

  (** [h] is a history: in every round, [curve_fit] was given the first [n]
      points, scaled, and the parameters of the first of the best rounds before;
      it either returned parameters or raised RuntimeError. *)
  Definition history (h : list round) : Prop :=
    forall h1 n o h2, h = h1 ++ (n, o) :: h2 ->
      exists w, first_best (quality f x y M) ok_at h1 w /\
        fit (fst (region n)) (snd (region n)) (start w) = match o with Some ps => Ok ps | None => Err RuntimeError end.

  Definition state_of (minn : Z) (w : option (nat * list R)) : fit_state :=
    match w with
    | None => mk_fit 0 p0 minn
    | Some (n, ps) => mk_fit (quality f x y M n ps) (GArr ps) (Z.of_nat n)
    end.

  Lemma start_state minn w : guess_vals (best_params (state_of minn w)) = start w.
  Proof. destruct w as [(n, ps)|]; reflexivity. Qed.

  Lemma history_snoc h n o w : history h -> first_best (quality f x y M) ok_at h w ->
    fit (fst (region n)) (snd (region n)) (start w) = match o with Some ps => Ok ps | None => Err RuntimeError end ->
    history (h ++ [(n, o)]).
  Proof.
    intros H Hw E h1 n' o' h2 Eq. destruct (exists_last (l := (n', o') :: h2)) as (h2' & l & El); [discriminate|].
    rewrite El, app_assoc in Eq. apply app_inj_tail in Eq as (Eq & El'). subst l.
    destruct h2' as [|a h2'].
    - cbn in El. injection El as <- <- ->. rewrite app_nil_r in Eq. subst h1. now exists w.
    - cbn in El. injection El as <- El. apply (H h1 n' o' h2' Eq).
  Qed.

  Lemma best_none h n w : first_best (quality f x y M) ok_at h w -> first_best (quality f x y M) ok_at (h ++ [(n, None)]) w.
  Proof.
    destruct w as [(m, ps)|]; cbn.
    - intros (G & h1 & h2 & -> & H1 & H2). split; [exact G|]. exists h1, (h2 ++ [(n, None)]). rewrite <- app_assoc. split; [reflexivity|]. split; [exact H1|].
      intros n' ps' Hi. apply in_app_or in Hi as [Hi|[Hi|[]]]; [now apply H2|discriminate].
    - intros H n' ps' Hi. apply in_app_or in Hi as [Hi|[Hi|[]]]; [now apply H|discriminate].
  Qed.

  Lemma best_worse minn h n ps w : first_best (quality f x y M) ok_at h w ->
    (ok_at n -> (quality f x y M n ps <= best_R2 (state_of minn w))%R) -> first_best (quality f x y M) ok_at (h ++ [(n, Some ps)]) w.
  Proof.
    destruct w as [(m, qs)|]; cbn.
    - intros (G & h1 & h2 & -> & H1 & H2) W. split; [exact G|]. exists h1, (h2 ++ [(n, Some ps)]). rewrite <- app_assoc. split; [reflexivity|]. split; [exact H1|].
      intros n' ps' Hi O. apply in_app_or in Hi as [Hi|[Hi|[]]]; [now apply H2|]. injection Hi as <- <-. now apply W.
    - intros H W n' ps' Hi. apply in_app_or in Hi as [Hi|[Hi|[]]]; [now apply H|]. injection Hi as <- <-. intros (O & Q). specialize (W O). lra.
  Qed.

  Lemma best_better minn h n ps w : first_best (quality f x y M) ok_at h w -> ok_at n ->
    (best_R2 (state_of minn w) < quality f x y M n ps)%R -> first_best (quality f x y M) ok_at (h ++ [(n, Some ps)]) (Some (n, ps)).
  Proof.
    intros H O Q. cbn. split; [split; [exact O|]|].
    - destruct w as [(m, qs)|]; cbn in *; [|exact Q]. destruct H as ((_ & P) & _). lra.
    - exists h, []. split; [reflexivity|]. split; [|intros ? ? []].
      intros n' ps' Hi O'. destruct w as [(m, qs)|]; cbn in *.
      + destruct H as ((_ & P) & h1 & h2 & -> & H1 & H2). apply in_app_or in Hi as [Hi|[Hi|Hi]].
        * specialize (H1 _ _ Hi O'). lra.
        * injection Hi as <- <-. exact Q.
        * specialize (H2 _ _ Hi O'). lra.
      + specialize (H _ _ Hi). destruct (Rlt_dec 0 (quality f x y M n' ps')); [exfalso; apply H; now split|lra].
  Qed.

  (** Rounds go on from a state that is the first of the best so far. *)
  Lemma fits_history minn ns h w st :
    M <> 0%R -> (forall n, In n ns -> n <= length x /\ n <= length y) ->
    history h -> first_best (quality f x y M) ok_at h w ->
    all_fits f fit x y M (List.map Z.of_nat ns) (state_of minn w) = Ok st ->
    exists h' w', List.map fst h' = ns /\ history (h ++ h') /\ first_best (quality f x y M) ok_at (h ++ h') w' /\ st = state_of minn w'.
  Proof.
    intros HM. revert h w. induction ns as [|n ns IH]; intros h w Hn Hh Hw H.
    - cbn in H. injection H as <-. exists [], w. rewrite app_nil_r. auto.
    - cbn [List.map all_fits] in H. apply bind_ok in H as (st1 & H1 & H). unfold one_fit in H1.
      destruct (Hn n (or_introl eq_refl)) as (Lx & Ly).
      destruct (Req_EM_T M 0); [contradiction|]. rewrite !upto_nat, start_state in H1.
      assert (Go : forall o w1, fit (fst (region n)) (snd (region n)) (start w) = match o with Some ps => Ok ps | None => Err RuntimeError end ->
        first_best (quality f x y M) ok_at (h ++ [(n, o)]) w1 -> st1 = state_of minn w1 ->
        exists h' w', List.map fst h' = n :: ns /\ history (h ++ h') /\ first_best (quality f x y M) ok_at (h ++ h') w' /\ st = state_of minn w').
      { intros o w1 E B ->. destruct (IH (h ++ [(n, o)]) w1) as (h' & w' & M1 & M2 & M3 & M4).
        - intros k Hk. apply Hn. now right.
        - now apply history_snoc with w.
        - exact B.
        - exact H.
        - exists ((n, o) :: h'), w'. cbn. rewrite M1. rewrite <- app_assoc in M2, M3. auto. }
      unfold region in *. cbn [fst snd] in Go.
      destruct (fit _ _ _) as [ps|e] eqn:E.
      + rewrite R2_quality in H1 by assumption. cbn [bind] in H1.
        apply bind_ok in H1 as (b1 & _ & H1). apply bind_ok in H1 as (b2 & _ & H1). injection H1 as <-.
        destruct (Req_EM_T (scatter n _) 0) as [Z|Z].
        * apply (Go (Some ps) w eq_refl); [|reflexivity]. apply best_worse with minn; [exact Hw|]. intros O. now elim O.
        * destruct (Rlt_dec _ _) as [Q|Q].
          -- apply (Go (Some ps) (Some (n, ps)) eq_refl); [|reflexivity]. now apply best_better with minn w.
          -- apply (Go (Some ps) w eq_refl); [|reflexivity]. apply best_worse with minn; [exact Hw|]. intros _. lra.
      + destruct e; try discriminate. injection H1 as <-. apply (Go None w eq_refl); [|reflexivity]. now apply best_none.
  Qed.
End Rounds.

Lemma regions_nat n (x : list R) : n <= length x ->
  regions (Z.of_nat n) (Z.of_nat (length x)) = Ok (List.map Z.of_nat (seq n (length x - n))).
Proof.
  intros H. unfold regions. destruct (Z.ltb_spec (Z.of_nat (length x)) (Z.of_nat n)); [lia|]. f_equal.
  replace (Z.to_nat (Z.of_nat (length x) - Z.of_nat n)) with (length x - n) by lia.
  rewrite <- (Nat.add_0_r n) at 2. generalize (length x - n) as k. generalize 0 as s. intros s k. revert s.
  induction k as [|k IH]; intros s; cbn [seq List.map]; [reflexivity|]. f_equal; [lia|]. rewrite IH. now rewrite Nat.add_succ_r.
Qed.

(** The smallest region that is tried. *)
Definition smallest (x : list R) (min_N : option nat) : nat := match min_N with Some n => n | None => length x / 10 end.

Definition last_of (x : list R) : R := last x 0%R.

Lemma rev_last (x : list R) : x <> [] -> exists t, rev x = last_of x :: t.
Proof.
  intros H. destruct (exists_last H) as (t & a & ->). exists (rev t). unfold last_of. rewrite last_last. apply rev_unit.
Qed.

(** ** Theorems *)

Lemma fit_rounds f fit x y min_N p0 ps r N :
  length x <= S (length y) -> last_of x <> 0%R ->
  fit_growth f fit x y (option_map Z.of_nat min_N) p0 = Ok (ps, r, N) ->
  exists (h : list round) w st,
    List.map fst h = seq (smallest x min_N) (length x - smallest x min_N) /\
    history f fit x y (last_of x) p0 h /\ first_best (quality f x y (last_of x)) (ok_at y) h w /\
    st = state_of f x y (last_of x) p0 (Z.of_nat (smallest x min_N)) w /\
    exists a b rest, best_params st = GArr (a :: b :: rest) /\ ps = a :: (b / last_of x)%R :: rest /\ r = best_R2 st /\ N = best_N st.
Proof.
  intros Ly HM H. unfold fit_growth in H. destruct x as [|x0 x']; [discriminate|]. set (x := x0 :: x') in *.
  destruct (rev_last x) as (t & Et); [discriminate|]. rewrite Et in H.
  replace (match option_map Z.of_nat min_N with Some n => n | None => Z.of_nat (length x / 10) end) with (Z.of_nat (smallest x min_N)) in H by (destruct min_N; reflexivity).
  set (m := smallest x min_N) in *.
  assert (Lm : m <= length x).
  { destruct (le_lt_dec m (length x)); [assumption|]. unfold regions in H. destruct (Z.ltb_spec (Z.of_nat (length x)) (Z.of_nat m)); [discriminate|lia]. }
  rewrite regions_nat in H by exact Lm. cbn [bind] in H. apply bind_ok in H as (st & Hs & H). apply bind_ok in H as (b & Hb & H).
  destruct (fits_history f fit x y (last_of x) p0 (Z.of_nat m) (seq m (length x - m)) [] None st) as (h & w & E1 & E2 & E3 & E4); auto.
  { intros n Hn. apply in_seq in Hn. lia. }
  { intros h1 n o h2 E. destruct h1; discriminate. }
  { cbn. intros ? ? []. }
  cbn [app] in E2, E3. exists h, w, st. split; [exact E1|]. split; [exact E2|]. split; [exact E3|]. split; [exact E4|].
  destruct (best_params st) as [|l|[|a [|b' rest]]]; try discriminate. cbn in Hb. injection Hb as <-. injection H as <- <- <-.
  exists a, b', rest. auto.
Qed.

(** A result is the first of the best rounds over the regions of the first
    [smallest], ..., [length x - 1] points; the second parameter is over the last
    coordinate. *)
Theorem C99_best f fit x y min_N p0 ps r N :
  length x <= S (length y) -> last_of x <> 0%R -> (forall l, p0 <> GArr l) ->
  fit_growth f fit x y (option_map Z.of_nat min_N) p0 = Ok (ps, r, N) ->
  exists (h : list round) n raw,
    List.map fst h = seq (smallest x min_N) (length x - smallest x min_N) /\
    history f fit x y (last_of x) p0 h /\
    first_best (quality f x y (last_of x)) (ok_at y) h (Some (n, raw)) /\
    r = quality f x y (last_of x) n raw /\ (0 < r)%R /\ N = Z.of_nat n /\
    length ps = length raw /\ 2 <= length raw /\
    forall k, nth k ps 0%R = if k =? 1 then (nth 1 raw 0 / last_of x)%R else nth k raw 0%R.
Proof.
  intros Ly HM Hp H. destruct (fit_rounds _ _ _ _ _ _ _ _ _ Ly HM H) as (h & w & st & E1 & E2 & E3 & -> & a & b & rest & B & -> & -> & ->).
  destruct w as [(n, raw)|]; cbn in B; [|now elim (Hp _ B)]. injection B as ->.
  exists h, n, (a :: b :: rest). split; [exact E1|]. split; [exact E2|]. split; [exact E3|]. split; [reflexivity|]. split; [now destruct E3 as ((_ & P) & _)|].
  split; [reflexivity|]. split; [reflexivity|]. split; [cbn; lia|]. intros [|[|k]]; reflexivity.
Qed.

(** Nothing to change: without a round that is better than the mean there is no
    result, whatever [curve_fit] does. *)
Theorem C99_nothing f fit x y min_N p0 : length x <= S (length y) -> last_of x <> 0%R -> (forall l, p0 <> GArr l) ->
  (forall n g ps, fit (fst (region x y (last_of x) n)) (snd (region x y (last_of x) n)) g = Ok ps ->
     ok_at y n -> (quality f x y (last_of x) n ps <= 0)%R) ->
  exists e, fit_growth f fit x y (option_map Z.of_nat min_N) p0 = Err e.
Proof.
  intros Ly HM Hp Hf. destruct (fit_growth _ _ _ _ _ _) as [((ps, r), N)|e] eqn:E; [|now exists e]. exfalso.
  destruct (C99_best _ _ _ _ _ _ _ _ _ Ly HM Hp E) as (h & n & raw & _ & Hh & ((O & Q) & h1 & h2 & Eh & _) & _).
  destruct (Hh _ _ _ _ Eh) as (w & _ & F). specialize (Hf _ _ _ F O). lra.
Qed.

(** In particular, TypeError if [curve_fit] never succeeds. *)
Theorem C99_no_fit f fit x y min_N p0 : x <> [] -> last_of x <> 0%R -> smallest x min_N <= length x ->
  (forall xs ys g, fit xs ys g = Err RuntimeError) -> (p0 = GNone \/ exists a b, p0 = GTuple [a; b]) ->
  fit_growth f fit x y (option_map Z.of_nat min_N) p0 = Err TypeError.
Proof.
  intros Nx HM Lm Hf Hp. unfold fit_growth. destruct (rev_last x Nx) as (t & ->).
  replace (match option_map Z.of_nat min_N with Some n => n | None => Z.of_nat (length x / 10) end) with (Z.of_nat (smallest x min_N)) by (destruct min_N; reflexivity).
  rewrite regions_nat by exact Lm. cbn [bind]. set (st := mk_fit _ _ _).
  assert (A : forall ns, all_fits f fit x y (last_of x) ns st = Ok st).
  { induction ns as [|n ns IH]; [reflexivity|]. cbn [all_fits]. unfold one_fit at 1. destruct (Req_EM_T _ _); [contradiction|]. rewrite Hf. cbn [bind]. exact IH. }
  rewrite A. unfold st. cbn [bind best_params]. destruct Hp as [->|(a & b & ->)]; reflexivity.
Qed.

(** The last value is never used, nor are the values after it. *)
Lemma fits_same f fit x y y' M ns st : (forall n, In n ns -> (n < Z.of_nat (length x))%Z /\ (0 <= n)%Z) ->
  firstn (length x - 1) y = firstn (length x - 1) y' ->
  all_fits f fit x y M ns st = all_fits f fit x y' M ns st.
Proof.
  intros Hn E. revert st. induction ns as [|n ns IH]; intros st; [reflexivity|]. cbn [all_fits].
  assert (Eu : upto n y = upto n y').
  { destruct (Hn n (or_introl eq_refl)) as (H1 & H2). rewrite <- (Z2Nat.id n H2). rewrite !upto_nat.
    assert (K : Z.to_nat n <= length x - 1) by lia.
    rewrite <- (Nat.min_l (Z.to_nat n) (length x - 1) K), <- !firstn_firstn, E. reflexivity. }
  replace (one_fit f fit x y M n st) with (one_fit f fit x y' M n st) by (unfold one_fit; now rewrite Eu).
  destruct (one_fit _ _ _ _ _ _ _); [|reflexivity]. cbn [bind]. apply IH.
  intros k Hk. apply Hn. now right.
Qed.

Theorem C99_last_unused f fit x y y' min_N p0 : firstn (length x - 1) y = firstn (length x - 1) y' ->
  fit_growth f fit x y (option_map Z.of_nat min_N) p0 = fit_growth f fit x y' (option_map Z.of_nat min_N) p0.
Proof.
  intros E. unfold fit_growth. destruct (rev x) as [|M t]; [reflexivity|].
  replace (match option_map Z.of_nat min_N with Some n => n | None => Z.of_nat (length x / 10) end) with (Z.of_nat (smallest x min_N)) by (destruct min_N; reflexivity).
  unfold regions. destruct (_ <? _)%Z; [reflexivity|]. cbn [bind]. rewrite (fits_same f fit x y y' M); [reflexivity| |exact E].
  intros n Hn. apply in_map_iff in Hn as (i & <- & Hi). apply in_seq in Hi. lia.
Qed.

(** Few points: by default the first region has a tenth of the points. With less
    than ten it is empty, with less than twenty it is one point; what
    [curve_fit] raises for that (ValueError and TypeError) ends the fit. *)
Theorem C99_few f fit x y p0 e : x <> [] -> length x < 20 -> e <> RuntimeError ->
  (forall xs ys g, length ys < 2 -> fit xs ys g = Err (if length ys =? 0 then ValueError else e)) -> y <> [] -> last_of x <> 0%R ->
  fit_growth f fit x y None p0 = Err (if length x <? 10 then ValueError else e).
Proof.
  intros Nx Lx He Hf Ny HM. unfold fit_growth. destruct (rev_last x Nx) as (t & ->).
  assert (L0 : 0 < length x) by (destruct x; [contradiction|cbn; lia]).
  assert (Ld : length x / 10 < length x) by (apply Nat.div_lt; lia).
  rewrite regions_nat by lia. cbn [bind]. destruct (length x - length x / 10) as [|k] eqn:Ek; [lia|]. cbn [seq List.map all_fits].
  unfold one_fit at 1. destruct (Req_EM_T _ _); [contradiction|]. rewrite !upto_nat.
  destruct (Nat.ltb_spec (length x) 10).
  - rewrite (Nat.div_small (length x) 10) by assumption. rewrite Hf by (cbn; lia). reflexivity.
  - assert (length x / 10 = 1) as ->. { symmetry. apply Nat.div_unique with (length x - 10); lia. }
    destruct y as [|y0 y]; [contradiction|]. rewrite Hf by (cbn; lia). cbn [firstn length Nat.eqb]. destruct e; try reflexivity. contradiction.
Qed.

(** ** Exponentials *)

(** The returned rate is per unit of the coordinate: the returned parameters
    have at [t] the value that the fitted ones have at the scaled coordinate. *)
Theorem C99_rate raw ps M : M <> 0%R -> (forall k, nth k ps 0%R = if k =? 1 then (nth 1 raw 0 / M)%R else nth k raw 0%R) ->
  forall t, exp2 ps t = exp2 raw (t / M)%R.
Proof. intros HM H t. unfold exp2. rewrite (H 0), (H 1). cbn [Nat.eqb]. f_equal. f_equal. field. exact HM. Qed.

Lemma sum_0 n g : (forall j, j < n -> g j = 0%R) -> sum_of n g = 0%R.
Proof.
  intros H. rewrite (sum_ext n g (fun _ => 0%R) H). unfold sum_of. induction (seq 0 n); cbn; [reflexivity|]. rewrite IHl. ring.
Qed.

(** Data that follow [a exp(2 b t)]: if [curve_fit] finds the curve through them,
    the result is [a] and [b], from the smallest region. *)
Theorem C99_exact fit x y min_N p0 a b :
  length x <= S (length y) -> last_of x <> 0%R -> (forall l, p0 <> GArr l) -> smallest x min_N < length x ->
  (forall j, j < length y -> nth j y 0%R = (a * exp (2 * b * nth j x 0))%R) ->
  (forall n g, smallest x min_N <= n -> n < length x ->
     fit (fst (region x y (last_of x) n)) (snd (region x y (last_of x) n)) g = Ok [a; (b * last_of x)%R]) ->
  ok_at y (smallest x min_N) ->
  fit_growth exp2 fit x y (option_map Z.of_nat min_N) p0 = Ok ([a; b], 1%R, Z.of_nat (smallest x min_N)).
Proof.
  intros Ly HM Hp Lm Hy Hf O. assert (Nx : x <> []) by (intros ->; cbn in Lm; lia).
  set (m := smallest x min_N) in *.
  assert (Q : forall n, n < length x -> quality exp2 x y (last_of x) n [a; (b * last_of x)%R] = 1%R).
  { intros n Hn. unfold quality, determination. rewrite (sum_0 n).
    - unfold Rdiv. ring.
    - intros j Hj. rewrite Hy by lia. unfold exp2. cbn [nth]. replace (2 * (b * last_of x) * (nth j x 0 / last_of x))%R with (2 * b * nth j x 0)%R by (field; exact HM).
      unfold Rsqr. ring. }
  set (win := mk_fit 1 (GArr [a; (b * last_of x)%R]) (Z.of_nat m)).
  assert (R1 : forall n st, m <= n -> n < length x -> one_fit exp2 fit x y (last_of x) (Z.of_nat n) st =
    let* st' := Ok (if Req_EM_T (scatter n (fun j => nth j y 0%R)) 0 then st else if Rlt_dec (best_R2 st) 1 then mk_fit 1 (GArr [a; (b * last_of x)%R]) (Z.of_nat n) else st) in
    let* _ := guess_second (best_params st') in Ok st').
  { intros n st H1 H2. unfold one_fit. destruct (Req_EM_T _ _); [contradiction|]. rewrite !upto_nat. specialize (Hf n (guess_vals (best_params st)) H1 H2).
    unfold region in Hf. cbn [fst snd] in Hf. rewrite Hf. rewrite R2_quality by (try assumption; lia). rewrite Q by exact H2. cbn [bind second].
    destruct (Req_EM_T _ _); reflexivity. }
  unfold fit_growth. destruct (rev_last x Nx) as (t & ->).
  replace (match option_map Z.of_nat min_N with Some n => n | None => Z.of_nat (length x / 10) end) with (Z.of_nat m) by (destruct min_N; reflexivity).
  rewrite regions_nat by lia. cbn [bind]. destruct (length x - m) as [|k] eqn:Ek; [lia|]. cbn [seq List.map all_fits].
  rewrite R1 by lia. cbn [bind best_R2]. destruct (Req_EM_T _ _) as [Z|_]; [now elim O|]. destruct (Rlt_dec 0 1); [|lra]. cbn [best_params guess_second second bind]. fold win.
  assert (A : forall k s, m <= s -> s + k <= length x -> all_fits exp2 fit x y (last_of x) (List.map Z.of_nat (seq s k)) win = Ok win).
  { clear k Ek. induction k as [|k IH]; intros s H1 H2; [reflexivity|]. cbn [seq List.map all_fits]. rewrite R1 by lia.
    replace (if Req_EM_T _ _ then win else _) with win.
    - cbn [bind win best_params guess_second second]. apply IH; lia.
    - destruct (Req_EM_T _ _); [reflexivity|]. cbn [win best_R2]. destruct (Rlt_dec 1 1); [lra|reflexivity]. }
  rewrite A by lia. unfold win. cbn [bind best_params guess_second second best_R2 best_N].
  replace (b * last_of x / last_of x)%R with b by (field; exact HM). reflexivity.
Qed.

Lemma scatter_0 n d : scatter n d = 0%R -> forall i j, i < n -> j < n -> d i = d j.
Proof.
  unfold scatter. set (mu := mean n d). intros H.
  assert (K : forall l, fold_right Rplus 0%R (List.map (fun j => (d j - mu)²%R) l) = 0%R -> forall j, In j l -> d j = mu).
  { assert (P : forall l, (0 <= fold_right Rplus 0 (List.map (fun j => (d j - mu)²) l))%R).
    { induction l as [|a l IH]; cbn; [lra|]. pose proof (Rle_0_sqr (d a - mu)). lra. }
    induction l as [|a l IH]; cbn; intros E j Hj; [destruct Hj|]. pose proof (Rle_0_sqr (d a - mu)). pose proof (P l).
    destruct Hj as [<-|Hj]; [|apply IH; [lra|exact Hj]]. assert (Z : ((d a - mu)² = 0)%R) by lra. apply Rsqr_eq_0 in Z. lra. }
  intros i j Hi Hj. transitivity mu; [|symmetry]; apply (K _ H); apply in_seq; lia.
Qed.

(** A function other than [exp2], like a straight line: the returned parameters
    are not those of the curve, although the fit is perfect. *)
Definition line (ps : list R) (x : R) : R := (nth 0 ps 0 * x + nth 1 ps 0)%R.

Theorem C99_other_function_refuted :
  exists fit x y ps N, fit_growth line fit x y (Some 3%Z) (GTuple [1; 1]%R) = Ok (ps, 1%R, N) /\
    exists j, j < 3 /\ line ps (nth j x 0%R) <> nth j y 0%R.
Proof.
  set (x := [1; 2; 3; 4]%R). set (y := [2; 3; 4; 5]%R).
  exists (fun _ _ _ => Ok [4; 1]%R), x, y, [4; / 4]%R, 3%Z. split; [|exists 0; split; [lia|unfold line; cbn; lra]].
  unfold fit_growth. change (rev x) with [4; 3; 2; 1]%R. change (length x) with 4. cbv beta iota zeta. change (regions 3 (Z.of_nat 4)) with (Ok [3%Z]).
  cbn [bind all_fits]. unfold one_fit. destruct (Req_EM_T 4 0); [lra|]. change 3%Z with (Z.of_nat 3) at 1 2. rewrite !upto_nat.
  rewrite R2_quality by (cbn; try lia; lra). cbn [bind].
  destruct (Req_EM_T _ _) as [Z|_]; [exfalso; pose proof (scatter_0 _ _ Z 0 1 ltac:(lia) ltac:(lia)) as K; cbn in K; lra|].
  assert (Q : quality line x y 4 3 [4; 1]%R = 1%R).
  { unfold quality, determination. rewrite (sum_0 3); [unfold Rdiv; ring|]. intros j Hj. unfold line, x, y.
    destruct j as [|[|[|j]]]; try lia; cbn; unfold Rsqr; field. }
  rewrite Q. cbn [best_R2]. destruct (Rlt_dec 0 1); [|lra].
  cbn [best_params guess_second second bind best_R2 best_N]. replace (1 / 4)%R with (/ 4)%R by lra. reflexivity.
Qed.

(** The data are never all fitted. *)
Theorem C99_region f fit x y min_N p0 ps r N : length x <= S (length y) -> last_of x <> 0%R -> (forall l, p0 <> GArr l) ->
  fit_growth f fit x y (option_map Z.of_nat min_N) p0 = Ok (ps, r, N) ->
  (Z.of_nat (smallest x min_N) <= N < Z.of_nat (length x))%Z.
Proof.
  intros Ly HM Hp H. apply C99_best in H as (h & n & raw & E1 & _ & (_ & h1 & h2 & -> & _) & _ & _ & -> & _); [|assumption..].
  rewrite map_app in E1. cbn [List.map fst] in E1. assert (I : In n (seq (smallest x min_N) (length x - smallest x min_N))).
  { rewrite <- E1. apply in_or_app. right. now left. }
  apply in_seq in I. lia.
Qed.

(** The hypotheses of [C99_exact] hold for [exp(t)] at 1, 2, 3 and 4. *)
Example C99_exact_example :
  let x := [1; 2; 3; 4]%R in let y := List.map exp x in
  fit_growth exp2 (fun _ _ _ => Ok [1; / 2 * 4]%R) x y (Some 2%Z) (GTuple [1; 1]%R) = Ok ([1; / 2]%R, 1%R, 2%Z).
Proof.
  intros x y. apply (C99_exact _ x y (Some 2) _ 1%R (/ 2)%R).
  - cbn; lia.
  - cbn; lra.
  - discriminate.
  - cbn; lia.
  - intros j Hj. unfold y, x in *. cbn [List.map length] in Hj.
    do 4 (destruct j as [|j]; [cbn [nth List.map]; rewrite Rmult_1_l; f_equal; field|]). lia.
  - reflexivity.
  - intros Z. pose proof (scatter_0 _ _ Z 0 1 ltac:(cbn; lia) ltac:(cbn; lia)) as K. cbn in K. apply exp_inv in K. lra.
Qed.

Print Assumptions C99_best.
Print Assumptions C99_exact.
