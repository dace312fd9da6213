(** * C99, continued: the growth command *)
From Coq Require Import String Ascii List Arith ZArith Bool Lia Reals Lra.
From Verif Require Import Prelude PreludeFacts NdArray Growth_Model Growth_Props.
Import ListNotations.
Open Scope list_scope.
Open Scope nat_scope.

Section Command.
  Context (py_float : string -> res R) (curve_fit : list R -> list R -> option (list R) -> res (list R))
          (fit_other : list R -> nda R -> option Z -> guess -> res (list R * R * Z)).

  Lemma fit_two f x y m p0 ps r N : fit_growth f curve_fit x y m p0 = Ok (ps, r, N) -> exists a b rest, ps = a :: b :: rest.
  Proof.
    unfold fit_growth. destruct (rev x) as [|M t]; [discriminate|]. intros H. apply bind_ok in H as (ns & _ & H).
    apply bind_ok in H as (st & _ & H). apply bind_ok in H as (b & _ & H). destruct (best_params st) as [|l|[|a [|b' rest]]]; try discriminate.
    injection H as <- _ _. eauto.
  Qed.

  (** ** Specification *)

  (** The exponential with the parameters [ps], in the middle between the times. *)
  Definition exponential (a g : R) (t : list R) (vals : nda R) : Prop :=
    shape vals = [length t - 1; 1] /\
    forall i, S i < length t -> get vals [i; 0] = Some (a * exp (2 * g * ((nth i t 0 + nth (S i) t 0) / 2)))%R.

  (** ** Rows of values *)

  Lemma seq_nth0 n i : i < n -> nth_error (seq 0 n) i = Some i.
  Proof. intros H. rewrite nth_error_seq. destruct (Nat.ltb_spec i n); [reflexivity|lia]. Qed.

  Lemma flat_row (a : nda R) n k i : wf a -> shape a = n :: repeat 1 k -> i < n -> get a (i :: repeat 0 k) = Some (nth i (flat a) 0%R).
  Proof.
    intros W S Hi. unfold get. rewrite S.
    assert (P : prod (repeat 1 k) = 1) by (clear; induction k as [|k IH]; [reflexivity|]; cbn [repeat]; change (prod (1 :: repeat 1 k)) with (1 * prod (repeat 1 k)); rewrite IH; reflexivity).
    assert (Q : ravel (repeat 1 k) (repeat 0 k) = Some 0).
    { clear -P. induction k as [|k IH]; [reflexivity|]. cbn [repeat ravel]. destruct (0 <? 1) eqn:E; [|discriminate].
      rewrite IH; [reflexivity|]. cbn [repeat] in P. change (prod (1 :: repeat 1 k)) with (1 * prod (repeat 1 k)) in P. lia. }
    cbn [ravel]. destruct (Nat.ltb_spec i n); [|lia]. rewrite Q, P. cbn [option_map]. rewrite Nat.mul_1_r, Nat.add_0_r.
    apply nth_error_nth'. unfold wf in W. rewrite W, S. change (prod (n :: repeat 1 k)) with (n * prod (repeat 1 k)). rewrite P. lia.
  Qed.

  Lemma squeeze_row (a : nda R) n k : n <> 1 -> shape a = n :: repeat 1 k -> shape (squeeze_all a) = [n].
  Proof.
    intros Hn S. unfold squeeze_all. cbn [shape]. rewrite S. cbn [filter]. destruct (Nat.eqb_spec n 1); [contradiction|]. cbn [negb]. f_equal.
    clear. induction k; cbn; [reflexivity|exact IHk].
  Qed.

  (** [y] is the row of values at the positions [p i]. *)
  Definition row_at (v : nda R) (n : nat) (p : nat -> list nat) (y : list R) : Prop :=
    length y = n /\ forall i, i < n -> get v (p i) = Some (nth i y 0%R).

  Lemma pick_comp v n c : wf v -> shape v = [n; c] -> 0 < c -> n <> 1 ->
    exists y, pick_y v None 0 = Ok y /\ shape y = [n] /\ row_at v n (fun i => [i; 0]) (flat y).
  Proof.
    intros W S Hc Hn. unfold pick_y. rewrite S. cbn [rev app removelast List.map]. destruct (Nat.ltb_spec 0 c); [|lia].
    set (a := take _ v). eexists. split; [reflexivity|].
    assert (Sel : Forall2 (fun (s : list nat) m => forall i, In i s -> i < m) [seq 0 n; [0]] (shape v)).
    { rewrite S. repeat constructor; intros i Hi; [apply in_seq in Hi; lia|]. destruct Hi as [<-|[]]. exact Hc. }
    assert (Sa : shape a = n :: repeat 1 1) by (cbn; now rewrite seq_length).
    assert (Wa : wf a) by now apply wf_take.
    split; [now apply squeeze_row with 1|]. unfold row_at. cbn [squeeze_all flat]. split.
    - unfold wf in Wa. rewrite Wa, Sa. cbn. lia.
    - intros i Hi. rewrite <- (flat_row a n 1 i Wa Sa Hi). symmetry. apply get_take; [exact W|exact Sel| |].
      + cbn [List.map repeat]. rewrite seq_length. repeat constructor. exact Hi.
      + repeat constructor. cbn [fst snd]. now apply seq_nth0.
  Qed.

  Lemma pick_dir0 v n0 n1 n2 idx : wf v -> shape v = [n0; n1; n2] -> idx < n1 -> 0 < n2 -> n0 <> 1 ->
    exists y, pick_y v (Some 0%Z) idx = Ok y /\ shape y = [n0] /\ row_at v n0 (fun i => [i; idx; 0]) (flat y).
  Proof.
    intros W S Hi Hc Hn. unfold pick_y. rewrite S. destruct (Nat.ltb_spec idx n1); [|lia]. destruct (Nat.ltb_spec 0 n2); [|lia]. cbn [andb List.map].
    set (a := take _ v). eexists. split; [reflexivity|].
    assert (Sel : Forall2 (fun (s : list nat) m => forall i, In i s -> i < m) [seq 0 n0; [idx]; [0]] (shape v)).
    { rewrite S. repeat constructor; intros i Hj; [apply in_seq in Hj; lia| |]; destruct Hj as [<-|[]]; assumption. }
    assert (Sa : shape a = n0 :: repeat 1 2) by (cbn; now rewrite seq_length).
    assert (Wa : wf a) by now apply wf_take.
    split; [now apply squeeze_row with 2|]. unfold row_at. cbn [squeeze_all flat]. split.
    - unfold wf in Wa. rewrite Wa, Sa. cbn. lia.
    - intros i Hj. rewrite <- (flat_row a n0 2 i Wa Sa Hj). symmetry. apply get_take; [exact W|exact Sel| |].
      + cbn [List.map repeat]. rewrite seq_length. repeat constructor. exact Hj.
      + repeat constructor. cbn [fst snd]. now apply seq_nth0.
  Qed.

  Lemma pick_dir1 v n0 n1 n2 idx : wf v -> shape v = [n0; n1; n2] -> idx < n0 -> 0 < n2 -> n1 <> 1 ->
    exists y, pick_y v (Some 1%Z) idx = Ok y /\ shape y = [n1] /\ row_at v n1 (fun i => [idx; i; 0]) (flat y).
  Proof.
    intros W S Hi Hc Hn. unfold pick_y. rewrite S. destruct (Nat.ltb_spec idx n0); [|lia]. destruct (Nat.ltb_spec 0 n2); [|lia]. cbn [andb List.map].
    set (a := take _ v). eexists. split; [reflexivity|].
    assert (Sel : Forall2 (fun (s : list nat) m => forall i, In i s -> i < m) [[idx]; seq 0 n1; [0]] (shape v)).
    { rewrite S. repeat constructor; intros i Hj; [|apply in_seq in Hj; lia|]; destruct Hj as [<-|[]]; assumption. }
    assert (Sa : shape a = [1; n1; 1]) by (cbn; now rewrite seq_length).
    assert (Wa : wf a) by now apply wf_take.
    split.
    { unfold squeeze_all. cbn [shape]. rewrite Sa. cbn [filter]. change (1 =? 1) with true. cbn [negb]. destruct (Nat.eqb_spec n1 1); [contradiction|reflexivity]. }
    unfold row_at. cbn [squeeze_all flat]. assert (La : length (flat a) = n1) by (unfold wf in Wa; rewrite Wa, Sa; cbn; lia). split; [exact La|].
    intros i Hj. transitivity (get a [0; i; 0]).
    - symmetry. apply get_take; [exact W|exact Sel| |].
      + cbn [List.map length]. rewrite seq_length. repeat constructor. exact Hj.
      + repeat constructor. cbn [fst snd]. now apply seq_nth0.
    - unfold get. rewrite Sa. cbn [ravel]. destruct (Nat.ltb_spec i n1); [|lia]. change (0 <? 1) with true. cbn [option_map].
      change (prod [1]) with 1. rewrite Nat.mul_1_r, !Nat.add_0_r. cbn [Nat.mul Nat.add]. apply nth_error_nth'. lia.
  Qed.

  (** ** Theorems *)

  Definition tagged (o : options) (rate : R) : list product :=
    match o_tag o with
    | Some tag => if String.eqb tag "" then [] else [NewSet tag (o_label o) [[0%R]] (mk_nda [1; 1] [rate])]
    | None => []
    end.

  (** What the products of one fit are. *)
  Definition products (o : options) (t ps : list R) (out : list product) : Prop :=
    exists fits, out = fits ++ tagged o (nth 1 ps 0%R) /\
      if o_dataset o then exists vals, fits = [NewSet "growth" "Fit" [t] vals] /\ exponential (nth 0 ps 0%R) (nth 1 ps 0%R) t vals
      else fits = [].

  Lemma midpoints_at t i : S i < length t -> nth_error (midpoints t) i = Some ((nth i t 0 + nth (S i) t 0) / 2)%R.
  Proof.
    unfold midpoints. revert i. induction t as [|a t IH]; intros i H; [cbn in H; lia|]. destruct t as [|b t]; [cbn in H; lia|].
    destruct i as [|i]; [cbn; f_equal; lra|]. cbn [tl combine List.map nth_error]. apply (IH i). cbn in *. lia.
  Qed.

  Lemma midpoints_length t : length (midpoints t) = length t - 1.
  Proof. unfold midpoints. rewrite map_length, combine_length. destruct t; [reflexivity|]. cbn [length tl]. lia. Qed.

  Lemma fitted_exponential t ps : exists vals, fitted t ps = NewSet "growth" "Fit" [t] vals /\ exponential (nth 0 ps 0%R) (nth 1 ps 0%R) t vals.
  Proof.
    eexists. split; [reflexivity|]. split; cbn [shape]; rewrite map_length, midpoints_length; [reflexivity|].
    intros i Hi. unfold get. cbn [shape flat ravel]. destruct (Nat.ltb_spec i (length t - 1)); [|lia]. change (0 <? 1) with true. cbn [option_map].
    change (prod [1]) with 1. rewrite Nat.mul_1_r, !Nat.add_0_r. rewrite nth_error_map, midpoints_at by exact Hi. reflexivity.
  Qed.

  Lemma one_products o time v idx t x y p0 :
    o_inst o = false -> get_guess py_float (o_guess o) = Ok p0 -> axis time 0 = Ok t ->
    match o_dir o with Some 1%Z => axis time 1 | _ => Ok t end = Ok x ->
    pick_y v (o_dir o) idx = Ok y -> (exists n, shape y = [n]) ->
    match fit_growth exp2 curve_fit x (flat y) (o_minn o) p0 with
    | Ok (ps, _, _) => exists l, one_rate py_float curve_fit fit_other o time v idx = Ok (nth 1 ps 0%R, l) /\
        if o_dataset o then l = [fitted t ps] else l = []
    | Err e => one_rate py_float curve_fit fit_other o time v idx = Err e
    end.
  Proof.
    intros Hi Hg Ht Hx Hy (n & Sy). unfold one_rate. rewrite Hg, Ht, Hi. cbn [bind]. rewrite Hx. cbn [bind]. rewrite Hy. cbn [bind].
    unfold fit_any. rewrite Sy. destruct (fit_growth _ _ _ _ _ _) as [((ps, r), N)|e] eqn:E; [|reflexivity].
    destruct (fit_two _ _ _ _ _ _ _ _ E) as (a & b & rest & ->). cbn [bind fst second nth]. eexists. split; [reflexivity|].
    destruct (o_dataset o); reflexivity.
  Qed.

  Lemma one_growth o time v t x y p0 :
    num_rates v (o_dir o) = Ok 1 ->
    o_inst o = false -> get_guess py_float (o_guess o) = Ok p0 -> axis time 0 = Ok t ->
    match o_dir o with Some 1%Z => axis time 1 | _ => Ok t end = Ok x ->
    pick_y v (o_dir o) 0 = Ok y -> (exists n, shape y = [n]) ->
    match fit_growth exp2 curve_fit x (flat y) (o_minn o) p0 with
    | Ok (ps, _, _) => exists out, growth_one py_float curve_fit fit_other o time v = Ok out /\ products o t ps out
    | Err e => growth_one py_float curve_fit fit_other o time v = Err e
    end.
  Proof.
    intros Hn Hi Hg Ht Hx Hy Sy. pose proof (one_products o time v 0 t x y p0 Hi Hg Ht Hx Hy Sy) as H.
    unfold growth_one. rewrite Hn. cbn [bind seq mapM]. destruct (fit_growth _ _ _ _ _ _) as [((ps, r), N)|e].
    - destruct H as (l & -> & Hl). cbn [bind List.map concat fst snd]. eexists. split; [reflexivity|]. exists l. rewrite app_nil_r.
      split; [reflexivity|]. destruct (o_dataset o); subst l; [|reflexivity]. destruct (fitted_exponential t ps) as (vals & E & X). exists vals. now rewrite E.
    - now rewrite H.
  Qed.

  (** One-dimensional data, no direction: the first component is fitted over the
      coordinates, whatever the others are. The products are the exponential of
      the fit and one rate under the tag. *)
  Theorem C99_command o t time v n c p0 :
    wf v -> shape v = [n; c] -> 0 < c -> n <> 1 -> o_dir o = None -> o_inst o = false -> get_guess py_float (o_guess o) = Ok p0 ->
    exists y, row_at v n (fun i => [i; 0]) y /\
      match fit_growth exp2 curve_fit t y (o_minn o) p0 with
      | Ok (ps, _, _) => exists out, growth_one py_float curve_fit fit_other o (t :: time) v = Ok out /\ products o t ps out
      | Err e => growth_one py_float curve_fit fit_other o (t :: time) v = Err e
      end.
  Proof.
    intros W S Hc Hn Hd Hi Hg. destruct (pick_comp v n c W S Hc Hn) as (y & Hy & Sy & Ry). exists (flat y). split; [exact Ry|].
    apply (one_growth o (t :: time) v t t y p0); rewrite ?Hd; auto; [|now exists n]. unfold num_rates. now rewrite S.
  Qed.

  (** Two-dimensional data: only the first row (or column) is fitted. *)
  Theorem C99_dir0 o t time v n0 n1 n2 p0 :
    wf v -> shape v = [n0; n1; n2] -> 0 < n1 -> 0 < n2 -> n0 <> 1 -> o_dir o = Some 0%Z -> o_inst o = false -> get_guess py_float (o_guess o) = Ok p0 ->
    exists y, row_at v n0 (fun i => [i; 0; 0]) y /\
      match fit_growth exp2 curve_fit t y (o_minn o) p0 with
      | Ok (ps, _, _) => exists out, growth_one py_float curve_fit fit_other o (t :: time) v = Ok out /\ products o t ps out
      | Err e => growth_one py_float curve_fit fit_other o (t :: time) v = Err e
      end.
  Proof.
    intros W S H1 Hc Hn Hd Hi Hg. destruct (pick_dir0 v n0 n1 n2 0 W S H1 Hc Hn) as (y & Hy & Sy & Ry). exists (flat y). split; [exact Ry|].
    apply (one_growth o (t :: time) v t t y p0); rewrite ?Hd; auto; [|now exists n0]. unfold num_rates. now rewrite S.
  Qed.

  (** With direction 1 the exponential is put on the coordinates of the other axis. *)
  Theorem C99_dir1 o t t1 time v n0 n1 n2 p0 :
    wf v -> shape v = [n0; n1; n2] -> 0 < n0 -> 0 < n2 -> n1 <> 1 -> o_dir o = Some 1%Z -> o_inst o = false -> get_guess py_float (o_guess o) = Ok p0 ->
    exists y, row_at v n1 (fun i => [0; i; 0]) y /\
      match fit_growth exp2 curve_fit t1 y (o_minn o) p0 with
      | Ok (ps, _, _) => exists out, growth_one py_float curve_fit fit_other o (t :: t1 :: time) v = Ok out /\ products o t ps out
      | Err e => growth_one py_float curve_fit fit_other o (t :: t1 :: time) v = Err e
      end.
  Proof.
    intros W S H1 Hc Hn Hd Hi Hg. destruct (pick_dir1 v n0 n1 n2 0 W S H1 Hc Hn) as (y & Hy & Sy & Ry). exists (flat y). split; [exact Ry|].
    apply (one_growth o (t :: t1 :: time) v t t1 y p0); rewrite ?Hd; auto; [|now exists n1]. unfold num_rates. now rewrite S.
  Qed.

  (** Whatever the data and the direction, there is never more than one rate. *)
  Theorem C99_one_rate o time v out : Forall (fun n => 0 < n) (shape v) ->
    growth_one py_float curve_fit fit_other o time v = Ok out ->
    exists rate others, out = others ++ tagged o rate.
  Proof.
    intros P H. unfold growth_one in H. apply bind_ok in H as (n & Hn & H). apply bind_ok in H as (rs & Hr & H). injection H as <-.
    assert (n = 1) as ->.
    { unfold num_rates in Hn. destruct (shape v) as [|n0 [|n1 [|n2 rest]]] eqn:S; try discriminate; [now injection Hn| |now injection Hn].
      inversion P as [|? ? P0 P']; subst. inversion P' as [|? ? P1 _]; subst.
      assert (K : forall m, 0 < m -> mapM (one_rate py_float curve_fit fit_other o time v) (seq 0 m) = Ok rs ->
        exists r, one_rate py_float curve_fit fit_other o time v 0 = Ok r).
      { intros [|m] Hm Hx; [lia|]. cbn in Hx. apply bind_ok in Hx as (r & Hx & _). eauto. }
      assert (Q : (o_dir o = Some 0%Z \/ o_dir o = Some 1%Z) -> forall r, one_rate py_float curve_fit fit_other o time v 0 = Ok r -> False).
      { intros D r Hx. unfold one_rate in Hx. apply bind_ok in Hx as (p0 & _ & Hx). apply bind_ok in Hx as (t0 & _ & Hx). apply bind_ok in Hx as (x & _ & Hx).
        apply bind_ok in Hx as (y & Hy & _). unfold pick_y in Hy. rewrite S in Hy. destruct D as [D|D]; rewrite D in Hy; discriminate. }
      destruct (o_dir o) as [[|[| |]|]|]; injection Hn as <-; try reflexivity.
      - destruct (K _ P1 Hr) as (r & Hx). elim (Q (or_introl eq_refl) r Hx).
      - destruct (K _ P0 Hr) as (r & Hx). elim (Q (or_intror eq_refl) r Hx). }
    cbn in Hr. apply bind_ok in Hr as (r & _ & Hr). injection Hr as <-. exists (fst r), (snd r). cbn [List.map concat fst snd]. rewrite app_nil_r. reflexivity.
  Qed.

  (** One-dimensional data with a direction are refused. *)
  Theorem C99_dir_one_axis o time v n c p0 : shape v = [n; c] -> 0 < n -> 0 < c -> (o_dir o = Some 0%Z \/ o_dir o = Some 1%Z) ->
    get_guess py_float (o_guess o) = Ok p0 -> growth_one py_float curve_fit fit_other o time v = Err IndexError.
  Proof.
    intros S Hn Hc Hd Hg.
    assert (E : one_rate py_float curve_fit fit_other o time v 0 = Err IndexError).
    { unfold one_rate. rewrite Hg. cbn [bind]. unfold axis. destruct time as [|t0 time]; [reflexivity|]. cbn [nth_error bind].
      unfold pick_y. rewrite S. destruct Hd as [->| ->]; [reflexivity|]. destruct time; reflexivity. }
    unfold growth_one, num_rates. rewrite S. destruct Hd as [->| ->]; cbn [bind].
    - destruct c as [|c]; [lia|]. cbn [seq mapM]. now rewrite E.
    - destruct n as [|n]; [lia|]. cbn [seq mapM]. now rewrite E.
  Qed.

  (** Instantaneous rates: never with more than three coordinates. *)
  Theorem C99_instantaneous o t time v : o_inst o = true -> 3 < length t -> Forall (fun n => 0 < n) (shape v) ->
    forall out, growth_one py_float curve_fit fit_other o (t :: time) v <> Ok out.
  Proof.
    intros Hi Ht P out H.
    assert (Q : forall idx r, one_rate py_float curve_fit fit_other o (t :: time) v idx <> Ok r).
    { intros idx r Hr. unfold one_rate in Hr. rewrite Hi in Hr. apply bind_ok in Hr as (p0 & _ & Hr). cbn [axis nth_error bind] in Hr.
      apply bind_ok in Hr as (x & _ & Hr). apply bind_ok in Hr as (y & _ & Hr). apply bind_ok in Hr as (f & _ & Hr).
      apply bind_ok in Hr as (figs & Hf & _). destruct t as [|t0 [|t1 [|t2 [|t3 t']]]]; cbn in Ht; try lia.
      set (t := t0 :: t1 :: t2 :: t3 :: t') in *. replace (length t - 2) with (S (S (length t'))) in Hf by (cbn; lia). cbn [seq instantaneous] in Hf.
      destruct (get v [1 + 1; 0]); [|discriminate]. destruct (get v [1 - 1; 0]); [|discriminate]. destruct (get v [1; 0]); [|discriminate].
      rewrite firstn_length in Hf. cbn [tl t length app] in Hf. replace (Nat.min _ _) with (S (S (length t'))) in Hf by lia. discriminate. }
    unfold growth_one in H. apply bind_ok in H as (n & Hn & H). apply bind_ok in H as (rs & Hr & _).
    destruct n as [|n].
    - unfold num_rates in Hn. destruct (shape v) as [|n0 [|n1 [|n2 rest]]]; try discriminate.
      inversion P as [|? ? P0 P']; subst. inversion P' as [|? ? P1 _]; subst. destruct (o_dir o) as [[|[| |]|]|]; injection Hn as Hn; lia.
    - cbn in Hr. apply bind_ok in Hr as (r & Hr & _). exact (Q 0 r Hr).
  Qed.

  (** With three there is one figure with one point. *)
  Theorem C99_instantaneous_three t0 t1 t2 v a m b :
    get v [0; 0] = Some a -> get v [1; 0] = Some m -> get v [2; 0] = Some b ->
    instantaneous [t0; t1; t2] v (seq 1 (length [t0; t1; t2] - 2)) [] = Ok [Figure [t1] [((b - a) / (2 * m * (t2 - t0)))%R]].
  Proof. intros H0 H1 H2. cbn [length Nat.sub seq instantaneous]. cbn [Nat.add Nat.sub]. rewrite H0, H1, H2. reflexivity. Qed.
End Command.

(** A rate for every row is not what comes out: two rows, one rate. *)
Theorem C99_rate_per_row_refuted :
  exists fit o time v out, o_dir o = Some 0%Z /\ o_tag o = Some "g"%string /\ wf v /\ shape v = [3; 2; 1] /\
    growth_one (fun _ => Ok 1%R) fit (fun _ _ _ _ => Err TypeError) o time v = Ok out /\
    forall ks rates, In (NewSet "g" "" [ks] rates) out -> shape rates = [1; 1].
Proof.
  set (x := [1; 2; 3]%R). set (v := mk_nda [3; 2; 1] [exp 1; 5; exp 2; 5; exp 3; 6]%R).
  set (o := mk_opts (Some "1,1"%string) (Some 2%Z) false false (Some 0%Z) (Some "g"%string) "").
  exists (fun _ _ _ => Ok [1; / 2 * 3]%R), o, [x; [0; 1]%R], v.
  destruct (C99_dir0 (fun _ => Ok 1%R) (fun _ _ _ => Ok [1; / 2 * 3]%R) (fun _ _ _ _ => Err TypeError) o x [[0; 1]%R] v 3 2 1 (GTuple [1; 1]%R)) as (y & (Ly & Hy) & H);
    try reflexivity; try lia.
  assert (Ey : y = [exp 1; exp 2; exp 3]%R).
  { destruct y as [|a [|b [|c [|? ?]]]]; try discriminate. pose proof (Hy 0 ltac:(lia)) as E0. pose proof (Hy 1 ltac:(lia)) as E1. pose proof (Hy 2 ltac:(lia)) as E2.
    cbn in E0, E1, E2. injection E0 as <-. injection E1 as <-. injection E2 as <-. reflexivity. }
  rewrite Ey in H.
  pose proof (C99_exact (fun _ _ _ => Ok [1; / 2 * 3]%R) x [exp 1; exp 2; exp 3]%R (Some 2) (GTuple [1; 1]%R) 1%R (/ 2)%R) as Ex.
  change (option_map Z.of_nat (Some 2)) with (o_minn o) in Ex. rewrite Ex in H.
  - destruct H as (out & Ho & fits & -> & Hf). cbn [o o_dataset] in Hf. subst fits. exists ([] ++ tagged o (nth 1 [1; / 2]%R 0%R)).
    repeat split; [exact Ho|]. intros ks rates Hin. cbn in Hin. destruct Hin as [Hin|[]]. injection Hin as <- <-. reflexivity.
  - cbn; lia.
  - cbn; lra.
  - discriminate.
  - cbn; lia.
  - intros j Hj. cbn [length] in Hj. do 3 (destruct j as [|j]; [cbn [nth x]; rewrite Rmult_1_l; f_equal; field|]). lia.
  - reflexivity.
  - intros Z. pose proof (scatter_0 _ _ Z 0 1 ltac:(cbn; lia) ltac:(cbn; lia)) as K. cbn in K. apply exp_inv in K. lra.
Qed.

(** Nine points and a [curve_fit] that refuses fewer points than parameters. *)
Example C99_few_example :
  fit_growth exp2 (fun _ ys _ => if length ys =? 0 then Err ValueError else if length ys <? 2 then Err TypeError else Ok [1; 1]%R)
    (repeat 1%R 9) (repeat 2%R 9) None GNone = Err ValueError.
Proof.
  apply C99_few with (e := TypeError); try discriminate.
  - cbn; lia.
  - intros xs ys g H. destruct (length ys =? 0); [reflexivity|]. destruct (Nat.ltb_spec (length ys) 2); [reflexivity|lia].
  - cbn; lra.
Qed.

Print Assumptions C99_command.
Print Assumptions C99_one_rate.
