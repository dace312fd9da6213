(** * C47: every component gets its own panel. *)
From Coq Require Import List ZArith Bool Lia.
From Verif Require Import Prelude PreludeFacts Plot_Model.
Import ListNotations.
Open Scope Z_scope.

(** ** The default layout *)

Lemma ceil_sqrt_cases n : 1 <= n ->
  let s := Z.sqrt n in
  1 <= s /\ ((s * s = n /\ ceil_sqrt n = s) \/ (s * s < n /\ n < (s + 1) * (s + 1) /\ ceil_sqrt n = s + 1)).
Proof.
  intros H s. pose proof (Z.sqrt_spec n ltac:(lia)) as [A B]. fold s in A, B.
  assert (1 <= s). { pose proof (Z.sqrt_nonneg n). fold s in H0. nia. }
  split; [assumption|]. unfold ceil_sqrt. fold s. destruct (Z.eqb_spec (s * s) n); [left; auto|right]. lia.
Qed.

(** There are enough panels, no row is empty, the layout is square or one
    column wider than high, and no such layout has fewer panels. *)
Theorem C47_default n : 1 <= n ->
  exists r c, layout None None n = Ok (r, c) /\ 1 <= r /\ n <= r * c /\ (r - 1) * c < n /\ r <= c <= r + 1 /\
    forall r' c', 1 <= r' -> r' <= c' <= r' + 1 -> n <= r' * c' -> r * c <= r' * c'.
Proof.
  intros H. destruct (ceil_sqrt_cases n H) as (S1 & [(E & C)|(A & B & C)]); set (s := Z.sqrt n) in *; unfold layout, floor_sqrt; fold s; rewrite C.
  - rewrite Z.eqb_refl. exists s, s. split; [reflexivity|]. repeat split; try nia.
  - destruct (Z.eqb_spec s (s + 1)); [lia|]. destruct (Z.leb_spec n ((s + 1) * s)).
    + exists s, (s + 1). split; [reflexivity|]. repeat split; try nia.
      intros r' c' R1 R2 R3. assert (c' = r' \/ c' = r' + 1) as [-> | ->] by lia.
      * assert (s < r') by nia. nia.
      * assert (s <= r') by nia. nia.
    + exists (s + 1), (s + 1). split; [reflexivity|]. repeat split; try nia.
      intros r' c' R1 R2 R3. assert (c' = r' \/ c' = r' + 1) as [-> | ->] by lia; assert (s < r') by nia; nia.
Qed.

(** ** Rows or columns given *)

Lemma ceil_div_spec a b c : 1 <= b -> ceil_div a b = Ok c -> a <= b * c /\ b * (c - 1) < a.
Proof.
  intros H E. unfold ceil_div in E. destruct (Z.eqb_spec b 0); [lia|]. injection E as <-.
  pose proof (Z.div_mod (- a) b ltac:(lia)). pose proof (Z.mod_pos_bound (- a) b ltac:(lia)). nia.
Qed.

(** Rows given are used, with just as many columns as are needed; a number of
    columns is then ignored. *)
Theorem C47_rows r cols n : 1 <= r -> 1 <= n ->
  exists c, layout (Some r) cols n = Ok (r, c) /\ 1 <= c /\ n <= r * c /\ forall c', n <= r * c' -> c <= c'.
Proof.
  intros R N. unfold layout. destruct (ceil_div n r) as [c|] eqn:E.
  2:{ unfold ceil_div in E. destruct (Z.eqb_spec r 0); [lia|discriminate]. }
  exists c. apply ceil_div_spec in E; [|lia]. repeat split; try nia.
Qed.

Theorem C47_cols c n : 1 <= c -> 1 <= n ->
  exists r, layout None (Some c) n = Ok (r, c) /\ 1 <= r /\ n <= r * c /\ forall r', n <= r' * c -> r <= r'.
Proof.
  intros R N. unfold layout. destruct (ceil_div n c) as [r|] eqn:E.
  2:{ unfold ceil_div in E. destruct (Z.eqb_spec c 0); [lia|discriminate]. }
  exists r. apply ceil_div_spec in E; [|lia]. repeat split; try nia.
Qed.

(** A number of rows or columns that is not positive is an error. *)
Theorem C47_not_positive o k ncomps :
  p_squeeze o = false -> k <= 0 ->
  p_rows o = Some k \/ (p_rows o = None /\ p_cols o = Some k) ->
  exists e, plot o [] ncomps = Err e /\ (e = ZeroDivisionError \/ e = ValueError).
Proof.
  intros Sq K H. unfold plot, make_axes. rewrite Sq. cbv zeta.
  destruct H as [-> | [-> ->]]; unfold layout, ceil_div; destruct (Z.eqb_spec k 0); cbn [bind]; eauto.
  - destruct (Z.ltb_spec k 1); [|lia]. cbn [orb bind]. eauto.
  - destruct (Z.ltb_spec k 1); [|lia]. rewrite orb_true_r. cbn [bind]. eauto.
Qed.

(** ** Drawing *)

(** A layout with room for [n] components. *)
Lemma layout_room rows cols n :
  1 <= n -> (forall k, rows = Some k \/ cols = Some k -> 1 <= k) ->
  exists r c, layout rows cols n = Ok (r, c) /\ 1 <= r /\ 1 <= c /\ n <= r * c.
Proof.
  intros N P. destruct rows as [r|].
  - destruct (C47_rows r cols n) as (c & E & C & F & _); [apply P; auto|exact N|]. exists r, c. repeat split; auto.
  - destruct cols as [c|].
    + destruct (C47_cols c n) as (r & E & C & F & _); [apply P; auto|exact N|]. exists r, c. repeat split; auto.
    + destruct (C47_default n N) as (r & c & E & R & F & _ & B & _). exists r, c. repeat split; auto; lia.
Qed.

Lemma draw_loop_ok o ax k comp fig :
  p_squeeze o = false ->
  (forall i, (i < k)%nat -> nth_error ax (comp + i + p_start o) = Some (Panel (comp + i + p_start o))) ->
  exists bars, draw_loop o ax k comp fig =
    Ok ((fig ++ bars)%list, map (fun c => {| d_axes := Panel (c + p_start o); d_comps := comps_of o c |}) (seq comp k)).
Proof.
  intros Sq. revert comp fig. induction k as [|k IH]; intros comp fig H.
  - exists []. cbn. now rewrite app_nil_r.
  - cbn [draw_loop]. rewrite Sq. pose proof (H 0%nat ltac:(lia)) as H0. rewrite Nat.add_0_r in H0. rewrite H0.
    set (fig' := if p_bar o then _ else _).
    assert (F : exists b, fig' = (fig ++ b)%list).
    { unfold fig'. destruct (p_bar o); [eauto|]. exists []. now rewrite app_nil_r. }
    destruct F as [b F]. destruct (IH (S comp) fig') as [b' E].
    { intros i Hi. specialize (H (S i) ltac:(lia)). replace (S comp + i)%nat with (comp + S i)%nat by lia. exact H. }
    rewrite E. cbn [bind seq map]. exists (b ++ b')%list. rewrite F, app_assoc. reflexivity.
Qed.

Lemma nth_error_panels k i rest : (i < k)%nat -> nth_error (map Panel (seq 0 k) ++ rest) i = Some (Panel i).
Proof.
  intros H. rewrite nth_error_app1 by (now rewrite map_length, seq_length).
  rewrite nth_error_map, (nth_error_nth' (seq 0 k) 0%nat) by (now rewrite seq_length). cbn. now rewrite seq_nth.
Qed.

(** In a new figure every component gets its own panel, in order, and the
    remaining panels are switched off. *)
Theorem C47_panels o ncomps :
  p_squeeze o = false -> p_num_axes o = None -> p_start o = 0%nat -> p_pairs o = false ->
  (forall k, p_rows o = Some k \/ p_cols o = Some k -> 1 <= k) -> (1 <= ncomps)%nat ->
  exists panels bars off, (ncomps <= panels)%nat /\
    plot o [] ncomps = Ok (map Panel (seq 0 panels) ++ bars, off, map (fun c => {| d_axes := Panel c; d_comps := [c] |}) (seq 0 ncomps))%list /\
    forall i, In i off <-> (ncomps <= i < panels)%nat.
Proof.
  intros Sq Na St Pa Rc N. unfold plot, num_comps, idx_comps. rewrite Na, Pa. unfold make_axes. rewrite Sq.
  destruct (layout_room (p_rows o) (p_cols o) (Z.of_nat ncomps)) as (r & c & E & R & C & F); [lia|exact Rc|].
  rewrite E. cbn [bind]. destruct (Z.ltb_spec r 1); [lia|]. destruct (Z.ltb_spec c 1); [lia|]. cbn [orb bind].
  set (k := Z.to_nat (r * c)). assert (K : (ncomps <= k)%nat) by (unfold k; lia).
  destruct (draw_loop_ok o (map Panel (seq 0 k)) ncomps 0 (map Panel (seq 0 k)) Sq) as [b D].
  { intros i Hi. rewrite St, Nat.add_0_r. cbn [Nat.add]. rewrite <- (app_nil_r (map Panel (seq 0 k))). apply nth_error_panels. lia. }
  rewrite D. cbn [bind]. exists k, b. eexists. split; [exact K|]. split.
  - do 2 f_equal. apply map_ext. intros a. unfold comps_of. rewrite Pa, St, Nat.add_0_r. reflexivity.
  - intros i. rewrite in_seq. rewrite Nat2Z.id. lia.
Qed.

(** In a figure that already has enough panels the components go into the same
    panels again. *)
Theorem C47_again o panels bars ncomps :
  p_squeeze o = false -> p_num_axes o = None -> p_start o = 0%nat -> p_pairs o = false ->
  (1 <= ncomps <= panels)%nat ->
  exists bars', plot o (map Panel (seq 0 panels) ++ bars)%list ncomps =
    Ok (map Panel (seq 0 panels) ++ bars', [], map (fun c => {| d_axes := Panel c; d_comps := [c] |}) (seq 0 ncomps))%list.
Proof.
  intros Sq Na St Pa N. unfold plot, num_comps, idx_comps. rewrite Na, Pa. unfold make_axes.
  destruct panels as [|p]; [lia|]. cbn [seq map app]. rewrite Sq. cbn [negb andb].
  change (Panel 0 :: (map Panel (seq 1 p) ++ bars))%list with (map Panel (seq 0 (S p)) ++ bars)%list.
  destruct (Z.ltb_spec (Z.of_nat (length (map Panel (seq 0 (S p)) ++ bars)%list)) (Z.of_nat ncomps)) as [L|L].
  { rewrite app_length, map_length, seq_length in L. lia. }
  cbn [bind]. destruct (draw_loop_ok o (map Panel (seq 0 (S p)) ++ bars)%list ncomps 0 (map Panel (seq 0 (S p)) ++ bars)%list Sq) as [b D].
  { intros i Hi. rewrite St, Nat.add_0_r. cbn [Nat.add]. apply nth_error_panels. lia. }
  rewrite D. cbn [bind]. exists (bars ++ b)%list. rewrite app_assoc. do 2 f_equal.
  apply map_ext. intros a. unfold comps_of. rewrite Pa, St, Nat.add_0_r. reflexivity.
Qed.

(** More components than axes are refused ... *)
Theorem C47_refused o fig ncomps :
  p_squeeze o = false -> p_num_axes o = None -> p_pairs o = false ->
  fig <> [] -> (length fig < ncomps)%nat -> plot o fig ncomps = Err ValueError.
Proof.
  intros Sq Na Pa F L. unfold plot, num_comps, idx_comps, make_axes. rewrite Na, Pa, Sq. destruct fig as [|a fig]; [congruence|].
  cbn [negb andb]. destruct (Z.ltb_spec (Z.of_nat (length (a :: fig))) (Z.of_nat ncomps)); [reflexivity|lia].
Qed.

(** ... but a colour bar counts as axes: after a dataset with one component,
    the second component of the next one is drawn into the colour bar. *)
Definition two_dim : popts := {| p_squeeze := false; p_num_axes := None; p_start := 0; p_rows := None; p_cols := None; p_pairs := false; p_bar := true |}.
Theorem C47_colour_bar_refuted :
  exists fig off ds fig' off' ds', plot two_dim [] 1 = Ok (fig, off, ds) /\ plot two_dim fig 2 = Ok (fig', off', ds') /\
    nth_error ds' 1 = Some {| d_axes := Bar 0; d_comps := [1%nat] |}.
Proof. do 6 eexists. split; [reflexivity|]. split; reflexivity. Qed.

(** Only the axes there were when the call began can be drawn into: a first
    panel so far on that there are fewer axes behind it than components is an
    [IndexError], whether or not colour bars are added meanwhile. *)
Lemma draw_loop_beyond o ax k comp fig :
  p_squeeze o = false -> (1 <= k)%nat -> (length ax < comp + k + p_start o)%nat ->
  draw_loop o ax k comp fig = Err IndexError.
Proof.
  intros Sq. revert comp fig. induction k as [|k IH]; intros comp fig K L; [lia|].
  cbn [draw_loop]. rewrite Sq. destruct (nth_error ax (comp + p_start o)) as [a|] eqn:E; [|reflexivity].
  destruct k as [|k].
  - apply nth_error_None in E || (assert (comp + p_start o < length ax)%nat by (apply nth_error_Some; congruence); lia).
  - rewrite IH; [reflexivity|lia|lia].
Qed.

Theorem C47_beyond o fig ncomps :
  p_squeeze o = false -> p_pairs o = false -> (1 <= ncomps)%nat -> fig <> [] ->
  num_comps o ncomps <= Z.of_nat (length fig) -> (length fig < ncomps + p_start o)%nat ->
  plot o fig ncomps = Err IndexError.
Proof.
  intros Sq Pa N F Hn L. unfold plot, make_axes. destruct fig as [|a fig]; [congruence|]. rewrite Sq. cbn [negb andb].
  destruct (Z.ltb_spec (Z.of_nat (length (a :: fig))) (num_comps o ncomps)); [lia|]. cbn [bind].
  unfold idx_comps. rewrite Pa. rewrite draw_loop_beyond; [reflexivity|exact Sq|exact N|cbn [Nat.add]; lia].
Qed.

(** Squeezed, everything goes into the first panel of a new figure. *)
Lemma draw_loop_squeeze o ax k comp fig :
  p_squeeze o = true ->
  exists bars, draw_loop o (Panel 0 :: ax) k comp fig =
    Ok ((fig ++ bars)%list, map (fun c => {| d_axes := Panel 0; d_comps := comps_of o c |}) (seq comp k)).
Proof.
  intros Sq. revert comp fig. induction k as [|k IH]; intros comp fig.
  - exists []. cbn. now rewrite app_nil_r.
  - cbn [draw_loop]. rewrite Sq. cbn [nth_error]. destruct (p_bar o).
    + destruct (IH (S comp) (fig ++ [Bar 0])%list) as [b E]. rewrite E. cbn [bind seq map].
      exists ([Bar 0] ++ b)%list. now rewrite app_assoc.
    + destruct (IH (S comp) fig) as [b E]. rewrite E. cbn [bind seq map]. eauto.
Qed.
Theorem C47_squeezed o ncomps :
  p_squeeze o = true -> p_pairs o = false ->
  exists bars, plot o [] ncomps = Ok (Panel 0 :: bars, [], map (fun c => {| d_axes := Panel 0; d_comps := [c] |}) (seq 0 ncomps)).
Proof.
  intros Sq Pa. unfold plot, make_axes. rewrite Sq. cbn [bind]. unfold idx_comps. rewrite Pa.
  destruct (draw_loop_squeeze o [] ncomps 0 [Panel 0] Sq) as [b E]. rewrite E. cbn [bind]. exists b. cbn [app]. do 2 f_equal.
  apply map_ext. intros a. unfold comps_of. now rewrite Pa.
Qed.

(** Quiver and streamline plots use the components in pairs, one panel for
    each pair; an odd last component is not drawn. *)
Theorem C47_pairs o ncomps :
  p_squeeze o = false -> p_num_axes o = None -> p_start o = 0%nat -> p_pairs o = true -> p_rows o = None -> p_cols o = None ->
  (2 <= ncomps)%nat ->
  exists fig off, plot o [] ncomps =
    Ok (fig, off, map (fun c => {| d_axes := Panel c; d_comps := [2 * c; 2 * c + 1]%nat |}) (seq 0 (Nat.div ncomps 2))).
Proof.
  intros Sq Na St Pa Ro Co N. unfold plot, num_comps, idx_comps. rewrite Na, Pa. unfold make_axes. rewrite Sq.
  assert (1 <= ncomps / 2)%nat by (apply Nat.div_le_lower_bound; lia).
  destruct (layout_room (p_rows o) (p_cols o) (Z.of_nat (ncomps / 2))) as (r & c & E & R & C & F); [lia|intros k [K|K]; congruence|].
  rewrite E. cbn [bind]. destruct (Z.ltb_spec r 1); [lia|]. destruct (Z.ltb_spec c 1); [lia|]. cbn [orb bind].
  set (k := Z.to_nat (r * c)). assert (K : (ncomps / 2 <= k)%nat) by (unfold k; lia).
  destruct (draw_loop_ok o (map Panel (seq 0 k)) (ncomps / 2) 0 (map Panel (seq 0 k)) Sq) as [b D].
  { intros i Hi. rewrite St, Nat.add_0_r. cbn [Nat.add]. rewrite <- (app_nil_r (map Panel (seq 0 k))). apply nth_error_panels. lia. }
  rewrite D. cbn [bind]. do 2 eexists. do 2 f_equal. apply map_ext. intros a. unfold comps_of. rewrite Pa, St, Nat.add_0_r. reflexivity.
Qed.

(** ** Several datasets with [--subplots] *)

(** The components of all datasets one after the other. *)
Definition all_panels (sets : list nat) (start : nat) : list (list draw) :=
  (fix go (sets : list nat) (start : nat) := match sets with
   | [] => []
   | k :: sets' => map (fun c => {| d_axes := Panel (start + c); d_comps := [c] |}) (seq 0 k) :: go sets' (start + k)%nat
   end) sets start.

Notation total := (fold_right Nat.add 0%nat).

Lemma subplots_loop_ok o n panels sets start bars :
  p_squeeze o = false -> p_pairs o = false -> (start + total sets <= panels)%nat -> n <= Z.of_nat panels -> 1 <= n -> (1 <= panels)%nat ->
  exists bars', subplots_loop o n start (map Panel (seq 0 panels) ++ bars)%list sets =
    Ok ((map Panel (seq 0 panels) ++ bars')%list, all_panels sets start).
Proof.
  intros Sq Pa. revert start bars. induction sets as [|k sets IH]; intros start bars T N N1 P1.
  - exists bars. reflexivity.
  - cbn [subplots_loop]. cbn [fold_right] in T.
    unfold plot at 1. unfold num_comps, idx_comps. cbn [with_start p_num_axes p_pairs]. rewrite Pa.
    assert (Q : match n with 0 => Z.of_nat k | _ => n end = n) by (destruct n; lia || reflexivity). 
    rewrite Q. unfold make_axes. destruct panels as [|p]; [lia|]. cbn [seq map app].
    change (Panel 0 :: (map Panel (seq 1 p) ++ bars))%list with (map Panel (seq 0 (S p)) ++ bars)%list.
    cbn [with_start p_squeeze]. rewrite Sq. cbn [negb andb].
    destruct (Z.ltb_spec (Z.of_nat (length (map Panel (seq 0 (S p)) ++ bars)%list)) n) as [L|L].
    { rewrite app_length, map_length, seq_length in L. lia. }
    cbn [bind]. destruct (draw_loop_ok (with_start o n start) (map Panel (seq 0 (S p)) ++ bars)%list k 0 (map Panel (seq 0 (S p)) ++ bars)%list Sq) as [b D].
    { intros i Hi. cbn [with_start p_start Nat.add]. apply nth_error_panels. lia. }
    rewrite D. cbn [bind]. rewrite <- app_assoc. destruct (IH (start + k)%nat (bars ++ b)%list) as [b' E]; try lia.
    rewrite E. cbn [bind]. exists b'. do 2 f_equal. cbn [all_panels]. f_equal. apply map_ext. intros a. unfold comps_of. cbn [with_start p_pairs p_start]. rewrite Pa.
    now rewrite Nat.add_comm.
Qed.

(** Every component of every dataset gets a panel of its own, in order. *)
Theorem C47_subplots o sets :
  p_squeeze o = false -> p_pairs o = false -> Forall (fun k => (1 <= k)%nat) sets -> sets <> [] ->
  (forall k, p_rows o = Some k \/ p_cols o = Some k -> 1 <= k) ->
  exists panels bars, (total sets <= panels)%nat /\
    subplots o sets = Ok ((map Panel (seq 0 panels) ++ bars)%list, all_panels sets 0) /\
    map d_axes (concat (all_panels sets 0)) = map Panel (seq 0 (total sets)).
Proof.
  intros Sq Pa F NE Rc. unfold subplots. set (n := total sets).
  assert (N : (1 <= n)%nat). { unfold n. destruct sets as [|k sets]; [congruence|]. inversion_clear F. cbn. lia. }
  destruct (layout_room (p_rows o) (p_cols o) (Z.of_nat n)) as (r & c & E & R & C & G); [lia|exact Rc|].
  set (p := Z.to_nat (r * c)). assert (Pn : (n <= p)%nat) by (unfold p; lia).
  destruct (subplots_loop_ok o (Z.of_nat n) p sets 0 [] Sq Pa) as [b L]; [unfold n in Pn; lia|lia|lia|lia|].
  exists p, b. split; [exact Pn|]. split.
  - rewrite <- L. destruct sets as [|k sets]; [congruence|].
    cbn [subplots_loop]. unfold plot, num_comps. cbn [with_start p_num_axes].
    assert (Q : match Z.of_nat n with 0 => Z.of_nat (idx_comps (with_start o (Z.of_nat n) 0) k) | _ => Z.of_nat n end = Z.of_nat n)
      by (clear - N; destruct (Z.of_nat n) eqn:Zn; [lia|reflexivity|reflexivity]).
    rewrite Q. unfold make_axes. cbn [with_start p_squeeze p_rows p_cols]. rewrite Sq, E. cbn [bind].
    destruct (Z.ltb_spec r 1); [lia|]. destruct (Z.ltb_spec c 1); [lia|]. cbn [orb bind]. fold p.
    destruct p as [|p']; [lia|]. rewrite app_nil_r. cbn [seq map negb andb].
    destruct (Z.ltb_spec (Z.of_nat (length (Panel 0 :: map Panel (seq 1 p')))) (Z.of_nat n)) as [W|W].
    { cbn [length] in W. rewrite map_length, seq_length in W. lia. }
    cbn [bind]. destruct (draw_loop _ _ _ _ _) as [[? ?]|]; reflexivity.
  - clear. assert (H : forall s, map d_axes (concat (all_panels sets s)) = map Panel (seq s (total sets))).
    { induction sets as [|k sets IH]; intros s; [reflexivity|]. 
      change (all_panels (k :: sets) s) with (map (fun c => {| d_axes := Panel (s + c); d_comps := [c] |}) (seq 0 k) :: all_panels sets (s + k)).
      cbn [concat fold_right]. rewrite map_app, IH, seq_app, map_app, map_map. f_equal.
      cbn [d_axes]. rewrite <- (map_map (fun c => s + c)%nat Panel). f_equal.
      assert (G : forall z, map (fun c => s + c)%nat (seq z k) = seq (s + z) k).
      { clear. induction k as [|k IH]; intros z; [reflexivity|]. cbn [seq map]. rewrite IH. now rewrite Nat.add_succ_r. }
      rewrite G. now rewrite Nat.add_0_r. }
    apply H.
Qed.

(** Seven components: three by three panels, two switched off.  Two datasets
    with two components and one. *)
Example C47_ex :
  layout None None 7 = Ok (3, 3) /\ layout None None 6 = Ok (2, 3) /\ layout (Some 2) None 7 = Ok (2, 4) /\
  plot {| p_squeeze := false; p_num_axes := None; p_start := 0; p_rows := None; p_cols := None; p_pairs := false; p_bar := false |} [] 7 =
    Ok (map Panel (seq 0 9), [7; 8]%nat, map (fun c => {| d_axes := Panel c; d_comps := [c] |}) (seq 0 7)) /\
  subplots two_dim [2; 1]%nat =
    Ok ([Panel 0; Panel 1; Panel 2; Panel 3; Bar 0; Bar 1; Bar 2],
        [[{| d_axes := Panel 0; d_comps := [0%nat] |}; {| d_axes := Panel 1; d_comps := [1%nat] |}];
         [{| d_axes := Panel 2; d_comps := [0%nat] |}]]).
Proof. repeat split. Qed.

(** Two components from panel 1 on in a figure of two panels, with colour bars. *)
Example C47_beyond_ex :
  plot {| p_squeeze := false; p_num_axes := Some 2; p_start := 1; p_rows := None; p_cols := None; p_pairs := false; p_bar := true |}
    [Panel 0; Panel 1] 2 = Err IndexError.
Proof. reflexivity. Qed.

Print Assumptions C47_beyond.
Print Assumptions C47_default.
Print Assumptions C47_panels.
Print Assumptions C47_subplots.
Print Assumptions C47_pairs.
Print Assumptions C47_colour_bar_refuted.
