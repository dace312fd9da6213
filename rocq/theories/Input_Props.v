(** * C121: what the tools accept as data *)
From Coq Require Import String Ascii List Arith ZArith Bool Lia Reals Lra.
From Verif Require Import Prelude PreludeFacts NdArray Ev_Model Tools_Arr Tools_Model Tools_Proofs Tools_Proofs2
  Tools_Props Tools_Props2 Tools_Props3 Input_Model.
Import ListNotations.
Open Scope list_scope.
Open Scope nat_scope.

(** ** Specification *)

(** A list of coordinates fits an array: one entry for every axis, or for every
    axis but the last. *)
Definition fits (axes : list pyobj) (a : arr) : Prop :=
  length (shape a) = length axes \/ length (shape a) = S (length axes).

(** Object [x] stands for values [v] on grid [g]. *)
Inductive stands : pyobj -> pyobj -> pyobj -> Prop :=
| stands_data g v : stands (DataO g v) g v
| stands_array a : stands (ArrayO a) (TupleO []) (ArrayO a)
| stands_tuple axes a : fits axes a -> stands (TupleO [ListO axes; ArrayO a]) (ListO axes) (ArrayO a)
| stands_list axes a : fits axes a -> stands (ListO [ListO axes; ArrayO a]) (ListO axes) (ArrayO a).

(** A list of coordinates and an array that do not fit, in a tuple or list. *)
Definition misfit (x : pyobj) : Prop :=
  exists axes a, ~ fits axes a /\ (x = TupleO [ListO axes; ArrayO a] \/ x = ListO [ListO axes; ArrayO a]).

Lemma fits_dec axes a :
  (negb (length axes =? length (shape a)) && negb (Z.of_nat (length axes) =? Z.of_nat (length (shape a)) - 1)%Z = false) <-> fits axes a.
Proof.
  unfold fits. rewrite andb_false_iff, !negb_false_iff, Nat.eqb_eq, Z.eqb_eq. lia.
Qed.

Lemma pair_ok g v r : parse_pair g v = Ok r <-> r = (g, v) /\ exists axes a, g = ListO axes /\ v = ArrayO a /\ fits axes a.
Proof.
  split.
  - intros E. destruct g as [| | |axes|]; try discriminate E. destruct v as [|a| | |]; try discriminate E.
    unfold parse_pair in E.
    destruct (negb _ && _) eqn:B; [discriminate E|]. injection E as <-. split; [reflexivity|].
    exists axes, a. split; [reflexivity|]. split; [reflexivity|]. now apply fits_dec.
  - intros (-> & axes & a & -> & -> & F). unfold parse_pair. apply fits_dec in F. rewrite F. reflexivity.
Qed.

Lemma pair_err g v e : parse_pair g v = Err e ->
  (e = ValueError /\ exists axes a, g = ListO axes /\ v = ArrayO a /\ ~ fits axes a) \/
  (e = TypeError /\ ~ exists axes a, g = ListO axes /\ v = ArrayO a).
Proof.
  intros E. destruct g as [| | |axes|].
  1,2,3,5: right; cbn in E; injection E as <-; split; [reflexivity|]; intros (x & y & H & _); discriminate H.
  destruct v as [|a| | |].
  1,3,4,5: right; cbn in E; injection E as <-; split; [reflexivity|]; intros (x & y & _ & H); discriminate H.
  left. unfold parse_pair in E. destruct (negb _ && _) eqn:B; [|discriminate E]. injection E as <-. split; [reflexivity|].
  exists axes, a. split; [reflexivity|]. split; [reflexivity|]. intros F. apply fits_dec in F. rewrite F in B. discriminate B.
Qed.

(** ** Exactly these are accepted, and handed through unchanged *)
Theorem C121_accepts x g v : parse_input x = Ok (g, v) <-> stands x g v.
Proof.
  split.
  - intros E. destruct x as [g0 v0|a|l|l|]; cbn in E.
    + injection E as <- <-. constructor.
    + injection E as <- <-. constructor.
    + destruct l as [|g0 [|v0 [|? ?]]]; try discriminate E. apply pair_ok in E.
      destruct E as (E & axes & a & -> & -> & F). injection E as -> ->. now constructor.
    + destruct l as [|g0 [|v0 [|? ?]]]; try discriminate E. apply pair_ok in E.
      destruct E as (E & axes & a & -> & -> & F). injection E as -> ->. now constructor.
    + discriminate E.
  - intros S. destruct S as [g v|a|axes a F|axes a F]; try reflexivity;
      apply pair_ok; (split; [reflexivity|]); exists axes, a; auto.
Qed.

(** Everything else is refused: a pair that does not fit with ValueError, the
    rest with TypeError. *)
Theorem C121_refuses x :
  (~ exists g v, stands x g v) <-> exists e, parse_input x = Err e.
Proof.
  split.
  - intros N. destruct (parse_input x) as [[g v]|e] eqn:E; [|exists e; reflexivity].
    exfalso. apply N. exists g, v. now apply C121_accepts.
  - intros [e E] (g & v & S). apply C121_accepts in S. rewrite S in E. discriminate E.
Qed.

Theorem C121_error x e : parse_input x = Err e ->
  (misfit x /\ e = ValueError) \/ (~ misfit x /\ e = TypeError).
Proof.
  intros E. destruct x as [g0 v0|a|l|l|]; cbn in E; try discriminate E.
  - destruct l as [|g0 [|v0 [|? ?]]].
    1,2,4: right; injection E as <-; split; [|reflexivity]; intros (axes & a & _ & [H | H]); discriminate H.
    apply pair_err in E. destruct E as [(-> & axes & a & -> & -> & F) | (-> & N)].
    + left. split; [|reflexivity]. exists axes, a. auto.
    + right. split; [|reflexivity]. intros (axes & a & _ & [H | H]); [|discriminate H]. injection H as -> ->. apply N. eauto.
  - destruct l as [|g0 [|v0 [|? ?]]].
    1,2,4: right; injection E as <-; split; [|reflexivity]; intros (axes & a & _ & [H | H]); discriminate H.
    apply pair_err in E. destruct E as [(-> & axes & a & -> & -> & F) | (-> & N)].
    + left. split; [|reflexivity]. exists axes, a. auto.
    + right. split; [|reflexivity]. intros (axes & a & _ & [H | H]); [discriminate H|]. injection H as -> ->. apply N. eauto.
  - right. injection E as <-. split; [|reflexivity]. intros (axes & a & _ & [H | H]); discriminate H.
Qed.

(** ** Tools of one input do not care how the data are given *)
Theorem C121_tool f x g w :
  tool1 f x = Ok (g, w) <-> exists a o, stands x g (ArrayO a) /\ f a = Ok o /\ w = ArrayO o.
Proof.
  unfold tool1. split.
  - intros E. destruct (parse_input x) as [[g' v]|e] eqn:P; [|discriminate E]. cbn [bind] in E.
    destruct v as [|a| | |]; try discriminate E. cbn [as_array bind] in E.
    destruct (f a) as [o|e] eqn:F; [|discriminate E]. cbn [bind] in E. injection E as -> <-.
    exists a, o. split; [now apply C121_accepts|]. auto.
  - intros (a & o & S & F & ->). apply C121_accepts in S. rewrite S. cbn [bind as_array]. rewrite F. reflexivity.
Qed.

(** Chaining: what one tool returns can be given, as it is, to the next, if the
    grid is a list fitting the new values; the result is that of computing on
    the values in turn. *)
Theorem C121_chain f h x axes a o w :
  stands x (ListO axes) (ArrayO a) -> f a = Ok o -> fits axes o -> h o = Ok w ->
  exists r, tool1 f x = Ok (ListO axes, r) /\ tool1 h (TupleO [ListO axes; r]) = Ok (ListO axes, ArrayO w).
Proof.
  intros S F Fi H. exists (ArrayO o). split.
  - apply C121_tool. exists a, o. auto.
  - apply C121_tool. exists o, w. split; [now constructor|]. auto.
Qed.

(** It cannot when the first tool was given a bare array, since the grid of a
    bare array is an empty tuple and not a list. *)
Theorem C121_chain_array_refuted f h a o :
  f a = Ok o -> exists r, tool1 f (ArrayO a) = Ok r /\ tool1 h (TupleO [fst r; snd r]) = Err TypeError.
Proof.
  intros F. exists (TupleO [], ArrayO o). split; [|reflexivity].
  apply C121_tool. exists a, o. split; [constructor|]. auto.
Qed.

(** ** Ten-moment diagnostics *)

Lemma shows_fits cells n v f axes : shows cells n v f -> length axes = length cells \/ length axes = S (length cells) -> fits axes v.
Proof. intros (_ & E & _) L. unfold fits. rewrite E, app_length. cbn. lia. Qed.

Lemma shows_same cells m w w' f : shows cells m w f -> shows cells m w' f -> w = w'.
Proof.
  intros (W & S & V) (W' & S' & V'). apply nda_ext; [exact W|exact W'|congruence|]. intros idx Hi. rewrite S in Hi.
  apply in_range_snoc_inv in Hi as (x & j & -> & Hx & Hj). rewrite V, V' by assumption. reflexivity.
Qed.

Lemma pij_shows cells n v s : 10 <= n -> stores cells n v (tenmoment_cons s) ->
  (forall x, in_range cells x -> 0 < rho s x)%R -> ones_first cells = true ->
  exists pt, get_pij v = Ok pt /\ shows cells 6 pt (tensor s).
Proof.
  intros Hn St Hr O. destruct (C38_tensor 2 cells n v s Hn St Hr) as (F & EF & T & _). injection EF as <-. exact (T O).
Qed.

Lemma b_shows cells n v f : 6 <= n -> shows cells n v f ->
  exists b, cols 3 6 v = Ok b /\ shows cells 3 b (fun x i => f x (3 + i)).
Proof.
  intros Hn Sf.
  assert (L : slice2 n 3 6 = [3; 4; 5]%nat).
  { unfold slice2, adjust_pos. cbn [Z.ltb Z.compare]. rewrite !Z.min_l by lia. reflexivity. }
  pose proof (yields_cols 3 6 v cells n f Sf) as (bb & Eb & Sb). rewrite L in Sb. cbn [length] in Sb.
  exists bb. split; [exact Eb|]. eapply shows_ext; [exact Sb|].
  intros x j Hx Hj. destruct j as [|[|[|j]]]; try lia; reflexivity.
Qed.

(** A ten-moment fluid and a field on the same cells, however they are given as
    long as there are lists of coordinates (one entry per axis of cells, or one
    more): the result is computed from the pressure tensor and components 3 to 5
    and is on the grid of the field. *)
Theorem C121_ten_moment f cells n s nf ff x y axes axes' v e :
  stands x (ListO axes) (ArrayO v) -> stands y (ListO axes') (ArrayO e) ->
  10 <= n -> stores cells n v (tenmoment_cons s) -> (forall z, in_range cells z -> 0 < rho s z)%R -> ones_first cells = true ->
  6 <= nf -> shows cells nf e ff ->
  length axes = length cells \/ length axes = S (length cells) ->
  length axes' = length cells \/ length axes' = S (length cells) ->
  exists p b, shows cells 6 p (tensor s) /\ shows cells 3 b (fun z i => ff z (3 + i)) /\
    tool_10m f x y = let* o := f p b in Ok (ListO axes', ArrayO o).
Proof.
  intros Sx Sy Hn St Hr O Hf Sf L L'.
  destruct (pij_shows cells n v s Hn St Hr O) as (p & Ep & Sp).
  destruct (b_shows cells nf e ff Hf Sf) as (b & Eb & Sb).
  exists p, b. split; [exact Sp|]. split; [exact Sb|].
  unfold tool_10m.
  assert (T : tool1 get_pij x = Ok (ListO axes, ArrayO p)) by (apply C121_tool; exists v, p; auto).
  rewrite T. cbn [bind].
  apply C121_accepts in Sy. rewrite Sy. cbn [bind as_array]. rewrite Eb. cbn [bind]. unfold tool2.
  assert (P1 : parse_input (TupleO [ListO axes; ArrayO p]) = Ok (ListO axes, ArrayO p))
    by (apply C121_accepts; constructor; exact (shows_fits _ _ _ _ _ Sp L)).
  assert (P2 : parse_input (TupleO [ListO axes'; ArrayO b]) = Ok (ListO axes', ArrayO b))
    by (apply C121_accepts; constructor; exact (shows_fits _ _ _ _ _ Sb L')).
  rewrite P1. cbn [bind]. rewrite P2. cbn [bind as_array]. reflexivity.
Qed.

(** In particular: where the magnetic field does not vanish the parallel pressure
    is [b.P.b / b.b] and it and twice the perpendicular one add up to the trace. *)
Theorem C121_pressures cells n s nf ff x y axes axes' v e :
  stands x (ListO axes) (ArrayO v) -> stands y (ListO axes') (ArrayO e) ->
  10 <= n -> stores cells n v (tenmoment_cons s) -> (forall z, in_range cells z -> 0 < rho s z)%R -> ones_first cells = true ->
  6 <= nf -> shows cells nf e ff -> (forall z, in_range cells z -> exists i, i < 3 /\ ff z (3 + i) <> 0%R) ->
  length axes = length cells \/ length axes = S (length cells) ->
  length axes' = length cells \/ length axes' = S (length cells) ->
  exists a b par perp, p_par_10m x y = Ok (ListO axes', ArrayO a) /\ p_perp_10m x y = Ok (ListO axes', ArrayO b) /\
    shows cells 1 a (fun z _ => par z) /\ shows cells 1 b (fun z _ => perp z) /\
    forall z, in_range cells z -> let B i := ff z (3 + i) in
      (par z * dot B B = quad (tensor_of (tensor s z)) B /\ par z + 2 * perp z = trace (tensor_of (tensor s z)))%R.
Proof.
  intros Sx Sy Hn St Hr O Hf Sf Nz L L'.
  destruct (C121_ten_moment get_p_par cells n s nf ff x y axes axes' v e Sx Sy Hn St Hr O Hf Sf L L') as (p & b & Sp & Sb & E).
  destruct (C121_ten_moment get_p_perp cells n s nf ff x y axes axes' v e Sx Sy Hn St Hr O Hf Sf L L') as (p' & b' & Sp' & Sb' & E').
  destruct (C40_decomposition cells 6 3 p b _ _ Sp Sb (le_n _) (le_n _) Nz) as (par & perp & (a1 & Y1 & S1) & (a2 & Y2 & S2) & D).
  assert (Ep : p' = p) by exact (shows_same _ _ _ _ _ Sp' Sp).
  assert (Eb : b' = b) by exact (shows_same _ _ _ _ _ Sb' Sb).
  subst p' b'.
  exists a1, a2, par, perp. unfold p_par_10m, p_perp_10m. rewrite E, E', Y1, Y2.
  split; [reflexivity|]. split; [reflexivity|]. split; [exact S1|]. split; [exact S2|]. intros z Hz. exact (D z Hz).
Qed.

(** Bare arrays are accepted by each of the steps, but not by the ten-moment
    diagnostics made of them: with the field or the species given as an array
    they always fail. *)
Theorem C121_ten_moment_array_refuted f x y :
  ((exists v, x = ArrayO v /\ exists p, get_pij v = Ok p) /\ (exists g e b, stands y g (ArrayO e) /\ cols 3 6 e = Ok b) \/
   (exists v g p, stands x g (ArrayO v) /\ get_pij v = Ok p) /\ (exists e b, y = ArrayO e /\ cols 3 6 e = Ok b)) ->
  exists err, tool_10m f x y = Err err /\ (err = TypeError \/ err = ValueError).
Proof.
  intros H. unfold tool_10m.
  assert (G : exists gx p gy e b, tool1 get_pij x = Ok (gx, ArrayO p) /\ parse_input y = Ok (gy, ArrayO e) /\ cols 3 6 e = Ok b /\
    (gx = TupleO [] \/ gy = TupleO [])).
  { destruct H as [[(v & -> & p & Ep) (g & e & b & S & Eb)] | [(v & g & p & S & Ep) (e & b & -> & Eb)]].
    - exists (TupleO []), p, g, e, b. split; [apply C121_tool; exists v, p; split; [constructor|auto]|].
      split; [now apply C121_accepts|]. auto.
    - exists g, p, (TupleO []), e, b. split; [apply C121_tool; exists v, p; auto|].
      split; [reflexivity|]. auto. }
  destruct G as (gx & p & gy & e & b & E1 & E2 & E3 & C). rewrite E1. cbn [bind]. rewrite E2. cbn [bind as_array]. rewrite E3. cbn [bind].
  unfold tool2. destruct (parse_input (TupleO [gx; ArrayO p])) as [[g1 v1]|e1] eqn:P1.
  - cbn [bind]. destruct C as [-> | ->]; [discriminate P1|]. exists TypeError. cbn. auto.
  - exists e1. split; [reflexivity|]. apply C121_error in P1. tauto.
Qed.

(** ** Examples *)

(** A grid of one axis and one value in it: every way of giving it. *)
Example ex_ways : let a := mk_nda [1; 3] [1; 2; 3]%R in let g := [ArrayO (mk_nda [1] [7]%R)] in
  stands (DataO (ListO g) (ArrayO a)) (ListO g) (ArrayO a) /\ stands (ArrayO a) (TupleO []) (ArrayO a) /\
  stands (TupleO [ListO g; ArrayO a]) (ListO g) (ArrayO a) /\ stands (ListO [ListO g; ArrayO a]) (ListO g) (ArrayO a) /\
  misfit (TupleO [ListO []; ArrayO a]) /\
  parse_input (TupleO [ListO []; ArrayO a]) = Err ValueError /\
  parse_input (TupleO [TupleO g; ArrayO a]) = Err TypeError /\
  parse_input (TupleO [ListO g; ArrayO a; OtherO]) = Err TypeError.
Proof.
  assert (F : fits [ArrayO (mk_nda [1] [7]%R)] (mk_nda [1; 3] [1; 2; 3]%R)) by (right; reflexivity).
  cbv zeta. repeat split; try constructor; try exact F.
  exists [], (mk_nda [1; 3] [1; 2; 3]%R). split; [|now left]. intros [H | H]; discriminate H.
Qed.

(** A chain of two tools: magnitude squared of the field read out of MHD data. *)
Example ex_chain : let g := ListO [ArrayO (mk_nda [1] [7]%R)] in let a := mk_nda [1; 8] [1; 2; 3; 4; 5; 6; 7; 8]%R in
  exists r w, tool1 get_mhd_Bi (DataO g (ArrayO a)) = Ok (g, r) /\ tool1 (mag_sq "0:3") (TupleO [g; r]) = Ok (g, ArrayO w).
Proof.
  eexists. eexists. split; vm_compute; reflexivity.
Qed.

(** One cell of the fluid of [C38_ex] in a field along z, given as a tuple and as
    a dataset: parallel pressure 5, the zz component, perpendicular 7/2. *)
Example ex_ten : let v := one_cell [2; 2; 4; -2; 5; 5; -2; 12; -5; 7]%R in let e := one_cell [0; 0; 0; 0; 0; 2; 0; 0]%R in
  let g := ListO [ArrayO (mk_nda [1] [7]%R)] in
  exists a b, p_par_10m (TupleO [g; ArrayO v]) (DataO g (ArrayO e)) = Ok (g, ArrayO a) /\ get a [0; 0] = Some 5%R /\
    p_perp_10m (TupleO [g; ArrayO v]) (DataO g (ArrayO e)) = Ok (g, ArrayO b) /\ get b [0; 0] = Some (7 / 2)%R.
Proof.
  intros v e g.
  assert (St : stores [1%nat] 10 v (tenmoment_cons ex_fluid)).
  { apply one_cell_stores; [reflexivity|]. intros x _. unfold tenmoment_cons, ex_fluid; cbn. repeat (f_equal; try lra). }
  assert (Se : exists f, shows [1%nat] 8 e f /\ forall x, in_range [1%nat] x -> forall i, i < 8 -> nth_error [0; 0; 0; 0; 0; 2; 0; 0]%R i = Some (f x i)).
  { exists (fun _ j => nth j [0; 0; 0; 0; 0; 2; 0; 0]%R 0%R). split; [apply one_cell_shows; reflexivity|].
    intros x _ i Hi. apply nth_error_nth'. exact Hi. }
  destruct Se as (f & Sf & Vf).
  assert (X0 : in_range [1%nat] [0]) by (repeat constructor; lia).
  destruct (C121_pressures [1%nat] 10 ex_fluid 8 f (TupleO [g; ArrayO v]) (DataO g (ArrayO e))
    [ArrayO (mk_nda [1] [7]%R)] [ArrayO (mk_nda [1] [7]%R)] v e) as (a & b & par & perp & E1 & E2 & S1 & S2 & D).
  - constructor. right. reflexivity.
  - constructor.
  - lia.
  - exact St.
  - intros z _. cbn. lra.
  - reflexivity.
  - lia.
  - exact Sf.
  - intros z Hz. exists 2. split; [lia|]. pose proof (Vf z Hz 5 ltac:(lia)) as H. cbn in H. injection H as H. cbn. rewrite <- H. lra.
  - left. reflexivity.
  - left. reflexivity.
  - exists a, b. split; [exact E1|]. destruct (D [0] X0) as [D1 D2].
    pose proof (Vf [0] X0 3 ltac:(lia)) as H3. pose proof (Vf [0] X0 4 ltac:(lia)) as H4. pose proof (Vf [0] X0 5 ltac:(lia)) as H5.
    cbn in H3, H4, H5. injection H3 as H3. injection H4 as H4. injection H5 as H5.
    unfold dot, quad, trace, sum3, tensor_of, place, tensor in D1, D2. cbn in D1, D2. rewrite <- H3, <- H4, <- H5 in D1.
    destruct S1 as (_ & _ & V1). destruct S2 as (_ & _ & V2).
    pose proof (V1 [0] 0 X0 ltac:(lia)) as G1. pose proof (V2 [0] 0 X0 ltac:(lia)) as G2. cbn [app] in G1, G2.
    split; [rewrite G1; f_equal; lra|]. split; [exact E2|]. rewrite G2. f_equal. lra.
Qed.

(** The same with the fluid given as a bare array fails. *)
Example ex_ten_array : let v := one_cell [2; 2; 4; -2; 5; 5; -2; 12; -5; 7]%R in let e := one_cell [0; 0; 0; 0; 0; 2; 0; 0]%R in
  let g := ListO [ArrayO (mk_nda [1] [7]%R)] in
  (exists o, tool1 get_pij (ArrayO v) = Ok o) /\ exists err, p_par_10m (ArrayO v) (DataO g (ArrayO e)) = Err err.
Proof.
  intros v e g. destruct C38_ex as (p & Ep & _). fold v in Ep.
  assert (Eb : exists b, cols 3 6 e = Ok b) by (eexists; vm_compute; reflexivity). destruct Eb as (b & Eb).
  split.
  - exists (TupleO [], ArrayO p). apply C121_tool. exists v, p. split; [constructor|auto].
  - destruct (C121_ten_moment_array_refuted get_p_par (ArrayO v) (DataO g (ArrayO e))) as (err & E & _).
    + left. split; [exists v; split; [reflexivity|exists p; exact Ep]|]. exists g, e, b. split; [constructor|exact Eb].
    + exists err. exact E.
Qed.

Print Assumptions C121_accepts.
Print Assumptions C121_pressures.
Print Assumptions C121_ten_moment_array_refuted.
