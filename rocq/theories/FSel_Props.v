(** * C128: selecting by coordinate from a file of doubles *)
From Coq Require Import String Ascii List Arith ZArith QArith Qreals Reals Bool Lia Lra Sorted.
From Flocq Require Import Core.
From Verif Require Import Prelude PreludeFacts NdArray GData_Model Select_Model Select_Spec Select_Proofs Select_Props
  Gkyl_Model Gkyl_Spec Gkyl_Proofs Gkyl_Proofs2 Gkyl_Proofs3 Gkyl_Props Part_Proofs Pipe_Model
  Float_Model Float_Props FloatQ_Model FloatQ_Props FGrid_Model FGrid_Spec FGrid_Proofs FGrid_Props FSel_Model.
Import ListNotations.
Open Scope list_scope. Open Scope R_scope.

(** ** The grid on rational numbers is the grid of C127 *)
Definition rdec (dec : nat -> list Z -> Q) : nat -> list Z -> R := fun w b => Q2R (dec w b).

Lemma linspace_rational dec lo up n : (Z.of_nat n <= 2 ^ 53)%Z ->
  List.map Q2R (linspace (qdnum dec) lo up n) = linspace (dnum (rdec dec)) (Q2R lo) (Q2R up) n.
Proof.
  intros Hn. destruct n as [|n]; [reflexivity|]. unfold linspace, qdnum, dnum. cbn [fadd fsub fmul fdiv fofZ].
  assert (Hz : ~ (qfl (inject_Z (Z.of_nat (S n))) == 0)%Q).
  { intros C. apply Qeq_eqR in C. rewrite C112_rounding, Q2R_inject, fl_nat in C by exact Hn.
    assert (P : 0 < INR (S n)) by (apply lt_0_INR; lia). unfold Q2R in C. cbn [Qnum Qden] in C. lra. }
  rewrite map_app, map_map. cbn [List.map]. f_equal. apply map_ext. intros i.
  rewrite C112_rounding, Q2R_plus, C112_rounding, Q2R_mult, !C112_rounding, Q2R_div, !C112_rounding, Q2R_minus, !Q2R_inject by exact Hz. reflexivity.
Qed.

Lemma ascending_increasing l : strictly_ascending (List.map Q2R l) -> increasing l.
Proof.
  intros H. unfold increasing. induction l as [|q l IH]; constructor.
  - apply IH. intros i j x y L Hx Hy. apply (H (S i) (S j) x y); [lia|exact Hx|exact Hy].
  - apply List.Forall_forall. intros y Hy. apply In_nth_error in Hy as (j & Hj). apply Rlt_Qlt.
    apply (H 0%nat (S j) (Q2R q) (Q2R y)); [lia|reflexivity|]. cbn [List.map nth_error]. rewrite nth_error_map, Hj. reflexivity.
Qed.

(** ** A coordinate as a number or as a text *)
Definition coordinate (pfloat : string -> option Q) (z : ival) (x : Q) : Prop :=
  z = VFloat x \/ exists s, z = VStr s /\ is_digits s = false /\ has_char "," s = false /\ has_char ":" s = false /\ pfloat s = Some x.

Lemma mapM_ext {A B} (f g : A -> res B) l : (forall a, In a l -> f a = g a) -> mapM f l = mapM g l.
Proof.
  induction l as [|a l IH]; intros H; [reflexivity|]. cbn [mapM]. rewrite (H a) by now left. rewrite IH; [reflexivity|]. intros b Hb. apply H. now right.
Qed.
Lemma coordinate_parsed pfloat z x a nodal : coordinate pfloat z x -> idx_parser pfloat z a nodal = idx_parser pfloat (VFloat x) a nodal.
Proof.
  intros [->|(s & -> & H1 & H2 & H3 & H4)]; [reflexivity|]. rewrite parse_plain by auto. unfold string_to_index. rewrite H1, H4. reflexivity.
Qed.
Lemma coordinate_selected {A} pfloat (d : gdata A) k z x : coordinate pfloat z x ->
  select pfloat d (repeat None k ++ [Some z]) None false = select pfloat d (repeat None k ++ [Some (VFloat x)]) None false.
Proof.
  intros H. unfold select. destruct (g_grid d) as [grid|]; [|reflexivity]. destruct (g_vals d) as [v|]; [|reflexivity].
  destruct (get_bounds d) as [b|e]; [|reflexivity]. cbn [bind]. destruct (length (shape v) <=? get_num_dims d)%nat; [reflexivity|].
  destruct grid as [|g0 grid]; [reflexivity|]. cbv zeta.
  rewrite (mapM_ext _ (fun k0 =>
                match nth_error (repeat None k ++ [Some (VFloat x)]) k0 with
                | Some (Some z) =>
                    let* gd := nth_res (g0 :: grid) k0 in
                    let* vlen := nth_res (shape v) k0 in
                    let* len_grid := nth_res (shape gd) (if (length (shape g0) =? 1)%nat then 0%nat else k0) in
                    let* s := axis_slices pfloat z gd len_grid vlen in
                    Ok (fst s, Some (snd s))
                | _ =>
                    let* vlen := nth_res (shape v) k0 in
                    if (length (shape g0) =? 1)%nat then Ok ((0, Z.of_nat vlen)%Z, None)
                    else let* gd := nth_res (g0 :: grid) k0 in
                         let* n := nth_res (shape gd) k0 in
                         Ok ((0, Z.of_nat vlen)%Z, Some (0, Z.of_nat n)%Z)
                end)); [reflexivity|].
  intros j _. destruct (Nat.lt_trichotomy j k) as [L|[->|L]].
  - rewrite !nth_error_app1 by (rewrite repeat_length; lia). reflexivity.
  - rewrite !nth_error_app2 by (rewrite repeat_length; lia). rewrite repeat_length, Nat.sub_diag. cbn [nth_error].
    unfold axis_slices. destruct (nth_res (g0 :: grid) k); [|reflexivity]. cbn [bind]. destruct (nth_res (shape v) k); [|reflexivity]. cbn [bind].
    destruct (nth_res (shape _) _); [|reflexivity]. cbn [bind]. rewrite (coordinate_parsed pfloat z x) by assumption. reflexivity.
  - rewrite !nth_error_app2 by (rewrite repeat_length; lia). rewrite repeat_length.
    destruct (j - k)%nat as [|m] eqn:E; [lia|]. cbn [nth_error]. reflexivity.
Qed.

(** ** Theorems *)
Lemma edge_step lo up n i : edge lo up n (S i) = edge lo up n i + (up - lo) / INR n.
Proof. unfold edge. rewrite S_INR. ring. Qed.
Lemma edge_le lo up n i j : lo <= up -> (0 < n)%nat -> (i <= j)%nat -> edge lo up n i <= edge lo up n j.
Proof.
  intros H Hn L. unfold edge. apply le_INR in L. assert (0 <= (up - lo) / INR n) by (apply Rmult_le_pos; [lra|left; apply Rinv_0_lt_compat, lt_0_INR; lia]). nra.
Qed.

Theorem C128_select : forall M dec unp (mtrue : M) pfloat rt meta fd f ctx k n bl bu z x,
  good_field rt (width_of rt) meta fd -> meta_readable unp meta -> stores rt meta fd f ->
  (0 < fd_nc fd)%nat -> List.Forall (fun n => (0 < n)%nat) (fd_cells fd) -> (length (fd_cells fd) <= 6)%nat ->
  nth_error (fd_cells fd) k = Some n -> nth_error (fd_lower fd) k = Some bl -> nth_error (fd_upper fd) k = Some bu ->
  coordinate pfloat z x ->
  let lo := Q2R (dec (width_of rt) bl) in let up := Q2R (dec (width_of rt) bu) in let e := slack lo up in
  spaced lo up n -> 2 * e < (up - lo) / INR n ->
  exists i a b gout vout, select_at dec unp mtrue pfloat f ctx k z = Ok (gout, vout) /\ (i < n)%nat /\
    (lo <= Q2R x <= up -> edge lo up n i - e <= Q2R x <= edge lo up n (S i) + e) /\
    (forall j, (j < n)%nat -> edge lo up n j + e < Q2R x <= edge lo up n (S j) - e -> i = j) /\
    (Q2R x <= lo -> i = 0%nat) /\ (up < Q2R x -> S i = n) /\
    nth_error gout k = Some (line [a; b]) /\ Rabs (Q2R a - edge lo up n i) <= e /\ Rabs (Q2R b - edge lo up n (S i)) <= e /\
    nth_error (shape vout) k = Some 1%nat /\
    (forall idx w, nth_error idx k = Some 0%nat -> get vout idx = Some w ->
       get (mk_nda (fd_cells fd ++ [fd_nc fd]) (List.map (dec (width_of rt)) (fd_data fd))) (set_nth k i idx) = Some w).
Proof.
  intros M dec unp mtrue pfloat rt meta fd f ctx k n bl bu z x Hg Hm Hs Hnc Hpos H6 Hk Hl Hu Hz lo up e Sp He.
  destruct (C02_documented_file Q M (qdnum dec) unp mtrue rt meta fd ctx Hg Hm) as (_ & g & E & Ec & En & Lo & Up & Sh & Fl & _ & Ln & Gr).
  pose proof Hg as ((_ & Hll & Hlu & _) & _ & Hlen).
  set (ql := dec (width_of rt) bl) in *. set (qu := dec (width_of rt) bu) in *.
  assert (Hd : open_doubles dec unp mtrue f ctx = Ok (of_loaded g)).
  { unfold open_doubles. rewrite (stores_compatible rt meta fd f Hs), (stores_whole (qdnum dec) unp mtrue rt meta fd f Hg Hm Hs ctx Hnc Hpos). cbv zeta in E. rewrite E. reflexivity. }
  assert (Kl : (k < length (fd_cells fd))%nat) by (apply nth_error_Some; congruence).
  assert (Gk : nth_error (l_grid g) k = Some (linspace (qdnum dec) ql qu n)).
  { apply Gr; [exact Hk| |]; [rewrite Lo|rewrite Up]; rewrite nth_error_map; [rewrite Hl|rewrite Hu]; reflexivity. }
  assert (Rd : rect_data (of_loaded g) (l_grid g) (l_data g) (fd_cells fd) (fd_nc fd)).
  { assert (Nt : match l_lower g, l_cells g with [], _ :: _ => true | _, _ => false end = false).
    { rewrite Lo. destruct (fd_lower fd) as [|? ?]; [cbn [length] in Hll; lia|]. reflexivity. }
    constructor; unfold of_loaded; cbn [g_grid g_vals c_cells c_ncomps]; rewrite ?Nt; try reflexivity.
    - rewrite Ec, map_map. f_equal. rewrite <- (map_id (fd_cells fd)) at 2. apply map_ext. intros a. apply Nat2Z.id.
    - rewrite En, Nat2Z.id. reflexivity.
    - eexists. unfold get_bounds. cbn [g_grid]. reflexivity.
    - unfold wf. rewrite Fl, Sh, map_length, Hlen, prod_app. cbn. lia.
    - exact Sh.
    - intros C. rewrite C in Kl. cbn in Kl. lia.
    - apply Forall2_nth_error_intro; [lia|]. intros j m l Hj Hlj. left. unfold edges_of.
      assert (Lj : (j < length (fd_cells fd))%nat) by (apply nth_error_Some; congruence).
      destruct (nth_error (l_lower g) j) as [a|] eqn:Ea.
      2:{ apply nth_error_None in Ea. rewrite Lo, map_length in Ea. lia. }
      destruct (nth_error (l_upper g) j) as [b|] eqn:Eb.
      2:{ apply nth_error_None in Eb. rewrite Up, map_length in Eb. lia. }
      rewrite (Gr j m a b Hj Ea Eb) in Hlj. injection Hlj as <-. apply linspace_length. }
  pose proof Sp as (_ & _ & Hn1 & Hn2 & _).
  assert (Eq : List.map Q2R (linspace (qdnum dec) ql qu n) = np_linspace lo up n).
  { rewrite linspace_rational by lia. now apply same_formula. }
  destruct (C127_linspace lo up n Sp) as (F0 & F1 & _ & Nr & Near). pose proof (C127_strict lo up n Sp He) as St.
  assert (Inc : increasing (linspace (qdnum dec) ql qu n)) by (apply ascending_increasing; rewrite Eq; exact St).
  assert (Lg : edges_of n (linspace (qdnum dec) ql qu n)) by apply linspace_length.
  destruct (C09_select_coordinate pfloat Q (of_loaded g) (l_grid g) (l_data g) (fd_cells fd) (fd_nc fd) k n _ x Rd Hk Gk Lg Hn1 Inc)
    as (i & a & b & gout & vout & Hc & Ha & Hb & Hsel & Hgo & Hsh & Hval).
  assert (Li : (i < n)%nat).
  { assert (S i < length (linspace (qdnum dec) ql qu n))%nat by (apply nth_error_Some; congruence). rewrite Lg in H. lia. }
  assert (T : forall j q, nth_error (linspace (qdnum dec) ql qu n) j = Some q -> nth_error (np_linspace lo up n) j = Some (Q2R q)).
  { intros j q Hq. rewrite <- Eq, nth_error_map, Hq. reflexivity. }
  pose proof (Near _ _ (T _ _ Ha)) as (Ba & Na). pose proof (Near _ _ (T _ _ Hb)) as (Bb & Nb). fold e in Na, Nb.
  pose proof (spaced_lt _ _ _ Sp) as Lt.
  (* what the chosen cell means for its rounded edges *)
  assert (In' : (Q2R a < Q2R x \/ i = 0%nat) /\ (Q2R x <= Q2R b \/ S i = n)).
  { destruct Hc as [lo' hi' C1 C2 C3 C4|lo' C1 C2 C3|hi' C1 C2 C3].
    - rewrite Ha in C1. injection C1 as <-. rewrite Hb in C2. injection C2 as <-. split; left; [now apply Qlt_Rlt|now apply Qle_Rle].
    - subst i. rewrite Ha in C1. injection C1 as <-. split; [now right|left]. apply Qle_Rle in C2.
      pose proof (St 0%nat 1%nat _ _ ltac:(lia) (T _ _ Ha) (T _ _ Hb)). lra.
    - rewrite Hb in C1. injection C1 as <-. split; [|right; rewrite Lg in C2; lia]. left. apply Qlt_Rlt in C3.
      pose proof (St i (S i) _ _ ltac:(lia) (T _ _ Ha) (T _ _ Hb)). lra. }
  destruct In' as (InA & InB). apply Rabs_le_inv in Na as Na'. apply Rabs_le_inv in Nb as Nb'.
  assert (E0 : edge lo up n 0 = lo) by (unfold edge; cbn [INR]; ring).
  assert (E1 : edge lo up n n = up) by (unfold edge; field; assert (0 < INR n) by (apply lt_0_INR; lia); lra).
  assert (Pe : 0 <= e) by (apply slack_pos; lra).
  exists i, a, b, gout, vout.
  split; [unfold select_at; rewrite Hd; cbn [bind]; rewrite (coordinate_selected pfloat (of_loaded g) k z x Hz), Hsel; reflexivity|].
  split; [exact Li|].
  split.
  { intros (X0 & X1). split; [destruct InA as [A| ->]; [lra|rewrite E0; lra]|destruct InB as [B|B]; [lra|rewrite B, E1; lra]]. }
  split.
  { intros j Lj (X0 & X1). destruct (Nat.lt_trichotomy i j) as [L|[->|L]]; [exfalso|reflexivity|exfalso].
    - destruct InB as [B|B]; [|lia]. pose proof (edge_le lo up n (S i) j ltac:(lra) ltac:(lia) ltac:(lia)). lra.
    - destruct InA as [A|A]; [|lia]. pose proof (edge_le lo up n (S j) i ltac:(lra) ltac:(lia) ltac:(lia)). lra. }
  split.
  { intros X. destruct InA as [A|A]; [|exact A]. exfalso. lra. }
  split.
  { intros X. destruct InB as [B|B]; [|exact B]. exfalso. lra. }
  split; [exact Hgo|]. split; [exact Na|]. split; [exact Nb|]. split; [exact Hsh|].
  intros idx w H0 Hw. rewrite <- (Hval idx w H0 Hw). f_equal. destruct (l_data g) as [s fl']. cbn [shape flat] in *. rewrite Sh, Fl. reflexivity.
Qed.
Print Assumptions C128_select.

(** Of ten cells from 0 to 1, the double above 7/10 is in cell 7; the cell selected is 6. *)
Definition tenth_q (_ : nat) (b : list Z) : Q := inject_Z (le_val b).
Definition above : Q := qfl (7 * qfl (1 # 10)).
Theorem C128_exact_refuted : exists gout vout a b,
  (7 # 10 < above /\ above <= 8 # 10)%Q /\
  select_at tenth_q ex_unpack 1%Z (fun _ => None) (field_bytes 2 [] tenth_fd) [] 0 (VFloat above) = Ok (gout, vout) /\
  gout = [line [a; b]] /\ (a < 61 # 100 /\ b <= above)%Q.
Proof.
  do 4 eexists. split; [split; vm_compute; congruence|]. split; [vm_compute; reflexivity|]. split; [reflexivity|]. split; vm_compute; congruence.
Qed.
Print Assumptions C128_exact_refuted.

(** Concrete inputs: the coordinate 1/4 as text, in the file of ten cells. *)
Example C128_hyps : coordinate (fun s => if String.eqb s "0.25" then Some (1 # 4)%Q else None) (VStr "0.25") (1 # 4) /\
  Q2R (tenth_q 8 (d8 0)) = 0 /\ Q2R (tenth_q 8 (d8 1)) = 1 /\ spaced 0 1 10 /\ 2 * slack 0 1 < (1 - 0) / INR 10.
Proof.
  split; [right; exists "0.25"%string; repeat split|].
  split; [exact (Q2R_inject 0)|]. split; [exact (Q2R_inject 1)|]. destruct C127_hyps as (S & H & _). split; [exact S|].
  assert (0 < (1 - 0) / INR 10) by (replace (INR 10) with 10 by (cbn; lra); lra). lra.
Qed.
Example C128_example : exists gout vout,
  select_at tenth_q ex_unpack 1%Z (fun s => if String.eqb s "0.25" then Some (1 # 4)%Q else None) (field_bytes 2 [] tenth_fd) [] 0 (VStr "0.25") = Ok (gout, vout) /\
  List.map (fun g => List.map Qred (flat g)) gout = [[3602879701896397 # 18014398509481984; 1351079888211149 # 4503599627370496]]%Q.
Proof. do 2 eexists. split; [vm_compute; reflexivity|]. vm_compute. reflexivity. Qed.
