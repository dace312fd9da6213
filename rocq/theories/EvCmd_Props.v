(** * C80, C81 and C82: the ev commands grad2, scale_comp and scale_zi_axis *)
From Coq Require Import String Ascii List Arith ZArith QArith Bool Lia Reals Lra.
From Verif Require Import Prelude PreludeFacts NdArray Sort GData_Model Select_Model Select_Proofs DataSpace_Spec DataSpace_Proofs
  Ev_Model Ev_Arith Tools_Arr Calc_Model Calc_Spec Calc_Proofs Calc_Props Calc_Props2 Calc_Props3 EvCmd_Model.
Import ListNotations.
Open Scope list_scope.
Open Scope nat_scope.

(** ** C80: grad2 *)

(** The axes an argument names, in order. *)
Inductive names_axes : ax_arg -> list nat -> Prop :=
| na_number k : names_axes (ANum (inject_Z (Z.of_nat k))) [k]
| na_list ks : ks <> [] -> names_axes (AText (join "," (List.map (fun k => show_Z (Z.of_nat k)) ks))) ks
| na_range a b : names_axes (AText (show_Z (Z.of_nat a) ++ ":" ++ show_Z (Z.of_nat b))) (seq a (b - a)).

Lemma axes_read a ks : names_axes a ks -> grad2_axes a = Ok (List.map Z.of_nat ks).
Proof.
  intros [k|l Hl|x y]; cbn [grad2_axes].
  - unfold qtrunc. cbn [inject_Z Qplus Qnum Qden]. rewrite !Z.mul_1_r. cbn [Pos.mul]. rewrite !Z.quot_1_r.
    unfold zrange. replace (Z.of_nat k + 1 - Z.of_nat k)%Z with 1%Z by lia. change (Z.to_nat 1) with 1. cbn [seq List.map].
    now rewrite Z.add_0_r.
  - assert (F : forall c, c = ","%char \/ c = ":"%char -> Forall (fun s => has_char c s = false) (List.map (fun k => show_Z (Z.of_nat k)) l)).
    { intros c Hc. apply Forall_forall. intros s Hs. apply in_map_iff in Hs as (z & <- & _). now apply show_Z_no. }
    rewrite (has_char_join ":" ","); [|discriminate|now apply F; right].
    rewrite (split_join ","); [|destruct l; [congruence|discriminate]|now apply F; left].
    rewrite <- (map_map Z.of_nat show_Z). apply mapM_py_int.
  - rewrite has_char_app. cbn [String.append has_char]. rewrite Ascii.eqb_refl, orb_true_r.
    rewrite split_on_app, split_on_none by (apply show_Z_no; auto). rewrite !py_int_show_Z. cbn [bind]. f_equal.
    unfold zrange. replace (Z.to_nat (Z.of_nat y - Z.of_nat x)) with (y - x) by lia.
    replace (seq x (y - x)) with (List.map (fun k => x + k) (seq 0 (y - x))).
    + rewrite map_map. apply map_ext. intros k. lia.
    + generalize (y - x). intros n. clear. revert x. induction n as [|n IH]; intros x; [reflexivity|].
      cbn [seq List.map]. f_equal; [lia|]. rewrite <- (IH (S x)), <- seq_shift, map_map. apply map_ext. intros; lia.
Qed.

(** Component [j] of the result, [j = p * nc + c], is the derivative of
    component [c] along the [p]-th axis named; the grid is kept. *)
Theorem C80_grad2 a ks grid v cells nc f :
  names_axes a ks -> (forall k, In k ks -> k < length cells) ->
  cell_grid grid cells -> shows cells nc v f -> 0 < nc ->
  exists w, ev_grad2 a (grid, v) = Ok (grid, w) /\
    shows cells (nc * length ks) w (fun x j => partial_d grid cells (nth (j / nc) ks 0) (fun y => f y (j mod nc)) x).
Proof.
  intros Ha Hks [Lg G] Sv Pc. pose proof Sv as (W & Sh & V). unfold ev_grad2. cbn [fst snd].
  rewrite (axes_read _ _ Ha). cbn [bind]. rewrite Sh, last_snoc, removelast_snoc, map_length.
  enough (K : forall todo done out, ks = done ++ todo ->
    shows cells (nc * length ks) out (fun x j => if j <? length done * nc then partial_d grid cells (nth (j / nc) ks 0) (fun y => f y (j mod nc)) x else 0%R) ->
    yields (grad2_loop grid v nc (length done) (List.map Z.of_nat todo) out) cells (nc * length ks)
      (fun x j => partial_d grid cells (nth (j / nc) ks 0) (fun y => f y (j mod nc)) x)).
  { destruct (K ks [] (zeros (cells ++ [nc * length ks])) eq_refl) as (w & E & Sw).
    { eapply shows_ext; [apply shows_zeros|]. intros x j Hx Hj. reflexivity. }
    cbn [length] in E. exists w. rewrite E. split; [reflexivity|exact Sw]. }
  induction todo as [|d todo IH]; intros done out Ek So.
  - rewrite app_nil_r in Ek. subst done. exists out. split; [reflexivity|]. eapply shows_ext; [exact So|]. intros x j Hx Hj. cbv beta.
    destruct (Nat.ltb_spec j (length ks * nc)); [reflexivity|]. nia.
  - assert (Hd : d < length cells) by (apply Hks; rewrite Ek; apply in_or_app; right; now left).
    assert (Nd : nth (length done) ks 0 = d) by (rewrite Ek, app_nth2, Nat.sub_diag by lia; reflexivity).
    assert (Ll : S (length done) <= length ks) by (rewrite Ek, app_length; cbn [length]; lia).
    cbn [List.map grad2_loop]. unfold Calc_Model.at_.
    rewrite (norm_index_is (length grid) (Z.of_nat d) d) by (unfold from_end; destruct (Z.ltb_spec (Z.of_nat d) 0); lia).
    cbn [bind]. rewrite (nth_error_nth' grid []) by lia. cbn [bind].
    unfold norm_axis. rewrite (norm_index_is (length (shape v)) (Z.of_nat d) d)
      by (rewrite ?Sh, ?app_length; cbn [length]; unfold from_end; destruct (Z.ltb_spec (Z.of_nat d) 0); lia).
    cbn [bind]. destruct (G d Hd) as (Lc & N & I).
    eapply yields_bind; [apply shows_gradient; [exact Sv|lia|exact Lc|exact N|exact I]|]. intros g Sg.
    replace ((length done + 1) * nc) with (length done * nc + nc) by lia.
    eapply yields_bind; [apply yields_set_cols; [exact Sg|exact So|nia]|]. intros out' So'.
    replace (S (length done)) with (length (done ++ [d])) by (rewrite app_length; cbn; lia).
    apply IH; [rewrite Ek, <- app_assoc; reflexivity|]. rewrite app_length. cbn [length]. eapply shows_ext; [exact So'|].
    intros x j Hx Hj. cbv beta. set (p := length done) in *.
    destruct (Nat.leb_spec (p * nc) j) as [L1|L1]; cbn [andb].
    + destruct (Nat.ltb_spec j (p * nc + nc)) as [L2|L2].
      * destruct (Nat.ltb_spec j ((p + 1) * nc)); [|lia]. unfold partial_d.
        assert (Q : j / nc = p) by (symmetry; apply Nat.div_unique with (j - p * nc); lia).
        assert (M : j mod nc = j - p * nc) by (symmetry; apply Nat.mod_unique with p; lia).
        rewrite Q, M, Nd. reflexivity.
      * destruct (Nat.ltb_spec j (p * nc)); [lia|]. destruct (Nat.ltb_spec j ((p + 1) * nc)); [lia|reflexivity].
    + destruct (Nat.ltb_spec j (p * nc)); [|lia]. destruct (Nat.ltb_spec j ((p + 1) * nc)); [reflexivity|lia].
Qed.

(** Naming all axes in order gives what grad gives. *)
Theorem C80_all_axes a grid v cells nc f :
  names_axes a (seq 0 (length cells)) -> cell_grid grid cells -> shows cells nc v f -> 0 < nc ->
  exists w w', ev_grad2 a (grid, v) = Ok (grid, w) /\ ev_grad (grid, v) = Ok (grid, w') /\ w = w'.
Proof.
  intros Ha CG Sv Pc. destruct (C80_grad2 a _ grid v cells nc f Ha) as (w & E & Sw); auto; [intros k Hk; apply in_seq in Hk; lia|].
  destruct (C60_grad grid v cells nc f CG Sv Pc) as (w' & E' & Sw'). exists w, w'. split; [exact E|]. split; [exact E'|].
  rewrite seq_length in Sw. destruct Sw as (W1 & S1 & V1). destruct Sw' as (W2 & S2 & V2). apply nda_ext; auto; [congruence|].
  intros idx Hi. rewrite S1 in Hi. apply in_range_snoc_inv in Hi as (x & j & -> & Hx & Hj). rewrite V1, V2 by auto.
  f_equal. rewrite seq_nth; [reflexivity|]. apply Nat.div_lt_upper_bound; lia.
Qed.

(** A text that leaves out a bound is refused. *)
Theorem C80_open_range n s : grad2_axes (AText (show_Z n ++ ":")) = Err ValueError /\
  (has_char ":" s = false -> grad2_axes (AText (":" ++ s)) = Err ValueError).
Proof.
  split.
  - cbn [grad2_axes]. rewrite has_char_app. change (has_char ":" ":") with true. rewrite orb_true_r.
    rewrite split_on_app by (apply show_Z_no; auto). cbn [split_on]. rewrite py_int_show_Z. reflexivity.
  - intros H. cbn [grad2_axes String.append has_char split_on]. rewrite Ascii.eqb_refl, split_on_none by exact H. reflexivity.
Qed.

(** A negative number counts coordinates from the last dimension but array axes
    from the components: with as many components as cells the components are
    differentiated.  Here each component is constant in space. *)
Theorem C80_negative_refuted :
  exists grid v w, cell_grid grid [3] /\ shows [3] 3 v (fun _ c => INR c) /\
    ev_grad2 (ANum (-1)) (grid, v) = Ok (grid, w) /\
    partial_d grid [3] 0 (fun _ => INR 1) [1] = 0%R /\ get w [1; 1] = Some 1%R.
Proof.
  set (g := [0; 1; 2; 3]%R). set (v := tabulate [3; 3] (fun idx => INR (last idx 0))).
  assert (Ig : increasing g).
  { intros k Hk. cbn [length g] in Hk. destruct k as [|[|[|k]]]; cbn; try lra. lia. }
  assert (Hv : holds [3; 3] v (fun idx => INR (last idx 0))).
  { apply holds_tab. }
  destruct (holds_gradient 1 v g [3; 3] _ Hv) with (4 := Ig) as (w & E & Hw); [cbn; lia|reflexivity|cbn; lia|].
  cbn [nth] in Hw.
  assert (So : shows [3] 3 (zeros [3; 3]) (fun _ _ => 0%R)) by apply (shows_zeros [3] 3).
  assert (Sw : shows [3] 3 w (fun x j => slope (centre g) 3 (fun k => INR (last (set_nth 1 k (x ++ [j])) 0)) (nth 1 (x ++ [j]) 0))).
  { apply (holds_shows [3] 3) in Hw. exact Hw. }
  destruct (yields_set_cols 0 3 w (zeros [3; 3]) [3] 3 _ _ Sw So) as (w' & E' & Sw'); [lia|].
  exists [g], v, w'. split.
  { split; [reflexivity|]. intros a Ha. cbn [length] in Ha. assert (a = 0) by lia. subst a. cbn [nth]. split; [reflexivity|]. split; [cbn; lia|exact Ig]. }
  split.
  { apply (holds_shows [3] 3) in Hv. eapply (shows_ext [3] 3); [exact Hv|]. intros x j _ _. cbv beta. now rewrite last_snoc. }
  split.
  { unfold ev_grad2. cbn [fst snd]. change (grad2_axes (ANum (-1))) with (@Ok (list Z) [(-1)%Z]). cbn [bind].
    change (shape v) with [3; 3]. cbn [last removelast app length Nat.mul]. cbn [grad2_loop].
    change (Calc_Model.at_ [g] (-1)) with (@Ok (list R) g). cbn [bind]. change (norm_axis (length (shape v)) (-1)) with (@Ok nat 1). cbn [bind].
    rewrite E. cbn [bind]. match goal with |- context[set_cols ?a ?b w ?z] => change (set_cols a b w z) with (set_cols 0 (0 + 3) w (zeros [3; 3])) end. rewrite E'. reflexivity. }
  split.
  { unfold partial_d, slope, near, parabola_slope, centre. cbn. field. }
  destruct Sw' as (_ & _ & V). change [1; 1] with ([1] ++ [1]). rewrite V; [|repeat constructor|lia]. f_equal. cbn.
  unfold slope, near, parabola_slope, centre, g. cbn. field.
Qed.

Example C80_ex :
  names_axes (AText "1,0") [1; 0] /\ names_axes (AText "0:2") [0; 1] /\
  cell_grid [[0; 1; 2; 3]; [0; 2; 4; 6; 8]]%R [3; 4].
Proof.
  split; [apply (na_list [1; 0]); discriminate|]. split; [apply (na_range 0 2)|]. split; [reflexivity|].
  intros [|[|a]] Ha; cbn [length] in Ha; [| |lia]; (split; [reflexivity|]; split; [cbn; lia|]); intros k Hk; cbn [nth length] in Hk |- *.
  - destruct k as [|[|[|k]]]; cbn; try lra; lia.
  - destruct k as [|[|[|[|k]]]]; cbn; try lra; lia.
Qed.

(** ** C81: scale_comp *)
Section ScaleComp.
  Context (pfloat : string -> option Q).
  Local Open Scope Q_scope.

  Definition one_number (q : Q) : Ev_Model.val := VArr (mk_nda [] [q]).

  (** The components a specification names out of [n], in order. *)
  Inductive names_comps (n : nat) : Ev_Model.val -> list nat -> Prop :=
  | nc_number z p : (0 <= from_end n z < Z.of_nat n)%Z -> Z.of_nat p = from_end n z ->
      names_comps n (one_number (inject_Z z)) [p]
  | nc_list ks : (1 < length ks)%nat -> Forall (fun k => (k < n)%nat) ks ->
      names_comps n (Ev_Model.VStr (join "," (List.map (fun k => show_N (N.of_nat k)) ks))) ks
  | nc_range a b : (a <= n)%nat ->
      names_comps n (Ev_Model.VStr (show_N (N.of_nat a) ++ ":" ++ show_N (N.of_nat b))) (seq a (Nat.min b n - a))
  | nc_upto b : names_comps n (Ev_Model.VStr (":" ++ show_N (N.of_nat b))) (seq 0 (Nat.min b n)).

  Lemma get_mul ps q v idx : in_range (shape v) idx ->
    get (mul_comps ps q v) idx = Some (if existsb (Nat.eqb (last idx 0%nat)) ps then Ev_Arith.at_ v idx * q else Ev_Arith.at_ v idx).
  Proof. intros H. unfold mul_comps. rewrite get_tabulate by exact H. reflexivity. Qed.

  (** [times k q x] is [x] multiplied [k] times by [q]. *)
  Definition times (k : nat) (q x : Q) : Q := Nat.iter k (fun y => y * q) x.

  Lemma iter_in k q x : times k q (x * q) = times (S k) q x.
  Proof. induction k as [|k IH]; [reflexivity|]. change (times (S k) q (x * q)) with (times k q (x * q) * q). now rewrite IH. Qed.

  Lemma scale_each_ok q ks v cc n :
    shape v = (cc ++ [n])%list -> wf v -> Forall (fun p => exists z, snd p = z /\ norm_index n z = Ok (fst p)) ks ->
    exists w, scale_each (List.map snd ks) q v = Ok w /\ wf w /\ shape w = shape v /\
      forall idx, in_range (shape v) idx -> get w idx = Some (times (count_occ Nat.eq_dec (List.map fst ks) (last idx 0%nat)) q (Ev_Arith.at_ v idx)).
  Proof.
    intros Sh. revert v Sh. induction ks as [|[p z] ks IH]; intros v Sh W F; cbn [List.map scale_each].
    - exists v. split; [reflexivity|]. split; [exact W|]. split; [reflexivity|]. intros idx Hi. cbn. now apply at_get.
    - inversion F as [|? ? (z' & E1 & E2) F']; subst. cbn [fst snd] in *.
      replace (last (shape v) 0%nat) with n by (now rewrite Sh, last_snoc). rewrite E2. cbn [bind].
      destruct (IH (mul_comps [p] q v)) as (w & E & Ww & Sw & Vw); [exact Sh|apply wf_tabulate|exact F'|].
      exists w. split; [exact E|]. split; [exact Ww|]. split; [exact Sw|]. intros idx Hi. rewrite Vw by exact Hi.
      assert (Em : Ev_Arith.at_ (mul_comps [p] q v) idx = if Nat.eqb (last idx 0%nat) p then Ev_Arith.at_ v idx * q else Ev_Arith.at_ v idx).
      { unfold Ev_Arith.at_ at 1. rewrite get_mul by exact Hi. cbn [existsb]. now rewrite orb_false_r. }
      rewrite Em. cbn [count_occ fst]. destruct (Nat.eq_dec p (last idx 0%nat)) as [->|Ne].
      + rewrite Nat.eqb_refl. now rewrite iter_in.
      + destruct (Nat.eqb_spec (last idx 0%nat) p); [congruence|reflexivity].
  Qed.

  Lemma count_seq a n k : count_occ Nat.eq_dec (seq a n) k = if existsb (Nat.eqb k) (seq a n) then 1%nat else 0%nat.
  Proof.
    destruct (existsb (Nat.eqb k) (seq a n)) eqn:E.
    - apply existsb_exists in E as (y & Hy & Ey). apply Nat.eqb_eq in Ey. subst y.
      now apply NoDup_count_occ'; [apply seq_NoDup|].
    - apply count_occ_not_In. intros H. assert (existsb (Nat.eqb k) (seq a n) = true) by (apply existsb_exists; exists k; split; [exact H|apply Nat.eqb_refl]). congruence.
  Qed.

  Lemma qtrunc_int z : qtrunc (inject_Z z) = z.
  Proof. unfold qtrunc. cbn. apply Z.quot_1_r. Qed.

  Lemma slice_ok q cc n v a b : shape v = (cc ++ [n])%list -> wf v -> (a <= n)%nat ->
    forall idx, in_range (shape v) idx ->
      get (mul_comps (slice2 n (Z.of_nat a) (Z.of_nat b)) q v) idx =
      Some (times (count_occ Nat.eq_dec (seq a (Nat.min b n - a)) (last idx 0%nat)) q (Ev_Arith.at_ v idx)).
  Proof.
    intros Sh W L idx Hi. rewrite get_mul by exact Hi. rewrite slice2_nat by exact L. rewrite count_seq.
    destruct (existsb (Nat.eqb (last idx 0%nat)) (seq a (Nat.min b n - a))); reflexivity.
  Qed.

  (** Exactly the components named are multiplied by the factor, once for each
      time they are named; the others and the grid are kept. *)
  Theorem C81_scale_comp g g1 g2 v cc n spec ps q :
    shape v = (cc ++ [n])%list -> wf v -> names_comps n spec ps ->
    exists w, scale_comp pfloat [g1; g2; g] [one_number q; spec; VArr v] = Ok (g, VArr w) /\
      wf w /\ shape w = shape v /\
      forall idx, in_range (shape v) idx ->
        get w idx = Some (times (count_occ Nat.eq_dec ps (last idx 0%nat)) q (Ev_Arith.at_ v idx)).
  Proof.
    intros Sh W Hn.
    assert (Ne : exists y l, shape v = y :: l) by (rewrite Sh; destruct cc; cbn; eauto).
    destruct Ne as (y & l & Ne).
    assert (Sp : forall i, scale_parts i q v = match i with
           | ISlice a b => Ok (mul_comps (slice2 n a b) q v)
           | ITuple l => scale_each l q v
           | IInt z => scale_each [z] q v end).
    { intros i. unfold scale_parts. replace (last (shape v) 0%nat) with n by (now rewrite Sh, last_snoc).
      now rewrite Ne. }
    unfold scale_comp. cbn [item one_number flat bind]. destruct Hn as [z p H1 H2|ks Lk F|a b L|b].
    - cbn [comp_index one_number flat bind]. rewrite qtrunc_int, Sp.
      destruct (scale_each_ok q [(p, z)] v cc n Sh W) as (w & E & Ww & Sw & Vw).
      { repeat constructor. exists z. split; [reflexivity|]. now apply norm_index_is. }
      cbn [List.map fst snd] in *. rewrite E. cbn [bind]. exists w. auto.
    - cbn [comp_index]. rewrite Select_Proofs.parse_list by exact Lk. cbn [bind]. rewrite Sp.
      destruct (scale_each_ok q (List.map (fun k => (k, Z.of_nat k)) ks) v cc n Sh W) as (w & E & Ww & Sw & Vw).
      { apply Forall_map. eapply Forall_impl; [|exact F]. intros k Hk. cbv beta in Hk. exists (Z.of_nat k). split; [reflexivity|].
        apply norm_index_is; unfold from_end; cbn [fst]; destruct (Z.ltb_spec (Z.of_nat k) 0); lia. }
      rewrite map_map in E. cbn [snd] in E. rewrite map_map in Vw. cbn [fst] in Vw. rewrite map_id in Vw.
      change (List.map (fun x => Z.of_nat x) ks) with (List.map Z.of_nat ks) in E. rewrite E. cbn [bind]. exists w. auto.
    - cbn [comp_index]. rewrite parse_range. cbn [bind]. rewrite Sp. cbn [bind]. eexists. split; [reflexivity|].
      split; [apply wf_tabulate|]. split; [reflexivity|]. rewrite !nat_N_Z. now apply slice_ok with (cc := cc).
    - cbn [comp_index]. rewrite parse_upto. cbn [bind]. rewrite Sp. cbn [bind]. eexists. split; [reflexivity|].
      split; [apply wf_tabulate|]. split; [reflexivity|]. rewrite !nat_N_Z. change 0%Z with (Z.of_nat 0).
      intros idx Hi. rewrite (slice_ok q cc n v 0 b Sh W) by (auto; lia). now rewrite Nat.sub_0_r.
  Qed.

  (** A component out of range and an upper bound left out are refused. *)
  Theorem C81_refused g g1 g2 v cc n q z m :
    shape v = (cc ++ [n])%list ->
    (~ (0 <= from_end n z < Z.of_nat n)%Z ->
       scale_comp pfloat [g1; g2; g] [one_number q; one_number (inject_Z z); VArr v] = Err IndexError) /\
    scale_comp pfloat [g1; g2; g] [one_number q; Ev_Model.VStr (show_N m ++ ":"); VArr v] = Err TypeError.
  Proof.
    intros Sh. assert (Ne : exists y l, shape v = y :: l) by (rewrite Sh; destruct cc; cbn; eauto).
    destruct Ne as (y & l & Ne). split.
    - intros H. unfold scale_comp. cbn [item one_number flat bind comp_index]. rewrite qtrunc_int. unfold scale_parts.
      rewrite Ne. cbn [scale_each]. rewrite Sh, last_snoc, norm_index_err by exact H. reflexivity.
    - unfold scale_comp. cbn [item one_number flat bind comp_index].
      change (show_N m ++ ":")%string with (show_N m ++ ":" ++ "")%string.
      rewrite idx_parser_slice by (try apply show_N_has; auto using comma_not_digit, colon_not_digit).
      unfold Select_Model.parse_slice. rewrite show_N_neq_empty. reflexivity.
  Qed.

  Example C81_ex :
    names_comps 3 (Ev_Model.VStr "0,2") [0; 2]%nat /\
    scale_comp pfloat [None; None; Some []] [one_number 10; Ev_Model.VStr "0,2"; VArr (mk_nda [2; 3]%nat [1; 2; 3; 4; 5; 6])] =
      Ok (Some [], VArr (mk_nda [2; 3]%nat [10; 2; 30; 40; 5; 60])).
  Proof. split; [apply (nc_list 3 [0; 2]%nat); [cbn; lia|repeat constructor]|vm_compute; reflexivity]. Qed.

  (** A component named twice is scaled twice. *)
  Theorem C81_twice_refuted : exists w,
    scale_comp pfloat [None; None; Some []] [one_number 10; Ev_Model.VStr "1,1"; VArr (mk_nda [1; 2]%nat [3; 4])] = Ok (Some [], VArr w) /\
    get w [0; 1]%nat = Some 400.
  Proof. eexists. split; vm_compute; reflexivity. Qed.

  (** A number that is not whole names the component below it. *)
  Theorem C81_fraction_refuted : exists w,
    scale_comp pfloat [None; None; Some []] [one_number 10; one_number (3 # 2); VArr (mk_nda [1; 2]%nat [3; 4])] = Ok (Some [], VArr w) /\
    get w [0; 1]%nat = Some 40.
  Proof. eexists. split; vm_compute; reflexivity. Qed.
End ScaleComp.

Print Assumptions C80_grad2.
Print Assumptions C80_all_axes.
Print Assumptions C80_open_range.
Print Assumptions C80_negative_refuted.
Print Assumptions C81_scale_comp.
Print Assumptions C81_refused.
Print Assumptions C81_twice_refuted.
Print Assumptions C81_fraction_refuted.
