(** * C132 (continued): the number is the integral *)
From Coq Require Import String List Arith ZArith QArith Qreals Bool Lia Reals Lra Psatz.
From Flocq Require Import Core.
From Coquelicot Require Import Coquelicot.
From Verif Require Import Prelude PreludeFacts NdArray Ev_Arith Tools_Arr Gkyl_Model Calc_Model Calc_Spec Calc_Proofs Float_Model Float_Props FloatQ_Model FloatQ_Props
  FGrid_Model FGrid_Spec FGrid_Proofs FGrid_Props FInt_Model FInt_Spec FInt_Proofs FInt_Props
  Dg_Poly Dg_TabI Dg_Model Dg_Spec Dg_Proofs Dg_Proofs2 Dg_Props Dg_Props2 Dg_Props3 Dg_Sem Dg_Int Dg_GramTab Dg_Gram Dg_Props5 Amount_Spec Amount_Proofs Amount_Proofs2 Amount_Props
  FDg_Spec FDg_Props FNum_Model FNum_Spec FNum_Props FNumInt_Spec.
Import ListNotations.
Open Scope string_scope. Open Scope list_scope. Open Scope R_scope.

Lemma local_ref b t : fst b < snd b -> local b t = to_ref b t.
Proof. intros H. unfold local, to_ref. field. lra. Qed.

Lemma local_refs bs : forall xs, List.Forall (fun b : R * R => fst b < snd b) bs -> map2 local bs xs = map2 to_ref bs xs.
Proof. induction bs as [|b bs IH]; intros [|x xs] H; cbn [map2]; try reflexivity. inversion H; subst. rewrite local_ref by assumption. f_equal. now apply IH. Qed.

Lemma place_split ns : forall i k, List.Forall (fun n => (2 <= n)%nat) ns -> length i = length ns -> in_range ns k ->
  cell_of ns (sub_index ns i k) = i /\ part_of ns (sub_index ns i k) = k.
Proof.
  unfold cell_of, part_of, sub_index, in_range. induction ns as [|n ns IH]; intros i k P L H; inversion H as [|b ? k' ? Hb Hk]; subst; destruct i as [|a i]; try discriminate L; [now split|].
  inversion P; subst. destruct (IH i k' ltac:(assumption) ltac:(now injection L) Hk) as (A & B). cbn [combine List.map map2 fst snd]. rewrite A, B.
  split; f_equal.
  - symmetry. apply (Nat.div_unique _ _ _ b); [exact Hb|lia].
  - symmetry. apply (Nat.mod_unique _ _ a); [exact Hb|lia].
Qed.

Section Exact.
  Context (vals : nda R) (fs : list pexp) (cells ns : list nat) (lo up : nat -> R) (b : string).
  Context (Hfs : interp_functions (length cells) 1 true b = Ok fs) (Hb : b = "serendipity" \/ b = "maximal-order" \/ b = "tensor").
  Context (Lns : length ns = length cells) (Pns : List.Forall (fun n => (2 <= n)%nat) ns) (Pc : List.Forall (fun c => (0 < c)%nat) cells)
    (Hlu : forall a, (a < length cells)%nat -> lo a < up a).

  Lemma bounds_pos i : List.Forall (fun b : R * R => fst b < snd b) (bounds_of lo up cells i).
  Proof using Pc Hlu.
    clear Lns Pns Hfs Hb. unfold bounds_of. apply List.Forall_forall. intros x Hx. apply in_map_iff in Hx as (a & <- & Ha). apply in_seq in Ha. cbn [fst snd]. unfold FGrid_Spec.edge. rewrite S_INR.
    assert (0 < (up a - lo a) / INR (nth a cells 0%nat)).
    { apply Rdiv_lt_0_compat; [specialize (Hlu a ltac:(lia)); lra|]. apply lt_0_INR. apply (proj1 (List.Forall_forall _ _) Pc), nth_In. lia. }
    lra.
  Qed.

  Lemma volume_split i : volume lo up (refined_shape cells ns) = half_volume (bounds_of lo up cells i) * scale_of ns.
  Proof using Lns Pns Pc.
    unfold volume, bounds_of, half_volume, scale_of. rewrite (fine_length cells ns Lns).
    assert (E : forall l, (forall a, In a l -> (a < length cells)%nat) ->
      fold_right Rmult 1 (List.map (fun a => (up a - lo a) / INR (nth a (refined_shape cells ns) 0%nat)) l)
       = fold_right (fun b s => (snd b - fst b) / 2 * s) 1 (List.map (fun a => (FGrid_Spec.edge (lo a) (up a) (nth a cells 0%nat) (nth a i 0%nat), FGrid_Spec.edge (lo a) (up a) (nth a cells 0%nat) (S (nth a i 0%nat)))) l)
         * fold_right (fun n s => 2 / INR n * s) 1 (List.map (fun a => nth a ns 0%nat) l)).
    { induction l as [|a l IH]; intros Hl; cbn [List.map fold_right fst snd]; [ring|]. rewrite IH by (intros; apply Hl; now right).
      assert (La : (a < length cells)%nat) by (apply Hl; now left). rewrite nth_fine by exact Lns.
      assert (Pa : (0 < nth a cells 0)%nat) by (apply (proj1 (List.Forall_forall _ _) Pc), nth_In; exact La).
      assert (Pn : (2 <= nth a ns 0)%nat) by (apply (proj1 (List.Forall_forall _ _) Pns), nth_In; lia).
      unfold FGrid_Spec.edge. rewrite S_INR, mult_INR. field. split; apply not_0_INR; lia. }
    rewrite E by (intros a Ha; apply in_seq in Ha; lia). f_equal. f_equal. rewrite <- Lns. apply nth_seq_self.
  Qed.

  (** Order one: the sum over the centres is the integral. *)
  Lemma midpoint_exact c : volume lo up (refined_shape cells ns) * sum_over (refined_shape cells ns) (at_part vals fs ns c) = integral_of vals fs lo up cells c.
  Proof using Hfs Hb Lns Pns Pc Hlu.
    rewrite (refined_map2 cells ns) at 2. rewrite sum_over_split by lia. unfold integral_of. rewrite <- sum_over_scal. apply sum_over_ext. intros i Hi.
    pose proof (Forall2_length _ _ _ Hi) as Li.
    rewrite (sum_over_ext ns _ (fun k => expansion (field_coefs vals (length fs) c i) fs (map2 part_mid ns k))).
    2:{ intros k Hk. pose proof (Forall2_length _ _ _ Hk) as Lk. rewrite place2_sub by lia. unfold at_part.
        destruct (place_split ns i k Pns ltac:(lia) Hk) as (-> & ->). now rewrite part_mid_centres. }
    destruct (expansion_exps (fun a => List.Forall (fun e => (e <= 1)%nat) a) (length cells) fs (field_coefs vals (length fs) c i) (order_one (length cells) b fs Hfs Hb)) as (q & Dq & Fq & Eq).
    rewrite (volume_split i), Rmult_assoc.
    rewrite (sum_over_ext ns _ (fun k => evalP q (map2 part_mid ns k))).
    2:{ intros k Hk. pose proof (Forall2_length _ _ _ Hk) as Lk. apply Eq. rewrite map2_length. lia. }
    rewrite mid_poly; [|eapply List.Forall_impl; [|exact Pns]; cbv beta; intros; lia|rewrite Lns; exact Dq|exact Fq].
    assert (Lb : length (bounds_of lo up cells i) = length cells) by (unfold bounds_of; rewrite map_length, seq_length; reflexivity).
    rewrite (box_ext _ _ (fun xs => evalP q (map2 to_ref (bounds_of lo up cells i) xs))).
    2:{ intros xs Lx. rewrite Lb in Lx. rewrite <- Eq by (rewrite map2_length, Lb; lia). f_equal. apply local_refs, bounds_pos. }
    rewrite box_affine.
    - rewrite Lns, Lb. reflexivity.
    - eapply List.Forall_impl; [|apply bounds_pos]. cbv beta. intros x Hx. lra.
    - rewrite Lb. exists q. split; [exact Dq|]. reflexivity.
  Qed.
End Exact.

(** ** Theorem *)
Section Integral.
  Context (dec : nat -> list Z -> R) (dot : list R -> list R -> R) (ev : pexp -> list R -> R) (root : nat -> nat -> nat)
    (idot : nat -> list nat -> list R -> list R -> R) (isum : nat -> list nat -> list R -> R).
  Context (Hdot : forall r q, length r = length q -> dots (combine r q) (dot r q))
    (Hidot : forall a i v w, length v = length w -> dots (combine v w) (idot a i v w)) (Hisum : forall a i v, sums v (isum a i v)).
  Context (d : dgdata (F := R)) (g : ginterp) (comps cells : list nat) (nc : nat) (fs : list pexp) (delta : R).
  Context (Hev : accurate ev fs delta).
  (** Order one of the three families made of monomials of degree at most one in each coordinate. *)
  Context (W : wf (dd_values d)) (Sh : shape (dd_values d) = cells ++ [nc]) (Gd : gi_dims g = length cells) (D : dims_ok (length cells) (gi_basis g))
    (G1 : gi_poly g = 1%nat) (Hb : gi_basis g = "serendipity" \/ gi_basis g = "maximal-order" \/ gi_basis g = "tensor")
    (Hfs : interp_functions (gi_dims g) (gi_poly g) true (gi_basis g) = Ok fs)
    (Gn : gi_nodes g = length fs) (Hn : (2 <= gi_interp g)%nat) (Hn' : (Z.of_nat (gi_interp g) < 2 ^ 52)%Z)
    (Hc : comps <> []) (Hcs : forall c, In c comps -> (c * length fs + length fs <= nc)%nat).
  Let ns := refine (length cells) (gi_interp g) (gi_basis g).
  Let fine := refined_shape cells ns.
  Context (lo up : nat -> R) (eps : R) (He : 0 <= eps)
    (Hroot : forall m, root (length cells) (m ^ length cells) = m) (T1 : dd_grid_type d <> "c2p") (T2 : dd_grid_type d <> "c2p_vel")
    (Hgrid : forall a c, nth_error cells a = Some c -> exists x, nth_error (dd_grid d) a = Some x /\ length (flat x) = S c /\
       nth_error (flat x) 0 = Some (lo a) /\ nth_error (flat x) c = Some (up a) /\ spaced (lo a) (up a) (nth a ns 0%nat * c) /\
       2 * slack (lo a) (up a) <= eps * ((up a - lo a) / INR (nth a ns 0%nat * c))).

  (** Order one: the number printed is the integral of the expansions over the domain up to the errors of C132_number. *)
  Theorem C132_integral : exists gr w,
    number dec dot ev root idot isum d g comps (AxTuple (List.map Z.of_nat (seq 0 (length cells)))) = Ok (gr, w) /\
    forall j c, nth_error comps j = Some c -> exists x, get w (repeat 0%nat (length cells) ++ [j]) = Some x /\ format x /\
      Rabs (x - integral_of (dd_values d) fs lo up cells c) <=
        ((1 + u) ^ steps fine * (1 + eps) ^ length cells - 1) * (volume lo up fine * sum_over fine (fun q => Rabs (at_part (dd_values d) fs ns c q)))
        + (1 + u) ^ steps fine * (1 + eps) ^ length cells * (volume lo up fine * sum_over fine (error_at (dd_values d) fs ns delta c))
        + (1 + u) ^ steps fine * (rooms lo up fine * tiny).
  Proof using Hdot Hidot Hisum Hev W Sh Gd D G1 Hb Hfs Gn Hn Hn' Hc Hcs He Hroot T1 T2 Hgrid.
    assert (Hh : gi_basis g = "hybrid" -> (2 <= length cells)%nat) by (intros E; rewrite E in Hb; destruct Hb as [H|[H|H]]; discriminate H).
    assert (Lns : length ns = length cells) by apply refine_length.
    destruct (C132_number dec dot ev root idot isum Hdot Hidot Hisum d g comps cells nc fs delta Hev W Sh Gd D Hh Hfs Gn Hn Hn' Hc Hcs lo up eps He Hroot T1 T2 Hgrid) as (gr & w & E & _ & _ & V).
    exists gr, w. split; [exact E|]. intros j c Hj. destruct (V j c Hj) as (x & Gx & Fx & B). exists x. split; [exact Gx|]. split; [exact Fx|].
    rewrite <- (midpoint_exact (dd_values d) fs cells ns lo up (gi_basis g)); [exact B| |exact Hb|exact Lns|now apply refine_ge2| |].
    - rewrite <- Hfs, Gd, G1. reflexivity.
    - apply List.Forall_forall. intros n Hin. apply In_nth_error in Hin as (a & Ha). destruct (Hgrid a n Ha) as (_ & _ & _ & _ & _ & (_ & _ & P & _) & _). nia.
    - intros a Ha. destruct (nth_error cells a) as [n|] eqn:Ea; [|apply nth_error_None in Ea; lia].
      destruct (Hgrid a n Ea) as (_ & _ & _ & _ & _ & (_ & _ & P & _ & Q) & _). assert (0 < INR (nth a ns 0%nat * n)) by (apply lt_0_INR; lia). pose proof (bpow_gt_0 radix2 (-1021)).
      assert (0 < up a - lo a); [|lra]. apply Rmult_lt_reg_r with (/ INR (nth a ns 0%nat * n)); [now apply Rinv_0_lt_compat|]. unfold Rdiv in Q. lra.
  Qed.
End Integral.

(** The file of C131: its integral is c0 (m1 + 1), and C132_example is within 2^-43 of it. *)
Example C132_integral_example : integral_of (dd_values ex_file) it_d1_modal_o1 starts ends [2%nat] 0 = Q2R c0_ * (Q2R m1 + 1).
Proof.
  rewrite <- (midpoint_exact (dd_values ex_file) it_d1_modal_o1 [2%nat] [2%nat] starts ends "serendipity");
    [|reflexivity|now left|reflexivity|repeat constructor|repeat constructor|intros; unfold starts, ends; lra].
  change (refined_shape [2%nat] [2%nat]) with [4%nat]. unfold volume. cbn [length seq List.map fold_right nth sum_over]. unfold starts, ends. replace (INR 4) with 4 by (cbn; lra).
  unfold at_part.
  change (cell_of [2%nat] [0%nat]) with [0%nat]. change (cell_of [2%nat] [1%nat]) with [0%nat]. change (cell_of [2%nat] [2%nat]) with [1%nat]. change (cell_of [2%nat] [3%nat]) with [1%nat].
  change (part_of [2%nat] [0%nat]) with [0%nat]. change (part_of [2%nat] [1%nat]) with [1%nat]. change (part_of [2%nat] [2%nat]) with [0%nat]. change (part_of [2%nat] [3%nat]) with [1%nat].
  assert (F0 : field_coefs (dd_values ex_file) (length it_d1_modal_o1) 0 [0%nat] = [Q2R m1; Q2R m0]) by reflexivity.
  assert (F1 : field_coefs (dd_values ex_file) (length it_d1_modal_o1) 0 [1%nat] = [Q2R 1; Q2R 0]) by reflexivity.
  rewrite F0, F1.
  assert (C0 : centres [2%nat] [0%nat] = [- / 2]) by (unfold centres, Dg_Props5.centre; cbn; f_equal; lra).
  assert (C1 : centres [2%nat] [1%nat] = [/ 2]) by (unfold centres, Dg_Props5.centre; cbn; f_equal; lra).
  rewrite C0, C1.
  assert (Q1 : Q2R 1 = 1) by (unfold Q2R; cbn; lra). assert (Q0 : Q2R 0 = 0) by (unfold Q2R; cbn; lra). rewrite Q0, Q1.
  assert (X : forall p q t, expansion [p; q] it_d1_modal_o1 [t] = p * Q2R c0_ + q * (2 * Q2R c1_ * t)).
  { intros p q t. unfold expansion, it_d1_modal_o1. cbn [combine fold_right fst snd evalR nth]. unfold lit, Q2R, c0_, c1_. cbn. lra. }
  rewrite !X. lra.
Qed.

Print Assumptions C132_integral.
