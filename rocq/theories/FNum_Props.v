(** * C132: the integral of interpolated data in double precision *)
From Coq Require Import String List Arith ZArith QArith Qreals Bool Lia Reals Lra Psatz.
From Flocq Require Import Core.
From Verif Require Import Prelude PreludeFacts NdArray Ev_Arith Tools_Arr Gkyl_Model Calc_Model Calc_Spec Calc_Proofs Float_Model Float_Props
  FGrid_Model FGrid_Spec FGrid_Proofs FGrid_Props FInt_Model FInt_Spec FInt_Proofs FInt_Props
  Dg_Poly Dg_TabI Dg_Model Dg_Spec Dg_Proofs Dg_Proofs2 Dg_Props Dg_Props2 Dg_Props3 Dg_Sem Dg_Gram Dg_Props5 Amount_Spec Amount_Proofs2 Amount_Props
  FDg_Spec FDg_Props FNum_Model FNum_Spec.
Import ListNotations.
Open Scope string_scope. Open Scope list_scope. Open Scope R_scope.

(** ** Sums *)
Lemma rsum_diff {A} (p q a b : A -> R) c l : (forall k, In k l -> Rabs (p k - q k) <= c * a k + b k) ->
  Rabs (rsum (List.map p l) - rsum (List.map q l)) <= c * rsum (List.map a l) + rsum (List.map b l).
Proof.
  unfold rsum. induction l as [|k l IH]; intros H; cbn [List.map fold_right]; [rewrite Rminus_0_r, Rabs_R0; lra|].
  specialize (IH (fun j Hj => H j (or_intror Hj))). specialize (H k (or_introl eq_refl)).
  replace (p k + fold_right Rplus 0 (List.map p l) - (q k + fold_right Rplus 0 (List.map q l)))
    with ((p k - q k) + (fold_right Rplus 0 (List.map p l) - fold_right Rplus 0 (List.map q l))) by ring.
  apply Rle_trans with (1 := Rabs_triang _ _). lra.
Qed.

Section Perturb.
  Context (grid grid' : list (list R)) (sh : list nat) (eps : R).
  Notation w a k := (Calc_Spec.width (nth a grid []) (nth a sh 0%nat) k).
  Notation w' a k := (Calc_Spec.width (nth a grid' []) (nth a sh 0%nat) k).
  Definition close (axes : list nat) : Prop :=
    forall a k, In a axes -> (a < length sh)%nat /\ ((k < nth a sh 0)%nat -> 0 <= w' a k /\ Rabs (w a k - w' a k) <= eps * w' a k).

  Lemma range_set idx a k : in_range sh idx -> (k < nth a sh 0)%nat -> in_range sh (set_nth a k idx).
  Proof using Type.
    unfold in_range. intros H. revert a. induction H as [|i n idx s Hi H IH]; intros [|a] Hk; cbn [nth set_nth] in *; try lia; constructor; auto.
  Qed.

  Lemma total_pos axes f idx : close axes -> in_range sh idx -> (forall j, in_range sh j -> 0 <= f j) -> 0 <= total grid' sh axes f idx.
  Proof using Type.
    intros C I H. revert idx I. induction axes as [|a r IH]; intros idx I; cbn [total]; [auto|]. apply rsum_nonneg. intros k Hk. apply in_seq in Hk.
    destruct (C a k (or_introl eq_refl)) as (_ & W). destruct (W ltac:(lia)) as (W0 & _). apply Rmult_le_pos; [exact W0|].
    apply IH; [intros b j Hb; apply C; now right|apply range_set; [exact I|lia]].
  Qed.
  Lemma total_mono axes f h idx : close axes -> in_range sh idx -> (forall j, in_range sh j -> f j <= h j) -> total grid' sh axes f idx <= total grid' sh axes h idx.
  Proof using Type.
    intros C I H. revert idx I. induction axes as [|a r IH]; intros idx I; cbn [total]; [auto|]. apply FInt_Proofs.rsum_le. intros k Hk. apply in_seq in Hk.
    destruct (C a k (or_introl eq_refl)) as (_ & W). destruct (W ltac:(lia)) as (W0 & _). apply Rmult_le_compat_l; [exact W0|].
    apply IH; [intros b j Hb; apply C; now right|apply range_set; [exact I|lia]].
  Qed.
  Lemma total_plus axes f h idx : total grid' sh axes (fun j => f j + h j) idx = total grid' sh axes f idx + total grid' sh axes h idx.
  Proof using Type.
    revert idx. induction axes as [|a r IH]; intros idx; cbn [total]; [reflexivity|]. unfold rsum.
    induction (seq 0 (nth a sh 0%nat)) as [|k l IHl]; cbn [List.map fold_right]; [lra|]. rewrite IHl, IH. ring.
  Qed.

  Lemma total_near axes f F e idx : 0 <= eps -> close axes -> in_range sh idx -> (forall j, in_range sh j -> Rabs (f j - F j) <= e j) ->
    Rabs (total grid sh axes f idx) <= (1 + eps) ^ length axes * total grid' sh axes (fun j => Rabs (f j)) idx /\
    Rabs (total grid sh axes f idx - total grid' sh axes F idx) <=
      ((1 + eps) ^ length axes - 1) * total grid' sh axes (fun j => Rabs (f j)) idx + total grid' sh axes e idx.
  Proof using Type.
    intros E0 C I H. revert idx I. induction axes as [|a r IH]; intros idx I; cbn [total length].
    - split; [cbn; lra|]. specialize (H idx I). cbn [pow]. lra.
    - specialize (IH (fun b j Hb => C b j (or_intror Hb))).
      assert (S : forall k, In k (seq 0 (nth a sh 0%nat)) -> in_range sh (set_nth a k idx) /\ 0 <= w' a k /\ Rabs (w a k - w' a k) <= eps * w' a k).
      { intros k Hk. apply in_seq in Hk. destruct (C a k (or_introl eq_refl)) as (_ & W). destruct (W ltac:(lia)) as (W0 & W1).
        split; [apply range_set; [exact I|lia]|]. now split. }
      set (g := (1 + eps) ^ length r) in *. assert (G1 : 1 <= g) by (apply pow_R1_Rle; lra).
      change ((1 + eps) ^ Datatypes.S (length r)) with ((1 + eps) * g).
      split.
      + pose proof (rsum_diff (fun k => w a k * total grid sh r f (set_nth a k idx)) (fun _ => 0) (fun k => w' a k * total grid' sh r (fun j => Rabs (f j)) (set_nth a k idx)) (fun _ => 0) ((1 + eps) * g) (seq 0 (nth a sh 0%nat))) as D.
        assert (Z : rsum (List.map (fun _ => 0) (seq 0 (nth a sh 0%nat))) = 0) by (unfold rsum; generalize (seq 0 (nth a sh 0%nat)); induction l as [|x l IHl]; cbn [List.map fold_right]; lra).
        rewrite Z, Rminus_0_r, Rplus_0_r in D. apply D. intros k Hk. destruct (S k Hk) as (R1 & R2 & R3). destruct (IH _ R1) as (B1 & _).
        rewrite Rminus_0_r, Rplus_0_r, Rabs_mult.
        set (T := Rabs (total grid sh r f (set_nth a k idx))) in *. set (T' := total grid' sh r (fun j => Rabs (f j)) (set_nth a k idx)) in *.
        assert (W : Rabs (w a k) <= (1 + eps) * w' a k).
        { replace (w a k) with (w' a k + (w a k - w' a k)) by ring. apply Rle_trans with (1 := Rabs_triang _ _). rewrite (Rabs_pos_eq (w' a k)) by exact R2. lra. }
        replace ((1 + eps) * g * (w' a k * T')) with (((1 + eps) * w' a k) * (g * T')) by ring. apply Rmult_le_compat; [apply Rabs_pos|apply Rabs_pos|exact W|exact B1].
      + apply rsum_diff. intros k Hk. destruct (S k Hk) as (R1 & R2 & R3). destruct (IH _ R1) as (B1 & B2).
        set (T := total grid sh r f (set_nth a k idx)) in *. set (T' := total grid' sh r (fun j => Rabs (f j)) (set_nth a k idx)) in *.
        set (TF := total grid' sh r F (set_nth a k idx)) in *. set (Te := total grid' sh r e (set_nth a k idx)) in *.
        replace (w a k * T - w' a k * TF) with ((w a k - w' a k) * T + w' a k * (T - TF)) by ring. apply Rle_trans with (1 := Rabs_triang _ _). rewrite !Rabs_mult, (Rabs_pos_eq (w' a k)) by exact R2.
        assert (A1 : Rabs (w a k - w' a k) * Rabs T <= (eps * w' a k) * (g * T')) by (apply Rmult_le_compat; auto using Rabs_pos).
        assert (A2 : w' a k * Rabs (T - TF) <= w' a k * ((g - 1) * T' + Te)) by (apply Rmult_le_compat_l; [exact R2|exact B2]).
        replace (((1 + eps) * g - 1) * (w' a k * T') + w' a k * Te) with (eps * w' a k * (g * T') + w' a k * ((g - 1) * T' + Te)) by ring. lra.
  Qed.
End Perturb.

(** ** Places *)
Lemma split_place cells : forall ns q, length ns = length cells -> in_range (refined_shape cells ns) q ->
  in_range cells (cell_of ns q) /\ in_range ns (part_of ns q) /\ sub_index ns (cell_of ns q) (part_of ns q) = q.
Proof.
  unfold refined_shape, cell_of, part_of, sub_index, in_range. induction cells as [|c cells IH]; intros [|n ns] q L H; try discriminate L; cbn [combine List.map] in H.
  - inversion H; subst. cbn. auto.
  - inversion H as [|a ? q' ? Ha Hq]; subst. destruct (IH ns q' ltac:(now injection L) Hq) as (A & B & C). cbn [fst snd] in Ha. assert (n <> 0)%nat by nia.
    cbn [map2 combine List.map fst snd]. split; [constructor; [apply Nat.div_lt_upper_bound; nia|exact A]|]. split; [constructor; [now apply Nat.mod_upper_bound|exact B]|].
    f_equal; [|exact C]. rewrite (Nat.div_mod_eq a n) at 3. lia.
Qed.

Lemma telescope (g : list R) n : forall s, rsum (List.map (fun k => nth (S k) g 0 - nth k g 0) (seq s n)) = nth (s + n) g 0 - nth s g 0.
Proof.
  unfold rsum. induction n as [|n IH]; intros s; cbn [seq List.map fold_right]; [rewrite Nat.add_0_r; ring|]. rewrite IH. replace (S s + n)%nat with (s + S n)%nat by lia. ring.
Qed.

Lemma fine_length cells ns : length ns = length cells -> length (refined_shape cells ns) = length cells.
Proof. intros L. unfold refined_shape. rewrite map_length, combine_length. lia. Qed.
Lemma nth_fine cells : forall ns a, length ns = length cells -> nth a (refined_shape cells ns) 0%nat = (nth a ns 0 * nth a cells 0)%nat.
Proof.
  unfold refined_shape. induction cells as [|c cells IH]; intros [|n ns] a L; try discriminate L; destruct a as [|a]; cbn [combine List.map nth fst snd]; try lia.
  apply IH. now injection L.
Qed.
Lemma roundings_steps fine m : roundings (fine ++ [m]) (seq 0 (length fine)) = steps fine.
Proof.
  unfold roundings, steps. assert (G : forall pre, fold_right (fun a s => nth a (pre ++ fine ++ [m]) 0 + 1 + s)%nat 0%nat (seq (length pre) (length fine)) = fold_right (fun n s => (n + 1 + s)%nat) 0%nat fine).
  { induction fine as [|n fine IH]; intros pre; cbn [length seq fold_right]; [reflexivity|]. f_equal.
    - rewrite app_nth2 by lia. rewrite Nat.sub_diag. reflexivity.
    - specialize (IH (pre ++ [n])). rewrite <- app_assoc, app_length, Nat.add_1_r in IH. exact IH. }
  exact (G []).
Qed.
Lemma nodes_extent l n lo up : length l = S n -> (1 <= n)%nat -> nth_error l 0 = Some lo -> last l 0 = up -> extent l n = up - lo.
Proof.
  intros L Hn H0 H1. unfold extent.
  assert (E : List.map (Calc_Spec.width l n) (seq 0 n) = List.map (fun k => nth (S k) l 0 - nth k l 0) (seq 0 n)).
  { apply map_ext_in. intros k Hk. apply in_seq in Hk. unfold Calc_Spec.width. destruct (Nat.leb_spec (length l) 1); [lia|]. destruct (Nat.ltb_spec (S k) (length l)); [reflexivity|lia]. }
  rewrite E, telescope. f_equal; [|now apply nth_error_nth].
  rewrite <- H1. destruct (nth_error l n) as [y|] eqn:Ey; [|apply nth_error_None in Ey; lia].
  cbn [Nat.add]. rewrite (nth_error_nth _ _ 0 Ey). symmetry. now apply (last_value l n).
Qed.
Lemma rooms_of grid fine m lo up :
  (forall a, (a < length fine)%nat -> extent (nth a grid []) (nth a fine 0%nat) = up a - lo a) -> room grid (fine ++ [m]) (seq 0 (length fine)) = rooms lo up fine.
Proof.
  intros H. unfold room, rooms. assert (G : forall l, (forall a, In a l -> (a < length fine)%nat) ->
    fold_right (fun a p => (extent (nth a grid []) (nth a (fine ++ [m]) 0%nat) + INR (nth a (fine ++ [m]) 0%nat)) * p) 1 l = fold_right (fun a p => (up a - lo a + INR (nth a fine 0%nat)) * p) 1 l).
  { induction l as [|a l IH]; intros Hl; cbn [fold_right]; [reflexivity|]. rewrite IH by (intros b Hb; apply Hl; now right).
    specialize (Hl a (or_introl eq_refl)). rewrite app_nth1 by exact Hl. now rewrite H. }
  apply G. intros a Ha. apply in_seq in Ha. lia.
Qed.
Lemma ascending_steps l : FGrid_Spec.ascending l -> FInt_Spec.ascending l.
Proof.
  intros H k Hk. destruct (nth_error l k) as [x|] eqn:Ex; [|apply nth_error_None in Ex; lia]. destruct (nth_error l (S k)) as [y|] eqn:Ey; [|apply nth_error_None in Ey; lia].
  rewrite (nth_error_nth _ _ 0 Ex), (nth_error_nth _ _ 0 Ey). apply (H k (S k)); auto.
Qed.
Lemma nodes_width l n lo up e k : edges_near lo up n e l -> (k < n)%nat -> Rabs (Calc_Spec.width l n k - (up - lo) / INR n) <= 2 * e.
Proof.
  intros (L & H) Hk. unfold Calc_Spec.width. destruct (Nat.leb_spec (length l) 1); [lia|]. destruct (Nat.ltb_spec (S k) (length l)); [|lia].
  destruct (nth_error l k) as [x|] eqn:Ex; [|apply nth_error_None in Ex; lia]. destruct (nth_error l (S k)) as [y|] eqn:Ey; [|apply nth_error_None in Ey; lia].
  rewrite (nth_error_nth _ _ 0 Ex), (nth_error_nth _ _ 0 Ey). destruct (H _ _ Ex) as (_ & A). destruct (H _ _ Ey) as (_ & B). unfold edge in *. rewrite S_INR in B.
  set (h := (up - lo) / INR n) in *. replace (y - x - h) with ((y - (lo + (INR k + 1) * h)) - (x - (lo + INR k * h))) by ring.
  apply Rle_trans with (1 := Rabs_triang _ _). rewrite Rabs_Ropp. lra.
Qed.

(** Exact edges, as the coordinates of a grid. *)
Definition exact_line (lo up : R) (n : nat) : list R := List.map (edge lo up n) (seq 0 (S n)).
Lemma exact_width lo up n k : (k < n)%nat -> Calc_Spec.width (exact_line lo up n) n k = (up - lo) / INR n.
Proof.
  intros Hk. unfold Calc_Spec.width, exact_line. rewrite map_length, seq_length. destruct (Nat.leb_spec (S n) 1); [lia|]. destruct (Nat.ltb_spec (S k) (S n)); [|lia].
  assert (V : forall j, (j <= n)%nat -> nth j (List.map (edge lo up n) (seq 0 (S n))) 0 = edge lo up n j).
  { intros j Hj. apply nth_error_nth. rewrite nth_error_map, nth_error_seq. destruct (Nat.ltb_spec j (S n)); [reflexivity|lia]. }
  rewrite !V by lia. unfold edge. rewrite S_INR. ring.
Qed.

(** ** Theorem *)
Section Number.
  Context (dec : nat -> list Z -> R) (dot : list R -> list R -> R) (ev : pexp -> list R -> R) (root : nat -> nat -> nat)
    (idot : nat -> list nat -> list R -> list R -> R) (isum : nat -> list nat -> list R -> R).
  (** np.tensordot, np.dot and np.sum add in any order; the matrix entries are evaluated with an error of at most [delta]. *)
  Context (Hdot : forall r q, length r = length q -> dots (combine r q) (dot r q))
    (Hidot : forall a i v w, length v = length w -> dots (combine v w) (idot a i v w)) (Hisum : forall a i v, sums v (isum a i v)).
  Context (d : dgdata (F := R)) (g : ginterp) (comps cells : list nat) (nc : nat) (fs : list pexp) (delta : R).
  Context (Hev : accurate ev fs delta).
  Context (W : wf (dd_values d)) (Sh : shape (dd_values d) = cells ++ [nc]) (Gd : gi_dims g = length cells) (D : dims_ok (length cells) (gi_basis g))
    (Hh : gi_basis g = "hybrid" -> (2 <= length cells)%nat) (Hfs : interp_functions (gi_dims g) (gi_poly g) true (gi_basis g) = Ok fs)
    (Gn : gi_nodes g = length fs) (Hn : (2 <= gi_interp g)%nat) (Hn' : (Z.of_nat (gi_interp g) < 2 ^ 52)%Z)
    (Hc : comps <> []) (Hcs : forall c, In c comps -> (c * length fs + length fs <= nc)%nat).
  Let ns := refine (length cells) (gi_interp g) (gi_basis g).
  Let fine := refined_shape cells ns.
  (** Axis [a] runs from [lo a] to [up a]; its nodes may be off by no more than [eps] of a part. *)
  Context (lo up : nat -> R) (eps : R) (He : 0 <= eps)
    (Hroot : forall m, root (length cells) (m ^ length cells) = m) (T1 : dd_grid_type d <> "c2p") (T2 : dd_grid_type d <> "c2p_vel")
    (Hgrid : forall a c, nth_error cells a = Some c -> exists x, nth_error (dd_grid d) a = Some x /\ length (flat x) = S c /\
       nth_error (flat x) 0 = Some (lo a) /\ nth_error (flat x) c = Some (up a) /\ spaced (lo a) (up a) (nth a ns 0%nat * c) /\
       2 * slack (lo a) (up a) <= eps * ((up a - lo a) / INR (nth a ns 0%nat * c))).

  (** All axes: the number differs from the sum of the field at the centres of the parts times their
      volume by the roundings and the displaced nodes relative to the terms of that sum, by the
      errors of the interpolated values (C131), and by halves of the smallest double. *)
  Theorem C132_number : exists gr w,
    number dec dot ev root idot isum d g comps (AxTuple (List.map Z.of_nat (seq 0 (length cells)))) = Ok (gr, w) /\
    wf w /\ shape w = repeat 1%nat (length cells) ++ [length comps] /\
    forall j c, nth_error comps j = Some c -> exists x, get w (repeat 0%nat (length cells) ++ [j]) = Some x /\ format x /\
      Rabs (x - volume lo up fine * sum_over fine (at_part (dd_values d) fs ns c)) <=
        ((1 + u) ^ steps fine * (1 + eps) ^ length cells - 1) * (volume lo up fine * sum_over fine (fun q => Rabs (at_part (dd_values d) fs ns c q)))
        + (1 + u) ^ steps fine * (1 + eps) ^ length cells * (volume lo up fine * sum_over fine (error_at (dd_values d) fs ns delta c))
        + (1 + u) ^ steps fine * (rooms lo up fine * tiny).
  Proof using Hdot Hidot Hisum Hev W Sh Gd D Hh Hfs Gn Hn Hn' Hc Hcs He Hroot T1 T2 Hgrid.
    assert (Lns : length ns = length cells) by apply refine_length.
    assert (Lf : length fine = length cells) by now apply fine_length.
    destruct (C131_values dec dot ev Hdot d g comps cells nc fs delta Hev W Sh Gd D Hh Hfs Gn Hn Hn' Hc Hcs) as (v & Ev & Wv & Sv & V).
    destruct (C131_interpolate dec dot ev root Hdot d g comps cells nc fs delta Hev W Sh Gd D Hh Hfs Gn Hn Hn' Hc Hcs Hroot T1 T2) as (gr & v' & Ei & Ev' & Lgr & G).
    { intros a c Ha. destruct (Hgrid a c Ha) as (x & A1 & A2 & A3 & A4 & A5 & _). exists x, (lo a), (up a). repeat split; auto; apply A5. }
    assert (v' = v) by congruence. subst v'. clear Ev'.
    set (m := length comps) in *. set (sh := fine ++ [m]).
    set (f := fun q => match get v q with Some x => x | None => 0 end).
    set (F := fun q => at_part (dd_values d) fs ns (nth (last q 0%nat) comps 0%nat) (removelast q)).
    set (e := fun q => error_at (dd_values d) fs ns delta (nth (last q 0%nat) comps 0%nat) (removelast q)).
    (* values *)
    assert (Val : forall q, in_range sh q -> get v q = Some (f q) /\ format (f q) /\ Rabs (f q - F q) <= e q).
    { intros q Hq. unfold sh in Hq. unfold in_range in Hq. apply List.Forall2_app_inv_r in Hq as (q0 & q1 & Hq0 & Hq1 & ->).
      inversion Hq1 as [|j ? t ? Hj Ht]; subst. inversion Ht; subst. clear Hq1 Ht.
      destruct (nth_error comps j) as [c|] eqn:Ej; [|apply nth_error_None in Ej; unfold m in Hj; lia].
      destruct (split_place cells ns q0 Lns Hq0) as (A & B & C).
      destruct (V j c _ _ Ej A B) as (co & x & Lc & Vc & Gx & Fx & Bx). fold ns in Gx, Bx. rewrite C in Gx.
      assert (Eco : co = field_coefs (dd_values d) (length fs) c (cell_of ns q0)).
      { apply nth_error_ext. intros k. unfold field_coefs. rewrite nth_error_map, nth_error_seq. destruct (Nat.ltb_spec k (length fs)) as [Hk|Hk].
        - cbn [option_map Nat.add]. pose proof (Vc k Hk) as Vk. destruct (nth_error co k) as [y|] eqn:Ey; [|apply nth_error_None in Ey; lia]. rewrite <- Vk. reflexivity.
        - cbn [option_map]. apply nth_error_None. lia. }
      unfold f, F, e. rewrite Gx, last_last, removelast_last, (nth_error_nth _ _ 0%nat Ej). split; [reflexivity|]. split; [exact Fx|].
      unfold at_part, error_at. rewrite <- Eco. exact Bx. }
    (* axes *)
    set (grid := List.map (fun a => flat a) gr).
    set (grid' := List.map (fun a => exact_line (lo a) (up a) (nth a fine 0%nat)) (seq 0 (length cells))).
    assert (Gr' : forall a, (a < length cells)%nat -> nth a grid' [] = exact_line (lo a) (up a) (nth a fine 0%nat)).
    { intros a Ha. apply nth_error_nth. unfold grid'. rewrite nth_error_map, nth_error_seq. destruct (Nat.ltb_spec a (length cells)); [reflexivity|lia]. }
    assert (Ax : forall a, (a < length cells)%nat -> exists l, nth a grid [] = l /\ nth_error l 0 = Some (lo a) /\ last l 0 = up a /\ FGrid_Spec.ascending l /\ List.Forall (fun t => format t) l /\
      edges_near (lo a) (up a) (nth a fine 0%nat) (slack (lo a) (up a)) l /\ (1 <= nth a fine 0)%nat /\ 0 < up a - lo a /\
      2 * slack (lo a) (up a) <= eps * ((up a - lo a) / INR (nth a fine 0%nat))).
    { intros a Ha. destruct (nth_error cells a) as [c|] eqn:Ec; [|apply nth_error_None in Ec; lia].
      destruct (Hgrid a c Ec) as (x & A1 & A2 & A3 & A4 & A5 & A6). destruct (G a c x (lo a) (up a) Ec A1 A3 A4) as (l & B1 & B2 & B3 & B4 & B5 & B6).
      exists l. unfold fine. rewrite nth_fine, (nth_error_nth _ _ 0%nat Ec) by exact Lns. fold ns in B6. destruct A5 as (_ & _ & P1 & _ & P2).
      split; [unfold grid; apply nth_error_nth; rewrite nth_error_map, B1; reflexivity|].
      do 5 (split; [assumption|]). split; [exact P1|]. split; [|exact A6].
      assert (0 < INR (nth a ns 0%nat * c)) by (apply lt_0_INR; lia). pose proof (bpow_gt_0 radix2 (-1021)).
      apply Rmult_lt_reg_r with (/ INR (nth a ns 0%nat * c)); [now apply Rinv_0_lt_compat|]. unfold Rdiv in P2. lra. }
    assert (Shn : forall a, (a < length cells)%nat -> nth a sh 0%nat = nth a fine 0%nat) by (intros a Ha; unfold sh; apply app_nth1; lia).
    assert (Lsh : length sh = S (length cells)) by (unfold sh; rewrite app_length, Lf; cbn; lia).
    assert (Cl : close grid grid' sh eps (seq 0 (length cells))).
    { intros a k Ha. apply in_seq in Ha. split; [lia|]. intros Hk. rewrite Shn in * by lia. rewrite Gr', exact_width by (lia || exact Hk).
      destruct (Ax a ltac:(lia)) as (l & El & _ & _ & _ & _ & En & N1 & P & S2). rewrite El.
      split; [left; apply Rdiv_lt_0_compat; [exact P|apply lt_0_INR; lia]|]. apply Rle_trans with (2 := S2). now apply nodes_width. }
    destruct (C130_error idot isum Hidot Hisum grid v sh f (seq 0 (length cells)) (seq_NoDup _ _)) with (nd := gi_dims g) as (g' & w & Ew & Ww & Sw & Vw).
    { split; [exact Wv|]. split; [exact Sv|]. intros q Hq. apply Val, Hq. }
    { intros q Hq. apply Val, Hq. }
    { unfold grid. rewrite map_length. lia. }
    { intros a Ha. apply in_seq in Ha. destruct (Ax a ltac:(lia)) as (l & El & _ & _ & As & Fo & (L & _) & N1 & _). rewrite El, Shn by lia.
      split; [unfold grid; rewrite map_length; lia|]. split; [right; lia|]. split; [now apply ascending_steps|exact Fo]. }
    exists g', w. split; [unfold number; rewrite Ei; exact Ew|]. split; [exact Ww|].
    assert (Cs : collapse_shape (seq 0 (length cells)) sh = repeat 1%nat (length cells) ++ [m]) by (unfold sh; rewrite <- Lf; apply collapse_all).
    rewrite Cs in *. split; [exact Sw|].
    intros j c Hj. assert (Jm : (j < m)%nat) by (apply nth_error_Some; congruence).
    set (idx := repeat 0%nat (length cells) ++ [j]).
    destruct (Vw idx) as (x & Gx & Fx & Bx).
    { unfold idx, in_range. apply List.Forall2_app; [|repeat constructor; exact Jm]. clear. induction (length cells); cbn [repeat]; constructor; auto. }
    exists x. split; [exact Gx|]. split; [exact Fx|].
    assert (Ir : in_range sh idx).
    { unfold idx, sh, in_range. apply List.Forall2_app; [|repeat constructor; exact Jm]. rewrite <- Lf.
      assert (P : forall n, In n fine -> (1 <= n)%nat).
      { intros n Hin. apply In_nth_error in Hin as (a & Ha). assert (La : (a < length cells)%nat) by (rewrite <- Lf; apply nth_error_Some; congruence).
        destruct (Ax a La) as (l & _ & _ & _ & _ & _ & _ & N1 & _). now rewrite (nth_error_nth _ _ 0%nat Ha) in N1. }
      clear - P. induction fine as [|n r IH]; cbn [repeat length]; constructor; [apply (P n); now left|]. apply IH. intros k Hk. apply P. now right. }
    destruct (total_near grid grid' sh eps (seq 0 (length cells)) f F e idx He Cl Ir) as (_ & N1); [intros q Hq; apply Val, Hq|].
    destruct (total_near grid grid' sh eps (seq 0 (length cells)) (fun q => Rabs (f q)) (fun q => Rabs (f q)) (fun _ => 0) idx He Cl Ir) as (N2 & _).
    { intros q _. rewrite Rminus_eq_0, Rabs_R0. lra. }
    assert (N3 : total grid' sh (seq 0 (length cells)) (fun q => Rabs (Rabs (f q))) idx <= total grid' sh (seq 0 (length cells)) (fun q => Rabs (f q)) idx).
    { apply (total_mono grid grid' sh eps); [exact Cl|exact Ir|]. intros q _. rewrite Rabs_Rabsolu. lra. }
    assert (N4 : total grid' sh (seq 0 (length cells)) (fun q => Rabs (f q)) idx <= total grid' sh (seq 0 (length cells)) (fun q => Rabs (F q)) idx + total grid' sh (seq 0 (length cells)) e idx).
    { rewrite <- total_plus. apply (total_mono grid grid' sh eps); [exact Cl|exact Ir|]. intros q Hq. destruct (Val q Hq) as (_ & _ & B).
      replace (f q) with (F q + (f q - F q)) by ring. apply Rle_trans with (1 := Rabs_triang _ _). lra. }
    assert (N5 : 0 <= total grid' sh (seq 0 (length cells)) (fun q => Rabs (f q)) idx) by (apply (total_pos grid grid' sh eps); [exact Cl|exact Ir|intros; apply Rabs_pos]).
    assert (Eq : forall H, total grid' sh (seq 0 (length cells)) H idx = volume lo up fine * sum_over fine (fun q => H (q ++ [j]))).
    { intros H. pose proof (total_equal grid' sh (fun a => (up a - lo a) / INR (nth a fine 0%nat)) H j fine [] (repeat 0%nat (length cells))) as T.
      cbn [app length Nat.add] in T. rewrite Lf in T. unfold idx, volume. rewrite Lf. apply T.
      - now rewrite repeat_length.
      - intros a Ha. now apply Shn.
      - intros a k Ha Hk. rewrite Gr' by exact Ha. now apply exact_width. }
    assert (Sq : forall H H', (forall q, H q = H' q) -> sum_over fine H = sum_over fine H').
    { clear. induction fine as [|n r IH]; intros H H' E; cbn [sum_over]; [apply E|]. f_equal. apply map_ext. intros k. apply IH. intros q. apply E. }
    rewrite !Eq in *. clear Eq.
    rewrite (Sq (fun q => F (q ++ [j])) (at_part (dd_values d) fs ns c)) in N1 by (intros q; unfold F; rewrite last_last, removelast_last, (nth_error_nth _ _ 0%nat Hj); reflexivity).
    rewrite (Sq (fun q => Rabs (F (q ++ [j]))) (fun q => Rabs (at_part (dd_values d) fs ns c q))) in N4 by (intros q; unfold F; rewrite last_last, removelast_last, (nth_error_nth _ _ 0%nat Hj); reflexivity).
    rewrite (Sq (fun q => e (q ++ [j])) (error_at (dd_values d) fs ns delta c)) in N1, N4 by (intros q; unfold e; rewrite last_last, removelast_last, (nth_error_nth _ _ 0%nat Hj); reflexivity).
    assert (Er : roundings sh (seq 0 (length cells)) = steps fine) by (unfold sh; rewrite <- Lf; apply roundings_steps).
    assert (Em : room grid sh (seq 0 (length cells)) = rooms lo up fine).
    { unfold sh. rewrite <- Lf. apply rooms_of. intros a Ha. destruct (Ax a ltac:(lia)) as (l & El & E0 & E1 & _ & _ & (L & _) & P1 & _). rewrite El. now apply nodes_extent. }
    rewrite Er, Em in Bx. rewrite seq_length in N1, N2.
    set (A := (1 + u) ^ steps fine) in *. assert (A1 : 1 <= A) by apply pw_ge.
    set (E := (1 + eps) ^ length cells) in *. assert (E1 : 1 <= E) by (apply pow_R1_Rle; lra).
    set (TF := volume lo up fine * sum_over fine (fun q => Rabs (at_part (dd_values d) fs ns c q))) in *.
    set (Te := volume lo up fine * sum_over fine (error_at (dd_values d) fs ns delta c)) in *.
    set (X := volume lo up fine * sum_over fine (at_part (dd_values d) fs ns c)) in *.
    set (T := volume lo up fine * sum_over fine (fun q => Rabs (f (q ++ [j])))) in *.
    set (Y := total grid sh (seq 0 (length cells)) f idx) in *. set (Z := total grid sh (seq 0 (length cells)) (fun q => Rabs (f q)) idx) in *.
    assert (ZT : Z <= E * T) by (apply Rle_trans with (1 := Rle_abs _); apply Rle_trans with (1 := N2); apply Rmult_le_compat_l; lra).
    assert (P1 : (A - 1) * Z <= (A - 1) * (E * T)) by (apply Rmult_le_compat_l; lra).
    assert (AE : 1 <= A * E) by nra.
    assert (P2 : (A * E - 1) * T <= (A * E - 1) * (TF + Te)) by (apply Rmult_le_compat_l; lra).
    replace (x - X) with ((x - Y) + (Y - X)) by ring. apply Rle_trans with (1 := Rabs_triang _ _).
    replace (A * E * Te) with ((A * E - 1) * Te + Te) by ring.
    replace ((A - 1) * (E * T)) with ((A * E - 1) * T - (E - 1) * T) in P1 by ring. lra.
  Qed.
End Number.

(** No axis or the text "0,1,..." ask for the same number. *)
Theorem C132_axes dec dot ev root idot isum d g comps :
  let all := AxTuple (List.map Z.of_nat (seq 0 (gi_dims g))) in
  number dec dot ev root idot isum d g comps AxNone = number dec dot ev root idot isum d g comps all /\
  ((0 < gi_dims g)%nat -> number dec dot ev root idot isum d g comps (AxStr (all_axes (gi_dims g))) = number dec dot ev root idot isum d g comps all).
Proof.
  cbv zeta. unfold number. destruct (modal_interpolate (dnum dec) dot ev root d g comps) as [[gr v]|er]; cbn [bind]; [|now split].
  destruct (C130_axes idot isum (gi_dims g) (List.map (fun a => flat a) (fst (gr, v)), snd (gr, v)) 0%Z (List.map Z.of_nat (seq 0 (gi_dims g)))) as (_ & B & C & _).
  split; [exact B|]. intros Hd. apply C. destruct (gi_dims g); [lia|]. discriminate.
Qed.

(** ** Example *)
(** The file of C131: two cells from 0 to 2, cut into four parts; sums from the right. *)
Definition idot_ (a : nat) (i : list nat) (v w : list R) : R := cdot v w.
Definition isum_ (a : nat) (i : list nat) (v : list R) : R := chains v.
Lemma m0_value : 0.7 <= Q2R m0 <= 0.71. Proof. unfold m0. split; [replace 0.7 with (Q2R (Qmake 7 10)) by (unfold Q2R; cbn; lra)|replace 0.71 with (Q2R (Qmake 71 100)) by (unfold Q2R; cbn; lra)]; apply Qle_Rle; vm_compute; discriminate. Qed.
Lemma m1_value : 0.6 <= Q2R m1 <= 0.62. Proof. unfold m1. split; [replace 0.6 with (Q2R (Qmake 6 10)) by (unfold Q2R; cbn; lra)|replace 0.62 with (Q2R (Qmake 62 100)) by (unfold Q2R; cbn; lra)]; apply Qle_Rle; vm_compute; discriminate. Qed.

Definition ends (a : nat) : R := 2.
Definition starts (a : nat) : R := 0.

(** The exact integral is c0 * (m1 + 1); the computed one is within 2^-43 of it. *)
Example C132_example : exists gr w x, number zdec cdot fev iroot idot_ isum_ ex_file line_g [0%nat] AxNone = Ok (gr, w) /\
  get w [0%nat; 0%nat] = Some x /\ Rabs (x - Q2R c0_ * (Q2R m1 + 1)) <= 1000 * u.
Proof.
  destruct C131_hyps as (H1 & H2 & H3 & H4 & H5 & H6 & H7 & H8 & H9 & H10 & H11).
  destruct (C132_number zdec cdot fev iroot idot_ isum_ cdot_ok (fun a i v w _ => chain_dots _) (fun a i v => chains_sums v)
     ex_file line_g [0%nat] [2%nat] 2 it_d1_modal_o1 (8 * u) H9 H1 H2 H3 H4 ltac:(discriminate) H5 H6 H7 H8 ltac:(discriminate)) with (lo := starts) (up := ends) (eps := 40 * u)
    as (gr & w & E & _ & _ & V).
  - intros c [<-|[]]. cbn. lia.
  - pose proof u_pos. lra.
  - exact H11.
  - discriminate.
  - discriminate.
  - intros a c H. destruct a as [|[|a]]; try discriminate H. injection H as <-. exists (mk_nda [3%nat] [0; 1; 2]).
    split; [reflexivity|]. split; [reflexivity|]. split; [reflexivity|]. split; [reflexivity|].
    change (nth 0 (refine (length [2%nat]) (gi_interp line_g) (gi_basis line_g)) 0 * 2)%nat with 4%nat. unfold starts, ends. split.
    + split; [apply (int_format 0); lia|]. split; [apply (int_format 2); lia|]. split; [lia|]. split; [lia|].
      replace ((2 - 0) / INR 4) with (bpow radix2 (-1)) by (cbn; lra). apply bpow_le. lia.
    + unfold slack. change unit_ with u. rewrite Rabs_R0, (Rabs_right 2), Rmax_right by lra. replace (INR 4) with 4 by (cbn; lra). pose proof u_pos. lra.
  - destruct (V 0%nat 0%nat eq_refl) as (x & Gx & _ & B). exists gr, w, x.
    destruct (C132_axes zdec cdot fev iroot idot_ isum_ ex_file line_g [0%nat]) as (-> & _). split; [exact E|]. split; [exact Gx|].
    change (refine (length [2%nat]) (gi_interp line_g) (gi_basis line_g)) with [2%nat] in B. change (refined_shape [2%nat] [2%nat]) with [4%nat] in B.
    assert (P : forall i k, cell_of [2%nat] [(2 * i + k)%nat] = [((2 * i + k) / 2)%nat]) by reflexivity. clear P.
    change (steps [4%nat]) with 5%nat in B. change (length [2%nat]) with 1%nat in B.
    unfold volume, rooms in B. cbn [length seq List.map fold_right nth sum_over] in B. unfold starts, ends in B.
    replace (INR 4) with 4 in B by (cbn; lra).
    assert (F0 : field_coefs (dd_values ex_file) (length it_d1_modal_o1) 0 [0%nat] = [Q2R m1; Q2R m0]) by reflexivity.
    assert (F1 : field_coefs (dd_values ex_file) (length it_d1_modal_o1) 0 [1%nat] = [Q2R 1; Q2R 0]) by reflexivity.
    unfold at_part, error_at in B.
    change (cell_of [2%nat] [0%nat]) with [0%nat] in B. change (cell_of [2%nat] [1%nat]) with [0%nat] in B. change (cell_of [2%nat] [2%nat]) with [1%nat] in B. change (cell_of [2%nat] [3%nat]) with [1%nat] in B.
    change (part_of [2%nat] [0%nat]) with [0%nat] in B. change (part_of [2%nat] [1%nat]) with [1%nat] in B. change (part_of [2%nat] [2%nat]) with [0%nat] in B. change (part_of [2%nat] [3%nat]) with [1%nat] in B.
    rewrite F0, F1 in B. change (length it_d1_modal_o1) with 2%nat in B.
    assert (C0 : centres [2%nat] [0%nat] = [- / 2]) by (unfold centres, Dg_Props5.centre; cbn; f_equal; lra).
    assert (C1 : centres [2%nat] [1%nat] = [/ 2]) by (unfold centres, Dg_Props5.centre; cbn; f_equal; lra).
    rewrite C0, C1 in B.
    pose proof m0_value as M0. pose proof m1_value as M1.
    assert (Q1 : Q2R 1 = 1) by (unfold Q2R; cbn; lra). assert (Q0 : Q2R 0 = 0) by (unfold Q2R; cbn; lra). rewrite Q0, Q1 in B.
    set (a := Q2R m0) in *. set (b := Q2R m1) in *.
    assert (X : forall p q t, expansion [p; q] it_d1_modal_o1 [t] = p * Q2R c0_ + q * (2 * Q2R c1_ * t)).
    { intros p q t. unfold expansion, it_d1_modal_o1. cbn [combine fold_right fst snd evalR nth]. unfold lit, Q2R, c0_, c1_. cbn. lra. }
    assert (Y : forall p q t, magnitude [p; q] it_d1_modal_o1 [t] = Rabs p * Rabs (Q2R c0_) + (Rabs q * Rabs (2 * Q2R c1_ * t) + 0)).
    { intros p q t. unfold it_d1_modal_o1. cbn [magnitude evalR nth].
      match goal with |- _ * Rabs ?x + (_ * Rabs ?y + 0) = _ => assert (E1 : x = Q2R c0_) by (unfold lit, Q2R, c0_; cbn; lra); assert (E2 : y = 2 * Q2R c1_ * t) by (unfold lit, Q2R, c1_; cbn; lra); rewrite E1, E2 end.
      reflexivity. }
    rewrite !X, !Y in B. unfold abs_sum in B. cbn [fold_right] in B.
    assert (K0 : 0.7 <= Q2R c0_ <= 0.71) by (unfold Q2R, c0_; cbn; lra). assert (K1 : 0.6 <= Q2R c1_ <= 0.62) by (unfold Q2R, c1_; cbn; lra).
    set (p := Q2R c0_) in *. set (q := Q2R c1_) in *. clearbody p q a b.
    rewrite (Rabs_right p), (Rabs_right a), (Rabs_right b), Rabs_R0, Rabs_R1 in B by lra.
    replace (2 * q * - / 2) with (- q) in B by lra. replace (2 * q * / 2) with q in B by lra. rewrite Rabs_Ropp, (Rabs_right q) in B by lra.
    assert (Z1 : Rabs (b * p + a * - q) <= 1) by (apply Rabs_le; nra). assert (Z2 : Rabs (b * p + a * q) <= 1) by (apply Rabs_le; nra).
    assert (Z3 : Rabs (1 * p + 0 * - q) <= 1) by (apply Rabs_le; nra). assert (Z4 : Rabs (1 * p + 0 * q) <= 1) by (apply Rabs_le; nra).
    set (z1 := Rabs (b * p + a * - q)) in *. set (z2 := Rabs (b * p + a * q)) in *. set (z3 := Rabs (1 * p + 0 * - q)) in *. set (z4 := Rabs (1 * p + 0 * q)) in *.
    replace (INR 2) with 2 in B by (cbn; lra).
    replace (_ * _ * (b * p + a * - q + (b * p + a * q + (1 * p + 0 * - q + (1 * p + 0 * q + 0))))) with (p * (b + 1)) in B by lra.
    apply Rle_trans with (1 := B). clear B V E Gx.
    pose proof u_pos as U0. pose proof u_small as U1. pose proof tiny_pos as T0. pose proof tiny_small as T1.
    destruct (pw_bound 5) as (A1 & A2); [replace (INR 5) with 5 by (cbn; lra); lra|]. destruct (pw_bound 2) as (B1 & B2); [replace (INR 2) with 2 by (cbn; lra); lra|].
    replace (INR 5) with 5 in A1 by (cbn; lra). replace (INR 2) with 2 in B1 by (cbn; lra). pose proof (pw_ge 5) as A3. pose proof (pw_ge 2) as B3.
    set (A := (1 + u) ^ 5) in *. set (D := (1 + u) ^ 2) in *. clearbody A D. rewrite pow_1.
    assert (e1 : 0 <= b * p + (a * q + 0) <= 1) by nra. assert (e2 : 0 <= 1 * p + (0 * q + 0) <= 1) by nra.
    set (g1 := b * p + (a * q + 0)) in *. set (g2 := 1 * p + (0 * q + 0)) in *.
    assert (W1 : (D - 1) * g1 + D * (8 * u * (b + (a + 0)) + 2 * tiny) <= 40 * u).
    { assert ((D - 1) * g1 <= 4 * u * 1) by (apply Rmult_le_compat; lra). assert (8 * u * (b + (a + 0)) <= 8 * u * 1.4) by (apply Rmult_le_compat_l; lra).
      assert (D * (8 * u * (b + (a + 0)) + 2 * tiny) <= 2 * (8 * u * 1.4 + u)) by (apply Rmult_le_compat; nra). lra. }
    assert (W2 : (D - 1) * g2 + D * (8 * u * (1 + (0 + 0)) + 2 * tiny) <= 40 * u).
    { assert ((D - 1) * g2 <= 4 * u * 1) by (apply Rmult_le_compat; lra).
      assert (D * (8 * u * (1 + (0 + 0)) + 2 * tiny) <= 2 * (8 * u + u)) by (apply Rmult_le_compat; lra). lra. }
    set (w1 := (D - 1) * g1 + D * (8 * u * (b + (a + 0)) + 2 * tiny)) in *. set (w2 := (D - 1) * g2 + D * (8 * u * (1 + (0 + 0)) + 2 * tiny)) in *.
    assert (AE : A * (1 + 40 * u) - 1 <= 100 * u) by nra. assert (AE1 : 0 <= A * (1 + 40 * u) - 1) by nra.
    assert (Rabs_z : 0 <= z1 /\ 0 <= z2 /\ 0 <= z3 /\ 0 <= z4) by (repeat split; apply Rabs_pos).
    assert (Wp : 0 <= w1 /\ 0 <= w2).
    { split; [unfold w1|unfold w2]; apply Rplus_le_le_0_compat; apply Rmult_le_pos; try lra; apply Rplus_le_le_0_compat; try lra; apply Rmult_le_pos; lra. }
    set (K := A * (1 + 40 * u)) in *. clearbody K w1 w2 z1 z2 z3 z4.
    replace ((2 - 0) / 4 * 1) with (/ 2) by lra.
    assert (V1 : (K - 1) * (/ 2 * (z1 + (z2 + (z3 + (z4 + 0))))) <= 100 * u * 2) by (apply Rmult_le_compat; lra).
    assert (V2 : K * (/ 2 * (w1 + (w1 + (w2 + (w2 + 0))))) <= 2 * (80 * u)) by (apply Rmult_le_compat; lra).
    assert (V3 : A * ((2 - 0 + 4) * 1 * tiny) <= 2 * (6 * u)) by (apply Rmult_le_compat; lra).
    lra.
Qed.

Print Assumptions C132_number.
Print Assumptions C132_axes.
