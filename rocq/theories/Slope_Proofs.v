(** * Slopes of the field at the centres of the parts of a cell *)
From Coq Require Import String Ascii List Arith ZArith Bool Lia Reals Lra.
From Coquelicot Require Import Coquelicot.
From Verif Require Import Prelude PreludeFacts NdArray Gkyl_Spec Dg_Poly Dg_TabI Dg_TabD Dg_Model Dg_Spec Dg_Props3 Dg_Sem Dg_Gram Dg_Props5 DgCmd_Model Dg_Props8
  Show_Spec Show_Proofs Slope_Spec.
Import ListNotations.
Open Scope string_scope. Open Scope list_scope. Open Scope nat_scope.

(** The functions differentiated are those interpolated. *)
Lemma same_functions d p b fs : deriv_functions d p true b = Ok fs -> interp_functions d p true b = Ok fs.
Proof.
  unfold deriv_functions. cbn [andb negb].
  repeat match goal with
  | |- (if Nat.eqb d ?k then _ else _) = _ -> _ => destruct (Nat.eqb_spec d k) as [->|_]
  | |- (if String.eqb b ?k then _ else _) = _ -> _ => destruct (String.eqb_spec b k) as [->|_]
  | |- (if Nat.eqb p ?k then _ else _) = _ -> _ => destruct (Nat.eqb_spec p k) as [->|_]
  | |- Err _ = Ok _ -> _ => discriminate
  | |- (if false then _ else _) = _ -> _ => cbv beta iota
  end; intros [= <-]; vm_compute; reflexivity.
Qed.

(** Hybrid families are not differentiated. *)
Lemma plain_family d p b fs : deriv_functions d p true b = Ok fs -> right_dims d b -> b <> "gkhybrid" /\ b <> "hybrid".
Proof.
  intros H (R1 & R2 & R3). split; intros ->.
  - assert (2 <= d) by (apply R2; reflexivity). revert H. unfold deriv_functions. cbn [andb negb]. destruct (Nat.eqb_spec d 1); [lia|].
    cbn [String.eqb Ascii.eqb Bool.eqb]. repeat match goal with |- (if Nat.eqb d ?k then _ else _) = _ -> _ => destruct (Nat.eqb_spec d k) as [->|_] end; discriminate.
  - revert H. unfold deriv_functions. cbn [andb negb]. destruct (Nat.eqb_spec d 1) as [E|]; [destruct (R3 E) as [C|[C|C]]; discriminate|].
    cbn [String.eqb Ascii.eqb Bool.eqb]. repeat match goal with |- (if Nat.eqb d ?k then _ else _) = _ -> _ => destruct (Nat.eqb_spec d k) as [->|_] end; discriminate.
Qed.

Lemma nth_set_nth {A} k j (a d : A) l : k < length l -> nth j (set_nth k a l) d = if Nat.eqb j k then a else nth j l d.
Proof.
  revert k j. induction l as [|b l IH]; intros [|k] [|j] H; cbn [length] in H; try lia; cbn [set_nth nth Nat.eqb]; try reflexivity. apply IH. lia.
Qed.

Section Slopes.
  Context (dc : list Z -> R) (fd : field).
  Context (Hlh : forall d, d < length (fd_cells fd) -> (low dc fd d < high dc fd d)%R)
          (Pc : List.Forall (fun c => 0 < c) (fd_cells fd)).

  Lemma part_inside ns i s :
    length ns = length (fd_cells fd) -> List.Forall (fun n => 2 <= n) ns -> in_range (fd_cells fd) i -> in_range ns s ->
    inside dc fd i (mids dc fd ns (sub_index ns i s)) /\ reference dc fd i (mids dc fd ns (sub_index ns i s)) = centres ns s.
  Proof.
    intros Ln Pn Hi Hk. pose proof (Forall2_length _ _ _ Hi) as Li. pose proof (Forall2_length _ _ _ Hk) as Lk.
    assert (Pd : forall d, d < length (fd_cells fd) -> 0 < cells_along fd d /\ 0 < nth d ns 0).
    { intros d Hd. split; [exact (proj1 (Forall_forall _ _) Pc _ (nth_In _ _ Hd))|]. rewrite <- Ln in Hd. pose proof (proj1 (Forall_forall _ _) Pn _ (nth_In _ 0 Hd)) as H. cbv beta in H. lia. }
    assert (E : forall d, d < length (fd_cells fd) -> nth d (mids dc fd ns (sub_index ns i s)) 0%R
              = middle dc fd d (cells_along fd d * nth d ns 0) (nth d i 0 * nth d ns 0 + nth d s 0)).
    { intros d Hd. unfold mids. rewrite (nth_indep _ _ (middle dc fd 0 (cells_along fd 0 * nth 0 ns 0) (nth 0 (sub_index ns i s) 0))) by (rewrite map_length, seq_length; exact Hd).
      rewrite (map_nth (fun d => middle dc fd d (cells_along fd d * nth d ns 0) (nth d (sub_index ns i s) 0)) _ 0), seq_nth by exact Hd. cbn [Nat.add]. rewrite sub_index_nth by lia. reflexivity. }
    split; [split; [|split; [exact Hi|]]|].
    - unfold mids. now rewrite map_length, seq_length.
    - intros d Hd. rewrite (E d Hd). destruct (Pd d Hd) as (P1 & P2). apply part_place; auto. apply (in_range_nth ns s d Hk). lia.
    - unfold centres, reference. rewrite map2_seq by lia. rewrite Ln. apply map_ext_in. intros d Hd. apply in_seq in Hd. destruct Hd as (_ & Hd). cbn [Nat.add] in Hd.
      rewrite (E d Hd). destruct (Pd d Hd) as (P1 & P2). apply part_place; auto. apply (in_range_nth ns s d Hk). lia.
  Qed.

  Lemma reference_nth i xs j : j < length (fd_cells fd) ->
    nth j (reference dc fd i xs) 0%R = (2 * (nth j xs 0 - edge dc fd j (cells_along fd j) (nth j i 0%nat))
         / (edge dc fd j (cells_along fd j) (S (nth j i 0%nat)) - edge dc fd j (cells_along fd j) (nth j i 0%nat)) - 1)%R.
  Proof.
    intros Hj. unfold reference. set (f := fun d => _).
    rewrite (nth_indep _ _ (f 0)) by (rewrite map_length, seq_length; exact Hj). now rewrite map_nth, seq_nth.
  Qed.

  Lemma slope_inside fs c i k xs D :
    inside dc fd i xs -> k < length (fd_cells fd) ->
    let lo := edge dc fd k (cells_along fd k) (nth k i 0) in let hi := edge dc fd k (cells_along fd k) (S (nth k i 0)) in
    is_derive (fun x => expansion (coefficients dc fd fs c i) fs (set_nth k (2 * (x - lo) / (hi - lo) - 1)%R (reference dc fd i xs)))
              (lo + (nth k (reference dc fd i xs) 0 + 1) / 2 * (hi - lo))%R D ->
    field_slope dc fd fs c k xs D.
  Proof.
    intros (Lx & Hi & Ins) Hk lo hi HD.
    pose proof (Ins k Hk) as Ik. fold lo hi in Ik.
    assert (Lr : length (reference dc fd i xs) = length (fd_cells fd)) by (unfold reference; now rewrite map_length, seq_length).
    exists (fun t => expansion (coefficients dc fd fs c i) fs (reference dc fd i (set_nth k t xs))), (Rmin (nth k xs 0 - lo) (hi - nth k xs 0))%R.
    split; [apply Rmin_pos; lra|]. split.
    - intros t Ht. exists i. split; [|reflexivity]. split; [now rewrite set_nth_length|]. split; [exact Hi|]. intros j Hj.
      rewrite nth_set_nth by lia. destruct (Nat.eqb_spec j k) as [->|N]; [|apply Ins; exact Hj]. fold lo hi.
      pose proof (Rmin_l (nth k xs 0 - lo)%R (hi - nth k xs 0)%R) as M1. pose proof (Rmin_r (nth k xs 0 - lo)%R (hi - nth k xs 0)%R) as M2.
      apply Rabs_def2 in Ht. lra.
    - rewrite (reference_nth i xs k Hk) in HD. fold lo hi in HD.
      replace (lo + (2 * (nth k xs 0 - lo) / (hi - lo) - 1 + 1) / 2 * (hi - lo))%R with (nth k xs 0%R) in HD by (field; lra).
      assert (X : forall t : R, set_nth k (2 * (t - lo) / (hi - lo) - 1)%R (reference dc fd i xs) = reference dc fd i (set_nth k t xs)).
      { intros t. symmetry.
        apply nth_ext with (d := 0%R) (d' := 0%R); [rewrite set_nth_length, Lr; unfold reference; now rewrite map_length, seq_length|].
        intros j Hj. assert (Hj' : j < length (fd_cells fd)) by (unfold reference in Hj; now rewrite map_length, seq_length in Hj).
        rewrite (nth_set_nth k j _ _ (reference dc fd i xs)) by lia. rewrite (reference_nth i (set_nth k t xs) j Hj'), (nth_set_nth k j t 0%R xs) by lia.
        destruct (Nat.eqb_spec j k) as [->|N]; [reflexivity|]. now rewrite (reference_nth i xs j Hj'). }
      eapply is_derive_ext; [|exact HD]. intros t. cbv beta. now rewrite <- X.
  Qed.
End Slopes.
