(** * C126: the time trace of integrated files *)
From Coq Require Import String Ascii List Arith ZArith Bool Lia Reals Lra Permutation Sorted.
From Coquelicot Require Import Coquelicot.
From Verif Require Import Prelude PreludeFacts NdArray Gkyl_Model Gkyl_Spec Gkyl_Proofs Gkyl_Props Msgpack_Model Msgpack_Spec Msgpack_Props
  Dg_Poly Dg_TabI Dg_TabD Dg_Model Dg_Spec Dg_Props Dg_Props3 Dg_Sem Dg_Props5 Dg_Props8 DgCmd_Model Tools_Arr Calc_Model Draw_Model Draw_Spec Draw_Proofs Draw_Proofs2 Draw_Props
  Show_Model Show_Spec Show_Proofs Show_Props Part_Proofs Amount_Model Amount_Spec Amount_Proofs Amount_Props Trace_Model Trace_Spec Trace_Proofs.
Import ListNotations.
Open Scope string_scope. Open Scope list_scope. Open Scope nat_scope.

Lemma some_functions dim p b fs : interp_functions dim p true b = Ok fs -> 1 <= length fs.
Proof.
  intros Hfs. destruct fs as [|? ?]; [|cbn; lia]. exfalso. revert Hfs. unfold interp_functions. cbn [andb negb].
  repeat match goal with
  | |- (if Nat.eqb _ ?k then _ else _) = _ -> _ => destruct (Nat.eqb _ k)
  | |- (if String.eqb _ ?k then _ else _) = _ -> _ => destruct (String.eqb _ k)
  | |- Err _ = Ok _ -> _ => discriminate
  end; discriminate.
Qed.

Lemma line_holds (l : list R) m : length l = m -> holds [m] (line_nda l) (fun x => nth (hd 0 x) l 0%R).
Proof.
  intros <-. split; [unfold wf, line_nda; cbn [flat shape]; unfold prod; cbn [fold_right]; lia|]. split; [reflexivity|].
  intros x Hx. apply in_one in Hx as (i & -> & Hi). cbn [hd]. unfold get, line_nda. cbn [shape flat ravel]. rewrite (proj2 (Nat.ltb_lt _ _) Hi). unfold prod. cbn [fold_right option_map]. rewrite Nat.mul_1_r, Nat.add_0_r. now apply nth_error_nth'.
Qed.

Lemma zeros_after j m : forall s, 0 < s -> List.map (fun k => if k =? 0 then j else 0) (seq s m) = repeat 0 m.
Proof.
  induction m as [|m IH]; intros s Hs; [reflexivity|]. cbn [seq List.map repeat]. rewrite (proj2 (Nat.eqb_neq s 0)) by lia. f_equal. apply IH. lia.
Qed.

Section C126.
  Context (dec : nat -> list Z -> R) (root : nat -> nat -> nat) (stored : nat -> nat -> res (list (list R)))
          (word : list Z -> R) (argsort : list R -> list nat).
  Context (io : dgopts) (b : string) (p n : nat) (fs : list pexp) (dim : nat).

  Definition values_of (fr : frame) : list Z -> R := dec (width_of (fr_rt fr)).
  Definition parts_of (fr : frame) : list nat := refined_shape (fd_cells (fr_field fr)) (refine dim n b).
  Definition fields_of (fr : frame) : nat := fd_nc (fr_field fr) / length fs.

  (** A file with a field in [dim] dimensions that can be interpolated. *)
  Definition fine_file (fr : frame) : Prop :=
    drawable dec root (fr_rt fr) (fr_meta fr) (fr_dict fr) (fr_field fr) io b p n fs /\
    Part_Proofs.stores (fr_rt fr) (fr_meta fr) (fr_field fr) (fr_file fr) /\ length (fd_cells (fr_field fr)) = dim.

  (** A run: such files with the same number of fields, at the times [ts]. *)
  Definition run (nf : nat) (frs : list frame) (ts : list R) : Prop :=
    frs <> [] /\ length ts = length frs /\
    forall i fr, nth_error frs i = Some fr -> fine_file fr /\ fields_of fr = nf /\ stamped word i (fr_dict fr) (nth i ts 0%R).

  Lemma fine_opened fr : fine_file fr -> exists g, open_meta dec (fr_file fr) = Ok g /\ reads (fr_dict fr) (l_ctx g).
  Proof.
    intros (Hd & Hs & _). destruct Hd as (Hg & Hm & Pc & _ & _ & _ & _ & _ & Hr & Hfs & Hnc & _). pose proof (some_functions _ _ _ _ Hfs) as F1.
    apply (open_reads dec (fr_rt fr) (fr_meta fr) (fr_dict fr) (fr_field fr)); [exact Hg|exact Hm|exact Hs|lia|exact Pc].
  Qed.

  Lemma run_dim nf frs ts : run nf frs ts -> 1 <= dim.
  Proof.
    intros (Hne & _ & H). destruct frs as [|fr frs]; [contradiction|]. destruct (H 0 fr eq_refl) as ((Hd & _ & <-) & _ & _).
    destruct Hd as (_ & _ & _ & _ & _ & _ & _ & _ & Hr & _). apply Hr.
  Qed.

  Lemma opened_at frs gs k g : List.Forall2 (fun f g => open_meta dec f = Ok g) (List.map fr_file frs) gs -> nth_error gs k = Some g ->
    exists fr, nth_error frs k = Some fr /\ open_meta dec (fr_file fr) = Ok g.
  Proof.
    revert gs k. induction frs as [|fr frs IH]; intros gs k F2 Hk; cbn [List.map] in F2; inversion F2 as [|x y l l' Hxy F2']; subst; [now destruct k|].
    destruct k as [|k]; cbn [nth_error] in *; [exists fr; split; [reflexivity|congruence]|]. exact (IH _ _ F2' Hk).
  Qed.

  Lemma fine_integrated fr : fine_file fr ->
    exists w, interpolate_integrate dec root stored (fr_file fr) io (all_axes dim)
        = Ok (List.map (fun a => [((low (values_of fr) (fr_field fr) a + high (values_of fr) (fr_field fr) a) / 2)%R]) (seq 0 dim), w) /\
      shape w = repeat 1 dim ++ [fields_of fr] /\
      (forall z c, in_range (repeat 1 dim) z -> c < fields_of fr ->
        midpoint_sum (values_of fr) (fr_field fr) fs (parts_of fr) c (val w (z ++ [c]))) /\
      (p = 1 -> b = "serendipity" \/ b = "maximal-order" \/ b = "tensor" ->
       forall z c, in_range (repeat 1 dim) z -> c < fields_of fr -> val w (z ++ [c]) = amount (values_of fr) (fr_field fr) fs c).
  Proof.
    intros (Hd & Hs & Ld). pose proof Hd as (Hg & Hm & Pc & _ & _ & _ & _ & _ & _ & Hfs & Hnc & _).
    destruct (C122_sum dec root stored _ _ _ _ io b p n fs Hd) as (w & f & E & (Ww & Sw & V) & Hf). rewrite Ld in E, Sw, V, Hf.
    assert (P : 0 < fd_nc (fr_field fr)) by (pose proof (some_functions _ _ _ _ Hfs); lia).
    exists w. split.
    { etransitivity; [|exact E]. unfold interpolate_integrate. now rewrite (open_stores dec _ _ _ _ _ Hg Hm Hs P Pc). }
    split; [exact Sw|]. split.
    - intros z c Hz Hc. exists (fun q => f q c). split.
      + intros q Hq. rewrite Ld. apply Hf; [exact Hc|exact Hq].
      + unfold val. rewrite V by (apply in_range_snoc; auto). now rewrite last_snoc.
    - intros -> Hb z c Hz Hc. destruct (C122_exact dec root stored _ _ _ _ io b n fs Hd Hb) as (g' & w' & E' & (_ & _ & V')). rewrite Ld in E', V'.
      rewrite E in E'. inversion E'; subst. unfold val. rewrite V' by (apply in_range_snoc; auto). now rewrite last_snoc.
  Qed.

  Lemma run_results frs : (forall i fr, nth_error frs i = Some fr -> fine_file fr) ->
    exists res_of : nat -> list (list R) * nda R, forall i fr, nth_error frs i = Some fr ->
      interpolate_integrate dec root stored (fr_file fr) io (all_axes dim) = Ok (res_of i) /\ shape (snd (res_of i)) = repeat 1 dim ++ [fields_of fr].
  Proof.
    intros H. exists (fun i => match nth_error frs i with
       | Some fr => match interpolate_integrate dec root stored (fr_file fr) io (all_axes dim) with Ok r => r | Err _ => ([], mk_nda [] []) end
       | None => ([], mk_nda [] []) end).
    intros i fr Hi. destruct (fine_integrated fr (H i fr Hi)) as (w & E & Sw & _). rewrite Hi, E. now split.
  Qed.

  (** What is collected from a run. *)
  Definition collected (nf : nat) (frs : list frame) (ts : list R) (row : frame -> nat -> R -> Prop) : Prop :=
    exists first v, nth_error frs 0 = Some first /\
      trace dec root stored word argsort (List.map fr_file frs) io (all_axes dim)
        = Ok (List.map (fun k => nth k ts 0%R) (argsort ts)
              :: List.map (fun a => [((low (values_of first) (fr_field first) a + high (values_of first) (fr_field first) a) / 2)%R]) (seq 0 dim), v) /\
      wf v /\ shape v = length frs :: repeat 1 dim ++ [nf] /\
      forall j k fr z c, nth_error (argsort ts) j = Some k -> nth_error frs k = Some fr -> in_range (repeat 1 dim) z -> c < nf ->
        exists r, get v (j :: z ++ [c]) = Some r /\ row fr c r.

  Lemma collected_by nf frs ts (row : frame -> nat -> R -> Prop) : run nf frs ts -> ordered ts (argsort ts) -> 1 <= dim ->
    (forall fr w, fine_file fr -> fields_of fr = nf -> 
       shape w = repeat 1 dim ++ [fields_of fr] ->
       (forall z c, in_range (repeat 1 dim) z -> c < fields_of fr -> midpoint_sum (values_of fr) (fr_field fr) fs (parts_of fr) c (val w (z ++ [c]))) ->
       (p = 1 -> b = "serendipity" \/ b = "maximal-order" \/ b = "tensor" ->
        forall z c, in_range (repeat 1 dim) z -> c < fields_of fr -> val w (z ++ [c]) = amount (values_of fr) (fr_field fr) fs c) ->
       forall z c, in_range (repeat 1 dim) z -> c < nf -> row fr c (val w (z ++ [c]))) ->
    collected nf frs ts row.
  Proof.
    intros (Hne & Lt & H) Ho D1 Hrow. set (N := length frs) in *.
    pose (res_of := fun i => match nth_error frs i with
       | Some fr => match interpolate_integrate dec root stored (fr_file fr) io (all_axes dim) with Ok r => r | Err _ => ([], mk_nda [] []) end
       | None => ([], mk_nda [] []) end).
    assert (Hr : forall i fr, nth_error frs i = Some fr -> exists w, interpolate_integrate dec root stored (fr_file fr) io (all_axes dim) = Ok (res_of i) /\
      res_of i = (List.map (fun a => [((low (values_of fr) (fr_field fr) a + high (values_of fr) (fr_field fr) a) / 2)%R]) (seq 0 dim), w) /\
      shape w = repeat 1 dim ++ [nf] /\ forall z c, in_range (repeat 1 dim) z -> c < nf -> row fr c (val w (z ++ [c]))).
    { intros i fr Hi. destruct (H i fr Hi) as (Hf & Hn & _). destruct (fine_integrated fr Hf) as (w & E & Sw & V1 & V2). exists w.
      unfold res_of. rewrite Hi, E. split; [reflexivity|]. split; [reflexivity|]. split; [now rewrite <- Hn|]. exact (Hrow fr w Hf Hn Sw V1 V2). }
    destruct (run_stages dec root stored word argsort (List.map fr_file frs) io (all_axes dim) res_of) as (gs & F2 & E).
    { intros i f Hi. rewrite nth_error_map in Hi. destruct (nth_error frs i) as [fr|] eqn:Ei; [|discriminate]. inversion Hi; subst f. now destruct (Hr i fr Ei) as (w & E & _). }
    { intros f Hf. apply in_map_iff in Hf as (fr & <- & Hin). apply In_nth_error in Hin as (i & Hi). destruct (H i fr Hi) as (Hf & _ & _).
      destruct (fine_opened fr Hf) as (g & E & _). now exists g. }
    assert (Es : mapM (fun q : nat * loaded (F := R) (M := mval) => stamp word (fst q) (l_ctx (snd q))) (combine (seq 0 (length gs)) gs) = Ok ts).
    { rewrite (mapM_each _ _ (fun i => nth i ts 0%R)).
      - f_equal. rewrite combine_length, seq_length, Nat.min_id. pose proof (Forall2_length _ _ _ F2) as L. rewrite map_length in L. rewrite <- L. fold N. rewrite <- Lt.
        clear. induction ts as [|t l IH]; [reflexivity|]. cbn [length seq List.map nth]. f_equal. rewrite <- seq_shift, map_map. exact IH.
      - intros i [k g] Hi. rewrite nth_error_combine_seq in Hi. destruct (nth_error gs i) as [g'|] eqn:Eg; [|discriminate]. cbn in Hi. inversion Hi; subst. cbn [fst snd].
        destruct (nth_error frs k) as [fr|] eqn:Ef.
        2:{ exfalso. apply nth_error_None in Ef. pose proof (Forall2_length _ _ _ F2) as L. rewrite map_length in L. assert (k < length gs) by (apply nth_error_Some; congruence). lia. }
        destruct (H k fr Ef) as (Hf & _ & Hst). destruct (fine_opened fr Hf) as (g' & Eo & Hrd).
        assert (Eo' : open_meta dec (fr_file fr) = Ok g).
        { clear - F2 Ef Eg. apply (map_nth_error fr_file) in Ef. revert k Ef Eg. induction F2 as [|x y l l' Hxy _ IH]; intros [|k] Ef Eg; cbn in *; try discriminate; [congruence|eauto]. }
        rewrite Eo in Eo'. inversion Eo'; subst g'. exact (stamp_stamped word k (fr_dict fr) (l_ctx g) _ Hrd Hst). }
    rewrite Es in E. cbn [bind] in E. rewrite map_length in E. fold N in E.
    destruct (nth_error frs 0) as [first|] eqn:E0; [|destruct frs; [contradiction|discriminate]].
    destruct (Hr 0 first E0) as (w0 & _ & R0 & _).
    destruct (collect_rows argsort ts res_of N (repeat 1 dim ++ [nf]) Ho Lt) as (v & Ev & Wv & Sv & Vv).
    { unfold N. destruct frs; [contradiction|cbn; lia]. }
    { rewrite R0. cbn [fst]. intros X. apply (f_equal (@length _)) in X. rewrite map_length, seq_length in X. cbn in X. lia. }
    { intros i Hi. destruct (nth_error frs i) as [fr|] eqn:Ei; [|apply nth_error_None in Ei; fold N in Ei; lia]. destruct (Hr i fr Ei) as (w & _ & R' & Sw & _). rewrite R'. exact Sw. }
    exists first, v. split; [exact E0|]. split; [rewrite E, Ev, R0; reflexivity|]. split; [exact Wv|]. split; [exact Sv|].
    intros j k fr z c Hj Hk Hz Hc. destruct (Hr k fr Hk) as (w & _ & R' & _ & Hw).
    exists (val w (z ++ [c])). split; [|now apply Hw]. rewrite Vv.
    - cbn [hd tl]. rewrite (nth_error_nth _ _ _ Hj), R'. reflexivity.
    - constructor; [|apply in_range_snoc; auto]. destruct Ho as (Hp & _). rewrite <- Lt. rewrite <- (seq_length (length ts) 0), <- (Permutation_length Hp). apply nth_error_Some. congruence.
  Qed.

  (** Any family and order: the times in order, and for each file at its time the
      sums of the values at the centres of equal parts times their volume. *)
  Theorem C126_collected nf frs ts : run nf frs ts -> ordered ts (argsort ts) ->
    collected nf frs ts (fun fr c r => midpoint_sum (values_of fr) (fr_field fr) fs (parts_of fr) c r).
  Proof.
    intros Hr Ho. apply collected_by; [exact Hr|exact Ho|exact (run_dim _ _ _ Hr)|].
    intros fr w _ Hn _ V _ z c Hz Hc. apply V; [exact Hz|now rewrite Hn].
  Qed.

  (** Order 1: the integrals over the domain. *)
  Theorem C126_exact nf frs ts : run nf frs ts -> ordered ts (argsort ts) -> p = 1 -> b = "serendipity" \/ b = "maximal-order" \/ b = "tensor" ->
    collected nf frs ts (fun fr c r => r = amount (values_of fr) (fr_field fr) fs c).
  Proof.
    intros Hr Ho Hp Hb. apply collected_by; [exact Hr|exact Ho|exact (run_dim _ _ _ Hr)|].
    intros fr w _ Hn _ _ V z c Hz Hc. apply V; [exact Hp|exact Hb|exact Hz|now rewrite Hn].
  Qed.

  (** The plot of what is collected: one curve for each field, over the times in
      order. *)
  Lemma collected_curve nf frs ts row o : collected nf frs ts row -> ordered ts (argsort ts) -> length ts = length frs -> 2 <= length frs -> 1 <= dim <= 5 ->
    exists calls labels, trace_plot dec root stored word argsort (List.map fr_file frs) io (all_axes dim) o = Ok (calls, labels) /\
      length calls = nf / (if o_stream o || o_quiver o then 2 else 1) /\ (exists l, labels = 0 :: l) /\
      forall c cs, nth_error calls c = Some cs -> exists x y, cs = [Curve x y] /\
        holds [length frs] x (fun i => (nth (nth (hd 0%nat i) (argsort ts) 0%nat) ts 0 + o_xshift o) * o_xscale o)%R /\
        wf y /\ shape y = [length frs] /\
        forall j k fr, nth_error (argsort ts) j = Some k -> nth_error frs k = Some fr ->
          exists r, row fr c r /\ get y [j] = Some ((r + o_yshift o) * o_yscale o)%R.
  Proof.
    intros (first & v & Ef & E & Wv & Sv & V) (Hp & _) Lt N2 Hd. set (N := length frs) in *.
    assert (Lo : length (argsort ts) = N) by (rewrite (Permutation_length Hp), seq_length; exact Lt).
    assert (Dv : removelast (shape v) = N :: repeat 1 dim).
    { rewrite Sv. rewrite app_comm_cons. apply removelast_snoc. }
    set (times := List.map (fun k => nth k ts 0%R) (argsort ts)) in *.
    set (X := fun a i : nat => if a =? 0 then nth i times 0%R else ((low (values_of first) (fr_field first) (a - 1) + high (values_of first) (fr_field first) (a - 1)) / 2)%R).
    assert (Lr : length (repeat 1 dim) = dim) by apply repeat_length.
    assert (D : dataset false (N :: repeat 1 dim) X nf (fun q c => val v (q ++ [c]))
        (mk_pd (List.map line_nda (times :: List.map (fun a => [((low (values_of first) (fr_field first) a + high (values_of first) (fr_field first) a) / 2)%R]) (seq 0 dim)))
               (N :: repeat 1 dim) v)).
    { split; [constructor; [lia|]; apply Forall_forall; intros m Hm; apply repeat_spec in Hm; lia|].
      split; [cbn [length]; rewrite Lr; lia|]. split; [|split; [reflexivity|]].
      - split; [cbn [p_grid List.map length]; now rewrite !map_length, seq_length, Lr|].
        intros [|a] g m Hg Hm; cbn [p_grid List.map nth_error] in Hg, Hm.
        + inversion Hg; subst g. inversion Hm; subst m. unfold points. cbn [X Nat.eqb]. apply line_holds. unfold times. now rewrite map_length, Lo.
        + rewrite map_map in Hg. destruct (nth_error (seq 0 dim) a) as [a'|] eqn:Ea.
          2:{ apply nth_error_None in Ea. rewrite seq_length in Ea. rewrite (proj2 (nth_error_None _ _)) in Hm by (rewrite Lr; exact Ea). discriminate. }
          rewrite (map_nth_error _ _ _ Ea) in Hg. inversion Hg; subst g. rewrite nth_error_seq in Ea. destruct (Nat.ltb_spec a dim); [|discriminate]. inversion Ea; subst a'.
          rewrite (nth_error_repeat 1) in Hm by lia. inversion Hm; subst m. unfold points.
          apply (holds_ext _ _ (fun x => nth (hd 0 x) [((low (values_of first) (fr_field first) a + high (values_of first) (fr_field first) a) / 2)%R] 0%R)); [now apply line_holds|].
          intros x Hx. apply in_one in Hx as (i & -> & Hi). assert (i = 0) by lia. subst i. unfold X. cbn [hd nth Nat.eqb]. cbn [Nat.sub]. now rewrite Nat.sub_0_r.
      - split; [exact Wv|]. split; [exact Sv|]. intros x c Hx Hc. cbn [p_vals]. unfold val.
        inversion Hx as [|j m z sh Hj Hz]; subst. cbn [app].
        destruct (nth_error (argsort ts) j) as [k|] eqn:Ek; [|apply nth_error_None in Ek; lia].
        destruct (nth_error frs k) as [fr|] eqn:Ek'.
        + destruct (V j k fr z c Ek Ek' Hz Hc) as (r & G & _). now rewrite G.
        + exfalso. apply nth_error_In in Ek. apply (Permutation_in _ Hp) in Ek. apply in_seq in Ek. apply nth_error_None in Ek'. fold N in Ek'. lia. }
    assert (A : only_axis (N :: repeat 1 dim) 0 N).
    { split; [exact N2|]. split; [reflexivity|]. intros [|k] m Hk Hm; [lia|]. cbn [nth_error] in Hm. apply nth_error_In, repeat_spec in Hm. exact Hm. }
    destruct (C90_line o _ _ _ _ _ _ _ _ D A) as (calls & labels & Ep & Lc & Hl & Hc).
    exists calls, labels. split; [|split; [exact Lc|split; [exact Hl|]]].
    { unfold trace_plot. rewrite E. cbn [bind fst snd]. rewrite Dv. exact Ep. }
    intros c cs Hcs. destruct (Hc c cs Hcs) as (x & y & -> & Hx & (Wy & Sy & Vy)). exists x, y. split; [reflexivity|]. split.
    { eapply holds_ext; [exact Hx|]. intros i Hi. apply in_one in Hi as (j & -> & Hj). cbn [hd]. unfold mid_of, X. cbn [Nat.eqb]. f_equal. f_equal. unfold times.
      rewrite (nth_indep _ 0%R (nth 0 ts 0%R)) by (rewrite map_length; lia). exact (map_nth (fun k => nth k ts 0%R) (argsort ts) 0 j). }
    split; [exact Wy|]. split; [exact Sy|]. intros j k fr Hj Hk.
    assert (Lc' : c < nf).
    { assert (Hlt : c < length calls) by (apply nth_error_Some; congruence). rewrite Lc in Hlt.
      destruct (o_stream o || o_quiver o); [|now rewrite Nat.div_1_r in Hlt]. pose proof (Nat.mul_div_le nf 2). lia. }
    assert (Hz : in_range (repeat 1 dim) (repeat 0 dim)) by (clear; induction dim as [|m IH]; cbn [repeat]; constructor; [lia|exact IH]).
    destruct (V j k fr (repeat 0 dim) c Hj Hk Hz Lc') as (r & G & Hrow). exists r. split; [exact Hrow|].
    assert (Lj : j < N) by (rewrite <- Lo; apply nth_error_Some; congruence).
    rewrite Vy by (constructor; [exact Lj|constructor]). cbn [hd]. f_equal. f_equal. f_equal.
    replace (cell1 (length (N :: repeat 1 dim)) 0 j) with (j :: repeat 0 dim).
    - cbn [app]. unfold val. now rewrite G.
    - unfold cell1. cbn [length]. rewrite Lr. cbn [seq List.map Nat.eqb]. f_equal. symmetry. apply zeros_after. lia.
  Qed.

  (** The curve of a run: the time of each file, and the integral of the field in it. *)
  Theorem C126_curve nf frs ts o : run nf frs ts -> ordered ts (argsort ts) -> p = 1 -> b = "serendipity" \/ b = "maximal-order" \/ b = "tensor" ->
    2 <= length frs -> dim <= 5 ->
    exists calls labels, trace_plot dec root stored word argsort (List.map fr_file frs) io (all_axes dim) o = Ok (calls, labels) /\
      length calls = nf / (if o_stream o || o_quiver o then 2 else 1) /\ (exists l, labels = 0 :: l) /\
      forall c cs, nth_error calls c = Some cs -> exists x y, cs = [Curve x y] /\ shape x = [length frs] /\ shape y = [length frs] /\
        forall j k fr, nth_error (argsort ts) j = Some k -> nth_error frs k = Some fr ->
          get x [j] = Some ((nth k ts 0 + o_xshift o) * o_xscale o)%R /\
          get y [j] = Some ((amount (values_of fr) (fr_field fr) fs c + o_yshift o) * o_yscale o)%R.
  Proof.
    intros Hr Ho Hp Hb N2 H5. pose proof (run_dim _ _ _ Hr) as D1. pose proof Hr as (_ & Lt & _).
    destruct (collected_curve nf frs ts _ o (C126_exact nf frs ts Hr Ho Hp Hb) Ho Lt N2 (conj D1 H5)) as (calls & labels & E & L & Hl & Hc).
    exists calls, labels. split; [exact E|]. split; [exact L|]. split; [exact Hl|]. intros c cs Hcs.
    destruct (Hc c cs Hcs) as (x & y & -> & (Wx & Sx & Vx) & Wy & Sy & Vy). exists x, y. split; [reflexivity|]. split; [exact Sx|]. split; [exact Sy|].
    intros j k fr Hj Hk. destruct (Vy j k fr Hj Hk) as (r & -> & G). split; [|exact G]. rewrite Vx.
    - cbn [hd]. now rewrite (nth_error_nth _ _ _ Hj).
    - constructor; [|constructor]. destruct Ho as (Hpm & _). rewrite <- Lt, <- (seq_length (length ts) 0), <- (Permutation_length Hpm). apply nth_error_Some. congruence.
  Qed.

  (** A file without a time, or with a time of 0 and no frame, makes the command fail. *)
  Theorem C126_unstamped frs : (forall i fr, nth_error frs i = Some fr -> fine_file fr /\ ((exists t, stamped word i (fr_dict fr) t) \/ unstamped word (fr_dict fr))) ->
    (exists fr, In fr frs /\ unstamped word (fr_dict fr)) ->
    trace dec root stored word argsort (List.map fr_file frs) io (all_axes dim) = Err KeyError.
  Proof.
    intros H (fr0 & Hin0 & Hu).
    destruct (run_results frs (fun i fr Hi => proj1 (H i fr Hi))) as (res_of & Hz).
    destruct (run_stages dec root stored word argsort (List.map fr_file frs) io (all_axes dim) res_of) as (gs & F2 & E).
    { intros i f Hi. rewrite nth_error_map in Hi. destruct (nth_error frs i) as [fr|] eqn:Ei; [|discriminate]. inversion Hi; subst f. now destruct (Hz i fr Ei) as (E & _). }
    { intros f Hf. apply in_map_iff in Hf as (fr & <- & Hin). apply In_nth_error in Hin as (i & Hi). destruct (H i fr Hi) as (Hf & _).
      destruct (fine_opened fr Hf) as (g & E & _). now exists g. }
    rewrite E. rewrite (mapM_fails _ KeyError); [reflexivity| |].
    - intros [k g] Hk. apply In_nth_error in Hk as (i & Hi). rewrite nth_error_combine_seq in Hi. destruct (nth_error gs i) as [g'|] eqn:Eg; [|discriminate]. cbn in Hi. inversion Hi; subst. cbn [fst snd].
      destruct (opened_at frs gs k g F2 Eg) as (fr & Ef & Eo). destruct (H k fr Ef) as (Hf & Hst). destruct (fine_opened fr Hf) as (g' & Eo' & Hrd).
      rewrite Eo in Eo'. inversion Eo'; subst g'. destruct Hst as [(t & Hst)|Hst]; [left; exists t; exact (stamp_stamped word k (fr_dict fr) (l_ctx g) _ Hrd Hst)|right; exact (stamp_unstamped word k (fr_dict fr) (l_ctx g) Hrd Hst)].
    - apply In_nth_error in Hin0 as (i & Hi). destruct (nth_error gs i) as [g|] eqn:Eg.
      2:{ exfalso. apply nth_error_None in Eg. pose proof (Forall2_length _ _ _ F2) as L. rewrite map_length in L. assert (i < length frs) by (apply nth_error_Some; congruence). lia. }
      exists (i, g). split.
      + apply (nth_error_In _ i). rewrite nth_error_combine_seq, Eg. reflexivity.
      + cbn [fst snd]. destruct (opened_at frs gs i g F2 Eg) as (fr & Ef & Eo). rewrite Hi in Ef. inversion Ef; subst fr.
        destruct (H i fr0 Hi) as (Hf & _). destruct (fine_opened fr0 Hf) as (g' & Eo' & Hrd). rewrite Eo in Eo'. inversion Eo'; subst g'. exact (stamp_unstamped word i (fr_dict fr0) (l_ctx g) Hrd Hu).
  Qed.

  (** So does a different number of fields. *)
  Theorem C126_mixed frs ts i j fr fr' : length ts = length frs ->
    (forall i fr, nth_error frs i = Some fr -> fine_file fr /\ stamped word i (fr_dict fr) (nth i ts 0%R)) ->
    nth_error frs i = Some fr -> nth_error frs j = Some fr' -> fields_of fr <> fields_of fr' ->
    trace dec root stored word argsort (List.map fr_file frs) io (all_axes dim) = Err ValueError.
  Proof.
    intros Lt H Hi Hj D.
    destruct (run_results frs (fun i fr Hi => proj1 (H i fr Hi))) as (res_of & Hz).
    destruct (run_stages dec root stored word argsort (List.map fr_file frs) io (all_axes dim) res_of) as (gs & F2 & E).
    { intros k f Hk. rewrite nth_error_map in Hk. destruct (nth_error frs k) as [fk|] eqn:Ei; [|discriminate]. inversion Hk; subst f. now destruct (Hz k fk Ei) as (E & _). }
    { intros f Hf. apply in_map_iff in Hf as (fk & <- & Hin). apply In_nth_error in Hin as (k & Hk). destruct (H k fk Hk) as (Hf & _).
      destruct (fine_opened fk Hf) as (g & E & _). now exists g. }
    rewrite E. rewrite (mapM_each _ _ (fun i => nth i ts 0%R)).
    - cbn [bind]. apply (collect_mixed argsort _ res_of _ i j).
      + rewrite map_length. apply nth_error_Some. congruence.
      + rewrite map_length. apply nth_error_Some. congruence.
      + destruct (Hz i fr Hi) as (_ & ->). destruct (Hz j fr' Hj) as (_ & ->). intros X. apply app_inj_tail in X as (_ & X). contradiction.
    - intros m [k g] Hm. rewrite nth_error_combine_seq in Hm. destruct (nth_error gs m) as [g'|] eqn:Eg; [|discriminate]. cbn in Hm. inversion Hm; subst. cbn [fst snd].
      destruct (opened_at frs gs k g F2 Eg) as (fk & Ef & Eo). destruct (H k fk Ef) as (Hf & Hst). destruct (fine_opened fk Hf) as (g' & Eo' & Hrd).
      rewrite Eo in Eo'. inversion Eo'; subst g'. exact (stamp_stamped word k (fr_dict fk) (l_ctx g) _ Hrd Hst).
  Qed.
End C126.

(** ** Examples *)
(** A file with a time (a double whose first byte is [t]), a frame, and the values [u]. *)
Definition word0 (w : list Z) : R := IZR (nth 0 w 0%Z).
Definition timed_meta (t k : Z) : list Z :=
  ([132] ++ ([164] ++ codes "time") ++ (203 :: num t) ++ ([165] ++ codes "frame") ++ [k]
   ++ ([169] ++ codes "polyOrder") ++ [1] ++ ([169] ++ codes "basisType") ++ ([171] ++ codes "serendipity"))%Z.
Definition timed_dict (t k : Z) : list (mkey * mval) :=
  [((false, "time"), MF64 (num t)); ((false, "frame"), MInt k); ((false, "polyOrder"), MInt 1); ((false, "basisType"), MStr "serendipity")].
Definition timed (t k : Z) (fd : field) : frame := mk_frame 2 (timed_meta t k) (timed_dict t k) fd (field_bytes 2 (timed_meta t k) fd).
Definition line_file2 : field := mk_field [2] 2 [num 0] [num 4] [num 1; num 3; num 1; num 2].

Lemma timed_fine t k fd : good_field 2 8 (timed_meta t k) fd -> described (timed_meta t k) (timed_dict t k) ->
  fd_cells fd = [2] -> fd_nc fd = 2 -> fd_lower fd = [num 0] -> fd_upper fd = [num 4] ->
  fine_file byte0 iroot asis "serendipity" 1 2 it_d1_modal_o1 1 (timed t k fd) /\ fields_of it_d1_modal_o1 (timed t k fd) = 1.
Proof.
  intros Hg Hd Hc Hn Hl Hu. split; [|unfold fields_of; cbn [timed fr_field]; now rewrite Hn].
  unfold fine_file. cbn [timed fr_rt fr_meta fr_dict fr_field fr_file]. split; [|split; [now left|now rewrite Hc]].
  unfold drawable. rewrite Hc, Hn. change (length [2]) with 1. split; [exact Hg|]. split; [exact Hd|]. split; [repeat constructor|].
  split; [intros [|j] Hj; [unfold low, high, byte0; rewrite Hl, Hu; cbn; lra|lia]|]. split; [lia|].
  split.
  { exists "serendipity". split; [right; split; [reflexivity|]; split; [|split; [discriminate|]]|right; split; [intros (_ & E); discriminate E|reflexivity]].
    - exists "basisType". split; [now left|]. split; [right; right; right; now left|]. intros k' w Hk [E|[E|[E|[E|[]]]]]; inversion E; subst; try reflexivity; exfalso; destruct Hk as [X|[X|[]]]; discriminate X.
    - intros w [E|[E|[E|[E|[]]]]]; discriminate E. }
  split.
  { split; [lia|]. right. split; [reflexivity|]. exists "polyOrder". split; [now left|]. split; [right; right; now left|].
    intros k' w Hk [E|[E|[E|[E|[]]]]]; inversion E; subst; try reflexivity; exfalso; destruct Hk as [X|[X|[]]]; discriminate X. }
  split; [right; split; [now left|reflexivity]|]. split; [split; [lia|split; [discriminate|intros _; now left]]|].
  split; [reflexivity|]. split; [vm_compute; lia|]. intros m. apply (iroot_pow 1). lia.
Qed.

Ltac timed_tac := apply timed_fine; [good_field_tac|right; apply C118_only; [apply bytes_b; vm_compute; reflexivity|vm_compute; reflexivity]|reflexivity|reflexivity|reflexivity|reflexivity].

(** Two files given in the wrong order: times 2 and 1. *)
Definition swapped : list frame := [timed 2 7 line_file; timed 1 6 line_file2].
Example C126_hyps : run byte0 iroot word0 asis "serendipity" 1 2 it_d1_modal_o1 1 1 swapped [2; 1]%R.
Proof.
  split; [discriminate|]. split; [reflexivity|].
  intros [|[|i]] fr Hi; cbn [swapped nth_error] in Hi; [| |destruct i; discriminate]; inversion Hi; subst fr; cbn [nth].
  - assert (T : fine_file byte0 iroot asis "serendipity" 1 2 it_d1_modal_o1 1 (timed 2 7 line_file) /\ fields_of it_d1_modal_o1 (timed 2 7 line_file) = 1) by timed_tac.
    destruct T as (T1 & T2). split; [exact T1|]. split; [exact T2|]. apply (stamped_time _ _ _ (MF64 (num 2))); [now left|exact (number_double word0 (num 2))|lra].
  - assert (T : fine_file byte0 iroot asis "serendipity" 1 2 it_d1_modal_o1 1 (timed 1 6 line_file2) /\ fields_of it_d1_modal_o1 (timed 1 6 line_file2) = 1) by timed_tac.
    destruct T as (T1 & T2). split; [exact T1|]. split; [exact T2|]. apply (stamped_time _ _ _ (MF64 (num 1))); [now left|exact (number_double word0 (num 1))|lra].
Qed.

Lemma two_sorted (argsort : list R -> list nat) (s t : R) : (t < s)%R -> ordered [s; t] (argsort [s; t]) -> argsort [s; t] = [1; 0].
Proof.
  intros L (Hp & Hs). apply Permutation_sym in Hp. cbn [length seq] in Hp. apply Permutation_length_2_inv in Hp as [E|E]; [|exact E].
  exfalso. rewrite E in Hs. cbn [List.map nth] in Hs. inversion Hs as [|? ? _ F]; subst. inversion F; subst. lra.
Qed.

(** The curve starts with the second file. *)
Example C126_example : forall stored argsort, ordered [2; 1]%R (argsort [2; 1]%R) -> exists g v,
  trace byte0 iroot stored word0 argsort (List.map fr_file swapped) asis "0" = Ok ([1; 2]%R :: g, v) /\
  shape v = [2; 1; 1] /\
  get v [0; 0; 0] = Some (amount (byte0 8) line_file2 it_d1_modal_o1 0) /\ get v [1; 0; 0] = Some (22 * lit 7071067811865468 16)%R.
Proof.
  intros stored argsort Ho. pose proof (two_sorted argsort 2 1 ltac:(lra) Ho) as Ea.
  destruct (C126_exact byte0 iroot stored word0 argsort asis "serendipity" 1 2 it_d1_modal_o1 1 1 swapped [2; 1]%R C126_hyps Ho eq_refl (or_introl eq_refl)) as (first & v & _ & E & _ & Sv & V).
  rewrite Ea in E, V. cbn [List.map nth] in E. eexists. exists v. split; [exact E|]. split; [exact Sv|].
  assert (Z : in_range (repeat 1 1) [0]) by (repeat constructor).
  destruct (V 0 1 _ [0] 0 eq_refl eq_refl Z ltac:(lia)) as (r0 & G0 & ->). destruct (V 1 0 _ [0] 0 eq_refl eq_refl Z ltac:(lia)) as (r1 & G1 & ->).
  split; [exact G0|]. etransitivity; [exact G1|]. f_equal. exact C122_line_amount.
Qed.

(** A time of 0 is replaced by the number of the frame, so the axis need not be
    that of the times and the files need not be in their order: files at times 0
    and 1, of which the first is frame 3, end up at 3 and 1. *)
Theorem C126_times_refuted : exists dec root word io b n fs dim frs times,
  (forall i fr, nth_error frs i = Some fr -> fine_file dec root io b 1 n fs dim fr /\
     exists v, entry (fr_dict fr) "time" v /\ number word v (nth i times 0%R)) /\ length times = length frs /\
  (nth 0 times 0 < nth 1 times 0)%R /\
  forall stored argsort, (forall ts, ordered ts (argsort ts)) -> exists x g v fr,
    trace dec root stored word argsort (List.map fr_file frs) io (all_axes dim) = Ok (x :: g, v) /\
    ~ Permutation x times /\ nth_error frs 1 = Some fr /\ get v [0; 0; 0] = Some (amount (values_of dec fr) (fr_field fr) fs 0).
Proof.
  exists byte0, iroot, word0, asis, "serendipity", 2, it_d1_modal_o1, 1, [timed 0 3 line_file; timed 1 4 line_file2], [0; 1]%R.
  assert (T0 : fine_file byte0 iroot asis "serendipity" 1 2 it_d1_modal_o1 1 (timed 0 3 line_file) /\ fields_of it_d1_modal_o1 (timed 0 3 line_file) = 1) by timed_tac.
  assert (T1 : fine_file byte0 iroot asis "serendipity" 1 2 it_d1_modal_o1 1 (timed 1 4 line_file2) /\ fields_of it_d1_modal_o1 (timed 1 4 line_file2) = 1) by timed_tac.
  split.
  { intros [|[|i]] fr Hi; cbn [nth_error] in Hi; [| |destruct i; discriminate]; inversion Hi; subst fr; cbn [nth].
    - split; [apply T0|]. exists (MF64 (num 0)). split; [now left|exact (number_double word0 (num 0))].
    - split; [apply T1|]. exists (MF64 (num 1)). split; [now left|exact (number_double word0 (num 1))]. }
  split; [reflexivity|]. split; [cbn [nth]; lra|]. intros stored argsort Hall. pose proof (Hall [3; 1]%R) as Ho.
  assert (Hr : run byte0 iroot word0 asis "serendipity" 1 2 it_d1_modal_o1 1 1 [timed 0 3 line_file; timed 1 4 line_file2] [3; 1]%R).
  { split; [discriminate|]. split; [reflexivity|].
    intros [|[|i]] fr Hi; cbn [nth_error] in Hi; [| |destruct i; discriminate]; inversion Hi; subst fr; cbn [nth].
    - destruct T0 as (A & B). split; [exact A|]. split; [exact B|].
      apply (stamped_frame _ _ _ (MF64 (num 0)) (MInt 3)); [now left|right; exact (number_double word0 (num 0))|right; now left|constructor|lra].
    - destruct T1 as (A & B). split; [exact A|]. split; [exact B|]. apply (stamped_time _ _ _ (MF64 (num 1))); [now left|exact (number_double word0 (num 1))|lra]. }
  pose proof (two_sorted argsort 3 1 ltac:(lra) Ho) as Ea.
  destruct (C126_exact byte0 iroot stored word0 argsort asis "serendipity" 1 2 it_d1_modal_o1 1 1 _ [3; 1]%R Hr Ho eq_refl (or_introl eq_refl)) as (first & v & _ & E & _ & Sv & V).
  rewrite Ea in E, V. cbn [List.map nth] in E. eexists. eexists. exists v. eexists. split; [exact E|]. split.
  { intros P. apply (Permutation_in 3%R) in P; [|right; now left]. destruct P as [P|[P|[]]]; lra. }
  split; [reflexivity|]. destruct (V 0 1 _ [0] 0 eq_refl eq_refl ltac:(repeat constructor) ltac:(lia)) as (r0 & G0 & ->). exact G0.
Qed.

(** The file of [Amount_Props] says nothing about time. *)
Example C126_untimed : forall stored argsort,
  trace byte0 iroot stored word0 argsort [field_bytes 2 line_meta line_file] asis "0" = Err KeyError.
Proof.
  intros stored argsort.
  apply (C126_unstamped byte0 iroot stored word0 argsort asis "serendipity" 1 2 it_d1_modal_o1 1 [mk_frame 2 line_meta line_dict line_file (field_bytes 2 line_meta line_file)]).
  - intros [|i] fr Hi; cbn [nth_error] in Hi; [|destruct i; discriminate]. inversion Hi; subst fr. destruct C120_line_hyps as (H & L).
    split; [split; [exact H|split; [now left|exact L]]|]. right. left. intros v [X|[X|[]]]; discriminate X.
  - eexists. split; [now left|]. left. intros v [X|[X|[]]]; discriminate X.
Qed.

Print Assumptions C126_collected.
Print Assumptions C126_exact.
Print Assumptions C126_curve.
Print Assumptions C126_unstamped.
Print Assumptions C126_mixed.
Print Assumptions C126_times_refuted.
