(** * C83: interpolate on nodal data *)
From Coq Require Import String List Arith ZArith QArith Reals Lia Lra Bool.
From Verif Require Import Prelude PreludeFacts NdArray Gkyl_Model Dg_Poly Dg_TabI Dg_TabD Dg_Model Dg_Spec
  Dg_Proofs Dg_Proofs2 Dg_Props Dg_Props2 Dg_Props3 Dg_Sem Dg_Int Dg_GramTab Dg_Gram Dg_Props5 Dg_Nodal
  Dg_Props6 DgCmd_Model.
Import ListNotations.
Open Scope string_scope.
Open Scope list_scope.
Open Scope nat_scope.

(** interpolate with [-b ns -p p -i n] on nodal data: all whole fields are
    evaluated, at the centres of [n] parts per direction, by the expansion in
    the functions of the nodes; the metadata stay. *)
Theorem C83_nodal root stored (o : dgopts) (x : idata) (p n E : nat) cells fs gr :
  let d := i_data x in
  o_basis o = Some "ns" -> o_poly o = Some p -> o_interp o = Some n -> o_read o = None -> i_modal x = Some false ->
  wf (dd_values d) -> shape (dd_values d) = cells ++ [E * length fs] -> 1 <= length cells -> 1 <= E ->
  interp_functions (length cells) p false "serendipity" = Ok fs -> 2 <= n ->
  make_1d_grids rops (repeat (root (length cells) (n ^ length cells)) (length cells)) (dd_grid d) (length cells) None = Ok gr ->
  let ns := repeat n (length cells) in
  exists v,
    interpolate_data rops rdot evalR root stored o x
      = Ok (mk_idata (mk_dgdata v (List.map line_nda gr) (dd_grid_type d) (dd_basis d) (dd_poly d) (dd_ncdim d) (dd_nvdim d)) (Some false)) /\
    wf v /\ shape v = refined_shape cells ns ++ [E] /\
    forall c i k, c < E -> in_range cells i -> in_range ns k ->
      exists u, length u = length fs /\
        (forall m, m < length fs -> nth_error u m = get (dd_values d) (i ++ [c + m * E])) /\
        get v (sub_index ns i k ++ [c]) = Some (expansion u fs (centres ns k)).
Proof.
  intros d Hb Hp Hi Hr Hm W Sh L1 HE Hfs Hn Hgr ns.
  assert (Hd : dd_dims d = length cells) by (unfold dd_dims; rewrite Sh, removelast_last; reflexivity).
  destruct (C55_interpolated_value root d p n E (seq 0 E) cells fs W Sh L1 Hfs Hn) with (gr := gr)
    as (v & Ev & Wv & Sv & Vv); [destruct E; [lia|discriminate]|intros c Hc; apply in_seq in Hc; lia|exact Hgr|].
  fold ns in Sv, Vv. rewrite seq_length in Sv. exists v. split; [|split; [exact Wv|split; [exact Sv|]]].
  - revert Ev. unfold interpolate_data, nodal_interpolate, nodal_init, nodal_object, nodal_matrix, use_modal, no_basis.
    fold d. rewrite Hb, Hp, Hi, Hr, Hm. cbn [opt_basis String.eqb Ascii.eqb Bool.eqb bind].
    destruct (get_num_nodes (dd_dims d) p "serendipity") as [nn|e] eqn:N; cbn [bind]; [|discriminate].
    destruct (create_interp_matrix rops evalR (dd_dims d) p "serendipity" n false false) as [cmat|e]; cbn [bind]; [|discriminate].
    assert (dd_ncomps d / nn = E) as ->.
    { assert (Hl : nn = length fs /\ 1 <= length fs).
      { rewrite Hd in N. clear - N Hfs. revert Hfs N. unfold interp_functions. generalize (length cells) as d. intros d. cbn [andb negb].
        repeat match goal with
        | |- (if Nat.eqb d ?k then _ else _) = _ -> _ => destruct (Nat.eqb_spec d k) as [->|_]
        | |- (if String.eqb ?b ?k then _ else _) = _ -> _ => destruct (String.eqb_spec b k); [|try congruence]
        | |- (if Nat.eqb p ?k then _ else _) = _ -> _ => destruct (Nat.eqb_spec p k) as [->|_]
        | |- Err _ = Ok _ -> _ => discriminate
        | |- (if false then _ else _) = _ -> _ => cbv beta iota
        end; intros [= <-]; vm_compute; intros [= <-]; split; try reflexivity; repeat constructor. }
      destruct Hl as [-> Hl]. unfold dd_ncomps. rewrite Sh, last_last. apply Nat.div_mul. lia. }
    destruct E as [|E]; [lia|]. cbn [seq].
    clear Hgr. destruct (stack_fields _ _ _) as [v'|e]; cbn [bind]; [|discriminate].
    destruct (make_1d_grids _ _ _ _ _) as [gr'|e]; cbn [bind]; [|discriminate].
    intros [= -> ->]. unfold push. reflexivity.
  - intros c i k Hc Hi' Hk. apply (Vv c c i k); auto.
    rewrite nth_error_seq. destruct (Nat.ltb_spec c E); [reflexivity|lia].
Qed.
Print Assumptions C83_nodal.

(** Two cells of a line with one linear nodal field. *)
Example C83_nodal_ex :
  exists d : dgdata (F := R), exists fs,
    wf (dd_values d) /\ interp_functions 1 1 false "serendipity" = Ok fs /\
    shape (dd_values d) = [2] ++ [1 * length fs] /\
    make_1d_grids rops (repeat 2 1) (dd_grid d) 1 None = Ok [linspace rops 0%R 2%R 4].
Proof.
  exists (mk_dgdata (mk_nda [2; 2] [1; 2; 3; 4]%R) [line_nda [0; 1; 2]%R] "" None None 0 0).
  let v := eval vm_compute in (interp_functions 1 1 false "serendipity") in
  match v with Ok ?f => exists f end.
  split; [reflexivity|]. split; [vm_compute; reflexivity|]. split; reflexivity.
Qed.
