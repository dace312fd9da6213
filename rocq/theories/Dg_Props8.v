(** * C83, C84: the commands interpolate and differentiate; C56: mapped grids of modal data *)
From Coq Require Import String List Arith ZArith QArith Reals Lia Lra Bool.
From Verif Require Import Prelude PreludeFacts NdArray Gkyl_Model Gkyl_Proofs3 Dg_Poly Dg_TabI Dg_TabD Dg_Model Dg_Spec
  Dg_Proofs Dg_Proofs2 Dg_Props Dg_Props2 Dg_Props3 Dg_Props7 Dg_Sem Dg_Gram Dg_Props5 DgCmd_Model.
Import ListNotations.
Open Scope string_scope.
Open Scope list_scope.
Open Scope nat_scope.

(** ** C83 *)

(** The families behind the names of the option --basis_type. *)
Definition families : list (string * string) :=
  [("ms", "serendipity"); ("mo", "maximal-order"); ("mt", "tensor"); ("gkhyb", "gkhybrid"); ("pkpmhyb", "hybrid")].

(** The family asked for, by option or by the metadata of the dataset; in one
    dimension the PKPM hybrid family is the serendipity one. *)
Definition asked_family {F} (o : dgopts) (x : idata (F := F)) (dim : nat) (b : string) : Prop :=
  exists b0, ((exists s, o_basis o = Some s /\ In (s, b0) families) \/
              (o_basis o = None /\ dd_basis (i_data x) = Some b0 /\ b0 <> "" /\ i_modal x = Some true)) /\
    ((dim = 1 /\ b0 = "hybrid" /\ b = "serendipity") \/ (~ (dim = 1 /\ b0 = "hybrid") /\ b = b0)).
Definition asked_order {F} (o : dgopts) (x : idata (F := F)) (p : nat) : Prop :=
  1 <= p /\ (o_poly o = Some p \/ (o_poly o = None /\ dd_poly (i_data x) = Some p)).
(** Points per cell: one more than the order unless given. *)
Definition asked_points (o : dgopts) (p n : nat) : Prop :=
  (o_interp o = Some n /\ 2 <= n) \/ ((o_interp o = None \/ o_interp o = Some 0) /\ n = S p).

(** The family's number of coefficients, and a family that can have the dimension. *)
Definition right_dims (dim : nat) (b : string) : Prop :=
  1 <= dim /\ (b = "gkhybrid" -> 2 <= dim <= 5) /\
  (dim = 1 -> b = "serendipity" \/ b = "maximal-order" \/ b = "tensor").

(** The centres of the [ks]-th of [ns] equal parts of [-1,1] in each direction. *)
Definition centres_q (ns ks : list nat) (pts : list Q) : Prop :=
  length pts = length ns /\
  forall a n k x, nth_error ns a = Some n -> nth_error ks a = Some k -> nth_error pts a = Some x ->
    (x == inject_Z (-1) + (inject_Z 2 * inject_Z (Z.of_nat k) + 1) / inject_Z (Z.of_nat n))%Q.

Lemma interp_points_q ns ks : in_range ns ks -> centres_q ns ks (map2 (interp_point q0ops false) ns ks).
Proof.
  unfold in_range. intros H. split.
  - induction H; cbn [map2 length]; auto.
  - induction H as [|k n ks ns Hk H IH]; intros [|a] n' k' x; cbn [map2 nth_error]; try discriminate.
    + intros [= <-] [= <-] [= <-]. unfold interp_point, fnat, fm1. cbn [q0ops fofZ fadd fdiv fmul fsub].
      assert (N : ~ (inject_Z (Z.of_nat n) == 0)%Q) by (intros C; unfold Qeq in C; cbn in C; lia).
      change (inject_Z (Z.of_nat 1)) with 1%Q. change (inject_Z (Z.of_nat 2)) with (inject_Z 2). field. exact N.
    + apply IH.
Qed.

Lemma modal_size dim p b fs :
  right_dims dim b -> 1 <= p -> interp_functions dim p true b = Ok fs -> get_num_nodes dim p b = Ok (length fs).
Proof.
  intros (D & _ & D1) Hp H. destruct (Nat.eq_dec dim 1) as [->|N]; [|apply C34_functions; [lia|exact H]].
  destruct (C34_functions_1d p b fs H) as [A B]. destruct (D1 eq_refl) as [-> | [-> | ->]]; auto.
Qed.

Lemma asked_init {F} (o : dgopts) (x : idata (F := F)) dim b p n N :
  asked_family o x dim b -> asked_order o x p -> asked_points o p n ->
  dd_dims (i_data x) = dim -> get_num_nodes dim p b = Ok N ->
  no_basis (i_data x) o = false /\ use_modal x o = Ok true /\
  modal_init (i_data x) (o_poly o) (o_basis o) (o_interp o) = Ok (mk_ginterp dim p b n N).
Proof.
  intros (b0 & Hb & Hb') (Hp & Ho) Hn Hd HN.
  assert (E1 : forall (e : res nat), match o_poly o with
      | Some p => Ok p
      | None => match dd_poly (i_data x) with Some (S p) => Ok (S p) | _ => e end end = Ok p).
  { intros e. destruct Ho as [-> | [-> ->]]; [reflexivity|]. destruct p; [lia|reflexivity]. }
  assert (E2 : match o_interp o with Some (S k) => S k | _ => S p end = n).
  { destruct Hn as [[-> H]|[[-> | ->] ->]]; try reflexivity. destruct n; [lia|reflexivity]. }
  assert (E3 : (if Nat.eqb dim 1 && String.eqb b0 "hybrid" then "serendipity" else b0) = b).
  { destruct Hb' as [(-> & -> & ->)|(H & ->)]; [reflexivity|]. destruct (Nat.eqb_spec dim 1) as [->|]; [|reflexivity].
    destruct (String.eqb_spec b0 "hybrid") as [->|]; [exfalso; auto|reflexivity]. }
  unfold modal_init. rewrite (E1 (Err ValueError)). cbn [bind]. rewrite E2, Hd.
  destruct Hb as [(s & Es & Hin)|(Eo & Ed & Hne & Hm)].
  - unfold no_basis, use_modal. rewrite Es.
    assert (T : opt_basis (Some s) = Some (b0, true) /\ modal_basis_name s = Ok b0 /\ String.eqb s "" = false).
    { destruct Hin as [H|[H|[H|[H|[H|[]]]]]]; injection H as <- <-; repeat split; reflexivity. }
    destruct T as (T1 & T2 & T3). rewrite T1, T2, T3. cbn [bind]. split; [reflexivity|]. split; [reflexivity|]. rewrite E3, HN. reflexivity.
  - unfold no_basis, use_modal. rewrite Eo, Ed. cbn [opt_basis]. split; [reflexivity|]. split; [now rewrite Hm|].
    apply String.eqb_neq in Hne. rewrite Hne. cbn [bind]. rewrite E3, HN. reflexivity.
Qed.

Section C83.
  Context (dot : list Q -> list Q -> Q) (ev : pexp -> list Q -> Q) (root : nat -> nat -> nat)
          (stored : nat -> nat -> res (list (list Q))).

  (** interpolate on modal data with uniform coordinates: all whole fields are
      evaluated with the functions of the family asked for, at the centres of
      the parts of each cell, and the new grid has these parts as its cells. *)
  Theorem C83_modal (o : dgopts) (x : idata) cells nc b p n fs :
    let d := i_data x in
    wf (dd_values d) -> shape (dd_values d) = cells ++ [nc] -> Forall (fun c => 0 < c) cells ->
    asked_family o x (length cells) b -> asked_order o x p -> asked_points o p n ->
    right_dims (length cells) b -> interp_functions (length cells) p true b = Ok fs -> length fs <= nc ->
    (forall m, root (length cells) (m ^ length cells) = m) ->
    dd_grid_type d <> "c2p" -> dd_grid_type d <> "c2p_vel" ->
    length (dd_grid d) = length cells ->
    (forall a xc, nth_error (dd_grid d) a = Some xc ->
       length (flat xc) = S (nth a cells 0) /\ equispaced (flat xc)) ->
    let ns := refine (length cells) n b in
    exists gr v,
      interpolate_data q0ops dot ev root stored o x
        = Ok (mk_idata (mk_dgdata v gr (dd_grid_type d) (dd_basis d) (dd_poly d) (dd_ncdim d) (dd_nvdim d)) (i_modal x)) /\
      shape v = refined_shape cells ns ++ [nc / length fs] /\
      (forall c i k, c < nc / length fs -> in_range cells i -> in_range ns k ->
        exists u pts, length u = length fs /\
          (forall m, m < length fs -> nth_error u m = get (dd_values d) (i ++ [c * length fs + m])) /\
          centres_q ns k pts /\
          get v (sub_index ns i k ++ [c]) = Some (dot (List.map (fun f => ev f pts) fs) u)) /\
      length gr = length cells /\
      (forall a xc, nth_error (dd_grid d) a = Some xc ->
        exists line m, nth_error gr a = Some (mk_nda [length line] line) /\
          nth_error ns a = Some m /\ splits m (flat xc) line).
  Proof.
    intros d W Sh P Hb Hp Hn D Hfs Hnc Hroot T1 T2 Lg Hg ns.
    assert (Hp1 : 1 <= p) by apply Hp.
    assert (N2 : 2 <= n) by (destruct Hn as [[_ H]|[_ ->]]; lia).
    pose proof (modal_size _ _ _ _ D Hp1 Hfs) as HN.
    destruct (asked_init o x (length cells) b p n (length fs) Hb Hp Hn) as (E1 & E2 & E3); [|exact HN|].
    { unfold dd_dims. fold d. now rewrite Sh, removelast_snoc. }
    set (g := mk_ginterp (length cells) p b n (length fs)) in *.
    assert (F1 : 1 <= length fs).
    { destruct fs as [|? ?]; [|cbn; lia]. exfalso. clear - HN D Hfs. revert Hfs HN. 
      unfold interp_functions. cbn [andb negb].
      repeat match goal with
      | |- (if Nat.eqb _ ?k then _ else _) = _ -> _ => destruct (Nat.eqb _ k)
      | |- (if String.eqb _ ?k then _ else _) = _ -> _ => destruct (String.eqb _ k)
      | |- Err _ = Ok _ -> _ => discriminate
      end; discriminate. }
    set (comps := seq 0 (nc / length fs)).
    assert (Hc0 : comps <> []).
    { unfold comps. pose proof (Nat.div_str_pos nc (length fs)) as H. destruct (nc / length fs); [lia|discriminate]. }
    assert (Hcs : forall c, In c comps -> c * length fs + length fs <= nc).
    { intros c Hc. apply in_seq in Hc. pose proof (Nat.mul_div_le nc (length fs)). nia. }
    assert (D' : dims_ok (length cells) b) by (split; apply D).
    assert (Hh : b = "hybrid" -> 2 <= length cells).
    { intros ->. destruct D as (D1 & _ & D2). destruct (Nat.eq_dec (length cells) 1) as [E|]; [|lia].
      exfalso. destruct (D2 E) as [C|[C|C]]; discriminate. }
    destruct (C32_interpolate dot ev root d g comps cells nc fs W Sh P) as (gr & v & Ei & L1 & L2 & V); auto.
    destruct (C36_interpolated_fields q0ops dot ev d g comps cells nc fs W Sh) as (v' & Ev & Wv & Sv & Vv); auto.
    assert (v' = v).
    { unfold modal_interpolate in Ei. rewrite Ev in Ei. cbn [bind] in Ei. destruct (modal_grid _ _ _ _ d g); [|discriminate].
      cbn [bind] in Ei. congruence. }
    subst v'. cbn [gi_interp gi_basis g] in Sv, Vv. fold ns in Sv, Vv.
    exists gr, v. unfold interpolate_data. cbv zeta. rewrite E1, E2, E3. cbn [bind gi_nodes g]. fold d.
    unfold dd_ncomps. rewrite Sh, last_snoc. fold comps. rewrite Ei. cbn [bind fst snd].
    split; [reflexivity|]. split; [rewrite Sv; unfold comps; now rewrite seq_length|]. split; [|split; [exact L1|]].
    - intros c i k Hc Hi Hk. destruct (Vv c c i k) as (u & Lu & Vu & G); auto.
      { unfold comps. rewrite nth_error_seq. destruct (Nat.ltb_spec c (nc / length fs)); [reflexivity|lia]. }
      exists u, (map2 (interp_point q0ops false) ns k). split; [exact Lu|]. split; [exact Vu|]. split; [now apply interp_points_q|exact G].
    - intros a xc Hx. destruct (V a xc Hx) as (line & m & Hl & Hm & Hs & Ll). exists line, m. split; [exact Hl|]. split; [|exact Hs].
      assert (La : a < length cells) by (rewrite <- Lg; apply nth_error_Some; congruence).
      assert (Ln : length ns = length cells) by apply refine_length.
      destruct (nth_error ns a) as [m'|] eqn:Em; [|apply nth_error_None in Em; lia]. f_equal.
      rewrite Sv in Hm. destruct (nth_error cells a) as [c|] eqn:Ec; [|apply nth_error_None in Ec; lia].
      rewrite nth_error_app1 in Hm by (unfold refined_shape; rewrite map_length, combine_length; lia).
      unfold refined_shape in Hm. rewrite nth_error_map in Hm.
      assert (Hcomb : nth_error (combine cells ns) a = Some (c, m')).
      { clearbody ns. clear - Ec Em. revert ns a Ec Em. induction cells as [|c0 cells IH]; intros [|n0 ns] [|a]; cbn; try discriminate; [congruence|apply IH]. }
      rewrite Hcomb in Hm. cbn in Hm. rewrite (nth_error_nth _ _ _ Ec) in Hm. injection Hm as Hm.
      assert (0 < c) by (eapply (proj1 (Forall_forall _ _) P), nth_error_In; eauto). nia.
  Qed.

  (** Refused: no basis in the options or the metadata; no whole field; nodal
      coefficients of a dataset marked as modal. *)
  Theorem C83_refused (o : dgopts) (x : idata) :
    (o_basis o = None -> dd_basis (i_data x) = None -> interpolate_data q0ops dot ev root stored o x = Err KeyError) /\
    (o_basis o = Some "ns" -> i_modal x = Some true -> (exists p, asked_order o x p) ->
       interpolate_data q0ops dot ev root stored o x = Err AttributeError) /\
    (forall cells nc b p n fs, shape (dd_values (i_data x)) = cells ++ [nc] ->
       asked_family o x (length cells) b -> asked_order o x p -> asked_points o p n -> right_dims (length cells) b ->
       interp_functions (length cells) p true b = Ok fs -> nc < length fs ->
       interpolate_data q0ops dot ev root stored o x = Err IndexError).
  Proof.
    split; [|split].
    - intros Ho Hd. unfold interpolate_data, no_basis. now rewrite Ho, Hd.
    - intros Ho Hm (p & Hp & Hq). unfold interpolate_data, no_basis, use_modal. rewrite Ho. cbn [opt_basis String.eqb Ascii.eqb Bool.eqb].
      rewrite Hm. cbn [bind]. unfold modal_init.
      replace (match o_poly o with Some p => Ok p | None => match dd_poly (i_data x) with Some (S p) => Ok (S p) | _ => Err ValueError end end) with (Ok p : res nat).
      + reflexivity.
      + destruct Hq as [-> | [-> ->]]; [reflexivity|]. destruct p; [lia|reflexivity].
    - intros cells nc b p n fs Sh Hb Hp Hn D Hfs Hnc. assert (Hp1 : 1 <= p) by apply Hp.
      pose proof (modal_size _ _ _ _ D Hp1 Hfs) as HN.
      destruct (asked_init o x (length cells) b p n (length fs) Hb Hp Hn) as (E1 & E2 & E3); [|exact HN|].
      { unfold dd_dims. now rewrite Sh, removelast_snoc. }
      unfold interpolate_data. rewrite E1, E2. cbn [bind]. rewrite E3. cbn [bind gi_nodes]. unfold dd_ncomps. rewrite Sh, last_snoc, Nat.div_small by exact Hnc.
      cbn [seq]. unfold modal_interpolate, modal_values, create_interp_matrix. cbn [gi_dims gi_poly gi_basis gi_interp andb].
      rewrite Hfs. reflexivity.
  Qed.

  (** Whatever --read says, modal data are interpolated the same way. *)
  Theorem C83_read_ignored (o o' : dgopts) (x : idata) :
    o_basis o = o_basis o' -> o_poly o = o_poly o' -> o_interp o = o_interp o' ->
    (i_modal x = Some true \/ exists s b, o_basis o = Some s /\ In (s, b) families) ->
    interpolate_data q0ops dot ev root stored o x = interpolate_data q0ops dot ev root stored o' x.
  Proof.
    intros E1 E2 E3 H. unfold interpolate_data, no_basis, use_modal. rewrite <- E1, <- E2, <- E3.
    assert (U : match opt_basis (o_basis o) with Some (_, true) => Ok true | _ => match i_modal x with Some b => Ok b | None => Err KeyError end end = Ok true).
    { destruct H as [-> | (s & b & -> & Hin)]; [destruct (opt_basis (o_basis o)) as [[? []]|]; reflexivity|].
      destruct Hin as [H|[H|[H|[H|[H|[]]]]]]; injection H as <- <-; reflexivity. }
    rewrite U. cbn [bind]. reflexivity.
  Qed.

  (** Nodal data need both --poly_order and --interp, and --basis_type even
      when the metadata name the basis. *)
  Theorem C83_nodal_refused (o : dgopts) (x : idata) cells nc :
    i_modal x = Some false -> shape (dd_values (i_data x)) = cells ++ [nc] ->
    (o_basis o = None -> dd_basis (i_data x) <> None -> interpolate_data q0ops dot ev root stored o x = Err AttributeError) /\
    (o_basis o = Some "ns" -> o_poly o = None -> interpolate_data q0ops dot ev root stored o x = Err TypeError) /\
    (forall p m, o_basis o = Some "ns" -> o_poly o = Some p -> o_interp o = None ->
       stored (length cells) p = Ok m ->
       forall N, get_num_nodes (length cells) p "serendipity" = Ok N -> 0 < N <= nc ->
       interpolate_data q0ops dot ev root stored o x = Err TypeError).
  Proof.
    intros Hm Sh. unfold interpolate_data, no_basis, use_modal, nodal_object. rewrite Hm. split; [|split].
    - intros -> Hd. destruct (dd_basis (i_data x)); [reflexivity|congruence].
    - intros -> ->. reflexivity.
    - intros p m -> -> Hi Hs N HN Hr. cbn [opt_basis String.eqb Ascii.eqb Bool.eqb].
      unfold dd_dims, dd_ncomps. rewrite Sh, removelast_snoc, last_snoc, HN. cbn [bind]. unfold nodal_matrix. rewrite Hi.
      cbn [String.eqb Ascii.eqb Bool.eqb]. rewrite Hs. cbn [bind].
      pose proof (Nat.div_str_pos nc N Hr). destruct (nc / N) as [|k]; [lia|]. reflexivity.
  Qed.

  (** Data without the mark "is_modal" can only be interpolated by naming a
      modal basis. *)
  Theorem C83_unmarked (o : dgopts) (x : idata) :
    i_modal x = None -> o_basis o = Some "ns" \/ o_basis o = None ->
    interpolate_data q0ops dot ev root stored o x = Err KeyError.
  Proof.
    intros Hm H. unfold interpolate_data, no_basis, use_modal. rewrite Hm.
    destruct H as [-> | ->]; [reflexivity|]. cbn [opt_basis]. destruct (dd_basis (i_data x)); reflexivity.
  Qed.

  (** The metadata of a file mark the data as modal or not at all, unless they
      contain the mark themselves: nodal data read from a file cannot be
      interpolated. *)
  Theorem C83_ns_from_file {M} (mtrue : M) (truth : M -> bool) ctx unp (o : dgopts) (x : idata) :
    truth mtrue = true -> aget "is_modal" ctx = None -> ~ In "is_modal" (List.map fst unp) ->
    i_modal x = option_map truth (aget "is_modal" (store_meta mtrue ctx unp)) ->
    o_basis o = Some "ns" -> (exists p, asked_order o x p) ->
    exists e, interpolate_data q0ops dot ev root stored o x = Err e.
  Proof.
    intros Ht Hc Hu Hm Ho Hp.
    assert (K : i_modal x = None \/ i_modal x = Some true).
    { rewrite Hm. clear - Ht Hc Hu. unfold store_meta.
      assert (K0 : option_map truth (aget "is_modal" ctx) = None \/ option_map truth (aget "is_modal" ctx) = Some true) by (left; now rewrite Hc).
      clear Hc. revert ctx K0. induction unp as [|[k v] unp IH]; intros ctx K0; [exact K0|]. cbn [fold_left fst snd].
      apply IH; [intros Hi; apply Hu; now right|]. cbn [List.map fst In] in Hu.
      destruct (String.eqb k "polyOrder" || String.eqb k "poly_order")%bool.
      - rewrite aget_aset. exact K0.
      - destruct (String.eqb k "basisType" || String.eqb k "basis_type")%bool.
        + right. rewrite aget_aset. change (String.eqb "is_modal" "is_modal") with true. cbv iota. cbn [option_map]. now rewrite Ht.
        + rewrite aget_aset. destruct (String.eqb_spec "is_modal" k) as [<-|]; [exfalso; apply Hu; now left|exact K0]. }
    destruct K as [K|K].
    - exists KeyError. apply C83_unmarked; auto.
    - exists AttributeError. now apply (C83_refused o x).
  Qed.
End C83.

(** ** C84 *)
Lemma bind_ext {A B} (m : res A) (k k' : A -> res B) : (forall a, k a = k' a) -> (let* a := m in k a) = (let* a := m in k' a).
Proof. intros H. destruct m; [apply H|reflexivity]. Qed.

Lemma in_range_last cells n idx : in_range (cells ++ [n]) idx -> exists i m, idx = i ++ [m] /\ in_range cells i /\ m < n.
Proof.
  unfold in_range. intros H. apply Forall2_app_inv_r in H as (i & l & Hi & Hl & ->).
  inversion Hl as [|m ? ? ? Hm Hr]; subst. inversion Hr; subst. eauto.
Qed.
Section C84.
  Context (dot : list Q -> list Q -> Q) (ev : pexp -> list Q -> Q) (root : nat -> nat -> nat).

  (** The derivative is that of the first field: the other fields of the
      dataset have no influence, and are not in the result. *)
  Theorem C84_first_field (o : dgopts) (x x' : idata) cells nc nc' b p n fs :
    let d := i_data x in let d' := i_data x' in
    shape (dd_values d) = cells ++ [nc] -> shape (dd_values d') = cells ++ [nc'] ->
    wf (dd_values d) -> wf (dd_values d') ->
    asked_family o x (length cells) b -> asked_order o x p -> asked_points o p n ->
    right_dims (length cells) b -> interp_functions (length cells) p true b = Ok fs ->
    length fs <= nc -> length fs <= nc' ->
    i_modal x = i_modal x' -> dd_grid d = dd_grid d' -> dd_grid_type d = dd_grid_type d' -> dd_basis d = dd_basis d' ->
    dd_poly d = dd_poly d' -> dd_ncdim d = dd_ncdim d' -> dd_nvdim d = dd_nvdim d' ->
    (forall i m, in_range cells i -> m < length fs -> get (dd_values d) (i ++ [m]) = get (dd_values d') (i ++ [m])) ->
    differentiate_data q0ops dot ev root o x = differentiate_data q0ops dot ev root o x'.
  Proof.
    intros d d' Sh Sh' W W' Hb Hp Hn D Hfs Hl Hl' Em Eg Et Eb Epp Ec Ev H.
    assert (Hp1 : 1 <= p) by apply Hp.
    pose proof (modal_size _ _ _ _ D Hp1 Hfs) as HN.
    destruct (asked_init o x (length cells) b p n (length fs) Hb Hp Hn) as (E1 & E2 & E3); [|exact HN|].
    { unfold dd_dims. fold d. now rewrite Sh, removelast_snoc. }
    assert (Hb' : asked_family o x' (length cells) b).
    { destruct Hb as (b0 & Hb & Hbb). exists b0. split; [|exact Hbb]. fold d d' in Hb |- *. rewrite <- Eb, <- Em. exact Hb. }
    assert (Hp' : asked_order o x' p) by (destruct Hp as [A B]; split; [exact A|]; fold d d' in B |- *; now rewrite <- Epp).
    destruct (asked_init o x' (length cells) b p n (length fs) Hb' Hp' Hn) as (F1 & F2 & F3); [|exact HN|].
    { unfold dd_dims. fold d'. now rewrite Sh', removelast_snoc. }
    unfold differentiate_data. rewrite E1, E2, F1, F2. cbn [bind]. rewrite E3, F3. cbn [bind]. fold d d'.
    set (g := mk_ginterp (length cells) p b n (length fs)).
    assert (R : raw_modal (dd_values d) (length fs) 0 = raw_modal (dd_values d') (length fs) 0).
    { destruct (C33_modal (dd_values d) cells nc (length fs) 0 W Sh) as (W1 & S1 & V1); [lia|].
      destruct (C33_modal (dd_values d') cells nc' (length fs) 0 W' Sh') as (W2 & S2 & V2); [lia|].
      apply nda_ext; auto; [congruence|]. intros idx Hi. rewrite S1 in Hi. apply in_range_last in Hi as (i & m & -> & Hi & Hm).
      rewrite V1, V2 by auto. now apply H. }
    assert (C : forall k, cell_width q0ops d k = cell_width q0ops d' k) by (intros k; unfold cell_width; now rewrite Eg).
    assert (V : modal_diff_values q0ops dot ev d g (o_dir o) 0 = modal_diff_values q0ops dot ev d' g (o_dir o) 0).
    { unfold modal_diff_values. cbn [gi_nodes g gi_dims]. rewrite R. destruct (o_dir o) as [z|].
      - destruct (norm_index (length cells) z) as [k|]; [|reflexivity]. cbn [bind]. rewrite C. reflexivity.
      - rewrite C. apply bind_ext. intros v0. apply bind_ext. intros w0.
        generalize (Ok (new_axis (map_nda (fun a : Q => fdiv q0ops a w0) v0))). intros acc. revert acc.
        induction (seq 1 (length cells - 1)) as [|k l IH]; intros acc; [reflexivity|]. cbn [fold_left]. rewrite IH. f_equal.
        rewrite C. reflexivity. }
    unfold modal_differentiate. rewrite V, Eg, Et. unfold push. rewrite Et, Eb, Epp, Ec, Ev, Em.
    reflexivity.
  Qed.
End C84.

Definition ex_x : idata := mk_idata ex_d (Some true).
Definition ex_o : dgopts := mk_dgopts (Some "ms") None None None None.

Example C83_ex :
  asked_family ex_o ex_x 1 "serendipity" /\ asked_order ex_o ex_x 1 /\ asked_points ex_o 1 2 /\ right_dims 1 "serendipity" /\
  (forall a xc, nth_error (dd_grid ex_d) a = Some xc -> length (flat xc) = S (nth a [2] 0) /\ equispaced (flat xc)) /\
  exists y, interpolate_data q0ops qdot ex_ev iroot (fun _ _ => Err OSError) ex_o ex_x = Ok y /\ shape (dd_values (i_data y)) = [4; 2].
Proof.
  split. { exists "serendipity". split; [left; exists "ms"; split; [reflexivity|cbn; auto]|right; split; [intros [_ C]; discriminate|reflexivity]]. }
  split. { split; [lia|right; split; reflexivity]. }
  split. { right. split; [left|]; reflexivity. }
  split. { split; [lia|]. split; [discriminate|auto]. }
  split.
  { intros [|[|a]] xc H; try discriminate. injection H as <-. split; [reflexivity|]. exists 0%Q, 1%Q.
    intros [|[|[|i]]] y Hy; try (injection Hy as <-; reflexivity). destruct i; discriminate. }
  eexists. split; vm_compute; reflexivity.
Qed.

(** Nodal data of a file without basis in the metadata: with [-b ns] there is a
    [KeyError]; the hypotheses of [C83_ns_from_file] hold for metadata holding a
    time alone, and for metadata naming the basis (then marked modal). *)
Example C83_unmarked_ex :
  let x0 := mk_idata ex_d None in
  let o := mk_dgopts (Some "ns") (Some 1) (Some 2) None None in
  (i_modal x0 = option_map (fun b : bool => b) (aget "is_modal" (store_meta true [] [("time", false)])) /\
   interpolate_data q0ops qdot ex_ev iroot (fun _ _ => Err OSError) o x0 = Err KeyError) /\
  (i_modal ex_x = option_map (fun b : bool => b) (aget "is_modal" (store_meta true [] [("basisType", false)])) /\
   interpolate_data q0ops qdot ex_ev iroot (fun _ _ => Err OSError) o ex_x = Err AttributeError).
Proof. repeat split; vm_compute; reflexivity. Qed.

(** A dataset with two fields: the derivative of the second is missing. *)
Theorem C84_all_fields_refuted :
  exists (o : dgopts) (x y : idata), dd_ncomps (i_data x) = 2 * 2 /\ get_num_nodes 1 1 "serendipity" = Ok 2 /\
    differentiate_data q0ops qdot ex_ev iroot (mk_dgopts (Some "ms") None None None (Some 0%Z)) x = Ok y /\
    dd_ncomps (i_data y) = 1.
Proof. exists ex_o, ex_x. eexists. split; [reflexivity|]. split; [reflexivity|]. split; vm_compute; reflexivity. Qed.

(** ** C56: the coordinates of mapped modal data *)
Section Mapped.
  Context (root : nat -> nat -> nat).

  (** [n + 1] equally spaced nodes of [-1,1], both ends included. *)
  Definition node_at (n k : nat) : R := (-1 + 2 * INR k / INR n)%R.

  (** Every node of the grid of interpolated data is the expansion of the
      coordinate in a cell touching it, at the node's place in that cell; the
      corner nodes of a cell are its corners. *)
  Theorem C56_grid (d : dgdata) (g : ginterp) cells nn b p fs :
    dd_grid_type d = "c2p" -> gi_dims g = length cells -> length (dd_grid d) = length cells -> 1 <= length cells ->
    Forall (fun c => 0 < c) cells ->
    (forall q, In q (dd_grid d) -> wf q /\ shape q = cells ++ [nn]) ->
    get_basis_p (length cells) nn = Ok (Some (b, p)) -> interp_functions (length cells) p true b = Ok fs ->
    1 <= gi_interp g ->
    let n := gi_interp g in
    exists gr, modal_grid rops rdot evalR root d g = Ok gr /\ length gr = length cells /\
      forall k q, nth_error (dd_grid d) k = Some q ->
        exists out, nth_error gr k = Some out /\ wf out /\ shape out = List.map (fun c => c * n + 1) cells /\
          forall x, in_range (shape out) x ->
            let cell := List.map (node_cell (S n)) x in let loc := List.map (node_point (S n)) x in
            in_range cells cell /\ Forall (fun j => j <= n) loc /\
            x = map2 (fun i j => i * n + j) cell loc /\
            exists u, length u = length fs /\ (forall m, m < length fs -> nth_error u m = get q (cell ++ [m])) /\
              get out x = Some (expansion u fs (List.map (node_at n) loc)).
  Proof.
    intros T Gd Lg L1 P Hq Hb Hfs Hn n.
    destruct (C57_sound _ _ _ _ L1 Hb) as (HN & Hp & Hbb).
    assert (Rd : right_dims (length cells) b).
    { split; [exact L1|]. split; [destruct Hbb as [-> | ->]; discriminate|]. intros _. tauto. }
    assert (Lf : length fs = nn).
    { pose proof (modal_size _ _ _ _ Rd (proj1 Hp) Hfs). congruence. }
    assert (D : dims_ok (length cells) b) by (split; apply Rd).
    assert (Nh : b = "hybrid" -> 2 <= length cells) by (destruct Hbb as [-> | ->]; discriminate).
    assert (Ns : refine (length cells) (S n) b = repeat (S n) (length cells)).
    { apply refine_plain; destruct Hbb as [-> | ->]; discriminate. }
    set (ns := repeat (S n) (length cells)) in *.
    unfold modal_grid. rewrite T. change (String.eqb "c2p" "c2p") with true. cbv iota. rewrite Gd. fold n.
    destruct (rows_of_spec rops evalR true ns fs) as (Rl & Rr & Rn).
    destruct (nth_error (dd_grid d) 0) as [q0|] eqn:Eq0; [|apply nth_error_None in Eq0; lia].
    destruct (Hq q0 (nth_error_In _ _ Eq0)) as [_ Sq0].
    assert (One : forall q, In q (dd_grid d) -> exists out,
       (let* bp := get_basis_p (length cells) (last (shape q0) 0) in
        match bp with
        | Some (b, p) => let* cm := create_interp_matrix rops evalR (length cells) p b n true true in
                         interp_on_mesh rops rdot cm q (S n) b true
        | None => Err NameError end) = Ok out /\
       wf out /\ shape out = List.map (fun c => c * n + 1) cells /\
          forall x, in_range (shape out) x ->
            let cell := List.map (node_cell (S n)) x in let loc := List.map (node_point (S n)) x in
            in_range cells cell /\ Forall (fun j => j <= n) loc /\
            x = map2 (fun i j => i * n + j) cell loc /\
            exists u, length u = length fs /\ (forall m, m < length fs -> nth_error u m = get q (cell ++ [m])) /\
              get out x = Some (expansion u fs (List.map (node_at n) loc))).
    { intros q Iq. destruct (Hq q Iq) as [Wq Sq]. rewrite Sq0, last_snoc, Hb. cbn [bind].
      unfold create_interp_matrix. cbn [andb]. destruct (Nat.eqb_spec (S n) 1) as [E|_]; [unfold n in E; lia|].
      rewrite Hfs. cbn [bind]. rewrite (point_counts_refine _ _ _ D Nh), Ns.
      destruct (C56_node rops rdot (rows_of rops evalR true ns fs) q (S n) b cells nn Wq Sq D) as (out & Eo & Wo & So & Vo).
      { unfold n; lia. } { exact P. } { now rewrite Ns. } { intros row Hr. rewrite <- Lf. now apply Rr. }
      cbv zeta in So, Vo. rewrite Ns in So, Vo.
      assert (Rp : forall (A : Type) (h : nat -> nat -> A) x, length x = length cells -> map2 h ns x = List.map (h (S n)) x).
      { intros A h. unfold ns. generalize (length cells) as m. intros m. intros x <-. induction x as [|y x IH]; [reflexivity|]. cbn. now rewrite IH. }
      assert (Sn : node_shape cells ns = List.map (fun c => c * n + 1) cells).
      { unfold node_shape, ns. clear. induction cells as [|c cells IH]; [reflexivity|]. cbn [length repeat map2 List.map]. rewrite IH. f_equal. lia. }
      exists out. split; [exact Eo|]. split; [exact Wo|]. split; [now rewrite So|].
      intros x Hx. rewrite So in Hx. cbv zeta. destruct (map2_node cells ns x) as (Ri & Rk & On & _); auto.
      { unfold ns. now rewrite repeat_length. } { unfold ns. apply Forall_forall. intros y Hy. apply repeat_spec in Hy. unfold n in Hy. lia. }
      assert (Lx : length x = length cells).
      { apply in_range_length in Hx. rewrite Hx, Sn, map_length. reflexivity. }
      destruct (Vo x Hx) as (row & u & Erow & Lu & Vu & G).
      rewrite (Rp _ node_cell x Lx) in Ri, On, Vu. rewrite (Rp _ node_point x Lx) in Rk, On, Erow.
      assert (Fl : Forall (fun j => j <= n) (List.map (node_point (S n)) x)).
      { unfold in_range, ns in Rk. clear - Rk. revert Rk. generalize (length cells). generalize (List.map (node_point (S n)) x).
        intros l m H. revert m H. induction l as [|a l IH]; intros [|m] H; cbn [repeat] in H; inversion H; subst; constructor; [lia|eauto]. }
      split; [exact Ri|]. split; [exact Fl|].
      split.
      { clear - On. assert (G : forall cells cl lc x m, on_mesh cells (List.map (fun n => n - 1) (repeat (S n) m)) lc x cl -> x = map2 (fun i j => i * n + j) cl lc).
        { induction cells0 as [|c cells0 IH]; intros cl lc y m H.
          - destruct m, lc, y, cl; cbn in H; try contradiction; reflexivity.
          - destruct m as [|m], lc as [|k lc], y as [|z y], cl as [|i cl]; cbn in H; try contradiction.
            destruct H as (_ & -> & H). cbn [map2]. rewrite <- (IH _ _ _ _ H). f_equal. lia. }
        exact (G _ _ _ _ _ On). }
      rewrite Rn in Erow by exact Rk. injection Erow as <-.
      exists u. split; [congruence|]. split; [intros m Hm; apply Vu; lia|]. rewrite G, rdot_expansion. do 2 f_equal.
      rewrite Rp by (now rewrite map_length). apply map_ext_in. intros j Hj. unfold node_at.
      assert (Hj' : j < S n).
      { rewrite Forall_forall in Fl. specialize (Fl j Hj). lia. }
      destruct (C36_nodes (S n) j Hj') as [E _]; [unfold n; lia|]. rewrite E. replace (S n - 1) with n by lia. reflexivity. }
    set (axis := fun q => match (let* bp := get_basis_p (length cells) (last (shape q0) 0) in
        match bp with
        | Some (b, p) => let* cm := create_interp_matrix rops evalR (length cells) p b n true true in
                         interp_on_mesh rops rdot cm q (S n) b true
        | None => Err NameError end) with Ok o => o | Err _ => q end).
    rewrite (mapM_ok_all _ (fun k => axis (nth k (dd_grid d) (mk_nda [] [])))).
    2:{ intros k Hk. apply in_seq in Hk. destruct (nth_error (dd_grid d) k) as [q|] eqn:Eq; [|apply nth_error_None in Eq; lia].
        rewrite (nth_error_nth _ _ _ Eq). destruct (One q (nth_error_In _ _ Eq)) as (out & Eo & _). unfold axis. rewrite Eo. reflexivity. }
    eexists. split; [reflexivity|]. split; [now rewrite map_length, seq_length|].
    intros k q Hk. destruct (One q (nth_error_In _ _ Hk)) as (out & Eo & R). exists out. split; [|exact R].
    assert (Lk : k < length cells) by (rewrite <- Lg; apply nth_error_Some; congruence).
    rewrite nth_error_map, nth_error_seq. destruct (Nat.ltb_spec k (length cells)); [|lia]. cbn [option_map Nat.add].
    rewrite (nth_error_nth _ _ _ Hk). unfold axis. rewrite Eo. reflexivity.
  Qed.
End Mapped.

(** Two cells whose coordinate is given by two coefficients each, three nodes per cell. *)
Example C56_grid_ex :
  let d := mk_dgdata (mk_nda [2; 2] [0; 0; 0; 0]%R) [mk_nda [2; 2] [1; 1; 3; 1]%R] "c2p" None None 1 0 in
  let g := mk_ginterp 1 1 "serendipity" 2 2 in
  get_basis_p 1 2 = Ok (Some ("serendipity", 1)) /\ (exists fs, interp_functions 1 1 true "serendipity" = Ok fs) /\  (forall q, In q (dd_grid d) -> wf q /\ shape q = [2] ++ [2]) /\
  List.map (node_cell 3) [2] = [0] /\ List.map (node_point 3) [2] = [2] /\ node_at 2 2 = 1%R.
Proof.
  split; [reflexivity|]. split; [eexists; reflexivity|]. split; [intros q [<-|[]]; split; reflexivity|].
  split; [reflexivity|]. split; [reflexivity|]. unfold node_at. cbn [INR]. lra.
Qed.

(** ** C56: velocity coordinates given by a mapping *)
Section MappedVel.
  Context (dot : list Q -> list Q -> Q) (ev : pexp -> list Q -> Q) (root : nat -> nat -> nat).

  (** The configuration coordinates are refined as uniform ones; every node of
      a velocity coordinate is the expansion of the mapping in a cell touching
      it, at the node's place in that cell, with one node more than values. *)
  Theorem C56_velocity (d : dgdata) (g : ginterp) cells nn b p fs fv :
    dd_grid_type d = "c2p_vel" -> gi_dims g = length cells -> length (dd_grid d) = length cells ->
    Forall (fun c => 0 < c) cells ->
    dims_ok (length cells) (gi_basis g) -> (gi_basis g = "hybrid" -> 2 <= length cells) ->
    interp_functions (length cells) (gi_poly g) true (gi_basis g) = Ok fv -> 2 <= gi_interp g ->
    (forall m, root (length cells) (m ^ length cells) = m) ->
    dd_ncdim d + dd_nvdim d = length cells ->
    (forall a xc, a < dd_ncdim d -> nth_error (dd_grid d) a = Some xc ->
       length (flat xc) = S (nth a cells 0) /\ equispaced (flat xc)) ->
    (forall a q, dd_ncdim d <= a -> nth_error (dd_grid d) a = Some q -> wf q /\ shape q = [nth a cells 0; nn]) ->
    get_basis_p 1 nn = Ok (Some (b, p)) -> interp_functions 1 p true b = Ok fs ->
    let ns := refine (length cells) (gi_interp g) (gi_basis g) in
    exists gr, modal_grid q0ops dot ev root d g = Ok gr /\ length gr = length cells /\
      (forall a xc, a < dd_ncdim d -> nth_error (dd_grid d) a = Some xc ->
        exists line m, nth_error gr a = Some (mk_nda [length line] line) /\ nth_error ns a = Some m /\ splits m (flat xc) line) /\
      (forall a q, dd_ncdim d <= a -> nth_error (dd_grid d) a = Some q ->
        exists out m, nth_error gr a = Some out /\ nth_error ns a = Some m /\ wf out /\ shape out = [nth a cells 0 * m + 1] /\
          forall x, x < nth a cells 0 * m + 1 ->
            let i := node_cell (S m) x in let j := node_point (S m) x in
            i < nth a cells 0 /\ j <= m /\ x = i * m + j /\
            exists u pt, length u = length fs /\ (forall k, k < length fs -> nth_error u k = get q [i; k]) /\
              (pt == inject_Z (-1) + inject_Z 2 * inject_Z (Z.of_nat j) / inject_Z (Z.of_nat m))%Q /\
              get out [x] = Some (dot (List.map (fun f => ev f [pt]) fs) u)).
  Proof.
    intros T Gd Lg P D Hh Hfv Hn Hroot Hdims Hcfg Hvel Hb Hfs ns.
    destruct (C57_sound 1 nn b p) as (HN & Hp & Hbb); [lia|exact Hb|].
    assert (Lf : length fs = nn).
    { destruct (C34_functions_1d p b fs Hfs) as [A B]. destruct Hbb as [-> | ->]; [congruence|].
      rewrite B in HN by (auto; lia). congruence. }
    assert (Nn : 1 <= nn).
    { destruct nn; [|lia]. vm_compute in Hb. discriminate. }
    assert (Lns : length ns = length cells) by apply refine_length.
    assert (Pns : Forall (fun n => 2 <= n) ns) by (apply refine_ge2; auto).
    unfold modal_grid. rewrite T. change (String.eqb "c2p_vel" "c2p") with false. change (String.eqb "c2p_vel" "c2p_vel") with true. cbv iota.
    unfold create_interp_matrix at 1. cbn [andb]. rewrite Gd, Hfv. cbn [bind]. rewrite (point_counts_refine _ _ _ D Hh). fold ns.
    destruct (rows_of_spec q0ops ev false ns fv) as (Rl & _ & _). rewrite Rl.
    pose proof (grid_counts_refine root g) as GC. rewrite Gd in GC. fold ns in GC. rewrite (GC D Hn Hroot). cbn [bind].
    (* every axis can be refined; the velocity axes are replaced below *)
    set (mesh := fun a => match nth_error ns a, nth_error (dd_grid d) a with
                          | Some n, Some x => match make_mesh q0ops n (flat x) None with Ok l => l | Err _ => [] end
                          | _, _ => [] end).
    assert (Ax : forall a, a < length cells -> exists n x, nth_error ns a = Some n /\ nth_error (dd_grid d) a = Some x /\ 2 <= n /\
        0 < nth a cells 0 /\ make_mesh q0ops n (flat x) None = Ok (mesh a) /\
        (a < dd_ncdim d -> splits n (flat x) (mesh a))).
    { intros a Ha. destruct (nth_error ns a) as [n|] eqn:En; [|apply nth_error_None in En; lia].
      destruct (nth_error (dd_grid d) a) as [x|] eqn:Ex; [|apply nth_error_None in Ex; lia].
      assert (Hn2 : 2 <= n) by (eapply (proj1 (Forall_forall _ _) Pns), nth_error_In; eauto).
      assert (Hca : 0 < nth a cells 0).
      { destruct (nth_error cells a) as [c|] eqn:Ec; [|apply nth_error_None in Ec; lia].
        rewrite (nth_error_nth _ _ _ Ec). eapply (proj1 (Forall_forall _ _) P), nth_error_In; eauto. }
      exists n, x. split; [reflexivity|]. split; [reflexivity|]. split; [exact Hn2|]. split; [exact Hca|].
      unfold mesh. rewrite En, Ex. destruct (lt_dec a (dd_ncdim d)) as [Hc|Hc].
      - destruct (Hcfg a x Hc Ex) as [Lx Ux]. destruct (C32_uniform n (flat x)) as (l & El & _ & Sl & _); [lia|lia|auto|].
        rewrite El. split; [reflexivity|]. intros _. exact Sl.
      - split; [|intros; lia]. destruct (Hvel a x ltac:(lia) Ex) as [Wx Sx]. unfold wf in Wx. rewrite Sx in Wx.
        unfold make_mesh. destruct (flat x) as [|x0 l]; [exfalso; unfold prod in Wx; cbn in Wx; nia|reflexivity]. }
    unfold make_1d_grids. rewrite (mapM_ok_all _ mesh).
    2:{ intros a Ha. apply in_seq in Ha. destruct (Ax a ltac:(lia)) as (n & x & En & Ex & _ & _ & El & _). rewrite En, Ex. exact El. }
    cbn [bind].
    set (cur0 := List.map line_nda (List.map mesh (seq 0 (length cells)))).
    assert (C0 : forall a, a < length cells -> nth_error cur0 a = Some (line_nda (mesh a))).
    { intros a Ha. unfold cur0. rewrite !nth_error_map, nth_error_seq. destruct (Nat.ltb_spec a (length cells)); [reflexivity|lia]. }
    assert (L0 : length cur0 = length cells) by (unfold cur0; now rewrite !map_length, seq_length).
    (* one velocity axis *)
    set (good := fun a q out => exists m, nth_error ns a = Some m /\ wf out /\ shape out = [nth a cells 0 * m + 1] /\
          forall x, x < nth a cells 0 * m + 1 ->
            let i := node_cell (S m) x in let j := node_point (S m) x in
            i < nth a cells 0 /\ j <= m /\ x = i * m + j /\
            exists u pt, length u = length fs /\ (forall k, k < length fs -> nth_error u k = get q [i; k]) /\
              (pt == inject_Z (-1) + inject_Z 2 * inject_Z (Z.of_nat j) / inject_Z (Z.of_nat m))%Q /\
              get out [x] = Some (dot (List.map (fun f => ev f [pt]) fs) u)).
    set (step := fun (acc : res (list (nda Q))) (v : nat) =>
      let* cur := acc in
      match nth_error (dd_grid d) (dd_ncdim d + v), nth_error ns (dd_ncdim d + v) with
      | Some q, Some n =>
          let* line := (let* bp := get_basis_p 1 (last (shape (last (dd_grid d) q)) 0) in
                        match bp with
                        | Some (b, p) => let* cm := create_interp_matrix q0ops ev 1 p b n true true in
                                         interp_on_mesh q0ops dot cm q (S n) b true
                        | None => Err NameError end) in
          Ok (set_nth (dd_ncdim d + v) line cur)
      | _, _ => Err IndexError
      end).
    assert (St : forall v cur, v < dd_nvdim d -> exists q out, nth_error (dd_grid d) (dd_ncdim d + v) = Some q /\
        step (Ok cur) v = Ok (set_nth (dd_ncdim d + v) out cur) /\ good (dd_ncdim d + v) q out).
    { intros v cur Hv. set (a := dd_ncdim d + v). destruct (Ax a ltac:(unfold a; lia)) as (m & q & En & Eq & Hm & Hca & _ & _).
      destruct (Hvel a q ltac:(unfold a; lia) Eq) as [Wq Sq]. exists q.
      destruct (rows_of_spec q0ops ev true [S m] fs) as (Ql & Qr & Qn).
      assert (Ns : refine 1 (S m) b = [S m]).
      { rewrite refine_plain by (destruct Hbb as [-> | ->]; discriminate). reflexivity. }
      destruct (C56_node q0ops dot (rows_of q0ops ev true [S m] fs) q (S m) b [nth a cells 0] nn Wq Sq) as (out & Eo & Wo & So & Vo).
      { cbn [length]. split; [lia|]. destruct Hbb as [-> | ->]; discriminate. } { lia. } { constructor; [exact Hca|constructor]. }
      { cbn [length]. now rewrite Ns. } { intros row Hr. rewrite <- Lf. now apply Qr. }
      cbn [length] in So, Vo. rewrite Ns in So, Vo.
      exists out. split; [exact Eq|]. split.
      { unfold step. cbn [bind]. fold a. rewrite Eq, En.
        assert (Sl : last (shape (last (dd_grid d) q)) 0 = nn).
        { destruct (Hvel (length cells - 1) (last (dd_grid d) q)) as [_ ->]; [lia| |reflexivity].
          rewrite <- Lg. apply last_nth_error. intros C. rewrite C in Lg. cbn in Lg. lia. }
        rewrite Sl, Hb. cbn [bind].
        unfold create_interp_matrix. cbn [andb]. destruct (Nat.eqb_spec (S m) 1); [lia|]. rewrite Hfs. cbn [bind].
        replace (point_counts 1 b (S m)) with [S m] by reflexivity. rewrite Eo. reflexivity. }
      exists m. split; [exact En|]. split; [exact Wo|].
      assert (Sm : node_shape [nth a cells 0] [S m] = [nth a cells 0 * m + 1]) by (unfold node_shape; cbn [map2]; repeat f_equal; lia).
      split; [now rewrite So|]. intros x Hx. cbv zeta.
      destruct (node_cell_spec (S m) (nth a cells 0) x) as (N1 & N2 & N3 & _); [lia|exact Hca|lia|].
      split; [exact N1|]. split; [lia|]. split; [rewrite N3 at 1; lia|].
      assert (Hx' : in_range (node_shape [nth a cells 0] [S m]) [x]) by (rewrite Sm; repeat constructor; exact Hx).
      destruct (Vo [x] Hx') as (row & u & Erow & Lu & Vu & G). cbn [map2] in Erow, Vu. rewrite Qn in Erow by (constructor; [exact N2|constructor]).
      injection Erow as <-. cbn [map2] in G. exists u, (interp_point q0ops true (S m) (node_point (S m) x)).
      split; [congruence|]. split; [intros k Hk; apply Vu; lia|]. split; [|exact G].
      unfold interp_point, fnat, fm1. cbn [q0ops fofZ fadd fdiv fmul fsub]. assert (M1 : (S m - 1)%nat = m) by lia. rewrite ?M1.
      change (inject_Z (Z.of_nat 2)) with (inject_Z 2). unfold q0ops; cbn [fofZ fadd fdiv fmul fsub]; unfold qops; cbn [fofZ fadd fdiv fmul fsub]; field. intros C. unfold Qeq in C. cbn in C. lia. }
    assert (Loop : forall k, k <= dd_nvdim d -> exists cur, fold_left step (seq 0 k) (Ok cur0) = Ok cur /\ length cur = length cells /\
        forall a, a < length cells ->
          if (dd_ncdim d <=? a) && (a <? dd_ncdim d + k) then
            exists q out, nth_error (dd_grid d) a = Some q /\ nth_error cur a = Some out /\ good a q out
          else nth_error cur a = nth_error cur0 a).
    { induction k as [|k IH]; intros Hk.
      - exists cur0. split; [reflexivity|]. split; [exact L0|]. intros a Ha.
        destruct (Nat.leb_spec (dd_ncdim d) a), (Nat.ltb_spec a (dd_ncdim d + 0)); try lia; reflexivity.
      - destruct IH as (cur & E & L & V); [lia|]. rewrite seq_S, fold_left_app, E. cbn [Nat.add fold_left].
        destruct (St k cur) as (q & out & Eq & Es & Hg); [lia|]. exists (set_nth (dd_ncdim d + k) out cur). split; [exact Es|].
        split; [now rewrite set_nth_length|]. intros a Ha. specialize (V a Ha).
        destruct (Nat.eq_dec a (dd_ncdim d + k)) as [->|Ne].
        + destruct (Nat.leb_spec (dd_ncdim d) (dd_ncdim d + k)), (Nat.ltb_spec (dd_ncdim d + k) (dd_ncdim d + S k)); try lia. cbn [andb].
          exists q, out. split; [exact Eq|]. split; [|exact Hg]. rewrite nth_error_set_nth, Nat.eqb_refl.
          destruct (nth_error cur (dd_ncdim d + k)) eqn:Ek; [reflexivity|apply nth_error_None in Ek; lia].
        + assert (Nn' : nth_error (set_nth (dd_ncdim d + k) out cur) a = nth_error cur a).
          { rewrite nth_error_set_nth. destruct (Nat.eqb_spec (dd_ncdim d + k) a); [congruence|]. reflexivity. }
          rewrite Nn'. destruct (Nat.leb_spec (dd_ncdim d) a), (Nat.ltb_spec a (dd_ncdim d + k)), (Nat.ltb_spec a (dd_ncdim d + S k)); try lia; cbn [andb] in V |- *; exact V. }
    destruct (Loop (dd_nvdim d) (le_n _)) as (cur & E & L & V). exists cur. split; [exact E|]. split; [exact L|]. split.
    - intros a xc Ha Hx. assert (La : a < length cells) by lia. specialize (V a La).
      destruct (Nat.leb_spec (dd_ncdim d) a); [lia|]. cbn [andb] in V.
      destruct (Ax a La) as (m & x & En & Ex & _ & _ & _ & Sp). exists (mesh a), m. split; [now rewrite V, C0|]. split; [exact En|].
      rewrite Ex in Hx. injection Hx as <-. auto.
    - intros a q Ha Hq. assert (La : a < length cells) by (rewrite <- Lg; apply nth_error_Some; congruence). specialize (V a La).
      destruct (Nat.leb_spec (dd_ncdim d) a); [|lia]. destruct (Nat.ltb_spec a (dd_ncdim d + dd_nvdim d)); [|lia]. cbn [andb] in V.
      destruct V as (q' & out & Eq & Eo & m & Em & R). rewrite Hq in Eq. injection Eq as <-. exists out, m. split; [exact Eo|]. split; [exact Em|exact R].
  Qed.
End MappedVel.

(** One configuration and one velocity dimension, two cells each. *)
Definition ex_vel : dgdata :=
  mk_dgdata (mk_nda [2; 2; 4] (repeat 0%Q 16)) [mk_nda [3] [0; 1; 2]%Q; mk_nda [2; 2] [1; 1; 3; 1]%Q] "c2p_vel" None None 1 1.
Example C56_velocity_ex :
  get_basis_p 1 2 = Ok (Some ("serendipity", 1)) /\ dd_ncdim ex_vel + dd_nvdim ex_vel = 2 /\
  (forall a q, 1 <= a -> nth_error (dd_grid ex_vel) a = Some q -> wf q /\ shape q = [nth a [2; 2] 0; 2]) /\
  match modal_grid q0ops qdot ex_ev iroot ex_vel (mk_ginterp 2 1 "serendipity" 2 4) with
  | Ok gr => List.map shape gr = [[5]; [5]]
  | Err _ => False
  end.
Proof.
  split; [reflexivity|]. split; [reflexivity|]. split.
  - intros [|[|[|a]]] q Ha H; try lia; try discriminate. injection H as <-. split; reflexivity.
  - vm_compute. reflexivity.
Qed.

Print Assumptions C83_modal.
Print Assumptions C83_refused.
Print Assumptions C83_read_ignored.
Print Assumptions C83_nodal_refused.
Print Assumptions C83_unmarked.
Print Assumptions C83_ns_from_file.
Print Assumptions C84_first_field.
Print Assumptions C84_all_fields_refuted.
Print Assumptions C56_grid.
Print Assumptions C56_velocity.
