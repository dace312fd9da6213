(** * C105: the report on a dataset *)
From Coq Require Import String Ascii List ZArith QArith Bool Lia.
From Verif Require Import Prelude PreludeFacts NdArray GData_Model GData_Props DataSpace_Model DataSpace_Spec DataSpace_Proofs DataSpace_Proofs2 DataSpace_Proofs3 Info_Model.
Import ListNotations.
Open Scope list_scope.

(** ** Specification *)

(** Row-major order of the indices. *)
Inductive before : list nat -> list nat -> Prop :=
| before_here i j x y : (i < j)%nat -> before (i :: x) (j :: y)
| before_later i x y : before x y -> before (i :: x) (i :: y).

(** [m] is the best value in the sense of [better], and [idx] the first place where it
    occurs. *)
Definition first_best (better : Q -> Q -> Prop) (v : nda Q) (m : Q) (idx : list nat) : Prop :=
  get v idx = Some m /\ (forall i x, get v i = Some x -> ~ better x m) /\ (forall i x, get v i = Some x -> before i idx -> better m x).

Section Spec.
  Context (fmt_e : Q -> string) (show : meta -> string).
  Open Scope string_scope.

  (** The lines for a key: none if it is absent, and it must have the right type. *)
  Definition number_line (head : string) (v : option meta) (ls : list string) : Prop :=
    match v with
    | None => ls = []
    | Some (VNum q) => ls = [head ++ fmt_e q]
    | Some (VInt z) => ls = [head ++ fmt_e (inject_Z z)]
    | _ => False
    end.
  Definition integer_line (head : string) (v : option meta) (ls : list string) : Prop :=
    match v with None => ls = [] | Some (VInt z) => ls = [head ++ show_Z z] | _ => False end.
  Definition text_line (head : string) (v : option meta) (ls : list string) : Prop :=
    match v with None => ls = [] | Some (VText s) => ls = [head ++ s] | _ => False end.
  Definition basis_line (v modal : option meta) (ls : list string) : Prop :=
    match v, modal with
    | None, _ => ls = []
    | Some (VText s), Some (VBool b) => ls = ["│  └─ Basis Type: " ++ s ++ (if b then " (modal)" else "")]
    | _, _ => False
    end.
  Definition geometry_line (v : option meta) (ls : list string) : Prop :=
    match v with
    | None => ls = []
    | Some (VInt z) => exists n name, z = Z.of_nat n /\ nth_error ["NONE"; "TOKAMAK"; "MIRROR"; "MAPC2P"; "FROMFILE"]%list n = Some name /\ ls = ["│  ├─ Type: GKYL_GEOMETRY_" ++ name]
    | _ => False
    end.

  (** A heading if one of the keys is there. *)
  Definition headed (head : string) (keys : list (option meta)) (ls : list string) : list string :=
    if List.forallb (fun o => match o with None => true | Some _ => false end) keys then [] else head :: ls.

  Definition standard : list string :=
    ["time"; "frame"; "lower"; "upper"; "cells"; "grid_type"; "poly_order"; "basis_type"; "is_modal"; "num_comps";
     "changeset"; "builddate"; "geometry_type"; "geqdsk_sign_convention"]%list.

  (** The other keys, in order. *)
  Inductive other_lines : list (string * meta) -> list string -> Prop :=
  | other_nil : other_lines [] []
  | other_std k v c ls : In k standard -> other_lines c ls -> other_lines ((k, v) :: c) ls
  | other_key k v c ls : ~ In k standard -> other_lines c ls -> other_lines ((k, v) :: c) (("├─ " ++ k ++ ": " ++ show v) :: ls).

  (** Extremum at a place, with its component if there are several. *)
  Definition extreme_line (head : string) (nc : nat) (m : Q) (cell : list nat) (comp : nat) : string :=
    head ++ fmt_e m ++ " at " ++ (match cell with [i] => "(" ++ show_Z (Z.of_nat i) ++ ",)" | _ => "(" ++ join ", " (List.map (fun i => show_Z (Z.of_nat i)) cell) ++ ")" end)
         ++ (if (1 <? nc)%nat then " component " ++ show_Z (Z.of_nat comp) else "").

  Definition dimension_line (last : bool) (d c : nat) (lo up : Q) : string :=
    (if last then "│  └─ Dim " else "│  ├─ Dim ") ++ show_Z (Z.of_nat d) ++ ": Num. cells: " ++ show_Z (Z.of_nat c) ++ "; Lower: " ++ fmt_e lo ++ "; Upper: " ++ fmt_e up.
End Spec.

(** A dataset with values, cells and bounds that fit each other, on a grid of named type. *)
Definition regular (d : idata) (cells : list nat) (nc : nat) (lo up : list Q) (v : nda Q) (gt : string) : Prop :=
  let g := i_data d in
  c_cells g = Some cells /\ c_ncomps g = Some nc /\ c_lower g = Some lo /\ c_upper g = Some up /\ g_vals g = Some v /\
  shape v = cells ++ [nc] /\ wf v /\ prod (shape v) <> 0%nat /\ cells <> [] /\ length lo = length cells /\ length up = length cells /\
  aget "grid_type"%string (i_ctx d) = Some (VText gt).

(** ** Strings *)

Lemma sapp_assoc (a b c : string) : ((a ++ b) ++ c = a ++ b ++ c)%string.
Proof. induction a as [|x a IH]; cbn; [reflexivity|now rewrite IH]. Qed.
Lemma sapp_nil (a : string) : (a ++ "" = a)%string.
Proof. induction a as [|x a IH]; cbn; [reflexivity|now rewrite IH]. Qed.

Definition heads (l : list string) : string := fold_right (fun x s => (x ++ nl ++ s)%string) ""%string l.
Definition tails (l : list string) : string := fold_right (fun x s => (nl ++ x ++ s)%string) ""%string l.

Lemma heads_app a b : heads (a ++ b) = (heads a ++ heads b)%string.
Proof. induction a as [|x a IH]; [reflexivity|]. cbn [app heads fold_right]. fold (heads (a ++ b)). fold (heads a). rewrite IH, !sapp_assoc. reflexivity. Qed.
Lemma tails_app a b : tails (a ++ b) = (tails a ++ tails b)%string.
Proof. induction a as [|x a IH]; [reflexivity|]. cbn [app tails fold_right]. fold (tails (a ++ b)). fold (tails a). rewrite IH, !sapp_assoc. reflexivity. Qed.

Lemma join_cons x l : join nl (x :: l) = (x ++ tails l)%string.
Proof.
  revert x. induction l as [|y l IH]; intros x; [cbn; now rewrite sapp_nil|]. change (join nl (x :: y :: l)) with (x ++ nl ++ join nl (y :: l))%string. rewrite IH. reflexivity.
Qed.
Lemma join_split_at a x b : join nl (a ++ x :: b) = (heads a ++ x ++ tails b)%string.
Proof.
  induction a as [|y a IH]; cbn [app].
  - rewrite join_cons. reflexivity.
  - destruct (a ++ x :: b) as [|z l] eqn:E; [now destruct a|]. change (join nl (y :: z :: l)) with (y ++ nl ++ join nl (z :: l))%string. rewrite IH. cbn [heads fold_right]. fold (heads a). now rewrite !sapp_assoc.
Qed.

(** ** Extremes *)

Lemma before_ravel sh : forall i j k l, ravel sh i = Some k -> ravel sh j = Some l -> before i j -> (k < l)%nat.
Proof.
  induction sh as [|n sh IH]; intros i j k l Hi Hj B.
  - destruct i; [|discriminate]. inversion B.
  - destruct i as [|a i]; [discriminate|]. destruct j as [|b j]; [discriminate|]. cbn [ravel] in Hi, Hj. destruct (Nat.ltb a n); [|discriminate Hi]. destruct (Nat.ltb b n); [|discriminate Hj].
    destruct (ravel sh i) as [k'|] eqn:Ei; [|discriminate]. destruct (ravel sh j) as [l'|] eqn:Ej; [|discriminate]. cbn [option_map] in Hi, Hj. injection Hi as <-. injection Hj as <-.
    pose proof (ravel_lt _ _ _ Ei). pose proof (ravel_lt _ _ _ Ej). inversion B as [? ? ? ? H1|? ? ? H1]; subst; [nia|]. specialize (IH _ _ _ _ Ei Ej H1). lia.
Qed.

Section Best.
  Context (lt : Q -> Q -> bool).
  Context (irr : forall a, lt a a = false) (trans : forall a b c, lt a b = true -> lt b c = true -> lt a c = true).
  Context (neg_trans : forall a b c, lt a b = false -> lt b c = false -> lt a c = false).

  Lemma lt_mix a b c : lt a b = false -> lt c b = true -> lt c a = true.
  Proof. intros H1 H2. destruct (lt c a) eqn:E; [reflexivity|]. now rewrite (neg_trans _ _ _ E H1) in H2. Qed.

  (** [b] is the first best of the list [pre]. *)
  Definition best_of (pre : list Q) (b : Q * nat) : Prop :=
    nth_error pre (snd b) = Some (fst b) /\ (forall i x, nth_error pre i = Some x -> lt (fst b) x = false) /\
    (forall i x, nth_error pre i = Some x -> (i < snd b)%nat -> lt x (fst b) = true).

  Lemma arg_best_spec l : forall pre b, best_of pre b -> best_of (pre ++ l) (arg_best lt l (length pre) b).
  Proof.
    induction l as [|y l IH]; intros pre b B; cbn [arg_best]; [now rewrite app_nil_r|]. replace (pre ++ y :: l) with ((pre ++ [y]) ++ l) by (rewrite <- app_assoc; reflexivity).
    replace (S (length pre)) with (length (pre ++ [y])) by (rewrite app_length; cbn; lia). apply IH. destruct B as (B1 & B2 & B3).
    assert (Len : (snd b < length pre)%nat) by (apply nth_error_Some; congruence).
    assert (Nth : forall i x, nth_error (pre ++ [y]) i = Some x -> nth_error pre i = Some x \/ (i = length pre /\ x = y)).
    { intros i x H. destruct (Nat.lt_ge_cases i (length pre)) as [Hi|Hi]; [rewrite nth_error_app1 in H by exact Hi; auto|]. rewrite nth_error_app2 in H by exact Hi.
      destruct (i - length pre)%nat as [|q] eqn:E; [|destruct q; discriminate]. injection H as ->. right. split; [lia|reflexivity]. }
    destruct (lt (fst b) y) eqn:E.
    - split; [|split]; cbn [fst snd].
      + rewrite nth_error_app2 by lia. now rewrite Nat.sub_diag.
      + intros i x H. destruct (Nth _ _ H) as [H'|(_ & ->)]; [|apply irr]. specialize (B2 _ _ H'). destruct (lt y x) eqn:Ey; [|reflexivity]. now rewrite (trans _ _ _ E Ey) in B2.
      + intros i x H Hi. destruct (Nth _ _ H) as [H'|(-> & _)]; [|lia]. specialize (B2 _ _ H'). destruct (lt x y) eqn:Exy; [reflexivity|]. now rewrite (neg_trans _ _ _ B2 Exy) in E.
    - split; [|split].
      + rewrite nth_error_app1 by exact Len. exact B1.
      + intros i x H. destruct (Nth _ _ H) as [H'|(_ & ->)]; [eauto|exact E].
      + intros i x H Hi. destruct (Nth _ _ H) as [H'|(-> & _)]; [eauto|lia].
  Qed.

  Lemma extreme_spec (v : nda Q) : wf v -> prod (shape v) <> 0%nat -> exists m idx, extreme lt v = Ok (m, idx) /\ in_range (shape v) idx /\ first_best (fun a b => lt b a = true) v m idx.
  Proof.
    intros W P. unfold extreme. destruct (flat v) as [|x l] eqn:Ef; [unfold wf in W; rewrite Ef in W; cbn in W; lia|].
    assert (B : best_of [x] (x, 0%nat)). { split; [reflexivity|]. split; intros [|[|i]] y H; cbn in H; try discriminate; cbn [fst snd]; [injection H as <-; intros; apply irr|cbn; lia]. }
    pose proof (arg_best_spec l [x] (x, 0%nat) B) as (B1 & B2 & B3). cbn [length app] in B1, B2, B3. set (b := arg_best lt l 1 (x, 0%nat)) in *. rewrite <- Ef in B1, B2, B3.
    assert (Hk : (snd b < prod (shape v))%nat) by (rewrite <- W; apply nth_error_Some; congruence). destruct (ravel_surj _ _ Hk) as (idx & Hr).
    rewrite (nth_error_indices _ _ _ Hr). exists (fst b), idx. split; [reflexivity|]. split; [eapply ravel_Some_in_range; eauto|]. split; [|split].
    - unfold get. rewrite Hr. exact B1.
    - intros i y Hy. unfold get in Hy. destruct (ravel (shape v) i) as [k|]; [|discriminate]. rewrite (B2 _ _ Hy). discriminate.
    - intros i y Hy Hb. unfold get in Hy. destruct (ravel (shape v) i) as [k|] eqn:Ei; [|discriminate]. apply (B3 _ _ Hy). eapply before_ravel; eauto.
  Qed.
End Best.

Lemma q_lt_spec a b : q_lt a b = true <-> (a < b)%Q.
Proof.
  unfold q_lt. destruct (Qle_bool b a) eqn:E; cbn.
  - apply Qle_bool_iff in E. split; [discriminate|]. intros H. exfalso. eapply Qlt_not_le; eauto.
  - split; [|reflexivity]. intros _. apply Qnot_le_lt. intros H. apply Qle_bool_iff in H. congruence.
Qed.
Lemma q_lt_false a b : q_lt a b = false <-> (b <= a)%Q.
Proof. unfold q_lt. rewrite negb_false_iff. apply Qle_bool_iff. Qed.

Lemma extreme_max v : wf v -> prod (shape v) <> 0%nat -> exists m idx, extreme q_lt v = Ok (m, idx) /\ in_range (shape v) idx /\ first_best (fun a b => (b < a)%Q) v m idx.
Proof.
  intros W P. destruct (extreme_spec q_lt) with (v := v) as (m & idx & E & R & (H1 & H2 & H3)); try assumption.
  - intros a. apply q_lt_false, Qle_refl.
  - intros a b c. rewrite !q_lt_spec. apply Qlt_trans.
  - intros a b c. rewrite !q_lt_false. intros; eapply Qle_trans; eauto.
  - exists m, idx. split; [exact E|]. split; [exact R|]. split; [exact H1|]. split; intros i x Hx; [specialize (H2 i x Hx); now rewrite q_lt_spec in H2|]. intros Hb. specialize (H3 i x Hx Hb). now apply q_lt_spec in H3.
Qed.
Lemma extreme_min v : wf v -> prod (shape v) <> 0%nat -> exists m idx, extreme (fun a b => q_lt b a) v = Ok (m, idx) /\ in_range (shape v) idx /\ first_best (fun a b => (a < b)%Q) v m idx.
Proof.
  intros W P. destruct (extreme_spec (fun a b => q_lt b a)) with (v := v) as (m & idx & E & R & (H1 & H2 & H3)); try assumption.
  - intros a. apply q_lt_false, Qle_refl.
  - intros a b c. rewrite !q_lt_spec. intros; eapply Qlt_trans; eauto.
  - intros a b c. rewrite !q_lt_false. intros; eapply Qle_trans; eauto.
  - exists m, idx. split; [exact E|]. split; [exact R|]. split; [exact H1|]. split; intros i x Hx; [specialize (H2 i x Hx); now rewrite q_lt_spec in H2|]. intros Hb. specialize (H3 i x Hx Hb). now apply q_lt_spec in H3.
Qed.

(** ** The parts of the report *)

Section Parts.
  Context (fmt_e : Q -> string) (show : meta -> string).
  Open Scope string_scope.

  Lemma time_ok d t : number_line fmt_e "├─ Time: " (aget "time" (i_ctx d)) t ->
    line_if d "time" (fun v => let* s := e_of fmt_e v in Ok ("├─ Time: " ++ s ++ nl)) = Ok (heads t).
  Proof. unfold line_if, number_line. destruct (aget "time" (i_ctx d)) as [[]|]; try contradiction; intros ->; cbn [e_of bind heads fold_right]; rewrite ?sapp_assoc, ?sapp_nil; reflexivity. Qed.

  Lemma frame_ok d t : integer_line "├─ Frame: " (aget "frame" (i_ctx d)) t ->
    line_if d "frame" (fun v => let* s := d_of v in Ok ("├─ Frame: " ++ s ++ nl)) = Ok (heads t).
  Proof. unfold line_if, integer_line. destruct (aget "frame" (i_ctx d)) as [[]|]; try contradiction; intros ->; cbn [d_of bind heads fold_right]; rewrite ?sapp_assoc, ?sapp_nil; reflexivity. Qed.

  Lemma integer_ok d k h t : integer_line h (aget k (i_ctx d)) t -> line_if d k (fun v => let* s := d_of v in Ok (nl ++ h ++ s)) = Ok (tails t).
  Proof. unfold line_if, integer_line. destruct (aget k (i_ctx d)) as [[]|]; try contradiction; intros ->; cbn [d_of bind tails fold_right]; rewrite ?sapp_assoc, ?sapp_nil; reflexivity. Qed.

  Lemma text_ok d k h t : text_line h (aget k (i_ctx d)) t -> line_if d k (fun v => let* s := s_of v in Ok (nl ++ h ++ s)) = Ok (tails t).
  Proof. unfold line_if, text_line. destruct (aget k (i_ctx d)) as [[]|]; try contradiction; intros ->; cbn [s_of bind tails fold_right]; rewrite ?sapp_assoc, ?sapp_nil; reflexivity. Qed.

  Lemma basis_ok d p b : c_ncomps (i_data d) <> None -> integer_line "│  ├─ Polynomial Order: " (aget "poly_order" (i_ctx d)) p ->
    basis_line (aget "basis_type" (i_ctx d)) (aget "is_modal" (i_ctx d)) b -> basis_text d = Ok (tails ("├─ DG info:" :: p ++ b)%list).
  Proof.
    intros Hc Hp Hb. unfold basis_text. destruct (c_ncomps (i_data d)) as [nc|]; [|contradiction]. rewrite !orb_true_r. rewrite (integer_ok _ _ _ _ Hp). cbn [bind].
    assert (E : line_if d "basis_type" (fun v => match aget "is_modal" (i_ctx d) with None => Err KeyError | Some m => let* s := s_of v in Ok (nl ++ "│  └─ Basis Type: " ++ s ++ (if truth m then " (modal)" else "")) end) = Ok (tails b)).
    { unfold line_if. unfold basis_line in Hb. destruct (aget "basis_type" (i_ctx d)) as [[]|]; try contradiction; [|now subst b]. destruct (aget "is_modal" (i_ctx d)) as [[]|]; try contradiction. subst b. cbn [s_of bind truth tails fold_right]. rewrite ?sapp_assoc, ?sapp_nil. reflexivity. }
    rewrite E. cbn [bind]. f_equal. cbn [tails fold_right]. fold (tails (p ++ b)). rewrite tails_app. rewrite ?sapp_assoc. reflexivity.
  Qed.

  Lemma build_ok d c b : text_line "│  ├─ Changeset: " (aget "changeset" (i_ctx d)) c -> text_line "│  └─ Build Date: " (aget "builddate" (i_ctx d)) b ->
    build_text d = Ok (tails (headed "├─ Created with Gkeyll:" [aget "changeset" (i_ctx d); aget "builddate" (i_ctx d)] (c ++ b)%list)).
  Proof.
    intros Hc Hb. unfold build_text, headed, has. cbn [forallb]. pose proof (text_ok _ _ _ _ Hc) as Ec. pose proof (text_ok _ _ _ _ Hb) as Eb.
    destruct (aget "changeset" (i_ctx d)) eqn:E1, (aget "builddate" (i_ctx d)) eqn:E2; cbn [orb andb negb]; try reflexivity;
      rewrite Ec; cbn [bind]; rewrite Eb; cbn [bind]; f_equal; cbn [tails fold_right]; fold (tails (c ++ b)); rewrite tails_app, ?sapp_assoc; reflexivity.
  Qed.

  Lemma geometry_ok d t s : geometry_line (aget "geometry_type" (i_ctx d)) t -> integer_line "│  ├─ GEQDSK sign convention: " (aget "geqdsk_sign_convention" (i_ctx d)) s ->
    geometry_text d = Ok (tails (headed "├─ Geometry info:" [aget "geometry_type" (i_ctx d); aget "geqdsk_sign_convention" (i_ctx d)] (t ++ s)%list)).
  Proof.
    intros Ht Hs. unfold geometry_text, headed, has. cbn [forallb]. pose proof (integer_ok _ _ _ _ Hs) as Es.
    assert (Et : line_if d "geometry_type" (fun v => let* s := geometry_of v in Ok (nl ++ "│  ├─ Type: " ++ s)) = Ok (tails t)).
    { unfold line_if. unfold geometry_line in Ht. destruct (aget "geometry_type" (i_ctx d)) as [[]|]; try contradiction; [|now subst t].
      destruct Ht as (n & name & -> & Hn & ->). destruct n as [|[|[|[|[|n]]]]]; cbn in Hn; try (destruct n; discriminate); injection Hn as <-; reflexivity. }
    destruct (aget "geometry_type" (i_ctx d)) eqn:E1, (aget "geqdsk_sign_convention" (i_ctx d)) eqn:E2; cbn [orb andb negb]; try reflexivity;
      rewrite Et; cbn [bind]; rewrite Es; cbn [bind]; f_equal; cbn [tails fold_right]; fold (tails (t ++ s)); rewrite tails_app, ?sapp_assoc; reflexivity.
  Qed.

  Lemma others_ok d o : other_lines show (i_ctx d) o -> other_text show d = tails o.
  Proof.
    unfold other_text. assert (G : forall k, existsb (String.eqb k) groups = true <-> In k standard).
    { intros k. change groups with standard. rewrite existsb_exists. split; [intros (x & Hx & E); apply String.eqb_eq in E; now subst|]. intros H. exists k. split; [exact H|apply String.eqb_refl]. }
    induction 1 as [|k v c ls Hin H IH|k v c ls Hin H IH]; [reflexivity| |]; cbn [filter fst].
    - apply G in Hin. rewrite Hin. exact IH.
    - destruct (existsb (String.eqb k) groups) eqn:E; [apply G in E; contradiction|]. cbn [negb List.map fold_right fst snd tails]. fold (tails ls). rewrite <- IH, !sapp_assoc. reflexivity.
  Qed.

  Lemma tuple_ok l : show_tuple l = match l with [i] => "(" ++ show_Z (Z.of_nat i) ++ ",)" | _ => "(" ++ join ", " (List.map (fun i => show_Z (Z.of_nat i)) l) ++ ")" end.
  Proof. destruct l as [|a [|b l]]; reflexivity. Qed.

  Lemma values_ok nc nd (v : nda Q) cells mx (ix : list nat) mn (jx : list nat) cx cn : extreme q_lt v = Ok (mx, (ix ++ [cx])%list) -> extreme (fun a b => q_lt b a) v = Ok (mn, (jx ++ [cn])%list) ->
    length ix = nd -> length jx = nd -> nd = length (cells : list nat) ->
    values_text fmt_e nc nd (Some v) = Ok (tails [extreme_line fmt_e "├─ Maximum: " nc mx ix cx; extreme_line fmt_e "├─ Minimum: " nc mn jx cn]%list).
  Proof.
    intros E1 E2 L1 L2 _. unfold values_text. rewrite E1. cbn [bind]. rewrite E2. cbn [bind fst snd]. unfold last_of. rewrite !rev_app_distr. cbn [rev app].
    assert (F1 : firstn nd (ix ++ [cx]) = ix) by (rewrite firstn_app, <- L1, Nat.sub_diag, firstn_all; apply app_nil_r). assert (F2 : firstn nd (jx ++ [cn]) = jx) by (rewrite firstn_app, <- L2, Nat.sub_diag, firstn_all; apply app_nil_r). rewrite F1, F2, !tuple_ok.
    unfold extreme_line, d_nat. cbn [tails fold_right]. destruct (1 <? nc)%nat; cbn [bind]; f_equal; rewrite ?sapp_assoc, ?sapp_nil; reflexivity.
  Qed.
End Parts.

Lemma mapM_heads {B} (f : B -> res string) (g : B -> string) l : (forall x, In x l -> f x = Ok (g x ++ nl)%string) ->
  exists ys, mapM f l = Ok ys /\ fold_right append ""%string ys = heads (List.map g l).
Proof.
  induction l as [|x l IH]; intros H; [exists []; split; reflexivity|]. destruct IH as (ys & E & F); [intros; apply H; now right|]. exists ((g x ++ nl)%string :: ys). cbn [mapM]. rewrite (H x (or_introl eq_refl)). cbn [bind]. rewrite E. cbn [bind].
  split; [reflexivity|]. cbn [fold_right List.map heads]. fold (heads (List.map g l)). rewrite F, !sapp_assoc. reflexivity.
Qed.

Section Theorems.
  Context (fmt_e : Q -> string) (show : meta -> string).
  Open Scope string_scope.

  (** The report on a regular dataset, line by line. *)
  Theorem C105_report d cells nc lo up v gt t f p b c u g s o :
    regular d cells nc lo up v gt ->
    number_line fmt_e "├─ Time: " (aget "time" (i_ctx d)) t -> integer_line "├─ Frame: " (aget "frame" (i_ctx d)) f ->
    integer_line "│  ├─ Polynomial Order: " (aget "poly_order" (i_ctx d)) p -> basis_line (aget "basis_type" (i_ctx d)) (aget "is_modal" (i_ctx d)) b ->
    text_line "│  ├─ Changeset: " (aget "changeset" (i_ctx d)) c -> text_line "│  └─ Build Date: " (aget "builddate" (i_ctx d)) u ->
    geometry_line (aget "geometry_type" (i_ctx d)) g -> integer_line "│  ├─ GEQDSK sign convention: " (aget "geqdsk_sign_convention" (i_ctx d)) s ->
    other_lines show (i_ctx d) o ->
    exists mx icell icomp mn jcell jcomp,
      first_best (fun a b => b < a)%Q v mx (icell ++ [icomp])%list /\ first_best (fun a b => a < b)%Q v mn (jcell ++ [jcomp])%list /\
      let n := length cells in
      info fmt_e show d = Ok (join (String "010" "") (
        t ++ f ++ [("├─ Number of components: " ++ show_Z (Z.of_nat nc))%string; ("├─ Number of dimensions: " ++ show_Z (Z.of_nat n))%string; ("├─ Grid: (" ++ gt ++ ")")%string]
        ++ List.map (fun k => dimension_line fmt_e (k =? n - 1)%nat k (nth k cells 0%nat) (nth k lo 0%Q) (nth k up 0%Q)) (seq 0 n)
        ++ [extreme_line fmt_e "├─ Maximum: " nc mx icell icomp; extreme_line fmt_e "├─ Minimum: " nc mn jcell jcomp]
        ++ ("├─ DG info:" :: p ++ b)
        ++ headed "├─ Created with Gkeyll:" [aget "changeset" (i_ctx d); aget "builddate" (i_ctx d)] (c ++ u)
        ++ headed "├─ Geometry info:" [aget "geometry_type" (i_ctx d); aget "geqdsk_sign_convention" (i_ctx d)] (g ++ s)
        ++ o)%list).
  Proof.
    intros (Hc & Hn & Hlo & Hup & Hv & Hs & W & P & Ne & Llo & Lup & Hg) Ht Hf Hp Hb Hch Hbd Hge Hsg Ho.
    assert (Np : nc <> 0%nat). { rewrite Hs in P. intros ->. apply P. clear. induction cells as [|x l IH]; [reflexivity|]. cbn [app]. change (prod (x :: l ++ [0%nat])) with (x * prod (l ++ [0%nat]))%nat. lia. }
    destruct (extreme_max v W P) as (mx & ix & E1 & R1 & B1). destruct (extreme_min v W P) as (mn & jx & E2 & R2 & B2).
    assert (Sp : forall i, in_range (shape v) i -> exists cell comp, i = (cell ++ [comp])%list /\ length cell = length cells).
    { intros i Hi. rewrite Hs in Hi. apply in_range_length in Hi. rewrite app_length in Hi. cbn in Hi. destruct (exists_last (l := i)) as (cell & comp & ->); [intros ->; cbn in Hi; lia|]. exists cell, comp. split; [reflexivity|]. rewrite app_length in Hi. cbn in Hi. lia. }
    destruct (Sp _ R1) as (icell & icomp & -> & L1). destruct (Sp _ R2) as (jcell & jcomp & -> & L2).
    exists mx, icell, icomp, mn, jcell, jcomp. split; [exact B1|]. split; [exact B2|]. cbn zeta.
    unfold info. assert (G1 : get_num_comps (i_data d) = Ok nc) by (unfold get_num_comps; rewrite Hn; destruct nc; [contradiction|reflexivity]).
    assert (G2 : get_num_dims (i_data d) = length cells) by (unfold get_num_dims; now rewrite Hc).
    assert (G3 : get_num_cells (i_data d) = Some cells) by (unfold get_num_cells; now rewrite Hc).
    assert (G4 : get_bounds (i_data d) = Ok (Some (lo, up))) by (unfold get_bounds; now rewrite Hlo, Hup).
    rewrite G1, G2, G3, G4. cbn [bind]. rewrite (time_ok _ _ _ Ht). cbn [bind]. rewrite (frame_ok _ _ Hf). cbn [bind].
    assert (Gr : grid_text fmt_e d (length cells) (Some cells) (Some (lo, up)) = Ok ("├─ Grid: (" ++ gt ++ ")" ++ nl
      ++ heads (List.map (fun k => dimension_line fmt_e (k =? length cells - 1)%nat k (nth k cells 0%nat) (nth k lo 0%Q) (nth k up 0%Q)) (seq 0 (length cells - 1)))
      ++ dimension_line fmt_e true (length cells - 1) (nth (length cells - 1) cells 0%nat) (nth (length cells - 1) lo 0%Q) (nth (length cells - 1) up 0%Q))).
    { unfold grid_text. rewrite Hc, Hlo, Hup. cbn [orb]. rewrite Hg. cbn [s_of bind].
      destruct (mapM_heads (fun k => let* c := item cells k in let* l := item lo k in let* u := item up k in Ok (dim_line fmt_e "│  ├─ Dim " (Z.of_nat k) c l u ++ nl))
        (fun k => dimension_line fmt_e (k =? length cells - 1)%nat k (nth k cells 0%nat) (nth k lo 0%Q) (nth k up 0%Q)) (seq 0 (length cells - 1))) as (ys & Ey & Fy).
      { intros k Hk. apply in_seq in Hk. unfold item. rewrite (nth_error_nth' cells 0%nat) by lia. rewrite (nth_error_nth' lo 0%Q) by lia. rewrite (nth_error_nth' up 0%Q) by lia. cbn [bind].
        destruct (Nat.eqb_spec k (length cells - 1)); [lia|]. unfold dim_line, dimension_line, d_nat. rewrite ?sapp_assoc. reflexivity. }
      rewrite Ey. cbn [bind]. rewrite Fy.
      assert (La : forall A (l : list A) (x : A), length l = length cells -> last_of l = Ok (nth (length cells - 1) l x)).
      { intros A l x HL. unfold last_of. destruct (exists_last (l := l)) as (l' & y & ->); [intros ->; destruct cells; [contradiction|discriminate]|]. rewrite rev_app_distr. cbn [rev app]. rewrite app_length in HL. cbn in HL. rewrite app_nth2 by lia. replace (length cells - 1 - length l')%nat with 0%nat by lia. reflexivity. }
      rewrite (La _ cells 0%nat eq_refl), (La _ lo 0%Q Llo), (La _ up 0%Q Lup). cbn [bind]. f_equal. unfold dim_line, dimension_line, d_nat. destruct cells as [|x l]; [contradiction|]. cbn [length]. replace (Z.of_nat (S (length l)) - 1)%Z with (Z.of_nat (S (length l) - 1)) by lia. reflexivity. }
    rewrite Gr. cbn [bind]. rewrite Hv, (values_ok _ _ _ _ cells _ _ _ _ _ _ E1 E2 L1 L2 eq_refl). cbn [bind].
    rewrite (basis_ok d p b) by (try assumption; congruence). cbn [bind]. rewrite (build_ok d c u) by assumption. cbn [bind]. rewrite (geometry_ok d g s) by assumption. cbn [bind]. rewrite (others_ok show d o Ho). f_equal.
    assert (Sq : seq 0 (length cells) = (seq 0 (length cells - 1) ++ [(length cells - 1)%nat])%list). { destruct cells as [|x l]; [contradiction|]. cbn [length]. rewrite seq_S. replace (S (length l) - 1)%nat with (length l) by lia. reflexivity. }
    rewrite Sq, map_app. cbn [List.map]. rewrite Nat.eqb_refl. fold nl.
    match goal with |- _ = join nl (t ++ f ++ ?X ++ (?B ++ [?y]) ++ ?z)%list => replace (t ++ f ++ X ++ (B ++ [y]) ++ z)%list with ((t ++ f ++ X ++ B) ++ y :: z)%list by (rewrite <- ?app_assoc; reflexivity) end.
    rewrite join_split_at, !heads_app, !tails_app. cbn [heads tails fold_right]. fold (heads t) (heads f). unfold d_nat. rewrite ?sapp_assoc, ?sapp_nil. cbn [append]. rewrite ?sapp_assoc, ?sapp_nil. reflexivity.
  Qed.

  (** Every dictionary has its trailing list, in which a standard key never appears. *)
  Theorem C105_others ctx : exists o, other_lines show ctx o /\ length o = length (List.filter (fun kv => negb (existsb (String.eqb (fst kv)) standard)) ctx).
  Proof.
    induction ctx as [|(k, v) c (o & H & L)]; [exists []; split; [constructor|reflexivity]|]. cbn [filter fst]. destruct (existsb (String.eqb k) standard) eqn:E; cbn [negb].
    - exists o. split; [|exact L]. constructor; [|exact H]. apply existsb_exists in E as (x & Hx & Ex). apply String.eqb_eq in Ex. now subst.
    - exists (("├─ " ++ k ++ ": " ++ show v)%string :: o)%list. split; [|cbn; now rewrite L]. constructor; [|exact H]. intros Hin. assert (existsb (String.eqb k) standard = true) by (apply existsb_exists; exists k; split; [exact Hin|apply String.eqb_refl]). congruence.
  Qed.

  (** Without a grid type there is no report on a dataset that has cells. *)
  Theorem C105_no_grid_type d nc b t f : c_cells (i_data d) <> None -> aget "grid_type" (i_ctx d) = None ->
    get_num_comps (i_data d) = Ok nc -> get_bounds (i_data d) = Ok b ->
    number_line fmt_e "├─ Time: " (aget "time" (i_ctx d)) t -> integer_line "├─ Frame: " (aget "frame" (i_ctx d)) f ->
    info fmt_e show d = Err KeyError.
  Proof.
    intros Hc Hg E1 E2 Ht Hf. unfold info. rewrite E1. cbn [bind]. rewrite E2. cbn [bind]. rewrite (time_ok _ _ _ Ht). cbn [bind]. rewrite (frame_ok _ _ Hf). cbn [bind].
    unfold grid_text. rewrite Hg. destruct (c_cells (i_data d)); [|contradiction]. rewrite !orb_true_r. reflexivity.
  Qed.

  (** In particular there is none on a new dataset into which a grid and values were pushed. *)
  Theorem C105_new g v cells nc : shape v = (cells ++ [nc])%list -> (length cells <= length g)%nat -> Forall (fun a => flat a <> []) (firstn (length cells) g) ->
    snd (push empty_gdata g v) = None /\ info fmt_e show (mk_idata (fst (push empty_gdata g v)) []) = Err KeyError.
  Proof.
    intros Hs Hl Hf. destruct (push_reports empty_gdata g v cells nc Hs Hl Hf) as (E & R). split; [exact E|].
    pose proof R as R'. destruct R' as [_ _ _ Hn _ (lo & up & Hb & _)]. eapply (C105_no_grid_type _ nc (Some (lo, up)) [] []); cbn [i_data i_ctx]; try reflexivity; try assumption.
    unfold push. rewrite (set_values_state _ _ _ _ Hs). unfold set_grid. destruct (grid_bounds_spec g (length cells) Hl Hf) as (lo' & up' & E' & _). unfold get_num_dims. cbn [c_cells]. rewrite E'. cbn. discriminate.
  Qed.

  (** A basis without the modal flag, and a geometry out of the list, are refused. *)
  Theorem C105_no_modal d s : aget "basis_type" (i_ctx d) <> None -> aget "is_modal" (i_ctx d) = None -> info fmt_e show d <> Ok s.
  Proof.
    intros Hb Hm E. unfold info in E. apply bind_ok in E as (nc & _ & E). apply bind_ok in E as (bo & _ & E). apply bind_ok in E as (t & _ & E). apply bind_ok in E as (f & _ & E). apply bind_ok in E as (gr & _ & E). apply bind_ok in E as (vs & _ & E). apply bind_ok in E as (ba & E' & _).
    unfold basis_text in E'. replace (has d "basis_type") with true in E' by (unfold has; destruct (aget "basis_type" (i_ctx d)); [reflexivity|contradiction]). rewrite orb_true_r in E'. cbn [orb] in E'. apply bind_ok in E' as (q & _ & E'). apply bind_ok in E' as (r & E' & _).
    unfold line_if in E'. destruct (aget "basis_type" (i_ctx d)); [|contradiction]. rewrite Hm in E'. discriminate.
  Qed.
  Theorem C105_geometry_range d s z : aget "geometry_type" (i_ctx d) = Some (VInt z) -> (z < -5 \/ 4 < z)%Z -> info fmt_e show d <> Ok s.
  Proof.
    intros Hg Hz E. unfold info in E. apply bind_ok in E as (nc & _ & E). apply bind_ok in E as (bo & _ & E). apply bind_ok in E as (t & _ & E). apply bind_ok in E as (f & _ & E). apply bind_ok in E as (gr & _ & E). apply bind_ok in E as (vs & _ & E). apply bind_ok in E as (ba & _ & E). apply bind_ok in E as (bu & _ & E). apply bind_ok in E as (ge & E' & _).
    unfold geometry_text in E'. replace (has d "geometry_type") with true in E' by (unfold has; now rewrite Hg). cbn [orb] in E'. apply bind_ok in E' as (q & E' & _). unfold line_if in E'. rewrite Hg in E'. apply bind_ok in E' as (r & E' & _). unfold geometry_of in E'. apply bind_ok in E' as (k & E' & _).
    unfold norm_index in E'. change (Z.of_nat (length geometries)) with 5%Z in E'. cbn zeta in E'. destruct ((0 <=? _)%Z && (_ <? 5)%Z) eqn:Ei; [|discriminate]. apply andb_true_iff in Ei as (E1 & E2). apply Z.leb_le in E1. apply Z.ltb_lt in E2. destruct (z <? 0)%Z eqn:Ez; [apply Z.ltb_lt in Ez|apply Z.ltb_ge in Ez]; lia.
  Qed.

  (** ** The command *)

  (** [label (tag#number)], without the blank if there is no label. *)
  Definition heading (tag label : string) (k : nat) : string :=
    match label with EmptyString => "" | _ => label ++ " " end ++ "(" ++ tag ++ "#" ++ show_Z (Z.of_nat k) ++ ")".

  Inductive printed (compact : bool) (ds : dspace idata) : list ref -> list string -> Prop :=
  | printed_nil : printed compact ds [] []
  | printed_title tag k x rs out : compact = true -> lookup ds (tag, k) = Some x -> printed compact ds rs out ->
      printed compact ds ((tag, k) :: rs) (heading tag (ds_label x) k :: out)
  | printed_report tag k x s rs out : compact = false -> lookup ds (tag, k) = Some x -> info fmt_e show (ds_data x) = Ok s -> printed compact ds rs out ->
      printed compact ds ((tag, k) :: rs) (heading tag (ds_label x) k :: (s ++ String "010" "") :: out).

  Lemma title_heading tag label k : title tag label k = heading tag label k.
  Proof. unfold title, heading, d_nat. destruct label as [|a l]; [reflexivity|]. cbn [String.eqb]. now rewrite !sapp_assoc. Qed.

  Definition icmd (compact : bool) (i : nat) (r : ref) (st : dspace idata * list string) : res (dspace idata * list string) :=
    match lookup (fst st) r with
    | None => Err KeyError
    | Some x =>
        let t := title (fst r) (ds_label x) i in
        if compact then Ok (fst st, (snd st ++ [t])%list)
        else let* s := info fmt_e show (ds_data x) in Ok (fst st, (snd st ++ [t; (s ++ nl)%string])%list)
    end.
  Let isp (st : dspace idata * list string) := fst st.

  Lemma icmd_vis compact all ds c acc : lookup ds (snd c) <> None ->
    vis isp (icmd compact) (negb all) c (ds, acc) = if all || is_active ds (snd c) then icmd compact (fst c) (snd c) (ds, acc) else Ok (ds, acc).
  Proof. intros H. unfold vis, visit, isp, is_active. cbn [fst]. destruct (lookup ds (snd c)) as [x|]; [|contradiction]. rewrite negb_involutive. destruct all; cbn [orb]; [reflexivity|]. now destruct (ds_status x). Qed.

  Lemma icmd_fold compact all ds cs : forall acc out, (forall c, In c cs -> lookup ds (snd c) <> None) -> Forall (fun c => fst c = snd (snd c)) cs ->
    printed compact ds (List.filter (fun r => all || is_active ds r) (List.map snd cs)) out ->
    foldM (vis isp (icmd compact) (negb all)) cs (ds, acc) = Ok (ds, (acc ++ out)%list).
  Proof.
    induction cs as [|[i (tag, k)] cs IH]; intros acc out Hl Hf Hp; cbn [List.map List.filter foldM] in *.
    - inversion Hp. now rewrite app_nil_r.
    - pose proof (Forall_inv Hf) as Hi. cbn [fst snd] in Hi. subst i. rewrite icmd_vis by (apply Hl; now left). cbn [fst snd] in *. destruct (all || is_active ds (tag, k)); [|cbn [bind]; apply IH; [intros; apply Hl; now right|exact (Forall_inv_tail Hf)|exact Hp]].
      unfold icmd at 1. cbn [fst snd]. inversion Hp as [|? ? x ? out' Hc Hx Hr|? ? x s ? out' Hc Hx Hs Hr]; subst compact; subst; rewrite Hx.
      + cbn [bind]. rewrite IH with (out := out'); [now rewrite <- app_assoc, title_heading|intros; apply Hl; now right|exact (Forall_inv_tail Hf)|exact Hr].
      + rewrite Hs. cbn [bind]. rewrite IH with (out := out'); [now rewrite <- app_assoc, title_heading|intros; apply Hl; now right|exact (Forall_inv_tail Hf)|exact Hr].
  Qed.

  Lemma icmd_fail ds all cs a r b out x e : forall acc, (forall c, In c cs -> lookup ds (snd c) <> None) -> Forall (fun c => fst c = snd (snd c)) cs ->
    List.filter (fun r => all || is_active ds r) (List.map snd cs) = (a ++ r :: b)%list -> printed false ds a out -> lookup ds r = Some x -> info fmt_e show (ds_data x) = Err e ->
    foldM (vis isp (icmd false) (negb all)) cs (ds, acc) = Err e.
  Proof.
    revert a out. induction cs as [|[i (tag, k)] cs IH]; intros a out acc Hl Hf He Hp Hx Hs; cbn [List.map List.filter foldM] in *; [now destruct a|].
    pose proof (Forall_inv Hf) as Hi. cbn [fst snd] in Hi. subst i. rewrite icmd_vis by (apply Hl; now left). cbn [fst snd] in *.
    destruct (all || is_active ds (tag, k)); [|cbn [bind]; eapply IH; eauto; [intros; apply Hl; now right|exact (Forall_inv_tail Hf)]].
    unfold icmd at 1. cbn [fst snd]. destruct a as [|r' a]; cbn [app] in He.
    - injection He as <- He. rewrite Hx, Hs. reflexivity.
    - injection He as <- He. inversion Hp as [|? ? x' ? out' Hc Hx' Hr|? ? x' s ? out' Hc Hx' Hs' Hr]; [discriminate|]. subst. rewrite Hx', Hs'. cbn [bind]. eapply IH; eauto; [intros; apply Hl; now right|exact (Forall_inv_tail Hf)].
  Qed.

  (** One heading for each chosen dataset in order, numbered by its place under its tag,
      followed by its report unless the compact form is asked for; the first dataset
      without a report ends the command with its error. *)
  Theorem C105_command compact all use ds ts : names ds use ts -> Forall (fun t => In t (List.map fst ds)) ts ->
    let rs := List.filter (fun r => all || is_active ds r) (selected ts (all_of ds)) in
    (forall out, printed compact ds rs out -> info_cmd fmt_e show compact all use ds = Ok out) /\
    (forall a r b out x e, compact = false -> rs = (a ++ r :: b)%list -> printed false ds a out -> lookup ds r = Some x -> info fmt_e show (ds_data x) = Err e ->
      info_cmd fmt_e show compact all use ds = Err e).
  Proof.
    intros Hn Hk. cbn zeta. destruct (iterate_selected isp (icmd compact) (negb all) use None ts (all_of ds) (ds, [])) as (cs & Es & En & E); [exact Hn|apply picks_none_wf|now apply picks_all_under| |].
    { intros i r st st' Hst t _. unfold icmd in Hst. destruct (lookup (fst st) r) as [x|]; [|discriminate]. destruct compact; [injection Hst as <-; reflexivity|]. destruct (info fmt_e show (ds_data x)); cbn [bind] in Hst; [injection Hst as <-; reflexivity|discriminate]. }
    assert (Ei : info_cmd fmt_e show compact all use ds = let* st := foldM (vis isp (icmd compact) (negb all)) cs (ds, []) in Ok (snd st)) by (rewrite <- E; reflexivity).
    assert (Hl : forall c, In c cs -> lookup ds (snd c) <> None). { intros c Hc. eapply selected_lookup; [apply picks_all_under; exact Hk|]. rewrite <- Es. apply in_map_iff. eauto. }
    specialize (En eq_refl). rewrite <- Es. split.
    - intros out Hp. rewrite Ei, (icmd_fold compact all ds cs [] out Hl En Hp). reflexivity.
    - intros a r b out x e -> He Hp Hx Hs. rewrite Ei, (icmd_fail ds all cs a r b out x e [] Hl En He Hp Hx Hs). reflexivity.
  Qed.

  (** The heading tells the dataset, if no tag has an opening bracket. *)
  Lemma last_char c a b a' b' : has_char c b = false -> has_char c b' = false -> a ++ String c b = a' ++ String c b' -> a = a' /\ b = b'.
  Proof.
    assert (Hin : forall u w, has_char c (u ++ String c w) = true). { intros u w. induction u as [|x u IH]; cbn; [now rewrite Ascii.eqb_refl|]. now rewrite IH, orb_true_r. }
    intros Hb Hb'. revert a'. induction a as [|x a IH]; intros [|y a'] H; cbn in H.
    - injection H as ->. auto.
    - injection H as <- ->. now rewrite Hin in Hb.
    - injection H as -> <-. now rewrite Hin in Hb'.
    - injection H as <- H. destruct (IH _ H) as (-> & ->). auto.
  Qed.
  Lemma has_char_app c a b : has_char c (a ++ b) = has_char c a || has_char c b.
  Proof. induction a as [|x a IH]; [reflexivity|]. cbn. now rewrite IH, orb_assoc. Qed.

  Theorem C105_headings tag label k tag' label' k' : has_char "(" tag = false -> has_char "(" tag' = false ->
    heading tag label k = heading tag' label' k' -> tag = tag' /\ label = label' /\ k = k'.
  Proof.
    intros Ht Ht' H. assert (D : forall c, ~ digit_char c -> c <> "-"%char -> c <> ")"%char -> forall n, has_char c (show_Z n ++ ")") = false).
    { intros c Hc Hm Hp n. rewrite has_char_app, show_Z_has by assumption. cbn [has_char orb]. rewrite orb_false_r. apply Ascii.eqb_neq. congruence. }
    assert (P : forall t n, has_char "(" t = false -> has_char "(" (t ++ String "#" (show_Z n ++ ")")) = false).
    { intros t n Hx. rewrite has_char_app, Hx. cbn [orb has_char]. rewrite (D "("%char); [reflexivity|unfold digit_char; cbn [In]; intuition discriminate|discriminate|discriminate]. }
    unfold heading in H.
    assert (A : forall x, "(" ++ x = String "(" x) by reflexivity. assert (B : forall x, "#" ++ x = String "#" x) by reflexivity. rewrite !A, !B in H.
    apply last_char in H; [|apply P; assumption|apply P; assumption]. destruct H as (Hl & H). apply last_char in H; [|apply D; [unfold digit_char; cbn [In]; intuition discriminate|discriminate|discriminate]..].
    destruct H as (-> & H). split; [reflexivity|]. split.
    - destruct label as [|x l], label' as [|x' l']; cbn [append] in Hl; try discriminate; [reflexivity|]. injection Hl as <- Hl. f_equal. clear -Hl. revert l' Hl. induction l as [|y l IH]; intros [|y' l'] H; cbn in H; try reflexivity.
      + injection H as _ H. destruct l'; discriminate.
      + injection H as _ H. destruct l; discriminate.
      + injection H as <- H. f_equal. now apply IH.
    - assert (E : show_Z (Z.of_nat k) = show_Z (Z.of_nat k')). { revert H. generalize (show_Z (Z.of_nat k)), (show_Z (Z.of_nat k')). intros u. induction u as [|y u IH]; intros [|y' w] H; cbn in H; try reflexivity.
        + injection H as _ H. destruct w; discriminate.
        + injection H as _ H. destruct u; discriminate.
        + injection H as <- H. f_equal. now apply IH. }
      apply (f_equal py_int) in E. rewrite !py_int_show_Z in E. injection E as E. lia.
  Qed.
End Theorems.

(** ** Wider claims that fail, and examples *)

Definition ex_fmt (q : Q) : string := (show_Z (Qnum q) ++ "/" ++ show_Z (Zpos (Qden q)))%string.
Definition ex_show (m : meta) : string := match m with VInt z => show_Z z | VText s => s | _ => "object"%string end.

Definition ex_line (l : list Q) : garr := mk_nda [length l] l.
Definition ex_grid : list garr := [ex_line [0; 1; 2]%Q; ex_line [0; 1#2]%Q].
Definition ex_vals : nda Q := mk_nda [2; 1; 2]%nat [3; 1; -2; 3]%Q.

(** A dataset made by pushing a grid and values has no report, although nothing of the
    push fails. *)
Theorem C105_new_refuted : exists (g : list garr) (v : nda Q), snd (push empty_gdata g v) = None /\
  forall fmt_e show, info fmt_e show (mk_idata (fst (push empty_gdata g v)) []) = Err KeyError.
Proof.
  exists ex_grid, ex_vals. split; [vm_compute; reflexivity|]. intros fmt_e show.
  refine (proj2 (C105_new fmt_e show ex_grid ex_vals [2; 1]%nat 2 eq_refl _ _)); [cbn; lia|]. repeat constructor; discriminate.
Qed.

Definition ex_plain : idata := mk_idata (fst (push empty_gdata ex_grid ex_vals)) [("grid_type"%string, VText "uniform")].

(** Data without any basis is reported under "DG info". *)
Theorem C105_dg_refuted : exists d s pre post, (forall k, In k ["poly_order"; "basis_type"; "is_modal"]%string -> aget k (i_ctx d) = None) /\
  info ex_fmt ex_show d = Ok s /\ s = (pre ++ "├─ DG info:" ++ post)%string.
Proof.
  exists ex_plain. destruct (info ex_fmt ex_show ex_plain) as [s|e] eqn:E; [|vm_compute in E; discriminate].
  exists s, (substring 0 (String.length s - String.length "├─ DG info:"%string) s), ""%string. split; [|split].
  - intros k Hk. cbn [In] in Hk. repeat (destruct Hk as [<-|Hk]; [reflexivity|]). contradiction.
  - reflexivity.
  - vm_compute in E. injection E as <-. vm_compute. reflexivity.
Qed.

Definition ex_full : idata := mk_idata (fst (push empty_gdata ex_grid ex_vals))
  [("grid_type", VText "uniform"); ("time", VNum (1#2)); ("frame", VInt 3); ("poly_order", VInt 2); ("basis_type", VText "serendipity"); ("is_modal", VBool true);
   ("changeset", VText "abc"); ("geometry_type", VInt 2); ("mass", VInt 7)]%string.

Example ex_regular : regular ex_full [2; 1]%nat 2 [0; 0]%Q [2; 1#2]%Q ex_vals "uniform".
Proof. repeat split; try (vm_compute; reflexivity); vm_compute; discriminate. Qed.

Example ex_report : info ex_fmt ex_show ex_full = Ok (join (String "010" "")
  ["├─ Time: 1/2"; "├─ Frame: 3"; "├─ Number of components: 2"; "├─ Number of dimensions: 2"; "├─ Grid: (uniform)";
   "│  ├─ Dim 0: Num. cells: 2; Lower: 0/1; Upper: 2/1"; "│  └─ Dim 1: Num. cells: 1; Lower: 0/1; Upper: 1/2";
   "├─ Maximum: 3/1 at (0, 0) component 0"; "├─ Minimum: -2/1 at (1, 0) component 0";
   "├─ DG info:"; "│  ├─ Polynomial Order: 2"; "│  └─ Basis Type: serendipity (modal)";
   "├─ Created with Gkeyll:"; "│  ├─ Changeset: abc"; "├─ Geometry info:"; "│  ├─ Type: GKYL_GEOMETRY_MIRROR"; "├─ mass: 7"])%string.
Proof. vm_compute. reflexivity. Qed.

Definition ex_space : dspace idata :=
  [("a", [mk_dset 0 "f" true "" ex_full; mk_dset 1 "g" false "off" ex_full]); ("b", [mk_dset 2 "h" true "on" ex_plain])]%string.
Example ex_compact : info_cmd ex_fmt ex_show true false None ex_space = Ok ["(a#0)"; "on (b#0)"]%string /\
  info_cmd ex_fmt ex_show true true (Some "a"%string) ex_space = Ok ["(a#0)"; "off (a#1)"]%string.
Proof. split; vm_compute; reflexivity. Qed.
Example ex_command_hyp : names ex_space None ["a"; "b"]%string /\ Forall (fun t => In t (List.map fst ex_space)) ["a"; "b"]%string /\
  List.filter (fun r => false || is_active ex_space r) (selected ["a"; "b"]%string (all_of ex_space)) = [("a", 0%nat); ("b", 0%nat)]%string.
Proof. split; [exact (names_all ex_space)|]. split; [|vm_compute; reflexivity]. constructor; [now left|]. constructor; [right; now left|constructor]. Qed.
Example ex_no_modal : info ex_fmt ex_show (mk_idata (i_data ex_full) [("grid_type", VText "uniform"); ("basis_type", VText "serendipity")]%string) = Err KeyError.
Proof. vm_compute. reflexivity. Qed.
Example ex_geometry : info ex_fmt ex_show (mk_idata (i_data ex_full) [("grid_type", VText "uniform"); ("geometry_type", VInt 5)]%string) = Err IndexError.
Proof. vm_compute. reflexivity. Qed.

Print Assumptions C105_report.
Print Assumptions C105_others.
Print Assumptions C105_no_grid_type.
Print Assumptions C105_new.
Print Assumptions C105_no_modal.
Print Assumptions C105_geometry_range.
Print Assumptions C105_command.
Print Assumptions C105_headings.
Print Assumptions C105_new_refuted.
Print Assumptions C105_dg_refuted.
