(** * Examples and counterexamples for C24-C27. *)
From Coq Require Import String Ascii List Arith ZArith QArith Qabs Bool Lia.
From Verif Require Import Prelude PreludeFacts NdArray GData_Model Select_Model DataSpace_Model DataSpace_Spec
  DataSpace_Proofs DataSpace_Proofs2 DataSpace_Proofs3 DataSpace_Props Ev_Model Ev_Arith Ev_Spec Ev_Props Ev_Props2
  Ev_Props3 Ev_Props4.
Import ListNotations.
Open Scope list_scope.

(** Datasets with an array and integer metadata. *)
Definition tX := (nda Q * list (string * Z))%type.
Definition t_psel (x : tX) (_ : option string) : res (grid * val) := Ok (Some [], VArr (fst x)).
Definition t_val (z : Z) : val := VArr (mk_nda [] [inject_Z z]).
Definition t_float (s : string) : option val := match py_int s with Ok z => Some (t_val z) | Err _ => None end.
Definition t_eval (s : string) : res val := Err NameError.
Definition t_push (x : tX) (_ : grid) (v : val) : res tX :=
  match v with VArr a => Ok (a, snd x) | VStr _ => Ok x end.
Definition t_new (c : list (string * Z)) : tX := (mk_nda [] [], c).
Definition t_ufun (s : string) (x : Q) : Q := x.
Definition t_pow (x y : Q) : Q := Qpower x (Qnum y).
Definition t_cmp (a b : Z) : res bool := Ok (Z.eqb a b).
Definition t_ev := ev t_psel snd t_val (@None (list garr)) t_float t_eval VStr t_cmp (cmds_q t_ufun t_pow) t_push t_new.
Definition t_run := run t_psel snd t_val (@None (list garr)) t_float t_eval VStr t_cmp (cmds_q t_ufun t_pow).
Definition t_read := read_token t_psel snd t_val (@None (list garr)) t_float t_eval VStr.

Definition vec (l : list Q) : nda Q := mk_nda [length l] l.
Definition t_d (n : nat) (st : bool) (l : list Q) (m : list (string * Z)) : dset tX :=
  mk_dset n "" st "" (vec l, m).
Definition t_ds : dspace tX :=
  [("elc", [t_d 1 true [1; 2]%Q [("m", 3); ("q", 1)]%Z; t_d 2 true [3; 4]%Q [("m", 3); ("q", -1)]%Z]);
   ("ion", [t_d 3 true [10; 20]%Q [("m", 3); ("z", 0)]%Z])]%string%nat.
Definition datas (r : res (dspace tX)) : res (list (string * list (list Q * bool))) :=
  let* ds := r in Ok (List.map (fun p => (fst p, List.map (fun d => (flat (fst (ds_data d)), ds_status d)) (snd p))) ds).

(** [ion 2 elc * - 3 pow]: (ion - 2 elc)^3 for every electron dataset. *)
Definition t_exp : aexp := Pow (Sub (Tok "ion") (Mul (Tok "2") (Tok "elc"))) (Tok "3").
Definition t_arrs (s : string) : list (nda Q) :=
  (if String.eqb s "elc" then [vec [1; 2]; vec [3; 4]] else if String.eqb s "ion" then [vec [10; 20]]
   else if String.eqb s "2" then [mk_nda [] [2]] else [mk_nda [] [3]])%Q.
Example C24_ex :
  (forall s, In s (leaves (to_expr t_exp)) ->
     leaf_ok t_psel snd t_val t_float t_eval t_ds ["elc"; "ion"]%string true t_arrs (fun _ => [2%nat]) (fun _ _ => True) s) /\
  (forall (k : string) a b, True -> True -> exists c, t_cmp a b = Ok c) /\
  (forall o, In o operators -> in_list o ["elc"; "ion"]%string = false /\ t_float o = None) /\
  postfix (to_expr t_exp) = tokens "ion 2  elc * - 3 pow" /\
  datas (t_ev "ion 2  elc * - 3 pow" (Some "r"%string) None false t_ds) =
    Ok [("elc", [([1; 2], true); ([3; 4], true)]); ("ion", [([10; 20], true)]);
        ("r", [([512; 4096], true); ([64; 1728], true)])]%string%Q.
Proof.
  split; [|split; [intros; eexists; reflexivity|split; [|split; [reflexivity|vm_compute; reflexivity]]]].
  - intros s Hs. cbn in Hs.
    assert (K : forall l i, l <> [] -> Forall (fun a : nda Q => wf a /\ (shape a = [] \/ shape a = [2%nat])) l ->
              wf (ith l i) /\ (shape (ith l i) = [] \/ shape (ith l i) = [2%nat])).
    { intros l i Hl H. rewrite Forall_forall in H. apply H. unfold ith. destruct (nth_in_or_default i l (last l (mk_nda [] []))) as [Hin| ->]; [exact Hin|].
      destruct (exists_last Hl) as (l' & x & ->). rewrite last_last. apply in_or_app. right. now left. }
    destruct Hs as [<-|[<-|[<-|[<-|[]]]]]; (split; [eexists; eexists; split; [vm_compute; reflexivity|split; [vm_compute; reflexivity|auto]]|]);
      (split; [discriminate|]); intros i; (apply K; [discriminate|]);
      repeat (constructor; [split; [reflexivity|cbn; auto]|]); constructor.
  - intros o Ho. assert (A : forallb (fun o => negb (in_list o ["elc"; "ion"]%string) && match t_float o with None => true | _ => false end) operators = true)
      by reflexivity. rewrite forallb_forall in A. specialize (A o Ho). apply andb_prop in A as [A1 A2]. apply negb_true_iff in A1.
    destruct (t_float o); [discriminate|auto].
Qed.

(** Different orders of the operands of [-] and [/] differ. *)
Example C24_order_ex :
  datas (t_ev "elc[0] elc[1] -" (Some "r"%string) None false t_ds) =
    Ok [("elc", [([1; 2], true); ([3; 4], true)]); ("ion", [([10; 20], true)]); ("r", [([-2; -2], true)])]%string%Q /\
  datas (t_ev "f[0]" (Some "r"%string) None false t_ds) =
    Ok [("elc", [([1; 2], true); ([3; 4], true)]); ("ion", [([10; 20], true)]); ("r", [([1; 2], true); ([10; 20], true)])]%string%Q.
Proof. split; vm_compute; reflexivity. Qed.

(** Groups of two and one: the shorter one is repeated. *)
Example C25_ex :
  datas (t_ev "elc ion *" (Some "r"%string) None false t_ds) =
    Ok [("elc", [([1; 2], true); ([3; 4], true)]); ("ion", [([10; 20], true)]);
        ("r", [([10; 40], true); ([30; 80], true)])]%string%Q /\
  datas (t_ev "elc ion[7:] *" (Some "r"%string) None false t_ds) = Err IndexError.
Proof. split; vm_compute; reflexivity. Qed.

(** Metadata: [m] agrees, [q] and [z] occur in one input each. *)
Example C26_ex :
  (forall a b c, t_cmp a b = Ok c -> (c = true <-> a = b)) /\
  (let* ds := t_ev "elc[0] ion +" (Some "r"%string) None false t_ds in
   Ok (List.map (fun d => snd (ds_data d)) (under ds "r"))) = Ok [[("m", 3); ("z", 0); ("q", 1)]]%string%Z /\
  (let* ds := t_ev "elc[0] elc[1] +" (Some "r"%string) None false t_ds in
   Ok (List.map (fun d => snd (ds_data d)) (under ds "r"))) = Ok [[("m", 3)]]%string%Z.
Proof. split; [intros a b c [= <-]; apply Z.eqb_eq|]. split; vm_compute; reflexivity. Qed.

(** Metadata that is not equal to itself (a floating-point nan) is dropped
    although all inputs agree on it. *)
Theorem C26_nan_refuted :
  exists (mcmp : option Z -> option Z -> res bool) (c : list (string * option Z)) k v mc,
    (forall z, mcmp (Some z) (Some z) = Ok true) /\ aget k c = Some v /\
    merge_ctx mcmp [c; c] = Ok mc /\ aget k mc = None.
Proof.
  exists (fun a b => Ok (match a, b with Some x, Some y => Z.eqb x y | _, _ => false end)), [("time", None)]%string, "time"%string, None, [].
  split; [intros; f_equal; apply Z.eqb_refl|]. split; [reflexivity|]. split; reflexivity.
Qed.

(** Numbers of cells read from a file are an array, those of a selected or
    interpolated dataset a tuple: if the last-written operand has an array and
    an earlier one a tuple, both of at least two entries, there is no result. *)
Theorem C26_array_after_tuple {G V} mismatch text (f : list G -> list V -> res (G * V)) args out i es l1 l2 l3 a b k l l' :
  args <> [] -> (i < length out)%nat -> Forall2 (uses i) args es ->
  es = l1 ++ b :: l2 ++ a :: l3 -> (forall x, In x l3 -> aget k (e_ctx x) = None) ->
  aget k (e_ctx a) = Some (MArr l) -> aget k (e_ctx b) = Some (MTup l') ->
  length l = length l' -> (2 <= length l)%nat ->
  apply_cmd (py_compare mismatch text) f (rev args) <> Ok out.
Proof.
  intros Hne Hi F El Hn Ha Hb Hl H2 H.
  destruct (C26_compared (py_compare mismatch text) f args out i es l1 l2 l3 a b k (MArr l) (MTup l')) as [c Hc]; auto.
  cbn [py_compare] in Hc. unfold elementwise in Hc. rewrite Hl, Nat.eqb_refl in Hc.
  destruct l as [|x [|y l]]; [cbn in H2; lia|cbn in H2; lia|]. destruct l' as [|x' [|y' l']]; [discriminate|discriminate|].
  discriminate.
Qed.

(** In every other combination of arrays, tuples, numbers of the same length
    there is no error. *)
Theorem C26_comparison_ok mismatch text a b :
  match a, b with
  | MTup l, MArr l' => length l = length l' /\ (length l <= 1)%nat
  | MNum _, MArr l' => length l' = 1%nat
  | MStr _, MArr _ => False
  | _, _ => True
  end -> exists c, py_compare mismatch text a b = Ok c.
Proof.
  destruct a as [l|l|x|s], b as [l'|l'|y|s']; cbn [py_compare]; intros H; try (eexists; reflexivity); try contradiction.
  - destruct H as [H1 H2]. unfold elementwise. rewrite H1, Nat.eqb_refl.
    destruct l as [|x [|? ?]]; destruct l' as [|y [|? ?]]; cbn in H1, H2 |- *; try discriminate; try lia; eexists; reflexivity.
  - destruct l' as [|y [|? ?]]; try discriminate. eexists; reflexivity.
Qed.

(** Datasets of two by one cells with the numbers of cells as metadata. *)
Definition c_psel (x : nda Q * list (string * mval)) (_ : option string) : res (grid * val) := Ok (Some [], VArr (fst x)).
Definition c_ev := ev c_psel snd (fun _ : mval => VStr "") (@None (list garr)) t_float t_eval VStr
  (py_compare (Err ValueError) (Err ValueError)) (cmds_q t_ufun t_pow)
  (fun x _ v => match v with VArr a => Ok (a, snd x) | VStr _ => Ok x end) (fun c => (mk_nda [] [], c)).
Definition c_ds : dspace (nda Q * list (string * mval)) :=
  [("read", [mk_dset 1 "" true "" (mk_nda [2; 1]%nat [1; 2]%Q, [("cells", MArr [2; 1]%Q)])]);
   ("sel", [mk_dset 2 "" true "" (mk_nda [2; 1]%nat [10; 20]%Q, [("cells", MTup [2; 1]%Q)])])]%string%nat.

(** The sum depends on the order of its terms: in one order it is an error. *)
Theorem C26_order_refuted :
  (let* ds := c_ev "read sel +" (Some "r"%string) None false c_ds in
   Ok (List.map (fun d => (flat (fst (ds_data d)), snd (ds_data d))) (under ds "r"))) = Ok [([11; 22], [("cells", MTup [2; 1])])]%string%Q /\
  c_ev "sel read +" (Some "r"%string) None false c_ds = Err ValueError.
Proof. split; vm_compute; reflexivity. Qed.

(** In place: [elc 2 *] changes both electron datasets and nothing else;
    with an index only the indexed one. *)
Example C27_ex :
  datas (t_ev "elc 2 *" None None false t_ds) =
    Ok [("elc", [([2; 4], true); ([6; 8], true)]); ("ion", [([10; 20], true)])]%string%Q /\
  datas (t_ev "elc[1] elc[1].m *" None None false t_ds) =
    Ok [("elc", [([1; 2], true); ([9; 12], true)]); ("ion", [([10; 20], true)])]%string%Q /\
  datas (t_ev "elc ion *" None None false t_ds) =
    Ok [("elc", [([1; 2], false); ([3; 4], false)]);
        ("ion", [([10; 20], false); ([10; 40], true); ([30; 80], true)])]%string%Q /\
  t_ev "1 2 +" None None false t_ds = Err IndexError.
Proof. split; [vm_compute; reflexivity|]. split; [vm_compute; reflexivity|]. split; vm_compute; reflexivity. Qed.

(** The hypotheses of [C27_in_place] for [elc[1] elc[1].m *]. *)
Example C27_in_place_ex :
  exists ds', t_ev "elc[1] elc[1].m *" None None false t_ds = Ok ds' /\
    (forall r, ~ In r [("elc"%string, 1%nat)] -> lookup ds' r = lookup t_ds r).
Proof.
  destruct (C27_in_place t_psel snd t_val (@None (list garr)) t_float t_eval VStr t_cmp (cmds_q t_ufun t_pow) t_push t_new
              "elc[1] elc[1].m *" None false t_ds ["elc"; "ion"]%string (Node "*" [Leaf "elc[1]"; Leaf "elc[1].m"])%string
              "elc" (Some "1"%string) ["elc"]%string (fun _ => [1%nat]) "elc" [(Some [], VArr (vec [9; 12]%Q), [("m", 3); ("q", -1)]%string%Z)])
    as (ds' & E & _ & _ & _ & _ & F).
  - reflexivity.
  - reflexivity.
  - cbn [wf_expr fold_right length]. split; [reflexivity|]. split; [discriminate|]. split; [eexists; reflexivity|].
    split; [eexists; vm_compute; reflexivity|]. split; [eexists; vm_compute; reflexivity|exact I].
  - vm_compute. reflexivity.
  - intros s Hs Hr. cbn in Hs. destruct Hs as [<-|[<-|[<-|[]]]]; [split; reflexivity|split; reflexivity|discriminate].
  - exists "elc[1]"%string. split; [now left|reflexivity].
  - change (if in_list "elc" ["elc"; "ion"]%string then Some "elc"%string else None) with (Some (join "," ["elc"%string])).
    constructor; [discriminate|discriminate|constructor; [reflexivity|constructor]].
  - exists 2%nat, [1%nat]. apply (picks_list 2 [1%Z] [1%nat]); [discriminate|]. constructor; [split; [cbn; lia|reflexivity]|constructor].
  - intros t [<-|[]]. eexists. split; [reflexivity|].
    apply (picks_list 2 [1%Z] [1%nat]); [discriminate|]. constructor; [split; [cbn; lia|reflexivity]|constructor].
  - constructor; [intros []|constructor].
  - constructor; [intros []|constructor].
  - discriminate.
  - discriminate.
  - reflexivity.
  - intros r Hr. cbn in Hr. destruct Hr as [<-|[]]. reflexivity.
  - intros _ _ r Hr. cbn in Hr. destruct Hr as [<-|[]]. reflexivity.
  - intros d e. unfold t_push. destruct (e_val e); eauto.
  - exists ds'. split; [exact E|exact F].
Qed.

(** Without a tag, a chain over all datasets of several tags writes the first
    results into the datasets of the last tag: here [ion] gets the values of
    [elc], and [elc] is not changed. *)
Theorem C27_several_tags_refuted :
  exists ds', t_ev "f 2 *" None None false t_ds = Ok ds' /\
    datas (Ok ds') = Ok [("elc", [([1; 2], true); ([3; 4], true)]); ("ion", [([2; 4], true)])]%string%Q.
Proof. eexists. split; vm_compute; reflexivity. Qed.

(** Naming a tag reads its inactive datasets too, but only active ones are
    written: the active dataset gets the result of the inactive one. *)
Theorem C27_inactive_refuted :
  exists ds ds', t_ev "elc 2 *" None None false ds = Ok ds' /\
    datas (Ok ds) = Ok [("elc", [([1; 2], false); ([3; 4], true)])]%string%Q /\
    datas (Ok ds') = Ok [("elc", [([1; 2], false); ([2; 4], true)])]%string%Q.
Proof.
  exists [("elc", [t_d 1 false [1; 2]%Q []; t_d 2 true [3; 4]%Q []])]%string%nat. eexists.
  split; [vm_compute; reflexivity|]. split; vm_compute; reflexivity.
Qed.

Print Assumptions C24_postfix.
Print Assumptions C24_arithmetic.
Print Assumptions C25_operator.
Print Assumptions C25_succeeds.
Print Assumptions C25_function_fails.
Print Assumptions C26_metadata.
Print Assumptions C26_compared.
Print Assumptions C26_array_after_tuple.
Print Assumptions C26_comparison_ok.
Print Assumptions C26_order_refuted.
Print Assumptions C27_new_tag.
Print Assumptions C27_no_dataset.
Print Assumptions C27_several.
Print Assumptions C27_in_place.
