(** * Properties of diagnostics (C74), the HDF5 reader (C75), grids from mapping
    files (C76) and the choice of a reader (C77). *)
From Coq Require Import String Ascii List ZArith NArith QArith Bool Lia Lqa Sorted Permutation.
From Coq Require Import DecimalString.
From Verif Require Import Prelude PreludeFacts NdArray GData_Model Select_Model Select_Spec Select_Proofs Sort.
From Verif Require Import Gkyl_Model Gkyl_Proofs3.
From Verif Require Import Readers_Model Readers_Props.
Import ListNotations.
Open Scope Q_scope.
Open Scope list_scope.

(** The gkyl reader adjusts to ghost cells in the same way (C73). *)
Theorem C73_gkyl_reader : forall dec x n,
  let y := ghost_dim x n in
  ghost_adjust (qops dec) (Z.of_nat (d_n x)) (d_lo x) (d_up x) n = (Z.of_nat (d_n y), d_lo y, d_up y).
Proof.
  intros dec x n. cbv zeta. unfold ghost_adjust, ghost_dim.
  destruct (Nat.eqb_spec (d_n x) n) as [E|N]; destruct (Z.eqb_spec (Z.of_nat (d_n x)) (Z.of_nat n)) as [E'|N']; try lia; reflexivity.
Qed.
Print Assumptions C73_gkyl_reader.

(** ** C74: diagnostics *)

Definition tname (k : N) : string := ("TimeMesh" ++ show_N k)%string.
Definition dname (k : N) : string := ("Data" ++ show_N k)%string.

Lemma chunks_digits d : d <> Decimal.Nil ->
  chunks (NilEmpty.string_of_uint d) = (EmptyString, [(NilEmpty.string_of_uint d, EmptyString)]).
Proof.
  induction d as [|d IH|d IH|d IH|d IH|d IH|d IH|d IH|d IH|d IH|d IH]; intros H; [congruence| | | | | | | | | |];
    (destruct d; [reflexivity|..]; cbn [NilEmpty.string_of_uint] in *; cbn [chunks];
     cbn [chunks] in IH; rewrite IH by discriminate; reflexivity).
Qed.

Lemma to_uint_not_nil n : N.to_uint n <> Decimal.Nil.
Proof.
  intros H. pose proof (show_N_val n) as E. unfold show_N in E. rewrite H in E. discriminate.
Qed.

Lemma chunks_show n : chunks (show_N n) = (EmptyString, [(show_N n, EmptyString)]).
Proof. apply chunks_digits, to_uint_not_nil. Qed.

Lemma chunks_text c s : digitc c = false -> chunks (String c s) = (String c (fst (chunks s)), snd (chunks s)).
Proof. intros H. cbn [chunks]. destruct (chunks s). now rewrite H. Qed.

Lemma tname_key k : natural_key (tname k) = ("timemesh"%string, [(k, EmptyString)]).
Proof.
  unfold natural_key, tname. cbn [append].
  rewrite !chunks_text by reflexivity. rewrite chunks_show. cbn [fst snd List.map]. rewrite show_N_val. reflexivity.
Qed.
Lemma dname_key k : natural_key (dname k) = ("data"%string, [(k, EmptyString)]).
Proof.
  unfold natural_key, dname. cbn [append].
  rewrite !chunks_text by reflexivity. rewrite chunks_show. cbn [fst snd List.map]. rewrite show_N_val. reflexivity.
Qed.

Lemma show_N_inj a b : show_N a = show_N b -> a = b.
Proof. intros H. pose proof (show_N_val a) as E. rewrite H, show_N_val in E. congruence. Qed.
Lemma append_inj p a b : (p ++ a = p ++ b)%string -> a = b.
Proof. induction p; simpl; auto. intros [= H]. auto. Qed.
Lemma tname_inj a b : tname a = tname b -> a = b.
Proof. intros H. apply show_N_inj. exact (append_inj "TimeMesh" _ _ H). Qed.
Lemma dname_inj a b : dname a = dname b -> a = b.
Proof. intros H. apply show_N_inj. exact (append_inj "Data" _ _ H). Qed.

Lemma isort_map {X Y} (f : X -> Y) (lx : X -> X -> bool) (ly : Y -> Y -> bool) l :
  (forall a b, ly (f a) (f b) = lx a b) -> isort ly (List.map f l) = List.map f (isort lx l).
Proof.
  intros H. induction l as [|a l IH]; [reflexivity|]. simpl. rewrite IH.
  generalize (isort lx l) as m. induction m as [|b m IHm]; [reflexivity|]. simpl. rewrite H.
  destruct (lx a b); [reflexivity|]. simpl. now rewrite IHm.
Qed.

Lemma natural_sort_names (f : N -> string) t l :
  (forall k, natural_key (f k) = (t, [(k, EmptyString)])) ->
  natural_sort (List.map f l) = List.map f (isort N.leb l).
Proof.
  intros Hk. unfold natural_sort. rewrite map_map.
  rewrite (isort_map (fun k => (natural_key (f k), f k)) N.leb); [now rewrite map_map|].
  intros a b. cbn [fst]. rewrite !Hk. unfold key_leb. cbn [fst snd]. rewrite String.eqb_refl.
  cbn [pairs_leb]. rewrite String.eqb_refl. destruct (N.eqb_spec a b) as [->|N]; [now rewrite N.leb_refl|].
  destruct (N.ltb_spec a b), (N.leb_spec a b); auto; lia.
Qed.

Lemma sorted_perm_unique (l m : list N) :
  StronglySorted N.le l -> StronglySorted N.lt m -> Permutation l m -> l = m.
Proof.
  intros Hl; revert m. induction Hl as [|a l Hl IH Fa]; intros m Hm Hp.
  - apply Permutation_nil in Hp. now subst.
  - destruct Hm as [|b m Hm Fb]; [symmetry in Hp; apply Permutation_nil in Hp; discriminate|].
    assert (a = b).
    { rewrite Forall_forall in Fa, Fb.
      assert (Ha : In a (b :: m)) by (eapply Permutation_in; [exact Hp|now left]).
      assert (Hb : In b (a :: l)) by (eapply Permutation_in; [symmetry; exact Hp|now left]).
      destruct Ha as [->|Ha]; [reflexivity|]. destruct Hb as [->|Hb]; [reflexivity|].
      pose proof (Fb _ Ha). pose proof (Fa _ Hb). lia. }
    subst b. f_equal. apply IH; auto. now apply Permutation_cons_inv in Hp.
Qed.

Lemma isort_N_sorted l : StronglySorted N.le (isort N.leb l).
Proof.
  assert (H : StronglySorted (fun x y => N.leb x y = true) (isort N.leb l)).
  { apply (isort_sorted N.leb (fun _ => True)).
    - intros x y _ _. destruct (N.leb_spec x y); auto. right. apply N.leb_le. lia.
    - intros x y z _ _ _ H1 H2. apply N.leb_le in H1, H2. apply N.leb_le. lia.
    - apply Forall_forall. auto. }
  induction H as [|a m H IH F]; constructor; auto.
  rewrite Forall_forall in *. intros b Hb. apply N.leb_le. auto.
Qed.

Lemma Permutation_filter {X} (p : X -> bool) (l m : list X) : Permutation l m -> Permutation (filter p l) (filter p m).
Proof.
  induction 1 as [|x l m H IH|x y l|l m n H1 IH1 H2 IH2]; simpl; auto.
  - destruct (p x); auto.
  - destruct (p x), (p y); auto. apply perm_swap.
  - eapply perm_trans; eauto.
Qed.

Lemma starts_with_has c p s : starts_with (String c p) s = true -> has_char c s = true.
Proof. destruct s as [|a s]; simpl; [discriminate|]. intros H. apply andb_true_iff in H as [H _].
  rewrite Ascii.eqb_sym, H. reflexivity. Qed.
Lemma contains_has c p s : contains (String c p) s = true -> has_char c s = true.
Proof.
  induction s as [|a s IH]; [discriminate|]. intros H. cbn [contains] in H. apply orb_true_iff in H as [H|H].
  - now apply starts_with_has in H.
  - cbn [has_char]. rewrite IH by exact H. apply orb_true_r.
Qed.
Lemma contains_show c p n : ~ digit_char c -> contains (String c p) (show_N n) = false.
Proof.
  intros H. destruct (contains (String c p) (show_N n)) eqn:E; auto.
  apply contains_has in E. rewrite show_N_has in E by auto. discriminate.
Qed.

Lemma T_not_digit : ~ digit_char "T".
Proof. unfold digit_char; simpl. intuition discriminate. Qed.
Lemma D_not_digit : ~ digit_char "D".
Proof. unfold digit_char; simpl. intuition discriminate. Qed.

Lemma tname_time k : contains "TimeMesh" (tname k) = true.
Proof. unfold tname. cbn [append contains starts_with]. cbn. reflexivity. Qed.
Lemma tname_data k : contains "Data" (tname k) = false.
Proof. unfold tname. cbn [append contains starts_with]. cbn -[contains show_N]. apply (contains_show "D" "ata" k D_not_digit). Qed.
Lemma dname_time k : contains "TimeMesh" (dname k) = false.
Proof. unfold dname. cbn [append contains starts_with]. cbn -[contains show_N]. apply (contains_show "T" "imeMesh" k T_not_digit). Qed.
Lemma dname_data k : contains "Data" (dname k) = true.
Proof. unfold dname. cbn [append contains starts_with]. cbn. reflexivity. Qed.

Lemma lookup_in {B} (vars : list (string * B)) name b :
  NoDup (List.map fst vars) -> In (name, b) vars -> lookup name vars = Some b.
Proof.
  intros Hn Hi. unfold lookup. induction vars as [|[n c] vars IH]; [destruct Hi|]. cbn [find fst].
  inversion Hn as [|? ? N1 N2]; subst. destruct Hi as [[= -> ->]|Hi].
  - rewrite String.eqb_refl. reflexivity.
  - destruct (String.eqb_spec n name) as [->|Ne]; [|now apply IH].
    exfalso. apply N1. apply (in_map fst) in Hi. exact Hi.
Qed.

(** The file: piece [k] of the trace is stored in the variables "TimeMesh<k>" and
    "Data<k>"; other variables have other names; the variables come in any
    order. *)
Record trace_file {B} (vars : list (string * nda B)) (ks : list N) (T D : N -> nda B) (n : N -> nat) (nc : nat) : Prop := {
  tf_vars : exists others,
    Permutation vars (List.map (fun k => (tname k, T k)) ks ++ List.map (fun k => (dname k, D k)) ks ++ others) /\
    Forall (fun kv => contains "TimeMesh" (fst kv) = false /\ contains "Data" (fst kv) = false) others;
  tf_names : NoDup (List.map fst vars);
  tf_order : StronglySorted N.lt ks;
  tf_times : forall k, In k ks -> shape (T k) = [n k];
  tf_rows : forall k, In k ks -> shape (D k) = [n k; nc]
}.

Lemma sorted_names {B} (vars : list (string * nda B)) ks T D n nc :
  trace_file vars ks T D n nc ->
  natural_sort (filter (contains "TimeMesh") (List.map fst vars)) = List.map tname ks /\
  natural_sort (filter (contains "Data") (List.map fst vars)) = List.map dname ks.
Proof.
  intros [(others & Hp & Ho) _ Hs _ _].
  assert (Hn : Permutation (List.map fst vars) (List.map tname ks ++ List.map dname ks ++ List.map fst others)).
  { eapply perm_trans; [apply Permutation_map; exact Hp|]. rewrite !map_app, !map_map. cbn [fst]. apply Permutation_refl. }
  assert (Fo : forall p, (forall kv, In kv others -> contains p (fst kv) = false) -> filter (contains p) (List.map fst others) = []).
  { intros p H. clear -H. induction others as [|a others IH]; [reflexivity|]. simpl. rewrite (H a) by (now left).
    apply IH. intros; apply H; now right. }
  rewrite Forall_forall in Ho.
  assert (Fall : forall (f : N -> string) p l, (forall k, contains p (f k) = true) -> filter (contains p) (List.map f l) = List.map f l).
  { intros f p l H. induction l as [|a l IH]; [reflexivity|]. simpl. now rewrite H, IH. }
  assert (Fnone : forall (f : N -> string) p l, (forall k, contains p (f k) = false) -> filter (contains p) (List.map f l) = []).
  { intros f p l H. induction l as [|a l IH]; [reflexivity|]. simpl. now rewrite H, IH. }
  assert (G : forall (f : N -> string) t l, (forall k, natural_key (f k) = (t, [(k, EmptyString)])) ->
     Permutation l (List.map f ks) -> natural_sort l = List.map f ks).
  { intros f t l Hk Hl. apply Permutation_map_inv in Hl as (ks' & -> & Hl).
    rewrite (natural_sort_names f t ks' Hk). f_equal. apply sorted_perm_unique; auto; [apply isort_N_sorted|].
    eapply perm_trans; [symmetry; apply isort_perm|]. now symmetry. }
  split.
  - apply (G tname "timemesh"%string); [exact tname_key|].
    eapply perm_trans; [apply Permutation_filter; exact Hn|]. rewrite !filter_app.
    rewrite (Fall tname) by exact tname_time. rewrite (Fnone dname) by exact dname_time.
    rewrite Fo by (intros kv Hi; now apply Ho). rewrite app_nil_r. apply Permutation_refl.
  - apply (G dname "data"%string); [exact dname_key|].
    eapply perm_trans; [apply Permutation_filter; exact Hn|]. rewrite !filter_app.
    rewrite (Fnone tname) by exact tname_data. rewrite (Fall dname) by exact dname_data.
    rewrite Fo by (intros kv Hi; now apply Ho). rewrite app_nil_r. apply Permutation_refl.
Qed.

(** Number of rows in all pieces. *)
Definition total (n : N -> nat) (ks : list N) : nat := fold_right (fun k s => n k + s)%nat 0%nat ks.

Lemma diag_loop_ok {B} (vars : list (string * nda B)) T D n nc : forall ks g v m,
  (forall k, In k ks -> lookup (tname k) vars = Some (T k) /\ lookup (dname k) vars = Some (D k) /\
                        shape (T k) = [n k] /\ shape (D k) = [n k; nc]) ->
  shape g = [m] -> shape v = [m; nc] ->
  exists g' v', diag_loop vars (List.map tname ks) (List.map dname ks) (Some (g, v)) = Ok (Some (g', v')) /\
    shape g' = [(m + total n ks)%nat] /\ shape v' = [(m + total n ks)%nat; nc] /\
    flat g' = flat g ++ flat_map (fun k => flat (T k)) ks /\
    flat v' = flat v ++ flat_map (fun k => flat (D k)) ks.
Proof.
  induction ks as [|k ks IH]; intros g v m H Hg Hv; cbn [List.map diag_loop flat_map total fold_right].
  - exists g, v. rewrite !app_nil_r, Nat.add_0_r. auto.
  - destruct (H k) as (L1 & L2 & S1 & S2); [now left|].
    unfold read_var. rewrite L1, L2. cbn [bind]. unfold expand2. rewrite S2.
    unfold append0 at 1. rewrite Hv, S2. destruct (list_eq_dec Nat.eq_dec [nc] [nc]); [|congruence]. cbn [bind].
    unfold append0 at 1. rewrite Hg, S1. destruct (list_eq_dec Nat.eq_dec [] []); [|congruence]. cbn [bind].
    match goal with |- context [diag_loop _ _ _ (Some (?g1, ?v1))] =>
      destruct (IH g1 v1 (m + n k)%nat) as (g' & v' & E & H1 & H2 & H3 & H4) end.
    + intros j Hj. apply H. now right.
    + reflexivity.
    + reflexivity.
    + exists g', v'. split; [exact E|]. cbn [flat] in H3, H4. fold (total n ks).
      split; [rewrite H1; f_equal; lia|]. split; [rewrite H2; f_equal; lia|].
      split; [rewrite H3; now rewrite app_assoc|rewrite H4; now rewrite app_assoc].
Qed.

(** C74: the pieces are put together in the order of their numbers, times and
    rows alike, whatever the order of the variables in the file. *)
Theorem C74_trace_order : forall B (vars : list (string * nda B)) ks T D n nc,
  trace_file vars ks T D n nc -> ks <> [] ->
  exists t d, load_diagnostic vars = Ok (t, d) /\
    flat t = flat_map (fun k => flat (T k)) ks /\
    shape t = (if (total n ks =? 1)%nat then [] else [total n ks]) /\
    shape d = [total n ks; nc] /\
    flat d = flat_map (fun k => flat (D k)) ks.
Proof.
  intros B vars ks T D n nc F Hne. destruct (sorted_names vars ks T D n nc F) as [E1 E2].
  unfold load_diagnostic. rewrite E1, E2.
  assert (HL : forall k, In k ks -> lookup (tname k) vars = Some (T k) /\ lookup (dname k) vars = Some (D k) /\
                        shape (T k) = [n k] /\ shape (D k) = [n k; nc]).
  { intros k Hk. destruct F as [(others & Hp & _) Hn _ Ht Hr].
    split; [|split; [|split; [now apply Ht|now apply Hr]]]; apply lookup_in; auto;
      (eapply Permutation_in; [symmetry; exact Hp|]); apply in_or_app.
    - left. apply in_map_iff. now exists k.
    - right. apply in_or_app. left. apply in_map_iff. now exists k. }
  destruct ks as [|k ks]; [congruence|]. cbn [List.map diag_loop].
  destruct (HL k) as (L1 & L2 & S1 & S2); [now left|]. unfold read_var at 1 2. rewrite L1, L2. cbn [bind].
  destruct (diag_loop_ok vars T D n nc ks (T k) (D k) (n k)) as (g' & v' & E & H1 & H2 & H3 & H4); auto.
  { intros j Hj. apply HL. now right. }
  rewrite E. cbn [bind]. do 2 eexists. split; [reflexivity|]. unfold squeeze. cbn [flat shape].
  split; [exact H3|]. split; [|split; [exact H2|exact H4]].
  rewrite H1. cbn [total fold_right filter]. fold (total n ks). now destruct (n k + total n ks =? 1)%nat.
Qed.
Print Assumptions C74_trace_order.

(** A trace of several pieces whose rows are stored without a component axis
    cannot be loaded, although one piece can: the first piece is not given the
    axis that the others get. *)
Theorem C74_flat_data_refuted : exists vars : list (string * nda nat),
  List.map fst vars = ["TimeMesh0"; "Data0"; "TimeMesh1"; "Data1"]%string /\
  Forall (fun kv => shape (snd kv) = [2%nat]) vars /\
  load_diagnostic vars = Err ValueError /\
  load_diagnostic (firstn 2 vars) = Ok (mk_nda [2%nat] [0; 1]%nat, mk_nda [2%nat] [5; 6]%nat).
Proof.
  exists [("TimeMesh0", mk_nda [2%nat] [0; 1]%nat); ("Data0", mk_nda [2%nat] [5; 6]%nat);
          ("TimeMesh1", mk_nda [2%nat] [2; 3]%nat); ("Data1", mk_nda [2%nat] [7; 8]%nat)]%string.
  split; [reflexivity|]. split; [repeat constructor|]. split; vm_compute; reflexivity.
Qed.
Print Assumptions C74_flat_data_refuted.

(** A trace of eleven pieces listed in alphabetical order ("Data10" before
    "Data2"). *)
Definition ex_pieces : list N := [0; 1; 2; 3; 4; 5; 6; 7; 8; 9; 10]%N.
Definition ex_T (k : N) : nda nat := mk_nda [1%nat] [N.to_nat k].
Definition ex_D (k : N) : nda nat := mk_nda [1%nat; 2%nat] [10 * N.to_nat k; 10 * N.to_nat k + 1]%nat.
Definition ex_alpha : list N := [0; 1; 10; 2; 3; 4; 5; 6; 7; 8; 9]%N.
Definition ex_trace : list (string * nda nat) :=
  (List.map (fun k => (dname k, ex_D k)) ex_alpha ++ List.map (fun k => (tname k, ex_T k)) ex_alpha)%list.
Example C74_ex : trace_file ex_trace ex_pieces ex_T ex_D (fun _ => 1%nat) 2 /\
  exists t d, load_diagnostic ex_trace = Ok (t, d) /\ flat t = seq 0 11.
Proof.
  split.
  - constructor.
    + exists []. split; [|constructor].
      assert (P : Permutation ex_alpha ex_pieces).
      { unfold ex_alpha, ex_pieces. do 2 apply perm_skip.
        change [10; 2; 3; 4; 5; 6; 7; 8; 9]%N with ([10] ++ [2; 3; 4; 5; 6; 7; 8; 9])%N.
        change [2; 3; 4; 5; 6; 7; 8; 9; 10]%N with ([2; 3; 4; 5; 6; 7; 8; 9] ++ [10])%N. apply Permutation_app_comm. }
      rewrite app_nil_r. unfold ex_trace. eapply perm_trans; [apply Permutation_app_comm|].
      apply Permutation_app; apply Permutation_map; exact P.
    + vm_compute. repeat (constructor; [vm_compute; intuition discriminate|]). constructor.
    + unfold ex_pieces. repeat (constructor; [|repeat (constructor; [lia|]); constructor]). constructor.
    + reflexivity.
    + reflexivity.
  - do 2 eexists. split; [vm_compute; reflexivity|]. reflexivity.
Qed.

(** ** C75: the HDF5 reader *)

(** A frame: values as stored, one more node than cells in every dimension
    between the stored bounds, and, if the context had entries, the stored
    cells, bounds and number of components. *)
Theorem C75_frame : forall A dims t (v : nda A) nc,
  shape v = List.map d_n dims ++ [nc] -> (0 < nc)%nat ->
  Forall (fun x => d_lo x < d_up x /\ (0 < d_n x)%nat) dims ->
  let out := h5_load true (H5Frame dims t v) in
  g_vals out = Some v /\
  get_num_cells out = Some (List.map d_n dims) /\
  get_num_comps out = Ok nc /\
  get_bounds out = Ok (Some (List.map d_lo dims, List.map d_up dims)) /\
  exists grid, g_grid out = Some (List.map line grid) /\ length grid = length dims /\
    forall k x, nth_error dims k = Some x ->
      exists g, nth_error grid k = Some g /\ length g = S (d_n x) /\
        (exists y, nth_error g 0 = Some y /\ y == d_lo x) /\
        (exists y, nth_error g (d_n x) = Some y /\ y == d_up x) /\
        forall i, (i <= d_n x)%nat -> exists y, nth_error g i = Some y /\ node_at x i y.
Proof.
  intros A dims t v nc Hs Hnc Hp. cbv zeta. unfold h5_load. cbn [orb].
  split; [reflexivity|]. split; [reflexivity|]. split; [|split; [reflexivity|]].
  - unfold get_num_comps. cbn [c_ncomps]. rewrite Hs, app_length, map_length. cbn [length].
    destruct (Nat.ltb_spec (length dims) (length dims + 1)); [|lia]. rewrite last_last. destruct nc; [lia|reflexivity].
  - exists (List.map dnodes dims). split; [cbn [g_grid]; now rewrite map_map|]. split; [apply map_length|].
    intros k x Hx. exists (dnodes x). rewrite nth_error_map, Hx. split; [reflexivity|]. split; [apply dnodes_length|].
    rewrite Forall_forall in Hp. destruct (Hp x) as [P1 P2]; [eapply nth_error_In; eauto|].
    assert (Nz : ~ inject_Z (Z.of_nat (d_n x)) == 0) by (unfold Qeq; cbn; lia).
    rewrite !dnodes_nth by lia. split; [|split].
    + eexists. split; [reflexivity|]. simpl. ring.
    + eexists. split; [reflexivity|]. unfold dwidth. field. exact Nz.
    + intros i Hi. rewrite dnodes_nth by lia. eexists. split; [reflexivity|]. unfold node_at. reflexivity.
Qed.
Print Assumptions C75_frame.

(** A diagnostic: the times stored in the file are replaced by equally spaced
    nodes, one more than there are times. *)
Theorem C75_times_refuted : forall A ts (v : nda A) ctx0,
  (2 <= length ts)%nat ->
  let out := h5_load ctx0 (H5Diag ts v) in
  g_vals out = Some v /\
  exists g, g_grid out = Some [line g] /\ length g = S (length ts) /\ g <> ts /\
    exists y, nth_error g 1 = Some y /\
      y == hd 0 ts + (last ts 0 - hd 0 ts) / inject_Z (Z.of_nat (length ts)).
Proof.
  intros A ts v ctx0 Hl. cbv zeta. destruct ts as [|t0 [|t1 ts]]; cbn [length] in Hl; try lia.
  unfold h5_load. set (l := t0 :: t1 :: ts) in *.
  split; [now destruct ctx0|]. exists (dnodes (mk_dim (hd 0 l) (last l 0) (length l))).
  split; [now destruct ctx0|]. split; [apply dnodes_length|]. split.
  - intros E. apply (f_equal (@length Q)) in E. rewrite dnodes_length in E. cbn [d_n] in E. lia.
  - rewrite dnodes_nth by (cbn [d_n]; unfold l; simpl; lia). eexists. split; [reflexivity|].
    unfold dwidth. cbn [d_lo d_up d_n]. change (inject_Z (Z.of_nat 1)) with 1. ring.
Qed.
Print Assumptions C75_times_refuted.

(** With an empty context the cells, bounds and components are not stored; for
    data without a component axis the dataset then has one dimension too few. *)
Theorem C75_empty_context_refuted : forall A dims (v : nda A),
  shape v = List.map d_n dims -> dims <> [] ->
  let good := h5_load true (H5Frame dims None v) in
  let bad := h5_load false (H5Frame dims None v) in
  get_num_dims good = length dims /\ get_num_comps good = Ok 1%nat /\
  get_num_dims bad = (length dims - 1)%nat /\ get_num_comps bad = Ok (last (List.map d_n dims) 0%nat).
Proof.
  intros A dims v Hs Hne. cbv zeta. unfold h5_load. cbn [orb]. split; [|split; [|split]].
  - unfold get_num_dims. cbn [c_cells]. apply map_length.
  - unfold get_num_comps. cbn [c_ncomps]. rewrite Hs, map_length, Nat.ltb_irrefl. reflexivity.
  - unfold get_num_dims. cbn [c_cells g_vals]. now rewrite Hs, map_length.
  - unfold get_num_comps. cbn [c_ncomps g_vals]. unfold shape_last. rewrite Hs.
    destruct dims as [|x0 dims]; [congruence|].
    assert (G : forall l (a : nat), match rev (a :: l) with [] => Err IndexError | n :: _ => Ok n end = Ok (last (a :: l) 0%nat)).
    { intros l. induction l as [|b l IH] using rev_ind; intros a; [reflexivity|].
      rewrite app_comm_cons, rev_app_distr, last_last. reflexivity. }
    apply (G (List.map d_n dims) (d_n x0)).
Qed.
Print Assumptions C75_empty_context_refuted.

Example C75_ex :
  get_num_cells (h5_load true (H5Frame ex_dims (Some 3) ex_v)) = Some [4; 3]%nat /\
  g_grid (h5_load true (H5Diag [0; 1; 5] (mk_nda [3; 1]%nat [7; 8; 9]%nat))) <> Some [line [0; 1; 5]].
Proof. split; [reflexivity|]. vm_compute. discriminate. Qed.

(** ** C76: grids from mapping files *)

Lemma comp_block_exact m nd d : (d < nd)%nat -> comp_block (nd * m) nd d = seq (d * m) m.
Proof.
  intros H. unfold comp_block.
  replace (d * (nd * m))%nat with (d * m * nd)%nat by lia.
  replace (S d * (nd * m))%nat with (S d * m * nd)%nat by lia.
  rewrite !Nat.div_mul by lia. f_equal. lia.
Qed.

Lemma sel_whole cells : sel_of (whole cells) = List.map (seq 0) cells.
Proof. unfold sel_of, whole. rewrite map_map. apply map_ext. intros n. cbn. now rewrite Nat.sub_0_r. Qed.

(** The coordinate [d] gets the [d]-th block of components of the mapping
    array, in every cell. *)
Theorem C76_mapped_grid : forall B (tmp : nda B) cells nd m,
  wf tmp -> shape tmp = cells ++ [(nd * m)%nat] -> (0 < nd)%nat ->
  exists grid, c2p_grid nd tmp = Ok grid /\ length grid = nd /\
    forall d g, nth_error grid d = Some g ->
      wf g /\ shape g = cells ++ [m] /\
      forall idx c, in_range cells idx -> (c < m)%nat -> get g (idx ++ [c]) = get tmp (idx ++ [(d * m + c)%nat]).
Proof.
  intros B tmp cells nd m Hw Hs Hnd. unfold c2p_grid. rewrite Hs, rev_app_distr. cbn [rev app].
  rewrite removelast_last. destruct (Nat.eqb_spec nd 0); [lia|].
  eexists. split; [reflexivity|]. split; [now rewrite map_length, seq_length|].
  intros d g Hg. rewrite nth_error_map, nth_error_seq in Hg. destruct (Nat.ltb_spec d nd); [|discriminate].
  cbn [option_map] in Hg. injection Hg as <-. rewrite comp_block_exact, <- sel_whole by auto.
  assert (Hlt : forall k, In k (seq (d * m) m) -> (k < nd * m)%nat) by (intros k Hk; apply in_seq in Hk; nia).
  pose proof (whole_bounds cells) as Hb. split; [|split].
  - apply wf_take; auto. rewrite Hs. now apply sel_of_bounds.
  - unfold take. cbn [shape]. rewrite map_app, sel_of_lengths. cbn [List.map]. rewrite seq_length. f_equal.
    unfold whole. rewrite map_map. transitivity (List.map (fun x : nat => x) cells); [|apply map_id]. apply map_ext. intros; cbn; lia.
  - intros idx c Hi Hc.
    assert (Hi' : in_range (List.map (fun ab => snd ab - fst ab)%nat (whole cells)) idx).
    { unfold whole. rewrite map_map. replace (List.map (fun x => (snd (0%nat, x) - fst (0%nat, x))%nat) cells) with cells; [exact Hi|].
      rewrite <- (map_id cells) at 1. apply map_ext. intros; cbn; lia. }
    erewrite (take_block_get tmp cells (nd * m) (whole cells) (seq (d * m) m) idx c (d * m + c)); eauto.
    + f_equal. f_equal. clear -Hi. unfold whole. rewrite map_map. cbn [fst].
      induction Hi; simpl; [reflexivity|]. now rewrite IHHi.
    + rewrite nth_error_seq. destruct (Nat.ltb_spec c m); [reflexivity|lia].
Qed.
Print Assumptions C76_mapped_grid.

(** An ADIOS frame with a mapping file cannot be loaded in part. *)
Theorem C76_adios_partial_refuted : forall pfloat B (map : nda B) nd zs k z,
  nth_error zs k = Some (Some z) -> (S k < length (shape map))%nat ->
  load_c2p pfloat nd map zs = Err TypeError.
Proof.
  intros pfloat B map nd zs k z Hz Hk. unfold load_c2p, offset_count.
  destruct (rev (shape map)) as [|nc r] eqn:Er.
  { apply (f_equal (@length nat)) in Er. rewrite rev_length in Er. simpl in Er. lia. }
  assert (Hl : (k < length (removelast (shape map)))%nat).
  { apply (f_equal (@rev nat)) in Er. rewrite rev_involutive in Er. cbn [rev] in Er. rewrite Er, removelast_last.
    rewrite Er, app_length in Hk. simpl in Hk. lia. }
  assert (E : forall sh d zs k, nth_error zs k = Some (Some z) -> (k < length sh)%nat -> axis_ranges pfloat d sh zs None = Err TypeError).
  { induction sh as [|n sh IH]; intros d zs' k' Hz' Hk'; [simpl in Hk'; lia|].
    destruct zs' as [|z0 zs']; [now destruct k'|]. cbn [axis_ranges hd tl].
    destruct z0; [reflexivity|]. cbn [bind]. destruct k' as [|k']; [discriminate|].
    rewrite (IH (S d) zs' k'); auto. simpl in Hk'. lia. }
  rewrite (E _ 0%nat zs k); auto.
Qed.
Print Assumptions C76_adios_partial_refuted.

Lemma ravel_ones d e n m i c :
  (i < n)%nat -> (c < m)%nat ->
  ravel (repeat 1%nat d ++ n :: repeat 1%nat e ++ [m]) (repeat 0%nat d ++ i :: repeat 0%nat e ++ [c]) = Some (i * m + c)%nat.
Proof.
  intros Hi Hc. induction d as [|d IH].
  - cbn [repeat app ravel]. destruct (Nat.ltb_spec i n); [|lia].
    assert (G : prod (repeat 1%nat e ++ [m]) = m /\ ravel (repeat 1%nat e ++ [m]) (repeat 0%nat e ++ [c]) = Some c).
    { induction e as [|e [IH1 IH2]].
      - cbn [repeat app ravel]. destruct (Nat.ltb_spec c m); [|lia]. cbn [option_map]. change (prod []) with 1%nat.
        split; [change (m * 1 = m)%nat; lia|f_equal; lia].
      - cbn [repeat app ravel]. rewrite IH2. split; [change (1 * prod (repeat 1 e ++ [m]) = m)%nat; lia|reflexivity]. }
    destruct G as [G1 G2]. rewrite G2. cbn. now rewrite G1.
  - cbn [repeat app ravel Nat.ltb Nat.leb]. rewrite IH. reflexivity.
Qed.

Lemma pick_list d pre n post :
  length pre = d ->
  List.map (fun jn => if (fst jn =? d)%nat then seq 0 (snd jn) else [0%nat])
           (combine (seq 0 (length (pre ++ n :: post))) (pre ++ n :: post))
  = (repeat [0%nat] d ++ seq 0 n :: repeat [0%nat] (length post))%list.
Proof.
  intros H. assert (G : forall l s, (d < s)%nat -> List.map (fun jn => if (fst jn =? d)%nat then seq 0 (snd jn) else [0%nat])
           (combine (seq s (length l)) l) = repeat [0%nat] (length l)).
  { induction l as [|a l IH]; intros s Hs; [reflexivity|]. cbn [length seq combine List.map fst snd repeat].
    destruct (Nat.eqb_spec s d); [lia|]. now rewrite IH by lia. }
  assert (G2 : forall pre s, (s + length pre = d)%nat ->
     List.map (fun jn => if (fst jn =? d)%nat then seq 0 (snd jn) else [0%nat])
           (combine (seq s (length (pre ++ n :: post))) (pre ++ n :: post))
     = (repeat [0%nat] (length pre) ++ seq 0 n :: repeat [0%nat] (length post))%list).
  { clear pre H. induction pre as [|a pre IH]; intros s Hs; cbn [length app seq combine List.map fst snd repeat].
    - simpl in Hs. rewrite Nat.add_0_r in Hs. subst s. rewrite Nat.eqb_refl, G by lia. reflexivity.
    - simpl in Hs. destruct (Nat.eqb_spec s d); [lia|]. rewrite IH by lia. reflexivity. }
  rewrite (G2 pre 0%nat) by lia. now rewrite H.
Qed.

(** A velocity-space mapping: the configuration-space grid stays uniform, and
    the velocity coordinate [d] is the [d]-th block of components along its own
    axis, at the first cell of the other velocity axes. *)
Theorem C76_velocity_grid : forall dims (tmp : nda Q) vcells m,
  wf tmp -> (length vcells <= length dims)%nat ->
  shape tmp = vcells ++ [(length vcells * m)%nat] -> Forall (fun n => 0 < n)%nat vcells ->
  exists grid, c2p_vel_grid dims tmp = Ok grid /\ length grid = length dims /\
    (forall k x, (k < length dims - length vcells)%nat -> nth_error dims k = Some x ->
       nth_error grid k = Some (line (dnodes x))) /\
    (forall pre n post, vcells = pre ++ n :: post ->
       exists g, nth_error grid (length dims - length vcells + length pre) = Some g /\
         shape g = [n; m] /\
         forall i c, (i < n)%nat -> (c < m)%nat ->
           get g [i; c] = get tmp (repeat 0%nat (length pre) ++ i :: repeat 0%nat (length post) ++ [(length pre * m + c)%nat])).
Proof.
  intros dims tmp vcells m Hw Hle Hs Hp. unfold c2p_vel_grid. rewrite Hs, rev_app_distr. cbn [rev app].
  rewrite rev_length. eexists. split; [reflexivity|]. split; [|split].
  - rewrite app_length, !map_length, firstn_length, seq_length. lia.
  - intros k x Hk Hx. rewrite nth_error_app1 by (rewrite map_length, firstn_length; lia).
    rewrite nth_error_map, nth_error_firstn. 
    destruct (Nat.ltb_spec k (length dims - length vcells)); [|lia]. now rewrite Hx.
  - intros pre n post Ev.
    rewrite nth_error_app2; rewrite map_length, firstn_length, Nat.min_l by lia; [|lia].
    replace (length dims - length vcells + length pre - (length dims - length vcells))%nat with (length pre) by lia.
    assert (Hd : (length pre < length vcells)%nat) by (rewrite Ev, app_length; simpl; lia).
    rewrite nth_error_map, nth_error_seq. destruct (Nat.ltb_spec (length pre) (length vcells)); [|lia].
    cbn [option_map]. rewrite Nat.add_0_l. eexists. split; [reflexivity|].
    unfold vel_line. rewrite comp_block_exact by lia. rewrite Hs, removelast_last. cbn [shape]. split.
    + rewrite seq_length, app_nth1 by lia. rewrite Ev, app_nth2, Nat.sub_diag by lia. reflexivity.
    + intros i c Hi Hc.
      assert (Epick : List.map (fun jn => if (fst jn =? length pre)%nat then seq 0 (snd jn) else [0%nat])
                 (combine (seq 0 (length vcells)) vcells)
               = (repeat [0%nat] (length pre) ++ seq 0 n :: repeat [0%nat] (length post))%list).
      { rewrite Ev. now apply pick_list. }
      rewrite Epick.
      set (sels := ((repeat [0%nat] (length pre) ++ seq 0 n :: repeat [0%nat] (length post)) ++ [seq (length pre * m) m])%list).
      assert (Hb : Forall2 (fun s nn => forall j, In j s -> (j < nn)%nat) sels (shape tmp)).
      { rewrite Hs. unfold sels. apply Forall2_app.
        - rewrite Ev in Hp |- *. apply Forall_app in Hp as [Hp1 Hp2]. inversion Hp2 as [|? ? P1 P2]; subst.
          apply Forall2_app; [|constructor].
          + clear -Hp1. induction Hp1; simpl; constructor; auto. intros j [<-|[]]. auto.
          + intros j Hj. apply in_seq in Hj. lia.
          + clear -P2. induction P2; simpl; constructor; auto. intros j [<-|[]]. auto.
        - constructor; [|constructor]. intros j Hj. apply in_seq in Hj. nia. }
      assert (Elen : List.map (@length nat) sels = repeat 1%nat (length pre) ++ n :: repeat 1%nat (length post) ++ [m]).
      { unfold sels. rewrite <- app_assoc. rewrite map_app. cbn [List.map app]. rewrite map_app. cbn [List.map]. rewrite !seq_length.
        assert (R : forall e, List.map (@length nat) (repeat [0%nat] e) = repeat 1%nat e) by (induction e; simpl; congruence).
        now rewrite !R. }
      pose proof (ravel_ones (length pre) (length post) n m i c Hi Hc) as Hrav.
      transitivity (get (take sels tmp) (repeat 0%nat (length pre) ++ i :: repeat 0%nat (length post) ++ [c])).
      * unfold get. cbn [shape take flat]. rewrite Elen, Hrav, seq_length, app_nth1 by lia.
        rewrite Ev at 1. rewrite app_nth2, Nat.sub_diag by lia. cbn [nth ravel].
        destruct (Nat.ltb_spec i n); [|lia]. destruct (Nat.ltb_spec c m); [|lia]. cbn [option_map].
        unfold prod. cbn [fold_right]. now rewrite !Nat.mul_1_r, Nat.add_0_r.
      * apply get_take; auto.
        -- rewrite Elen. apply ravel_Some_in_range with (1 := Hrav).
        -- unfold sels. rewrite <- app_assoc. cbn [app].
           assert (G : forall e (S1 : list (list nat)) (I1 J1 : list nat),
              Forall2 (fun si j => nth_error (fst si) (snd si) = Some j) (combine S1 I1) J1 ->
              Forall2 (fun si j => nth_error (fst si) (snd si) = Some j)
                (combine (repeat [0%nat] e ++ S1) (repeat 0%nat e ++ I1)) (repeat 0%nat e ++ J1)).
           { induction e as [|e IH]; intros S1 I1 J1 HH; [exact HH|]. cbn [repeat app combine]. constructor; [reflexivity|auto]. }
           apply G. cbn [combine]. constructor.
           { cbn [fst snd]. rewrite nth_error_seq. destruct (Nat.ltb_spec i n); [reflexivity|lia]. }
           apply G. constructor; [|constructor].
           cbn [fst snd]. rewrite nth_error_seq. destruct (Nat.ltb_spec c m); [reflexivity|lia].
Qed.
Print Assumptions C76_velocity_grid.

Example C76_ex :
  (exists g0 g1, c2p_grid 2 (mk_nda [2; 1; 4]%nat [1; 2; 3; 4; 5; 6; 7; 8]%nat) = Ok [g0; g1] /\
     flat g0 = [1; 2; 5; 6]%nat /\ flat g1 = [3; 4; 7; 8]%nat) /\
  (exists gx g0 g1, c2p_vel_grid [mk_dim 0 1 2; mk_dim 0 1 2; mk_dim 0 1 2]
        (mk_nda [2; 2; 2]%nat [1; 10; 1; 20; 2; 10; 2; 20]) = Ok [gx; g0; g1] /\
     g0 = mk_nda [2; 1]%nat [1; 2] /\ g1 = mk_nda [2; 1]%nat [10; 20]).
Proof.
  split; [do 2 eexists|do 3 eexists]; (split; [vm_compute; reflexivity|]); split; reflexivity.
Qed.

(** ** C77: the choice of a reader *)

(** The readers are tried in a fixed order and the first that accepts the file
    is used; a valid reader name restricts the choice to that reader; any other
    name is ignored; if no reader accepts the file, a [NameError] is raised; an
    exception a reader raises when asked ends the search, so that the readers
    behind it are not tried. *)
Theorem C77_first_compatible : forall name compat ctx0,
  let order := ["gkyl"; "adios"; "h5"; "flash"]%string in
  let tried := if existsb (String.eqb name) order then [name] else order in
  (forall r, In r tried -> compat r = Ok false) /\ choose_reader name compat ctx0 = Err NameError \/
  (exists pre r post e, tried = pre ++ r :: post /\ compat r = Err e /\ (forall q, In q pre -> compat q = Ok false) /\
    choose_reader name compat ctx0 = Err e) \/
  exists pre r post ctx1, tried = pre ++ r :: post /\ compat r = Ok true /\ (forall q, In q pre -> compat q = Ok false) /\
    choose_reader name compat ctx0 = Ok (r, ctx1) /\
    (ctx1 = true <-> ctx0 = true \/ exists q, In q (pre ++ [r]) /\ (q = "gkyl" \/ q = "adios")%string).
Proof.
  intros name compat ctx0. cbv zeta. unfold choose_reader. fold readers.
  generalize (if existsb (String.eqb name) readers then [name] else readers) as rs. intros rs. revert ctx0.
  induction rs as [|r rs IH]; intros ctx0; cbn [try_readers].
  - left. split; [intros r []|reflexivity].
  - assert (Hg : sets_grid_type r = true <-> (r = "gkyl" \/ r = "adios")%string).
    { unfold sets_grid_type. rewrite orb_true_iff, !String.eqb_eq. tauto. }
    destruct (compat r) as [[|]|e] eqn:Ec; cbn [bind].
    + right. right. exists [], r, rs. eexists. split; [reflexivity|]. split; [exact Ec|]. split; [intros q []|]. split; [reflexivity|].
      rewrite orb_true_iff, Hg. cbn [app]. split; intros [H|H]; auto.
      * right. exists r. split; [now left|exact H].
      * destruct H as (q & [<-|[]] & H). auto.
    + destruct (IH (ctx0 || sets_grid_type r)%bool) as [[H1 H2]|[(pre & r' & post & e & H1 & H2 & H3 & H4)|(pre & r' & post & ctx1 & H1 & H2 & H3 & H4 & H5)]].
      * left. split; [intros q [<-|Hq]; auto|exact H2].
      * right. left. exists (r :: pre), r', post, e. split; [now rewrite H1|]. split; [exact H2|].
        split; [intros q [<-|Hq]; auto|exact H4].
      * right. right. exists (r :: pre), r', post, ctx1. split; [now rewrite H1|]. split; [exact H2|].
        split; [intros q [<-|Hq]; auto|]. split; [exact H4|]. rewrite H5, orb_true_iff, Hg. cbn [app]. split.
        -- intros [[H|H]|(q & Hq & H)]; [now left| |].
           ++ right. exists r. split; [now left|exact H].
           ++ right. exists q. split; [now right|exact H].
        -- intros [H|(q & [<-|Hq] & H)]; [now left; left|now left; right|]. right. exists q. auto.
    + right. left. exists [], r, rs, e. split; [reflexivity|]. split; [exact Ec|]. split; [intros q []|reflexivity].
Qed.
Print Assumptions C77_first_compatible.

(** A misspelt reader name is not reported. *)
Theorem C77_unknown_name : forall name compat ctx0,
  ~ In name ["gkyl"; "adios"; "h5"; "flash"]%string -> choose_reader name compat ctx0 = choose_reader "" compat ctx0.
Proof.
  intros name compat ctx0 H. unfold choose_reader.
  destruct (existsb (String.eqb name) readers) eqn:E; [|reflexivity].
  apply existsb_exists in E as (q & Hq & E). apply String.eqb_eq in E. subst. contradiction.
Qed.
Print Assumptions C77_unknown_name.

(** Asking for the HDF5 reader by name instead of letting it be found changes
    what is known about the dataset: nothing is stored in the context. *)
Theorem C77_reader_name_refuted : forall A dims (v : nda A),
  exists compat, choose_reader "" compat false = Ok ("h5"%string, true) /\
    choose_reader "h5" compat false = Ok ("h5"%string, false) /\
    h5_load true (H5Frame dims None v) <> h5_load false (H5Frame dims None v).
Proof.
  intros A dims v. exists (fun r => Ok (String.eqb r "h5")). split; [reflexivity|]. split; [reflexivity|].
  unfold h5_load. cbn [orb]. discriminate.
Qed.
Print Assumptions C77_reader_name_refuted.

(** What happens then: the reader chosen loads the metadata and, if asked, the
    data, except that the FLASH reader has neither method: a FLASH file can be
    recognized but a dataset can never be made of it. *)
Theorem C77_open : forall X (run : string -> string -> X -> res X) name compat ctx0 load x,
  match choose_reader name compat ctx0 with
  | Err e => open_file run name compat ctx0 load x = Err e
  | Ok (r, _) =>
      (r = "flash"%string -> open_file run name compat ctx0 load x = Err AttributeError) /\
      (r <> "flash"%string -> open_file run name compat ctx0 load x =
         match run r "preload"%string x with
         | Err e => Err e
         | Ok y => if load then run r "load"%string y else Ok y
         end)
  end.
Proof.
  intros X run name compat ctx0 load x. unfold open_file.
  destruct (choose_reader name compat ctx0) as [[r c]|e]; cbn [bind]; [|reflexivity].
  unfold call_reader, reader_methods. split; intros Hr.
  - subst r. reflexivity.
  - apply String.eqb_neq in Hr. rewrite Hr.
    change (existsb (String.eqb "preload") ["is_compatible"; "preload"; "load"]%string) with true.
    change (existsb (String.eqb "load") ["is_compatible"; "preload"; "load"]%string) with true.
    cbn iota. destruct (run r "preload"%string x); reflexivity.
Qed.
Print Assumptions C77_open.

Theorem C77_flash_unreadable : forall X (run : string -> string -> X -> res X) compat ctx0 load x,
  (compat "gkyl" = Ok false -> compat "adios" = Ok false -> compat "h5" = Ok false -> compat "flash" = Ok true ->
   open_file run "" compat ctx0 load x = Err AttributeError)%string /\
  (compat "flash" = Ok true -> open_file run "flash" compat ctx0 load x = Err AttributeError)%string.
Proof.
  intros X run compat ctx0 load x. split.
  - intros H1 H2 H3 H4. unfold open_file, choose_reader, readers. cbn [existsb String.eqb orb try_readers].
    rewrite H1. cbn [bind]. rewrite H2. cbn [bind]. rewrite H3. cbn [bind]. rewrite H4. reflexivity.
  - intros H4. unfold open_file. change (choose_reader "flash" compat ctx0) with (try_readers compat ["flash"%string] ctx0).
    cbn [try_readers]. rewrite H4. reflexivity.
Qed.
Print Assumptions C77_flash_unreadable.

Example C77_ex :
  let c r := Ok (existsb (String.eqb r) ["h5"; "flash"]%string) in
  let c' r := if String.eqb r "adios" then Err RuntimeError else c r in
  let run (r m : string) l := Ok (l ++ [r; m]) in
  choose_reader "" c false = Ok ("h5"%string, true) /\
  choose_reader "flash" c false = Ok ("flash"%string, false) /\
  choose_reader "gkyl" c false = Err NameError /\
  choose_reader "" c' false = Err RuntimeError /\
  open_file run "" c false true [] = Ok ["h5"; "preload"; "h5"; "load"]%string /\
  open_file run "flash" c false true [] = Err AttributeError.
Proof. repeat split. Qed.
