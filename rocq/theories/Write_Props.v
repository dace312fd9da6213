(** * Properties C14 (text output) and C52 (output names). *)
From Coq Require Import String Ascii List Arith ZArith QArith Bool Lia.
From Verif Require Import Prelude PreludeFacts NdArray GData_Model GData_Props Write_Model.
Import ListNotations.
Open Scope list_scope.

(** ** Specification *)

(** The dataset holds values [v] with the given cells and components, on the
    grid [gs] of one coordinate list per dimension. *)
Record holds {A} (d : gdata A) (gs : list (list Q)) (v : nda A) (cells : list nat) (nc : nat) : Prop := {
  h_grid : g_grid d = Some (List.map ex_line gs);
  h_vals : g_vals d = Some v;
  h_wf : wf v;
  h_shape : shape v = cells ++ [nc];
  h_cells : c_cells d = Some cells;
  h_comps : c_ncomps d = Some nc;
  h_bounds : exists b, get_bounds d = Ok b
}.

(** [line] is the row of the cell [idx]: the midpoints of its edges and then
    its values, separated by commas. *)
Definition row_of {A} (fq : Q -> string) (fa : A -> string) (gs : list (list Q)) (v : nda A) (nc : nat)
    (idx : list nat) (line : string) : Prop :=
  exists xs vs,
    line = (join ", " (List.map fq xs ++ List.map fa vs) ++ newline)%string /\
    length xs = length gs /\ length vs = nc /\
    (forall k g i x, nth_error gs k = Some g -> nth_error idx k = Some i -> nth_error xs k = Some x ->
       exists a b, nth_error g i = Some a /\ nth_error g (S i) = Some b /\ x = ((1 # 2) * (b + a))%Q) /\
    (forall c, (c < nc)%nat -> nth_error vs c = get v (idx ++ [c])).

(** ** Lemmas *)

Lemma nth_error_removelast {X} (l : list X) k :
  (S k < length l)%nat -> nth_error (removelast l) k = nth_error l k.
Proof.
  revert k. induction l as [|a l IH]; intros k H; simpl in H; [lia|].
  destruct l as [|b l]; [simpl in H; lia|]. destruct k as [|k]; [reflexivity|].
  change (nth_error (removelast (b :: l)) k = nth_error (b :: l) k). apply IH. simpl in *. lia.
Qed.

Lemma removelast_length {X} (l : list X) : length (removelast l) = (length l - 1)%nat.
Proof. induction l as [|a [|b l] IH]; auto. change (S (length (removelast (b :: l))) = (length (a :: b :: l) - 1)%nat).
  rewrite IH. simpl. lia. Qed.

Lemma centres_length l : length (centres l) = (length l - 1)%nat.
Proof. unfold centres. rewrite map2_length, removelast_length. destruct l; simpl; lia. Qed.

Lemma centres_nth l i a b : nth_error l i = Some a -> nth_error l (S i) = Some b ->
  nth_error (centres l) i = Some ((1 # 2) * (b + a))%Q.
Proof.
  intros Ha Hb. unfold centres. rewrite nth_error_map2.
  assert (S i < length l)%nat by (apply nth_error_Some; congruence).
  rewrite nth_error_removelast by auto. rewrite Ha.
  destruct l; [discriminate|]. simpl in *. now rewrite Hb.
Qed.

Lemma recentre_lines gs n :
  (n <= length gs)%nat ->
  recentre (List.map ex_line gs) n = (List.map ex_line (List.map centres (firstn n gs) ++ skipn n gs), None).
Proof.
  revert n. induction gs as [|g gs IH]; intros [|n] H; simpl in H; try lia; try reflexivity.
  cbn [List.map recentre ex_line shape]. rewrite IH by lia. reflexivity.
Qed.

Lemma basis_cons n cells : basis (n :: cells) = prod cells :: basis cells.
Proof.
  unfold basis. cbn [length seq List.map]. f_equal.
  - destruct cells; reflexivity.
  - rewrite <- seq_shift, map_map. apply map_ext_in. intros k Hk. apply in_seq in Hk.
    replace (S k <? S (length cells) - 1)%nat with (k <? length cells - 1)%nat; [reflexivity|].
    destruct (Nat.ltb_spec k (length cells - 1)), (Nat.ltb_spec (S k) (S (length cells) - 1)); auto; lia.
Qed.

Lemma unrank_ravel cells idx k : ravel cells idx = Some k -> unrank (basis cells) k = idx.
Proof.
  revert idx k. induction cells as [|n cells IH]; intros [|i idx] k; cbn [ravel]; try discriminate; auto.
  destruct (Nat.ltb_spec i n); [|discriminate].
  destruct (ravel cells idx) as [r|] eqn:E; [|discriminate]. cbn [option_map]. intros [= <-].
  rewrite basis_cons. cbn [unrank]. pose proof (ravel_lt _ _ _ E) as Hr.
  assert (E1 : ((i * prod cells + r) / prod cells = i)%nat).
  { rewrite Nat.div_add_l by lia. rewrite Nat.div_small by auto. lia. }
  assert (E2 : ((i * prod cells + r) mod prod cells = r)%nat).
  { rewrite Nat.add_comm, Nat.mod_add by lia. now apply Nat.mod_small. }
  rewrite E1, E2. f_equal. now apply IH.
Qed.

Lemma mapM_ok_nth {X Y} (f : X -> res Y) l :
  (forall a, In a l -> exists b, f a = Ok b) ->
  exists bs, mapM f l = Ok bs /\ length bs = length l /\
    forall k a b, nth_error l k = Some a -> nth_error bs k = Some b -> f a = Ok b.
Proof.
  induction l as [|a l IH]; intros H.
  - exists []. repeat split; auto. intros [|k]; discriminate.
  - destruct (H a) as [b Hb]; [now left|]. destruct IH as (bs & E & L & N); [intros; apply H; now right|].
    exists (b :: bs). cbn [mapM]. rewrite Hb. cbn [bind]. rewrite E. cbn [bind]. split; [reflexivity|].
    split; [simpl; lia|]. intros [|k] a' b' Ha Hb'; simpl in *; [congruence|eauto].
Qed.

Lemma mapM_err {X Y} (f : X -> res Y) l e :
  (forall a, In a l -> (exists b, f a = Ok b) \/ f a = Err e) ->
  (exists a, In a l /\ f a = Err e) -> mapM f l = Err e.
Proof.
  induction l as [|a l IH]; intros H [x [Hin Hx]]; [destruct Hin|]. cbn [mapM].
  destruct (H a) as [[b Hb]|Ha]; [now left| |now rewrite Ha].
  rewrite Hb. cbn [bind]. destruct Hin as [->|Hin]; [congruence|].
  rewrite IH; [reflexivity|intros; apply H; now right|eauto].
Qed.

Lemma str_app_assoc (a b c : string) : ((a ++ b) ++ c = a ++ b ++ c)%string.
Proof. induction a; simpl; congruence. Qed.

Lemma str_app_nil (a : string) : (a ++ "" = a)%string.
Proof. induction a; simpl; congruence. Qed.

Lemma fold_sep {X} (f : X -> string) xs s :
  fold_left (fun s x => s ++ f x ++ ", ")%string xs s
  = (s ++ fold_left (fun s x => s ++ f x ++ ", ")%string xs "")%string.
Proof.
  revert s. induction xs as [|x xs IH]; intros s; simpl; [now rewrite str_app_nil|].
  rewrite IH, (IH (f x ++ ", ")%string). now rewrite !str_app_assoc.
Qed.

Lemma fold_join {X} (f : X -> string) xs t ts :
  (fold_left (fun s x => s ++ f x ++ ", ")%string xs "" ++ join ", " (t :: ts))%string
  = join ", " (List.map f xs ++ t :: ts).
Proof.
  induction xs as [|x xs IH]; [reflexivity|].
  cbn [fold_left]. rewrite fold_sep. cbn [List.map app].
  replace (join ", " (f x :: List.map f xs ++ t :: ts))
    with (f x ++ ", " ++ join ", " (List.map f xs ++ t :: ts))%string
    by (destruct (List.map f xs); reflexivity).
  rewrite <- IH. simpl (""%string ++ _)%string. now rewrite !str_app_assoc.
Qed.

Lemma txt_line_ok {A} fq fa (gs : list (list Q)) (v : nda A) cells nc idx k :
  wf v -> shape v = cells ++ [S nc] -> length gs = length cells -> ravel cells idx = Some k ->
  Forall2 (fun n g => length g = n + 1)%nat cells gs ->
  exists line, txt_line fq fa (List.map ex_line (List.map centres gs)) v (length cells) (S nc) (basis cells) k = Ok line
    /\ row_of fq fa gs v (S nc) idx line.
Proof.
  intros Hw Hsh Hlg Hr Hg. unfold txt_line. rewrite (unrank_ravel _ _ _ Hr).
  pose proof (ravel_Some_in_range _ _ _ Hr) as Hin. pose proof (in_range_length _ _ Hin) as Hli.
  assert (HX : forall d, (d < length cells)%nat -> exists g i a b, nth_error gs d = Some g /\ nth_error idx d = Some i /\
     nth_error g i = Some a /\ nth_error g (S i) = Some b).
  { intros d Hd. destruct (nth_error gs d) as [g|] eqn:Eg; [|apply nth_error_None in Eg; lia].
    destruct (nth_error idx d) as [i|] eqn:Ei; [|apply nth_error_None in Ei; lia].
    destruct (in_range_take_nth _ _ _ _ Hin Ei) as (n & En & Hn).
    pose proof (Forall2_nth_error _ _ _ _ _ _ Hg En Eg) as Hl. simpl in Hl.
    destruct (nth_error g i) as [a|] eqn:Ea; [|apply nth_error_None in Ea; lia].
    destruct (nth_error g (S i)) as [b|] eqn:Eb; [|apply nth_error_None in Eb; lia].
    exists g, i, a, b. auto. }
  destruct (mapM_ok_nth (fun d => let* a := of_opt (nth_error (List.map ex_line (List.map centres gs)) d) in
                              let* j := of_opt (nth_error idx d) in
                              of_opt (nth_error (flat a) j)) (seq 0 (length cells))) as (xs & E & L & N).
  { intros d Hd. apply in_seq in Hd. destruct (HX d) as (g & i & a & b & Eg & Ei & Ea & Eb); [lia|].
    rewrite !nth_error_map, Eg, Ei. simpl. rewrite (centres_nth _ _ _ _ Ea Eb). simpl. eauto. }
  rewrite E. cbn [bind].
  assert (HV : forall c, (c < S nc)%nat -> exists x, get v (idx ++ [c]) = Some x).
  { intros c Hc. apply get_in; auto. rewrite Hsh. apply Forall2_app; [exact Hin|]. constructor; [lia|constructor]. }
  destruct (mapM_ok_nth (fun c => of_opt (get v (idx ++ [c]))) (seq 0 (S nc - 1))) as (vs & E' & L' & N').
  { intros c Hc. apply in_seq in Hc. destruct (HV c) as [x ->]; [lia|]. simpl; eauto. }
  rewrite E'. cbn [bind]. destruct (HV nc) as [w Hw']; [lia|]. rewrite Hw'. cbn [of_opt bind].
  eexists; split; [reflexivity|]. exists xs, (vs ++ [w]). rewrite seq_length in L, L'.
  split; [|split; [lia|split; [rewrite app_length; simpl; lia|split]]].
  - rewrite fold_sep, map_app.
    rewrite <- (str_app_assoc _ (fa w)). f_equal. rewrite str_app_assoc.
    change (fa w) with (join ", " [fa w]). rewrite fold_join.
    cbn [List.map]. destruct (List.map fa vs ++ [fa w]) eqn:Ej; [destruct vs; discriminate|].
    apply fold_join.
  - intros d g i x Eg Ei Ex.
    assert (Hd : (d < length cells)%nat) by (rewrite <- Hlg; apply nth_error_Some; congruence).
    destruct (HX d Hd) as (g' & i' & a & b & Eg' & Ei' & Ea & Eb).
    rewrite Eg in Eg'; injection Eg' as <-. rewrite Ei in Ei'; injection Ei' as <-.
    exists a, b. split; [auto|split; [auto|]].
    specialize (N d d x). rewrite nth_error_seq in N. destruct (Nat.ltb_spec d (length cells)); [|lia].
    specialize (N eq_refl Ex). rewrite !nth_error_map, Eg, Ei in N. simpl in N.
    rewrite (centres_nth _ _ _ _ Ea Eb) in N. simpl in N. congruence.
  - intros c Hc. destruct (Nat.eq_dec c nc) as [->|Hne].
    + rewrite nth_error_app2 by lia. replace (nc - length vs)%nat with 0%nat by lia. simpl. auto.
    + rewrite nth_error_app1 by lia. destruct (nth_error vs c) as [x|] eqn:Ex; [|apply nth_error_None in Ex; lia].
      specialize (N' c c x). rewrite nth_error_seq in N'. destruct (Nat.ltb_spec c (S nc - 1)); [|lia].
      specialize (N' eq_refl Ex). destruct (get v (idx ++ [c])); simpl in N'; congruence.
Qed.

Lemma write_txt_run {A} fq fa (d : gdata A) gs v cells nc :
  holds d gs v cells nc -> length gs = length cells ->
  let gc := List.map ex_line (List.map centres gs) in
  exists nc', get_num_comps d = Ok nc' /\ nc' = nc /\
  write_txt fq fa d =
   (mk_gdata (Some gc) (g_vals d) (c_cells d) (c_ncomps d) (c_lower d) (c_upper d),
    mapM (txt_line fq fa gc v (length cells) nc (basis cells)) (seq 0 (prod cells))).
Proof.
  intros H Hl gc. destruct H as [Hg Hv Hw Hs Hc Hn [b Hb]].
  assert (Enc : get_num_comps d = Ok nc).
  { unfold get_num_comps. rewrite Hn, Hv. destruct nc; auto. unfold shape_last. now rewrite Hs, rev_app_distr. }
  exists nc. split; [auto|split; [auto|]]. unfold write_txt. rewrite Enc.
  assert (Ecl : get_num_cells d = Some cells) by (unfold get_num_cells; now rewrite Hc).
  assert (End : get_num_dims d = length cells) by (unfold get_num_dims; now rewrite Hc).
  rewrite Ecl, Hb, Hg, Hv, End, recentre_lines by lia.
  rewrite <- Hl, firstn_all, skipn_all, app_nil_r. rewrite Hl. reflexivity.
Qed.

(** ** C14 *)

(** A grid with one more edge than cells along every dimension: the file has
    one line per cell; the line at the row-major position of a cell is its
    row. *)
Theorem C14_rows_in_order : forall A fq fa (d : gdata A) gs v cells nc,
  holds d gs v cells nc -> (0 < nc)%nat ->
  Forall2 (fun n g => length g = n + 1)%nat cells gs ->
  exists lines, snd (write_txt fq fa d) = Ok lines /\ length lines = prod cells /\
    forall idx k, ravel cells idx = Some k ->
      exists line, nth_error lines k = Some line /\ row_of fq fa gs v nc idx line.
Proof.
  intros A fq fa d gs v cells nc H Hnc Hg.
  pose proof (Forall2_length _ _ _ Hg) as Hl.
  destruct (write_txt_run fq fa d gs v cells nc H) as (nc' & _ & -> & ->); [auto|]. cbn [snd].
  destruct nc as [|nc]; [lia|].
  assert (R : forall idx k, ravel cells idx = Some k -> exists line,
      txt_line fq fa (List.map ex_line (List.map centres gs)) v (length cells) (S nc) (basis cells) k = Ok line
      /\ row_of fq fa gs v (S nc) idx line).
  { intros idx k Hr. eapply txt_line_ok; eauto; apply H. }
  destruct (mapM_ok_nth (txt_line fq fa (List.map ex_line (List.map centres gs)) v (length cells) (S nc) (basis cells))
             (seq 0 (prod cells))) as (lines & E & L & N).
  { intros k Hk. apply in_seq in Hk. destruct (ravel_surj cells k) as [idx Hi]; [lia|].
    destruct (R _ _ Hi) as (line & -> & _). eauto. }
  exists lines. split; [exact E|]. rewrite seq_length in L. split; [exact L|].
  intros idx k Hr. destruct (R _ _ Hr) as (line & El & Hrow). pose proof (ravel_lt _ _ _ Hr) as Hk.
  destruct (nth_error lines k) as [line'|] eqn:En; [|apply nth_error_None in En; lia].
  specialize (N k k line'). rewrite nth_error_seq in N. destruct (Nat.ltb_spec k (prod cells)); [|lia].
  specialize (N eq_refl En). exists line'. split; [reflexivity|]. congruence.
Qed.
Print Assumptions C14_rows_in_order.

(** The values are untouched, but the dataset's own grid is replaced by the
    cell centres. *)
Theorem C14_grid_replaced : forall A fq fa (d : gdata A) gs v cells nc,
  holds d gs v cells nc -> length gs = length cells ->
  g_vals (fst (write_txt fq fa d)) = Some v /\
  g_grid (fst (write_txt fq fa d)) = Some (List.map ex_line (List.map centres gs)) /\
  get_bounds (fst (write_txt fq fa d)) =
    match c_lower d, c_upper d with Some _, Some _ => get_bounds d
    | _, _ => get_bounds (fst (write_txt fq fa d)) end.
Proof.
  intros A fq fa d gs v cells nc H Hl.
  destruct (write_txt_run fq fa d gs v cells nc H Hl) as (nc' & _ & _ & ->). cbn [fst].
  split; [apply H|]. split; [reflexivity|]. unfold get_bounds. cbn. destruct (c_lower d), (c_upper d); reflexivity.
Qed.
Print Assumptions C14_grid_replaced.

(** Data given at points (as many coordinates as cells along some dimension,
    e.g. a time trace) can never be dumped. *)
Theorem C14_point_data_fails : forall A fq fa (d : gdata A) gs v cells nc k n g,
  holds d gs v cells nc -> (0 < nc)%nat -> length gs = length cells ->
  Forall (fun n => 0 < n)%nat cells ->
  nth_error cells k = Some n -> nth_error gs k = Some g -> length g = n ->
  snd (write_txt fq fa d) = Err IndexError.
Proof.
  intros A fq fa d gs v cells nc k n g H Hnc Hl Hpos En Eg Hlen.
  destruct (write_txt_run fq fa d gs v cells nc H Hl) as (nc' & _ & -> & ->). cbn [snd].
  assert (Hsafe : forall X (o : option X), (exists b, of_opt o = Ok b) \/ of_opt o = Err IndexError)
    by (intros X [x|]; simpl; eauto).
  set (gc := List.map ex_line (List.map centres gs)).
  assert (Hcoord : forall idxs dd, (exists b, (let* a := of_opt (nth_error gc dd) in
                              let* j := of_opt (nth_error idxs dd) in
                              of_opt (nth_error (flat a) j)) = Ok b) \/
       (let* a := of_opt (nth_error gc dd) in let* j := of_opt (nth_error idxs dd) in
                              of_opt (nth_error (flat a) j)) = Err IndexError).
  { intros idxs dd. destruct (nth_error gc dd); [|simpl; auto]. cbn [of_opt bind].
    destruct (nth_error idxs dd); [|simpl; auto]. cbn [of_opt bind]. apply Hsafe. }
  assert (Hall : forall X Y (f : X -> res Y) l, (forall a, (exists b, f a = Ok b) \/ f a = Err IndexError) ->
     (exists b, mapM f l = Ok b) \/ mapM f l = Err IndexError).
  { intros X Y f l Hf. induction l as [|a l IH]; [simpl; eauto|]. cbn [mapM].
    destruct (Hf a) as [[b ->]| ->]; [|simpl; auto]. cbn [bind].
    destruct IH as [[bs ->]| ->]; simpl; eauto. }
  apply mapM_err.
  - intros i _. unfold txt_line. set (idxs := unrank (basis cells) i).
    match goal with |- context [mapM ?f (seq 0 (length cells))] =>
      destruct (Hall _ _ f (seq 0 (length cells)) (Hcoord idxs)) as [[xs ->]| ->] end; [|simpl; auto].
    cbn [bind].
    match goal with |- context [mapM ?f (seq 0 (nc - 1))] =>
      destruct (Hall _ _ f (seq 0 (nc - 1)%nat) (fun c => Hsafe _ (get v (idxs ++ [c])))) as [[vs ->]| ->] end; [|simpl; auto].
    cbn [bind]. destruct nc; [simpl; auto|].
    destruct (Hsafe _ (get v (idxs ++ [nc]))) as [[w ->]| ->]; simpl; eauto.
  - set (idx := List.map (fun n => n - 1)%nat cells).
    assert (Hin : in_range cells idx).
    { unfold in_range, idx. clear - Hpos. induction cells as [|m cells IH]; simpl; constructor.
      - inversion Hpos; subst. lia.
      - apply IH. now inversion Hpos. }
    destruct (in_range_ravel _ _ Hin) as (r & Hr & Hlt). exists r. split; [apply in_seq; lia|].
    unfold txt_line. rewrite (unrank_ravel _ _ _ Hr).
    match goal with |- context [mapM ?f (seq 0 (length cells))] =>
      assert (E : mapM f (seq 0 (length cells)) = Err IndexError) end; [|now rewrite E].
    apply mapM_err; [intros; apply Hcoord|].
    exists k. assert (Hk : (k < length cells)%nat) by (apply nth_error_Some; congruence).
    split; [apply in_seq; lia|]. unfold gc. rewrite !nth_error_map, Eg. cbn [option_map of_opt bind].
    unfold idx. rewrite nth_error_map, En. cbn [option_map of_opt bind ex_line flat].
    assert (Hn : (0 < n)%nat). { rewrite Forall_forall in Hpos. apply Hpos. eapply nth_error_In; eauto. }
    destruct (nth_error (centres g) (n - 1)) eqn:Ec; [|reflexivity].
    assert (n - 1 < length (centres g))%nat by (apply nth_error_Some; congruence).
    rewrite centres_length in *. lia.
Qed.
Print Assumptions C14_point_data_fails.

(** Hence dumping the same dataset a second time always fails. *)
Theorem C14_second_dump_fails : forall A fq fa (d : gdata A) gs v cells nc,
  holds d gs v cells nc -> c_lower d <> None -> c_upper d <> None -> (0 < nc)%nat ->
  Forall2 (fun n g => length g = n + 1)%nat cells gs -> cells <> [] ->
  Forall (fun n => 0 < n)%nat cells ->
  snd (write_txt fq fa (fst (write_txt fq fa d))) = Err IndexError.
Proof.
  intros A fq fa d gs v cells nc H Hlo Hup Hnc Hg Hne Hpos.
  pose proof (Forall2_length _ _ _ Hg) as Hl.
  destruct (write_txt_run fq fa d gs v cells nc H) as (nc' & _ & _ & ->); [auto|]. cbn [fst].
  destruct cells as [|n cells]; [congruence|]. destruct gs as [|g gs]; [discriminate|].
  apply (C14_point_data_fails A fq fa _ (List.map centres (g :: gs)) v (n :: cells) nc 0 n (centres g)); auto.
  - destruct H as [Hgr Hv Hw Hs Hc Hn [b Hb]].
    constructor; auto. exists b. rewrite <- Hb. unfold get_bounds. cbn.
    destruct (c_lower d); [|congruence]. destruct (c_upper d); [reflexivity|congruence].
  - now rewrite map_length.
  - rewrite centres_length. inversion Hg; subst. lia.
Qed.
Print Assumptions C14_second_dump_fails.

Definition ex_txt : gdata nat :=
  mk_gdata (Some [ex_line [0; 2; 4]; ex_line [1; 2; 3; 4]]) (Some (mk_nda [2; 3; 1]%nat [10; 11; 12; 13; 14; 15]%nat))
           (Some [2; 3]%nat) (Some 1%nat) (Some [0; 1]) (Some [4; 4]).
Example C14_example_holds :
  holds ex_txt [[0; 2; 4]; [1; 2; 3; 4]] (mk_nda [2; 3; 1]%nat [10; 11; 12; 13; 14; 15]%nat) [2; 3]%nat 1 /\
  Forall2 (fun n g => length g = n + 1)%nat [2; 3]%nat [[0; 2; 4]; [1; 2; 3; 4]]%Q.
Proof. split; [constructor; try reflexivity; eexists; reflexivity|]. repeat constructor. Qed.
Definition ex_fq (q : Q) := (show_Z (Qnum (Qred q)) ++ "/" ++ show_Z (Zpos (Qden (Qred q))))%string.
Definition ex_fa (n : nat) := show_Z (Z.of_nat n).
Example C14_example_rows :
  option_map (fun l => nth 4 l ""%string)
    (match snd (write_txt ex_fq ex_fa ex_txt) with Ok l => Some l | Err _ => None end)
  = Some ("3/1, 5/2, 14" ++ newline)%string.
Proof. vm_compute. reflexivity. Qed.

(** ** C52: output names *)

(** [t] ends with [s]. *)
Definition ends_with (s t : string) : Prop := exists p, t = (p ++ s)%string.

Lemma split_on_app_sep c s t : split_on c (s ++ String c t) = split_on c s ++ split_on c t.
Proof.
  induction s as [|a s IH]; cbn [String.append split_on].
  - now rewrite Ascii.eqb_refl.
  - destruct (Ascii.eqb a c); rewrite IH; [reflexivity|].
    destruct (split_on c s) eqn:E; [now apply split_on_nonnil in E|reflexivity].
Qed.

Lemma last_app_nonnil {X} (l m : list X) x : m <> [] -> last (l ++ m) x = last m x.
Proof.
  intros Hm. induction l as [|a l IH]; [reflexivity|]. cbn [app]. rewrite <- IH.
  destruct (l ++ m) eqn:E; [|reflexivity]. destruct l; [now subst|discriminate].
Qed.

Lemma last_split_ends c s e : has_char c s = true -> last (split_on c s) ""%string = e -> ends_with (String c e) s.
Proof.
  revert e. induction s as [|a s IH]; intros e; simpl; [discriminate|].
  destruct (Ascii.eqb_spec a c) as [->|Hne].
  - intros _ H. destruct (has_char c s) eqn:Hs.
    + destruct (IH e eq_refl) as [p ->]; [|now exists (String c p)].
      destruct (split_on c s) eqn:E; [now apply split_on_nonnil in E|exact H].
    + rewrite split_on_none in H by auto. simpl in H. subst. now exists ""%string.
  - simpl. intros Hs H. destruct (IH e Hs) as [p ->]; [|now exists (String a p)].
    destruct (split_on c s) as [|x [|y l]] eqn:E; [now apply split_on_nonnil in E| |exact H].
    exfalso. clear - E Hs. revert x E. induction s as [|b s IH]; simpl in *; [discriminate|].
    intros x. destruct (Ascii.eqb b c); simpl in *.
    + destruct (split_on c s) eqn:E; [now apply split_on_nonnil in E|discriminate].
    + destruct (split_on c s) as [|y [|z l]] eqn:E; try discriminate; [now apply split_on_nonnil in E|].
      intros _. apply (IH Hs y eq_refl).
Qed.

Lemma last_split_appended given ext : has_char "." ext = false ->
  last (split_on "." (given ++ "." ++ ext)) ""%string = ext.
Proof.
  intros He. simpl. rewrite split_on_app_sep, last_app_nonnil by apply split_on_nonnil.
  now rewrite split_on_none.
Qed.

(** A given name gets the extension, unless it has it already; a name without
    any dot that equals the extension is kept (see the refutation). *)
Theorem C52_given_name : forall fn given ext,
  given <> ""%string -> has_char "." ext = false -> given <> ext ->
  ends_with ("." ++ ext) (out_name fn given ext) /\
  (ends_with ("." ++ ext) given -> out_name fn given ext = given) /\
  (~ ends_with ("." ++ ext) given -> out_name fn given ext = (given ++ "." ++ ext)%string).
Proof.
  intros fn given ext Hg He Hne.
  assert (E : out_name fn given ext = if String.eqb (last (split_on "." given) ""%string) ext then given
         else (given ++ "." ++ ext)%string) by (destruct given; [congruence|reflexivity]).
  rewrite E. destruct (String.eqb_spec (last (split_on "." given) ""%string) ext) as [H|H].
  - assert (Hew : ends_with ("." ++ ext) given).
    { destruct (has_char "." given) eqn:Hd; [now apply last_split_ends|].
      rewrite split_on_none in H by auto. simpl in H. congruence. }
    tauto.
  - split; [exists given; reflexivity|]. split; [|auto]. intros [p ->]. exfalso. apply H.
    simpl. rewrite split_on_app_sep, last_app_nonnil by apply split_on_nonnil. now rewrite split_on_none.
Qed.
Print Assumptions C52_given_name.

(** Applying the rule twice changes nothing more. *)
Theorem C52_given_name_stable : forall fn fn' given ext,
  given <> ""%string -> has_char "." ext = false ->
  out_name fn' (out_name fn given ext) ext = out_name fn given ext.
Proof.
  intros fn fn' given ext Hg He.
  assert (E : forall fn, out_name fn given ext = if String.eqb (last (split_on "." given) ""%string) ext then given
         else (given ++ "." ++ ext)%string) by (destruct given; [congruence|reflexivity]).
  rewrite E. destruct (String.eqb_spec (last (split_on "." given) ""%string) ext) as [H|H].
  - rewrite E. destruct (String.eqb_spec (last (split_on "." given) ""%string) ext); [reflexivity|congruence].
  - destruct given as [|a g]; [congruence|]. cbn [out_name String.append].
    
    pose proof (last_split_appended (String a g) ext He) as L. cbn [String.append] in L. rewrite L.
    now rewrite String.eqb_refl.
Qed.
Print Assumptions C52_given_name_stable.

(** The exception: a name equal to the extension stays without one. *)
Theorem C52_extension_always_added_refuted : exists fn given ext,
  given <> ""%string /\ ~ ends_with ("." ++ ext) (out_name fn given ext).
Proof.
  exists ""%string, "txt"%string, "txt"%string. split; [discriminate|]. intros [p H].
  apply (f_equal String.length) in H. cbn in H.
  assert (L : forall a b, String.length (a ++ b) = (String.length a + String.length b)%nat)
    by (intros a b; induction a; simpl; auto).
  rewrite L in H. simpl in H. lia.
Qed.
Print Assumptions C52_extension_always_added_refuted.

Lemma lstrip_head c s a r : lstrip c s = String a r -> a <> c.
Proof. induction s as [|b s IH]; simpl; [discriminate|]. destruct (Ascii.eqb_spec b c); [auto|]. congruence. Qed.

Lemma rstrip_head c s a r : rstrip c s = String a r -> exists s', s = String a s'.
Proof. destruct s as [|b s]; simpl; [discriminate|]. destruct (rstrip c s).
  - destruct (Ascii.eqb b c); [discriminate|]. intros [= -> <-]. eauto.
  - intros [= -> <-]. eauto. Qed.

Lemma rstrip_keeps c s b : b <> c -> rstrip c (s ++ String b "") = (s ++ String b "")%string.
Proof.
  intros Hb. induction s as [|a s IH]; simpl.
  - destruct (Ascii.eqb_spec b c); [congruence|reflexivity].
  - rewrite IH. destruct (s ++ String b "")%string eqn:E; [destruct s; discriminate|reflexivity].
Qed.

Lemma has_char_lstrip c e s : has_char c s = false -> has_char c (lstrip e s) = false.
Proof. induction s as [|a s IH]; simpl; auto. destruct (Ascii.eqb a e); auto.
  intros H. apply orb_false_iff in H as [_ H]. auto. Qed.
Lemma has_char_rstrip c e s : has_char c s = false -> has_char c (rstrip e s) = false.
Proof.
  induction s as [|a s IH]; simpl; auto. intros H. apply orb_false_iff in H as [H1 H2]. specialize (IH H2).
  destruct (rstrip e s).
  - destruct (Ascii.eqb a e); simpl; auto. now rewrite H1.
  - simpl in *. now rewrite H1.
Qed.
Lemma has_char_before c s : has_char c (before c s) = false.
Proof. induction s as [|a s IH]; simpl; auto. destruct (Ascii.eqb a c) eqn:E; simpl; auto. now rewrite E. Qed.
Lemma before_app c p t : has_char c p = false -> before c (p ++ String c t) = p.
Proof. induction p as [|a p IH]; simpl; [now rewrite Ascii.eqb_refl|].
  intros H. apply orb_false_iff in H as [-> H]. now rewrite IH. Qed.

(** The default name never is the name of the file the data came from. *)
Theorem C52_default_is_not_source : forall fn ext, out_name fn "" ext <> fn.
Proof.
  intros fn ext. unfold out_name. intros H. set (s := before "." fn) in *.
  assert (Hs : s = (strip "_" s ++ "_mod")%string).
  { unfold s at 1. rewrite <- H. replace (strip "_" s ++ "_mod." ++ ext)%string
      with ((strip "_" s ++ "_mod") ++ String "." ext)%string by (now rewrite str_app_assoc).
    apply before_app. rewrite has_char_app. unfold strip.
    rewrite has_char_rstrip; [reflexivity|]. apply has_char_lstrip, has_char_before. }
  destruct (strip "_" s) as [|a t] eqn:Et.
  - rewrite Hs in Et. discriminate.
  - assert (Ha : a <> "_"%char).
    { unfold strip in Et. apply rstrip_head in Et as [s' Es']. now apply lstrip_head in Es'. }
    assert (E : strip "_" s = s).
    { unfold strip. assert (El : lstrip "_" s = s).
      { rewrite Hs. simpl. destruct (Ascii.eqb_spec a "_"); [congruence|reflexivity]. }
      rewrite El. rewrite Hs.
      replace (String a t ++ "_mod")%string with ((String a t ++ "_mo") ++ String "d" "")%string
        by (now rewrite str_app_assoc).
      apply rstrip_keeps. discriminate. }
    rewrite Et in E. rewrite E in Hs.
    apply (f_equal String.length) in Hs.
    assert (L : forall a b, String.length (a ++ b) = (String.length a + String.length b)%nat)
      by (intros a0 b0; induction a0; simpl; auto).
    rewrite L in Hs. simpl in Hs. lia.
Qed.
Print Assumptions C52_default_is_not_source.

(** The default name only depends on the text before the first dot of the
    path: two files can share it, and the directory can be lost. *)
Theorem C52_default_distinct_refuted : exists fn fn' ext,
  fn <> fn' /\ out_name fn "" ext = out_name fn' "" ext.
Proof. exists "run.v1_elc_0.gkyl"%string, "run.v1_elc_1.gkyl"%string, "gkyl"%string. split; [discriminate|reflexivity]. Qed.
Print Assumptions C52_default_distinct_refuted.
Theorem C52_default_keeps_directory_refuted : exists fn ext,
  starts_with "../run/" fn = true /\ starts_with "../run/" (out_name fn "" ext) = false.
Proof. exists "../run/elc_0.gkyl"%string, "gkyl"%string. split; reflexivity. Qed.
Print Assumptions C52_default_keeps_directory_refuted.

Example C52_example : out_name "dir/sim_elc_M0_0.gkyl" "" "txt" = "dir/sim_elc_M0_0_mod.txt"%string
  /\ out_name "x" "out.v2" "gkyl" = "out.v2.gkyl"%string /\ out_name "x" "out.gkyl" "gkyl" = "out.gkyl"%string.
Proof. repeat split. Qed.
