(** * C45, C46: enumerations and block selections. *)
From Coq Require Import String Ascii ZArith List Bool Reals Sorted Lia.
From Verif Require Import Prelude PreludeFacts DataSpace_Spec DataSpace_Proofs Gk_Model Gk_Spec.
Import ListNotations.
Open Scope string_scope.
Open Scope nat_scope.

(** ** C45 *)

Lemma index_from_ok enum key i j :
  index_from i key enum = Ok j ->
  (i <= j < i + Z.of_nat (length enum))%Z /\ nth_error enum (Z.to_nat (j - i)) = Some key /\
  forall k, k < Z.to_nat (j - i) -> nth_error enum k <> Some key.
Proof.
  revert i. induction enum as [|k enum IH]; intros i H; simpl in H; [discriminate|].
  destruct (String.eqb_spec k key) as [E|E].
  - injection H as <-. subst. rewrite Z.sub_diag. cbn [length]. split; [lia|]. split; [reflexivity|]. intros k0 Hk. simpl in Hk. lia.
  - destruct (IH _ H) as (B & N & F). cbn [length]. split; [lia|].
    replace (Z.to_nat (j - i)) with (S (Z.to_nat (j - (i + 1)))) by lia. split; [exact N|].
    intros [|m] Hm; [simpl; congruence|]. apply F. lia.
Qed.

Lemma index_from_none enum key i : ~ In key enum -> index_from i key enum = Err ValueError.
Proof.
  revert i. induction enum as [|k enum IH]; intros i H; simpl; [reflexivity|].
  destruct (String.eqb_spec k key) as [E|E]; [exfalso; apply H; left; exact E|]. apply IH. intros C. apply H. right; exact C.
Qed.

Lemma index_from_some enum key i : In key enum -> exists j, index_from i key enum = Ok j.
Proof.
  revert i. induction enum as [|k enum IH]; intros i H; simpl; [destruct H|].
  destruct (String.eqb_spec k key) as [E|E]; [eauto|]. apply IH. destruct H; [congruence|auto].
Qed.

(** The name of the number of a name is the name. *)
Theorem C45_name_of_number enum key i :
  enum_key_to_idx enum key = Ok i -> enum_idx_to_key enum i = Ok key.
Proof.
  intros H. apply index_from_ok in H. destruct H as (B & N & _).
  unfold enum_idx_to_key, norm_index. destruct (Z.ltb_spec i 0); [lia|].
  destruct (Z.leb_spec 0 i); [|lia]. destruct (Z.ltb_spec i (Z.of_nat (length enum))); [|lia]. cbn [andb bind].
  rewrite Z.sub_0_r in N. now rewrite N.
Qed.

(** The number of the name of a number is the number, if no name is
    repeated. *)
Theorem C45_number_of_name enum key i :
  NoDup enum -> (0 <= i)%Z -> enum_idx_to_key enum i = Ok key -> enum_key_to_idx enum key = Ok i.
Proof.
  intros D P. unfold enum_idx_to_key. destruct (norm_index (length enum) i) as [p|] eqn:E; [|discriminate]. cbn [bind].
  destruct (nth_error enum p) as [k|] eqn:N; [|discriminate]. intros [= ->].
  assert (p = Z.to_nat i) as ->.
  { unfold norm_index in E. destruct (Z.ltb_spec i 0); [lia|]. destruct ((0 <=? i) && (i <? Z.of_nat (length enum)))%Z; congruence. }
  assert (L : Z.to_nat i < length enum) by (apply nth_error_Some; congruence).
  destruct (index_from_some enum key 0 (nth_error_In _ _ N)) as [j Hj]. unfold enum_key_to_idx. rewrite Hj.
  destruct (index_from_ok _ _ _ _ Hj) as (B & N' & _). rewrite Z.sub_0_r in N'. f_equal.
  assert (Z.to_nat j = Z.to_nat i); [|lia].
  eapply (proj1 (NoDup_nth_error enum) D); [lia|congruence].
Qed.

(** Every number in range has a name and every other positive number none;
    every member has a number, and every other name none. *)
Theorem C45_domain enum :
  (forall i, (0 <= i < Z.of_nat (length enum))%Z -> exists key, enum_idx_to_key enum i = Ok key /\ In key enum) /\
  (forall i, (i < - Z.of_nat (length enum) \/ Z.of_nat (length enum) <= i)%Z -> enum_idx_to_key enum i = Err IndexError) /\
  (forall key, In key enum -> exists i, enum_key_to_idx enum key = Ok i) /\
  (forall key, ~ In key enum -> enum_key_to_idx enum key = Err ValueError).
Proof.
  split; [|split; [|split]].
  - intros i H. unfold enum_idx_to_key, norm_index. destruct (Z.ltb_spec i 0); [lia|].
    destruct (Z.leb_spec 0 i); [|lia]. destruct (Z.ltb_spec i (Z.of_nat (length enum))); [|lia]. cbn [andb bind].
    destruct (nth_error enum (Z.to_nat i)) as [k|] eqn:N.
    + exists k. split; [reflexivity|]. eapply nth_error_In; eauto.
    + apply nth_error_None in N. lia.
  - intros i H. unfold enum_idx_to_key, norm_index. cbv zeta.
    destruct (Z.ltb_spec i 0); destruct (Z.leb_spec 0 (if (i <? 0)%Z then i + Z.of_nat (length enum) else i));
      try (destruct (Z.ltb_spec i 0); lia); try reflexivity.
    + destruct (Z.leb_spec 0 (i + Z.of_nat (length enum))); [lia|reflexivity].
    + destruct (Z.leb_spec 0 i); [|reflexivity]. destruct (Z.ltb_spec i (Z.of_nat (length enum))); [lia|reflexivity].
  - intros key H. now apply index_from_some.
  - intros key H. now apply index_from_none.
Qed.

(** The stored enumeration has no repeated names, and its numbers are those of
    the Gkeyll source, counting from zero. *)
Theorem C45_geometry :
  NoDup gkyl_geometry_id /\
  List.map (enum_key_to_idx gkyl_geometry_id)
    ["GKYL_GEOMETRY_NONE"; "GKYL_GEOMETRY_TOKAMAK"; "GKYL_GEOMETRY_MIRROR"; "GKYL_GEOMETRY_MAPC2P"; "GKYL_GEOMETRY_FROMFILE"]
  = [Ok 0; Ok 1; Ok 2; Ok 3; Ok 4]%Z.
Proof.
  split; [|reflexivity]. unfold gkyl_geometry_id.
  repeat (constructor; [simpl; intuition discriminate|]). constructor.
Qed.

(** A negative number names the member counted from the end, so it has a name
    whose number it is not. *)
Theorem C45_negative_refuted :
  exists i key, enum_idx_to_key gkyl_geometry_id i = Ok key /\ enum_key_to_idx gkyl_geometry_id key <> Ok i.
Proof. exists (-1)%Z, "GKYL_GEOMETRY_FROMFILE". split; [reflexivity|discriminate]. Qed.

(** A file counts as using mapped Cartesian coordinates exactly if it says so
    or says nothing. *)
Theorem C45_mapc2p g :
  is_geo_mapc2p g = Ok true <-> (g = None \/ exists i, g = Some i /\ enum_idx_to_key gkyl_geometry_id i = Ok "GKYL_GEOMETRY_MAPC2P" /\ (0 <= i)%Z).
Proof.
  destruct g as [g|]; [|simpl; tauto]. change (is_geo_mapc2p (Some g)) with (Ok (3 =? g)%Z). split.
  - intros [= H]. right. exists g. change ((3 =? g)%Z = true) in H. apply Z.eqb_eq in H. subst. split; [reflexivity|]. split; [reflexivity|lia].
  - intros [|(i & [= <-] & H & P)]; [discriminate|]. f_equal.
    apply C45_number_of_name in H; [|apply C45_geometry|exact P].
    vm_compute in H. injection H as <-. reflexivity.
Qed.

Example C45_ex : enum_idx_to_key gkyl_geometry_id 1 = Ok "GKYL_GEOMETRY_TOKAMAK" /\ is_geo_mapc2p (Some 1%Z) = Ok false /\
  enum_key_to_idx gkyl_geometry_id "GKYL_GEOMETRY_SLAB" = Err ValueError.
Proof. now vm_compute. Qed.

(** ** C46 *)

Lemma no_comma_show z : has_char "," (show_Z z) = false.
Proof. apply show_Z_has; [unfold digit_char; vm_compute; intuition discriminate|discriminate]. Qed.
Lemma no_colon_show z : has_char ":" (show_Z z) = false.
Proof. apply show_Z_has; [unfold digit_char; vm_compute; intuition discriminate|discriminate]. Qed.
Lemma no_comma_opt a : has_char "," (show_opt a) = false.
Proof. destruct a; [apply no_comma_show|reflexivity]. Qed.
Lemma no_colon_opt a : has_char ":" (show_opt a) = false.
Proof. destruct a; [apply no_colon_show|reflexivity]. Qed.

Lemma slice_part_opt a : slice_part (show_opt a) = Ok a.
Proof.
  destruct a as [z|]; [|reflexivity]. unfold slice_part, show_opt.
  destruct (String.eqb_spec (show_Z z) ""); [now apply show_Z_nonempty in e|]. now rewrite py_int_show_Z.
Qed.

Lemma comma_list zs : 2 <= length zs -> has_char "," (join "," (List.map show_Z zs)) = true.
Proof.
  destruct zs as [|z [|z' zs]]; simpl length; try lia. intros _. cbn [List.map].
  change (join "," (show_Z z :: show_Z z' :: List.map show_Z zs)) with (show_Z z ++ String "," (join "," (show_Z z' :: List.map show_Z zs))).
  rewrite has_char_app. cbn [has_char]. rewrite Ascii.eqb_refl. cbn. apply orb_true_r.
Qed.

Lemma split_zs zs : zs <> [] -> split_on "," (join "," (List.map show_Z zs)) = List.map show_Z zs.
Proof.
  intros H. apply (split_join ","); [destruct zs; [congruence|discriminate]|].
  apply Forall_forall. intros s Hs. apply in_map_iff in Hs. destruct Hs as (z & <- & _). apply no_comma_show.
Qed.

Lemma mapM_show zs : mapM py_int (List.map show_Z zs) = Ok zs.
Proof. induction zs as [|z zs IH]; simpl; [reflexivity|]. now rewrite py_int_show_Z, IH. Qed.

Lemma neq_by_char c s t : has_char c s = true -> has_char c t = false -> String.eqb s t = false.
Proof. intros A B. destruct (String.eqb_spec s t); [congruence|reflexivity]. Qed.

Lemma colon_slice a b rest : has_char ":" (show_opt a ++ ":" ++ show_opt b ++ rest) = true.
Proof. rewrite has_char_app. simpl. apply orb_true_r. Qed.

Lemma blocks_slice a b ps : is_slice max_blocks a b 1 ps -> blocks_of_slice (show_opt a ++ ":" ++ show_opt b) = Ok (List.map Z.of_nat ps).
Proof.
  intros H. unfold blocks_of_slice, parse_slice_string.
  change (":" ++ show_opt b) with (String ":" (show_opt b)).
  rewrite split_on_app by apply no_colon_opt. rewrite split_on_none by apply no_colon_opt.
  cbn [mapM]. rewrite !slice_part_opt. cbn [bind].
  rewrite (slice_list_is max_num_blocks a b None ps); [reflexivity|discriminate|exact H].
Qed.

Lemma blocks_step a b c ps : c <> 0%Z -> is_slice max_blocks a b c ps ->
  blocks_of_slice (show_opt a ++ ":" ++ show_opt b ++ ":" ++ show_Z c) = Ok (List.map Z.of_nat ps).
Proof.
  intros Hc H. unfold blocks_of_slice, parse_slice_string.
  change (":" ++ show_opt b ++ ":" ++ show_Z c) with (String ":" (show_opt b ++ String ":" (show_Z c))).
  rewrite split_on_app by apply no_colon_opt. rewrite split_on_app by apply no_colon_opt.
  rewrite split_on_none by apply no_colon_show.
  change (show_Z c) with (show_opt (Some c)).
  cbn [mapM]. rewrite !slice_part_opt. cbn [bind].
  rewrite (slice_list_is max_num_blocks a b (Some c) ps); [reflexivity|congruence|exact H].
Qed.

(** One part is the stop, two are start and stop, three are start, stop and step. *)
Theorem C46_slice_text a b c :
  parse_slice_string (show_opt a) = Ok (None, a, None) /\
  parse_slice_string (show_opt a ++ ":" ++ show_opt b) = Ok (a, b, None) /\
  parse_slice_string (show_opt a ++ ":" ++ show_opt b ++ ":" ++ show_opt c) = Ok (a, b, c).
Proof.
  unfold parse_slice_string. split; [|split].
  - rewrite split_on_none by apply no_colon_opt. cbn [mapM]. rewrite slice_part_opt. reflexivity.
  - change (":" ++ show_opt b) with (String ":" (show_opt b)).
    rewrite split_on_app by apply no_colon_opt. rewrite split_on_none by apply no_colon_opt.
    cbn [mapM]. rewrite !slice_part_opt. reflexivity.
  - change (":" ++ show_opt b ++ ":" ++ show_opt c) with (String ":" (show_opt b ++ String ":" (show_opt c))).
    rewrite split_on_app by apply no_colon_opt. rewrite split_on_app by apply no_colon_opt.
    rewrite split_on_none by apply no_colon_opt. cbn [mapM]. rewrite !slice_part_opt. reflexivity.
Qed.

Example C46_slice_text_ex : parse_slice_string "-3:12:4" = Ok (Some (-3)%Z, Some 12%Z, Some 4%Z).
Proof. reflexivity. Qed.

(** "-10" is the single block, "-1" all blocks found. *)
Theorem C46_special glob file :
  get_block_indices glob "-10" file = Ok [0%Z] /\
  get_block_indices glob "-1" file = Ok (List.map Z.of_nat (seq 0 (glob file))).
Proof. split; reflexivity. Qed.

(** A comma list yields those blocks in that order. *)
Theorem C46_list glob file zs :
  2 <= length zs -> get_block_indices glob (join "," (List.map show_Z zs)) file = Ok zs.
Proof.
  intros H. unfold get_block_indices. pose proof (comma_list zs H) as C.
  rewrite !(neq_by_char "," _ _ C) by reflexivity. rewrite C, split_zs by (destruct zs; simpl in H; [lia|discriminate]).
  apply mapM_show.
Qed.

(** One block number. *)
Theorem C46_one glob file z :
  z <> (-10)%Z -> z <> (-1)%Z -> get_block_indices glob (show_Z z) file = Ok [z].
Proof.
  intros A B. unfold get_block_indices.
  destruct (String.eqb_spec (show_Z z) "-10") as [E|_].
  { exfalso. apply A. pose proof (py_int_show_Z z) as P. rewrite E in P. vm_compute in P. congruence. }
  destruct (String.eqb_spec (show_Z z) "-1") as [E|_].
  { exfalso. apply B. pose proof (py_int_show_Z z) as P. rewrite E in P. vm_compute in P. congruence. }
  now rewrite no_comma_show, no_colon_show, py_int_show_Z.
Qed.

(** A slice yields the numbers Python's slice takes from 0..9999, in order. *)
Theorem C46_slice glob file a b ps :
  is_slice max_blocks a b 1 ps ->
  get_block_indices glob (show_opt a ++ ":" ++ show_opt b) file = Ok (List.map Z.of_nat ps).
Proof.
  intros H. unfold get_block_indices.
  assert (C : has_char ":" (show_opt a ++ ":" ++ show_opt b) = true) by (rewrite has_char_app; simpl; apply orb_true_r).
  rewrite !(neq_by_char ":" _ _ C) by reflexivity.
  assert (M : has_char "," (show_opt a ++ ":" ++ show_opt b) = false).
  { rewrite has_char_app, no_comma_opt. cbn [String.append has_char]. now rewrite no_comma_opt. }
  rewrite M, C. now apply blocks_slice.
Qed.

Theorem C46_step glob file a b c ps :
  c <> 0%Z -> is_slice max_blocks a b c ps ->
  get_block_indices glob (show_opt a ++ ":" ++ show_opt b ++ ":" ++ show_Z c) file = Ok (List.map Z.of_nat ps).
Proof.
  intros Hc H. unfold get_block_indices.
  assert (C : has_char ":" (show_opt a ++ ":" ++ show_opt b ++ ":" ++ show_Z c) = true) by apply (colon_slice a b (":" ++ show_Z c)).
  rewrite !(neq_by_char ":" _ _ C) by reflexivity.
  assert (M : has_char "," (show_opt a ++ ":" ++ show_opt b ++ ":" ++ show_Z c) = false).
  { rewrite has_char_app, no_comma_opt. cbn [String.append has_char]. rewrite has_char_app, no_comma_opt. cbn [String.append has_char]. now rewrite no_comma_show. }
  rewrite M, C. now apply blocks_step.
Qed.

(** Such a slice always exists, its blocks lie in 0..9999, and a step of zero
    is refused. *)
Theorem C46_total a b c :
  c <> 0%Z -> exists ps, is_slice max_blocks a b c ps /\ (forall p, In p ps -> (Z.of_nat p < 10000)%Z) /\
    forall glob file, get_block_indices glob (show_opt a ++ ":" ++ show_opt b ++ ":" ++ show_Z c) file = Ok (List.map Z.of_nat ps).
Proof.
  intros Hc. destruct (slice_list_ok max_blocks a b (Some c)) as [ps E]; [congruence|]. apply slice_list_spec in E.
  exists ps. split; [exact E|]. split; [|intros; now apply C46_step].
  intros p Hp. apply (proj1 E) in Hp. destruct Hp as [Hp _].
  unfold max_blocks in Hp. lia.
Qed.

Theorem C46_zero_step glob file a b :
  get_block_indices glob (show_opt a ++ ":" ++ show_opt b ++ ":0") file = Err ValueError.
Proof.
  unfold get_block_indices.
  assert (C : has_char ":" (show_opt a ++ ":" ++ show_opt b ++ ":0") = true) by apply (colon_slice a b ":0").
  rewrite !(neq_by_char ":" _ _ C) by reflexivity.
  assert (M : has_char "," (show_opt a ++ ":" ++ show_opt b ++ ":0") = false).
  { rewrite has_char_app, no_comma_opt. cbn [String.append has_char]. rewrite has_char_app, no_comma_opt. reflexivity. }
  rewrite M, C. unfold blocks_of_slice, parse_slice_string.
  change (":" ++ show_opt b ++ ":0") with (String ":" (show_opt b ++ String ":" (show_opt (Some 0%Z)))).
  rewrite split_on_app by apply no_colon_opt. rewrite split_on_app by apply no_colon_opt.
  rewrite split_on_none by apply no_colon_opt.
  cbn [mapM]. rewrite !slice_part_opt. reflexivity.
Qed.

(** Any other text is refused. *)
Theorem C46_refused glob file s e :
  has_char "," s = false -> has_char ":" s = false -> py_int s = Err e ->
  get_block_indices glob s file = Err NameError.
Proof.
  intros A B C. unfold get_block_indices.
  destruct (String.eqb_spec s "-10") as [->|_]; [discriminate|]. destruct (String.eqb_spec s "-1") as [->|_]; [discriminate|].
  rewrite A, B, C. enough (e = ValueError) as -> by reflexivity.
  unfold py_int in C. destruct s as [|[[] [] [] [] [] [] [] []] s']; try (destruct (digits_val _); congruence); congruence.
Qed.

(** More than two colons are refused as well (with another error), unless a
    part is no number. *)
Theorem C46_four glob file a b c d :
  get_block_indices glob (show_opt a ++ ":" ++ show_opt b ++ ":" ++ show_opt c ++ ":" ++ show_opt d) file = Err TypeError.
Proof.
  unfold get_block_indices. set (s := show_opt a ++ _).
  assert (C : has_char ":" s = true) by (unfold s; rewrite has_char_app; simpl; apply orb_true_r).
  rewrite !(neq_by_char ":" _ _ C) by reflexivity.
  assert (M : has_char "," s = false).
  { unfold s. repeat (rewrite has_char_app, no_comma_opt; cbn [String.append has_char]). now rewrite no_comma_opt. }
  rewrite M, C. unfold blocks_of_slice, parse_slice_string, s.
  change (":" ++ show_opt b ++ ":" ++ show_opt c ++ ":" ++ show_opt d) with (String ":" (show_opt b ++ String ":" (show_opt c ++ String ":" (show_opt d)))).
  do 3 rewrite split_on_app by apply no_colon_opt. rewrite split_on_none by apply no_colon_opt.
  cbn [mapM]. rewrite !slice_part_opt. reflexivity.
Qed.

(** Block -1 cannot be asked for: it means all blocks. *)
Theorem C46_minus_one_refuted :
  exists z glob file, get_block_indices glob (show_Z z) file <> Ok [z].
Proof. exists (-1)%Z, (fun _ => 3), "s_b*-nodes.gkyl". discriminate. Qed.

Example C46_ex :
  get_block_indices (fun _ => 3) "4,2,9" "" = Ok [4; 2; 9]%Z /\
  get_block_indices (fun _ => 3) "10:2:-3" "" = Ok [10; 7; 4]%Z /\
  get_block_indices (fun _ => 3) "-3:" "" = Ok [9997; 9998; 9999]%Z /\
  get_block_indices (fun _ => 3) "x" "" = Err NameError /\
  get_block_indices (fun _ => 3) "1:2:3:4" "" = Err TypeError /\
  get_block_indices (fun _ => 3) "1:2:0" "" = Err ValueError.
Proof. now vm_compute. Qed.

(** ** The balance commands only use the number of blocks *)

Definition with_blocks (o : opts) (s : string) : opts :=
  Opts (o_name o) (o_species o) (o_path o) (o_rel o) s (o_fdot_file o) (o_source_file o) (o_bflux_file o)
       (o_f_file o) (o_field_dot_file o) (o_field_file o) (o_dt_file o).

Lemma num_blocks_list fs o first zs :
  2 <= length zs -> num_blocks fs (with_blocks o (join "," (List.map show_Z zs))) first = Ok (length zs).
Proof.
  intros H. unfold num_blocks. cbn [with_blocks o_multib]. pose proof (comma_list zs H) as C.
  rewrite !(neq_by_char "," _ _ C) by reflexivity. rewrite C, split_zs by (destruct zs; simpl in H; [lia|discriminate]).
  now rewrite mapM_show.
Qed.

Lemma prefix_multi o s : String.eqb s "-10" = false -> prefix_of (with_blocks o s) = o_path o ++ "/" ++ o_name o ++ "_b*-".
Proof. intros H. unfold prefix_of. cbn. now rewrite H. Qed.

Lemma read_bflux_blocks fs o s pre bs : read_bflux fs (with_blocks o s) pre bs = read_bflux fs o pre bs.
Proof. induction bs as [|b bs IH]; cbn [read_bflux]; [reflexivity|]. rewrite IH. reflexivity. Qed.

Lemma read_part_blocks fs o s c pre : read_part fs (with_blocks o s) c pre = read_part fs o c pre.
Proof. unfold read_part. rewrite read_bflux_blocks. reflexivity. Qed.

Lemma block_prefix_blocks o s s' b : String.eqb s "-10" = false -> String.eqb s' "-10" = false ->
  block_prefix (with_blocks o s) b = block_prefix (with_blocks o s') b.
Proof. intros A B. unfold block_prefix. now rewrite !prefix_multi. Qed.

Lemma particle_loop_blocks fs o s s' : String.eqb s "-10" = false -> String.eqb s' "-10" = false ->
  forall bs x, particle_loop fs (with_blocks o s) bs x = particle_loop fs (with_blocks o s') bs x.
Proof.
  intros A B. induction bs as [|b bs IH]; intros x; cbn [particle_loop]; [reflexivity|].
  rewrite !read_part_blocks, (block_prefix_blocks o s s') by assumption. cbn [with_blocks o_species].
  destruct (read_part _ _ _ _); [|reflexivity]. cbn [bind].
  destruct (accumulate_or_assign _ _); [|reflexivity]. cbn [bind].
  destruct (accumulate_or_assign _ _); [|reflexivity]. cbn [bind].
  destruct (accumulate_or_assign _ _); [|reflexivity]. cbn [bind]. apply IH.
Qed.

Lemma distf_loop_blocks fs o s c : forall pres x, distf_loop fs (with_blocks o s) c pres x = distf_loop fs o c pres x.
Proof.
  induction pres as [|p pres IH]; intros x; cbn [distf_loop]; [reflexivity|]. cbn [with_blocks o_f_file].
  destruct (file_or _ _); [|reflexivity]. cbn [bind]. destruct (f_moms fs _); [|reflexivity].
  destruct (column _ _); [|reflexivity]. cbn [bind]. destruct (accumulate_or_assign _ _); [|reflexivity]. apply IH.
Qed.

(** Two lists of the same number of blocks give the same result, so a list of
    n blocks always reads the files of blocks 0..n-1. *)
Theorem C46_balance_first_blocks fs o zs ws :
  2 <= length zs -> length zs = length ws ->
  gk_particle_balance fs (with_blocks o (join "," (List.map show_Z zs))) =
  gk_particle_balance fs (with_blocks o (join "," (List.map show_Z ws))).
Proof.
  intros H L. assert (H' : 2 <= length ws) by lia.
  pose proof (neq_by_char "," _ "-10" (comma_list zs H) eq_refl) as A.
  pose proof (neq_by_char "," _ "-10" (comma_list ws H') eq_refl) as B.
  unfold gk_particle_balance. rewrite !num_blocks_list by assumption. cbn [bind]. rewrite <- L.
  rewrite (particle_loop_blocks fs o _ _ A B). cbn [with_blocks o_rel].
  destruct (particle_loop _ _ _ _) as [s|]; [|reflexivity]. cbn [bind].
  destruct (o_rel o); cbn [negb]; [|reflexivity].
  unfold dt_name. rewrite !prefix_multi by assumption.
  rewrite !distf_loop_blocks.
  assert (E : List.map (fun b => block_prefix (with_blocks o (join "," (List.map show_Z zs))) b ++ o_species (with_blocks o (join "," (List.map show_Z zs)))) (seq 0 (length zs))
            = List.map (fun b => block_prefix (with_blocks o (join "," (List.map show_Z ws))) b ++ o_species (with_blocks o (join "," (List.map show_Z ws)))) (seq 0 (length zs))).
  { apply map_ext. intros b. rewrite (block_prefix_blocks o _ _ b A B). reflexivity. }
  rewrite E. reflexivity.
Qed.

(** The balance commands refuse a single block number. *)
Theorem C46_balance_single fs o z :
  z <> (-10)%Z -> z <> (-1)%Z -> gk_particle_balance fs (with_blocks o (show_Z z)) = Err NameError.
Proof.
  intros A B. unfold gk_particle_balance, num_blocks. cbn [with_blocks o_multib o_species].
  destruct (String.eqb_spec (show_Z z) "-10") as [E|_].
  { exfalso. apply A. pose proof (py_int_show_Z z) as P. rewrite E in P. vm_compute in P. congruence. }
  destruct (String.eqb_spec (show_Z z) "-1") as [E|_].
  { exfalso. apply B. pose proof (py_int_show_Z z) as P. rewrite E in P. vm_compute in P. congruence. }
  now rewrite no_comma_show, no_colon_show.
Qed.

Definition ex_opts (mb : string) : opts :=
  Opts "sim" "ion" "." false mb [] [] (fun _ => []) [] [] [] None.

(** Blocks 3 and 5 are asked for and their files do not exist, but the command
    succeeds because it reads those of blocks 0 and 1. *)
Theorem C46_balance_refuted :
  exists fs o, o_multib o = "3,5" /\
    f_moms fs (fdot_of o 3 (o_species o)) = None /\ f_moms fs (fdot_of o 5 (o_species o)) = None /\
    exists outs, gk_particle_balance fs o = Ok outs.
Proof.
  exists (Files (fun s => if String.eqb s "./sim_b0-ion_fdot_integrated_moms.gkyl" || String.eqb s "./sim_b1-ion_fdot_integrated_moms.gkyl"
                          then Some (Hist [0; 1]%R [[1; 2]; [3; 4]]%R) else None) (fun _ => None) (fun _ => 0)), (ex_opts "3,5").
  split; [reflexivity|]. split; [reflexivity|]. split; [reflexivity|].
  eexists. vm_compute. reflexivity.
Qed.

Print Assumptions C45_name_of_number.
Print Assumptions C45_number_of_name.
Print Assumptions C45_mapc2p.
Print Assumptions C46_list.
Print Assumptions C46_step.
Print Assumptions C46_total.
Print Assumptions C46_balance_first_blocks.
Print Assumptions C46_balance_refuted.
Print Assumptions C46_slice_text.
