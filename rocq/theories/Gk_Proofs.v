(** * Lemmas on the balance loops. *)
From Coq Require Import String Ascii ZArith List Bool Reals Lia Lra.
From Verif Require Import Prelude PreludeFacts DataSpace_Spec DataSpace_Proofs Gk_Model Gk_Spec Gk_Props.
Import ListNotations.
Open Scope string_scope.
Open Scope nat_scope.

(** ** Arrays as tabulated functions *)

Definition vec (T : nat) (f : nat -> R) : list R := List.map f (seq 0 T).

Lemma vec_length T f : length (vec T f) = T.
Proof. unfold vec. now rewrite map_length, seq_length. Qed.

Lemma vec_nth T f t : t < T -> nth t (vec T f) 0%R = f t.
Proof.
  intros H. unfold vec. rewrite (nth_indep _ 0%R (f 0)) by (rewrite map_length, seq_length; lia).
  now rewrite map_nth, seq_nth.
Qed.

Lemma vec_ext T f g : (forall t, t < T -> f t = g t) -> vec T f = vec T g.
Proof. intros H. apply map_ext_in. intros t Ht. apply in_seq in Ht. apply H. lia. Qed.

Lemma vec_holds T f : holds T f (vec T f).
Proof. split; [apply vec_length|]. intros. now apply vec_nth. Qed.

Lemma list_vec l : l = vec (length l) (fun t => nth t l 0%R).
Proof.
  apply nth_ext with 0%R 0%R; [now rewrite vec_length|]. intros n H. now rewrite vec_nth.
Qed.

Lemma vec_map T f h : List.map h (vec T f) = vec T (fun t => h (f t)).
Proof. unfold vec. now rewrite map_map. Qed.

Lemma map2_map {A B C D} (op : B -> C -> D) (f : A -> B) (g : A -> C) l :
  map2 op (List.map f l) (List.map g l) = List.map (fun x => op (f x) (g x)) l.
Proof. induction l; simpl; congruence. Qed.

Lemma vec_map2 op T f g : map2 op (vec T f) (vec T g) = vec T (fun t => op (f t) (g t)).
Proof. apply map2_map. Qed.

Lemma iadd_vec T f g : iadd (vec T f) (vec T g) = Ok (vec T (fun t => (f t + g t)%R)).
Proof. unfold iadd. rewrite !vec_length, Nat.eqb_refl. now rewrite vec_map2. Qed.

Lemma bcast_vec op T f g : bcast op (vec T f) (vec T g) = Ok (vec T (fun t => op (f t) (g t))).
Proof. unfold bcast. rewrite !vec_length, Nat.eqb_refl. now rewrite vec_map2. Qed.

Lemma vec_tl T f : tl (vec (S T) f) = vec T (fun t => f (S t)).
Proof. unfold vec. cbn [seq List.map tl]. rewrite <- seq_shift, map_map. reflexivity. Qed.

(** ** Files *)

Lemma mapM_nth_col c rows :
  (forall row, In row rows -> c < length row /\ length row <> 1) ->
  mapM (fun row => if length row =? 1 then Err IndexError
                   else match nth_error row c with Some x => Ok x | None => Err IndexError end) rows
  = Ok (List.map (fun row : list R => nth c row 0%R) rows).
Proof.
  induction rows as [|row rows IH]; intros H; cbn [mapM List.map]; [reflexivity|].
  destruct (H row) as [L N]; [now left|].
  destruct (Nat.eqb_spec (length row) 1); [contradiction|].
  rewrite (nth_error_nth' row 0%R L). cbn [bind]. rewrite IH; [reflexivity|]. intros r Hr. apply H. now right.
Qed.

Lemma column_good T c h : 2 <= T -> good T c h ->
  column c h = Ok (vec T (fun t => nth c (nth t (h_rows h) []) 0%R)).
Proof.
  intros HT (_ & L & G). unfold column. destruct (h_rows h) as [|r [|r' rows]] eqn:E; try (simpl in L; lia).
  rewrite (mapM_nth_col c _ G). f_equal. rewrite <- L.
  apply nth_ext with 0%R 0%R; [now rewrite vec_length, map_length|].
  intros n Hn. rewrite map_length in Hn. rewrite vec_nth by exact Hn.
  rewrite (nth_indep _ 0%R (nth c (@nil R) 0%R)) by (now rewrite map_length).
  now rewrite (map_nth (fun row => nth c row 0%R)).
Qed.

Lemma moment_present fs c name h t : f_moms fs name = Some h -> moment fs c name t = nth c (nth t (h_rows h) []) 0%R.
Proof. intros H. unfold moment. now rewrite H. Qed.

(** ** Names *)

Lemma replace_none a rep s : has_char a s = false -> replace (String a "") rep s = s.
Proof.
  unfold replace. induction s as [|c s IH]; [reflexivity|]. cbn [has_char]. intros H.
  apply orb_false_iff in H. destruct H as [A B].
  cbn [replace_from starts_with]. rewrite Ascii.eqb_sym, A. cbn [andb]. now rewrite IH.
Qed.

Lemma replace_app a rep s t : has_char a s = false -> replace (String a "") rep (s ++ t) = s ++ replace (String a "") rep t.
Proof.
  unfold replace. induction s as [|c s IH]; [reflexivity|]. cbn [has_char]. intros H.
  apply orb_false_iff in H. destruct H as [A B].
  cbn [String.append replace_from starts_with]. rewrite Ascii.eqb_sym, A. cbn [andb]. now rewrite IH.
Qed.

Lemma append_assoc s t u : (s ++ t) ++ u = s ++ (t ++ u).
Proof. induction s; simpl; congruence. Qed.

Lemma block_prefix_plain o b rest : plain o -> block_prefix o b ++ rest = file_name o b rest.
Proof.
  intros (P & N & _). unfold block_prefix, prefix_of, file_name.
  rewrite replace_app by exact P. rewrite append_assoc. f_equal.
  assert (Q : forall x, replace "*" (show_Z (Z.of_nat b)) ("/" ++ o_name o ++ x) = "/" ++ o_name o ++ replace "*" (show_Z (Z.of_nat b)) x).
  { intros x. rewrite (replace_app "*" _ "/" _) by reflexivity. f_equal. now apply replace_app. }
  rewrite Q. rewrite append_assoc. f_equal. rewrite append_assoc. f_equal.
  destruct (String.eqb (o_multib o) "-10"); [reflexivity|].
  change ("_b*-") with ("_b" ++ "*-"). rewrite (replace_app "*" _ "_b") by reflexivity.
  replace (replace "*" (show_Z (Z.of_nat b)) "*-") with (show_Z (Z.of_nat b) ++ "-"); [now rewrite !append_assoc|].
  unfold replace. cbn [replace_from starts_with]. rewrite Ascii.eqb_refl. cbn [andb String.length Nat.sub replace_from starts_with].
  reflexivity.
Qed.

(** ** Sums *)

Lemma total_cons {A} (f : A -> R) a l : total f (a :: l) = (f a + total f l)%R.
Proof. reflexivity. Qed.

Lemma total_ext {A} (f g : A -> R) l : (forall a, In a l -> f a = g a) -> total f l = total g l.
Proof.
  induction l as [|a l IH]; intros H; [reflexivity|]. rewrite !total_cons, (H a), IH; auto; [|now left]. intros b Hb. apply H. now right.
Qed.

Lemma total_zero {A} (l : list A) : total (fun _ => 0%R) l = 0%R.
Proof. induction l; [reflexivity|]. rewrite total_cons, IHl. lra. Qed.

(** An optional array holding a function; nothing counts as zero. *)
Definition opt_holds (T : nat) (f : nat -> R) (x : option (list R)) : Prop :=
  match x with None => forall t, t < T -> f t = 0%R | Some l => l = vec T f end.

Lemma accumulate_vec T f g x : opt_holds T f x ->
  accumulate_or_assign x (vec T g) = Ok (Some (vec T (fun t => (f t + g t)%R))).
Proof.
  destruct x as [l|]; cbn [accumulate_or_assign opt_holds].
  - intros ->. rewrite iadd_vec. reflexivity.
  - intros H. do 2 f_equal. apply vec_ext. intros t Ht. rewrite H by exact Ht. lra.
Qed.

(** ** One species in one block *)

Lemma boundaries_six : boundaries = six.
Proof. reflexivity. Qed.

Definition flux_files (fs : files) (pre : string) (bs : list string) : list hist :=
  flat_map (fun b => match f_moms fs (pre ++ "_bflux_" ++ b ++ "_integrated_HamiltonianMoments.gkyl") with Some h => [h] | None => [] end) bs.

Lemma read_bflux_plain fs o pre bs : (forall b, o_bflux_file o b = []) ->
  read_bflux fs o pre bs = Ok (flux_files fs pre bs).
Proof.
  intros H. induction bs as [|b bs IH]; cbn [read_bflux]; [reflexivity|].
  rewrite H. cbn [file_or bind]. rewrite IH. cbn [bind flux_files flat_map].
  fold (flux_files fs pre bs). destruct (f_moms fs _); reflexivity.
Qed.

Definition hval (c : nat) (h : hist) (t : nat) : R := nth c (nth t (h_rows h) []) 0%R.

Lemma columns_good T c hs : 2 <= T -> (forall h, In h hs -> good T c h) ->
  mapM (column c) hs = Ok (List.map (fun h => vec T (hval c h)) hs).
Proof.
  intros HT. induction hs as [|h hs IH]; intros H; cbn [mapM List.map]; [reflexivity|].
  rewrite (column_good T c h HT) by (apply H; now left). cbn [bind]. rewrite IH; [reflexivity|]. intros k Hk. apply H. now right.
Qed.

Lemma sum_into_vec T f (gs : list (nat -> R)) :
  sum_into (vec T f) (List.map (vec T) gs) = Ok (vec T (fun t => (f t + total (fun g => g t) gs)%R)).
Proof.
  revert f. induction gs as [|g gs IH]; intros f; cbn [sum_into List.map].
  - f_equal. apply vec_ext. intros. unfold total. simpl. lra.
  - rewrite iadd_vec. cbn [bind]. rewrite IH. f_equal. apply vec_ext. intros t _. rewrite total_cons. lra.
Qed.

Lemma flux_files_total fs c pre bs t :
  total (fun h => hval c h t) (flux_files fs pre bs) =
  total (fun b => moment fs c (pre ++ "_bflux_" ++ b ++ "_integrated_HamiltonianMoments.gkyl") t) bs.
Proof.
  induction bs as [|b bs IH]; [reflexivity|]. rewrite total_cons. unfold moment at 1. cbn [flux_files flat_map].
  fold (flux_files fs pre bs). destruct (f_moms fs _); cbn [app].
  - rewrite total_cons, IH. reflexivity.
  - rewrite IH. lra.
Qed.

Lemma file_name_app o b s t : file_name o b s ++ t = file_name o b (s ++ t).
Proof. unfold file_name. now rewrite !append_assoc. Qed.

(** Everything read for a species. *)
Definition part_of (fs : files) (o : opts) (T c b : nat) (sp : string) : part :=
  Part (times_of fs (fdot_of o b sp)) (vec T (moment fs c (fdot_of o b sp)))
       (option_map h_times (f_moms fs (source_of o b sp))) (vec T (moment fs c (source_of o b sp)))
       (List.map h_times (flux_files fs (file_name o b sp) six))
       (vec T (fun t => total (fun bd => moment fs c (flux_of o b sp bd) t) six)).

Lemma read_part_ok fs o T c b sp :
  plain o -> 2 <= T -> files_ok fs o T c b sp ->
  read_part fs o c (block_prefix o b ++ sp) = Ok (part_of fs o T c b sp).
Proof.
  intros P HT ((hf & Ef) & G). rewrite (block_prefix_plain o b sp P).
  destruct P as (_ & _ & P1 & P2 & P3 & _). unfold read_part. rewrite P1. cbn [file_or bind].
  rewrite file_name_app. change (file_name o b (sp ++ "_fdot_integrated_moms.gkyl")) with (fdot_of o b sp). rewrite Ef, P2. cbn [file_or bind].
  rewrite file_name_app. change (file_name o b (sp ++ "_source_integrated_moms.gkyl")) with (source_of o b sp).
  rewrite read_bflux_plain by exact P3. cbn [bind].
  rewrite (column_good T c hf HT) by (apply (G (fdot_of o b sp)); [now left|exact Ef]). cbn [bind].
  assert (Esrc : (match f_moms fs (source_of o b sp) with
    | Some h => column c h
    | None => Ok (List.map (fun x => (0 * x)%R) (vec T (fun t => nth c (nth t (h_rows hf) []) 0%R))) end)
    = Ok (vec T (moment fs c (source_of o b sp)))).
  { destruct (f_moms fs (source_of o b sp)) as [h|] eqn:E.
    - rewrite (column_good T c h HT) by (apply (G (source_of o b sp)); [right; now left|exact E]).
      f_equal. apply vec_ext. intros t _. now rewrite (moment_present _ _ _ _ _ E).
    - rewrite vec_map. f_equal. apply vec_ext. intros t _. unfold moment. rewrite E. lra. }
  rewrite Esrc. cbn [bind]. rewrite boundaries_six.
  assert (GF : forall h, In h (flux_files fs (file_name o b sp) six) -> good T c h).
  { intros h Hh. unfold flux_files in Hh. apply in_flat_map in Hh. destruct Hh as (bd & Hbd & Hh).
    revert Hh. destruct (f_moms fs (file_name o b sp ++ "_bflux_" ++ bd ++ "_integrated_HamiltonianMoments.gkyl")) as [h'|] eqn:E; [|intros []]. intros [->|[]].
    apply (G (flux_of o b sp bd)).
    - right. right. now apply in_map.
    - unfold flux_of. now rewrite <- file_name_app. }
  rewrite (columns_good T c _ HT GF). cbn [bind].
  assert (Eb : (match List.map (fun h => vec T (hval c h)) (flux_files fs (file_name o b sp) six) with
    | [] => Ok (List.map (fun x => (0 * x)%R) (vec T (fun t => nth c (nth t (h_rows hf) []) 0%R)))
    | a :: l => sum_into a l end)
    = Ok (vec T (fun t => total (fun bd => moment fs c (flux_of o b sp bd) t) six))).
  { assert (Q : forall t, total (fun bd => moment fs c (flux_of o b sp bd) t) six = total (fun h => hval c h t) (flux_files fs (file_name o b sp) six)).
    { intros t. rewrite flux_files_total. apply total_ext. intros bd _. unfold flux_of. now rewrite <- file_name_app. }
    destruct (flux_files fs (file_name o b sp) six) as [|h hs] eqn:E; cbn [List.map].
    - rewrite vec_map. f_equal. apply vec_ext. intros t _. rewrite Q. unfold total. simpl. lra.
    - rewrite <- (map_map (hval c) (vec T)). rewrite sum_into_vec. f_equal. apply vec_ext. intros t _.
      rewrite Q, total_cons. f_equal. unfold total. now rewrite map_map. }
  rewrite Eb. cbn [bind]. unfold part_of. f_equal.
  assert (times_of fs (fdot_of o b sp) = h_times hf) as -> by (unfold times_of; now rewrite Ef).
  f_equal. apply vec_ext. intros t _. now rewrite (moment_present _ _ _ _ _ Ef).
Qed.

(** ** The loop of the particle balance *)

Lemma particle_loop_ok fs o T bs : plain o -> 2 <= T ->
  (forall b, In b bs -> files_ok fs o T 0 b (o_species o)) ->
  forall F S B lastp s, s = Sums F S B lastp ->
  forall f0 s0 b0, opt_holds T f0 F -> opt_holds T s0 S -> opt_holds T b0 B ->
  bs <> [] ->
  particle_loop fs o bs s =
  Ok (Sums (Some (vec T (fun t => (f0 t + total (fun b => moment fs 0 (fdot_of o b (o_species o)) t) bs)%R)))
           (Some (vec T (fun t => (s0 t + total (fun b => moment fs 0 (source_of o b (o_species o)) t) bs)%R)))
           (Some (vec T (fun t => (b0 t + total (fun b => total (fun bd => moment fs 0 (flux_of o b (o_species o) bd) t) six) bs)%R)))
           (Some (part_of fs o T 0 (last bs 0) (o_species o)))).
Proof.
  intros P HT. induction bs as [|b bs IH]; intros G F S B lastp s -> f0 s0 b0 HF HS HB NE; [congruence|].
  cbn [particle_loop]. rewrite (read_part_ok fs o T 0 b (o_species o) P HT) by (apply G; now left). cbn [bind part_of p_fdot p_src p_bflux s_fdot s_src s_bflux].
  rewrite (accumulate_vec T f0 _ F HF). cbn [bind].
  rewrite (accumulate_vec T s0 _ S HS). cbn [bind].
  rewrite (accumulate_vec T b0 _ B HB). cbn [bind].
  destruct bs as [|b' bs].
  - cbn [particle_loop last]. unfold total. cbn [List.map fold_right]. do 2 f_equal.
    + f_equal. apply vec_ext. intros t _. lra.
    + f_equal. apply vec_ext. intros t _. lra.
    + f_equal. apply vec_ext. intros t _. lra.
  - erewrite IH; [|intros x Hx; apply G; now right|reflexivity|cbn [opt_holds]; reflexivity|cbn [opt_holds]; reflexivity|cbn [opt_holds]; reflexivity|discriminate].
    do 2 f_equal.
    + f_equal. apply vec_ext. intros t _. rewrite (total_cons _ b). lra.
    + f_equal. apply vec_ext. intros t _. rewrite (total_cons _ b). lra.
    + f_equal. apply vec_ext. intros t _. rewrite (total_cons _ b). lra.
Qed.

Lemma distf_loop_ok fs o T c (names : list string) : o_f_file o = [] -> 2 <= T ->
  (forall pre, In pre names -> exists h, f_moms fs (pre ++ "_integrated_moms.gkyl") = Some h /\ good T c h) ->
  forall x f0, opt_holds T f0 x -> names <> [] ->
  distf_loop fs o c names x = Ok (Some (vec T (fun t => (f0 t + total (fun pre => moment fs c (pre ++ "_integrated_moms.gkyl") t) names)%R))).
Proof.
  intros P HT. induction names as [|pre names IH]; intros G x f0 Hx NE; [congruence|]. cbn [distf_loop]. rewrite P. cbn [file_or bind].
  destruct (G pre) as (h & E & Gh); [now left|]. rewrite E, (column_good T c h HT Gh). cbn [bind].
  rewrite (accumulate_vec T f0 _ x Hx). cbn [bind]. destruct names as [|pre' names].
  - cbn [distf_loop]. do 2 f_equal. apply vec_ext. intros t _. unfold total. cbn [List.map fold_right].
    rewrite (moment_present _ _ _ _ _ E). lra.
  - erewrite IH; [|intros q Hq; apply G; now right|reflexivity|discriminate].
    do 2 f_equal. apply vec_ext. intros t _. rewrite (total_cons _ pre), (moment_present _ _ _ _ _ E). lra.
Qed.

(** ** The number of blocks *)

Lemma chosen_num fs o first n :
  o_fdot_file o = [] -> chosen fs (prefix_of o ++ first ++ "_fdot_integrated_moms.gkyl") (o_multib o) n ->
  num_blocks fs o first = Ok n.
Proof.
  intros P H. unfold num_blocks. set (pat := prefix_of o ++ _) in *. clearbody pat. revert H. generalize (o_multib o). intros mb H.
  destruct H as [| |zs L|a b ps Hs|a b c ps Hc Hs].
  - reflexivity.
  - cbn. now rewrite P.
  - pose proof (comma_list zs L) as C. rewrite !(neq_by_char "," _ _ C) by reflexivity.
    rewrite C, split_zs by (destruct zs; simpl in L; [lia|discriminate]). now rewrite mapM_show.
  - assert (C : has_char ":" (show_opt a ++ ":" ++ show_opt b) = true) by (rewrite has_char_app; simpl; apply orb_true_r).
    rewrite !(neq_by_char ":" _ _ C) by reflexivity.
    assert (M : has_char "," (show_opt a ++ ":" ++ show_opt b) = false).
    { rewrite has_char_app, no_comma_opt. cbn [String.append has_char]. now rewrite no_comma_opt. }
    rewrite M, C, (blocks_slice a b ps Hs). cbn [bind]. now rewrite map_length.
  - assert (C : has_char ":" (show_opt a ++ ":" ++ show_opt b ++ ":" ++ show_Z c) = true) by apply (colon_slice a b (":" ++ show_Z c)).
    rewrite !(neq_by_char ":" _ _ C) by reflexivity.
    assert (M : has_char "," (show_opt a ++ ":" ++ show_opt b ++ ":" ++ show_Z c) = false).
    { rewrite has_char_app, no_comma_opt. cbn [String.append has_char]. rewrite has_char_app, no_comma_opt. cbn [String.append has_char]. now rewrite no_comma_show. }
    rewrite M, C, (blocks_step a b c ps Hc Hs). cbn [bind]. now rewrite map_length.
Qed.
