(** * C100: listoutputs *)
From Coq Require Import String Ascii List Arith ZArith Bool Lia Sorted Permutation.
From Verif Require Import Prelude PreludeFacts Sort Listing_Model.
Import ListNotations.
Open Scope list_scope.
Open Scope string_scope.

(** ** Specification *)

Definition digits (d : string) : Prop := d <> "" /\ forall c, has_char c d = true -> In c (list_ascii_of_string "0123456789").

(** [s] without the end [e], if it has that end. *)
Definition without_end (e : string -> Prop) (s r : string) : Prop :=
  (exists t, e t /\ s = r ++ t) \/ (s = r /\ ~ exists r' t, e t /\ s = r' ++ t).

(** The stem of the name of an output: without the extension, a final [_restart]
    and then a final number. *)
Definition stem_of (ext fn s : string) : Prop :=
  exists body core, fn = body ++ "." ++ ext /\
    without_end (fun t => t = "_restart") body core /\
    without_end (fun t => exists d, digits d /\ t = "_" ++ d) core s.

Definition hidden (fn : string) : Prop := exists r, fn = "." ++ r.

(** Alphabetical order by character codes. *)
Definition before (s t : string) : Prop := String.compare s t = Lt.

(** ** Strings *)

Lemma app_assoc_s (a b c : string) : (a ++ b) ++ c = a ++ (b ++ c).
Proof. induction a; cbn; congruence. Qed.

Lemma app_nil_s (a : string) : a ++ "" = a.
Proof. induction a; cbn; congruence. Qed.

Lemma length_app_s (a b : string) : String.length (a ++ b) = (String.length a + String.length b)%nat.
Proof. induction a; cbn; congruence. Qed.

Lemma app_inj_len (a b c d : string) : String.length b = String.length d -> a ++ b = c ++ d -> a = c /\ b = d.
Proof.
  revert c. induction a as [|x a IH]; intros [|y c] L E; cbn in *; [auto| | |].
  - subst b. cbn in L. rewrite length_app_s in L. lia.
  - subst d. cbn in L. rewrite length_app_s in L. lia.
  - injection E as -> E. destruct (IH c L E) as (-> & ->). auto.
Qed.

Lemma ends_with_iff p s : ends_with p s = true <-> exists t, s = t ++ p.
Proof.
  induction s as [|a s IH]; cbn [ends_with]; rewrite orb_true_iff, String.eqb_eq; split.
  - intros [<-|H]; [now exists ""|discriminate].
  - intros (t & E). left. destruct t; [exact E|discriminate].
  - intros [<-|H]; [now exists ""|]. apply IH in H as (t & ->). now exists (String a t).
  - intros ([|b t] & E); [now left|]. cbn in E. injection E as -> ->. right. apply IH. now exists t.
Qed.

Lemma substring_prefix s : forall t, String.substring 0 (String.length s) (s ++ t) = s.
Proof. induction s as [|a s IH]; intros t; cbn; [now destruct t|]. now rewrite IH. Qed.

Lemma drop_last_app s t : drop_last (String.length t) (s ++ t) = s.
Proof. unfold drop_last. rewrite length_app_s, Nat.add_sub. apply substring_prefix. Qed.

Lemma starts_with_dot fn : starts_with "." fn = true <-> hidden fn.
Proof.
  unfold hidden. destruct fn as [|a fn]; [split; [discriminate|intros (r & H); discriminate]|].
  change (starts_with "." (String a fn)) with (Ascii.eqb "." a && true). rewrite andb_true_r, Ascii.eqb_eq. split.
  - intros <-. now exists fn.
  - intros (r & H). now injection H.
Qed.

(** ** Digits *)

Lemma digit_iff c : In c (list_ascii_of_string "0123456789") <-> DecimalString.uint_of_char c (Some Decimal.Nil) <> None.
Proof.
  split.
  - intros H. repeat (destruct H as [<-|H]; [discriminate|]). destruct H.
  - destruct c as [[] [] [] [] [] [] [] []]; cbn; intros H; try (now elim H); auto 20.
Qed.

Lemma uint_of_char_some c d : DecimalString.uint_of_char c (Some d) = None <-> DecimalString.uint_of_char c (Some Decimal.Nil) = None.
Proof. destruct c as [[] [] [] [] [] [] [] []]; cbn; split; intros H; try reflexivity; discriminate. Qed.

Lemma uint_of_char_none c : DecimalString.uint_of_char c None = None.
Proof. reflexivity. Qed.

Lemma uint_of_string_some s :
  DecimalString.NilEmpty.uint_of_string s <> None <-> forall c, has_char c s = true -> In c (list_ascii_of_string "0123456789").
Proof.
  induction s as [|a s IH].
  - split; [intros _ c H; discriminate|discriminate].
  - cbn [DecimalString.NilEmpty.uint_of_string has_char]. split.
    + intros H c Hc. destruct (DecimalString.NilEmpty.uint_of_string s) as [d|] eqn:E; [|now elim H].
      apply orb_true_iff in Hc as [Hc|Hc].
      * apply Ascii.eqb_eq in Hc as <-. apply digit_iff. intros N. apply H. now apply uint_of_char_some.
      * apply (proj1 IH ltac:(discriminate)). exact Hc.
    + intros H. destruct (DecimalString.NilEmpty.uint_of_string s) as [d|] eqn:E.
      * intros N. apply uint_of_char_some in N. revert N. apply digit_iff. apply H. now rewrite Ascii.eqb_refl.
      * exfalso. apply (proj2 IH); [|reflexivity]. intros c Hc. apply H. rewrite Hc. apply orb_true_r.
Qed.

Lemma is_digits_iff d : is_digits d = true <-> digits d.
Proof.
  unfold digits. rewrite <- uint_of_string_some. unfold is_digits. destruct d as [|a d].
  - split; [discriminate|intros (H & _); now elim H].
  - destruct (DecimalString.NilEmpty.uint_of_string _) as [x|].
    + split; [intros _; split; discriminate|reflexivity].
    + split; [discriminate|intros (_ & H); now elim H].
Qed.

Lemma digits_no_underscore d : digits d -> has_char "_" d = false.
Proof. intros (_ & H). destruct (has_char "_" d) eqn:E; [|reflexivity]. specialize (H _ E). cbn in H. intuition discriminate. Qed.

(** ** Stems *)

Definition number_end (t : string) : Prop := exists d, digits d /\ t = "_" ++ d.

Lemma strip_number_app s d : digits d -> strip_number (s ++ "_" ++ d) = s.
Proof.
  intros D. induction s as [|a s IH].
  - cbn. apply is_digits_iff in D. now rewrite D.
  - change (String a s ++ "_" ++ d) with (String a (s ++ "_" ++ d)). cbn [strip_number]. rewrite IH. destruct (Ascii.eqb a "_" && is_digits (s ++ "_" ++ d)) eqn:E; [|reflexivity].
    exfalso. apply andb_true_iff in E as (_ & E). apply is_digits_iff, digits_no_underscore in E. rewrite has_char_app in E. cbn in E. rewrite orb_true_r in E. discriminate.
Qed.

Lemma strip_number_keep s : (forall r t, number_end t -> s <> r ++ t) -> strip_number s = s.
Proof.
  induction s as [|a s IH]; intros H; [reflexivity|]. cbn [strip_number].
  destruct (Ascii.eqb_spec a "_") as [->|N].
  - destruct (is_digits s) eqn:E; cbn [andb].
    + exfalso. apply (H "" ("_" ++ s)); [|reflexivity]. exists s. split; [now apply is_digits_iff|reflexivity].
    + f_equal. apply IH. intros r t Ht ->. now apply (H (String "_" r) t).
  - cbn [andb]. f_equal. apply IH. intros r t Ht ->. now apply (H (String a r) t).
Qed.

Lemma number_dec s : (exists r t, number_end t /\ s = r ++ t) \/ (forall r t, number_end t -> s <> r ++ t).
Proof.
  induction s as [|a s IH].
  - right. intros r t (d & _ & ->) E. destruct r; discriminate.
  - destruct IH as [(r & t & Ht & ->)|N]; [left; now exists (String a r), t|].
    destruct (Ascii.eqb_spec a "_") as [->|Na].
    + destruct (is_digits s) eqn:E.
      * left. exists "", ("_" ++ s). split; [|reflexivity]. exists s. split; [now apply is_digits_iff|reflexivity].
      * right. intros [|b r] t (d & D & ->) Eq; cbn in Eq; injection Eq.
        -- intros ->. apply is_digits_iff in D. congruence.
        -- intros -> _. apply (N r ("_" ++ d)); [|reflexivity]. now exists d.
    + right. intros [|b r] t (d & D & ->) Eq; cbn in Eq; injection Eq.
      * intros _ ->. now elim Na.
      * intros -> _. apply (N r ("_" ++ d)); [|reflexivity]. now exists d.
Qed.

Lemma strip_number_spec s r : strip_number s = r <-> without_end number_end s r.
Proof.
  split.
  - intros <-. destruct (number_dec s) as [(r & t & (d & D & ->) & ->)|N].
    + left. exists ("_" ++ d). split; [now exists d|]. now rewrite strip_number_app.
    + right. rewrite strip_number_keep by exact N. split; [reflexivity|]. intros (r & t & Ht & E). exact (N r t Ht E).
  - intros [(t & (d & D & ->) & ->)|(<- & N)]; [now apply strip_number_app|]. apply strip_number_keep. intros r t Ht E. apply N. now exists r, t.
Qed.

Definition strip_restart (s : string) : string := if ends_with "_restart" s then drop_last 8 s else s.

Lemma strip_restart_spec s r : strip_restart s = r <-> without_end (fun t => t = "_restart") s r.
Proof.
  unfold strip_restart. destruct (ends_with "_restart" s) eqn:E.
  - apply ends_with_iff in E as (u & ->). change 8%nat with (String.length "_restart"). rewrite drop_last_app. split.
    + intros <-. left. now exists "_restart".
    + intros [(t & -> & Eq)|(_ & N)]; [|exfalso; apply N; now exists u, "_restart"]. now apply app_inj_len in Eq as (-> & _).
  - split.
    + intros <-. right. split; [reflexivity|]. intros (u & t & -> & ->). assert (K : ends_with "_restart" (u ++ "_restart") = true) by (apply ends_with_iff; now exists u). congruence.
    + intros [(t & -> & ->)|(<- & _)]; [|reflexivity]. exfalso. assert (K : ends_with "_restart" (r ++ "_restart") = true) by (apply ends_with_iff; now exists r). congruence.
Qed.

Lemma stem_spec ext fn s : ends_with ("." ++ ext) fn = true -> (stem ext fn = s <-> stem_of ext fn s).
Proof.
  intros E. apply ends_with_iff in E as (body & ->). unfold stem.
  replace (String.length ext + 1)%nat with (String.length ("." ++ ext)) by (cbn; lia). rewrite drop_last_app. fold (strip_restart body). split.
  - intros H. exists body, (strip_restart body). split; [reflexivity|]. split; [now apply strip_restart_spec|]. now apply strip_number_spec.
  - intros (body' & core & Eq & H1 & H2). apply app_inj_len in Eq as (<- & _); [|reflexivity].
    apply strip_restart_spec in H1. rewrite H1. now apply strip_number_spec.
Qed.

(** ** Lists *)

Lemma unique_fold l u : NoDup u ->
  let r := fold_left (fun u s => if existsb (String.eqb s) u then u else (u ++ [s])%list) l u in
  NoDup r /\ forall s, In s r <-> In s u \/ In s l.
Proof.
  revert u. induction l as [|a l IH]; intros u Nu; [cbn; split; [exact Nu|intuition]|]. cbn [fold_left].
  destruct (existsb (String.eqb a) u) eqn:E.
  - destruct (IH u Nu) as (H1 & H2). split; [exact H1|]. intros s. rewrite H2. apply existsb_exists in E as (b & Hb & Eb). apply String.eqb_eq in Eb as ->.
    cbn. intuition (subst; auto).
  - assert (Na : ~ In a u).
    { intros Ha. assert (K : existsb (String.eqb a) u = true) by (apply existsb_exists; exists a; split; [exact Ha|apply String.eqb_refl]). congruence. }
    assert (Nu' : NoDup (u ++ [a])%list).
    { apply Permutation_NoDup with (a :: u); [apply Permutation_cons_append|now constructor]. }
    destruct (IH _ Nu') as (H1 & H2). split; [exact H1|]. intros s. rewrite H2, in_app_iff. cbn. intuition.
Qed.

Lemma unique_spec l : NoDup (unique l) /\ forall s, In s (unique l) <-> In s l.
Proof. destruct (unique_fold l [] (NoDup_nil _)) as (H1 & H2). split; [exact H1|]. intros s. unfold unique. rewrite H2. cbn. intuition. Qed.

Lemma ascii_trans a b c : Ascii.compare a b = Lt -> Ascii.compare b c = Lt -> Ascii.compare a c = Lt.
Proof. unfold Ascii.compare. rewrite !N.compare_lt_iff. lia. Qed.

Lemma before_trans s t u : before s t -> before t u -> before s u.
Proof.
  unfold before. revert t u. induction s as [|a s IH]; intros [|b t] [|c u]; cbn; try discriminate; auto.
  destruct (Ascii.compare a b) eqn:E1; try discriminate.
  - apply Ascii.compare_eq_iff in E1 as ->. destruct (Ascii.compare b c); try discriminate; auto. apply IH.
  - intros _. destruct (Ascii.compare b c) eqn:E2; try discriminate.
    + apply Ascii.compare_eq_iff in E2 as ->. now rewrite E1.
    + intros _. now rewrite (ascii_trans a b c E1 E2).
Qed.

Lemma compare_same s : String.compare s s = Eq.
Proof. induction s as [|a s IH]; [reflexivity|]. cbn. unfold Ascii.compare. now rewrite N.compare_refl. Qed.

Lemma leb_before s t : String.leb s t = true <-> s = t \/ before s t.
Proof.
  unfold String.leb, before. destruct (String.compare s t) eqn:E; split; intros H; auto; try discriminate.
  - left. now apply String.compare_eq_iff.
  - destruct H as [->|H]; [|discriminate]. rewrite compare_same in E. discriminate.
Qed.

Lemma before_irrefl s : ~ before s s.
Proof. unfold before. now rewrite compare_same. Qed.

Lemma sorted_spec l : NoDup l -> StronglySorted before (isort String.leb l) /\ forall s, In s (isort String.leb l) <-> In s l.
Proof.
  intros N. assert (P : Permutation l (isort String.leb l)) by apply isort_perm.
  assert (I : forall s, In s (isort String.leb l) <-> In s l) by (intros s; split; apply Permutation_in; [now symmetry|exact P]).
  split; [|exact I]. pose proof (Permutation_NoDup P N) as N'.
  assert (S : StronglySorted (fun x y => String.leb x y = true) (isort String.leb l)).
  { apply isort_sorted with (P := fun _ => True).
    - intros x y _ _. apply String.leb_total.
    - intros x y z _ _ _. rewrite !leb_before. intros [->|H1] [->|H2]; auto. right. now apply before_trans with y.
    - now apply Forall_forall. }
  clear -S N'. induction S as [|a m S IH F]; [constructor|]. inversion N' as [|? ? Na Nm]; subst. constructor; [now apply IH|].
  rewrite Forall_forall in *. intros x Hx. specialize (F x Hx). apply leb_before in F as [->|F]; [contradiction|exact F].
Qed.

(** ** Theorems *)

(** What is printed for one extension: nothing if there are no such files; else a
    heading and the stems of all files with this extension that are not hidden,
    each once and in alphabetical order. *)
Definition block (dir : list string) (ext : string) (lines : list string) : Prop :=
  let shown fn := In fn dir /\ ~ hidden fn /\ exists body, fn = body ++ "." ++ ext in
  ((forall fn, ~ shown fn) /\ lines = []) \/
  exists stems, stems <> [] /\ lines = (ext ++ ":")%string :: List.map (fun s => "- " ++ s) stems /\ StronglySorted before stems /\
    forall s, In s stems <-> exists fn, shown fn /\ stem_of ext fn s.

Theorem C100_listing dir extensions : exists blocks,
  listoutputs dir extensions = List.concat blocks /\ Forall2 (block dir) (split_on "," extensions) blocks.
Proof.
  exists (List.map (listing dir) (split_on "," extensions)). split; [reflexivity|].
  induction (split_on "," extensions) as [|ext exts IH]; constructor; [|exact IH]. clear IH.
  assert (Sh : forall fn, In fn (List.filter (matches ext) dir) <-> In fn dir /\ ~ hidden fn /\ exists body, fn = body ++ "." ++ ext).
  { intros fn. rewrite filter_In. unfold matches. rewrite andb_true_iff, negb_true_iff, <- not_true_iff_false, starts_with_dot, ends_with_iff. reflexivity. }
  unfold block, listing. destruct (unique_spec (List.map (stem ext) (List.filter (matches ext) dir))) as (U1 & U2).
  destruct (sorted_spec _ U1) as (S1 & S2). set (u := unique _) in *.
  destruct (List.filter (matches ext) dir) as [|f fs] eqn:Ef.
  - left. split; [intros fn H; apply Sh in H as []|]. reflexivity.
  - right. exists (isort String.leb u). split; [|split; [|split; [exact S1|]]].
    + intros E. assert (K : In (stem ext f) (isort String.leb u)) by (apply S2, U2; now left). rewrite E in K. destruct K.
    + assert (Hu : (0 < List.length u)%nat) by (assert (K : In (stem ext f) u) by (apply U2; now left); destruct u; [destruct K|cbn; lia]).
      apply Nat.ltb_lt in Hu. rewrite Hu. reflexivity.
    + intros s. rewrite S2, U2, in_map_iff. split.
      * intros (fn & E & Hf). exists fn. apply Sh in Hf. split; [exact Hf|]. apply stem_spec; [|exact E]. apply ends_with_iff. apply Hf.
      * intros (fn & Hf & E). exists fn. split; [|now apply Sh]. apply stem_spec; [|exact E]. apply ends_with_iff. apply Hf.
Qed.

(** The order in which the directory lists its files does not matter. *)
Lemma sorted_unique (l m : list string) : StronglySorted before l -> StronglySorted before m -> (forall s, In s l <-> In s m) -> l = m.
Proof.
  intros Sl. revert m. induction Sl as [|a l Sl IH Fa]; intros m Sm H.
  - destruct m as [|b m]; [reflexivity|]. destruct (proj2 (H b)); now left.
  - destruct Sm as [|b m Sm Fb]; [destruct (proj1 (H a)); now left|]. rewrite Forall_forall in Fa, Fb.
    assert (a = b) as ->.
    { destruct (proj1 (H a) (or_introl eq_refl)) as [E|Ha]; [now symmetry|]. destruct (proj2 (H b) (or_introl eq_refl)) as [E|Hb]; [exact E|].
      elim (before_irrefl a). apply before_trans with b; auto. }
    f_equal. apply IH; [exact Sm|]. intros s. split; intros Hs.
    + destruct (proj1 (H s) (or_intror Hs)) as [<-|K]; [|exact K]. elim (before_irrefl b). now apply Fa.
    + destruct (proj2 (H s) (or_intror Hs)) as [<-|K]; [|exact K]. elim (before_irrefl b). now apply Fb.
Qed.

Theorem C100_order dir dir' extensions : (forall fn, In fn dir <-> In fn dir') -> listoutputs dir extensions = listoutputs dir' extensions.
Proof.
  intros H. unfold listoutputs. f_equal. apply map_ext. intros ext. unfold listing.
  set (u := unique _). set (u' := unique _).
  destruct (unique_spec (List.map (stem ext) (List.filter (matches ext) dir))) as (U1 & U2). destruct (unique_spec (List.map (stem ext) (List.filter (matches ext) dir'))) as (V1 & V2).
  fold u in U1, U2. fold u' in V1, V2.
  assert (E : forall s, In s u <-> In s u').
  { intros s. rewrite U2, V2, !in_map_iff. split; intros (fn & Es & Hf); exists fn; (split; [exact Es|]); apply filter_In in Hf as (H1 & H2); apply filter_In; split; auto; now apply H. }
  assert (Es : isort String.leb u = isort String.leb u').
  { destruct (sorted_spec u U1) as (S1 & S2). destruct (sorted_spec u' V1) as (T1 & T2). apply sorted_unique; [assumption..|]. intros s. now rewrite S2, T2. }
  rewrite Es. f_equal. assert (L : List.length u = List.length u').
  { rewrite (Permutation_length (isort_perm String.leb u)), (Permutation_length (isort_perm String.leb u')). now rewrite Es. }
  now rewrite L.
Qed.

(** Frames and the restart file of one output have one stem: its name, unless
    that ends in a number. *)
Theorem C100_frames base ext n : stem_of ext (base ++ "_" ++ show_N n ++ "." ++ ext) base.
Proof.
  assert (D : digits (show_N n)) by (apply is_digits_iff, show_N_digits).
  exists (base ++ "_" ++ show_N n), (base ++ "_" ++ show_N n). split; [now rewrite !app_assoc_s|]. split.
  - right. split; [reflexivity|]. intros (r & t & -> & E).
    assert (K : forall a b : string, a ++ show_N n = b ++ "t" -> False).
    { assert (L : exists d c, show_N n = d ++ String c "" /\ In c (list_ascii_of_string "0123456789")).
      { destruct D as (Nz & D). revert Nz D. generalize (show_N n) as q. induction q as [|c q IH]; [intros Nz; now elim Nz|]. intros _ D.
        destruct q as [|c' q]; [exists "", c; split; [reflexivity|apply D; cbn; now rewrite Ascii.eqb_refl]|].
        destruct IH as (d & e & E' & He); [discriminate|intros x Hx; apply D; cbn [has_char] in *; rewrite Hx; apply orb_true_r|].
        exists (String c d), e. rewrite E'. auto. }
      destruct L as (d & c & -> & Hc). intros a b Eq. rewrite <- app_assoc_s in Eq. apply app_inj_len in Eq as (_ & Eq); [|reflexivity].
      injection Eq as ->. cbn in Hc. intuition discriminate. }
    apply (K (base ++ "_") (r ++ "_restar")). rewrite !app_assoc_s. exact E.
  - left. exists ("_" ++ show_N n). split; [|reflexivity]. exists (show_N n). auto.
Qed.

Theorem C100_restart base ext : (forall r d, digits d -> base <> r ++ "_" ++ d) -> stem_of ext (base ++ "_restart" ++ "." ++ ext) base.
Proof.
  intros H. exists (base ++ "_restart"), base. split; [now rewrite app_assoc_s|]. split.
  - left. now exists "_restart".
  - right. split; [reflexivity|]. intros (r & t & (d & D & ->) & E). exact (H r d D E).
Qed.

Theorem C100_plain base ext : (forall r d, digits d -> base <> r ++ "_" ++ d) -> (forall r, base <> r ++ "_restart") ->
  stem_of ext (base ++ "." ++ ext) base.
Proof.
  intros H1 H2. exists base, base. split; [reflexivity|]. split; right; (split; [reflexivity|]).
  - intros (r & t & -> & E). exact (H2 r E).
  - intros (r & t & (d & D & ->) & E). exact (H1 r d D E).
Qed.

(** A stem is determined by the name. *)
Theorem C100_one_stem ext fn s s' : stem_of ext fn s -> stem_of ext fn s' -> s = s'.
Proof.
  intros H H'. assert (E : ends_with ("." ++ ext) fn = true) by (destruct H as (b & _ & -> & _); apply ends_with_iff; now exists b).
  apply (stem_spec ext fn s E) in H. apply (stem_spec ext fn s' E) in H'. congruence.
Qed.

(** Not every name that is listed is a file name without frame: outputs called
    [run_1] and [run_2] both become [run]; numbered restart files keep their mark. *)
Theorem C100_names_refuted : exists dir, In "run_1.gkyl" dir /\ In "run_2.gkyl" dir /\ In "sim_restart_0.gkyl" dir /\
  listoutputs dir "gkyl" = ["gkyl:"; "- run"; "- sim_restart"].
Proof. exists ["run_1.gkyl"; "run_2.gkyl"; "sim_restart_0.gkyl"]. repeat split; cbn; auto. Qed.

(** Extensions are not stripped of blanks. *)
Theorem C100_blank_refuted : exists dir, In "a.gkyl" dir /\ listoutputs dir "bp, gkyl" = [].
Proof. exists ["a.gkyl"]. split; [now left|reflexivity]. Qed.

Example C100_example :
  listoutputs ["sim_elc_0.gkyl"; "sim_elc_10.gkyl"; ".sim_0.gkyl"; "sim_elc_restart.gkyl"; "sim_M0_3.bp"; "sim-energy.gkyl"; "Sim_2_5.gkyl"; "a.gkyl.old"] "bp,gkyl,h5"
  = ["bp:"; "- sim_M0"; "gkyl:"; "- Sim_2"; "- sim-energy"; "- sim_elc"].
Proof. reflexivity. Qed.

Print Assumptions C100_listing.
Print Assumptions C100_order.
Print Assumptions C100_frames.
