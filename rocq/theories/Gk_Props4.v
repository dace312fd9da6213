(** * C63, C64: frames of the distribution function and cell edges. *)
From Coq Require Import String Ascii DecimalString ZArith List Bool Reals Sorted Permutation Lia Lra.
From Verif Require Import Prelude PreludeFacts Sort DataSpace_Spec DataSpace_Proofs Gk_Model Gk_Spec Gk_Props Gk_Proofs.
Import ListNotations.
Open Scope string_scope.
Open Scope nat_scope.

(** ** Specification *)

(** There is a file of frame [f]: its number may be written with leading
    zeros. *)
Definition has_frame (st : string) (dir : list string) (f : Z) : Prop :=
  exists s n, In (st ++ s ++ ".gkyl") dir /\ digits_val s = Some n /\ f = Z.of_N n.

(** Ends of a range; left out, they are those of the frames present. *)
Definition low_end (st : string) (dir : list string) (a : option Z) (lo : Z) : Prop :=
  match a with
  | Some z => lo = z
  | None => has_frame st dir lo /\ forall f, has_frame st dir f -> (lo <= f)%Z
  end.
Definition high_end (st : string) (dir : list string) (b : option Z) (hi : Z) : Prop :=
  match b with
  | Some z => hi = z
  | None => has_frame st dir (hi - 1) /\ forall f, has_frame st dir f -> (f < hi)%Z
  end.

(** Blanks. *)
Fixpoint blanks (n : nat) : string := match n with 0 => "" | S k => String " " (blanks k) end.

(** ** Strings *)

Lemma drop_prefix_app p s : drop_prefix p (p ++ s) = Some s.
Proof. induction p as [|a p IH]; [destruct s; reflexivity|]. cbn. now rewrite Ascii.eqb_refl. Qed.

Lemma drop_prefix_some p s r : drop_prefix p s = Some r -> s = p ++ r.
Proof.
  revert s. induction p as [|a p IH]; intros s H; [destruct s; cbn in *; congruence|]. cbn in H. destruct s as [|b s]; [discriminate|].
  destruct (Ascii.eqb_spec a b); [|discriminate]. subst. cbn. f_equal. now apply IH.
Qed.

Lemma ends_with_app t p : ends_with p (t ++ p) = true.
Proof.
  induction t as [|c t IH]; cbn [String.append].
  - destruct p; cbn [ends_with]; [reflexivity|]. now rewrite String.eqb_refl.
  - cbn [ends_with]. rewrite IH. apply orb_true_r.
Qed.

Lemma ends_with_some p s : ends_with p s = true -> exists t, s = t ++ p.
Proof.
  induction s as [|c s IH]; cbn [ends_with]; intros H.
  - rewrite orb_false_r in H. apply String.eqb_eq in H. exists "". now rewrite <- H.
  - apply orb_true_iff in H. destruct H as [H|H].
    + apply String.eqb_eq in H. now exists "".
    + destruct (IH H) as [t ->]. now exists (String c t).
Qed.

Lemma length_app s t : String.length (s ++ t) = String.length s + String.length t.
Proof. induction s; simpl; lia. Qed.

Lemma substring_app s t : String.substring 0 (String.length s) (s ++ t) = s.
Proof. induction s as [|c s IH]; cbn; [destruct t; reflexivity|]. now rewrite IH. Qed.

Lemma drop5_app s : drop5 (s ++ ".gkyl") = s.
Proof.
  unfold drop5. rewrite length_app. change (String.length ".gkyl") with 5.
  replace (String.length s + 5 - 5) with (String.length s) by lia. apply substring_app.
Qed.

Lemma is_digits_iff s : is_digits s = true <-> exists n, digits_val s = Some n.
Proof.
  split; [apply is_digits_val|]. intros [n H]. unfold is_digits, digits_val in *.
  destruct s; [discriminate|]. destruct (NilEmpty.uint_of_string _); [reflexivity|discriminate].
Qed.

Lemma frame_of_In st s f : In f (frame_of st (st ++ s ++ ".gkyl")) <-> exists n, digits_val s = Some n /\ f = Z.of_N n.
Proof.
  unfold frame_of, removeprefix. rewrite drop_prefix_app, drop5_app. destruct (is_digits s) eqn:D.
  - apply is_digits_iff in D. destruct D as [n D]. rewrite (digits_py_int s n D). simpl. split.
    + intros [<-|[]]. eauto.
    + intros (m & E & ->). left. congruence.
  - split; [intros []|]. intros (n & E & _).
    assert (is_digits s = true) by (apply is_digits_iff; eauto). congruence.
Qed.

(** ** The frames present *)

Lemma available_In st dir f : In f (available st dir) <-> has_frame st dir f.
Proof.
  unfold available. rewrite <- (Permutation_in' (eq_refl f) (isort_perm Z.leb _)). rewrite nodup_In, in_flat_map.
  unfold glob_stem, has_frame. split.
  - intros (x & Hx & Hf). apply filter_In in Hx. destruct Hx as [Hx E].
    destruct (drop_prefix st x) as [r|] eqn:D; [|discriminate]. apply drop_prefix_some in D. subst x.
    apply ends_with_some in E. destruct E as [s ->]. apply frame_of_In in Hf. destruct Hf as (n & E & ->). eauto.
  - intros (s & n & I & E & ->). exists (st ++ s ++ ".gkyl"). split.
    + apply filter_In. split; [exact I|]. rewrite drop_prefix_app. apply ends_with_app.
    + apply frame_of_In. eauto.
Qed.

Lemma available_sorted st dir : StronglySorted Z.lt (available st dir).
Proof.
  unfold available. set (l := flat_map (frame_of st) (glob_stem st dir)). clearbody l.
  assert (S : StronglySorted (fun x y => Z.leb x y = true) (isort Z.leb (nodup Z.eq_dec l))).
  { apply isort_sorted with (P := fun _ => True); auto; [intros x y _ _|intros x y z _ _ _|].
    - rewrite !Z.leb_le. lia.
    - rewrite !Z.leb_le. lia.
    - apply Forall_forall. auto. }
  assert (N : NoDup (isort Z.leb (nodup Z.eq_dec l))).
  { eapply Permutation_NoDup; [apply isort_perm|]. apply NoDup_nodup. }
  induction S as [|x m S IH F]; [constructor|]. inversion_clear N as [|? ? Nx Nm]. constructor; [now apply IH|].
  apply Forall_forall. intros y Hy. rewrite Forall_forall in F. specialize (F y Hy). apply Z.leb_le in F.
  assert (x <> y) by (intros ->; contradiction). lia.
Qed.

Lemma sorted_hd l x : StronglySorted Z.lt (x :: l) -> forall y, In y (x :: l) -> (x <= y)%Z.
Proof. intros S y [->|H]; [lia|]. inversion_clear S as [|? ? _ F]. rewrite Forall_forall in F. specialize (F y H). lia. Qed.

Lemma sorted_last l d : StronglySorted Z.lt l -> forall y, In y l -> (y <= last l d)%Z.
Proof.
  intros S. induction S as [|x l S IH F]; intros y H; [destruct H|]. destruct l as [|z l].
  - destruct H as [->|[]]. simpl. lia.
  - change (last (x :: z :: l) d) with (last (z :: l) d). destruct H as [->|H]; [|now apply IH].
    specialize (IH z (or_introl eq_refl)). inversion_clear F. lia.
Qed.

Lemma last_In_Z (l : list Z) d : l <> [] -> In (last l d) l.
Proof. intros H. destruct (exists_last H) as (m & a & ->). rewrite last_last. apply in_or_app. right. now left. Qed.

(** ** Blanks and the text of the option *)

Lemma lstrip_blanks k s : lstrip (blanks k ++ s) = lstrip s.
Proof. induction k as [|k IH]; [reflexivity|]. cbn. exact IH. Qed.

Lemma lstrip_none s : has_char " " s = false -> lstrip s = s.
Proof.
  destruct s as [|c s]; [reflexivity|]. intros H. cbn [has_char] in H. apply orb_false_iff in H. destruct H as [H _].
  destruct c as [[] [] [] [] [] [] [] []]; try reflexivity. discriminate.
Qed.

Lemma lstrip_pre s t : has_char " " s = false -> s <> "" -> lstrip (s ++ t) = s ++ t.
Proof.
  destruct s as [|c s]; [congruence|]. intros H _. cbn [has_char] in H. apply orb_false_iff in H. destruct H as [H _].
  cbn [String.append]. destruct c as [[] [] [] [] [] [] [] []]; try reflexivity. discriminate.
Qed.

Lemma rstrip_blanks k : rstrip (blanks k) = "".
Proof. induction k as [|k IH]; [reflexivity|]. cbn. now rewrite IH. Qed.

Lemma rstrip_app s k : has_char " " s = false -> rstrip (s ++ blanks k) = s.
Proof.
  induction s as [|c s IH]; intros H; [apply rstrip_blanks|]. cbn [has_char] in H. apply orb_false_iff in H. destruct H as [A B].
  cbn [String.append rstrip]. rewrite (IH B). destruct s as [|d s]; [|reflexivity]. now rewrite A.
Qed.

Lemma strip_blanks i j s : has_char " " s = false -> strip (blanks i ++ s ++ blanks j) = s.
Proof.
  intros H. unfold strip. rewrite lstrip_blanks. destruct s as [|c s].
  - cbn [String.append]. replace (lstrip (blanks j)) with ""; [reflexivity|]. induction j; [reflexivity|exact IHj].
  - rewrite lstrip_pre by (assumption || discriminate). now apply rstrip_app.
Qed.

Lemma no_blank_show z : has_char " " (show_Z z) = false.
Proof. apply show_Z_has; [unfold digit_char; vm_compute; intuition discriminate|discriminate]. Qed.
Lemma no_blank_opt a : has_char " " (show_opt a) = false.
Proof. destruct a; [apply no_blank_show|reflexivity]. Qed.

(** The text between the blanks decides. *)
Lemma frames_strip name species suffix block dir i j s :
  has_char " " s = false ->
  frames_of name species suffix block dir (blanks i ++ s ++ blanks j) = frames_of name species suffix block dir s.
Proof.
  intros H. unfold frames_of. rewrite strip_blanks by exact H.
  assert (strip s = s) as ->; [|reflexivity].
  pose proof (strip_blanks 0 0 s H) as E. cbn [blanks String.append] in E.
  assert (Q : s ++ "" = s) by (clear; induction s; simpl; congruence). now rewrite Q in E.
Qed.

Section Frames.
Context (name species suffix : string) (block : option Z) (dir : list string).

(** The names the simulation gives to the files of the frames. *)
Let st : string :=
  (match block with Some b => name ++ "_b" ++ show_Z b | None => name end) ++ "-" ++ species ++ "_" ++
  (if String.eqb suffix "" then "" else suffix ++ "_").

Lemma st_eq : stem name species suffix block = st.
Proof. reflexivity. Qed.

Notation frames := (frames_of name species suffix block dir).

(** One number names that frame, a comma list those frames in that order;
    neither looks at the files. *)
Theorem C63_one z i j : frames (blanks i ++ show_Z z ++ blanks j) = Ok [z].
Proof.
  rewrite frames_strip by apply no_blank_show. unfold frames_of.
  assert (strip (show_Z z) = show_Z z) as ->.
  { pose proof (strip_blanks 0 0 (show_Z z) (no_blank_show z)) as E. cbn [blanks String.append] in E.
    assert (Q : show_Z z ++ "" = show_Z z) by (clear; induction (show_Z z); simpl; congruence). now rewrite Q in E. }
  rewrite no_comma_show, no_colon_show. cbn [negb]. now rewrite py_int_show_Z.
Qed.

Lemma no_comma_blanks n : has_char "," (blanks n) = false.
Proof. induction n; [reflexivity|exact IHn]. Qed.

(** Blanks are also allowed around every number of a list. *)
Theorem C63_list (zs : list (nat * Z * nat)) :
  2 <= length zs ->
  frames (join "," (List.map (fun x => let '(k, z, m) := x in blanks k ++ show_Z z ++ blanks m) zs)) = Ok (List.map (fun x => snd (fst x)) zs).
Proof.
  intros L. unfold frames_of.
  set (txt := fun x : nat * Z * nat => let '(k, z, m) := x in blanks k ++ show_Z z ++ blanks m).
  assert (NC : forall x, has_char "," (txt x) = false).
  { intros [[k z] m]. unfold txt. rewrite !has_char_app, !no_comma_blanks, no_comma_show. reflexivity. }
  (* stripping the whole text only touches the outer numbers *)
  assert (R0 : forall k s, rstrip (s ++ blanks k) = rstrip s).
  { clear. intros k s. induction s as [|c s IH]; [apply rstrip_blanks|]. cbn [String.append rstrip]. now rewrite IH. }
  assert (R1 : forall s t, rstrip t <> "" -> rstrip (s ++ t) = s ++ rstrip t).
  { clear. intros s t H. induction s as [|c s IH]; [reflexivity|]. cbn [String.append rstrip]. rewrite IH.
    destruct (s ++ rstrip t) eqn:E; [|reflexivity]. destruct s; [contradiction|discriminate]. }
  assert (SZ : forall z k, rstrip (show_Z z ++ blanks k) = show_Z z) by (intros; apply rstrip_app, no_blank_show).
  (* a list of at least one number, with any blanks before, stripped on the right *)
  assert (RJ : forall ys pre, ys <> [] -> exists ys', rstrip (pre ++ join "," (List.map txt ys)) = pre ++ join "," ys' /\
      Forall2 (fun x s => has_char "," s = false /\ exists a b, s = blanks a ++ show_Z (snd (fst x)) ++ blanks b) ys ys').
  { induction ys as [|[[k z] m] ys IH]; intros pre NE; [congruence|]. destruct ys as [|y ys].
    - exists [blanks k ++ show_Z z]. split.
      + cbn [List.map join]. unfold txt. rewrite <- append_assoc, <- append_assoc. rewrite R0.
        rewrite append_assoc.
        assert (Q : rstrip (blanks k ++ show_Z z) = blanks k ++ show_Z z).
        { rewrite R1; replace (rstrip (show_Z z)) with (show_Z z) by (rewrite <- (SZ z 0) at 1; now rewrite R0);
            [reflexivity|apply show_Z_nonempty]. }
        rewrite R1; rewrite Q; [reflexivity|].
        intros E. destruct (blanks k); [now apply show_Z_nonempty in E|discriminate].
      + constructor; [|constructor]. split.
        * rewrite has_char_app, no_comma_blanks, no_comma_show. reflexivity.
        * exists k, 0. cbn [blanks fst snd]. f_equal. clear. induction (show_Z z); simpl; congruence.
    - destruct (IH (pre ++ txt (k, z, m) ++ ",")) as (ys' & E & F); [discriminate|].
      exists (txt (k, z, m) :: ys'). split.
      + change (List.map txt ((k, z, m) :: y :: ys)) with (txt (k, z, m) :: List.map txt (y :: ys)).
        destruct ys' as [|y' ys']; [inversion F|].
        change (join "," (txt (k, z, m) :: List.map txt (y :: ys))) with (txt (k, z, m) ++ "," ++ join "," (List.map txt (y :: ys))).
        change (join "," (txt (k, z, m) :: y' :: ys')) with (txt (k, z, m) ++ "," ++ join "," (y' :: ys')).
        rewrite !append_assoc in E. exact E.
      + constructor; [|exact F]. split; [apply NC|]. exists k, m. reflexivity. }
  destruct zs as [|[[k z] m] zs]; [simpl in L; lia|].
  destruct zs as [|y zs]; [simpl in L; lia|]. clear L.
  (* strip on the left *)
  assert (E0 : strip (join "," (List.map txt ((k, z, m) :: y :: zs))) =
               rstrip ((show_Z z ++ blanks m ++ ",") ++ join "," (List.map txt (y :: zs)))).
  { unfold strip. f_equal.
    change (join "," (List.map txt ((k, z, m) :: y :: zs))) with (txt (k, z, m) ++ "," ++ join "," (List.map txt (y :: zs))).
    unfold txt at 1. rewrite append_assoc, lstrip_blanks, append_assoc. rewrite lstrip_pre by (apply no_blank_show || apply show_Z_nonempty).
    now rewrite !append_assoc. }
  rewrite E0. destruct (RJ (y :: zs) (show_Z z ++ blanks m ++ ",")) as (ys' & E1 & F); [discriminate|].
  rewrite E1. destruct ys' as [|y' ys']; [inversion F|].
  assert (E2 : (show_Z z ++ blanks m ++ ",") ++ join "," (y' :: ys') = join "," ((show_Z z ++ blanks m) :: y' :: ys')).
  { change (join "," ((show_Z z ++ blanks m) :: y' :: ys')) with ((show_Z z ++ blanks m) ++ "," ++ join "," (y' :: ys')).
    now rewrite !append_assoc. }
  rewrite E2.
  assert (C : has_char "," (join "," ((show_Z z ++ blanks m) :: y' :: ys')) = true).
  { change (join "," ((show_Z z ++ blanks m) :: y' :: ys')) with ((show_Z z ++ blanks m) ++ "," ++ join "," (y' :: ys')).
    rewrite has_char_app. cbn [String.append has_char]. rewrite Ascii.eqb_refl. cbn. apply orb_true_r. }
  rewrite C. rewrite (split_join ",").
  2:{ discriminate. }
  2:{ constructor; [rewrite has_char_app, no_comma_show, no_comma_blanks; reflexivity|].
      clear - F. set (l := y' :: ys') in *. clearbody l. induction F; constructor; tauto. }
  cbn [mapM List.map fst snd].
  assert (P : forall a b w, py_int (strip (blanks a ++ show_Z w ++ blanks b)) = Ok w).
  { intros. rewrite strip_blanks by apply no_blank_show. apply py_int_show_Z. }
  rewrite (P 0 m z : py_int (strip (show_Z z ++ blanks m)) = Ok z). cbn [bind].
  assert (M : mapM (fun f => py_int (strip f)) (y' :: ys') = Ok (List.map (fun x => snd (fst x)) (y :: zs))).
  { clear - F P. induction F as [|x s xs ss (Hc & a & b & ->) F IH]; [reflexivity|]. cbn [mapM List.map]. rewrite P. cbn [bind]. now rewrite IH. }
  cbn [mapM List.map] in M. rewrite M. reflexivity.
Qed.

Lemma strip_none s : has_char " " s = false -> strip s = s.
Proof.
  intros H. pose proof (strip_blanks 0 0 s H) as E. cbn [blanks String.append] in E.
  assert (Q : s ++ "" = s) by (clear; induction s; simpl; congruence). now rewrite Q in E.
Qed.

(** The text of a range. *)
Definition range_text (a b : option Z) (c : option Z) : string :=
  show_opt a ++ ":" ++ show_opt b ++ match c with Some z => ":" ++ show_Z z | None => "" end.

Lemma range_text_split a b c :
  has_char " " (range_text a b c) = false /\ has_char "," (range_text a b c) = false /\ has_char ":" (range_text a b c) = true /\
  split_on ":" (range_text a b c) = show_opt a :: show_opt b :: match c with Some z => [show_Z z] | None => [] end.
Proof.
  unfold range_text. destruct c as [z|].
  - change (":" ++ show_opt b ++ ":" ++ show_Z z) with (String ":" (show_opt b ++ String ":" (show_Z z))).
    repeat split.
    + rewrite has_char_app, no_blank_opt. cbn [has_char]. rewrite has_char_app, no_blank_opt. cbn [has_char]. now rewrite no_blank_show.
    + rewrite has_char_app, no_comma_opt. cbn [has_char]. rewrite has_char_app, no_comma_opt. cbn [has_char]. now rewrite no_comma_show.
    + rewrite has_char_app. simpl. apply orb_true_r.
    + rewrite split_on_app by apply no_colon_opt. rewrite split_on_app by apply no_colon_opt. now rewrite split_on_none by apply no_colon_show.
  - assert (show_opt b ++ "" = show_opt b) as -> by (clear; induction (show_opt b); simpl; congruence).
    change (":" ++ show_opt b) with (String ":" (show_opt b)). repeat split.
    + rewrite has_char_app, no_blank_opt. cbn [has_char]. now rewrite no_blank_opt.
    + rewrite has_char_app, no_comma_opt. cbn [has_char]. now rewrite no_comma_opt.
    + rewrite has_char_app. simpl. apply orb_true_r.
    + rewrite split_on_app by apply no_colon_opt. now rewrite split_on_none by apply no_colon_opt.
Qed.

Lemma show_opt_empty a : String.eqb (show_opt a) "" = match a with None => true | _ => false end.
Proof. destruct a as [z|]; [|reflexivity]. cbn. destruct (String.eqb_spec (show_Z z) ""); [now apply show_Z_nonempty in e|reflexivity]. Qed.

Lemma low_end_ok a lo : low_end st dir a lo ->
  (if String.eqb (show_opt a) "" then match available st dir with x :: _ => Ok x | [] => Err IndexError end else py_int (show_opt a)) = Ok lo.
Proof.
  rewrite show_opt_empty. destruct a as [z|]; cbn [low_end show_opt].
  - intros ->. apply py_int_show_Z.
  - intros [H M]. pose proof (available_sorted st dir) as S. apply available_In in H.
    destruct (available st dir) as [|x l] eqn:E; [destruct H|]. f_equal.
    pose proof (sorted_hd l x S lo H).
    assert (lo <= x)%Z by (apply M, available_In; rewrite E; now left). lia.
Qed.

Lemma high_end_ok b hi : high_end st dir b hi ->
  (if String.eqb (show_opt b) "" then match available st dir with [] => Err IndexError | _ => Ok (last (available st dir) 0 + 1)%Z end else py_int (show_opt b)) = Ok hi.
Proof.
  rewrite show_opt_empty. destruct b as [z|]; cbn [high_end show_opt].
  - intros ->. apply py_int_show_Z.
  - intros [H M]. pose proof (available_sorted st dir) as S. apply available_In in H.
    pose proof (sorted_last (available st dir) 0 S _ H) as A.
    assert (B : (last (available st dir) 0 < hi)%Z).
    { apply M, available_In, last_In_Z. intros E. rewrite E in H. destruct H. }
    destruct (available st dir) as [|x l] eqn:E; [destruct H|]. f_equal. lia.
Qed.

Lemma StronglySorted_filter {A} (R : A -> A -> Prop) p l : StronglySorted R l -> StronglySorted R (filter p l).
Proof.
  intros S. induction S as [|x l S IH F]; cbn [filter]; [constructor|]. destruct (p x); [|exact IH]. constructor; [exact IH|].
  rewrite Forall_forall in *. intros y Hy. apply filter_In in Hy. now apply F.
Qed.

(** A range picks from the frames present, in increasing order, those from its
    lower end on, below its upper end and in steps from the lower end; an end
    left out is that of the frames present, the step is one if left out. *)
Theorem C63_range a b c lo hi i j :
  c <> Some 0%Z -> low_end st dir a lo -> high_end st dir b hi ->
  exists fr, frames (blanks i ++ range_text a b c ++ blanks j) = Ok fr /\ StronglySorted Z.lt fr /\
    forall f, In f fr <-> has_frame st dir f /\ (lo <= f < hi)%Z /\ (match c with Some s => s | None => 1%Z end | f - lo)%Z.
Proof.
  intros Hc HL HH. destruct (range_text_split a b c) as (B & C & D & S).
  rewrite frames_strip by exact B. unfold frames_of. rewrite strip_none, C, D, S by exact B. cbn [negb].
  rewrite st_eq, (low_end_ok a lo HL), (high_end_ok b hi HH). cbn [bind].
  assert (E : (match match c with Some z => [show_Z z] | None => [] end with
     | [p2] => if String.eqb p2 "" then Ok 1%Z else py_int p2 | _ => Ok 1%Z end) = Ok (match c with Some s => s | None => 1%Z end)).
  { destruct c as [z|]; [|reflexivity]. destruct (String.eqb_spec (show_Z z) ""); [now apply show_Z_nonempty in e|]. apply py_int_show_Z. }
  rewrite E. cbn [bind]. set (s := match c with Some s => s | None => 1%Z end).
  assert (Hs : s <> 0%Z) by (unfold s; destruct c; congruence).
  destruct (Z.eqb_spec s 0); [contradiction|]. rewrite andb_false_r.
  eexists. split; [reflexivity|]. split; [apply StronglySorted_filter, available_sorted|].
  intros f. rewrite filter_In, available_In, !andb_true_iff, Z.leb_le, Z.ltb_lt, Z.eqb_eq, Z.mod_divide by exact Hs. tauto.
Qed.

(** Without any file an open end is an error; a range with both ends given is
    then empty. *)
Theorem C63_no_files a b c i j :
  (forall f, ~ has_frame st dir f) ->
  frames (blanks i ++ range_text a b c ++ blanks j) =
  match a, b with Some _, Some _ => Ok [] | _, _ => Err IndexError end.
Proof.
  intros H. destruct (range_text_split a b c) as (B & C & D & S).
  rewrite frames_strip by exact B. unfold frames_of. rewrite strip_none, C, D, S by exact B. cbn [negb]. rewrite st_eq.
  assert (available st dir = []) as ->.
  { destruct (available st dir) as [|x l] eqn:E; [reflexivity|]. exfalso. apply (H x), available_In. rewrite E. now left. }
  rewrite !show_opt_empty.
  destruct a as [x|]; [|reflexivity]. cbn [show_opt]. rewrite py_int_show_Z. cbn [bind].
  destruct b as [y|]; [|reflexivity]. cbn [show_opt]. rewrite py_int_show_Z. cbn [bind].
  destruct c as [z|]; cbn [existsb List.filter andb bind]; [|reflexivity].
  destruct (String.eqb_spec (show_Z z) ""); [now apply show_Z_nonempty in e|]. now rewrite py_int_show_Z.
Qed.

(** A step of zero is an error if a frame lies in the range, and is not noticed
    otherwise. *)
Theorem C63_zero_step a b lo hi :
  low_end st dir a lo -> high_end st dir b hi ->
  ((exists f, has_frame st dir f /\ (lo <= f < hi)%Z) -> frames (range_text a b (Some 0%Z)) = Err ZeroDivisionError) /\
  ((forall f, has_frame st dir f -> ~ (lo <= f < hi)%Z) -> frames (range_text a b (Some 0%Z)) = Ok []).
Proof.
  intros HL HH. destruct (range_text_split a b (Some 0%Z)) as (B & C & D & S).
  unfold frames_of. rewrite strip_none, C, D, S by exact B. cbn [negb].
  rewrite st_eq, (low_end_ok a lo HL), (high_end_ok b hi HH). cbn [bind]. cbn [show_Z String.eqb Ascii.eqb Bool.eqb]. 
  change (py_int "0") with (Ok 0%Z). cbn [bind]. rewrite Z.eqb_refl, andb_true_r. split.
  - intros (f & Hf & R). assert (existsb (fun f => (lo <=? f) && (f <? hi))%Z (available st dir) = true) as ->; [|reflexivity].
    apply existsb_exists. exists f. split; [now apply available_In|]. rewrite andb_true_iff, Z.leb_le, Z.ltb_lt. lia.
  - intros H. assert (existsb (fun f => (lo <=? f) && (f <? hi))%Z (available st dir) = false) as ->.
    { destruct (existsb _ _) eqn:E; [|reflexivity]. exfalso. apply existsb_exists in E. destruct E as (f & Hf & R).
      rewrite andb_true_iff, Z.leb_le, Z.ltb_lt in R. apply available_In in Hf. now apply (H f Hf). }
    f_equal. assert (Q : forall l, (forall f, In f l -> has_frame st dir f) -> filter (fun f => ((lo <=? f) && (f <? hi) && ((f - lo) mod 0 =? 0))%Z) l = []).
    { induction l as [|f l IH]; intros G; [reflexivity|]. cbn [filter].
      destruct ((lo <=? f) && (f <? hi))%Z eqn:E; cbn [andb].
      - exfalso. rewrite andb_true_iff, Z.leb_le, Z.ltb_lt in E. apply (H f); [apply G; now left|lia].
      - apply IH. intros g Hg. apply G. now right. }
    apply Q. intros f Hf. now apply available_In.
Qed.

(** If no file number is written with leading zeros, every frame of a range is
    then loaded from a file that exists. *)
Theorem C63_loads a b c i j fr :
  (forall s n, In (st ++ s ++ ".gkyl") dir -> digits_val s = Some n -> s = show_Z (Z.of_N n)) ->
  frames (blanks i ++ range_text a b c ++ blanks j) = Ok fr ->
  forall f, In f fr -> In (jf_name name species suffix block f) dir.
Proof.
  intros Can H f Hf. destruct (range_text_split a b c) as (B & C & D & S).
  rewrite frames_strip in H by exact B. unfold frames_of in H. rewrite strip_none, C, D, S in H by exact B. cbn [negb] in H. rewrite st_eq in H.
  destruct (if String.eqb (show_opt a) "" then _ else _) as [lo|]; [|discriminate]. cbn [bind] in H.
  destruct (if String.eqb (show_opt b) "" then _ else _) as [hi|]; [|discriminate]. cbn [bind] in H.
  match type of H with bind ?m _ = _ => destruct m as [s|]; [|discriminate] end. cbn [bind] in H.
  destruct (_ && _); [discriminate|]. injection H as <-. apply filter_In in Hf. destruct Hf as [Hf _].
  apply available_In in Hf. destruct Hf as (w & n & I & E & ->). unfold jf_name. rewrite st_eq. now rewrite <- (Can w n I E).
Qed.

End Frames.

(** With leading zeros a range names a frame whose file does not exist under
    the name used to load it. *)
Theorem C63_leading_zeros_refuted :
  exists name species dir fr f, frames_of name species "" None dir ":" = Ok fr /\ In f fr /\
    ~ In (jf_name name species "" None f) dir.
Proof.
  exists "sim", "ion", ["sim-ion_007.gkyl"], [7%Z], 7%Z. split; [reflexivity|]. split; [now left|]. vm_compute. intuition discriminate.
Qed.

(** With a further colon the step is ignored. *)
Theorem C63_extra_colon_refuted :
  exists dir fr, frames_of "sim" "ion" "" None dir "0:9:2:" = Ok fr /\ In 1%Z fr.
Proof. exists ["sim-ion_0.gkyl"; "sim-ion_1.gkyl"], [0; 1]%Z. split; [reflexivity|]. right. now left. Qed.

(** A negative end does not count from the last frame as in Python slices. *)
Theorem C63_negative_refuted :
  exists dir fr, frames_of "sim" "ion" "" None dir "-1:" = Ok fr /\ fr = [0; 1; 2]%Z.
Proof. exists ["sim-ion_2.gkyl"; "sim-ion_0.gkyl"; "sim-ion_1.gkyl"]. eexists. split; reflexivity. Qed.

Example C63_ex :
  let dir := ["sim-ion_10.gkyl"; "sim-ion_2.gkyl"; "sim-ion_jacobvel.gkyl"; "sim-ion_5.gkyl"; "sim-elc_3.gkyl"; "sim-ion_8.gkyl"] in
  frames_of "sim" "ion" "" None dir "2::3" = Ok [2; 5; 8]%Z /\
  frames_of "sim" "ion" "" None dir ":9" = Ok [2; 5; 8]%Z /\
  frames_of "sim" "ion" "" None dir " 4, 17 " = Ok [4; 17]%Z /\
  frames_of "sim" "ion" "M" None dir ":" = Err IndexError /\
  frames_of "sim" "ion" "" None dir "2:9:0" = Err ZeroDivisionError.
Proof. vm_compute. repeat split. Qed.

(** The mapping options: absent is off, given without a value is on with the
    default file, given with a value uses that file. *)
Theorem C63_option v :
  resolve_optional_file_option v = (match v with None => false | _ => true end, match v with Some s => if String.eqb s "" then None else Some s | None => None end).
Proof. destruct v as [s|]; [|reflexivity]. cbn. destruct (String.eqb s ""); reflexivity. Qed.

Print Assumptions C63_list.
Print Assumptions C63_range.
Print Assumptions C63_no_files.
Print Assumptions C63_zero_step.
Print Assumptions C63_loads.
Print Assumptions C63_leading_zeros_refuted.
