(** * C101: style files, rcParams and the settings of a plot *)
From Coq Require Import String Ascii List Arith Bool Lia.
From Verif Require Import Prelude PreludeFacts Listing_Props Style_Model.
Import ListNotations.
Open Scope list_scope.
Open Scope string_scope.

(** ** Specification *)

(** Made of white space: tab, the line and page breaks, the separators and the blank. *)
Definition white (s : string) : Prop :=
  forall c, has_char c s = true -> In (nat_of_ascii c) [9; 10; 11; 12; 13; 28; 29; 30; 31; 32]%nat.

(** No white space at either end. *)
Definition tight (s : string) : Prop := forall p r q, s = p ++ r ++ q -> white p -> white q -> p = "" /\ q = "".

(** A line or argument names a key and a value: they are separated by the first
    colon, white space around them does not belong to them. *)
Definition spells (line k v : string) : Prop :=
  tight k /\ tight v /\ has_char ":" k = false /\
  exists p1 p2 p3 p4, white p1 /\ white p2 /\ white p3 /\ white p4 /\
    (line = p1 ++ k ++ p2 ++ ":" ++ p3 ++ v ++ p4 \/ (line = p1 ++ k ++ p2 /\ v = "")).

(** The last line that names [k] gives it the value [v]. *)
Definition last_says {B} (says : string -> string -> B -> Prop) (ls : list string) (k : string) (v : B) : Prop :=
  exists l1 line l2, ls = (l1 ++ line :: l2)%list /\ says line k v /\ forall line' v', In line' l2 -> ~ says line' k v'.

(** ** White space *)

Lemma is_space_iff c : is_space c = true <-> In (nat_of_ascii c) [9; 10; 11; 12; 13; 28; 29; 30; 31; 32]%nat.
Proof.
  unfold is_space. set (n := nat_of_ascii c). clearbody n. rewrite orb_true_iff, !andb_true_iff, !Nat.leb_le. cbn. split; [|intuition lia].
  intros H. assert (n = 9 \/ n = 10 \/ n = 11 \/ n = 12 \/ n = 13 \/ n = 28 \/ n = 29 \/ n = 30 \/ n = 31 \/ n = 32)%nat as K by lia.
  intuition.
Qed.

Lemma white_nil : white "".
Proof. intros c H. discriminate. Qed.

Lemma white_cons c s : white (String c s) <-> is_space c = true /\ white s.
Proof.
  unfold white. split.
  - intros H. split; [apply is_space_iff, H; cbn; now rewrite Ascii.eqb_refl|]. intros d Hd. apply H. cbn. rewrite Hd. apply orb_true_r.
  - intros (H1 & H2) d. cbn [has_char]. rewrite orb_true_iff, Ascii.eqb_eq. intros [<-|Hd]; [now apply is_space_iff|now apply H2].
Qed.

Lemma white_app s t : white (s ++ t) <-> white s /\ white t.
Proof.
  induction s as [|c s IH]; cbn [append]; [split; [intros H; split; [apply white_nil|exact H]|tauto]|]. rewrite !white_cons, IH. tauto.
Qed.

Lemma white_colon s : white s -> has_char ":" s = false.
Proof. intros H. destruct (has_char ":" s) eqn:E; [|reflexivity]. specialize (H _ E). cbn in H. intuition discriminate. Qed.

Lemma lstrip_split s : exists p, white p /\ s = p ++ lstrip s.
Proof.
  induction s as [|c s (p & Hp & E)]; [exists ""; split; [apply white_nil|reflexivity]|]. cbn [lstrip]. destruct (is_space c) eqn:Ec.
  - exists (String c p). split; [now apply white_cons|]. cbn. now rewrite <- E.
  - exists "". split; [apply white_nil|reflexivity].
Qed.

Lemma rstrip_split s : exists q, white q /\ s = rstrip s ++ q.
Proof.
  induction s as [|c s (q & Hq & E)]; [exists ""; split; [apply white_nil|reflexivity]|]. cbn [rstrip]. destruct (rstrip s) as [|a r] eqn:Er.
  - cbn in E. subst q. destruct (is_space c) eqn:Ec.
    + exists (String c s). split; [now apply white_cons|reflexivity].
    + exists s. split; [exact Hq|reflexivity].
  - exists q. split; [exact Hq|]. cbn. f_equal. exact E.
Qed.

Lemma lstrip_white p s : white p -> lstrip (p ++ s) = lstrip s.
Proof. induction p as [|c p IH]; [reflexivity|]. rewrite white_cons. intros (H1 & H2). cbn. now rewrite H1, IH. Qed.

Lemma rstrip_nil s : white s -> rstrip s = "".
Proof. induction s as [|c s IH]; [reflexivity|]. rewrite white_cons. intros (H1 & H2). cbn. now rewrite IH, H1. Qed.

Lemma rstrip_white s q : white q -> rstrip (s ++ q) = rstrip s.
Proof. intros H. induction s as [|c s IH]; [now apply rstrip_nil|]. cbn. now rewrite IH. Qed.

Lemma app_same_nil s q : s = s ++ q -> q = "".
Proof. intros E. assert (L : String.length s = (String.length s + String.length q)%nat) by (rewrite <- length_app_s; congruence). destruct q; [reflexivity|cbn in L; lia]. Qed.

Lemma tight_strips s : tight s -> lstrip s = s /\ rstrip s = s.
Proof.
  intros T. split.
  - destruct (lstrip_split s) as (p & Hp & E). destruct (T p (lstrip s) "") as (-> & _); [now rewrite app_nil_s|exact Hp|apply white_nil|]. now symmetry.
  - destruct (rstrip_split s) as (q & Hq & E). destruct (T "" (rstrip s) q) as (_ & ->); [exact E|apply white_nil|exact Hq|]. rewrite app_nil_s in E. now symmetry.
Qed.

Lemma strip_tight p s q : white p -> white q -> tight s -> strip (p ++ s ++ q) = s.
Proof.
  intros Hp Hq T. destruct (tight_strips s T) as (L & R). unfold strip. rewrite lstrip_white by exact Hp. destruct s as [|c s].
  - cbn [append]. rewrite <- (app_nil_s q). rewrite lstrip_white by exact Hq. reflexivity.
  - assert (Ec : is_space c = false).
    { destruct (is_space c) eqn:E; [|reflexivity]. destruct (T (String c "") s "") as (K & _); [cbn; now rewrite app_nil_s|apply white_cons; split; [exact E|apply white_nil]|apply white_nil|discriminate]. }
    cbn [append lstrip]. rewrite Ec. change (String c (s ++ q)) with (String c s ++ q). now rewrite rstrip_white.
Qed.

Lemma lstrip_head s : lstrip s = "" \/ exists c t, lstrip s = String c t /\ is_space c = false.
Proof. induction s as [|c s IH]; [now left|]. cbn. destruct (is_space c) eqn:E; [exact IH|]. right. eauto. Qed.

Lemma rstrip_last s : forall r q, rstrip s = r ++ q -> white q -> q = "".
Proof.
  induction s as [|c s IH]; cbn [rstrip].
  - intros r q E _. destruct r; [|discriminate]. now symmetry.
  - destruct (rstrip s) as [|a t] eqn:Er.
    + destruct (is_space c) eqn:Ec; intros r q E Hq.
      * destruct r; [|discriminate]. now symmetry.
      * destruct r as [|b r]; [|destruct r; [now injection E|discriminate]]. cbn in E. subst q. apply white_cons in Hq as (K & _). congruence.
    + intros [|b r] q E Hq.
      * cbn in E. subst q. exfalso. apply white_cons in Hq as (_ & Hq). assert (K := IH "" _ eq_refl Hq). discriminate.
      * cbn in E. injection E as <- E. exact (IH r q E Hq).
Qed.

Lemma strip_is_tight s : tight (strip s).
Proof.
  unfold strip. intros p r q E Hp Hq. assert (Q : q = "") by (apply (rstrip_last (lstrip s) (p ++ r)); [now rewrite app_assoc_s|exact Hq]).
  split; [|exact Q]. subst q. rewrite app_nil_s in E. destruct p as [|c p]; [reflexivity|exfalso]. apply white_cons in Hp as (Ec & _).
  destruct (lstrip_head s) as [El|(d & t & El & Ed)]; rewrite El in E; [discriminate|].
  destruct (rstrip_split (String d t)) as (q & _ & Eq). rewrite E in Eq. cbn in Eq. injection Eq as -> _. congruence.
Qed.

Lemma strip_split s : exists p q, white p /\ white q /\ s = p ++ strip s ++ q.
Proof.
  destruct (lstrip_split s) as (p & Hp & E). destruct (rstrip_split (lstrip s)) as (q & Hq & E'). exists p, q. split; [exact Hp|]. split; [exact Hq|].
  unfold strip. now rewrite <- E'.
Qed.

(** ** Keys and values of lines *)

Lemma split_hd s t : has_char ":" s = false -> List.hd "" (split_on ":" (s ++ String ":" t)) = s.
Proof. intros H. now rewrite split_on_app. Qed.

Lemma from_app s t : from (String.length s) (s ++ t) = t.
Proof. induction s as [|c s IH]; [now destruct t|exact IH]. Qed.

Lemma from_end s n : (String.length s <= n)%nat -> from n s = "".
Proof. revert n. induction s as [|c s IH]; intros [|n] H; cbn in *; try reflexivity; [lia|]. apply IH. lia. Qed.

Lemma first_colon s : (exists a b, s = a ++ String ":" b /\ has_char ":" a = false) \/ has_char ":" s = false.
Proof.
  induction s as [|c s IH]; [now right|]. destruct (Ascii.eqb_spec c ":") as [->|N].
  - left. now exists "", s.
  - assert (Nb : Ascii.eqb ":" c = false) by (apply Ascii.eqb_neq; congruence). assert (Nb' : Ascii.eqb c ":" = false) by now apply Ascii.eqb_neq.
    destruct IH as [(a & b & -> & Ha)|H].
    + left. exists (String c a), b. split; [reflexivity|]. cbn. rewrite ?Nb, ?Nb', Ha. reflexivity.
    + right. cbn. rewrite ?Nb, ?Nb', H. reflexivity.
Qed.

Lemma key_value_colon a b : has_char ":" a = false -> key_value (a ++ String ":" b) = (strip a, strip b).
Proof.
  intros H. unfold key_value. rewrite split_hd by exact H. f_equal. f_equal.
  replace (a ++ String ":" b) with ((a ++ ":") ++ b) by now rewrite app_assoc_s.
  replace (String.length a + 1)%nat with (String.length (a ++ ":")) by (rewrite length_app_s; reflexivity). apply from_app.
Qed.

Lemma key_value_plain s : has_char ":" s = false -> key_value s = (strip s, "").
Proof. intros H. unfold key_value. rewrite split_on_none by exact H. cbn [List.hd]. rewrite from_end by lia. reflexivity. Qed.

(** Every line names exactly one key with one value. *)
Theorem C101_line line k v : key_value line = (k, v) <-> spells line k v.
Proof.
  split.
  - intros E. destruct (first_colon line) as [(a & b & -> & Ha)|H].
    + rewrite key_value_colon in E by exact Ha. injection E as <- <-.
      destruct (strip_split a) as (p1 & p2 & H1 & H2 & Ea). destruct (strip_split b) as (p3 & p4 & H3 & H4 & Eb).
      split; [apply strip_is_tight|]. split; [apply strip_is_tight|]. split.
      * rewrite Ea in Ha. rewrite !has_char_app in Ha. apply orb_false_iff in Ha as (_ & Ha). now apply orb_false_iff in Ha as (Ha & _).
      * exists p1, p2, p3, p4. repeat (split; [assumption|]). left. rewrite Ea at 1. rewrite Eb at 1. cbn [append]. now rewrite !app_assoc_s.
    + rewrite key_value_plain in E by exact H. injection E as <- <-. destruct (strip_split line) as (p1 & p2 & H1 & H2 & Ea).
      split; [apply strip_is_tight|]. split; [|split].
      * intros p r q E _ _. destruct p; [|discriminate]. destruct r; [|discriminate]. auto.
      * rewrite Ea in H. rewrite !has_char_app in H. apply orb_false_iff in H as (_ & H). now apply orb_false_iff in H as (H & _).
      * exists p1, p2, "", "". repeat (split; [assumption || apply white_nil|]). right. auto.
  - intros (Tk & Tv & Ck & p1 & p2 & p3 & p4 & H1 & H2 & H3 & H4 & [->|(-> & ->)]).
    + replace (p1 ++ k ++ p2 ++ ":" ++ p3 ++ v ++ p4) with ((p1 ++ k ++ p2) ++ String ":" (p3 ++ v ++ p4)) by (cbn [append]; now rewrite !app_assoc_s).
      rewrite key_value_colon; [now rewrite !strip_tight|]. rewrite !has_char_app, Ck, !white_colon by assumption. reflexivity.
    + rewrite key_value_plain; [now rewrite strip_tight|]. rewrite !has_char_app, Ck, !white_colon by assumption. reflexivity.
Qed.

(** ** Dictionaries *)

Section Dict.
  Context {A : Type}.
  Implicit Types d : dict A.

  Lemma set_keys k (v : value A) d : NoDup (List.map fst d) -> NoDup (List.map fst (set k v d)) /\ forall k', In k' (List.map fst (set k v d)) <-> k' = k \/ In k' (List.map fst d).
  Proof.
    induction d as [|(a, w) d IH]; intros N; cbn.
    - split; [repeat constructor; auto|]. intros k'. intuition.
    - inversion N as [|? ? Na Nd]; subst. destruct (String.eqb_spec a k) as [->|Ne]; cbn.
      + split; [now constructor|]. intros k'. intuition.
      + destruct (IH Nd) as (H1 & H2). split; [constructor; [rewrite H2; intuition|exact H1]|]. intros k'. rewrite H2. intuition.
  Qed.

  Lemma set_in k (v : value A) d : NoDup (List.map fst d) -> forall k' v', In (k', v') (set k v d) <-> (k' = k /\ v' = v) \/ (k' <> k /\ In (k', v') d).
  Proof.
    induction d as [|(a, w) d IH]; intros N k' v'; cbn.
    - split; [intros [E|[]]; injection E as <- <-; auto|intros [(-> & ->)|(_ & [])]; auto].
    - inversion N as [|? ? Na Nd]; subst. assert (Nin : forall x, ~ In (a, x) d) by (intros x Hx; apply Na; change a with (fst (a, x)); now apply in_map).
      destruct (String.eqb_spec a k) as [->|Ne]; cbn.
      + split.
        * intros [E|H]; [injection E as <- <-; auto|]. right. split; [intros ->; exact (Nin _ H)|auto].
        * intros [(-> & ->)|(Hk & [E|H])]; auto. injection E as E1 E2. congruence.
      + rewrite (IH Nd). split.
        * intros [E|[H|H]]; auto; [injection E as <- <-; auto|tauto].
        * tauto.
  Qed.

  (** Assigning several times. *)
  Definition assign d (kvs : list (string * value A)) : dict A := fold_left (fun d kv => set (fst kv) (snd kv) d) kvs d.

  Lemma assign_spec kvs d : NoDup (List.map fst d) -> NoDup (List.map fst (assign d kvs)) /\
    forall k v, In (k, v) (assign d kvs) <-> (exists l1 l2, kvs = (l1 ++ (k, v) :: l2)%list /\ ~ In k (List.map fst l2)) \/ (In (k, v) d /\ ~ In k (List.map fst kvs)).
  Proof.
    revert d. induction kvs as [|(a, w) kvs IH]; intros d N.
    - split; [exact N|]. intros k v. cbn. split; [auto|]. intros [(l1 & l2 & E & _)|(H & _)]; [destruct l1; discriminate|exact H].
    - cbn [assign fold_left fst snd]. fold (assign (set a w d) kvs). destruct (set_keys a w d N) as (N' & _). destruct (IH _ N') as (H1 & H2).
      split; [exact H1|]. intros k v. rewrite H2, (set_in a w d N). cbn [List.map fst In]. split.
      + intros [(l1 & l2 & -> & Hl)|([(-> & ->)|(Hk & Hd)] & Hn)].
        * left. exists ((a, w) :: l1), l2. auto.
        * left. exists [], kvs. auto.
        * right. intuition.
      + intros [(l1 & l2 & E & Hl)|(Hd & Hn)].
        * destruct l1 as [|x l1]; cbn in E.
          -- injection E as -> -> ->. right. auto.
          -- injection E as _ ->. left. exists l1, l2. auto.
        * right. intuition.
  Qed.
End Dict.

(** ** Lines of files *)

Lemma white_newline : white (String newline "").
Proof. apply white_cons. split; [reflexivity|apply white_nil]. Qed.

Lemma readlines_line l s : has_char newline l = false -> readlines (l ++ String newline s) = (l ++ String newline "")%string :: readlines s.
Proof.
  induction l as [|c l IH]; intros H; [reflexivity|]. cbn [has_char] in H. apply orb_false_iff in H as (Hc & Hl).
  cbn [append readlines]. rewrite IH by exact Hl. now rewrite Hc.
Qed.

Lemma readlines_last l : has_char newline l = false -> readlines l = if String.eqb l "" then [] else [l].
Proof.
  induction l as [|c l IH]; intros H; [reflexivity|]. cbn [has_char] in H. apply orb_false_iff in H as (Hc & Hl).
  cbn [readlines]. rewrite IH by exact Hl. rewrite Hc.
  destruct l; reflexivity.
Qed.

(** The text of a file with these lines; the last one has no newline (and counts
    only if it is not empty). *)
Fixpoint text (ls : list string) (last : string) : string :=
  match ls with [] => last | l :: ls' => l ++ String newline (text ls' last) end.

Definition lines_of (ls : list string) (last : string) : list string := if String.eqb last "" then ls else (ls ++ [last])%list.

Lemma readlines_text ls last : Forall (fun l => has_char newline l = false) ls -> has_char newline last = false ->
  readlines (text ls last) = (List.map (fun l => (l ++ String newline "")%string) ls ++ (if String.eqb last "" then [] else [last]))%list.
Proof.
  intros F H. induction F as [|l ls Hl F IH]; [now apply readlines_last|]. cbn [text List.map app]. now rewrite readlines_line, IH.
Qed.

Lemma spells_newline l k v : spells l k v -> spells (l ++ String newline "") k v.
Proof.
  intros (H1 & H2 & H3 & p1 & p2 & p3 & p4 & W1 & W2 & W3 & W4 & [->|(-> & ->)]).
  - repeat (split; [assumption|]). exists p1, p2, p3, (p4 ++ String newline ""). repeat (split; [assumption|]). split; [apply white_app; split; [assumption|apply white_newline]|].
    left. now rewrite !app_assoc_s.
  - repeat (split; [assumption|]). exists p1, (p2 ++ String newline ""), p3, p4. repeat (split; [assumption || (apply white_app; split; [assumption|apply white_newline])|]).
    right. now rewrite !app_assoc_s.
Qed.

Lemma key_value_newline l : key_value (l ++ String newline "") = key_value l.
Proof. destruct (key_value l) as (k, v) eqn:E. apply C101_line, spells_newline, C101_line, E. Qed.

(** ** Theorems *)

Section Style.
  Context {A : Type} (eval_cycle : string -> res A) (show_colors : A -> string).

  (** What a line of a file says: the value is a text, except that
      [cycler('color', ...)] is the cycle of the colours that are evaluated. *)
  Definition plain (v : string) : Prop := ~ exists t, v = "cycler" ++ t.
  Definition says (line k : string) (v : value A) : Prop :=
    exists s, spells line k s /\
      ((plain s /\ v = Text s) \/ exists colors a, s = "cycler('color', " ++ colors ++ ")" /\ eval_cycle colors = Ok a /\ v = Cycle a).

  Definition says_text (line k : string) (v : value A) : Prop := exists s, spells line k s /\ v = Text s.

  Lemma substring_all n s : (String.length s <= n)%nat -> String.substring 0 n s = s.
  Proof. revert n. induction s as [|c s IH]; intros [|n] H; cbn in *; try reflexivity; [lia|]. rewrite IH by lia. reflexivity. Qed.

  Lemma prefix_cycler v : String.substring 0 6 v = "cycler" <-> exists t, v = "cycler" ++ t.
  Proof.
    split.
    - intros E. exists (from 6 v). do 6 (destruct v as [|? v]; [discriminate|]). cbn in E. injection E as -> -> -> -> -> -> _. cbn. reflexivity.
    - intros (t & ->). cbn. destruct t; reflexivity.
  Qed.

  Lemma slice_cycler colors : slice_but_last 16 ("cycler('color', " ++ colors ++ ")") = colors.
  Proof.
    unfold slice_but_last. replace ("cycler('color', " ++ colors ++ ")") with (("cycler('color', " ++ colors) ++ ")") by now rewrite app_assoc_s.
    rewrite length_app_s. cbn [String.length]. rewrite Nat.add_sub. change (fun x => String "c" x) with (String "c"). rewrite Listing_Props.substring_prefix. apply (from_app "cycler('color', ").
  Qed.

  Lemma spells_fun l k v k' v' : spells l k v -> spells l k' v' -> k = k' /\ v = v'.
  Proof. intros H H'. apply C101_line in H, H'. rewrite H in H'. injection H' as -> ->. auto. Qed.

  Lemma app_inj_r (a b c : string) : a ++ c = b ++ c -> a = b.
  Proof. intros E. now apply app_inj_len in E as (-> & _). Qed.

  Lemma says_fun l k v k' v' : says l k v -> says l k' v' -> k = k' /\ v = v'.
  Proof.
    intros (s & Hs & H) (s' & Hs' & H'). destruct (spells_fun _ _ _ _ _ Hs Hs') as (-> & <-). split; [reflexivity|].
    destruct H as [(P & ->)|(c & a & -> & Ea & ->)], H' as [(P' & ->)|(c' & a' & E & Ea' & ->)]; [reflexivity| | |].
    - exfalso. apply P. subst s. eexists. reflexivity.
    - exfalso. apply P'. eexists. reflexivity.
    - cbn in E. injection E as E. apply app_inj_r in E. subst c'. congruence.
  Qed.

  Lemma says_text_fun l k v k' v' : says_text l k v -> says_text l k' v' -> k = k' /\ v = v'.
  Proof. intros (s & Hs & ->) (s' & Hs' & ->). destruct (spells_fun _ _ _ _ _ Hs Hs') as (-> & ->). auto. Qed.

  Lemma last_says_assign (sy : string -> string -> value A -> Prop) ls kvs :
    (forall l k v k' v', sy l k v -> sy l k' v' -> k = k' /\ v = v') ->
    Forall2 (fun l kv => sy l (fst kv) (snd kv)) ls kvs ->
    (forall k, (exists l v, In l ls /\ sy l k v) <-> In k (List.map fst kvs)) /\
    (forall k v, last_says sy ls k v <-> exists l1 l2, kvs = (l1 ++ (k, v) :: l2)%list /\ ~ In k (List.map fst l2)).
  Proof.
    intros F H. induction H as [|l (a, w) ls kvs Hl H (IH1 & IH2)]; cbn [fst snd] in *.
    - split; [intros k; split; [intros (l & v & [] & _)|intros []]|]. intros k v. split; [intros (l1 & x & l2 & E & _); destruct l1; discriminate|intros (l1 & l2 & E & _); destruct l1; discriminate].
    - split.
      + intros k. cbn [List.map fst In]. rewrite <- IH1. split.
        * intros (x & v & [<-|Hx] & Hv); [left; now apply (F l a w k v)|right; eauto].
        * intros [<-|(x & v & Hx & Hv)]; [exists l, w; split; [now left|exact Hl]|exists x, v; split; [now right|exact Hv]].
      + intros k v. split.
        * intros (l1 & x & l2 & E & Hx & Hn). destruct l1 as [|y l1]; cbn in E; injection E as E1 E2; subst.
          -- destruct (F _ _ _ _ _ Hl Hx) as (-> & ->). exists [], kvs. split; [reflexivity|]. rewrite <- IH1. intros (y & v' & Hy & Hv). exact (Hn y v' Hy Hv).
          -- destruct (proj1 (IH2 k v)) as (m1 & m2 & -> & Hm); [exists l1, x, l2; auto|]. exists ((a, w) :: m1), m2. auto.
        * intros (m1 & m2 & E & Hm). destruct m1 as [|y m1]; cbn in E.
          -- injection E as -> -> ->. exists [], l, ls. split; [reflexivity|]. split; [exact Hl|]. intros y v' Hy Hv. apply Hm. rewrite <- IH1. eauto.
          -- injection E as _ ->. destruct (proj2 (IH2 k v)) as (l1 & x & l2 & -> & Hx & Hn); [eauto|]. exists (l :: l1), x, l2. auto.
  Qed.

  Lemma load_line_says d l k v : says l k v -> load_line eval_cycle d l = Ok (set k v d) /\ load_line eval_cycle d (l ++ String newline "") = Ok (set k v d).
  Proof.
    intros (s & Hs & H). unfold load_line. rewrite key_value_newline. apply C101_line in Hs. rewrite Hs.
    assert (E : (if (String.substring 0 6 s =? "cycler")%string then let* a := eval_cycle (slice_but_last 16 s) in Ok (set k (Cycle a) d) else Ok (set k (Text s) d)) = Ok (set k v d)); [|auto].
    destruct H as [(P & ->)|(c & a & -> & Ea & ->)].
    - destruct (String.eqb_spec (String.substring 0 6 s) "cycler") as [E|_]; [|reflexivity]. exfalso. now apply P, prefix_cycler.
    - rewrite slice_cycler, Ea. destruct (String.eqb_spec (String.substring 0 6 ("cycler('color', " ++ c ++ ")")) "cycler") as [_|N]; [reflexivity|].
      exfalso. apply N, prefix_cycler. eexists. reflexivity.
  Qed.

  Lemma load_lines_app d ls ms : load_lines eval_cycle d (ls ++ ms)%list = let* d' := load_lines eval_cycle d ls in load_lines eval_cycle d' ms.
  Proof. revert d. induction ls as [|l ls IH]; intros d; [reflexivity|]. cbn [app load_lines]. destruct (load_line eval_cycle d l); [apply IH|reflexivity]. Qed.

  Lemma load_lines_newline ls : forall d, load_lines eval_cycle d (List.map (fun l => l ++ String newline "") ls) = load_lines eval_cycle d ls.
  Proof.
    induction ls as [|l ls IH]; intros d; [reflexivity|]. cbn [List.map load_lines].
    replace (load_line eval_cycle d (l ++ String newline "")) with (load_line eval_cycle d l) by (unfold load_line; now rewrite key_value_newline).
    destruct (load_line eval_cycle d l); [apply IH|reflexivity].
  Qed.

  Lemma load_style_lines d ls last : Forall (fun l => has_char newline l = false) ls -> has_char newline last = false ->
    load_style eval_cycle d (text ls last) = load_lines eval_cycle d (lines_of ls last).
  Proof.
    intros F H. unfold load_style, lines_of. rewrite readlines_text by assumption. rewrite load_lines_app, load_lines_newline. destruct (String.eqb last "").
    - now destruct (load_lines eval_cycle d ls).
    - now rewrite load_lines_app.
  Qed.

  Lemma load_lines_says ls kvs : Forall2 (fun l kv => says l (fst kv) (snd kv)) ls kvs -> forall d, load_lines eval_cycle d ls = Ok (assign d kvs).
  Proof.
    induction 1 as [|l (k, v) ls kvs Hl H IH]; intros d; [reflexivity|]. cbn [load_lines]. rewrite (proj1 (load_line_says d l k v Hl)). cbn. apply IH.
  Qed.

  Lemma says_list (sy : string -> string -> value A -> Prop) ls : Forall (fun l => exists k v, sy l k v) ls -> exists kvs, Forall2 (fun l kv => sy l (fst kv) (snd kv)) ls kvs.
  Proof. induction 1 as [|l ls (k & v & Hl) F (kvs & IH)]; [exists []; constructor|]. exists ((k, v) :: kvs). now constructor. Qed.

  (** Loading a file gives every key it names the value of the last line that
      names it, and changes no other key. *)
  Theorem C101_load d ls last :
    NoDup (List.map fst d) -> Forall (fun l => has_char newline l = false) ls -> has_char newline last = false ->
    Forall (fun l => exists k v, says l k v) (lines_of ls last) ->
    exists d', load_style eval_cycle d (text ls last) = Ok d' /\ NoDup (List.map fst d') /\
      forall k v, In (k, v) d' <-> last_says says (lines_of ls last) k v \/ (In (k, v) d /\ forall l w, In l (lines_of ls last) -> ~ says l k w).
  Proof.
    intros N F Hl H. rewrite load_style_lines by assumption. destruct (says_list _ _ H) as (kvs & H2). exists (assign d kvs).
    split; [now apply load_lines_says|]. destruct (assign_spec kvs d N) as (A1 & A2). split; [exact A1|]. intros k v. rewrite A2.
    destruct (last_says_assign _ _ _ says_fun H2) as (L1 & L2). rewrite L2, <- L1.
    split; (intros [K|(K1 & K2)]; [now left|right; split; [exact K1|]]).
    - intros l w Hw Hs. apply K2. now exists l, w.
    - intros (l & w & Hw & Hs). exact (K2 l w Hw Hs).
  Qed.

  (** [--set] does the same for its arguments, whose values are always texts. *)
  Lemma set_params_says ls kvs : Forall2 (fun l kv => says_text l (fst kv) (snd kv)) ls kvs -> forall d : dict A, fold_left set_param ls d = assign d kvs.
  Proof.
    induction 1 as [|l (k, v) ls kvs (s & Hs & Hv) H IH]; intros d; [reflexivity|]. cbn [fst snd] in *. cbn [fold_left]. rewrite IH. subst v.
    unfold set_param. apply C101_line in Hs. now rewrite Hs.
  Qed.

  Theorem C101_set (d : dict A) params show_it : NoDup (List.map fst d) ->
    exists d' out, style eval_cycle show_colors d {| file := None; sets := params; print := show_it |} = Ok (d', out) /\ NoDup (List.map fst d') /\
      forall k v, In (k, v) d' <-> last_says says_text params k v \/ (In (k, v) d /\ forall l w, In l params -> ~ spells l k w).
  Proof.
    intros N. unfold style. cbn [file sets print bind].
    assert (H : Forall (fun l => exists k v, says_text l k v) params).
    { apply Forall_forall. intros l _. destruct (key_value l) as (k, v) eqn:E. exists k, (Text v), v. split; [now apply C101_line|reflexivity]. }
    destruct (says_list _ _ H) as (kvs & H2). rewrite (set_params_says _ _ H2). eexists _, _. split; [reflexivity|].
    destruct (assign_spec kvs d N) as (A1 & A2). split; [exact A1|]. intros k v. rewrite A2.
    destruct (last_says_assign _ _ _ says_text_fun H2) as (L1 & L2). rewrite L2, <- L1. split; (intros [K|(K1 & K2)]; [now left|right; split; [exact K1|]]).
    - intros l w Hl Hw. apply K2. exists l, (Text w). split; [exact Hl|]. now exists w.
    - intros (l & w & Hl & (s & Hs & _)). exact (K2 l s Hl Hs).
  Qed.

  (** A command with a file and settings is the one with the file followed by the
      one with the settings, so settings win over the file. *)
  Theorem C101_file_first d fn params d1 out1 d2 out2 show_it :
    style eval_cycle show_colors d {| file := Some fn; sets := []; print := false |} = Ok (d1, out1) ->
    style eval_cycle show_colors d1 {| file := None; sets := params; print := show_it |} = Ok (d2, out2) ->
    style eval_cycle show_colors d {| file := Some fn; sets := params; print := show_it |} = Ok (d2, out2).
  Proof.
    unfold style. cbn [file sets print fold_left]. destruct (load_style eval_cycle d fn) as [d'|e]; cbn [bind]; [|discriminate].
    intros E. injection E as <- _. auto.
  Qed.

  (** A file that cannot be evaluated stops the command. *)
  Theorem C101_bad_cycle d ls last l k s e more : Forall (fun l => has_char newline l = false) (ls ++ l :: more)%list -> has_char newline last = false ->
    Forall (fun l => exists k v, says l k v) ls -> spells l k ("cycler('color', " ++ s ++ ")") -> eval_cycle s = Err e ->
    load_style eval_cycle d (text (ls ++ l :: more) last) = Err e.
  Proof.
    intros F Hl H Hs He. rewrite load_style_lines by assumption.
    assert (K : load_lines eval_cycle d (ls ++ l :: more)%list = Err e).
    { rewrite load_lines_app. destruct (says_list _ _ H) as (kvs & H2). rewrite (load_lines_says _ _ H2). cbn [bind load_lines]. unfold load_line. apply C101_line in Hs. rewrite Hs.
      replace (String.substring 0 6 ("cycler('color', " ++ s ++ ")") =? "cycler")%string with true; [rewrite slice_cycler, He; reflexivity|].
      symmetry. apply String.eqb_eq, prefix_cycler. eexists. reflexivity. }
    unfold lines_of. destruct (String.eqb last ""); [exact K|]. rewrite load_lines_app, K. reflexivity.
  Qed.

  (** ** Printing *)

  (** Keys and values are free of outer white space, keys of colons, whatever was
      loaded or set. *)
  Definition tidy (d : dict A) : Prop := forall k v, In (k, v) d -> tight k /\ has_char ":" k = false /\ forall s, v = Text s -> tight s.

  Lemma set_tidy k v d : NoDup (List.map fst d) -> tidy d -> tight k -> has_char ":" k = false -> (forall s, v = Text s -> tight s) -> tidy (set k v d).
  Proof. intros N T H1 H2 H3 k' v' H. apply set_in in H as [(-> & ->)|(_ & H)]; [auto|exact (T _ _ H)|exact N]. Qed.

  Lemma load_line_tidy d l d' : NoDup (List.map fst d) -> tidy d -> load_line eval_cycle d l = Ok d' -> NoDup (List.map fst d') /\ tidy d'.
  Proof.
    intros N T H. unfold load_line in H. destruct (key_value l) as (k, v) eqn:E. apply C101_line in E as (E1 & E2 & E3 & _).
    destruct (String.substring 0 6 v =? "cycler")%string; [apply bind_ok in H as (a & _ & H)|]; injection H as <-; (split; [now apply set_keys|]); apply set_tidy; auto.
    - intros s Hs. discriminate.
    - intros s Hs. now injection Hs as <-.
  Qed.

  Theorem C101_tidy d o d' out : NoDup (List.map fst d) -> tidy d -> style eval_cycle show_colors d o = Ok (d', out) -> NoDup (List.map fst d') /\ tidy d'.
  Proof.
    intros N T H. unfold style in H. apply bind_ok in H as (d1 & H1 & H2). injection H2 as <- _.
    assert (K : NoDup (List.map fst d1) /\ tidy d1).
    { destruct (file o) as [t|]; [|injection H1 as <-; auto]. unfold load_style in H1. revert d N T H1. induction (readlines t) as [|l ls IH]; intros d N T H1; [injection H1 as <-; auto|].
      cbn [load_lines] in H1. apply bind_ok in H1 as (d0 & H0 & H1). destruct (load_line_tidy d l d0 N T H0) as (N0 & T0). now apply (IH d0). }
    destruct K as (N1 & T1). clear H1 N T d. revert d1 N1 T1. induction (sets o) as [|l ls IH]; intros d N T; [auto|]. cbn [fold_left]. apply IH; unfold set_param; destruct (key_value l) as (k, v) eqn:E; apply C101_line in E as (E1 & E2 & E3 & _).
    - now apply set_keys.
    - apply set_tidy; auto. intros s Hs. now injection Hs as <-.
  Qed.

  Lemma assign_rev (kvs : list (string * value A)) d : NoDup (List.map fst (d ++ kvs)%list) -> assign d kvs = (d ++ kvs)%list.
  Proof.
    revert d. induction kvs as [|(k, v) kvs IH]; intros d N; [now rewrite app_nil_r|]. cbn [assign fold_left fst snd]. fold (assign (set k v d) kvs).
    assert (E : set k v d = (d ++ [(k, v)])%list).
    { rewrite map_app in N. clear IH. induction d as [|(a, w) d IH]; [reflexivity|]. cbn. cbn in N. inversion N as [|? ? Na Nd]; subst.
      destruct (String.eqb_spec a k) as [->|_]; [exfalso; apply Na, in_or_app; right; now left|]. now rewrite IH. }
    rewrite E, IH by (rewrite <- app_assoc; exact N). now rewrite <- app_assoc.
  Qed.

  (** What [style --print] prints is a style file: loading it gives the same
      settings in the same order. *)
  Theorem C101_print d d' out :
    style eval_cycle show_colors d {| file := None; sets := []; print := true |} = Ok (d', out) ->
    NoDup (List.map fst d) -> tidy d ->
    (forall k v, In (k, v) d -> has_char newline k = false /\
       match v with Text s => has_char newline s = false /\ plain s | Cycle a => has_char newline (show_colors a) = false /\ eval_cycle (show_colors a) = Ok a end) ->
    d' = d /\ load_style eval_cycle [] (text out "") = Ok d.
  Proof.
    unfold style. cbn [file sets print bind fold_left]. intros E. injection E as <- <-. intros N T H. split; [reflexivity|].
    rewrite load_style_lines; [| |reflexivity].
    - unfold lines_of. cbn [String.eqb]. rewrite (load_lines_says _ d); [now rewrite assign_rev|].
      clear N. induction d as [|(k, v) d IH]; [constructor|]. constructor; [|apply IH; [intros k' v' Hk; apply T; now right|intros k' v' Hk; apply H; now right]].
      cbn [fst snd]. destruct (T k v (or_introl eq_refl)) as (T1 & T2 & T3). destruct (H k v (or_introl eq_refl)) as (_ & Hv).
      assert (W : white " ") by (apply white_cons; split; [reflexivity|apply white_nil]).
      assert (Sp : forall s, tight s -> spells (k ++ " : " ++ s) k s).
      { intros s Ts. split; [exact T1|]. split; [exact Ts|]. split; [exact T2|]. exists "", " ", " ", "". split; [apply white_nil|]. split; [exact W|]. split; [exact W|]. split; [apply white_nil|]. left. cbn. now rewrite app_nil_s. }
      destruct v as [s|a]; cbn [show_value].
      + exists s. split; [apply Sp; now apply T3|]. left. split; [apply Hv|reflexivity].
      + exists ("cycler('color', " ++ show_colors a ++ ")"). split; [|right; exists (show_colors a), a; split; [reflexivity|split; [apply Hv|reflexivity]]].
        apply Sp. intros p r q Eq Hp Hq. split.
        * destruct p as [|c p]; [reflexivity|]. cbn in Eq. injection Eq as <- _. apply white_cons in Hp as (Hp & _). discriminate.
        * destruct q as [|c q]; [reflexivity|exfalso].
          assert (L : exists u e, String c q = u ++ String e "") by (clear; revert c; induction q as [|b q IH]; intros c; [now exists "", c|]; destruct (IH b) as (u & e & ->); now exists (String c u), e).
          destruct L as (u & e & L). rewrite L in Eq, Hq. apply white_app in Hq as (_ & Hq).
          assert (Eq' : ("cycler('color', " ++ show_colors a) ++ ")" = (p ++ r ++ u) ++ String e "") by (rewrite !app_assoc_s; exact Eq).
          apply app_inj_len in Eq' as (_ & Ee); [|reflexivity]. injection Ee as <-. apply white_cons in Hq as (Hq & _). discriminate.
    - apply Forall_forall. intros l Hl. apply in_map_iff in Hl as ((k, v) & <- & Hk). destruct (H k v Hk) as (H1 & H2). cbn [fst snd].
      rewrite !has_char_app, H1. cbn [orb]. destruct v as [s|a]; cbn [show_value].
      + exact (proj1 H2).
      + change (has_char newline (show_colors a ++ ")") = false). now rewrite has_char_app, (proj1 H2).
  Qed.
End Style.
