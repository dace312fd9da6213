(** * C82: scale_zi_axis multiplies coordinate arrays that may be shared *)
From Coq Require Import String Ascii List Arith ZArith QArith Bool Lia.
From Verif Require Import Prelude PreludeFacts NdArray GData_Model DataSpace_Spec DataSpace_Proofs Ev_Props6 EvCmd_Model.
Import ListNotations.
Open Scope list_scope.
Open Scope nat_scope.

(** Address of the coordinate array of dimension [k] of dataset [j]. *)
Definition axis (ds : list dat) (j k : nat) : option nat :=
  match nth_error ds j with Some d => nth_error (t_grid d) k | None => None end.
(** The coordinates themselves. *)
Definition coords (s : heap * list dat) (j k : nat) : option (list Q) :=
  match axis (snd s) j k with Some a => nth_error (fst s) a | None => None end.

(** Every coordinate array exists and has a point. *)
Definition sound (s : heap * list dat) : Prop :=
  forall j k a, axis (snd s) j k = Some a -> exists x l, nth_error (fst s) a = Some (x :: l).

(** No other dimension of any dataset uses the coordinate array of dimension
    [k] of dataset [j]. *)
Definition unshared (ds : list dat) (j k : nat) : Prop :=
  forall a j' k', axis ds j k = Some a -> axis ds j' k' = Some a -> j' = j /\ k' = k.

Definition least (m : Q) (l : list Q) : Prop := In m l /\ forall x, In x l -> (m <= x)%Q.
Definition greatest (m : Q) (l : list Q) : Prop := In m l /\ forall x, In x l -> (x <= m)%Q.

(** The bounds stored with dataset [j] are those of its coordinates. *)
Definition bounds_right (s : heap * list dat) (j : nat) : Prop :=
  exists d, nth_error (snd s) j = Some d /\
    length (t_lower d) = length (t_grid d) /\ length (t_upper d) = length (t_grid d) /\
    forall k c, coords s j k = Some c ->
      exists lo up, nth_error (t_lower d) k = Some lo /\ nth_error (t_upper d) k = Some up /\ least lo c /\ greatest up c.

Definition times (k : nat) (q x : Q) : Q := Nat.iter k (fun y => y * q)%Q x.

Lemma times_in k q x : times k q (x * q)%Q = times (S k) q x.
Proof. induction k as [|k IH]; [reflexivity|]. change (times (S k) q (x * q)%Q) with (times k q (x * q) * q)%Q. now rewrite IH. Qed.

Lemma nth_error_set {A} k (a : A) l j :
  nth_error (set_nth k a l) j = if (j =? k) && (k <? length l) then Some a else nth_error l j.
Proof.
  revert k j. induction l as [|b l IH]; intros k j; cbn [set_nth length].
  - rewrite andb_comm. destruct k; cbn; now destruct j.
  - destruct k; destruct j; cbn [nth_error set_nth]; try reflexivity. rewrite IH. reflexivity.
Qed.
Lemma length_set {A} k (a : A) l : length (set_nth k a l) = length l.
Proof. revert k. induction l as [|b l IH]; intros [|k]; cbn [set_nth length]; auto. Qed.

(** How often the address [a] is the [k]-th of the grids. *)
Definition hits (k : nat) (gs : list (list nat)) (a : nat) : nat :=
  length (List.filter (fun g => match nth_error g k with Some b => a =? b | None => false end) gs).

Lemma scale_all_ok k f gs h :
  Forall (fun g => exists a, nth_error g k = Some a /\ a < length h) gs ->
  exists h', scale_all (Z.of_nat k) f gs h = Ok h' /\ length h' = length h /\
    forall a, nth_error h' a = option_map (List.map (times (hits k gs a) f)) (nth_error h a).
Proof.
  revert h. induction gs as [|g gs IH]; intros h F; cbn [scale_all].
  - exists h. split; [reflexivity|]. split; [reflexivity|]. intros a. cbn. destruct (nth_error h a); [|reflexivity]. cbn. f_equal. symmetry. apply map_id.
  - inversion F as [|? ? (a & Ea & La) F']; subst. unfold scale_axis.
    rewrite (norm_index_is (length g) (Z.of_nat k) k).
    2,3: unfold from_end; destruct (Z.ltb_spec (Z.of_nat k) 0); try lia.
    2: assert (k < length g) by (apply nth_error_Some; congruence); lia.
    cbn [bind]. rewrite Ea. destruct (nth_error h a) as [c|] eqn:Ec; [|apply nth_error_None in Ec; lia]. cbn [bind].
    destruct (IH (set_nth a (List.map (fun x => x * f)%Q c) h)) as (h' & E & L & V).
    { eapply Forall_impl; [|exact F']. intros g' (b & Eb & Lb). exists b. split; [exact Eb|]. now rewrite length_set. }
    exists h'. split; [exact E|]. split; [now rewrite L, length_set|]. intros b. rewrite V, nth_error_set. unfold hits. cbn [List.filter]. rewrite Ea.
    destruct (Nat.eqb_spec b a) as [->|Ne]; cbn [andb].
    + destruct (Nat.ltb_spec a (length h)); [|lia]. rewrite Ec. cbn [option_map length]. f_equal. rewrite map_map. apply map_ext. intros x. apply times_in.
    + reflexivity.
Qed.

Lemma pushed_ok h g :
  Forall (fun a => exists x l, nth_error h a = Some (x :: l)) g ->
  exists d, pushed h g = Ok d /\ t_grid d = g /\ length (t_lower d) = length g /\ length (t_upper d) = length g /\
    forall k a c, nth_error g k = Some a -> nth_error h a = Some c ->
      exists lo up, nth_error (t_lower d) k = Some lo /\ nth_error (t_upper d) k = Some up /\ least lo c /\ greatest up c.
Proof.
  intros F.
  assert (P : exists lo, mapM (lo_of h) g = Ok lo /\ length lo = length g /\
      forall k a c, nth_error g k = Some a -> nth_error h a = Some c -> exists m, nth_error lo k = Some m /\ least m c).
  { induction F as [|a g (x & l & Ea) F IH].
    - exists []. split; [reflexivity|]. split; [reflexivity|]. intros [|k]; discriminate.
    - destruct IH as (lo & E & L & V). cbn [mapM]. unfold lo_of at 1, arr_min. rewrite (nth_error_nth h a [] Ea). cbn [flat bind]. rewrite E. cbn [bind].
      eexists. split; [reflexivity|]. split; [cbn [length]; now rewrite L|]. intros [|k] b c Hb Hc; [|now apply (V k b)].
      cbn [nth_error] in Hb |- *. injection Hb as <-. rewrite Ea in Hc. injection Hc as <-. eexists. split; [reflexivity|]. exact (fold_qmin l x). }
  assert (P' : exists up, mapM (up_of h) g = Ok up /\ length up = length g /\
      forall k a c, nth_error g k = Some a -> nth_error h a = Some c -> exists m, nth_error up k = Some m /\ greatest m c).
  { clear P. induction F as [|a g (x & l & Ea) F IH].
    - exists []. split; [reflexivity|]. split; [reflexivity|]. intros [|k]; discriminate.
    - destruct IH as (lo & E & L & V). cbn [mapM]. unfold up_of at 1, arr_max. rewrite (nth_error_nth h a [] Ea). cbn [flat bind]. rewrite E. cbn [bind].
      eexists. split; [reflexivity|]. split; [cbn [length]; now rewrite L|]. intros [|k] b c Hb Hc; [|now apply (V k b)].
      cbn [nth_error] in Hb |- *. injection Hb as <-. rewrite Ea in Hc. injection Hc as <-. eexists. split; [reflexivity|]. exact (fold_qmax l x). }
  destruct P as (lo & E & L & V). destruct P' as (up & E' & L' & V'). unfold pushed. rewrite E. cbn [bind]. rewrite E'. cbn [bind].
  eexists. split; [reflexivity|]. split; [reflexivity|]. split; [exact L|]. split; [exact L'|]. intros k a c Hk Hc.
  destruct (V k a c Hk Hc) as (m & ? & ?). destruct (V' k a c Hk Hc) as (m' & ? & ?). cbn. eauto 10.
Qed.

(** What the pushes do to the datasets. *)
Lemma push_all_ok h sel ds :
  (forall j k a, axis ds j k = Some a -> exists x l, nth_error h a = Some (x :: l)) ->
  NoDup sel -> (forall j, In j sel -> j < length ds) ->
  exists ds', push_all h sel ds = Ok ds' /\ length ds' = length ds /\
    (forall j k, axis ds' j k = axis ds j k) /\
    (forall j, ~ In j sel -> nth_error ds' j = nth_error ds j) /\
    (forall j, In j sel -> bounds_right (h, ds') j).
Proof.
  revert ds. induction sel as [|j sel IH]; intros ds S N Hl; cbn [push_all].
  - exists ds. split; [reflexivity|]. split; [reflexivity|]. split; [reflexivity|]. split; [reflexivity|]. intros j [].
  - inversion N as [|? ? Hj N']; subst.
    assert (Lj : j < length ds) by (apply Hl; now left).
    destruct (nth_error ds j) as [d|] eqn:Ed; [|apply nth_error_None in Ed; lia].
    destruct (pushed_ok h (t_grid d)) as (d' & E & G & L1 & L2 & V).
    { apply Forall_forall. intros a Ha. apply In_nth_error in Ha as (k & Hk). apply (S j k). unfold axis. now rewrite Ed. }
    rewrite E. cbn [bind].
    assert (Ax : forall j' k, axis (set_nth j d' ds) j' k = axis ds j' k).
    { intros j' k. unfold axis. rewrite nth_error_set. destruct (Nat.eqb_spec j' j) as [->|]; [|reflexivity]. cbn [andb].
      destruct (Nat.ltb_spec j (length ds)); [|lia]. now rewrite Ed, G. }
    destruct (IH (set_nth j d' ds)) as (ds' & E' & L' & A' & O' & B'); auto.
    { intros j' k a. rewrite Ax. apply S. }
    { intros j' Hj'. rewrite length_set. apply Hl. now right. }
    exists ds'. split; [exact E'|]. split; [now rewrite L', length_set|]. split; [intros j' k; now rewrite A', Ax|]. split.
    + intros j' Hn. rewrite O' by (intros C; apply Hn; now right). rewrite nth_error_set.
      destruct (Nat.eqb_spec j' j) as [->|]; [exfalso; apply Hn; now left|reflexivity].
    + intros j' [<-|Hin]; [|now apply B']. exists d'.
      assert (En : nth_error ds' j = Some d').
      { rewrite O' by exact Hj. rewrite nth_error_set, Nat.eqb_refl. cbn [andb]. destruct (Nat.ltb_spec j (length ds)); [reflexivity|lia]. }
      split; [exact En|]. rewrite G. split; [exact L1|]. split; [exact L2|]. intros k c Hc. unfold coords, axis in Hc. cbn [fst snd] in Hc.
      rewrite En, G in Hc. destruct (nth_error (t_grid d) k) as [a|] eqn:Ea; [|discriminate]. now apply (V k a c).
Qed.

Lemma grids_hit k sel ds a :
  hits k (grids_of ds sel) a = length (List.filter (fun j => match axis ds j k with Some b => a =? b | None => false end) sel).
Proof.
  unfold hits, grids_of, axis. induction sel as [|j sel IH]; [reflexivity|]. cbn [List.map List.filter].
  assert (Z : nth_error ([] : list nat) k = None) by (destruct k; reflexivity).
  destruct (nth_error ds j) as [d|].
  - destruct (nth_error (t_grid d) k) as [b|]; [destruct (a =? b)|]; cbn [length]; now rewrite IH.
  - rewrite Z. exact IH.
Qed.

Section C82.
  Context (k : nat) (f : Q) (sel : list nat) (s : heap * list dat).
  Context (Hs : sound s) (Hd : NoDup sel) (Hk : forall j, In j sel -> axis (snd s) j k <> None).

  Lemma sel_range j : In j sel -> j < length (snd s).
  Proof. intros H. apply Hk in H. unfold axis in H. apply nth_error_Some. destruct (nth_error (snd s) j); congruence. Qed.

  Lemma sel_grids : Forall (fun g => exists a, nth_error g k = Some a /\ a < length (fst s)) (grids_of (snd s) sel).
  Proof.
    unfold grids_of. apply Forall_map, Forall_forall. intros j Hj. pose proof (Hk j Hj) as H.
    destruct (axis (snd s) j k) as [a|] eqn:Ea; [|congruence]. pose proof Ea as Ea'. unfold axis in Ea'.
    destruct (nth_error (snd s) j) as [d|]; [|discriminate]. exists a. split; [exact Ea'|].
    destruct (Hs j k a Ea) as (x & l & E). apply nth_error_Some. congruence.
  Qed.

  (** Each coordinate array is multiplied once for every selected dataset that
      uses it in the dimension named, so also in datasets not selected and in
      other dimensions.  The selected datasets get the bounds of their new
      coordinates; the records of the others stay. *)
  Theorem C82_arrays :
    exists h ds, zi_in_place (Z.of_nat k) f sel s = Ok (h, ds) /\
      (forall j i, axis ds j i = axis (snd s) j i) /\
      (forall a, nth_error h a =
         option_map (List.map (times (length (List.filter (fun j => match axis (snd s) j k with Some b => a =? b | None => false end) sel)) f))
                    (nth_error (fst s) a)) /\
      (forall j, ~ In j sel -> nth_error ds j = nth_error (snd s) j) /\
      (forall j, In j sel -> bounds_right (h, ds) j).
  Proof.
    destruct (scale_all_ok k f (grids_of (snd s) sel) (fst s) sel_grids) as (h & E & L & V).
    destruct (push_all_ok h sel (snd s)) as (ds & E' & L' & A & O & B); auto using sel_range.
    { intros j i a Ha. destruct (Hs j i a Ha) as (x & l & El). rewrite V, El. cbn. eauto. }
    exists h, ds. unfold zi_in_place. rewrite E. cbn [bind]. rewrite E'. split; [reflexivity|]. split; [exact A|]. split.
    - intros a. rewrite V. now rewrite grids_hit.
    - split; [exact O|exact B].
  Qed.

  (** If no selected coordinate array is shared, exactly the coordinates named
      are multiplied, once. *)
  Theorem C82_unshared :
    (forall j, In j sel -> unshared (snd s) j k) ->
    exists s', zi_in_place (Z.of_nat k) f sel s = Ok s' /\
      (forall j, In j sel -> coords s' j k = option_map (List.map (fun x => x * f)%Q) (coords s j k) /\ bounds_right s' j) /\
      (forall j i, ~ (In j sel /\ i = k) -> coords s' j i = coords s j i) /\
      (forall j, ~ In j sel -> nth_error (snd s') j = nth_error (snd s) j).
  Proof.
    intros U. destruct C82_arrays as (h & ds & E & A & V & O & B). exists (h, ds). split; [exact E|].
    assert (Hit : forall j i a, axis (snd s) j i = Some a ->
      length (List.filter (fun j => match axis (snd s) j k with Some b => a =? b | None => false end) sel) =
      if in_dec Nat.eq_dec j sel then (if i =? k then 1 else 0) else 0).
    { intros j i a Ha.
      assert (Eq : forall j', In j' sel -> (match axis (snd s) j' k with Some b => a =? b | None => false end) = (j' =? j) && (i =? k)).
      { intros j' Hj'. destruct (axis (snd s) j' k) as [b|] eqn:Eb; [|now apply Hk in Hj'].
        destruct (Nat.eqb_spec a b) as [->|Ne].
        - destruct (U j' Hj' b j i Eb Ha) as [-> ->]. now rewrite !Nat.eqb_refl.
        - destruct (Nat.eqb_spec j' j) as [->|]; [|reflexivity]. destruct (Nat.eqb_spec i k) as [->|]; [congruence|reflexivity]. }
      rewrite (filter_ext_in _ _ _ Eq). clear - Hd. assert (N := Hd). clear Hd. induction N as [|j' l Hn Hl IH]; [reflexivity|]. cbn [List.filter].
      destruct (Nat.eqb_spec j' j) as [->|Ne]; cbn [andb].
      - destruct (in_dec Nat.eq_dec j (j :: l)) as [_|C]; [|exfalso; apply C; now left].
        destruct (in_dec Nat.eq_dec j l); [contradiction|]. destruct (i =? k); cbn [length]; now rewrite IH.
      - rewrite IH. destruct (in_dec Nat.eq_dec j l) as [I|I], (in_dec Nat.eq_dec j (j' :: l)) as [I'|I'];
          [reflexivity|exfalso; apply I'; now right|exfalso; destruct I'; [congruence|contradiction]|reflexivity]. }
    assert (C : forall j i, coords (h, ds) j i =
       option_map (List.map (times (if in_dec Nat.eq_dec j sel then (if i =? k then 1 else 0) else 0) f)) (coords s j i)).
    { intros j i. unfold coords. cbn [fst snd]. rewrite A. destruct (axis (snd s) j i) as [a|] eqn:Ea; [|reflexivity].
      rewrite V. now rewrite (Hit j i a Ea). }
    split; [|split].
    - intros j Hj. split; [|now apply B]. rewrite C. destruct (in_dec Nat.eq_dec j sel); [|contradiction]. rewrite Nat.eqb_refl. reflexivity.
    - intros j i Hn. rewrite C.
      assert (Z : (if in_dec Nat.eq_dec j sel then (if i =? k then 1 else 0) else 0) = 0).
      { destruct (in_dec Nat.eq_dec j sel); [|reflexivity]. destruct (Nat.eqb_spec i k); [|reflexivity]. exfalso. apply Hn. auto. }
      rewrite Z. destruct (coords s j i) as [c|]; [|reflexivity]. cbn. f_equal. apply map_id.
    - exact O.
  Qed.
End C82.

(** Two datasets with their own coordinates. *)
Definition own : heap * list dat :=
  ([[0; 1; 2]; [0; 1]; [5; 6]; [7; 8]]%Q, [mk_dat [0; 1] [0; 0]%Q [2; 1]%Q; mk_dat [2; 3] [5; 7]%Q [6; 8]%Q]).

Lemma own_axis j k a : axis (snd own) j k = Some a -> a = 2 * j + k /\ j < 2 /\ k < 2.
Proof.
  unfold axis. cbn [own snd]. destruct j as [|[|j]]; cbn [nth_error t_grid]; [| |destruct j; discriminate];
  destruct k as [|[|k]]; cbn [nth_error]; try (intros [= <-]; lia); destruct k; discriminate.
Qed.

Example C82_ex :
  sound own /\ (forall j, In j [1] -> unshared (snd own) j 0) /\
  exists ds, zi_in_place 0 10 [1] own = Ok ([[0; 1; 2]; [0; 1]; [5 * 10; 6 * 10]; [7; 8]]%Q, ds) /\
    List.map t_lower ds = [[0; 0]; [5 * 10; 7]]%Q.
Proof.
  split.
  { intros j k a H. apply own_axis in H as (-> & Hj & Hk). destruct j as [|[|j]], k as [|[|k]]; try lia; cbn; eauto. }
  split.
  { intros j Hj a j' k' H1 H2. apply own_axis in H1, H2. lia. }
  eexists. split; vm_compute; reflexivity.
Qed.

(** With a tag the source datasets are changed as well, and their stored bounds
    no longer are those of their coordinates. *)
Theorem C82_tag_refuted :
  exists s s', sound s /\ bounds_right s 0 /\ zi_tagged 0 10 [0] s = Ok s' /\
    nth_error (snd s') 0 = nth_error (snd s) 0 /\
    coords s 0 0 = Some [1; 2]%Q /\ coords s' 0 0 = Some [1 * 10; 2 * 10]%Q /\ ~ bounds_right s' 0.
Proof.
  exists ([[1; 2]]%Q, [mk_dat [0] [1]%Q [2]%Q]). eexists. split.
  { intros [|[|j]] [|[|k]] a H; try discriminate; injection H as <-; cbn; eauto. }
  split.
  { eexists. split; [reflexivity|]. split; [reflexivity|]. split; [reflexivity|]. intros [|[|k]] c H; try discriminate. injection H as <-.
    exists 1%Q, 2%Q. split; [reflexivity|]. split; [reflexivity|]. split; (split; [cbn; auto|]); intros x [<-|[<-|[]]]; vm_compute; discriminate. }
  split; [vm_compute; reflexivity|]. split; [reflexivity|]. split; [reflexivity|]. split; [reflexivity|].
  intros (d & Ed & _ & _ & H). injection Ed as <-. destruct (H 0 [1 * 10; 2 * 10]%Q eq_refl) as (lo & up & E1 & _ & (Hin & _) & _).
  injection E1 as <-. destruct Hin as [C|[C|[]]]; discriminate.
Qed.

(** Two datasets that share a coordinate array, as the result of an earlier ev
    does with its source: selecting one changes the other, selecting both scales
    twice. *)
Theorem C82_shared_refuted :
  exists s s1 s2, sound s /\ zi_in_place 0 10 [1] s = Ok s1 /\ zi_in_place 0 10 [0; 1] s = Ok s2 /\
    coords s 0 0 = Some [1; 2]%Q /\ coords s1 0 0 = Some [1 * 10; 2 * 10]%Q /\
    coords s2 0 0 = Some [1 * 10 * 10; 2 * 10 * 10]%Q.
Proof.
  exists ([[1; 2]]%Q, [mk_dat [0] [1]%Q [2]%Q; mk_dat [0] [1]%Q [2]%Q]). eexists _, _. split.
  { intros [|[|[|j]]] [|[|k]] a H; try discriminate; injection H as <-; cbn; eauto. }
  split; [vm_compute; reflexivity|]. split; [vm_compute; reflexivity|]. split; [reflexivity|]. split; reflexivity.
Qed.

Print Assumptions C82_arrays.
Print Assumptions C82_unshared.
Print Assumptions C82_tag_refuted.
Print Assumptions C82_shared_refuted.
