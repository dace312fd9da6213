(** * C86: neighbouring blocks. *)
From Coq Require Import String Ascii List Arith ZArith QArith Qabs Bool Lia Lqa.
From Verif Require Import Prelude PreludeFacts NdArray GData_Model Select_Model Select_Spec DataSpace_Model DataSpace_Proofs Multi_Model.
Import ListNotations.
Open Scope list_scope.

(** ** Geometry, independent of the model *)

(** The block [s] ends where [r] begins along axis [k], with the same lower
    corner along the other axes. *)
Definition below (nd : nat) (lo hi : ref -> nat -> Q) (k : nat) (r s : ref) : Prop :=
  hi s k == lo r k /\ forall o, (o < nd)%nat -> o <> k -> lo s o == lo r o.

(** [s] begins where [r] ends. *)
Definition above (nd : nat) (lo hi : ref -> nat -> Q) (k : nat) (r s : ref) : Prop :=
  lo s k == hi r k /\ forall o, (o < nd)%nat -> o <> k -> lo s o == lo r o.

(** Different blocks do not overlap. *)
Definition no_overlap (nd : nat) (lo hi : ref -> nat -> Q) (refs : list ref) : Prop :=
  forall r s, In r refs -> In s refs -> r <> s ->
    exists k, (k < nd)%nat /\ (hi r k <= lo s k \/ hi s k <= lo r k).

(** Coordinates of ends of blocks along the same axis are equal or further
    apart than the tolerance of [np.isclose]. *)
Definition apart (x y : Q) : Prop :=
  x == y \/ (1 # 100000000) + (1 # 100000) * Qabs y < Qabs (x - y).
Definition separated (nd : nat) (lo hi : ref -> nat -> Q) (refs : list ref) : Prop :=
  forall r s k, In r refs -> In s refs -> (k < nd)%nat ->
    apart (lo r k) (lo s k) /\ apart (lo r k) (hi s k) /\ apart (hi r k) (lo s k) /\ apart (hi r k) (hi s k).

(** The uniform grid of [d] runs from [lo] to [hi]. *)
Definition spans {A} (nd : nat) (d : gdata A) (lo hi : nat -> Q) : Prop :=
  get_num_dims d = nd /\
  exists g, g_grid d = Some g /\
    forall k, (k < nd)%nat -> exists n xs, nth_error g k = Some (mk_nda [n] xs) /\
      nth_error xs 0 = Some (lo k) /\ nth_error xs (length xs - 1) = Some (hi k) /\ lo k < hi k.

(** ** Lemmas *)
Lemma isclose_apart x y : apart x y -> isclose x y = Qeq_bool x y.
Proof.
  intros [E|H].
  - rewrite (proj2 (Qeq_bool_iff x y) E). unfold isclose. apply Qle_bool_iff.
    assert (E0 : (x - y == 0)%Q) by (rewrite E; ring). rewrite E0. change (Qabs 0) with 0%Q.
    pose proof (Qabs_nonneg y). lra.
  - assert (N : ~ x == y).
    { intros E. assert (E0 : (x - y == 0)%Q) by (rewrite E; ring). rewrite E0 in H. change (Qabs 0) with 0%Q in H.
      pose proof (Qabs_nonneg y). lra. }
    replace (Qeq_bool x y) with false.
    2:{ symmetry. apply not_true_iff_false. intros E. apply Qeq_bool_iff in E. auto. }
    unfold isclose. apply not_true_iff_false. intros E. apply Qle_bool_iff in E. lra.
Qed.

Lemma rev_head {B} (l : list B) : hd_error (rev l) = nth_error l (length l - 1).
Proof.
  destruct (rev l) as [|x r] eqn:E.
  - apply (f_equal (@rev B)) in E. rewrite rev_involutive in E. subst. reflexivity.
  - apply (f_equal (@rev B)) in E. rewrite rev_involutive in E. subst. cbn [rev hd_error].
    rewrite app_length, rev_length. cbn [length]. rewrite nth_error_app2 by (rewrite rev_length; lia).
    rewrite rev_length. now replace (length r + 1 - 1 - length r)%nat with 0%nat by lia.
Qed.

Section Nbr.
  Context {A : Type}.

  Lemma spans_edges nd (d : gdata A) lo hi k : spans nd d lo hi -> (k < nd)%nat ->
    edge false d k = Ok (lo k) /\ edge true d k = Ok (hi k) /\ lo k < hi k.
  Proof.
    intros (_ & g & Eg & H) Hk. destruct (H k Hk) as (n & xs & E & H0 & H1 & Hlt).
    unfold edge. rewrite Eg, E. cbn [shape flat]. split; [|split; [|exact Hlt]].
    - destruct xs; [discriminate|]. cbn in H0. now injection H0 as ->.
    - rewrite <- rev_head in H1. destruct (rev xs); [discriminate|]. cbn in H1. now injection H1 as ->.
  Qed.

  (** The side on which [s] adjoins [r] along [k]. *)
  Definition side (nd : nat) (lo hi : ref -> nat -> Q) (k : nat) (r s : ref) : option nat :=
    let same := match nd with 2%nat => Qeq_bool (lo r (1 - k)%nat) (lo s (1 - k)%nat) | _ => true end in
    if Qeq_bool (lo r k) (hi s k) && same then Some 0%nat
    else if Qeq_bool (hi r k) (lo s k) && same then Some 1%nat else None.

  Lemma adjoins_side nd lo hi k r s (d e : gdata A) :
    (nd = 1 \/ nd = 2)%nat -> (k < nd)%nat -> spans nd d (lo r) (hi r) -> spans nd e (lo s) (hi s) ->
    separated nd lo hi [r; s] ->
    adjoins d e nd k = Ok (side nd lo hi k r s).
  Proof.
    intros Hnd Hk Hd He Hsep.
    destruct (spans_edges _ _ _ _ k Hd Hk) as (D0 & D1 & _).
    destruct (spans_edges _ _ _ _ k He Hk) as (E0 & E1 & _).
    destruct (Hsep r s k) as (S1 & S2 & S3 & S4); [now left|right; now left|exact Hk|].
    unfold side. destruct Hnd as [-> | ->].
    - unfold adjoins, close. rewrite D0, D1, E0, E1. cbn [bind]. rewrite !isclose_apart by auto. rewrite !andb_true_r.
      destruct (Qeq_bool (lo r k) (hi s k)); [reflexivity|]. reflexivity.
    - assert (Ho : (1 - k < 2)%nat) by lia.
      destruct (spans_edges _ _ _ _ (1 - k) Hd Ho) as (DO & _ & _).
      destruct (spans_edges _ _ _ _ (1 - k) He Ho) as (EO & _ & _).
      destruct (Hsep r s (1 - k)%nat) as (T1 & _); [now left|right; now left|exact Ho|].
      unfold adjoins, close, and_then. rewrite D0, D1, E0, E1, DO, EO. cbn [bind]. rewrite !isclose_apart by auto.
      destruct (Qeq_bool (lo r k) (hi s k)); cbn [bind andb].
      + destruct (Qeq_bool (lo r (1 - k)%nat) (lo s (1 - k)%nat)); cbn [bind]; [reflexivity|].
        destruct (Qeq_bool (hi r k) (lo s k)); cbn [bind andb]; reflexivity.
      + destruct (Qeq_bool (hi r k) (lo s k)); cbn [bind andb]; [|reflexivity].
        destruct (Qeq_bool (lo r (1 - k)%nat) (lo s (1 - k)%nat)); reflexivity.
  Qed.

  (** The last dataset on a given side. *)
  Fixpoint last_on (cls : ref -> option nat) (j : nat) (l : list ref) (a : option ref) : option ref :=
    match l with
    | [] => a
    | s :: l' => last_on cls j l' (match cls s with Some i => if (i =? j)%nat then Some s else a | None => a end)
    end.

  Lemma set_nth_id {B} k (b : B) l : nth_error l k = Some b -> set_nth k b l = l.
  Proof. revert k; induction l as [|c l IH]; destruct k; simpl; intros H; try discriminate; [congruence|]. now rewrite IH. Qed.

  Lemma set_nth_twice {B} k (b c : B) l : set_nth k b (set_nth k c l) = set_nth k b l.
  Proof. revert k; induction l as [|d l IH]; destruct k; simpl; auto. now rewrite IH. Qed.

  Lemma scan_last d nd k cls (l : list (ref * gdata A)) nb a b :
    (forall s e, In (s, e) l -> adjoins d e nd k = Ok (cls s) /\ (cls s = None \/ cls s = Some 0 \/ cls s = Some 1)%nat) ->
    nth_error nb k = Some (a, b) ->
    scan_nbrs d nd k l nb
    = Ok (set_nth k (last_on cls 0 (List.map fst l) a, last_on cls 1 (List.map fst l) b) nb).
  Proof.
    revert nb a b. induction l as [|[s e] l IH]; intros nb a b H Hn; cbn [scan_nbrs List.map fst last_on].
    - now rewrite set_nth_id.
    - destruct (H s e (or_introl eq_refl)) as [E Ec]. rewrite E. cbn [bind].
      assert (H' : forall s0 e0, In (s0, e0) l -> adjoins d e0 nd k = Ok (cls s0) /\ (cls s0 = None \/ cls s0 = Some 0 \/ cls s0 = Some 1)%nat)
        by (intros; apply H; now right).
      assert (Hk : (k < length nb)%nat) by (apply nth_error_Some; congruence).
      destruct Ec as [Ec|[Ec|Ec]]; rewrite Ec.
      + now apply IH.
      + cbn [Nat.eqb]. unfold put_nbr. rewrite Hn. cbn [Nat.eqb].
        rewrite (IH _ (Some s) b) by (auto; rewrite nth_error_set_nth, Nat.eqb_refl, Hn; reflexivity).
        now rewrite set_nth_twice.
      + cbn [Nat.eqb]. unfold put_nbr. rewrite Hn. cbn [Nat.eqb].
        rewrite (IH _ a (Some s)) by (auto; rewrite nth_error_set_nth, Nat.eqb_refl, Hn; reflexivity).
        now rewrite set_nth_twice.
  Qed.

  Lemma last_on_in cls j l a s : last_on cls j l a = Some s -> a = Some s \/ (In s l /\ cls s = Some j).
  Proof.
    revert a. induction l as [|x l IH]; intros a; cbn [last_on]; [now left|]. intros H. apply IH in H.
    destruct H as [H|[H1 H2]]; [|right; split; [now right|auto]].
    destruct (cls x) as [i|] eqn:E; [|now left]. destruct (Nat.eqb_spec i j) as [->|]; [|now left].
    injection H as <-. right. split; [now left|auto].
  Qed.

  Lemma last_on_some cls j l a s : In s l -> cls s = Some j -> exists s', last_on cls j l a = Some s' /\ In s' l /\ cls s' = Some j.
  Proof.
    revert a. induction l as [|x l IH]; intros a Hin Hs; [destruct Hin|]. cbn [last_on].
    destruct (in_dec ref_eq_dec s l) as [Hl|Hl].
    - destruct (IH (match cls x with Some i => if (i =? j)%nat then Some x else a | None => a end) Hl Hs) as (s' & H1 & H2 & H3).
      exists s'. split; [exact H1|]. split; [now right|auto].
    - destruct Hin as [->|Hin]; [|contradiction]. rewrite Hs, Nat.eqb_refl.
      destruct (last_on cls j l (Some s)) as [s'|] eqn:E.
      + destruct (last_on_in _ _ _ _ _ E) as [E'|[H1 H2]]; exists s'; (split; [reflexivity|]).
        * injection E' as ->. split; [now left|auto].
        * split; [now right|auto].
      + exfalso. clear - E. revert E. generalize s. induction l as [|y l IH]; intros s0; cbn [last_on]; [discriminate|].
        destruct (cls y) as [i|]; [destruct (i =? j)%nat|]; eauto.
  Qed.

  (** Meaning of the two sides. *)
  Lemma side_0 nd lo hi k r s : (nd = 1 \/ nd = 2)%nat -> (k < nd)%nat ->
    side nd lo hi k r s = Some 0%nat <-> below nd lo hi k r s.
  Proof.
    intros Hnd Hk. unfold side, below.
    assert (Hs : (match nd with 2%nat => Qeq_bool (lo r (1 - k)%nat) (lo s (1 - k)%nat) | _ => true end) = true
                 <-> forall o, (o < nd)%nat -> o <> k -> lo s o == lo r o).
    { destruct Hnd as [-> | ->].
      - split; [|reflexivity]. intros _ o Ho Hne. lia.
      - rewrite Qeq_bool_iff. split.
        + intros E o Ho Hne. replace o with (1 - k)%nat by lia. now symmetry.
        + intros H. symmetry. apply H; lia. }
    rewrite <- Hs. set (same := match nd with 2%nat => _ | _ => true end). clearbody same.
    destruct (Qeq_bool (lo r k) (hi s k)) eqn:E; cbn [andb].
    - apply Qeq_bool_iff in E. destruct same; [split; [intros _; split; [now symmetry|auto]|auto]|].
      split; [|intros [_ [=]]]. rewrite andb_false_r. discriminate.
    - split.
      + destruct (Qeq_bool (hi r k) (lo s k) && same); discriminate.
      + intros [H _]. assert (Qeq_bool (lo r k) (hi s k) = true) by (apply Qeq_bool_iff; now symmetry). congruence.
  Qed.

  Lemma side_1 nd lo hi k r s : (nd = 1 \/ nd = 2)%nat -> (k < nd)%nat -> lo r k < hi r k -> lo s k < hi s k ->
    side nd lo hi k r s = Some 1%nat <-> above nd lo hi k r s.
  Proof.
    intros Hnd Hk Hr Hs'. unfold side, above.
    assert (Hs : (match nd with 2%nat => Qeq_bool (lo r (1 - k)%nat) (lo s (1 - k)%nat) | _ => true end) = true
                 <-> forall o, (o < nd)%nat -> o <> k -> lo s o == lo r o).
    { destruct Hnd as [-> | ->].
      - split; [|reflexivity]. intros _ o Ho Hne. lia.
      - rewrite Qeq_bool_iff. split.
        + intros E o Ho Hne. replace o with (1 - k)%nat by lia. now symmetry.
        + intros H. symmetry. apply H; lia. }
    rewrite <- Hs. set (same := match nd with 2%nat => _ | _ => true end). clearbody same.
    destruct (Qeq_bool (hi r k) (lo s k)) eqn:E1.
    - apply Qeq_bool_iff in E1. replace (Qeq_bool (lo r k) (hi s k)) with false.
      2:{ symmetry. apply not_true_iff_false. rewrite Qeq_bool_iff. intros E. lra. }
      cbn [andb]. destruct same; [split; [intros _; split; [now symmetry|auto]|auto]|].
      split; [discriminate|intros [_ [=]]].
    - cbn [andb]. split.
      + destruct (Qeq_bool (lo r k) (hi s k) && same); discriminate.
      + intros [H _]. assert (Qeq_bool (hi r k) (lo s k) = true) by (apply Qeq_bool_iff; now symmetry). congruence.
  Qed.

  Lemma side_cases nd lo hi k r s : (side nd lo hi k r s = None \/ side nd lo hi k r s = Some 0 \/ side nd lo hi k r s = Some 1)%nat.
  Proof. unfold side. destruct (_ && _); [auto|]. destruct (_ && _); auto. Qed.

  Lemma no_overlap_above nd lo hi refs k r s s' :
    no_overlap nd lo hi refs -> In s refs -> In s' refs -> (forall o, (o < nd)%nat -> lo s o < hi s o /\ lo s' o < hi s' o) ->
    above nd lo hi k r s -> above nd lo hi k r s' -> s = s'.
  Proof.
    intros Hn Hs Hs' Hpos [A1 A2] [B1 B2]. destruct (ref_eq_dec s s') as [|Hne]; [auto|]. exfalso.
    destruct (Hn s s' Hs Hs' Hne) as (o & Ho & Hle). destruct (Hpos o Ho) as [P1 P2].
    assert (E : lo s o == lo s' o).
    { destruct (Nat.eq_dec o k) as [->|Hk]; [lra|]. rewrite (A2 o), (B2 o) by auto. reflexivity. }
    destruct Hle; lra.
  Qed.

  Lemma no_overlap_below nd lo hi refs k r s s' :
    no_overlap nd lo hi refs -> In s refs -> In s' refs -> (forall o, (o < nd)%nat -> lo s o < hi s o /\ lo s' o < hi s' o) ->
    below nd lo hi k r s -> below nd lo hi k r s' -> s = s'.
  Proof.
    intros Hn Hs Hs' Hpos [A1 A2] [B1 B2]. destruct (ref_eq_dec s s') as [|Hne]; [auto|]. exfalso.
    destruct (Hn s s' Hs Hs' Hne) as (o & Ho & Hle). destruct (Hpos o Ho) as [P1 P2].
    destruct (Nat.eq_dec o k) as [->|Hk].
    - destruct Hle; lra.
    - assert (E : lo s o == lo s' o) by (rewrite (A2 o), (B2 o) by auto; reflexivity). destruct Hle; lra.
  Qed.

  (** What a pass along all axes gives. *)
  Lemma nbr_dims_spec (d : gdata A) nd (l : list (ref * gdata A)) cls dims nb :
    (forall k, In k dims -> forall s e, In (s, e) l ->
       adjoins d e nd k = Ok (cls k s) /\ (cls k s = None \/ cls k s = Some 0 \/ cls k s = Some 1)%nat) ->
    dims = seq (length nb) (length dims) ->
    nbr_dims d nd dims l nb =
    Ok (nb ++ List.map (fun k => (last_on (cls k) 0 (List.map fst l) None, last_on (cls k) 1 (List.map fst l) None)) dims).
  Proof.
    revert nb. induction dims as [|k dims IH]; intros nb H Hd; cbn [nbr_dims List.map]; [now rewrite app_nil_r|].
    cbn [length seq] in Hd. injection Hd as Hk Hd. subst k.
    rewrite (scan_last d nd (length nb) (cls (length nb)) l (nb ++ [(None, None)]) None None).
    2:{ apply H. now left. }
    2:{ rewrite nth_error_app2 by lia. now rewrite Nat.sub_diag. }
    cbn [bind].
    assert (E : forall p, set_nth (length nb) p (nb ++ [(None, None)]) = nb ++ [p]).
    { clear. intros p. induction nb as [|x nb IH]; [reflexivity|]. cbn. now rewrite IH. }
    rewrite E, IH.
    - now rewrite <- app_assoc.
    - intros k Hk. apply H. now right.
    - rewrite app_length. cbn [length]. now rewrite Nat.add_1_r.
  Qed.
End Nbr.

(** C86: in one or two dimensions, for blocks that do not overlap and whose
    ends are separated, a block without earlier neighbours gets along each
    axis exactly the block below and the block above it, whatever the order of
    the datasets. *)
Theorem C86_neighbours {A} nd (l : list (ref * gdata A)) lo hi r d :
  (nd = 1 \/ nd = 2)%nat -> In (r, d) l ->
  (forall s e, In (s, e) l -> spans nd e (lo s) (hi s)) ->
  no_overlap nd lo hi (List.map fst l) -> separated nd lo hi (List.map fst l) ->
  exists nb, neighbors d [] l = Ok nb /\ length nb = nd /\
    forall k, (k < nd)%nat -> exists a b, nth_error nb k = Some (a, b) /\
      (forall s, a = Some s <-> In s (List.map fst l) /\ below nd lo hi k r s) /\
      (forall s, b = Some s <-> In s (List.map fst l) /\ above nd lo hi k r s).
Proof.
  intros Hnd Hin Hsp Hno Hsep.
  assert (Hd := Hsp r d Hin). assert (Edims : get_num_dims d = nd) by apply Hd.
  assert (Hr : In r (List.map fst l)) by (apply in_map_iff; exists (r, d); auto).
  assert (Hpos : forall s o, In s (List.map fst l) -> (o < nd)%nat -> lo s o < hi s o).
  { intros s o Hs Ho. apply in_map_iff in Hs as ([s' e] & <- & Hs). cbn [fst].
    apply (spans_edges nd e (lo s') (hi s') o); auto. }
  exists (List.map (fun k => (last_on (side nd lo hi k r) 0 (List.map fst l) None, last_on (side nd lo hi k r) 1 (List.map fst l) None)) (seq 0 nd)).
  unfold neighbors. rewrite Edims. split; [|split].
  - rewrite (nbr_dims_spec d nd l (fun k => side nd lo hi k r)); [reflexivity| |now rewrite seq_length].
    intros k Hk s e Hs. apply in_seq in Hk. split; [|apply side_cases].
    apply adjoins_side; auto; [lia|]. intros x y o Hx Hy Ho.
    assert (Hs' : In s (List.map fst l)) by (apply in_map_iff; exists (s, e); auto).
    apply Hsep; auto; [destruct Hx as [<-|[<-|[]]]|destruct Hy as [<-|[<-|[]]]]; auto.
  - now rewrite map_length, seq_length.
  - intros k Hk. rewrite nth_error_map, nth_error_seq.
    replace (k <? nd)%nat with true by (symmetry; now apply Nat.ltb_lt). cbn [option_map Nat.add].
    eexists _, _. split; [reflexivity|]. split; intros s; split.
    + intros H. destruct (last_on_in _ _ _ _ _ H) as [|[H1 H2]]; [discriminate|]. split; [auto|]. now apply side_0 in H2.
    + intros [H1 H2]. assert (H3 : side nd lo hi k r s = Some 0%nat) by now apply side_0.
      destruct (last_on_some (side nd lo hi k r) 0 _ None s H1 H3) as (s' & -> & H4 & H5). f_equal. apply side_0 in H5; auto.
      apply (no_overlap_below nd lo hi (List.map fst l) k r); auto.
    + intros H. destruct (last_on_in _ _ _ _ _ H) as [|[H1 H2]]; [discriminate|]. split; [auto|]. apply side_1 in H2; auto.
    + intros [H1 H2]. assert (H3 : side nd lo hi k r s = Some 1%nat) by (apply side_1; auto).
      destruct (last_on_some (side nd lo hi k r) 1 _ None s H1 H3) as (s' & -> & H4 & H5). f_equal. apply side_1 in H5; auto.
      apply (no_overlap_above nd lo hi (List.map fst l) k r); auto.
Qed.

(** In three dimensions no block ever gets a neighbour: the call fails as soon
    as some dataset ends where the block begins, and otherwise finds nothing. *)
Theorem C86_three_dims {A} (l : list (ref * gdata A)) d nb :
  get_num_dims d = 3%nat -> neighbors d [] l = Ok nb -> nb = [(None, None); (None, None); (None, None)].
Proof.
  intros Hd. unfold neighbors. rewrite Hd.
  assert (G : forall k nb0 nb1, scan_nbrs d 3 k l nb0 = Ok nb1 -> nb1 = nb0).
  { intros k. induction l as [|[s e] l IH]; intros nb0 nb1; cbn [scan_nbrs]; [now intros [= <-]|].
    cbn [adjoins]. destruct (and_then _ _) as [b|]; [|discriminate]. cbn [bind]. apply IH. }
  cbn [seq nbr_dims]. intros H.
  apply bind_ok in H as (n1 & H1 & H). apply G in H1. subst n1.
  apply bind_ok in H as (n1 & H1 & H). apply G in H1. subst n1.
  apply bind_ok in H as (n1 & H1 & H). apply G in H1. subst n1.
  now injection H as <-.
Qed.

Theorem C86_three_dims_fails {A} (l : list (ref * gdata A)) (d e : gdata A) s lo hi lo' hi' k :
  In (s, e) l -> spans 3 d lo hi -> spans 3 e lo' hi' -> (k < 3)%nat -> hi' k == lo k ->
  exists x, neighbors d [] l = Err x.
Proof.
  intros Hin Hd He Hk Heq.
  destruct (neighbors d [] l) as [nb|x] eqn:E; [|eauto]. exfalso.
  unfold neighbors in E. rewrite (proj1 Hd) in E.
  assert (G : forall nb0 nb1, scan_nbrs d 3 k l nb0 = Ok nb1 -> False).
  { clear E. induction l as [|[s' e'] l IH]; intros nb0 nb1; [destruct Hin|]. cbn [scan_nbrs].
    destruct Hin as [[= -> ->]|Hin].
    - unfold adjoins, close. destruct (spans_edges _ _ _ _ k Hd Hk) as (-> & _ & _).
      destruct (spans_edges _ _ _ _ k He Hk) as (_ & -> & _). cbn [bind].
      rewrite isclose_apart by (left; now symmetry).
      rewrite (proj2 (Qeq_bool_iff _ _)) by now symmetry. discriminate.
    - destruct (adjoins d e' 3 k); [|discriminate]. cbn [bind]. apply IH. exact Hin. }
  cbn [seq nbr_dims] in E.
  apply bind_ok in E as (n1 & H1 & E). apply bind_ok in E as (n2 & H2 & E). apply bind_ok in E as (n3 & H3 & E).
  destruct k as [|[|[|k]]]; [eapply G; exact H1|eapply G; exact H2|eapply G; exact H3|lia].
Qed.

(** ** Examples and failures *)
Definition ex_block (xs ys : list Q) : gdata nat :=
  mk_gdata (Some [line xs; line ys]) None (Some [length xs - 1; length ys - 1]%nat) (Some 1%nat) None None.

(** Four blocks around the point (1, 1), listed in no particular order. *)
Definition ex_four : list (ref * gdata nat) :=
  [(("a"%string, 3%nat), ex_block [1; 2] [1; 2]); (("a"%string, 0%nat), ex_block [0; 1] [0; 1]);
   (("a"%string, 2%nat), ex_block [1; 2] [0; 1]); (("a"%string, 1%nat), ex_block [0; 1] [1; 2])].

Example C86_ex :
  neighbors (ex_block [0; 1] [0; 1]) [] ex_four
  = Ok [(None, Some ("a"%string, 2%nat)); (None, Some ("a"%string, 1%nat))].
Proof. reflexivity. Qed.

(** [C86_neighbours] for these blocks. *)
Definition ex_lo (r : ref) (k : nat) : Q :=
  match snd r, k with 1%nat, 1%nat => 1 | 2%nat, 0%nat => 1 | 3%nat, _ => 1 | _, _ => 0 end.
Definition ex_hi (r : ref) (k : nat) : Q :=
  match snd r, k with 1%nat, 1%nat => 2 | 2%nat, 0%nat => 2 | 3%nat, _ => 2 | _, _ => 1 end.
Example C86_ex_meets : exists nb, neighbors (ex_block [0; 1] [0; 1]) [] ex_four = Ok nb /\ length nb = 2%nat /\
    forall k, (k < 2)%nat -> exists a b, nth_error nb k = Some (a, b) /\
      (forall s, a = Some s <-> In s (List.map fst ex_four) /\ below 2 ex_lo ex_hi k ("a"%string, 0%nat) s) /\
      (forall s, b = Some s <-> In s (List.map fst ex_four) /\ above 2 ex_lo ex_hi k ("a"%string, 0%nat) s).
Proof.
  apply C86_neighbours; [now right|right; now left| | |].
  - intros s e Hin. cbn in Hin.
    destruct Hin as [[= <- <-]|[[= <- <-]|[[= <- <-]|[[= <- <-]|[]]]]];
    (split; [reflexivity|]); eexists; (split; [reflexivity|]);
    intros k Hk; destruct k as [|[|k]]; try lia; cbn; eexists _, _; repeat split.
  - intros r s Hr Hs Hne. cbn in Hr, Hs.
    destruct Hr as [<-|[<-|[<-|[<-|[]]]]]; destruct Hs as [<-|[<-|[<-|[<-|[]]]]];
      try congruence; cbn;
      first [exists 0%nat; split; [lia|first [left; cbn; lra|right; cbn; lra]]|exists 1%nat; split; [lia|first [left; cbn; lra|right; cbn; lra]]].
  - intros r s k Hr Hs Hk. cbn in Hr, Hs.
    destruct Hr as [<-|[<-|[<-|[<-|[]]]]]; destruct Hs as [<-|[<-|[<-|[<-|[]]]]];
      destruct k as [|[|k]]; try lia; cbn;
      (split; [|split; [|split]]); unfold apart;
      first [left; reflexivity|right; vm_compute; reflexivity].
Qed.

(** Blocks smaller than the absolute tolerance of [np.isclose] (1e-8): the
    upper neighbour is taken for the lower one. *)
Theorem C86_small_refuted :
  exists (d e : gdata nat) lo hi,
    (forall k, (k < 2)%nat -> lo ("a"%string, 0%nat) k < hi ("a"%string, 0%nat) k) /\
    spans 2 d (lo ("a"%string, 0%nat)) (hi ("a"%string, 0%nat)) /\ spans 2 e (lo ("a"%string, 1%nat)) (hi ("a"%string, 1%nat)) /\
    above 2 lo hi 0 ("a"%string, 0%nat) ("a"%string, 1%nat) /\ ~ below 2 lo hi 0 ("a"%string, 0%nat) ("a"%string, 1%nat) /\
    exists p, neighbors d [] [(("a"%string, 1%nat), e)] = Ok ((Some ("a"%string, 1%nat), None) :: p).
Proof.
  exists (ex_block [0; 1 # 1000000000] [0; 1]), (ex_block [1 # 1000000000; 2 # 1000000000] [0; 1]),
    (fun r k => match k, snd r with 0%nat, 0%nat => 0 | 0%nat, _ => 1 # 1000000000 | _, _ => 0 end),
    (fun r k => match k, snd r with 0%nat, 0%nat => 1 # 1000000000 | 0%nat, _ => 2 # 1000000000 | _, _ => 1 end).
  split; [intros [|[|k]] Hk; try lia; reflexivity|].
  split. { split; [reflexivity|]. eexists; split; [reflexivity|]. intros [|[|k]] Hk; try lia; eexists _, _; repeat split. }
  split. { split; [reflexivity|]. eexists; split; [reflexivity|]. intros [|[|k]] Hk; try lia; eexists _, _; repeat split. }
  split. { split; [reflexivity|]. intros [|[|k]] Hk Hne; try lia. reflexivity. }
  split. { intros [H _]. cbn in H. vm_compute in H. discriminate. }
  eexists. vm_compute. reflexivity.
Qed.

(** A second call does not forget the neighbours found by the first. *)
Theorem C86_stale_refuted :
  exists (d e : gdata nat) nb1 nb2,
    neighbors d [] [(("a"%string, 1%nat), e)] = Ok nb1 /\ neighbors d nb1 [] = Ok nb2 /\
    option_map snd (nth_error nb2 0) = Some (Some ("a"%string, 1%nat)) /\ length nb2 = 4%nat.
Proof.
  exists (ex_block [0; 1] [0; 1]), (ex_block [1; 2] [0; 1]). eexists _, _.
  split; [reflexivity|]. split; [reflexivity|]. split; reflexivity.
Qed.

Print Assumptions C86_neighbours.
Print Assumptions C86_three_dims.
Print Assumptions C86_three_dims_fails.
Print Assumptions C86_small_refuted.
Print Assumptions C86_stale_refuted.
