(** * C102: kinetic energy and its dissipation *)
From Coq Require Import String Ascii List Arith ZArith Reals Lia Lra.
From Verif Require Import Prelude PreludeFacts Diag_Model.
Import ListNotations.
Open Scope list_scope.

(** ** Specification *)

(** The first two coordinates are [h] apart. *)
Definition step (xs : list R) (h : R) : Prop := exists a rest, xs = a :: (a + h)%R :: rest.

Definition file_name (root : string) (c : nat) : string := (root ++ show_Z (Z.of_nat c) ++ ".bp")%string.

(** A frame of three-dimensional fluid data: density and momenta, maybe more. *)
Definition fluid (fr : frame) (n0 n1 n2 : nat) : Prop :=
  (exists nc, f_shape fr = [n0; n1; n2; nc] /\ (4 <= nc)%nat) /\
  forall i j k, (i < n0)%nat -> (j < n1)%nat -> (k < n2)%nat -> f_at fr [i; j; k; 0%nat] <> 0%R.

(** Kinetic energy density. *)
Definition kinetic (fr : frame) (i j k : nat) : R :=
  ((f_at fr [i; j; k; 1%nat] ^ 2 + f_at fr [i; j; k; 2%nat] ^ 2 + f_at fr [i; j; k; 3%nat] ^ 2) / (2 * f_at fr [i; j; k; 0%nat]))%R.

(** ** Arrays *)

Lemma nth_error_map_seq {A} (f : nat -> A) n i : nth_error (List.map f (seq 0 n)) i = if (i <? n)%nat then Some (f i) else None.
Proof. rewrite nth_error_map, nth_error_seq. now destruct (i <? n)%nat. Qed.

Lemma list_ext {A} (l m : list A) : (forall i, nth_error l i = nth_error m i) -> l = m.
Proof.
  revert m. induction l as [|a l IH]; intros [|b m] H; [reflexivity| | |].
  - specialize (H 0%nat). discriminate.
  - specialize (H 0%nat). discriminate.
  - f_equal; [specialize (H 0%nat); now injection H|]. apply IH. intros i. exact (H (S i)).
Qed.

Lemma nth_error_set_nth {A} (l : list A) k x i : (k < List.length l)%nat -> nth_error (set_nth k x l) i = if (i =? k)%nat then Some x else nth_error l i.
Proof.
  revert k i. induction l as [|a l IH]; intros k i H; [cbn in H; lia|]. destruct k as [|k], i as [|i]; cbn; try reflexivity. apply IH. cbn in H. lia.
Qed.

Lemma store_map n f k x : (k < n)%nat -> store (List.map f (seq 0 n)) k x = Ok (List.map (fun j => if (j =? k)%nat then x else f j) (seq 0 n)).
Proof.
  intros H. unfold store. rewrite map_length, seq_length. apply Nat.ltb_lt in H as H'. rewrite H'. f_equal. apply list_ext. intros i.
  rewrite nth_error_set_nth by now rewrite map_length, seq_length. rewrite !nth_error_map_seq. destruct (Nat.eqb_spec i k) as [->|_]; [now rewrite H'|reflexivity].
Qed.

Lemma item_map n f k : item (List.map f (seq 0 n)) k = if (k <? n)%nat then Ok (f k) else Err IndexError.
Proof. unfold item. rewrite nth_error_map_seq. now destruct (k <? n)%nat. Qed.

Lemma map_seq_ext {A} (f g : nat -> A) n : (forall i, (i < n)%nat -> f i = g i) -> List.map f (seq 0 n) = List.map g (seq 0 n).
Proof. intros H. apply map_ext_in. intros i Hi. apply in_seq in Hi. apply H. lia. Qed.

Lemma zeros_nonneg n : zeros (Z.of_nat n) = Ok (List.map (fun _ => 0%R) (seq 0 n)).
Proof.
  unfold zeros. destruct (Z.ltb_spec (Z.of_nat n) 0); [lia|]. rewrite Nat2Z.id. f_equal. clear. generalize 0%nat. induction n as [|n IH]; intros s; [reflexivity|]. cbn. f_equal. apply IH.
Qed.

Lemma for_each_cons {S} i is (body : nat -> S -> res S) s : for_each (i :: is) body s = let* s' := body i s in for_each is body s'.
Proof.
  unfold for_each. cbn [fold_left bind]. destruct (body i s) as [s'|e]; [reflexivity|]. cbn [bind]. induction is as [|j is IH]; [reflexivity|]. exact IH.
Qed.

(** ** Sums *)

Lemma sum_ext n f g : (forall i, (i < n)%nat -> f i = g i) -> sum n f = sum n g.
Proof. intros H. unfold sum. f_equal. now apply map_seq_ext. Qed.

Lemma sum3_ext n0 n1 n2 f g : (forall i j k, (i < n0)%nat -> (j < n1)%nat -> (k < n2)%nat -> f i j k = g i j k) -> sum3 n0 n1 n2 f = sum3 n0 n1 n2 g.
Proof. intros H. apply sum_ext. intros i Hi. apply sum_ext. intros j Hj. apply sum_ext. intros k Hk. auto. Qed.

Lemma spacing_ok g d xs h : nth_error g d = Some xs -> step xs h -> spacing g d = Ok h.
Proof. intros E (a & rest & ->). unfold spacing. rewrite E. f_equal. ring. Qed.

Lemma moments_ok fr n0 n1 n2 nc : f_shape fr = [n0; n1; n2; nc] -> (4 <= nc)%nat -> moments fr = Ok ([n0; n1; n2], fun c idx => f_at fr (idx ++ [c])).
Proof. intros E H. unfold moments. rewrite E. cbn [rev app]. apply Nat.leb_le in H. now rewrite H. Qed.

Lemma frame_energy_ok fr n0 n1 n2 dx dy dz vol : fluid fr n0 n1 n2 -> frame_energy dx dy dz vol fr = Ok (2 * sum3 n0 n1 n2 (kinetic fr) * dx * dy * dz * vol)%R.
Proof.
  intros ((nc & E & Hc) & Hr). unfold frame_energy. rewrite (moments_ok _ _ _ _ _ E Hc). cbn [bind]. f_equal. do 4 f_equal.
  assert (S2 : forall f, (2 * sum3 n0 n1 n2 f)%R = sum3 n0 n1 n2 (fun i j k => 2 * f i j k)%R).
  { assert (S1 : forall n g, (2 * sum n g)%R = sum n (fun i => 2 * g i)%R).
    { intros n g. unfold sum. induction (seq 0 n) as [|a l IH]; cbn [List.map fold_right]; [ring|]. rewrite <- IH. ring. }
    intros f. unfold sum3. rewrite S1. apply sum_ext. intros i _. rewrite S1. apply sum_ext. intros j _. apply S1. }
  rewrite S2. apply sum3_ext. intros i j k Hi Hj Hk. specialize (Hr i j k Hi Hj Hk). unfold kinetic. cbn [app]. field. exact Hr.
Qed.

(** ** The loops *)

Section Loops.
  Context (load : string -> res frame) (root : string) (init final : nat) (dx dy dz vol dt : R) (n0 n1 n2 : nat) (fr : nat -> frame).
  Context (F : forall c, (init <= c <= final)%nat -> load (file_name "root_file_name" c) = Ok (fr c) /\ fluid (fr c) n0 n1 n2).

  Definition total (c : nat) : R := (2 * sum3 n0 n1 n2 (kinetic (fr c)) * dx * dy * dz * vol)%R.

  Let n := (final + 1 - init)%nat.

  Lemma first_loop m : forall k, (k + m = n)%nat ->
    for_each (seq (init + k) m) (fun c '(ke, r) =>
      let* fr := load ("root_file_name" ++ show_Z (Z.of_nat c) ++ ".bp")%string in
      let* e := frame_energy dx dy dz vol fr in
      let* ke := store ke r e in Ok (ke, S r)) (List.map (fun j => if (j <? k)%nat then total (init + j) else 0%R) (seq 0 n), k)
    = Ok (List.map (fun j => total (init + j)) (seq 0 n), n).
  Proof.
    induction m as [|m IH]; intros k Hk.
    - cbn [seq]. unfold for_each. cbn [fold_left]. f_equal. f_equal; [|lia]. apply map_seq_ext. intros i Hi. destruct (Nat.ltb_spec i k); [reflexivity|lia].
    - cbn [seq]. rewrite for_each_cons. destruct (F (init + k)) as (F1 & F2); [lia|]. unfold file_name in F1. rewrite F1. cbn [bind]. rewrite (frame_energy_ok _ _ _ _ _ _ _ _ F2). cbn [bind].
      rewrite store_map by lia. cbn [bind]. replace (S (init + k)) with (init + S k)%nat by lia. rewrite <- (IH (S k)) by lia. do 2 f_equal. apply map_seq_ext. intros i Hi.
      destruct (Nat.eqb_spec i k) as [->|Ne].
      + destruct (Nat.ltb_spec k (S k)); [reflexivity|lia].
      + destruct (Nat.ltb_spec i k), (Nat.ltb_spec i (S k)); try reflexivity; lia.
  Qed.

  Definition second (e : nat -> R) (k j : nat) : R := if (j <? k)%nat then (- (e (init + j + 1)%nat - e (init + j)%nat) / dt)%R else e j.

  Lemma second_loop (e : nat -> R) m : forall k, (init + k + m < n \/ m = 0)%nat ->
    for_each (seq (init + k) m) (fun i '(ke, r) =>
      let* b := item ke (i + 1) in
      let* a := item ke i in
      let* ke := store ke r (- (b - a) / dt)%R in Ok (ke, S r)) (List.map (second e k) (seq 0 n), k)
    = Ok (List.map (second e (k + m)) (seq 0 n), (k + m)%nat).
  Proof.
    induction m as [|m IH]; intros k Hk.
    - cbn [seq]. unfold for_each. cbn [fold_left]. now rewrite Nat.add_0_r.
    - destruct Hk as [Hk|Hk]; [|discriminate]. cbn [seq]. rewrite for_each_cons, !item_map.
      destruct (Nat.ltb_spec (init + k + 1) n); [|lia]. destruct (Nat.ltb_spec (init + k) n); [|lia]. cbn [bind]. rewrite store_map by lia. cbn [bind].
      replace (S (init + k)) with (init + S k)%nat by lia. replace (k + S m)%nat with (S k + m)%nat by lia. rewrite <- (IH (S k)) by lia. do 2 f_equal.
      apply map_seq_ext. intros i Hi. unfold second. destruct (Nat.ltb_spec (init + k + 1) k); [lia|]. destruct (Nat.ltb_spec (init + k) k); [lia|].
      destruct (Nat.eqb_spec i k) as [->|Ne].
      + destruct (Nat.ltb_spec k (S k)); [reflexivity|lia].
      + destruct (Nat.ltb_spec i k), (Nat.ltb_spec i (S k)); try reflexivity; lia.
  Qed.

  Lemma second_loop_fails m : forall i r (a : nat -> R), (r <= i)%nat -> (i < n)%nat -> (1 <= m)%nat -> (n <= i + m)%nat ->
    for_each (seq i m) (fun i '(ke, r) =>
      let* b := item ke (i + 1) in
      let* a := item ke i in
      let* ke := store ke r (- (b - a) / dt)%R in Ok (ke, S r)) (List.map a (seq 0 n), r) = Err IndexError.
  Proof.
    induction m as [|m IH]; intros i r a Hr Hi Hm Hn; [lia|]. cbn [seq]. rewrite for_each_cons, !item_map.
    destruct (Nat.ltb_spec (i + 1) n); [|reflexivity]. destruct (Nat.ltb_spec i n); [|lia]. cbn [bind]. rewrite store_map by lia. cbn [bind]. apply IH; lia.
  Qed.
End Loops.

(** ** Theorems *)

Section Theorems.
  Context (load : string -> res frame) (root : string) (init final dim : nat) (dx dy dz vol t0 t1 : R) (n0 n1 n2 : nat) (fr : nat -> frame) (g : frame) (gx gy : list R) (gz : list (list R)).
  (** The first frame gives the spacings, the frames of the loop are fluid data. *)
  Definition input : Prop :=
    load (file_name root init) = Ok g /\ f_grid g = gx :: gy :: gz /\ step gx dx /\ step gy dy /\
    (if (dim =? 3)%nat then exists z gz', gz = z :: gz' /\ step z dz else dz = 1%R) /\
    forall c, (init <= c <= final)%nat -> load (file_name "root_file_name" c) = Ok (fr c) /\ fluid (fr c) n0 n1 n2.

  Definition interval : R := ((t1 - t0 + 1) / INR (final + 1 - init))%R.

  Lemma prefix_ok : input -> (init <= final)%nat ->
    calc_ke_dke load root init final dim vol t0 t1 =
      let* (ke, _) := for_each (seq (init + 0) (final - 1 - init)) (fun i '(ke, r) =>
        let* b := item ke (i + 1) in
        let* a := item ke i in
        let* ke := store ke r (- (b - a) / interval)%R in Ok (ke, S r)) (List.map (fun j => total dx dy dz vol n0 n1 n2 fr (init + j)) (seq 0 (final + 1 - init)), 0%nat) in
      Ok (ke, ke).
  Proof.
    intros (Hg & Eg & Hx & Hy & Hz & F) Hif. unfold calc_ke_dke.
    replace (Z.of_nat final - Z.of_nat init + 1)%Z with (Z.of_nat (final + 1 - init)) by lia. rewrite zeros_nonneg. cbn [bind].
    unfold file_name in Hg. rewrite Hg. cbn [bind]. rewrite (spacing_ok _ 0 gx dx), (spacing_ok _ 1 gy dy); [|rewrite Eg; reflexivity|assumption|rewrite Eg; reflexivity|assumption]. cbn [bind].
    destruct (Z.eqb_spec (Z.of_nat (final + 1 - init)) 0); [lia|]. cbn [bind].
    assert (Ez : (if (dim =? 3)%nat then spacing (f_grid g) 2 else Ok 1%R) = Ok dz).
    { destruct (dim =? 3)%nat; [|now subst dz]. destruct Hz as (z & gz' & Ez & Sz). apply (spacing_ok _ 2 z dz); [rewrite Eg, Ez; reflexivity|exact Sz]. }
    rewrite Ez. cbn [bind]. rewrite <- INR_IZR_INZ. fold interval.
    pose proof (first_loop load init final dx dy dz vol n0 n1 n2 fr F (final + 1 - init) 0 eq_refl) as L. rewrite Nat.add_0_r in *.
    replace (S final - init)%nat with (final + 1 - init)%nat by lia.
    rewrite (map_seq_ext (fun _ => 0%R) (fun j => if (j <? 0)%nat then total dx dy dz vol n0 n1 n2 fr (init + j) else 0%R)) by reflexivity.
    rewrite L. reflexivity.
  Qed.

  (** Both results are one array. With [init] 0 or 1 its entries are the (negative)
      differences of twice the kinetic energy over the interval, for all but the last
      two frames (from frame 1 on, one frame later than the entry says); the
      last two entries are the energies themselves. *)
  Theorem C102_energy : input -> (init <= 1)%nat -> (init <= final)%nat -> exists out,
    calc_ke_dke load root init final dim vol t0 t1 = Ok (out, out) /\ List.length out = (final + 1 - init)%nat /\
    let E c := (2 * sum3 n0 n1 n2 (kinetic (fr c)) * dx * dy * dz * vol)%R in
    forall j, (j < final + 1 - init)%nat -> nth_error out j =
      Some (if (j + 1 + init <? final)%nat then (- (E (init + (init + j + 1))%nat - E (init + (init + j))%nat) / interval)%R else E (init + j)%nat).
  Proof.
    intros I H1 Hif. rewrite (prefix_ok I Hif). set (e := fun j => total dx dy dz vol n0 n1 n2 fr (init + j)).
    pose proof (second_loop init final interval e (final - 1 - init) 0 ltac:(lia)) as L. cbn [Nat.add] in L.
    rewrite (map_seq_ext e (second init interval e 0)) by reflexivity. rewrite L. cbn [bind]. eexists. split; [reflexivity|].
    split; [now rewrite map_length, seq_length|]. cbn zeta. intros j Hj. rewrite nth_error_map_seq. destruct (Nat.ltb_spec j (final + 1 - init)); [|lia]. f_equal.
    unfold second. destruct (Nat.ltb_spec j (final - 1 - init)), (Nat.ltb_spec (j + 1 + init) final); try lia; reflexivity.
  Qed.

  (** A later first frame: nothing can be done with more than two frames. *)
  Theorem C102_later : input -> (2 <= init)%nat -> (init + 2 <= final)%nat -> calc_ke_dke load root init final dim vol t0 t1 = Err IndexError.
  Proof.
    intros I H1 Hif. rewrite (prefix_ok I) by lia. rewrite Nat.add_0_r. destruct (Nat.lt_ge_cases init (final + 1 - init)) as [Hl|Hl].
    - rewrite second_loop_fails by lia. reflexivity.
    - destruct (final - 1 - init)%nat as [|m] eqn:Em; [lia|]. cbn [seq]. rewrite for_each_cons, item_map. destruct (Nat.ltb_spec (init + 1) (final + 1 - init)); [lia|]. reflexivity.
  Qed.

  (** One or two frames: the energies. *)
  Theorem C102_few : input -> (final = init \/ final = init + 1)%nat -> exists out,
    calc_ke_dke load root init final dim vol t0 t1 = Ok (out, out) /\
    out = List.map (fun c => 2 * sum3 n0 n1 n2 (kinetic (fr c)) * dx * dy * dz * vol)%R (seq init (final + 1 - init)).
  Proof.
    intros I H. rewrite (prefix_ok I) by lia. replace (final - 1 - init)%nat with 0%nat by lia. cbn [seq]. eexists. split; [reflexivity|].
    apply list_ext. intros i. rewrite !nth_error_map, !nth_error_seq. destruct (i <? final + 1 - init)%nat; reflexivity.
  Qed.
End Theorems.

(** Data with two axes, as they come from two-dimensional simulations, are refused. *)
Theorem C102_two_axes load root init final dim vol t0 t1 fr n0 n1 nc r :
  (init <= final)%nat -> load (file_name "root_file_name" init) = Ok fr -> f_shape fr = [n0; n1; nc] -> calc_ke_dke load root init final dim vol t0 t1 <> Ok r.
Proof.
  intros Hif Hl Hs H. unfold calc_ke_dke in H. do 6 (apply bind_ok in H as (? & _ & H)). apply bind_ok in H as ((? & ?) & H & _). clear - H Hl Hs Hif.
  replace (S final - init)%nat with (S (final - init)) in H by lia. cbn [seq] in H. rewrite for_each_cons in H. apply bind_ok in H as (? & H & _). unfold file_name in Hl. rewrite Hl in H. cbn [bind] in H.
  apply bind_ok in H as (e & H & _). unfold frame_energy, moments in H. rewrite Hs in H. cbn [rev app] in H. destruct (4 <=? nc)%nat; discriminate.
Qed.

(** The last frame before the first one. *)
Theorem C102_no_frames load root init final dim vol t0 t1 r : (final < init)%nat -> calc_ke_dke load root init final dim vol t0 t1 <> Ok r.
Proof.
  intros H E. unfold calc_ke_dke in E. apply bind_ok in E as (ke & Ez & E). destruct (Z.eq_dec (Z.of_nat final - Z.of_nat init + 1) 0) as [Z0|N].
  - do 3 (apply bind_ok in E as (? & _ & E)). rewrite Z0 in E. discriminate.
  - unfold zeros in Ez. destruct (Z.ltb_spec (Z.of_nat final - Z.of_nat init + 1) 0); [discriminate|lia].
Qed.

(** ** Examples and refuted claims *)

Definition uniform_flow (p : R) : frame :=
  {| f_grid := [[0; 1]; [0; 1]; [0; 1]]%R; f_shape := [1; 1; 1; 5]%nat; f_at := fun idx => match idx with [_; _; _; 0] => 1 | [_; _; _; 1] => p | _ => 0 end%R |}.

Lemma uniform_fluid p : fluid (uniform_flow p) 1 1 1.
Proof. split; [exists 5%nat; split; [reflexivity|lia]|]. intros i j k _ _ _. cbn. lra. Qed.

Lemma uniform_kinetic p : sum3 1 1 1 (kinetic (uniform_flow p)) = (p * p / 2)%R.
Proof. unfold sum3, sum, kinetic. cbn. field. Qed.

Lemma step01 : step [0%R; 1%R] 1.
Proof. exists 0%R, []. repeat f_equal. ring. Qed.

Lemma uniform_input load root final : (forall c, load (file_name root c) = Ok (uniform_flow 1)) -> (forall c, load (file_name "root_file_name" c) = Ok (uniform_flow 1)) ->
  input load root 0 final 3 1 1 1 1 1 1 (fun _ => uniform_flow 1) (uniform_flow 1) [0; 1]%R [0; 1]%R [[0; 1]]%R.
Proof.
  intros H1 H2. split; [apply H1|]. split; [reflexivity|]. split; [apply step01|]. split; [apply step01|]. split; [cbn; exists [0; 1]%R, []; split; [reflexivity|apply step01]|].
  intros c _. split; [apply H2|apply uniform_fluid].
Qed.

(** The first result is not the kinetic energy (nor twice that): a steady flow of
    energy 1/2 is reported as 0, 1, 1. *)
Theorem C102_first_result_refuted : exists load, (forall c, load (file_name "root_file_name" c) = Ok (uniform_flow 1)) /\
  calc_ke_dke load "root_file_name" 0 2 3 1 0 1 = Ok ([0; 1; 1]%R, [0; 1; 1]%R).
Proof.
  exists (fun _ => Ok (uniform_flow 1)). split; [reflexivity|].
  destruct (C102_energy (fun _ => Ok (uniform_flow 1)) "root_file_name" 0 2 3 1 1 1 1 0 1 1 1 1 (fun _ => uniform_flow 1) (uniform_flow 1) [0; 1]%R [0; 1]%R [[0; 1]]%R
    (uniform_input _ _ _ (fun _ => eq_refl) (fun _ => eq_refl)) ltac:(lia) ltac:(lia)) as (out & E & L & H).
  rewrite E. assert (K : out = [0; 1; 1]%R); [|now rewrite K]. apply list_ext. intros i. cbn zeta in H.
  assert (E1 : (2 * sum3 1 1 1 (kinetic (uniform_flow 1)) * 1 * 1 * 1 * 1)%R = 1%R) by (rewrite uniform_kinetic; field). rewrite E1 in H.
  destruct i as [|[|[|i]]]; [rewrite (H 0%nat) by (cbn; lia)|rewrite (H 1%nat) by (cbn; lia)|rewrite (H 2%nat) by (cbn; lia)|].
  - cbn. f_equal. unfold interval. cbn. field.
  - reflexivity.
  - reflexivity.
  - rewrite (proj2 (nth_error_None out (S (S (S i))))) by (rewrite L; lia). now destruct i.
Qed.

(** The argument does not name the files of the loop. *)
Theorem C102_root_refuted : exists load, (forall c, load (file_name "sim_" c) = Ok (uniform_flow 1)) /\
  forall init final dim vol t0 t1 r, (init <= final)%nat -> calc_ke_dke load "sim_" init final dim vol t0 t1 <> Ok r.
Proof.
  exists (fun name => if starts_with "sim_" name then Ok (uniform_flow 1) else Err OSError). split; [reflexivity|].
  intros init final dim vol t0 t1 r Hif H. unfold calc_ke_dke in H. do 6 (apply bind_ok in H as (? & _ & H)). apply bind_ok in H as ((? & ?) & H & _).
  replace (S final - init)%nat with (S (final - init)) in H by lia. cbn [seq] in H. rewrite for_each_cons in H. apply bind_ok in H as (? & H & _). discriminate.
Qed.

Print Assumptions C102_energy.
