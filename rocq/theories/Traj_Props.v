(** * C109: the animation of particle trajectories *)
From Coq Require Import String List Arith ZArith Reals Lia Lra Bool.
From Verif Require Import Prelude PreludeFacts DataSpace_Model Traj_Model.
Import ListNotations.
Open Scope string_scope.
Open Scope list_scope.
Open Scope nat_scope.

(** ** Specification *)

(** Strictly inside the bounds that are given. *)
Definition within (b : bounds) (x : R) : Prop := (forall l, fst b = Some l -> (l < x)%R) /\ (forall h, snd b = Some h -> (x < h)%R).

(** Values outside are not drawn. *)
Definition seen (b : bounds) (x : R) (y : option R) : Prop := within b x /\ y = Some x \/ ~ within b x /\ y = None.

Definition point_seen (bx by_ bz : bounds) (row : list R) (p : point) : Prop :=
  seen bx (nth 0 row 0%R) (fst (fst p)) /\ seen by_ (nth 1 row 0%R) (snd (fst p)) /\ seen bz (nth 2 row 0%R) (snd p).

(** [e] is [p] moved by [v] per time during [dt], coordinates that are not drawn staying so. *)
Definition moved (p : point) (v : list R) (dt : R) (e : point) : Prop :=
  let m (c : nat) (x y : option R) := match x with Some u => y = Some (u + nth c v 0 * dt)%R | None => y = None end in
  m 3 (fst (fst p)) (fst (fst e)) /\ m 4 (snd (fst p)) (snd (fst e)) /\ m 5 (snd p) (snd e).

(** A trajectory with [n] positions. *)
Definition trajectory_of (n : nat) (d : track) : Prop := 3 <= tk_comps d /\ length (tk_rows d) = n /\ length (tk_time d) = n.

(** ** Frames *)

Lemma seen_masked b x : seen b x (below (snd b) (above (fst b) (Some x))).
Proof.
  unfold seen, within. destruct b as ([l|], [h|]); cbn [fst snd above below].
  - destruct (Rlt_dec l x) as [H1|H1]; cbn [below]; [destruct (Rlt_dec x h) as [H2|H2]|].
    + left. split; [|reflexivity]. split; intros ? [= <-]; assumption.
    + right. split; [|reflexivity]. intros (_ & H). apply H2. now apply H.
    + right. split; [|reflexivity]. intros (H & _). apply H1. now apply H.
  - destruct (Rlt_dec l x) as [H1|H1]; cbn [below].
    + left. split; [|reflexivity]. split; [intros ? [= <-]; assumption|discriminate].
    + right. split; [|reflexivity]. intros (H & _). apply H1. now apply H.
  - destruct (Rlt_dec x h) as [H2|H2].
    + left. split; [|reflexivity]. split; [discriminate|intros ? [= <-]; assumption].
    + right. split; [|reflexivity]. intros (_ & H). apply H2. now apply H.
  - left. split; [|reflexivity]. split; discriminate.
Qed.

Lemma item_ok {A} (l : list A) i x : item l i = Ok x <-> nth_error l i = Some x.
Proof. unfold item. destruct (nth_error l i); split; intros [= <-]; reflexivity. Qed.

Lemma moved_plus px py pz v dt : moved (px, py, pz) v dt (plus px (nth 3 v 0 * dt)%R, plus py (nth 4 v 0 * dt)%R, plus pz (nth 5 v 0 * dt)%R).
Proof. unfold moved, plus. cbn [fst snd]. destruct px, py, pz; repeat split. Qed.

Section Frame.
  Context (i leap : nat) (vel : bool) (bx by_ bz : bounds).

  (** What a dataset adds to frame [i]. *)
  Definition shows_track (n s : nat) (d : track) (a : shot) : Prop :=
    sh_colour a = s mod 10 /\ Forall2 (point_seen bx by_ bz) (tk_rows d) (sh_path a) /\
    (exists row, nth_error (tk_rows d) (i * leap) = Some row /\ point_seen bx by_ bz row (sh_dot a)) /\
    (vel = false \/ tk_comps d <> 6 -> sh_velocity a = None) /\
    (vel = true -> tk_comps d = 6 -> exists e v, sh_velocity a = Some (sh_dot a, e) /\ nth_error (tk_rows d) i = Some v /\
       moved (sh_dot a) v (nth (Nat.min (i * leap + leap) (n - 1)) (tk_time d) 0 - nth (i * leap) (tk_time d) 0)%R e).

  Lemma path_seen rows : Forall2 (point_seen bx by_ bz) rows
    (combine (combine (List.map (fun row => below (snd bx) (above (fst bx) (Some (nth 0 row 0%R)))) rows) (List.map (fun row => below (snd by_) (above (fst by_) (Some (nth 1 row 0%R)))) rows))
             (List.map (fun row => below (snd bz) (above (fst bz) (Some (nth 2 row 0%R)))) rows)).
  Proof. induction rows as [|row rows IH]; cbn [List.map combine]; constructor; [|exact IH]. unfold point_seen. cbn [fst snd]. repeat split; apply seen_masked. Qed.

  Lemma one_ok n s d : trajectory_of n d -> i * leap < n -> (vel = true -> tk_comps d = 6 -> i < n) -> exists a, one_shot i leap vel bx by_ bz s d = Ok a /\ shows_track n s d a.
  Proof.
    intros (Hc & Lr & Lt) Hi Hv. unfold one_shot, masked. replace (0 <? tk_comps d) with true by (symmetry; apply Nat.ltb_lt; lia). replace (1 <? tk_comps d) with true by (symmetry; apply Nat.ltb_lt; lia). replace (2 <? tk_comps d) with true by (symmetry; apply Nat.ltb_lt; lia). cbn [bind].
    destruct (nth_error (tk_rows d) (i * leap)) as [row|] eqn:Er; [|apply nth_error_None in Er; lia].
    unfold item at 1 2 3. rewrite !nth_error_map, Er. cbn [option_map bind].
    assert (Dot : point_seen bx by_ bz row (below (snd bx) (above (fst bx) (Some (nth 0 row 0%R))), below (snd by_) (above (fst by_) (Some (nth 1 row 0%R))), below (snd bz) (above (fst bz) (Some (nth 2 row 0%R))))) by (unfold point_seen; cbn [fst snd]; repeat split; apply seen_masked).
    revert Dot. generalize (below (snd bx) (above (fst bx) (Some (nth 0 row 0%R)))) (below (snd by_) (above (fst by_) (Some (nth 1 row 0%R)))) (below (snd bz) (above (fst bz) (Some (nth 2 row 0%R)))). intros px py pz Dot.
    destruct (vel && (tk_comps d =? 6)) eqn:Ev.
    - apply andb_true_iff in Ev as (Ev & E6). apply Nat.eqb_eq in E6. specialize (Hv Ev E6). unfold time_step. destruct (nth_error (tk_time d) (i * leap)) as [now|] eqn:En; [|apply nth_error_None in En; lia]. unfold item at 1. rewrite En. cbn [bind].
      assert (Nx : (if length (tk_time d) <=? i * leap + leap then item (tk_time d) (length (tk_time d) - 1) else item (tk_time d) (i * leap + leap)) = Ok (nth (Nat.min (i * leap + leap) (n - 1)) (tk_time d) 0%R)).
      { rewrite Lt. destruct (Nat.leb_spec n (i * leap + leap)); apply item_ok; [rewrite Nat.min_r by lia|rewrite Nat.min_l by lia]; apply nth_error_nth'; lia. }
      rewrite Nx. cbn [bind]. unfold entry. destruct (nth_error (tk_rows d) i) as [v|] eqn:Evr; [|apply nth_error_None in Evr; lia]. unfold item. rewrite Evr, E6. cbn [bind Nat.ltb Nat.leb].
      eexists. split; [reflexivity|]. split; [reflexivity|]. split; [apply path_seen|]. split; [exists row; auto|]. cbn [sh_velocity sh_dot]. split; [intros [H|H]; [congruence|contradiction]|]. intros _ _. eexists _, v. split; [reflexivity|]. split; [exact Evr|].
      rewrite (nth_error_nth _ _ 0%R En). apply moved_plus.
    - cbn [bind]. eexists. split; [reflexivity|]. split; [reflexivity|]. split; [apply path_seen|]. split; [exists row; auto|]. split; [reflexivity|]. intros -> E6. rewrite E6 in Ev. discriminate Ev.
  Qed.

  Lemma shots_ok n ds : Forall (trajectory_of n) ds -> i * leap < n -> (vel = true -> Exists (fun d => tk_comps d = 6) ds -> i < n) -> forall s, exists l, shots i leap vel bx by_ bz s ds = Ok l /\ length l = length ds /\
    forall k d, nth_error ds k = Some d -> exists a, nth_error l k = Some a /\ shows_track n (s + k) d a.
  Proof.
    intros H Hi. induction H as [|d ds Hd _ IH]; intros Hv s.
    - exists []. split; [reflexivity|]. split; [reflexivity|]. intros [|k] d Hk; discriminate Hk.
    - cbn [shots]. destruct (one_ok n s d Hd Hi) as (a & -> & Ha); [intros E1 E6; apply Hv; [exact E1|now left]|]. cbn [bind]. destruct (IH ltac:(intros E1 E6; apply Hv; [exact E1|now right]) (S s)) as (l & -> & Ll & Hl). exists (a :: l). split; [reflexivity|]. split; [cbn; now rewrite Ll|].
      intros [|k] d' Hk; [injection Hk as <-; exists a; rewrite Nat.add_0_r; auto|]. destruct (Hl k d' Hk) as (a' & E & Ha'). exists a'. split; [exact E|]. now replace (s + S k) with (S s + k) by lia.
  Qed.

  (** Frame [i] with [leap] positions per frame: for each dataset in order its path
      inside the bounds, the dot and the velocity; the title has the time of the last. *)
  Theorem C109_frame n ds d0 : Forall (trajectory_of n) (ds ++ [d0]) -> i * leap < n -> (vel = true -> Exists (fun d => tk_comps d = 6) (ds ++ [d0]) -> i < n) ->
    exists l, update i leap vel bx by_ bz (ds ++ [d0]) = Ok (l, nth (i * leap) (tk_time d0) 0%R) /\ length l = S (length ds) /\
      forall s d, nth_error (ds ++ [d0]) s = Some d -> exists a, nth_error l s = Some a /\ shows_track n s d a.
  Proof.
    intros H Hi Hv. unfold update. destruct (shots_ok n _ H Hi Hv 0) as (l & -> & Ll & Hl). cbn [bind]. rewrite rev_app_distr. cbn [rev app]. apply Forall_app in H as (_ & H0). apply Forall_inv in H0 as (_ & _ & Lt).
    exists l. unfold item. rewrite (nth_error_nth' _ 0%R) by lia. split; [reflexivity|]. split; [rewrite Ll, app_length; cbn; lia|]. exact Hl.
  Qed.
End Frame.

(** ** Which positions are shown *)

(** Without a number of frames, or 0, every position is shown once. With [k] frames
    there are [k], at distances of n/k rounded down, all of them positions. *)
Theorem C109_timing n : timing n None = (1, Z.of_nat n)%Z /\ timing n (Some 0%Z) = (1, Z.of_nat n)%Z /\
  forall k, (0 < k)%Z -> 0 < n -> exists jump, timing n (Some k) = (Z.of_nat jump, k) /\ (Z.of_nat jump * k <= Z.of_nat n < (Z.of_nat jump + 1) * k)%Z /\
    forall i, (Z.of_nat i < k)%Z -> i * jump < n.
Proof.
  split; [reflexivity|]. split; [reflexivity|]. intros k Hk Hn. unfold timing. destruct (Z.eqb_spec k 0); [lia|]. exists (Z.to_nat (Z.of_nat n / k)).
  pose proof (Z.div_pos (Z.of_nat n) k ltac:(lia) Hk) as P. pose proof (Z.mul_div_le (Z.of_nat n) k Hk) as M. pose proof (Z.mul_succ_div_gt (Z.of_nat n) k Hk) as G. rewrite Z2Nat.id by exact P. split; [reflexivity|]. split; [lia|].
  intros i Hi. destruct (Z.eq_dec (Z.of_nat n / k) 0) as [E|E]; [rewrite E; cbn; lia|]. set (j := (Z.of_nat n / k)%Z) in *. apply Nat2Z.inj_lt. rewrite Nat2Z.inj_mul, Z2Nat.id by exact P. nia.
Qed.

(** The animation does not end at the last position in general. *)
Theorem C109_end_refuted : exists n k jump, 0 < k <= n /\ timing n (Some (Z.of_nat k)) = (Z.of_nat jump, Z.of_nat k) /\ (k - 1) * jump < n - 1 /\ 2 * ((k - 1) * jump) <= n - 1.
Proof. exists 5, 3, 1. split; [lia|]. split; [reflexivity|]. split; cbn; lia. Qed.

(** The command for one tag whose active datasets have the same number of positions. *)
Theorem C109_command o (ds : dspace track) tag l n d0 rest : tag_iterator ds (op_use o) true = Ok [tag] -> aget tag ds = Some (d0 :: rest) -> l = List.map ds_data (List.filter ds_status (d0 :: rest)) -> l <> [] ->
  Forall (trajectory_of n) l -> length (tk_rows (ds_data d0)) = n -> 0 < n ->
  forall jump k, timing n (op_numframes o) = (Z.of_nat jump, Z.of_nat k) -> 0 < k <= n ->
  exists fs, trajectory o ds = Ok (fs, if op_save o || negb (String.eqb (op_saveas o) "") then Some (if String.eqb (op_saveas o) "" then "anim.mp4" else op_saveas o) else None) /\
    length fs = k /\ forall i f, nth_error fs i = Some f -> update i jump (op_velocity o) (op_x o) (op_y o) (op_z o) l = Ok f.
Proof.
  intros Et Ea El Nl Hl Ln Hn jump k Ek Hk. unfold trajectory. rewrite Et. cbn [bind]. rewrite Ea. cbn [item nth_error bind]. rewrite Ln, Ek, !Nat2Z.id, <- El.
  assert (J : forall i, i < k -> i * jump < n).
  { destruct (C109_timing n) as (E1 & E2 & E3). destruct (op_numframes o) as [z|]; [|rewrite E1 in Ek; injection Ek; intros; nia]. destruct (Z.eq_dec z 0) as [->|Nz]; [rewrite E2 in Ek; injection Ek; intros; nia|].
    assert (Pz : (0 < z)%Z). { unfold timing in Ek. destruct (Z.eqb_spec z 0); [contradiction|]. injection Ek. intros. lia. }
    destruct (E3 z Pz Hn) as (j & Ej & _ & B). rewrite Ej in Ek. injection Ek as Ek1 Ek2. intros i Hi. apply Nat2Z.inj in Ek1 as <-. apply B. lia. }
  assert (M : forall m, m <= k -> exists fs, mapM (fun i => update i jump (op_velocity o) (op_x o) (op_y o) (op_z o) l) (seq (k - m) m) = Ok fs /\ length fs = m /\ forall i f, nth_error fs i = Some f -> update (k - m + i) jump (op_velocity o) (op_x o) (op_y o) (op_z o) l = Ok f).
  { induction m as [|m IH]; intros Hm; [exists []; split; [reflexivity|]; split; [reflexivity|]; intros [|i] f Hf; discriminate Hf|]. cbn [seq mapM]. destruct (exists_last Nl) as (l1 & dl & E). 
    destruct (C109_frame (k - S m) jump (op_velocity o) (op_x o) (op_y o) (op_z o) n l1 dl) as (sh & Eu & _); [now rewrite <- E|apply J; lia|intros _ _; lia|]. rewrite <- E in Eu. rewrite Eu. cbn [bind]. destruct IH as (fs & Ef & Lf & Hf); [lia|]. replace (S (k - S m)) with (k - m) by lia. rewrite Ef. cbn [bind].
    eexists. split; [reflexivity|]. split; [cbn; now rewrite Lf|]. intros [|i] f Hi; [injection Hi as <-; now rewrite Nat.add_0_r|]. replace (k - S m + S i) with (k - m + i) by lia. now apply Hf. }
  destruct (M k (le_n k)) as (fs & Ef & Lf & Hf). rewrite Nat.sub_diag in Ef, Hf. rewrite Ef. cbn [bind]. exists fs. split; [reflexivity|]. split; [exact Lf|exact Hf].
Qed.

(** Asking for more frames than there are positions shows the first position only, and
    fails where velocities are to be drawn. *)
Theorem C109_too_many o (ds : dspace track) tag d0 rest d : tag_iterator ds (op_use o) true = Ok [tag] -> aget tag ds = Some (d0 :: rest) -> List.filter ds_status (d0 :: rest) = [d] ->
  trajectory_of (length (tk_rows (ds_data d0))) (ds_data d) -> tk_comps (ds_data d) = 6 -> op_velocity o = true -> 0 < length (tk_rows (ds_data d0)) ->
  forall k, (Z.of_nat (length (tk_rows (ds_data d0))) < k)%Z -> op_numframes o = Some k ->
  trajectory o ds = Err IndexError.
Proof.
  intros Et Ea Ef Ht E6 Hv Hn k Hk En. unfold trajectory. rewrite Et. cbn [bind]. rewrite Ea. cbn [item nth_error bind]. rewrite En. unfold timing. destruct (Z.eqb_spec k 0) as [K0|_]; [lia|]. set (n := length (tk_rows (ds_data d0))) in *. rewrite (Z.div_small (Z.of_nat n) k) by lia. cbn [Z.to_nat]. rewrite Ef. cbn [List.map].
  set (g := fun i => update i 0 (op_velocity o) (op_x o) (op_y o) (op_z o) [ds_data d]).
  assert (A : forall i, i < n -> exists f, g i = Ok f). { intros i Hi. destruct (C109_frame i 0 (op_velocity o) (op_x o) (op_y o) (op_z o) n [] (ds_data d)) as (l & E & _); [repeat constructor; apply Ht|lia|auto|]. eexists. exact E. }
  assert (B : g n = Err IndexError).
  { unfold g, update. cbn [shots]. unfold one_shot. destruct Ht as (Hc & Lr & Lt). unfold masked. rewrite E6. cbn [Nat.ltb Nat.leb bind]. rewrite Nat.mul_0_r.
    destruct (tk_rows (ds_data d)) as [|row rs] eqn:Er; [cbn in Lr; lia|]. cbn [List.map item nth_error bind]. rewrite Hv. cbn [andb Nat.eqb]. unfold time_step. rewrite Nat.add_0_r. destruct (tk_time (ds_data d)) as [|t0 ts] eqn:Etm; [cbn in Lt; lia|]. cbn [item nth_error bind length Nat.leb].
    unfold entry. rewrite Er. unfold item at 1. replace (nth_error (row :: rs) n) with (@None (list R)) by (symmetry; apply nth_error_None; lia). reflexivity. }
  assert (C : forall m a, n = a + m -> forall more, mapM g (seq a (m + S more)) = Err IndexError).
  { induction m as [|m IH]; intros a Ha more; cbn [Nat.add seq mapM].
    - replace a with n by lia. rewrite B. reflexivity.
    - destruct (A a ltac:(lia)) as (f & ->). cbn [bind]. rewrite (IH (S a) ltac:(lia)). reflexivity. }
  replace (Z.to_nat k) with (n + S (Z.to_nat k - n - 1)) by lia. fold g. rewrite (C n 0 eq_refl). reflexivity.
Qed.

(** With more than one position per frame the line is not the velocity at the dot. *)
Theorem C109_velocity_refuted : exists d l t a e row,
  trajectory_of 4 d /\ update 1 2 true (None, None) (None, None) (None, None) [d] = Ok (l, t) /\ nth_error l 0 = Some a /\ sh_velocity a = Some (sh_dot a, e) /\ nth_error (tk_rows d) 2 = Some row /\
  ~ moved (sh_dot a) row (nth 3 (tk_time d) 0 - nth 2 (tk_time d) 0)%R e.
Proof.
  exists (mk_track [0; 1; 2; 3]%R 6 [[0; 0; 0; 1; 0; 0]; [1; 0; 0; 1; 0; 0]; [2; 0; 0; 5; 0; 0]; [7; 0; 0; 5; 0; 0]]%R).
  eexists _, _, _, _, _. split; [repeat split; cbn; lia|]. split; [reflexivity|]. split; [reflexivity|]. split; [reflexivity|]. split; [reflexivity|]. cbn. intros (H & _). injection H as H. lra.
Qed.

(** ** Choice of the tag *)

Theorem C109_tags o (ds : dspace track) :
  (forall e, tag_iterator ds (op_use o) true = Err e -> trajectory o ds = Err e) /\
  (tag_iterator ds (op_use o) true = Ok [] -> trajectory o ds = Err IndexError) /\
  (forall a b l, tag_iterator ds (op_use o) true = Ok (a :: b :: l) -> trajectory o ds = Err ClickFail) /\
  (forall t, tag_iterator ds (op_use o) true = Ok [t] -> aget t ds = None -> trajectory o ds = Err KeyError) /\
  (forall t d l, tag_iterator ds (op_use o) true = Ok [t] -> aget t ds = Some (d :: l) -> List.filter ds_status (d :: l) = [] -> 0 < length (tk_rows (ds_data d)) -> op_numframes o = None -> trajectory o ds = Err UnboundLocalError).
Proof.
  unfold trajectory. split; [intros e ->; reflexivity|]. split; [intros ->; reflexivity|]. split; [intros a b l ->; reflexivity|]. split; [intros t -> H; cbn [bind]; now rewrite H|].
  intros t d l -> H Hf Hn En. cbn [bind]. rewrite H. cbn [item nth_error bind]. rewrite En. cbn [timing]. rewrite Hf, Nat2Z.id. destruct (length (tk_rows (ds_data d))); [lia|]. reflexivity.
Qed.

(** ** Examples *)
Definition spiral : track := mk_track [0; 1; 2; 3]%R 6 [[0; 0; 0; 1; 0; 0]; [1; 0; 0; 1; 0; 0]; [2; 0; 0; 5; 0; 0]; [7; 0; 0; 5; 0; 0]]%R.
Example spiral_ok : trajectory_of 4 spiral.
Proof. repeat split; cbn; lia. Qed.
Definition one_tag : dspace track := [("default", [mk_dset 0 "a" true "" spiral; mk_dset 1 "b" false "" spiral])].
Definition two_frames : options := mk_opts None (Some 2%Z) true (Some 1%R, None) (None, None) (None, None) true "".
Example two_frames_ok : exists fs, trajectory two_frames one_tag = Ok (fs, Some "anim.mp4") /\ length fs = 2.
Proof.
  destruct (C109_command two_frames one_tag "default" [spiral] 4 (mk_dset 0 "a" true "" spiral) [mk_dset 1 "b" false "" spiral]) with (jump := 2) (k := 2) as (fs & E & L & _); try reflexivity; try lia; [discriminate|repeat constructor|exists fs; auto].
Qed.
Example too_many_ok : trajectory (mk_opts None (Some 9%Z) true (Some 1%R, None) (None, None) (None, None) true "") one_tag = Err IndexError.
Proof. apply (C109_too_many _ _ "default" (mk_dset 0 "a" true "" spiral) [mk_dset 1 "b" false "" spiral] (mk_dset 0 "a" true "" spiral)) with (k := 9%Z); try reflexivity; [exact spiral_ok|cbn; lia]. Qed.

Print Assumptions C109_frame.
Print Assumptions C109_command.
Print Assumptions C109_too_many.
Print Assumptions C109_velocity_refuted.
