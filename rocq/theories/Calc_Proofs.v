(** * Facts about collapsing axes *)
From Coq Require Import String Ascii List Arith ZArith Bool Lia Reals Lra Permutation Sorted.
From Verif Require Import Prelude PreludeFacts NdArray Sort Ev_Model Tools_Arr Calc_Model Calc_Spec.
Import ListNotations.
Open Scope list_scope.
Open Scope nat_scope.

(** ** Axes of lists *)

Lemma ins_del {A} a (x : A) l : a < length l -> ins a x (del a l) = set_nth a x l.
Proof.
  revert a. induction l as [|y l IH]; intros a H; cbn [length] in H; [lia|].
  destruct a; cbn [del ins set_nth]; [destruct l; reflexivity|]. rewrite IH by lia. reflexivity.
Qed.

Lemma del_ins {A} a (x : A) l : a <= length l -> del a (ins a x l) = l.
Proof.
  revert l. induction a as [|a IH]; intros [|y l] H; cbn [length] in H; try lia; try reflexivity.
  cbn [del ins]. rewrite IH by lia. reflexivity.
Qed.

Lemma del_set_lt {A} a b (x : A) l : b < a -> del a (set_nth b x l) = set_nth b x (del a l).
Proof.
  revert b l. induction a as [|a IH]; intros b [|y l] H; try lia; [destruct b; reflexivity|].
  destruct b as [|b]; [reflexivity|]. cbn [del set_nth]. rewrite IH by lia. reflexivity.
Qed.

Lemma del_length {A} a (l : list A) : a < length l -> length (del a l) = length l - 1.
Proof.
  revert a. induction l as [|y l IH]; intros a H; cbn [length] in H; [lia|].
  destruct a; cbn [del length]; [lia|]. rewrite IH by lia. lia.
Qed.

Lemma ins_length {A} a (x : A) l : length (ins a x l) = S (length l).
Proof.
  revert l. induction a as [|a IH]; intros [|y l]; cbn [ins length]; try reflexivity. now rewrite IH.
Qed.

Lemma nth_del_lt {A} a b (l : list A) d : b < a -> nth b (del a l) d = nth b l d.
Proof.
  revert b l. induction a as [|a IH]; intros b [|y l] H; try lia; [destruct b; reflexivity|].
  destruct b; [reflexivity|]. cbn [del nth]. apply IH. lia.
Qed.

Lemma nth_set {A} k j (x d : A) l : k < length l -> nth j (set_nth k x l) d = if j =? k then x else nth j l d.
Proof.
  revert k j. induction l as [|y l IH]; intros k j H; cbn [length] in H; [lia|].
  destruct k, j; cbn [set_nth nth]; try reflexivity. rewrite IH by lia. reflexivity.
Qed.

Lemma set_set {A} k (x y : A) l : set_nth k x (set_nth k y l) = set_nth k x l.
Proof. revert k. induction l as [|z l IH]; intros [|k]; cbn [set_nth]; try reflexivity. now rewrite IH. Qed.

Lemma set_comm {A} k j (x y : A) l : k <> j -> set_nth k x (set_nth j y l) = set_nth j y (set_nth k x l).
Proof.
  revert k j. induction l as [|z l IH]; intros [|k] [|j] H; cbn [set_nth]; try reflexivity; try congruence.
  rewrite IH by congruence. reflexivity.
Qed.

Lemma set_same {A} k (l : list A) d : k < length l -> set_nth k (nth k l d) l = l.
Proof.
  revert k. induction l as [|z l IH]; intros [|k] H; cbn [set_nth nth length] in *; try reflexivity; try lia.
  rewrite IH by lia. reflexivity.
Qed.

Lemma range_del a sh idx : in_range sh idx -> in_range (del a sh) (del a idx).
Proof.
  unfold in_range. intros H. revert a. induction H as [|i n idx sh Hi Hr IH]; intros a; [destruct a; constructor|].
  destruct a; cbn [del]; [assumption|]. constructor; auto.
Qed.

Lemma range_ins a k sh idx : in_range (del a sh) idx -> a < length sh -> k < nth a sh 0 -> in_range sh (ins a k idx).
Proof.
  unfold in_range. revert a idx. induction sh as [|n sh IH]; intros a idx H L K; cbn [length] in L; [lia|].
  destruct a; cbn [del nth] in *.
  - cbn [ins]. constructor; auto.
  - inversion H as [|i m idx' sh' Hi H' E1 E2]; subst. cbn [ins]. constructor; [exact Hi|]. apply IH; auto; lia.
Qed.

Lemma range_ins1 a sh idx : a <= length sh -> in_range (ins a 1 sh) idx -> in_range sh (del a idx).
Proof. intros L H. apply (range_del a) in H. now rewrite del_ins in H. Qed.

Lemma prod_ins a sh : prod (ins a 1 sh) = prod sh.
Proof.
  revert sh. induction a as [|a IH]; intros [|n sh]; try reflexivity.
  - cbn [ins]. change (1 * prod (n :: sh) = prod (n :: sh)). lia.
  - cbn [ins]. change (n * prod (ins a 1 sh) = n * prod sh). now rewrite IH.
Qed.

Lemma ravel_ins a sh idx : a <= length sh -> in_range (ins a 1 sh) idx -> ravel (ins a 1 sh) idx = ravel sh (del a idx).
Proof.
  revert sh idx. induction a as [|a IH]; intros sh idx L H.
  - cbn [ins] in *. destruct sh; inversion H as [|i m idx' sh' Hi H' E1 E2]; subst; cbn [del ravel];
      (destruct (Nat.ltb_spec i 1); [|lia]); replace i with 0 by lia; match goal with |- option_map _ ?r = _ => destruct r; reflexivity end.
  - destruct sh as [|n sh]; cbn [length] in L; [lia|]. cbn [ins] in *.
    inversion H as [|i m idx' sh' Hi H' E1 E2]; subst. cbn [del ravel]. rewrite IH, prod_ins by (auto; lia). reflexivity.
Qed.

Lemma range_set a k m sh idx :
  a < length sh -> in_range (set_nth a m sh) idx -> k < nth a sh 0 -> in_range sh (set_nth a k idx).
Proof.
  unfold in_range. revert a idx. induction sh as [|n sh IH]; intros a idx L H K; cbn [length] in L; [lia|].
  destruct a; cbn [set_nth nth] in *; inversion H as [|i m' idx' sh' Hi H' E1 E2]; subst; cbn [set_nth]; constructor; auto.
  apply IH; auto; lia.
Qed.

(** ** Collapsed axes *)

Lemma collapse_length axes sh : length (collapse_shape axes sh) = length sh.
Proof. induction axes as [|a r IH]; [reflexivity|]. cbn [collapse_shape fold_right]. now rewrite set_nth_length. Qed.

Lemma nth_collapse axes sh b :
  (forall a, In a axes -> a < length sh) ->
  nth b (collapse_shape axes sh) 0 = if existsb (Nat.eqb b) axes then 1 else nth b sh 0.
Proof.
  induction axes as [|a r IH]; intros H; [reflexivity|].
  cbn [collapse_shape fold_right existsb]. rewrite nth_set by (fold (collapse_shape r sh); rewrite collapse_length; apply H; now left).
  destruct (Nat.eqb b a); [reflexivity|]. cbn [orb]. apply IH. intros c Hc. apply H. now right.
Qed.

Lemma nth_collapse_not axes sh b :
  (forall a, In a axes -> a < length sh) -> ~ In b axes -> nth b (collapse_shape axes sh) 0 = nth b sh 0.
Proof.
  intros H N. rewrite nth_collapse by exact H. destruct (existsb _ axes) eqn:E; [|reflexivity].
  apply existsb_exists in E as (c & Hc & E). apply Nat.eqb_eq in E. subst. contradiction.
Qed.

Lemma del_collapse a r sh : Forall (fun b => b < a) r -> del a (collapse_shape r sh) = collapse_shape r (del a sh).
Proof.
  induction r as [|b r IH]; intros H; [reflexivity|]. inversion H; subst. cbn [collapse_shape fold_right].
  rewrite del_set_lt by assumption. f_equal. apply IH. assumption.
Qed.

(** ** Weighted sums *)

Lemma rsum_ext {A} (f g : A -> R) l : (forall k, In k l -> f k = g k) -> rsum (List.map f l) = rsum (List.map g l).
Proof.
  induction l as [|k l IH]; intros H; [reflexivity|]. cbn [List.map rsum fold_right].
  rewrite (H k) by now left. f_equal. apply IH. intros j Hj. apply H. now right.
Qed.

Lemma rsum_scale {A} c (f : A -> R) l : rsum (List.map (fun k => c * f k)%R l) = (c * rsum (List.map f l))%R.
Proof. unfold rsum. induction l as [|k l IH]; cbn; [lra|]. rewrite IH. lra. Qed.

Lemma rsum_plus {A} (f g : A -> R) l :
  rsum (List.map (fun k => f k + g k)%R l) = (rsum (List.map f l) + rsum (List.map g l))%R.
Proof. unfold rsum. induction l as [|k l IH]; cbn; [lra|]. rewrite IH. lra. Qed.

Lemma rsum_zero {A} (l : list A) : rsum (List.map (fun _ => 0%R) l) = 0%R.
Proof. unfold rsum. induction l as [|k l IH]; cbn; [lra|]. rewrite IH. lra. Qed.

Lemma rsum_swap {A B} (f : A -> B -> R) l m :
  rsum (List.map (fun k => rsum (List.map (f k) m)) l) = rsum (List.map (fun j => rsum (List.map (fun k => f k j) l)) m).
Proof.
  induction l as [|k l IH].
  - cbn [List.map]. unfold rsum at 1. cbn. symmetry. apply rsum_zero.
  - cbn [List.map]. change (rsum (?x :: ?r)) with (x + rsum r)%R. rewrite IH. symmetry.
    rewrite <- rsum_plus. reflexivity.
Qed.

Section totals.
Context (grid : list (list R)) (sh : list nat).
Notation tot := (total grid sh).

Lemma total_ext s axes f g idx :
  (forall a, In a axes -> a < length s /\ nth a s 0 = nth a sh 0) -> NoDup axes ->
  in_range (collapse_shape axes s) idx ->
  (forall j, in_range s j -> f j = g j) -> tot axes f idx = tot axes g idx.
Proof using Type.
  revert idx. induction axes as [|a r IH]; intros idx HA ND H E; [apply E; exact H|].
  cbn [total]. inversion ND; subst. apply rsum_ext. intros k Hk. apply in_seq in Hk. f_equal. apply IH; auto.
  - intros b Hb. apply HA. now right.
  - destruct (HA a (or_introl eq_refl)) as [L Es]. eapply range_set.
    + rewrite collapse_length. exact L.
    + exact H.
    + rewrite nth_collapse_not; [rewrite Es; lia|intros b Hb; apply HA; now right|assumption].
Qed.

Lemma total_app l r f idx : tot (l ++ r) f idx = tot l (tot r f) idx.
Proof using Type.
  revert idx. induction l as [|a l IH]; intros idx; [reflexivity|]. cbn [app total].
  apply rsum_ext. intros k _. now rewrite IH.
Qed.

Lemma total_lin l c d f g idx : tot l (fun j => c * f j + d * g j)%R idx = (c * tot l f idx + d * tot l g idx)%R.
Proof using Type.
  revert idx. induction l as [|a l IH]; intros idx; [reflexivity|]. cbn [total].
  rewrite <- !rsum_scale, <- rsum_plus. apply rsum_ext. intros k _. rewrite IH. ring.
Qed.

Lemma total_swap a b r f idx : a <> b -> tot (a :: b :: r) f idx = tot (b :: a :: r) f idx.
Proof using Type.
  intros N. cbn [total]. 
  transitivity (rsum (List.map (fun k => rsum (List.map (fun j => width (nth a grid []) (nth a sh 0%nat) k *
    (width (nth b grid []) (nth b sh 0%nat) j * tot r f (set_nth b j (set_nth a k idx))))%R (seq 0 (nth b sh 0)))) (seq 0 (nth a sh 0)))).
  { apply rsum_ext. intros k _. now rewrite rsum_scale. }
  rewrite rsum_swap. apply rsum_ext. intros j _. rewrite <- rsum_scale. apply rsum_ext. intros k _.
  rewrite (set_comm b a) by congruence. ring.
Qed.

Lemma total_perm l m f idx : Permutation l m -> NoDup l -> tot l f idx = tot m f idx.
Proof using Type.
  intros P. revert idx. induction P as [|a l m P IH|a b l|l m n P1 IH1 P2 IH2]; intros idx ND.
  - reflexivity.
  - cbn [total]. inversion ND; subst. apply rsum_ext. intros k _. now rewrite IH.
  - apply total_swap. inversion ND as [|x y H1 H2]; subst. intros ->. apply H1. now left.
  - rewrite IH1 by assumption. apply IH2. eapply Permutation_NoDup; eauto.
Qed.

(** Removing a larger axis first. *)
Lemma total_del a r f idx : Forall (fun b => b < a) r -> 
  tot r f (del a idx) = tot r (fun j => f (del a j)) idx.
Proof using Type.
  intros H. revert idx. induction r as [|b r IH]; intros idx; [reflexivity|]. inversion H; subst.
  cbn [total]. apply rsum_ext. intros k _. rewrite <- IH by assumption. now rewrite del_set_lt.
Qed.

End totals.

Lemma total_agree grid sh grid' sh' r f idx :
  (forall b, In b r -> nth b grid [] = nth b grid' [] /\ nth b sh 0 = nth b sh' 0) ->
  total grid sh r f idx = total grid' sh' r f idx.
Proof.
  revert idx. induction r as [|b r IH]; intros idx H; [reflexivity|]. cbn [total].
  destruct (H b (or_introl eq_refl)) as [-> ->]. apply rsum_ext. intros k _. rewrite IH; [reflexivity|].
  intros c Hc. apply H. now right.
Qed.

(** ** One axis *)

Lemma diffs_length c : length (diffs c) = length c - 1.
Proof. induction c as [|x [|y r] IH]; [reflexivity..|]. cbn [diffs length] in *. rewrite IH. lia. Qed.

Lemma nth_diffs c k : S k < length c -> nth k (diffs c) 0%R = (nth (S k) c 0 - nth k c 0)%R.
Proof.
  revert k. induction c as [|x [|y r] IH]; intros k H; cbn [length] in H; try lia.
  destruct k; [reflexivity|]. change (diffs (x :: y :: r)) with ((y - x)%R :: diffs (y :: r)).
  change (nth k (diffs (y :: r)) 0%R = (nth (S k) (y :: r) 0 - nth k (y :: r) 0)%R). apply IH. cbn [length]. lia.
Qed.

Lemma last_nth {A} (l : list A) d : last l d = nth (length l - 1) l d.
Proof.
  induction l as [|x [|y r] IH]; [reflexivity..|]. change (last (x :: y :: r) d) with (last (y :: r) d). rewrite IH.
  cbn [length]. replace (S (S (length r)) - 1) with (S (S (length r) - 1)) by lia. reflexivity.
Qed.

Lemma dz_length g n : fits g n -> 2 <= length g -> length (dz_of g n) = n.
Proof.
  intros F L. unfold dz_of. destruct F as [[F _]|[_ F]]; [lia|].
  destruct (Nat.ltb_spec 1 (length g)); [|lia]. cbn [andb].
  destruct (Nat.eqb_spec (length g) n); [rewrite app_length|]; rewrite diffs_length; cbn [length]; lia.
Qed.

Lemma nth_dz g n k : fits g n -> 2 <= length g -> k < n -> nth k (dz_of g n) 0%R = width g n k.
Proof.
  intros F L K. unfold dz_of, width. destruct F as [[F _]|[_ F]]; [lia|].
  destruct (Nat.ltb_spec 1 (length g)); [|lia]. cbn [andb].
  destruct (Nat.leb_spec (length g) 1); [lia|].
  destruct (Nat.eqb_spec (length g) n) as [E|E].
  - destruct (Nat.ltb_spec (S k) (length g)).
    + rewrite app_nth1 by (rewrite diffs_length; lia). now apply nth_diffs.
    + rewrite app_nth2 by (rewrite diffs_length; lia). rewrite diffs_length. replace (k - (length g - 1)) with 0 by lia.
      cbn [nth]. rewrite last_nth, diffs_length, nth_diffs by lia. do 2 f_equal; lia.
  - destruct (Nat.ltb_spec (S k) (length g)); [|lia]. now apply nth_diffs.
Qed.

Lemma removelast_length {A} (l : list A) : length (removelast l) = length l - 1.
Proof. induction l as [|x [|y r] IH]; [reflexivity..|]. cbn [removelast length] in *. rewrite IH. lia. Qed.

(** Weighted sum along one axis, and mean along one axis. *)
Lemma holds_dot a v w sh f :
  holds sh v f -> a < length sh -> length w = nth a sh 0 ->
  exists u, dot_last (move_last a v) w = Ok u /\
    holds (del a sh) u (fun idx => rsum (List.map (fun k => nth k w 0 * f (ins a k idx))%R (seq 0 (length w)))).
Proof.
  intros Hv La Lw. pose proof Hv as (W & S & V). unfold dot_last, move_last. cbn [shape tabulate].
  rewrite S, last_snoc, Lw, Nat.eqb_refl, removelast_snoc. eexists. split; [reflexivity|].
  eapply holds_ext; [apply holds_tab|]. intros idx Hi. apply rsum_ext. intros k Hk. apply in_seq in Hk.
  change (mk_nda _ _) with (tabulate (del a sh ++ [nth a sh 0]) (fun idx0 => val v (ins a (last idx0 0) (removelast idx0)))).
  erewrite holds_val; [|apply holds_tab|apply in_range_snoc; [exact Hi|lia]].
  cbv beta. rewrite last_snoc, removelast_snoc. erewrite holds_val; [|exact Hv|apply range_ins; auto; lia]. apply Rmult_comm.
Qed.

Lemma dot_mismatch a v w :
  length w <> nth a (shape v) 0 -> dot_last (move_last a v) w = Err ValueError.
Proof.
  intros Lw. unfold dot_last, move_last. cbn [shape tabulate]. rewrite last_snoc.
  destruct (Nat.eqb_spec (nth a (shape v) 0) (length w)); [congruence|reflexivity].
Qed.

Lemma holds_mean a v sh f :
  holds sh v f -> a < length sh ->
  holds (del a sh) (mean_axis a v)
    (fun idx => rsum (List.map (fun k => / INR (nth a sh 0%nat) * f (ins a k idx))%R (seq 0 (nth a sh 0)))).
Proof.
  intros Hv La. pose proof Hv as (W & S & V). unfold mean_axis. rewrite S.
  eapply holds_ext; [apply holds_tab|]. intros idx Hi. cbv beta. rewrite rsum_scale. unfold Rdiv. rewrite Rmult_comm. f_equal.
  apply rsum_ext. intros k Hk. apply in_seq in Hk. erewrite holds_val; [reflexivity|exact Hv|apply range_ins; auto; lia].
Qed.

Lemma holds_expand a v sh f : holds sh v f -> a <= length sh -> holds (ins a 1 sh) (expand_dims a v) (fun idx => f (del a idx)).
Proof.
  intros (W & S & V) La. split; [|split].
  - unfold wf, expand_dims in *. cbn [shape flat]. now rewrite prod_ins.
  - unfold expand_dims. cbn [shape]. now rewrite S.
  - intros idx Hi. rewrite <- V by (apply range_ins1; auto). unfold get, expand_dims. cbn [shape flat].
    rewrite S, ravel_ins by auto. reflexivity.
Qed.

Lemma norm_index_nat n a : a < n -> norm_index n (Z.of_nat a) = Ok a.
Proof.
  intros H. apply norm_index_ok. auto.
Qed.

Lemma norm_axis_nat n a : a < n -> norm_axis n (Z.of_nat a) = Ok a.
Proof. intros H. unfold norm_axis. now rewrite norm_index_nat. Qed.

Lemma at_nat {A} (l : list A) a d : a < length l -> at_ l (Z.of_nat a) = Ok (nth a l d).
Proof.
  intros H. unfold at_. rewrite norm_index_nat by exact H. cbn [bind].
  rewrite (nth_error_nth' l d H). reflexivity.
Qed.

(** Widths of all axes. *)
Lemma dz_all_ok grid sh : length grid <= length sh ->
  exists dz, dz_all grid sh = Ok dz /\ length dz = length grid /\
    forall a, a < length grid -> nth a dz [] = dz_of (nth a grid []) (nth a sh 0).
Proof.
  revert sh. induction grid as [|c g IH]; intros [|n sh] L; cbn [length] in L; try lia.
  - exists []. split; [reflexivity|]. split; [reflexivity|]. cbn. lia.
  - exists []. split; [reflexivity|]. split; [reflexivity|]. cbn. lia.
  - destruct (IH sh ltac:(lia)) as (dz & E & L' & H). exists (dz_of c n :: dz). cbn [dz_all]. rewrite E. split; [reflexivity|].
    split; [cbn [length]; lia|]. intros [|a] Ha; [reflexivity|]. apply H. cbn [length] in Ha. lia.
Qed.

Definition widths_ok (grid dz : list (list R)) (sh : list nat) : Prop :=
  length dz = length grid /\
  forall a, a < length grid -> nth a dz [] = dz_of (nth a grid []) (nth a sh 0).

Section steps.
Context (grid dz : list (list R)) (sh : list nat) (WO : widths_ok grid dz sh).

Lemma step_ok s a v f :
  holds s v f -> a < length grid -> a < length s -> nth a s 0 = nth a sh 0 -> fits (nth a grid []) (nth a sh 0) ->
  exists u, int_step grid dz (Z.of_nat a) v = Ok u /\
    holds (del a s) u (fun idx => rsum (List.map (fun k => width (nth a grid []) (nth a sh 0%nat) k * f (ins a k idx))%R (seq 0 (nth a sh 0)))).
Proof using WO.
  destruct WO as [Ld Hd]. intros Hv La Ls Es F. pose proof Hv as (W & S & V). unfold int_step.
  rewrite (at_nat grid a []) by exact La. cbn [bind]. destruct (Nat.ltb_spec 1 (length (nth a grid []))) as [L1|L1].
  - rewrite S, norm_axis_nat by lia. cbn [bind]. rewrite (at_nat dz a []) by lia. cbn [bind]. rewrite Hd by exact La.
    destruct (holds_dot a v (dz_of (nth a grid []) (nth a sh 0)) s f Hv Ls) as (u & E & Hu).
    { rewrite Es. apply dz_length; [exact F|lia]. }
    exists u. split; [exact E|]. eapply holds_ext; [exact Hu|]. intros idx Hi. cbv beta. rewrite dz_length by (auto; lia).
    apply rsum_ext. intros k Hk. apply in_seq in Hk. rewrite nth_dz by (auto; lia). reflexivity.
  - rewrite S, norm_axis_nat by lia. cbn [bind]. eexists. split; [reflexivity|].
    eapply holds_ext; [apply holds_mean; [exact Hv|lia]|]. intros idx Hi. cbv beta. rewrite Es. apply rsum_ext. intros k Hk.
    unfold width. destruct (Nat.leb_spec (length (nth a grid [])) 1); [reflexivity|lia].
Qed.

Lemma total_ext_len n axes f g idx :
  length idx = n -> (forall j, length j = n -> f j = g j) -> total grid sh axes f idx = total grid sh axes g idx.
Proof using Type.
  intros L E. revert idx L. induction axes as [|a r IH]; intros idx L; [apply E; exact L|].
  cbn [total]. apply rsum_ext. intros k _. f_equal. apply IH. now rewrite set_nth_length.
Qed.

(** ** All axes, largest first *)

Definition dels {A} (axes : list nat) (l : list A) : list A := fold_left (fun l a => del a l) axes l.

Definition desc (axes : list nat) : Prop := StronglySorted (fun a b => b < a) axes.

Lemma del_set_same {A} a (x : A) l : del a (set_nth a x l) = del a l.
Proof using Type. revert a. induction l as [|y l IH]; intros [|a]; cbn [del set_nth]; try reflexivity. now rewrite IH. Qed.

Lemma steps_ok axes s v f :
  holds s v f -> desc axes ->
  (forall a, In a axes -> a < length grid /\ a < length s /\ nth a s 0 = nth a sh 0 /\ fits (nth a grid []) (nth a sh 0)) ->
  exists u, int_steps grid dz (List.map Z.of_nat axes) v = Ok u /\
    wf u /\ shape u = dels axes s /\
    forall idx, in_range (collapse_shape axes s) idx -> get u (dels axes idx) = Some (total grid sh (rev axes) f idx).
Proof using WO.
  revert s v f. induction axes as [|a r IH]; intros s v f Hv D H.
  - exists v. pose proof Hv as (W & S & V). split; [reflexivity|]. split; [exact W|]. split; [exact S|]. exact V.
  - inversion D as [|x y D' Lt]; subst. destruct (H a (or_introl eq_refl)) as (La & Ls & Es & F).
    destruct (step_ok s a v f Hv La Ls Es F) as (u & E & Hu). cbn [List.map int_steps]. rewrite E. cbn [bind].
    rewrite Forall_forall in Lt.
    destruct (IH (del a s) u _ Hu D') as (u' & E' & W' & S' & V').
    { intros b Hb. specialize (Lt b Hb). destruct (H b (or_intror Hb)) as (Lb & Ls' & Es' & F').
      rewrite del_length by exact Ls. rewrite nth_del_lt by exact Lt. split; [exact Lb|]. split; [lia|]. auto. }
    exists u'. split; [exact E'|]. split; [exact W'|]. split; [exact S'|]. intros idx Hi.
    change (dels (a :: r) idx) with (dels r (del a idx)). rewrite V'.
    + f_equal. cbn [rev]. rewrite total_app, total_del.
      2:{ apply Forall_forall. intros b Hb. apply Lt. now apply in_rev. }
      apply total_ext_len with (n := length s).
      { apply in_range_length in Hi. now rewrite collapse_length in Hi. }
      intros j Hj. cbn [total]. apply rsum_ext. intros k _. rewrite ins_del by lia. reflexivity.
    + apply (range_del a) in Hi. cbn [collapse_shape fold_right] in Hi. rewrite del_set_same in Hi.
      fold (collapse_shape r s) in Hi. rewrite del_collapse in Hi; [exact Hi|]. now apply Forall_forall.
Qed.

End steps.

(** ** Putting the axes back, smallest first *)

Lemma expand_app l m s : expand_steps (l ++ m) s = let* t := expand_steps l s in expand_steps m t.
Proof.
  revert s. induction l as [|a l IH]; intros s; [reflexivity|]. cbn [app expand_steps].
  destruct (norm_index _ _); cbn [bind]; [|reflexivity]. destruct (norm_axis _ _); cbn [bind]; [apply IH|reflexivity].
Qed.

Lemma desc_dels_length {A} axes (l : list A) : desc axes -> (forall a, In a axes -> a < length l) ->
  length (dels axes l) = length l - length axes.
Proof.
  revert l. induction axes as [|a r IH]; intros l D H; [cbn; lia|]. inversion D as [|x y D' Lt]; subst.
  change (dels (a :: r) l) with (dels r (del a l)). rewrite Forall_forall in Lt.
  assert (La : a < length l) by (apply H; now left).
  rewrite IH; [rewrite del_length by exact La; cbn [length]; lia|exact D'|].
  intros b Hb. rewrite del_length by exact La. specialize (Lt b Hb). lia.
Qed.

Lemma expands_ok axes grid s u :
  desc axes -> wf u -> shape u = dels axes s -> (forall a, In a axes -> a < length grid /\ a < length s) ->
  exists g w, expand_steps (List.map Z.of_nat (rev axes)) (grid, u) = Ok (g, w) /\
    g = collapse_grid mean axes grid /\ wf w /\ shape w = collapse_shape axes s /\
    forall idx, in_range (collapse_shape axes s) idx -> get w idx = get u (dels axes idx).
Proof.
  revert s u. induction axes as [|a r IH]; intros s u D W S H.
  - exists grid, u. split; [reflexivity|]. split; [reflexivity|]. split; [exact W|]. split; [exact S|]. reflexivity.
  - inversion D as [|x y D' Lt]; subst. rewrite Forall_forall in Lt. destruct (H a (or_introl eq_refl)) as (La & Ls).
    destruct (IH (del a s) u D' W S) as (g & w & E & Eg & Ww & Sw & V).
    { intros b Hb. rewrite del_length by exact Ls. specialize (Lt b Hb). destruct (H b (or_intror Hb)). lia. }
    cbn [rev]. rewrite map_app, expand_app, E. cbn [bind List.map expand_steps fst snd].
    assert (Lg : length g = length grid).
    { rewrite Eg. clear. induction r as [|b r IH]; [reflexivity|]. cbn [collapse_grid fold_right]. now rewrite set_nth_length. }
    rewrite norm_index_nat by lia. cbn [bind].
    rewrite norm_axis_nat by (rewrite Sw, collapse_length, del_length by exact Ls; lia). cbn [bind].
    do 2 eexists. split; [reflexivity|]. split; [|].
    + cbn [collapse_grid fold_right]. rewrite Eg. unfold collapse_grid. f_equal. f_equal. unfold lmean, mean.
      assert (En : forall l, Forall (fun b => b < a) l ->
        nth a (fold_right (fun b g0 => set_nth b [(rsum (nth b grid []) / INR (length (nth b grid [])))%R] g0) grid l) [] = nth a grid []).
      { clear - La. intros l. induction l as [|b l IH]; intros Hl; [reflexivity|]. inversion Hl; subst. cbn [fold_right].
        assert (Lq : forall m, length (fold_right (fun b g0 => set_nth b [(rsum (nth b grid []) / INR (length (nth b grid [])))%R] g0) grid m) = length grid).
        { clear. induction m as [|b m IH]; [reflexivity|]. cbn [fold_right]. now rewrite set_nth_length. }
        rewrite nth_set by (rewrite Lq; lia). destruct (Nat.eqb_spec a b); [lia|]. now apply IH. }
      rewrite En by now apply Forall_forall. reflexivity.
    + assert (Hw : holds (collapse_shape r (del a s)) w (val w)).
      { split; [exact Ww|]. split; [exact Sw|]. intros j Hj. apply val_get; [exact Ww|]. now rewrite Sw. }
      apply (holds_expand a) in Hw.
      2:{ rewrite collapse_length, del_length by exact Ls. lia. }
      rewrite <- del_collapse in Hw by now apply Forall_forall.
      rewrite ins_del in Hw by (rewrite collapse_length; exact Ls).
      destruct Hw as (We & Se & Ve). split; [exact We|]. split; [exact Se|].
      intros idx Hi. rewrite Ve by exact Hi. change (dels (a :: r) idx) with (dels r (del a idx)).
      assert (Hd : in_range (collapse_shape r (del a s)) (del a idx)).
      { apply (range_del a) in Hi. cbn [collapse_shape fold_right] in Hi. rewrite del_set_same in Hi.
        fold (collapse_shape r s) in Hi. rewrite del_collapse in Hi; [exact Hi|]. now apply Forall_forall. }
      rewrite <- V by exact Hd. symmetry. apply val_get; [exact Ww|]. now rewrite Sw.
Qed.

(** ** Sorting axes *)

Lemma sort_of_nat l : sort_axes (List.map Z.of_nat l) = List.map Z.of_nat (isort Nat.leb l).
Proof.
  unfold sort_axes. induction l as [|a l IH]; [reflexivity|]. cbn [List.map isort]. rewrite IH. clear IH.
  induction (isort Nat.leb l) as [|b m IH]; [reflexivity|]. cbn [List.map insert].
  replace (Z.of_nat a <=? Z.of_nat b)%Z with (a <=? b).
  - destruct (a <=? b); [reflexivity|]. cbn [List.map]. now rewrite IH.
  - destruct (Nat.leb_spec a b), (Z.leb_spec (Z.of_nat a) (Z.of_nat b)); lia || reflexivity.
Qed.

Lemma isort_asc l : NoDup l -> StronglySorted lt (isort Nat.leb l).
Proof.
  intros ND. assert (S : StronglySorted (fun x y => Nat.leb x y = true) (isort Nat.leb l)).
  { apply isort_sorted with (P := fun _ => True).
    - intros x y _ _. destruct (Nat.leb_spec x y); [now left|right]. apply Nat.leb_le. lia.
    - intros x y z _ _ _ A B. apply Nat.leb_le in A, B. apply Nat.leb_le. lia.
    - apply Forall_forall. auto. }
  assert (N : NoDup (isort Nat.leb l)) by (eapply Permutation_NoDup; [apply isort_perm|exact ND]).
  induction S as [|x m S IH F]; [constructor|]. inversion N; subst. constructor; [auto|].
  rewrite Forall_forall in *. intros y Hy. specialize (F y Hy). apply Nat.leb_le in F.
  destruct (Nat.eq_dec x y); [subst; contradiction|lia].
Qed.

Lemma asc_rev l : StronglySorted lt l -> desc (rev l).
Proof.
  unfold desc. induction 1 as [|x m S IH F]; [constructor|]. cbn [rev].
  rewrite Forall_forall in F.
  assert (G : forall q, StronglySorted (fun a b => b < a) q -> (forall y, In y q -> x < y) ->
              StronglySorted (fun a b => b < a) (q ++ [x])).
  { induction 1 as [|z q Sq IHq Fq]; intros Hq; [repeat constructor|]. cbn [app]. constructor.
    - apply IHq. intros y Hy. apply Hq. now right.
    - rewrite Forall_forall in *. intros y Hy. apply in_app_or in Hy as [Hy|[<-|[]]]; [now apply Fq|]. apply Hq. now left. }
  apply G; [exact IH|]. intros y Hy. apply F. now apply in_rev.
Qed.

Lemma collapse_perm l m sh : Permutation l m -> collapse_shape l sh = collapse_shape m sh.
Proof.
  induction 1 as [|a l m P IH|a b l|l m n P1 IH1 P2 IH2]; [reflexivity| | |congruence].
  - unfold collapse_shape in *. cbn [fold_right]. now rewrite IH.
  - cbn [collapse_shape fold_right]. destruct (Nat.eq_dec a b) as [->|N]; [reflexivity|]. apply set_comm. congruence.
Qed.

Lemma collapse_grid_perm mid l m grid : Permutation l m -> collapse_grid mid l grid = collapse_grid mid m grid.
Proof.
  induction 1 as [|a l m P IH|a b l|l m n P1 IH1 P2 IH2]; [reflexivity| | |congruence].
  - unfold collapse_grid in *. cbn [fold_right]. now rewrite IH.
  - unfold collapse_grid. cbn [fold_right]. destruct (Nat.eq_dec a b) as [->|N]; [reflexivity|]. apply set_comm. congruence.
Qed.

(** The whole of integrate, for axis numbers that are not negative. *)
Lemma integrate_ok nd arg grid v sh f axes :
  parse_axis nd arg = Ok (List.map Z.of_nat axes) -> NoDup axes ->
  holds sh v f -> length grid <= length sh ->
  (forall a, In a axes -> a < length grid /\ fits (nth a grid []) (nth a sh 0)) ->
  exists w, integrate nd arg (grid, v) = Ok (collapse_grid mean axes grid, w) /\
    holds (collapse_shape axes sh) w (total grid sh axes f).
Proof.
  intros EP ND Hv Lg H. pose proof Hv as (W & S & V). unfold integrate. rewrite EP. cbn [bind fst snd]. rewrite S.
  destruct (dz_all_ok grid sh Lg) as (dz & -> & Ld & Hd). cbn [bind].
  set (up := isort Nat.leb axes). assert (P : Permutation axes up) by apply isort_perm.
  assert (PR : Permutation axes (rev up)) by (rewrite P; apply Permutation_rev).
  rewrite sort_of_nat. fold up. rewrite <- map_rev.
  assert (D : desc (rev up)) by (apply asc_rev, isort_asc, ND).
  destruct (steps_ok grid dz sh (conj Ld Hd) (rev up) sh v f Hv D) as (u & -> & Wu & Su & Vu).
  { intros a Ha. apply Permutation_sym in PR. apply (Permutation_in a PR) in Ha. destruct (H a Ha). split; [assumption|]. split; [lia|]. auto. }
  cbn [bind].
  destruct (expands_ok (rev up) grid sh u D Wu Su) as (g & w & E & Eg & Ww & Sw & Vw).
  { intros a Ha. apply Permutation_sym in PR. apply (Permutation_in a PR) in Ha. destruct (H a Ha). lia. }
  rewrite rev_involutive in E. rewrite E. exists w. split.
  - rewrite Eg. do 2 f_equal. apply collapse_grid_perm. now apply Permutation_sym.
  - rewrite (collapse_perm _ _ sh PR). split; [exact Ww|]. split; [exact Sw|]. intros idx Hi. rewrite Vw, Vu by exact Hi.
    rewrite rev_involutive. f_equal. symmetry. apply total_perm; [exact P|exact ND].
Qed.
