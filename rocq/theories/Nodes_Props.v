(** * C108: the grid of a gyrokinetic simulation (gk_nodes) *)
From Coq Require Import String Ascii List Arith ZArith Reals Lia Lra Bool.
From Verif Require Import Prelude PreludeFacts NdArray Ev_Model Tools_Arr Gk_Model Gk_Proofs Gk_Props Distf_Model Nodes_Model.
Import ListNotations.
Open Scope string_scope.
Open Scope list_scope.
Open Scope nat_scope.

(** ** Specification *)

(** Files whose nodes are given by Cartesian coordinates: those without a geometry and
    those of kind 3. The others have radius, height and angle. *)
Definition cartesian (f : node_file) : Prop := nf_geometry f = None \/ nf_geometry f = Some 3%Z.

(** A file with the nodes [cells], at least two along each of one to three axes. *)
Record node_grid (f : node_file) (cells : list nat) : Prop := {
  ng_dims : 1 <= length cells <= 3;
  ng_size : Forall (fun n => 2 <= n) cells;
  ng_wf : wf (nf_values f);
  ng_shape : exists nc, shape (nf_values f) = cells ++ [nc] /\ 2 <= nc /\ (cartesian f -> 3 <= nc) }.

(** The nodes to draw: all of them, in three dimensions those with second index 0. *)
Definition node (cells idx : list nat) : Prop := in_range cells idx /\ (length cells = 3 -> nth_error idx 1 = Some 0).

(** Radius and height of a node. *)
Inductive place (f : node_file) (idx : list nat) : R -> R -> Prop :=
| Cartesian x y z r : cartesian f -> get (nf_values f) (idx ++ [0]) = Some x -> get (nf_values f) (idx ++ [1]) = Some y ->
    get (nf_values f) (idx ++ [2]) = Some z -> (0 <= r)%R -> (r * r = x * x + y * y)%R -> place f idx r z
| Cylindrical r z : ~ cartesian f -> get (nf_values f) (idx ++ [0]) = Some r -> get (nf_values f) (idx ++ [1]) = Some z -> place f idx r z.

(** Neighbours on the grid, the second one step further along one axis. *)
Definition next_to (i j : list nat) : Prop := exists p k q, i = p ++ k :: q /\ j = p ++ S k :: q.

(** Points and lines in a picture. *)
Inductive dot : artist -> R -> R -> Prop :=
| DotAt r z idx x y : get r idx = Some x -> get z idx = Some y -> dot (Dots r z) x y.
Inductive joined : artist -> R * R -> R * R -> Prop :=
| JoinedLine r z c i x y x' y' : get r [i] = Some x -> get z [i] = Some y -> get r [S i] = Some x' -> get z [S i] = Some y' ->
    joined (Line r z c) (x, y) (x', y')
| JoinedLines s c i j x y x' y' : get s [i; j; 0] = Some x -> get s [i; j; 1] = Some y -> get s [i; S j; 0] = Some x' -> get s [i; S j; 1] = Some y' ->
    joined (Lines s c) (x, y) (x', y').
Definition line_colour (a : artist) : option string := match a with Line _ _ c | Lines _ c => Some c | _ => None end.

(** ** Squeezing *)

Definition without_ones (sh idx : list nat) : list nat := List.map snd (List.filter (fun p => negb (Nat.eqb (fst p) 1)) (combine sh idx)).

Lemma prod_squeeze sh : prod (List.filter (fun n => negb (n =? 1)) sh) = prod sh.
Proof. induction sh as [|n sh IH]; [reflexivity|]. cbn [List.filter]. destruct (Nat.eqb_spec n 1) as [->|]; cbn [negb]; unfold prod in *; cbn; rewrite IH; lia. Qed.

Lemma ravel_squeeze sh idx : in_range sh idx -> ravel (List.filter (fun n => negb (n =? 1)) sh) (without_ones sh idx) = ravel sh idx.
Proof.
  unfold in_range. induction 1 as [|i n idx sh H _ IH]; [reflexivity|]. unfold without_ones in *. cbn [List.filter combine fst]. destruct (Nat.eqb_spec n 1) as [->|N]; cbn [negb].
  - rewrite IH. cbn [ravel]. replace (i <? 1) with true by (symmetry; apply Nat.ltb_lt; lia). destruct (ravel sh idx); [|reflexivity]. cbn [option_map]. replace i with 0 by lia. reflexivity.
  - cbn [List.map snd ravel]. rewrite IH, prod_squeeze. reflexivity.
Qed.

Lemma get_squeeze (a : nda R) idx : in_range (shape a) idx -> get (squeeze a) (without_ones (shape a) idx) = get a idx.
Proof. intros H. unfold get, squeeze. cbn [shape flat]. now rewrite ravel_squeeze. Qed.

Lemma wf_squeeze (a : nda R) : wf a -> wf (squeeze a).
Proof. unfold wf, squeeze. cbn [shape flat]. now rewrite prod_squeeze. Qed.

Lemma squeeze_same (a : nda R) : Forall (fun n => 2 <= n) (shape a) -> squeeze a = a.
Proof.
  intros H. unfold squeeze. rewrite (filter_all _ (shape a)); [now destruct a|]. apply forallb_forall. rewrite Forall_forall in H. intros n Hn. specialize (H n Hn). destruct (Nat.eqb_spec n 1); [lia|reflexivity].
Qed.

(** ** Coordinates of the nodes drawn *)

(** The axes of the picture and the node at one of its positions. *)
Definition plane (cells : list nat) : list nat := match cells with [a; _; c] => [a; c] | _ => cells end.
Definition lift (cells idx : list nat) : list nat := match cells, idx with [_; _; _], [i; k] => [i; 0; k] | _, _ => idx end.

Lemma lift_node cells p : 1 <= length cells <= 3 -> Forall (fun n => 2 <= n) cells -> in_range (plane cells) p -> node cells (lift cells p).
Proof.
  intros L H Hp. destruct cells as [|a [|b [|c [|]]]]; cbn in L; try lia.
  - split; [|discriminate]. destruct p; exact Hp.
  - split; [|discriminate]. destruct p; exact Hp.
  - pose proof (Forall_inv (Forall_inv_tail H)) as Hb. cbv beta in Hb. inversion Hp as [|i ? p1 ? Hi H1]; subst. inversion H1 as [|k ? p2 ? Hk H2]; subst. inversion H2; subst. split; [|reflexivity]. cbn [lift]. repeat constructor; try assumption. lia.
Qed.

Lemma node_lift cells idx : 1 <= length cells <= 3 -> node cells idx -> exists p, in_range (plane cells) p /\ lift cells p = idx.
Proof.
  intros L (H & H3). destruct cells as [|a [|b [|c [|]]]]; cbn in L; try lia.
  - exists idx. split; [exact H|]. destruct idx; reflexivity.
  - exists idx. split; [exact H|]. destruct idx; reflexivity.
  - specialize (H3 eq_refl). inversion H as [|i ? p1 ? Hi H1]; subst. inversion H1 as [|j ? p2 ? Hj H2]; subst. inversion H2 as [|k ? p4 ? Hk H4]; subst. inversion H4; subst. cbn in H3. injection H3 as ->. exists [i; k]. split; [repeat constructor; assumption|reflexivity].
Qed.

Lemma nth_error_seq0 i n : i < n -> nth_error (seq 0 n) i = Some i.
Proof. intros H. rewrite nth_error_seq. destruct (Nat.ltb_spec i n); [reflexivity|lia]. Qed.

Lemma seq_pick a n : a < n -> firstn 1 (skipn a (seq 0 n)) = [a].
Proof.
  intros H. destruct (skipn a (seq 0 n)) as [|x l] eqn:E.
  - apply (f_equal (@length nat)) in E. rewrite skipn_length, seq_length in E. cbn in E. lia.
  - cbn [firstn]. f_equal. assert (Hn : nth 0 (skipn a (seq 0 n)) 0 = x) by now rewrite E. clear E. revert Hn. rewrite <- (firstn_skipn a (seq 0 n)) at 1. clear l.
    intros Hn. assert (Hs : nth a (seq 0 n) 0 = a) by (rewrite seq_nth by exact H; reflexivity). rewrite <- Hs, <- Hn. rewrite firstn_skipn. rewrite <- (firstn_skipn a (seq 0 n)) at 2. rewrite app_nth2; rewrite firstn_length, seq_length, Nat.min_l by lia; [|lia]. now rewrite Nat.sub_diag.
Qed.

Lemma coordinate_holds (v : nda R) cells nc cd : wf v -> shape v = cells ++ [nc] -> 1 <= length cells <= 3 -> Forall (fun n => 2 <= n) cells -> cd < nc ->
  holds (plane cells) (coordinate v cd) (fun p => val v (lift cells p ++ [cd])).
Proof.
  intros W E L H Hc. unfold coordinate, kept.
  assert (G : forall sels, Forall2 (fun s n => forall i, In i s -> i < n) sels (shape v) ->
    List.filter (fun n => negb (n =? 1)) (List.map (@length nat) sels) = plane cells ->
    (forall p, in_range (plane cells) p -> exists idx, in_range (List.map (@length nat) sels) idx /\ without_ones (List.map (@length nat) sels) idx = p /\ Forall2 (fun si j => nth_error (fst si) (snd si) = Some j) (combine sels idx) (lift cells p ++ [cd])) ->
    holds (plane cells) (squeeze (take sels v)) (fun p => val v (lift cells p ++ [cd]))).
  { intros sels Hs Hp Hi. split; [|split].
    - apply wf_squeeze, wf_take; assumption.
    - exact Hp.
    - intros p Hpl. destruct (Hi p Hpl) as (idx & Ri & <- & Hsrc). pose proof (get_squeeze (take sels v) idx Ri) as G0. change (shape (take sels v)) with (List.map (@length nat) sels) in G0. rewrite G0. rewrite (get_take sels v idx _ W Hs Ri Hsrc). apply val_get; [exact W|].
      rewrite E. unfold in_range. apply Forall2_app; [|repeat constructor; exact Hc]. apply lift_node; assumption. }
  rewrite E, app_length, Nat.add_sub. cbn [length]. destruct cells as [|a [|b [|c [|]]]]; cbn in L; try lia; cbn [app length seq Nat.add map2 Nat.eqb andb].
  - pose proof (Forall_inv H) as Ha. cbv beta in Ha. rewrite (seq_pick cd nc Hc). apply G.
    + rewrite E. constructor; [intros i Hi; apply in_seq in Hi; lia|]. constructor; [|constructor]. intros i [<-|[]]. exact Hc.
    + cbn [List.map length List.filter]. rewrite seq_length. destruct (Nat.eqb_spec a 1); [lia|]. reflexivity.
    + cbn [plane]. intros p Hp. inversion Hp as [|i ? p1 ? Hi H1]; subst. inversion H1; subst. exists [i; 0]. cbn [List.map length]. rewrite seq_length. split; [repeat constructor; lia|]. split.
      * unfold without_ones. cbn [combine List.filter fst]. destruct (Nat.eqb_spec a 1); [lia|]. reflexivity.
      * cbn [combine lift app]. constructor; [|repeat constructor]. cbn [fst snd]. apply nth_error_seq0; lia.
  - pose proof (Forall_inv H) as Ha. pose proof (Forall_inv (Forall_inv_tail H)) as Hb. cbv beta in Ha, Hb. rewrite (seq_pick cd nc Hc). apply G.
    + rewrite E. constructor; [intros i Hi; apply in_seq in Hi; lia|]. constructor; [intros i Hi; apply in_seq in Hi; lia|]. constructor; [|constructor]. intros i [<-|[]]. exact Hc.
    + cbn [List.map length List.filter]. rewrite !seq_length. destruct (Nat.eqb_spec a 1); [lia|]. destruct (Nat.eqb_spec b 1); [lia|]. reflexivity.
    + cbn [plane]. intros p Hp. inversion Hp as [|i ? p1 ? Hi H1]; subst. inversion H1 as [|k ? p2 ? Hk H2]; subst. inversion H2; subst. exists [i; k; 0]. cbn [List.map length]. rewrite !seq_length. split; [repeat constructor; lia|]. split.
      * unfold without_ones. cbn [combine List.filter fst]. destruct (Nat.eqb_spec a 1); [lia|]. destruct (Nat.eqb_spec b 1); [lia|]. reflexivity.
      * cbn [combine lift app]. constructor; [cbn [fst snd]; apply nth_error_seq0; lia|]. constructor; [cbn [fst snd]; apply nth_error_seq0; lia|]. repeat constructor.
  - pose proof (Forall_inv H) as Ha. pose proof (Forall_inv (Forall_inv_tail H)) as Hb. pose proof (Forall_inv (Forall_inv_tail (Forall_inv_tail H))) as Hcc. cbv beta in Ha, Hb, Hcc. rewrite (seq_pick cd nc Hc). pose proof (seq_pick 0 b ltac:(lia)) as Eb. cbn [skipn] in Eb. rewrite Eb. apply G.
    + rewrite E. constructor; [intros i Hi; apply in_seq in Hi; lia|]. constructor; [intros i [<-|[]]; lia|]. constructor; [intros i Hi; apply in_seq in Hi; lia|]. constructor; [|constructor]. intros i [<-|[]]. exact Hc.
    + cbn [List.map length List.filter]. rewrite !seq_length. destruct (Nat.eqb_spec a 1); [lia|]. destruct (Nat.eqb_spec c 1); [lia|]. reflexivity.
    + cbn [plane]. intros p Hp. inversion Hp as [|i ? p1 ? Hi H1]; subst. inversion H1 as [|k ? p2 ? Hk H2]; subst. inversion H2; subst. exists [i; 0; k; 0]. cbn [List.map length]. rewrite !seq_length. split; [repeat constructor; lia|]. split.
      * unfold without_ones. cbn [combine List.filter fst]. destruct (Nat.eqb_spec a 1); [lia|]. destruct (Nat.eqb_spec c 1); [lia|]. reflexivity.
      * cbn [combine lift app]. constructor; [cbn [fst snd]; apply nth_error_seq0; lia|]. constructor; [reflexivity|]. constructor; [cbn [fst snd]; apply nth_error_seq0; lia|]. repeat constructor.
Qed.

(** ** Neighbours *)

Lemma next_nil m : ~ next_to [] m.
Proof. intros (p & k & q & E & _). destruct p; discriminate E. Qed.

Lemma next_cons a l m : next_to (a :: l) m <-> m = S a :: l \/ exists m', m = a :: m' /\ next_to l m'.
Proof.
  split.
  - intros ([|b p] & k & q & E & ->).
    + injection E as <- <-. now left.
    + injection E as <- ->. right. exists (p ++ S k :: q). split; [reflexivity|]. now exists p, k, q.
  - intros [-> | (m' & -> & p & k & q & -> & ->)]; [now exists [], a, l|]. now exists (a :: p), k, q.
Qed.

Lemma next1 i m : next_to [i] m <-> m = [S i].
Proof. rewrite next_cons. split; [intros [H|(m' & _ & H)]; [exact H|now apply next_nil in H]|now left]. Qed.

Lemma next2 i j m : next_to [i; j] m <-> m = [S i; j] \/ m = [i; S j].
Proof. rewrite next_cons. split; [intros [H|(m' & -> & H)]; [now left|apply next1 in H as ->; now right]|]. intros [H| ->]; [now left|]. right. exists [S j]. split; [reflexivity|now apply next1]. Qed.

Lemma next3 i j k m : next_to [i; j; k] m <-> m = [S i; j; k] \/ m = [i; S j; k] \/ m = [i; j; S k].
Proof.
  rewrite next_cons. split.
  - intros [H|(m' & -> & H)]; [now left|]. apply next2 in H as [-> | ->]; auto.
  - intros [H|[-> | ->]]; [now left|right; exists [S j; k]|right; exists [j; S k]]; (split; [reflexivity|apply next2; auto]).
Qed.

Lemma next_lift cells p q : 1 <= length cells <= 3 -> in_range (plane cells) p -> in_range (plane cells) q -> (next_to (lift cells p) (lift cells q) <-> next_to p q).
Proof.
  intros L Hp Hq. destruct cells as [|a [|b [|c [|]]]]; cbn in L; try lia; try (destruct p, q; reflexivity).
  cbn [plane] in Hp, Hq. inversion Hp as [|i ? p1 ? Hi H1]; subst. inversion H1 as [|k ? p2 ? Hk H2]; subst. inversion H2; subst.
  inversion Hq as [|i' ? q1 ? Hi' H1']; subst. inversion H1' as [|k' ? q2 ? Hk' H2']; subst. inversion H2'; subst. cbn [lift].
  rewrite next3, next2. split; [intros [E|[E|E]]; try discriminate E; injection E as -> ->; auto|intros [E|E]; injection E as -> ->; auto].
Qed.

(** ** Places *)

Lemma place_fun f idx r z r' z' : place f idx r z -> place f idx r' z' -> r = r' /\ z = z'.
Proof.
  intros [x y zz rr C E0 E1 E2 P Q|rr zz N E0 E1] [x' y' zz' rr' C' E0' E1' E2' P' Q'|rr' zz' N' E0' E1']; try contradiction.
  - rewrite E0 in E0'. rewrite E1 in E1'. rewrite E2 in E2'. injection E0' as <-. injection E1' as <-. injection E2' as <-. split; [|reflexivity]. apply Rsqr_inj; [exact P|exact P'|]. unfold Rsqr. lra.
  - rewrite E0 in E0'. rewrite E1 in E1'. injection E0' as <-. injection E1' as <-. auto.
Qed.

Lemma geometry_ok f : exists g, is_geo_mapc2p (nf_geometry f) = Ok g /\ (g = true <-> cartesian f).
Proof.
  unfold cartesian. destruct (nf_geometry f) as [z|]; cbn; [|exists true; split; [reflexivity|tauto]]. eexists. split; [reflexivity|]. destruct z as [|[[| |]|[| |]|]|]; split; intros H; try discriminate H; try reflexivity; try (destruct H as [H|H]; discriminate H). now right.
Qed.

(** The tag of what is drawn for a block: with the number of the block if there are several. *)
Definition tag_of_block (several : bool) (s : string) (b : Z) : string :=
  match several with false => s | true => (s ++ String "_" (String "b" (show_Z b)))%string end.

Section Blocks.
  Context (read : string -> res node_file) (file : string) (colours : list string).

  Lemma load_ok f cells b : read (replace "*" (show_Z b) file) = Ok f -> node_grid f cells ->
    exists r z fr fz, load_nodes read file b = Ok (length cells, r, z) /\ holds (plane cells) r fr /\ holds (plane cells) z fz /\
      forall p, in_range (plane cells) p -> place f (lift cells p) (fr p) (fz p).
  Proof.
    intros Rd [L Hs W (nc & E & N2 & N3)]. unfold load_nodes. rewrite Rd. cbn [bind].
    rewrite squeeze_same by (rewrite E; apply Forall_app; split; [exact Hs|repeat constructor; exact N2]).
    destruct (geometry_ok f) as (g & -> & Hg). cbn [bind]. unfold nodes_to_RZ. rewrite E, app_length, Nat.add_sub.
    pose proof (fun cd => coordinate_holds (nf_values f) cells nc cd W E L Hs) as C.
    assert (G : forall p cd, cd < nc -> in_range (plane cells) p -> get (nf_values f) (lift cells p ++ [cd]) = Some (val (nf_values f) (lift cells p ++ [cd]))).
    { intros p cd Hc Hp. apply val_get; [exact W|]. rewrite E. unfold in_range. apply Forall2_app; [|repeat constructor; exact Hc]. apply lift_node; assumption. }
    destruct g.
    - assert (Ca : cartesian f) by now apply Hg. specialize (N3 Ca).
      destruct (holds_rb (fun x y => sqrt (x * x + y * y)) _ _ _ _ _ (C 0 ltac:(lia)) (C 1 ltac:(lia))) as (r & -> & Hr). cbn [bind].
      eexists _, _, _, _. split; [reflexivity|]. split; [exact Hr|]. split; [exact (C 2 ltac:(lia))|]. intros p Hp. cbv beta.
      eapply Cartesian; [exact Ca|apply G; [lia|exact Hp]..|apply sqrt_pos|]. apply sqrt_def. set (x := val _ _). set (y := val _ _). pose proof (Rle_0_sqr x). pose proof (Rle_0_sqr y). unfold Rsqr in *. lra.
    - assert (Ca : ~ cartesian f) by (rewrite <- Hg; discriminate). cbn [bind]. eexists _, _, _, _. split; [reflexivity|]. split; [exact (C 0 ltac:(lia))|]. split; [exact (C 1 ltac:(lia))|].
      intros p Hp. cbv beta. apply Cylindrical; [exact Ca|apply G; [lia|exact Hp]..].
  Qed.

  Lemma push_ok tag grid values nc lead : rev (shape values) = nc :: lead -> length lead <= length grid -> Forall (fun g => flat g <> []) grid ->
    exists d, push tag grid values = Ok d /\ nd_tag d = tag /\ nd_grid d = grid /\ nd_values d = values /\ nd_cells d = rev lead /\ nd_comps d = nc.
  Proof.
    intros E L Hg. unfold push. rewrite E. rewrite rev_length.
    assert (M : forall (m : list R -> res R), (forall l, l <> [] -> exists x, m l = Ok x) -> exists l, mapM (fun d => match nth_error grid d with Some g => m (flat g) | None => Err IndexError end) (seq 0 (length lead)) = Ok l).
    { intros m Hm. assert (A : forall d, In d (seq 0 (length lead)) -> d < length grid) by (intros d Hd; apply in_seq in Hd; lia). revert A. generalize (seq 0 (length lead)). intros l. induction l as [|d l IH]; intros A; [exists []; reflexivity|]. cbn [mapM].
      destruct (nth_error grid d) as [g|] eqn:Eg; [|apply nth_error_None in Eg; specialize (A d (or_introl eq_refl)); lia]. rewrite Forall_forall in Hg. destruct (Hm (flat g) (Hg g (nth_error_In _ _ Eg))) as (x & ->). cbn [bind].
      destruct IH as (xs & ->); [intros d' Hd'; apply A; now right|]. exists (x :: xs). reflexivity. }
    destruct (M amin) as (lo & ->); [intros [|x l] H; [contradiction|eexists; reflexivity]|]. cbn [bind]. destruct (M amax) as (up & ->); [intros [|x l] H; [contradiction|eexists; reflexivity]|]. cbn [bind].
    eexists. split; [reflexivity|]. repeat split.
  Qed.

  Lemma rows_ok (a : nda R) n sh : wf a -> shape a = n :: sh -> prod sh <> 0 -> length (rows a) = n /\ Forall (fun g => flat g <> []) (rows a).
  Proof.
    intros W E P. unfold rows. rewrite E. rewrite map_length, seq_length. split; [reflexivity|]. apply Forall_forall. intros g Hg. apply in_map_iff in Hg as (i & <- & Hi). apply in_seq in Hi. cbn [flat]. intros H0. apply (f_equal (@length R)) in H0.
    rewrite firstn_length, skipn_length in H0. unfold wf in W. rewrite E in W. change (prod (n :: sh)) with (n * prod sh) in W. rewrite W in H0. cbn in H0. nia.
  Qed.

  (** One block: dots at the nodes, lines between neighbours, all in the colour of the
      block; the datasets hold the places of the nodes and the lines. *)
  Theorem C108_block o several k f cells b : read (replace "*" (show_Z b) file) = Ok f -> node_grid f cells ->
    exists a d, draw_block read colours o file several k b = Ok (a, d) /\
      (forall r z, (exists x, In x a /\ dot x r z) <-> (exists idx, node cells idx /\ place f idx r z)) /\
      (forall p q, (exists x, In x a /\ joined x p q) <->
         (exists i j, node cells i /\ node cells j /\ next_to i j /\ place f i (fst p) (snd p) /\ place f j (fst q) (snd q))) /\
      (forall x c, In x a -> line_colour x = Some c -> c = colour colours o k) /\
      List.map nd_tag d = List.map (fun t => tag_of_block several t b) (if length cells =? 1 then ["nodes"] else ["edges"; "nodes"]).
  Proof.
    intros Rd NG. pose proof NG as [L Hs _ _]. destruct (load_ok f cells b Rd NG) as (r & z & fr & fz & El & (Wr & Sr & Vr) & (Wz & Sz & Vz) & Hp).
    unfold draw_block. rewrite El. cbn [bind]. rewrite Sr. assert (L2 : length (plane cells) = if length cells =? 1 then 1 else 2) by (destruct cells as [|? [|? [|? [|]]]]; cbn in L; try lia; reflexivity).
    assert (P2 : Forall (fun n => 2 <= n) (plane cells)). { destruct cells as [|? [|? [|? [|]]]]; cbn in L; try lia; try exact Hs. cbn [plane]. constructor; [exact (Forall_inv Hs)|exact (Forall_inv_tail (Forall_inv_tail Hs))]. }
    rewrite L2. replace (2 <? (if length cells =? 1 then 1 else 2)) with false by (destruct (length cells =? 1); reflexivity).
    assert (RangeR : forall p x, get r p = Some x -> in_range (plane cells) p) by (intros p x H; rewrite <- Sr; eapply get_Some_in_range; exact H).
    assert (DotOk : forall x y, dot (Dots r z) x y <-> exists idx, node cells idx /\ place f idx x y).
    { intros x y. split.
      - intros H. inversion H as [r1 z1 p x1 y1 E1 E2]; subst. pose proof (RangeR _ _ E1) as Rp. rewrite (Vr p Rp) in E1. rewrite (Vz p Rp) in E2. injection E1 as <-. injection E2 as <-. exists (lift cells p). split; [now apply lift_node|now apply Hp].
      - intros (idx & Hn & Pl). destruct (node_lift cells idx L Hn) as (p & Rp & <-). destruct (place_fun _ _ _ _ _ _ (Hp p Rp) Pl) as (<- & <-). econstructor; [now apply Vr|now apply Vz]. }
    assert (Steps : forall p q : R * R, (exists u v, in_range (plane cells) u /\ in_range (plane cells) v /\ next_to u v /\ p = (fr u, fz u) /\ q = (fr v, fz v)) <->
      (exists i j, node cells i /\ node cells j /\ next_to i j /\ place f i (fst p) (snd p) /\ place f j (fst q) (snd q))).
    { intros p q. split.
      - intros (u & v & Ru & Rv & N & -> & ->). exists (lift cells u), (lift cells v). split; [now apply lift_node|]. split; [now apply lift_node|]. split; [now apply next_lift|]. split; now apply Hp.
      - intros (i & j & Ni & Nj & N & Pi & Pj). destruct (node_lift cells i L Ni) as (u & Ru & <-). destruct (node_lift cells j L Nj) as (v & Rv & <-). exists u, v. split; [exact Ru|]. split; [exact Rv|]. split; [now apply next_lift in N|].
        destruct (place_fun _ _ _ _ _ _ (Hp u Ru) Pi) as (E1 & E2). destruct (place_fun _ _ _ _ _ _ (Hp v Rv) Pj) as (E3 & E4). rewrite E1, E2, E3, E4. destruct p, q. split; reflexivity. }
    destruct (Nat.eqb_spec (length cells) 1) as [L1|L1].
    - destruct (plane cells) as [|n [|]] eqn:Epl; try discriminate L2. pose proof (Forall_inv P2) as Hn. cbv beta in Hn.
      destruct (push_ok (append_suffix several "nodes" b) (rows r) z n [] ltac:(now rewrite Sz) ltac:(cbn; lia)) as (d & -> & Tg & _).
      { apply (rows_ok r n []); [exact Wr|exact Sr|discriminate]. }
      cbn [bind]. exists [Dots r z; Line r z (colour colours o k)], [d]. split; [reflexivity|]. split; [|split; [|split]].
      + intros x y. rewrite <- DotOk. split; [|intros H; exists (Dots r z); split; [now left|exact H]]. intros (a & [<-|[<-|[]]] & H); [exact H|inversion H].
      + intros p q. rewrite <- Steps. split.
        * intros (a & [<-|[<-|[]]] & H); [inversion H|]. inversion H as [r1 z1 c1 i x y x' y' E1 E2 E3 E4|]; subst. pose proof (RangeR _ _ E1) as R1. pose proof (RangeR _ _ E3) as R2. rewrite (Vr _ R1) in E1. rewrite (Vz _ R1) in E2. rewrite (Vr _ R2) in E3. rewrite (Vz _ R2) in E4.
          injection E1 as <-. injection E2 as <-. injection E3 as <-. injection E4 as <-. exists [i], [S i]. repeat (split; [first [assumption|now apply next1|reflexivity]|]). reflexivity.
        * intros (u & v & Ru & Rv & N & -> & ->). inversion Ru as [|i ? u1 ? Hi H1]; subst. inversion H1; subst. apply next1 in N as ->. exists (Line r z (colour colours o k)). split; [right; now left|]. apply JoinedLine with (i := i); [now apply Vr|now apply Vz|now apply Vr|now apply Vz].
      + intros x c [<-|[<-|[]]] H; [discriminate H|]. now injection H.
      + cbn [List.map]. now rewrite Tg.
    - destruct (plane cells) as [|n1 [|n2 [|]]] eqn:Epl; try discriminate L2. pose proof (Forall_inv P2) as Hn1. pose proof (Forall_inv (Forall_inv_tail P2)) as Hn2. cbv beta in Hn1, Hn2.
      unfold stack2. rewrite Sr. cbn [bind]. set (sx := tabulate [n1; n2; 2] _). unfold transpose102. change (shape sx) with [n1; n2; 2]. cbv iota. cbn [bind]. set (sy := tabulate [n2; n1; 2] _).
      assert (Vsx : forall i j, in_range [n1; n2] [i; j] -> get sx [i; j; 0] = Some (fr [i; j]) /\ get sx [i; j; 1] = Some (fz [i; j])).
      { intros i j Rij. assert (R3 : forall c, c < 2 -> in_range [n1; n2; 2] [i; j; c]) by (intros c Hc; inversion Rij as [|? ? ? ? Hi H1]; subst; inversion H1; subst; repeat (apply Forall2_cons; [assumption|]); apply Forall2_nil). unfold sx. rewrite !get_tabulate by (apply R3; lia). cbn [Nat.eqb]. rewrite Vr, Vz by exact Rij. split; reflexivity. }
      assert (Vsy : forall i j, in_range [n1; n2] [i; j] -> get sy [j; i; 0] = Some (fr [i; j]) /\ get sy [j; i; 1] = Some (fz [i; j])).
      { intros i j Rij. assert (R3 : forall c, c < 2 -> in_range [n2; n1; 2] [j; i; c]) by (intros c Hc; inversion Rij as [|? ? ? ? Hi H1]; subst; inversion H1; subst; repeat (apply Forall2_cons; [assumption|]); apply Forall2_nil). destruct (Vsx i j Rij) as (X0 & X1). unfold sy. rewrite !get_tabulate by (apply R3; lia). rewrite X0, X1. split; reflexivity. }
      assert (Rsx : forall i j c x, get sx [i; j; c] = Some x -> in_range [n1; n2] [i; j]). { intros i j c x H. apply get_Some_in_range in H. change (shape sx) with [n1; n2; 2] in H. inversion H as [|? ? ? ? Hi H1]; subst. inversion H1 as [|? ? ? ? Hj H2]; subst. repeat constructor; assumption. }
      assert (Rsy : forall i j c x, get sy [j; i; c] = Some x -> in_range [n1; n2] [i; j]). { intros i j c x H. apply get_Some_in_range in H. change (shape sy) with [n2; n1; 2] in H. inversion H as [|? ? ? ? Hi H1]; subst. inversion H1 as [|? ? ? ? Hj H2]; subst. repeat constructor; assumption. }
      destruct (rows_ok sx n1 [n2; 2]) as (Lsx & Fsx); [apply wf_tabulate|reflexivity|unfold prod; cbn; lia|].
      destruct (push_ok (append_suffix several "edges" b) (rows sx) sy 2 [n1; n2] eq_refl ltac:(rewrite Lsx; cbn; lia) Fsx) as (e & -> & Te & _). cbn [bind].
      destruct (rows_ok r n1 [n2] Wr Sr ltac:(unfold prod; cbn; lia)) as (Lr & Fr).
      destruct (push_ok (append_suffix several "nodes" b) (rows r) z n2 [n1] ltac:(now rewrite Sz) ltac:(rewrite Lr; cbn; lia) Fr) as (d & -> & Tg & _). cbn [bind].
      clearbody sy. clearbody sx. exists [Dots r z; Lines sx (colour colours o k); Lines sy (colour colours o k)], [e; d]. split; [reflexivity|]. split; [|split; [|split]].
      + intros x y. rewrite <- DotOk. split; [|intros H; exists (Dots r z); split; [now left|exact H]]. intros (a & [<-|[<-|[<-|[]]]] & H); [exact H|inversion H|inversion H].
      + intros p q. rewrite <- Steps. split.
        * intros (a & [<-|[<-|[<-|[]]]] & H); [inversion H| |]; inversion H as [|s1 c1 i j x y x' y' E1 E2 E3 E4]; subst.
          -- pose proof (Rsx _ _ _ _ E1) as R1. pose proof (Rsx _ _ _ _ E3) as R2. destruct (Vsx _ _ R1) as (X1 & X2). destruct (Vsx _ _ R2) as (X3 & X4). rewrite X1 in E1. rewrite X2 in E2. rewrite X3 in E3. rewrite X4 in E4.
             injection E1 as <-. injection E2 as <-. injection E3 as <-. injection E4 as <-. exists [i; j], [i; S j]. split; [exact R1|]. split; [exact R2|]. split; [apply next2; now right|]. split; reflexivity.
          -- pose proof (Rsy _ _ _ _ E1) as R1. pose proof (Rsy _ _ _ _ E3) as R2. destruct (Vsy _ _ R1) as (X1 & X2). destruct (Vsy _ _ R2) as (X3 & X4). rewrite X1 in E1. rewrite X2 in E2. rewrite X3 in E3. rewrite X4 in E4.
             injection E1 as <-. injection E2 as <-. injection E3 as <-. injection E4 as <-. exists [j; i], [S j; i]. split; [exact R1|]. split; [exact R2|]. split; [apply next2; now left|]. split; reflexivity.
        * intros (u & v & Ru & Rv & N & -> & ->). inversion Ru as [|i ? u1 ? Hi H1]; subst. inversion H1 as [|j ? u2 ? Hj H2]; subst. inversion H2; subst. apply next2 in N as [-> | ->].
          -- exists (Lines sy (colour colours o k)). split; [right; right; now left|]. destruct (Vsy _ _ Ru) as (X1 & X2). destruct (Vsy _ _ Rv) as (X3 & X4). econstructor; eassumption.
          -- exists (Lines sx (colour colours o k)). split; [right; now left|]. destruct (Vsx _ _ Ru) as (X1 & X2). destruct (Vsx _ _ Rv) as (X3 & X4). econstructor; eassumption.
      + intros x c [<-|[<-|[<-|[]]]] H; [discriminate H|now injection H|now injection H].
      + cbn [List.map]. now rewrite Te, Tg.
  Qed.

  (** Position of a node in the arrays of its dataset. *)
  Definition in_picture (cells idx : list nat) : list nat := match cells, idx with [_; _; _], [i; _; k] => [i; k] | _, _ => idx end.

  Lemma picture_lift cells p : 1 <= length cells <= 3 -> in_range (plane cells) p -> in_picture cells (lift cells p) = p.
  Proof.
    intros L H. destruct cells as [|? [|? [|? [|]]]]; cbn in L; try lia; try (destruct p; reflexivity). cbn [plane] in H.
    inversion H as [|i ? p1 ? Hi H1]; subst. inversion H1 as [|k ? p2 ? Hk H2]; subst. inversion H2; subst. reflexivity.
  Qed.

  Lemma rows_get (a : nda R) n sh i q x : wf a -> shape a = n :: sh -> get a (i :: q) = Some x -> exists row, nth_error (rows a) i = Some row /\ get row q = Some x.
  Proof.
    intros W E H. assert (Hi : i < n). { apply get_Some_in_range in H. rewrite E in H. now inversion H. }
    unfold rows. rewrite E. eexists. split; [rewrite nth_error_map, nth_error_seq0 by exact Hi; reflexivity|]. revert H. unfold get. rewrite E. cbn [ravel shape flat].
    destruct (Nat.ltb_spec i n); [|lia]. destruct (ravel sh q) as [k'|] eqn:Ek; [|discriminate]. cbn [option_map]. intros Hk. rewrite firstn_skipn_nth_error. apply ravel_lt in Ek. destruct (Nat.ltb_spec k' (prod sh)); [exact Hk|lia].
  Qed.

  (** The dataset of the nodes: heights as values, radii as grid. *)
  Theorem C108_dataset o several k f cells b a d : read (replace "*" (show_Z b) file) = Ok f -> node_grid f cells ->
    draw_block read colours o file several k b = Ok (a, d) ->
    exists d' e, d = d' ++ [e] /\ nd_tag e = tag_of_block several "nodes" b /\
      forall idx r z, node cells idx -> place f idx r z ->
        get (nd_values e) (in_picture cells idx) = Some z /\
        exists i q row, in_picture cells idx = i :: q /\ nth_error (nd_grid e) i = Some row /\ get row q = Some r.
  Proof.
    intros Rd NG. pose proof NG as [L Hs _ _]. destruct (load_ok f cells b Rd NG) as (r & z & fr & fz & El & (Wr & Sr & Vr) & (Wz & Sz & Vz) & Hp).
    unfold draw_block. rewrite El. cbn [bind]. destruct (2 <? length (shape r)); [discriminate|].
    assert (Push : forall tag e, push tag (rows r) z = Ok e -> nd_tag e = tag /\ nd_grid e = rows r /\ nd_values e = z).
    { intros tag e H. unfold push in H. destruct (rev (shape z)); [discriminate H|]. apply bind_ok in H as (? & _ & H). apply bind_ok in H as (? & _ & H). injection H as <-. repeat split. }
    assert (Main : forall e, nd_grid e = rows r -> nd_values e = z -> forall idx r z, node cells idx -> place f idx r z ->
        get (nd_values e) (in_picture cells idx) = Some z /\ exists i q row, in_picture cells idx = i :: q /\ nth_error (nd_grid e) i = Some row /\ get row q = Some r).
    { intros e -> -> idx x y Hn Pl. destruct (node_lift cells idx L Hn) as (p & Rp & <-). rewrite picture_lift by assumption. destruct (place_fun _ _ _ _ _ _ (Hp p Rp) Pl) as (<- & <-). split; [now apply Vz|].
      destruct (plane cells) as [|n sh] eqn:Epl; [destruct cells as [|? [|? [|? [|]]]]; cbn in L; try lia; discriminate Epl|]. inversion Rp as [|i ? q ? Hi Hq]; subst. destruct (rows_get r n sh i q (fr (i :: q)) Wr Sr (Vr _ Rp)) as (row & E1 & E2). exists i, q, row. auto. }
    destruct (length cells =? 1).
    - intros H. apply bind_ok in H as (e & He & H). injection H as <- <-. destruct (Push _ _ He) as (T & Eg & Ev). exists [], e. split; [reflexivity|]. split; [exact T|]. now apply Main.
    - intros H. apply bind_ok in H as (sx & _ & H). apply bind_ok in H as (sy & _ & H). apply bind_ok in H as (e0 & _ & H). apply bind_ok in H as (e & He & H). injection H as <- <-. destruct (Push _ _ He) as (T & Eg & Ev). exists [e0], e. split; [reflexivity|]. split; [exact T|]. now apply Main.
  Qed.

  (** ** Extent of all blocks *)

  Definition shown (fcs : list (node_file * list nat)) (r z : R) : Prop := exists f cells idx, In (f, cells) fcs /\ node cells idx /\ place f idx r z.

  Lemma flat_get (a : nda R) x : wf a -> (In x (flat a) <-> exists idx, get a idx = Some x).
  Proof.
    intros W. split.
    - intros H. apply In_nth_error in H as (k & Hk). assert (Lk : k < length (flat a)) by (apply nth_error_Some; now rewrite Hk). rewrite W in Lk. destruct (ravel_surj _ _ Lk) as (idx & Hi). exists idx. unfold get. now rewrite Hi.
    - intros (idx & H). unfold get in H. destruct (ravel (shape a) idx); [|discriminate]. now apply nth_error_In in H.
  Qed.

  Lemma fold_min l : forall x, In (fold_left Rmin l x) (x :: l) /\ forall y, In y (x :: l) -> (fold_left Rmin l x <= y)%R.
  Proof.
    induction l as [|a l IH]; intros x; cbn [fold_left]; [split; [now left|intros y [<-|[]]; lra]|]. destruct (IH (Rmin x a)) as (I1 & I2). split.
    - destruct I1 as [E|H]; [|right; now right]. rewrite <- E. unfold Rmin. destruct (Rle_dec x a); [now left|right; now left].
    - pose proof (I2 _ (or_introl eq_refl)) as H0. pose proof (Rmin_l x a). pose proof (Rmin_r x a). intros y [<-|[<-|Hy]]; [lra|lra|]. apply I2. now right.
  Qed.
  Lemma fold_max l : forall x, In (fold_left Rmax l x) (x :: l) /\ forall y, In y (x :: l) -> (y <= fold_left Rmax l x)%R.
  Proof.
    induction l as [|a l IH]; intros x; cbn [fold_left]; [split; [now left|intros y [<-|[]]; lra]|]. destruct (IH (Rmax x a)) as (I1 & I2). split.
    - destruct I1 as [E|H]; [|right; now right]. rewrite <- E. unfold Rmax. destruct (Rle_dec x a); [right; now left|now left].
    - pose proof (I2 _ (or_introl eq_refl)) as H0. pose proof (Rmax_l x a). pose proof (Rmax_r x a). intros y [<-|[<-|Hy]]; [lra|lra|]. apply I2. now right.
  Qed.
  Lemma amin_ok l : l <> [] -> exists m, amin l = Ok m /\ In m l /\ forall y, In y l -> (m <= y)%R.
  Proof. destruct l as [|x l]; [contradiction|]. intros _. exists (fold_left Rmin l x). split; [reflexivity|]. apply fold_min. Qed.
  Lemma amax_ok l : l <> [] -> exists m, amax l = Ok m /\ In m l /\ forall y, In y l -> (y <= m)%R.
  Proof. destruct l as [|x l]; [contradiction|]. intros _. exists (fold_left Rmax l x). split; [reflexivity|]. apply fold_max. Qed.

  Definition good (b : Z) (fc : node_file * list nat) : Prop := read (replace "*" (show_Z b) file) = Ok (fst fc) /\ node_grid (fst fc) (snd fc).

  Lemma extents_ok bs fcs : Forall2 good bs fcs -> forall e, exists e', extents read file bs e = Ok e' /\
    let '(r0, r1, z0, z1) := e in let '(s0, s1, t0, t1) := e' in
    (s0 = r0 \/ exists z, shown fcs s0 z) /\ (s1 = r1 \/ exists z, shown fcs s1 z) /\ (t0 = z0 \/ exists r, shown fcs r t0) /\ (t1 = z1 \/ exists r, shown fcs r t1) /\
    (s0 <= r0)%R /\ (r1 <= s1)%R /\ (t0 <= z0)%R /\ (z1 <= t1)%R /\
    forall r z, shown fcs r z -> (s0 <= r <= s1 /\ t0 <= z <= t1)%R.
  Proof.
    induction 1 as [|b [f cells] bs fcs (Rd & NG) _ IH]; intros (((r0, r1), z0), z1).
    - exists (r0, r1, z0, z1). split; [reflexivity|]. repeat split; auto; try lra; destruct H as (? & ? & ? & [] & _).
    - cbn [extents]. unfold one_extent. destruct (load_ok f cells b Rd NG) as (r & z & fr & fz & -> & (Wr & Sr & Vr) & (Wz & Sz & Vz) & Hp). cbn [bind]. pose proof NG as [L Hs _ _].
      assert (In_r : forall x, In x (flat r) <-> exists y, shown [(f, cells)] x y).
      { intros x. rewrite (flat_get r x Wr). split.
        - intros (p & E). assert (Rp : in_range (plane cells) p) by (rewrite <- Sr; eapply get_Some_in_range; exact E). rewrite (Vr p Rp) in E. injection E as <-. exists (fz p), f, cells, (lift cells p). split; [now left|]. split; [now apply lift_node|now apply Hp].
        - intros (y & f' & c' & idx & [E|[]] & Hn & Pl). injection E as <- <-. destruct (node_lift cells idx L Hn) as (p & Rp & <-). destruct (place_fun _ _ _ _ _ _ (Hp p Rp) Pl) as (<- & _). exists p. now apply Vr. }
      assert (In_z : forall y, In y (flat z) <-> exists x, shown [(f, cells)] x y).
      { intros y. rewrite (flat_get z y Wz). split.
        - intros (p & E). assert (Rp : in_range (plane cells) p) by (rewrite <- Sz; eapply get_Some_in_range; exact E). rewrite (Vz p Rp) in E. injection E as <-. exists (fr p), f, cells, (lift cells p). split; [now left|]. split; [now apply lift_node|now apply Hp].
        - intros (x & f' & c' & idx & [E|[]] & Hn & Pl). injection E as <- <-. destruct (node_lift cells idx L Hn) as (p & Rp & <-). destruct (place_fun _ _ _ _ _ _ (Hp p Rp) Pl) as (_ & <-). exists p. now apply Vz. }
      assert (NE : prod (plane cells) <> 0). { destruct cells as [|? [|? [|? [|]]]]; cbn in L; try lia; pose proof (Forall_inv Hs) as H1; cbv beta in H1; unfold prod; cbn; try (pose proof (Forall_inv (Forall_inv_tail Hs)) as H2; cbv beta in H2); try (pose proof (Forall_inv (Forall_inv_tail (Forall_inv_tail Hs))) as H3; cbv beta in H3); nia. }
      assert (Nr : flat r <> []) by (intros E0; unfold wf in Wr; rewrite E0, Sr in Wr; cbn in Wr; lia). assert (Nz : flat z <> []) by (intros E0; unfold wf in Wz; rewrite E0, Sz in Wz; cbn in Wz; lia).
      destruct (amin_ok _ Nr) as (rl & -> & Irl & Mrl). cbn [bind]. destruct (amax_ok _ Nr) as (ru & -> & Iru & Mru). cbn [bind]. destruct (amin_ok _ Nz) as (zl & -> & Izl & Mzl). cbn [bind]. destruct (amax_ok _ Nz) as (zu & -> & Izu & Mzu). cbn [bind].
      destruct (IH (Rmin r0 rl, Rmax r1 ru, Rmin z0 zl, Rmax z1 zu)) as ((((s0, s1), t0), t1) & -> & A0 & A1 & A2 & A3 & B0 & B1 & B2 & B3 & C). exists (s0, s1, t0, t1). split; [reflexivity|].
      assert (Left : forall x y, shown [(f, cells)] x y -> shown ((f, cells) :: fcs) x y) by (intros x y (f' & c' & idx & [E|[]] & H); exists f', c', idx; split; [left; exact E|exact H]).
      assert (Right : forall x y, shown fcs x y -> shown ((f, cells) :: fcs) x y) by (intros x y (f' & c' & idx & E & H); exists f', c', idx; split; [right; exact E|exact H]).
      pose proof (Rmin_l r0 rl). pose proof (Rmin_r r0 rl). pose proof (Rmax_l r1 ru). pose proof (Rmax_r r1 ru). pose proof (Rmin_l z0 zl). pose proof (Rmin_r z0 zl). pose proof (Rmax_l z1 zu). pose proof (Rmax_r z1 zu).
      split; [|split; [|split; [|split]]].
      + destruct A0 as [-> |(y & Hy)]; [|right; exists y; now apply Right]. unfold Rmin. destruct (Rle_dec r0 rl); [now left|]. right. apply In_r in Irl as (y & Hy). exists y. now apply Left.
      + destruct A1 as [-> |(y & Hy)]; [|right; exists y; now apply Right]. unfold Rmax. destruct (Rle_dec r1 ru); [|now left]. right. apply In_r in Iru as (y & Hy). exists y. now apply Left.
      + destruct A2 as [-> |(y & Hy)]; [|right; exists y; now apply Right]. unfold Rmin. destruct (Rle_dec z0 zl); [now left|]. right. apply In_z in Izl as (y & Hy). exists y. now apply Left.
      + destruct A3 as [-> |(y & Hy)]; [|right; exists y; now apply Right]. unfold Rmax. destruct (Rle_dec z1 zu); [|now left]. right. apply In_z in Izu as (y & Hy). exists y. now apply Left.
      + split; [lra|]. split; [lra|]. split; [lra|]. split; [lra|]. intros x y (f' & c' & idx & [E|Hi] & H').
        * assert (Sh : shown [(f, cells)] x y) by (exists f', c', idx; split; [left; exact E|exact H']). pose proof (Mrl x (proj2 (In_r x) (ex_intro _ y Sh))). pose proof (Mru x (proj2 (In_r x) (ex_intro _ y Sh))). pose proof (Mzl y (proj2 (In_z y) (ex_intro _ x Sh))). pose proof (Mzu y (proj2 (In_z y) (ex_intro _ x Sh))). lra.
        * apply C. exists f', c', idx. auto.
  Qed.

  (** The extent used for the figure: the smallest and largest radius and height of all
      nodes, for places within 1e9. *)
  Theorem C108_extent bs fcs : Forall2 good bs fcs -> bs <> [] ->
    (forall r z, shown fcs r z -> (Rabs r <= 1000000000 /\ Rabs z <= 1000000000)%R) ->
    exists r0 r1 z0 z1, extents read file bs no_extent = Ok (r0, r1, z0, z1) /\
      (exists z, shown fcs r0 z) /\ (exists z, shown fcs r1 z) /\ (exists r, shown fcs r z0) /\ (exists r, shown fcs r z1) /\
      forall r z, shown fcs r z -> (r0 <= r <= r1 /\ z0 <= z <= z1)%R.
  Proof.
    intros H Nb Hb. destruct (extents_ok bs fcs H no_extent) as ((((s0, s1), t0), t1) & E & A0 & A1 & A2 & A3 & B0 & B1 & B2 & B3 & C). exists s0, s1, t0, t1. split; [exact E|].
    assert (Some1 : exists r z, shown fcs r z).
    { destruct H as [|b [f cells] bs fcs (Rd & NG) _]; [now elim Nb|]. destruct (load_ok f cells b Rd NG) as (r & z & fr & fz & _ & _ & _ & Hp). pose proof NG as [L Hs _ _]. cbn [snd] in *.
      exists (fr (repeat 0 (length (plane cells)))), (fz (repeat 0 (length (plane cells)))), f, cells, (lift cells (repeat 0 (length (plane cells)))).
      assert (Rp : in_range (plane cells) (repeat 0 (length (plane cells)))). { assert (P2 : Forall (fun n => 2 <= n) (plane cells)). { destruct cells as [|? [|? [|? [|]]]]; cbn in L; try lia; try exact Hs. cbn [plane]. constructor; [exact (Forall_inv Hs)|exact (Forall_inv_tail (Forall_inv_tail Hs))]. } unfold in_range. clear -P2. induction P2; cbn; constructor; [lia|assumption]. }
      split; [now left|]. split; [now apply lift_node|now apply Hp]. }
    destruct Some1 as (x & y & Hxy). pose proof (Hb x y Hxy) as (Hx & Hy). pose proof (C x y Hxy) as (Cx & Cy). assert (Bt : forall u, (Rabs u <= 1000000000 -> -1000000000 <= u <= 1000000000)%R) by (intros u Hu; unfold Rabs in Hu; destruct (Rcase_abs u); lra). apply Bt in Hx, Hy. clear Bt Hb.
    split; [|split; [|split; [|split; [|exact C]]]]; clear C.
    - destruct A0 as [-> |A]; [|exact A]. exists y. replace 1000000000%R with x by lra. exact Hxy.
    - destruct A1 as [-> |A]; [|exact A]. exists y. replace (-1000000000)%R with x by lra. exact Hxy.
    - destruct A2 as [-> |A]; [|exact A]. exists x. replace 1000000000%R with y by lra. exact Hxy.
    - destruct A3 as [-> |A]; [|exact A]. exists x. replace (-1000000000)%R with y by lra. exact Hxy.
  Qed.
End Blocks.
