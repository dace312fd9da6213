(** * Properties of the ADIOS reader: partial loads of frames (C72) and ghost
    cells (C73). *)
From Coq Require Import String Ascii List ZArith NArith QArith Qfield Bool Lia Lqa Sorted.
From Verif Require Import Prelude PreludeFacts NdArray GData_Model Select_Model Select_Spec Select_Proofs Readers_Model.
Import ListNotations.
Open Scope list_scope.

(** ** Specification *)

(** Node [i] of a grid of [n] equal cells between [lo] and [up]. *)
Definition node_at (x : dim) (i : nat) (y : Q) : Prop :=
  y == d_lo x + inject_Z (Z.of_nat i) * ((d_up x - d_lo x) / inject_Z (Z.of_nat (d_n x))).

(** The argument [z] asks for the cells [a .. b-1] out of [n] with edges [g]. *)
Inductive block_cut (pfloat : string -> option Q) (g : list Q) (n : nat) : option ival -> nat -> nat -> Prop :=
| bc_none : block_cut pfloat g n None 0 n
| bc_int k : (k < n)%nat -> block_cut pfloat g n (Some (VInt (Z.of_nat k))) k (S k)
| bc_digits k : (k < n)%nat -> block_cut pfloat g n (Some (VStr (show_N (N.of_nat k)))) k (S k)
| bc_range a b : (a <= b <= n)%nat ->
    block_cut pfloat g n (Some (VStr (show_N (N.of_nat a) ++ ":" ++ show_N (N.of_nat b))%string)) a b
| bc_upto b : (b <= n)%nat ->
    block_cut pfloat g n (Some (VStr (":" ++ show_N (N.of_nat b))%string)) 0 b
| bc_coord x i : cell_contains g x i -> block_cut pfloat g n (Some (VFloat x)) i (S i)
| bc_coord_str s x i : cell_contains g x i ->
    is_digits s = false -> has_char "," s = false -> has_char ":" s = false -> pfloat s = Some x ->
    block_cut pfloat g n (Some (VStr s)) i (S i).

(** The argument [comp] asks for the components [a .. b-1] out of [nc]. *)
Inductive comp_cut (nc : nat) : option ival -> nat -> nat -> Prop :=
| cc_none : comp_cut nc None 0 nc
| cc_int k : (k < nc)%nat -> comp_cut nc (Some (VInt (Z.of_nat k))) k (S k)
| cc_digits k : (k < nc)%nat -> comp_cut nc (Some (VStr (show_N (N.of_nat k)))) k (S k)
| cc_range a b : (a <= b <= nc)%nat ->
    comp_cut nc (Some (VStr (show_N (N.of_nat a) ++ ":" ++ show_N (N.of_nat b))%string)) a b
| cc_upto b : (b <= nc)%nat -> comp_cut nc (Some (VStr (":" ++ show_N (N.of_nat b))%string)) 0 b.

(** A frame: attributes [dims] and the variable [var] holding [v]. *)
Record frame_file {A} (dims : list dim) (vars : list (string * nda A)) (var : string) (v : nda A) (nc : nat) : Prop := {
  ff_var : lookup var vars = Some v;
  ff_wf : wf v;
  ff_shape : shape v = List.map d_n dims ++ [nc];
  ff_dims : Forall (fun x => d_lo x < d_up x /\ (0 < d_n x)%nat) dims
}.

Definition cuts_ok (pfloat : string -> option Q) (dims : list dim) (zs : list (option ival)) (cuts : list (nat * nat)) : Prop :=
  length cuts = length dims /\
  forall k x a b, nth_error dims k = Some x -> nth_error cuts k = Some (a, b) ->
    block_cut pfloat (dnodes x) (d_n x) (nth k zs None) a b.

(** ** Nodes *)
Lemma dnodes_length x : length (dnodes x) = S (d_n x).
Proof. unfold dnodes. now rewrite map_length, seq_length. Qed.

Lemma dnodes_nth x i : (i <= d_n x)%nat ->
  nth_error (dnodes x) i = Some (d_lo x + inject_Z (Z.of_nat i) * dwidth x).
Proof.
  intros H. unfold dnodes. rewrite nth_error_map, nth_error_seq.
  destruct (Nat.ltb_spec i (S (d_n x))); [reflexivity|lia].
Qed.

Lemma dwidth_pos x : d_lo x < d_up x -> (0 < d_n x)%nat -> 0 < dwidth x.
Proof.
  intros H Hn. unfold dwidth, Qdiv. apply Qmult_lt_0_compat; [lra|].
  apply Qinv_lt_0_compat. change 0 with (inject_Z 0). rewrite <- Zlt_Qlt. lia.
Qed.

Lemma dnodes_increasing x : d_lo x < d_up x -> (0 < d_n x)%nat -> increasing (dnodes x).
Proof.
  intros H Hn. pose proof (dwidth_pos x H Hn) as Hw. unfold increasing, dnodes.
  assert (G : forall s m, StronglySorted Qlt (List.map (fun k => d_lo x + inject_Z (Z.of_nat k) * dwidth x) (seq s m))).
  { intros s m; revert s. induction m as [|m IH]; intros s; simpl; constructor; auto.
    rewrite Forall_forall. intros q Hq. apply in_map_iff in Hq as (j & <- & Hj). apply in_seq in Hj.
    apply Qplus_lt_r. apply Qmult_lt_compat_r; auto. rewrite <- Zlt_Qlt. lia. }
  apply G.
Qed.

Lemma gline_line l : gline l = line l.
Proof. reflexivity. Qed.

(** ** The loop over the axes *)
Section Loop.
  Variable pfloat : string -> option Q.

  Lemma ok_pair (a b c d : Z) : a = c -> b = d -> Ok (a, b) = Ok (c, d).
  Proof. intros -> ->. reflexivity. Qed.

  Definition rng (ab : nat * nat) : Z * Z := (Z.of_nat (fst ab), Z.of_nat (snd ab - fst ab)).

  Lemma block_cut_le x z a b :
    d_lo x < d_up x -> (0 < d_n x)%nat -> block_cut pfloat (dnodes x) (d_n x) z a b -> (a <= b <= d_n x)%nat.
  Proof.
    intros Hb Hn Hc. assert (E : edges_of (d_n x) (dnodes x)) by apply dnodes_length.
    inversion Hc; subst; try lia;
      match goal with H : cell_contains _ _ _ |- _ => pose proof (cell_contains_lt _ _ _ _ E Hn H); lia end.
  Qed.

  Lemma cut_range_block x z a b :
    d_lo x < d_up x -> (0 < d_n x)%nat ->
    block_cut pfloat (dnodes x) (d_n x) (Some z) a b ->
    cut_range pfloat z (Some (gline (dnodes x))) = Ok (rng (a, b)).
  Proof.
    intros Hb Hn Hc. pose proof (block_cut_le x _ a b Hb Hn Hc) as Hle.
    assert (E : edges_of (d_n x) (dnodes x)) by apply dnodes_length.
    pose proof (dnodes_increasing x Hb Hn) as Hi.
    unfold cut_range, rng. cbn [fst snd]. inversion Hc; subst.
    - cbn [idx_parser bind]. apply ok_pair; lia.
    - rewrite parse_digits. cbn [bind]. apply ok_pair; lia.
    - match goal with |- context [idx_parser pfloat ?s ?g ?f] =>
        replace (idx_parser pfloat s g f) with (Ok (ISlice (Z.of_nat a) (Z.of_nat b)))
          by (symmetry; etransitivity; [apply parse_range|rewrite !nat_N_Z; reflexivity]) end; cbn [bind]; apply ok_pair; lia.
    - match goal with |- context [idx_parser pfloat ?s ?g ?f] =>
        replace (idx_parser pfloat s g f) with (Ok (ISlice (Z.of_nat 0) (Z.of_nat b)))
          by (symmetry; etransitivity; [apply parse_upto|rewrite !nat_N_Z; reflexivity]) end; cbn [bind]; apply ok_pair; lia.
    - unfold idx_parser, find_index. rewrite gline_line.
      rewrite (find_nearest_contains (d_n x) _ x0 a) by auto. cbn [bind]. apply ok_pair; lia.
    - rewrite parse_plain by auto. unfold string_to_index.
      match goal with H : is_digits _ = false |- _ => rewrite H end.
      match goal with H : pfloat _ = Some _ |- _ => rewrite H end. unfold find_index. rewrite gline_line.
      rewrite (find_nearest_contains (d_n x) _ x0 a) by auto. cbn [bind]. apply ok_pair; lia.
  Qed.

  Lemma cut_range_comp nc z a b :
    comp_cut nc (Some z) a b -> cut_range pfloat z None = Ok (rng (a, b)) /\ (a <= b <= nc)%nat.
  Proof.
    intros Hc. unfold cut_range, rng. cbn [fst snd]. inversion Hc; subst.
    - split; [cbn [idx_parser bind]; apply ok_pair; lia|lia].
    - rewrite parse_digits. cbn [bind]. split; [apply ok_pair; lia|lia].
    - match goal with |- context [idx_parser pfloat ?s ?g ?f] =>
        replace (idx_parser pfloat s g f) with (Ok (ISlice (Z.of_nat a) (Z.of_nat b)))
          by (symmetry; etransitivity; [apply parse_range|rewrite !nat_N_Z; reflexivity]) end; cbn [bind]; split; [apply ok_pair; lia|lia].
    - match goal with |- context [idx_parser pfloat ?s ?g ?f] =>
        replace (idx_parser pfloat s g f) with (Ok (ISlice (Z.of_nat 0) (Z.of_nat b)))
          by (symmetry; etransitivity; [apply parse_upto|rewrite !nat_N_Z; reflexivity]) end; cbn [bind]; split; [apply ok_pair; lia|lia].
  Qed.

  Lemma hd_nth {B} (l : list B) e : hd e l = nth 0 l e.
  Proof. now destruct l. Qed.
  Lemma nth_tl {B} (l : list B) k e : nth k (tl l) e = nth (S k) l e.
  Proof. destruct l; simpl; auto. now destruct k. Qed.

  Lemma axis_ranges_ok gs dims : forall d zs cuts,
    (forall k x, nth_error dims k = Some x -> nth_error gs (d + k) = Some (gline (dnodes x))) ->
    Forall (fun x => d_lo x < d_up x /\ (0 < d_n x)%nat) dims ->
    cuts_ok pfloat dims zs cuts ->
    axis_ranges pfloat d (List.map d_n dims) zs (Some gs) = Ok (List.map rng cuts).
  Proof.
    induction dims as [|x dims IH]; intros d zs cuts Hg Hp [Hl Hc]; destruct cuts as [|[a b] cuts]; try discriminate.
    - reflexivity.
    - inversion Hp as [|? ? [P1 P2] P3]; subst. cbn [List.map axis_ranges].
      pose proof (Hc 0%nat x a b eq_refl eq_refl) as H0. rewrite hd_nth.
      rewrite (IH (S d) (tl zs) cuts).
      + destruct (nth 0 zs None) as [z|] eqn:Ez.
        * pose proof (Hg 0%nat x eq_refl) as Hg0. rewrite Nat.add_0_r in Hg0.
          unfold nth_res. rewrite Hg0. cbn [bind]. rewrite (cut_range_block x z a b) by auto. reflexivity.
        * inversion H0; subst. cbn [bind]. unfold rng at 2. cbn [fst snd]. rewrite Nat.sub_0_r. reflexivity.
      + intros k y Hk. rewrite Nat.add_succ_comm. now apply Hg.
      + auto.
      + split; [simpl in Hl; lia|]. intros k y a' b' Hx Hk. rewrite nth_tl. exact (Hc (S k) y a' b' Hx Hk).
  Qed.
End Loop.

Lemma cuts_ok_bounds pfloat dims zs cuts :
  Forall (fun x => d_lo x < d_up x /\ (0 < d_n x)%nat) dims -> cuts_ok pfloat dims zs cuts ->
  Forall2 (fun ab n => (fst ab <= snd ab <= n)%nat) cuts (List.map d_n dims).
Proof.
  intros Hp [Hl Hc]. apply Forall2_nth_error_intro; [now rewrite map_length|].
  intros k [a b] n Hab Hn. rewrite nth_error_map in Hn.
  destruct (nth_error dims k) as [x|] eqn:Ex; [|discriminate]. injection Hn as <-.
  rewrite Forall_forall in Hp. destruct (Hp x) as [P1 P2]; [eapply nth_error_In; eauto|].
  eapply block_cut_le; eauto.
Qed.

Lemma read_block_ok {A} (v : nda A) (cs : list (nat * nat)) :
  Forall2 (fun ab n => (fst ab <= snd ab <= n)%nat) cs (shape v) ->
  read_block v (Some (List.map rng cs)) = Ok (take (sel_of cs) v).
Proof.
  intros H. unfold read_block. rewrite map_length, (Forall2_length _ _ _ H), Nat.eqb_refl. cbn [negb].
  replace (existsb (fun r => (fst r <? 0) || (snd r <? 0))%Z (List.map rng cs)) with false.
  2: { symmetry. rewrite <- not_true_iff_false. intros E. apply existsb_exists in E as (r & Hr & E).
       apply in_map_iff in Hr as ([a b] & <- & _). unfold rng in E. cbn in E.
       apply orb_true_iff in E as [E|E]; apply Z.ltb_lt in E; lia. }
  replace (forallb (fun rn => (fst (fst rn) + snd (fst rn) <=? Z.of_nat (snd rn))%Z) (combine (List.map rng cs) (shape v))) with true.
  2: { symmetry. induction H as [|[a b] n cs sh Hab H IH]; [reflexivity|]. cbn [List.map combine forallb].
       rewrite IH, andb_true_r. unfold rng. cbn in *. apply Z.leb_le. lia. }
  unfold sel_of. rewrite map_map. f_equal. f_equal. apply map_ext. intros [a b]. unfold rng. cbn [fst snd].
  now rewrite !Nat2Z.id.
Qed.

Lemma ghost_dims_same partial dims sh rest :
  List.map d_n dims = sh -> ghost_dims partial dims (sh ++ rest) = Ok dims.
Proof.
  intros <-. induction dims as [|x dims IH]; [reflexivity|]. cbn [List.map app ghost_dims].
  rewrite Nat.eqb_refl, andb_false_r. cbn [bind]. rewrite IH. unfold ghost_dim. now rewrite Nat.eqb_refl.
Qed.

Lemma map2_app_r {X Y Z0} (f : X -> Y -> Z0) (l : list X) (m r : list Y) :
  length l = length m -> map2 f l (m ++ r) = map2 f l m.
Proof. revert m; induction l; intros [|y m] H; try discriminate; simpl; [now destruct r|]. f_equal. apply IHl. simpl in H; lia. Qed.

Lemma shift_n (dims : list dim) (cuts : list (nat * nat)) :
  length cuts = length dims ->
  List.map d_n (map2 shift_dim dims (List.map rng cuts)) = List.map (fun ab => snd ab - fst ab)%nat cuts.
Proof.
  revert cuts; induction dims as [|x dims IH]; intros [|[a b] cuts] H; try discriminate; [reflexivity|].
  simpl. f_equal; [lia|]. apply IH. simpl in H; lia.
Qed.

Lemma any_cut_none nd zs comp k :
  any_cut nd zs comp = false -> (k < nd)%nat -> nth k zs None = None.
Proof.
  intros H Hk. unfold any_cut in H. apply orb_false_iff in H as [H _].
  destruct (nth k zs None) as [z|] eqn:E; [|reflexivity].
  assert (existsb (fun z => match z with Some _ => true | None => false end) (firstn nd zs) = true); [|congruence].
  apply existsb_exists. exists (Some z). split; [|reflexivity].
  destruct (Nat.lt_ge_cases k (length zs)) as [L|L]; [|rewrite nth_overflow in E by lia; discriminate].
  rewrite <- E. replace (nth k zs None) with (nth k (firstn nd zs) None).
  - apply nth_In. rewrite firstn_length. lia.
  - rewrite <- (firstn_skipn nd zs) at 2. rewrite app_nth1; [reflexivity|]. rewrite firstn_length. lia.
Qed.

Lemma whole_of pfloat dims zs cuts comp :
  cuts_ok pfloat dims zs cuts -> any_cut (length dims) zs comp = false ->
  cuts = whole (List.map d_n dims).
Proof.
  intros [Hl Hc] Ha. apply nth_error_ext. intros k. unfold whole. rewrite map_map, nth_error_map.
  destruct (nth_error dims k) as [x|] eqn:Ex.
  - assert (k < length dims)%nat by (apply nth_error_Some; congruence).
    destruct (nth_error cuts k) as [[a b]|] eqn:Ek; [|apply nth_error_None in Ek; lia].
    pose proof (Hc k x a b Ex Ek) as H0. rewrite (any_cut_none _ _ _ k Ha) in H0 by auto.
    inversion H0; subst. reflexivity.
  - apply nth_error_None in Ex. apply nth_error_None. lia.
Qed.

(** Everything a load with these cuts produces. *)
Lemma load_frame_lemma pfloat {A} dims vars var (v : nda A) nc zs comp cuts c0 c1 :
  frame_file dims vars var v nc -> cuts_ok pfloat dims zs cuts -> comp_cut nc comp c0 c1 ->
  (c0 <= c1 <= nc)%nat /\
  load_frame pfloat dims vars var zs comp =
    let partial := any_cut (length dims) zs comp in
    let out := if partial then map2 shift_dim dims (List.map rng cuts) else dims in
    Ok (mk_gdata (Some (List.map (fun x => gline (dnodes x)) out))
          (Some (take (sel_of cuts ++ [seq c0 (c1 - c0)]) v))
          (Some (List.map d_n dims)) (Some (c1 - c0)%nat) (Some (List.map d_lo dims)) (Some (List.map d_up dims))).
Proof.
  intros [Fv Fw Fs Fd] Hc Hk.
  pose proof (cuts_ok_bounds _ _ _ _ Fd Hc) as Hb.
  assert (Hk' : (c0 <= c1 <= nc)%nat /\
     match comp with None => Ok (0%Z, Z.of_nat nc) | Some c => cut_range pfloat c None end = Ok (rng (c0, c1))).
  { destruct comp as [c|].
    - destruct (cut_range_comp pfloat nc c c0 c1 Hk) as [E L]. split; [lia|exact E].
    - inversion Hk; subst. split; [lia|]. unfold rng. cbn [fst snd]. now rewrite Nat.sub_0_r. }
  destruct Hk' as [Hle Hcr]. split; [exact Hle|].
  unfold load_frame. rewrite Fv. unfold offset_count. rewrite Fs, rev_app_distr. cbn [rev app].
  rewrite removelast_last.
  rewrite (axis_ranges_ok pfloat _ dims 0 zs cuts); [|intros k x E; rewrite nth_error_map; simpl; now rewrite E|exact Fd|exact Hc].
  cbn [bind]. rewrite Hcr. cbn [bind].
  replace (length (List.map d_n dims ++ [nc]) - 1)%nat with (length dims) by (rewrite app_length, map_length; simpl; lia).
  destruct Hc as [Hl Hc']. destruct (any_cut (length dims) zs comp) eqn:Ea.
  - change [rng (c0, c1)] with (List.map rng [(c0, c1)]). rewrite <- map_app.
    rewrite (read_block_ok v).
    2: { rewrite Fs. apply Forall2_app; [exact Hb|]. constructor; [cbn; lia|constructor]. }
    cbn [bind]. unfold shift_dims. rewrite map_length, app_length. cbn [length].
    destruct (Nat.ltb_spec (length cuts + 1) (length dims)); [lia|]. cbn [bind].
    rewrite map_app, map2_app_r by (now rewrite map_length).
    replace (sel_of (cuts ++ [(c0, c1)])) with (sel_of cuts ++ [seq c0 (c1 - c0)]) by (unfold sel_of; now rewrite map_app).
    unfold take at 1. cbn [shape]. rewrite map_app, sel_of_lengths. cbn [List.map].
    rewrite ghost_dims_same by (now apply shift_n). cbn [bind].
    replace (last (shape (take (sel_of cuts ++ [seq c0 (c1 - c0)]) v)) 0%nat) with (c1 - c0)%nat; [reflexivity|].
    unfold take. cbn [shape]. rewrite map_app. cbn [List.map]. now rewrite last_last, seq_length.
  - cbn [read_block bind shift_dims]. rewrite Fs, ghost_dims_same by reflexivity. cbn [bind].
    assert (Ec : cuts = whole (List.map d_n dims)) by (eapply whole_of; [split; eauto|eauto]).
    assert (En : comp = None) by (unfold any_cut in Ea; apply orb_false_iff in Ea as [_ Ea]; now destruct comp).
    subst comp. inversion Hk; subst c0 c1. rewrite Nat.sub_0_r, Ec, take_whole, last_last by auto. reflexivity.
Qed.

Lemma shift_nodes x a b i :
  (0 < d_n x)%nat -> (a <= b <= d_n x)%nat -> (i <= b - a)%nat ->
  exists y, nth_error (dnodes (shift_dim x (rng (a, b)))) i = Some y /\ node_at x (a + i) y.
Proof.
  intros Hn Hab Hi. rewrite dnodes_nth by (unfold shift_dim, rng; cbn [d_n fst snd]; lia).
  eexists. split; [reflexivity|]. unfold node_at, shift_dim, rng. cbn [fst snd d_lo].
  fold (dwidth x).
  assert (E : inject_Z (Z.of_nat i) * dwidth (shift_dim x (rng (a, b))) == inject_Z (Z.of_nat i) * dwidth x).
  { destruct (Nat.eq_dec a b) as [->|N].
    - replace i with 0%nat by lia. simpl. ring.
    - apply Qmult_comp; [reflexivity|]. unfold dwidth at 1, shift_dim, rng. cbn [fst snd d_lo d_up d_n].
      rewrite Nat2Z.id. field. intros H. unfold Qeq in H. cbn in H. lia. }
  unfold shift_dim, rng in E. cbn [fst snd] in E. rewrite E, Nat2Z.inj_add, inject_Z_plus. ring.
Qed.

(** C72: loading part of a frame gives the requested block of the stored array,
    and as grid the nodes of the full grid that bound the loaded cells. *)
Theorem C72_partial_frame : forall pfloat A dims vars var (v : nda A) nc zs comp cuts c0 c1,
  frame_file dims vars var v nc -> cuts_ok pfloat dims zs cuts -> comp_cut nc comp c0 c1 ->
  exists out grid data,
    load_frame pfloat dims vars var zs comp = Ok out /\
    g_vals out = Some data /\ wf data /\
    shape data = List.map (fun ab => snd ab - fst ab)%nat cuts ++ [(c1 - c0)%nat] /\
    (forall idx c, in_range (List.map (fun ab => snd ab - fst ab)%nat cuts) idx -> (c < c1 - c0)%nat ->
       get data (idx ++ [c]) = get v (map2 Nat.add (List.map fst cuts) idx ++ [(c0 + c)%nat])) /\
    g_grid out = Some (List.map line grid) /\ length grid = length dims /\
    (forall k x a b, nth_error dims k = Some x -> nth_error cuts k = Some (a, b) ->
       exists g, nth_error grid k = Some g /\ length g = S (b - a) /\
         forall i, (i <= b - a)%nat -> exists y, nth_error g i = Some y /\ node_at x (a + i) y).
Proof.
  intros pfloat A dims vars var v nc zs comp cuts c0 c1 F Hc Hk.
  destruct (load_frame_lemma pfloat dims vars var v nc zs comp cuts c0 c1 F Hc Hk) as [Hle E].
  pose proof (cuts_ok_bounds _ _ _ _ (ff_dims _ _ _ _ _ F) Hc) as Hb.
  cbv zeta in E. do 3 eexists. split; [exact E|]. cbn [g_vals g_grid].
  split; [reflexivity|].
  assert (Hlt : forall k, In k (seq c0 (c1 - c0)) -> (k < nc)%nat) by (intros k Hi; apply in_seq in Hi; lia).
  split; [|split; [|split; [|split; [|split]]]].
  - apply wf_take; [apply (ff_wf _ _ _ _ _ F)|].
    rewrite (ff_shape _ _ _ _ _ F). apply sel_of_bounds; auto.
  - unfold take. cbn [shape]. rewrite map_app, sel_of_lengths. cbn [List.map]. now rewrite seq_length.
  - intros idx c Hi Hcc. eapply take_block_get; eauto; [apply (ff_wf _ _ _ _ _ F)|apply (ff_shape _ _ _ _ _ F)|].
    rewrite nth_error_seq. destruct (Nat.ltb_spec c (c1 - c0)); [reflexivity|lia].
  - f_equal. symmetry. apply (map_map dnodes line).
  - rewrite map_length. destruct Hc as [Hl _]. destruct (any_cut (length dims) zs comp); [|reflexivity].
    clear -Hl. revert cuts Hl; induction dims; intros [|? cuts] Hl; try discriminate; simpl in *; auto.
  - intros k x a b Hx Hab. rewrite nth_error_map.
    destruct (ff_dims _ _ _ _ _ F) as []; [now destruct k|].
    pose proof (ff_dims _ _ _ _ _ F) as Fd. rewrite Forall_forall in Fd.
    destruct (Fd x) as [P1 P2]; [eapply nth_error_In; eauto|].
    assert (Lab : (a <= b <= d_n x)%nat) by (eapply block_cut_le; eauto; destruct Hc as [_ Hc]; eapply Hc; eauto).
    destruct (any_cut (length (x0 :: l)) zs comp) eqn:Ea.
    + assert (En : nth_error (map2 shift_dim (x0 :: l) (List.map rng cuts)) k = Some (shift_dim x (rng (a, b)))).
      { clear -Hx Hab. revert Hx Hab. generalize (x0 :: l) as dims. intros dims. revert k cuts.
        induction dims as [|y dims IH]; intros [|k] [|c cuts]; simpl; try discriminate.
        - now intros [= ->] [= ->].
        - apply IH. }
      rewrite En. cbn [option_map]. eexists. split; [reflexivity|]. split.
      * rewrite dnodes_length. unfold shift_dim, rng. cbn [d_n fst snd]. now rewrite Nat2Z.id.
      * intros i Hi. now apply shift_nodes.
    + rewrite Hx. cbn [option_map]. eexists. split; [reflexivity|].
      pose proof (whole_of _ _ _ _ _ Hc Ea) as ->. unfold whole in Hab. rewrite map_map, nth_error_map, Hx in Hab.
      injection Hab as <- <-. rewrite Nat.sub_0_r. split; [apply dnodes_length|].
      intros i Hi. rewrite dnodes_nth by lia. eexists. split; [reflexivity|]. unfold node_at. reflexivity.
Qed.
Print Assumptions C72_partial_frame.

(** Whatever part is loaded, the dataset reports the cells and the bounds of the
    whole frame. *)
Theorem C72_reported_cells : forall pfloat A dims vars var (v : nda A) nc zs comp cuts c0 c1,
  frame_file dims vars var v nc -> cuts_ok pfloat dims zs cuts -> comp_cut nc comp c0 c1 ->
  exists out, load_frame pfloat dims vars var zs comp = Ok out /\
    get_num_cells out = Some (List.map d_n dims) /\
    get_bounds out = Ok (Some (List.map d_lo dims, List.map d_up dims)) /\
    get_num_comps out = Ok (c1 - c0)%nat.
Proof.
  intros pfloat A dims vars var v nc zs comp cuts c0 c1 F Hc Hk.
  destruct (load_frame_lemma pfloat dims vars var v nc zs comp cuts c0 c1 F Hc Hk) as [_ E]. cbv zeta in E.
  eexists. split; [exact E|]. split; [reflexivity|]. split; [reflexivity|].
  unfold get_num_comps. cbn [c_ncomps g_vals]. destruct (c1 - c0)%nat eqn:Ec; [|reflexivity].
  unfold shape_last, take. cbn [shape]. rewrite map_app, rev_app_distr. reflexivity.
Qed.
Print Assumptions C72_reported_cells.

(** So the reported cells and bounds are those of the loaded part only if
    everything was loaded. *)
Definition ex_dims : list dim := [mk_dim 0 4 4; mk_dim 1 4 3].
Definition ex_v : nda nat := mk_nda [4; 3; 2]%nat (seq 0 24).
Definition ex_vars : list (string * nda nat) := [("time", mk_nda [1]%nat [5]%nat); ("CartGridField", ex_v)]%string.
Lemma ex_frame : frame_file ex_dims ex_vars "CartGridField" ex_v 2.
Proof. constructor; try reflexivity. repeat constructor; reflexivity. Qed.

Theorem C72_reported_cells_refuted :
  exists dims vars var (v : nda nat) nc zs out data,
    frame_file dims vars var v nc /\
    load_frame (fun _ => None) dims vars var zs None = Ok out /\
    g_vals out = Some data /\ shape data = [1; 3; 2]%nat /\
    get_num_cells out = Some [4; 3]%nat /\ get_bounds out = Ok (Some ([0; 1], [4; 4])).
Proof.
  exists ex_dims, ex_vars, "CartGridField"%string, ex_v, 2%nat, [Some (VInt 2)].
  eexists. eexists. split; [apply ex_frame|]. split; [vm_compute; reflexivity|]. repeat split.
Qed.
Print Assumptions C72_reported_cells_refuted.

Example C72_ex : exists out data,
  cuts_ok (fun s => if String.eqb s "2.5" then Some (5#2) else None) ex_dims [Some (VStr "2.5"); Some (VStr "1:3")] [(2, 3); (1, 3)]%nat /\
  load_frame (fun s => if String.eqb s "2.5" then Some (5#2) else None) ex_dims ex_vars "CartGridField"
    [Some (VStr "2.5"); Some (VStr "1:3")] (Some (VInt 1)) = Ok out /\
  g_vals out = Some data /\ shape data = [1; 2; 1]%nat /\ flat data = [15; 17]%nat.
Proof.
  eexists. eexists. split; [|split; [vm_compute; reflexivity|]].
  - split; [reflexivity|]. intros [|[|k]] x a b Hx Hab; try (now destruct k); cbn in *.
    + injection Hx as <-. injection Hab as <- <-. eapply bc_coord_str; try reflexivity.
      eapply cc_inside; [vm_compute; reflexivity|vm_compute; reflexivity|vm_compute; reflexivity|vm_compute; discriminate].
    + injection Hx as <-. injection Hab as <- <-. apply (bc_range _ _ _ 1 3). cbn. lia.
  - split; [reflexivity|]. split; vm_compute; reflexivity.
Qed.

(** ** Cuts that cannot be loaded *)

(** One cut, of axis [k], all others absent. *)
Definition only_cut (k : nat) (z : ival) : list (option ival) := repeat None k ++ [Some z].

Lemma axis_ranges_one pfloat gs z : forall k d dims x r,
  (forall j y, nth_error dims j = Some y -> nth_error gs (d + j) = Some (gline (dnodes y))) ->
  nth_error dims k = Some x -> cut_range pfloat z (Some (gline (dnodes x))) = r ->
  axis_ranges pfloat d (List.map d_n dims) (only_cut k z) (Some gs)
  = let* r' := r in
    Ok (List.map (fun y => (0%Z, Z.of_nat (d_n y))) (firstn k dims) ++ r' ::
        List.map (fun y => (0%Z, Z.of_nat (d_n y))) (skipn (S k) dims)).
Proof.
  assert (Hnone : forall d dims, axis_ranges pfloat d (List.map d_n dims) [] (Some gs)
            = Ok (List.map (fun y => (0%Z, Z.of_nat (d_n y))) dims)).
  { intros d dims; revert d; induction dims as [|y dims IH]; intros d; [reflexivity|].
    cbn [List.map axis_ranges hd bind tl]. rewrite IH. reflexivity. }
  induction k as [|k IH]; intros d [|y dims] x r Hg Hx Hr; try discriminate.
  - injection Hx as ->. cbn [List.map axis_ranges only_cut repeat app hd tl].
    pose proof (Hg 0%nat x eq_refl) as Hg0. rewrite Nat.add_0_r in Hg0. unfold nth_res. rewrite Hg0. cbn [bind].
    rewrite Hr. destruct r as [r'|e]; [|reflexivity]. cbn [bind]. rewrite Hnone. reflexivity.
  - cbn [List.map axis_ranges only_cut repeat app hd tl bind].
    change (repeat None k ++ [Some z]) with (only_cut k z).
    rewrite (IH (S d) dims x r); auto.
    + destruct r; reflexivity.
    + intros j w Hj. rewrite Nat.add_succ_comm. now apply Hg.
Qed.

Lemma any_cut_one k z nd comp : (k < nd)%nat -> any_cut nd (only_cut k z) comp = true.
Proof.
  intros H. unfold any_cut. apply orb_true_iff. left. apply existsb_exists. exists (Some z). split; [|reflexivity].
  unfold only_cut. rewrite firstn_all2 by (rewrite app_length, repeat_length; simpl; lia). apply in_or_app. right. now left.
Qed.

Lemma load_one_range pfloat {A} dims vars var (v : nda A) nc k x z o c :
  frame_file dims vars var v nc -> nth_error dims k = Some x ->
  cut_range pfloat z (Some (gline (dnodes x))) = Ok (o, c) ->
  load_frame pfloat dims vars var (only_cut k z) None =
  (let l := List.map (fun y => (0%Z, Z.of_nat (d_n y))) (firstn k dims) ++ (o, c) ::
            List.map (fun y => (0%Z, Z.of_nat (d_n y))) (skipn (S k) dims) ++ [(0%Z, Z.of_nat nc)] in
   let* data := read_block v (Some l) in
   let* dims1 := shift_dims dims (Some l) in
   let* dims2 := ghost_dims true dims1 (shape data) in
   Ok (mk_gdata (Some (List.map (fun x => gline (dnodes x)) dims2)) (Some data)
          (Some (List.map d_n dims)) (Some (last (shape data) 0%nat)) (Some (List.map d_lo dims)) (Some (List.map d_up dims)))).
Proof.
  intros [Fv Fw Fs Fd] Hx Hr. unfold load_frame. rewrite Fv. unfold offset_count.
  rewrite Fs, rev_app_distr. cbn [rev app]. rewrite removelast_last.
  erewrite (axis_ranges_one pfloat _ z k 0 dims x); [|intros j y E; rewrite nth_error_map; simpl; now rewrite E|exact Hx|exact Hr].
  cbn [bind].
  replace (length (List.map d_n dims ++ [nc]) - 1)%nat with (length dims) by (rewrite app_length, map_length; simpl; lia).
  rewrite any_cut_one by (apply nth_error_Some; congruence). cbv zeta. rewrite <- app_assoc. reflexivity.
Qed.

Lemma load_one_error pfloat {A} dims vars var (v : nda A) nc k x z e :
  frame_file dims vars var v nc -> nth_error dims k = Some x ->
  cut_range pfloat z (Some (gline (dnodes x))) = Err e ->
  load_frame pfloat dims vars var (only_cut k z) None = Err e.
Proof.
  intros [Fv Fw Fs Fd] Hx Hr. unfold load_frame. rewrite Fv. unfold offset_count.
  rewrite Fs, rev_app_distr. cbn [rev app]. rewrite removelast_last.
  erewrite (axis_ranges_one pfloat _ z k 0 dims x); [|intros j y E; rewrite nth_error_map; simpl; now rewrite E|exact Hx|exact Hr].
  reflexivity.
Qed.

(** A slice that is open at the end, or ends at -1, is refused: it asks for one
    cell too many. *)
Theorem C72_open_slices_refuted : forall pfloat A dims vars var (v : nda A) nc k x z,
  frame_file dims vars var v nc -> nth_error dims k = Some x ->
  (z = VStr ":" \/ exists a, (a <= d_n x)%nat /\
     (z = VStr (show_N (N.of_nat a) ++ ":")%string \/ z = VStr (show_N (N.of_nat a) ++ ":-1")%string)) ->
  load_frame pfloat dims vars var (only_cut k z) None = Err ValueError.
Proof.
  intros pfloat A dims vars var v nc k x z F Hx Hz.
  assert (Hal : arr_len (Some (gline (dnodes x))) = Ok (Z.of_nat (S (d_n x)))).
  { unfold arr_len, gline. cbn [shape]. now rewrite dnodes_length. }
  assert (Hr : exists a, (a <= d_n x)%nat /\
     cut_range pfloat z (Some (gline (dnodes x))) = Ok (Z.of_nat a, Z.of_nat (S (d_n x) - a))).
  { unfold cut_range. destruct Hz as [->|(a & Ha & [-> | ->])].
    - exists 0%nat. split; [lia|]. rewrite (parse_all pfloat _ _ false Hal) by lia. cbn [bind]. apply ok_pair; lia.
    - exists a. split; [lia|]. rewrite (parse_from pfloat _ _ _ false Hal) by lia. cbn [bind]. apply ok_pair; lia.
    - exists a. split; [lia|].
      assert (E : idx_parser pfloat (VStr (show_N (N.of_nat a) ++ ":-1")%string) (Some (gline (dnodes x))) false
                  = Ok (ISlice (Z.of_nat a) (Z.of_nat (S (d_n x))))).
      { change (show_N (N.of_nat a) ++ ":-1")%string with (show_N (N.of_nat a) ++ ":" ++ "-1")%string.
        rewrite idx_parser_slice by (try apply show_N_has; auto using comma_not_digit, colon_not_digit).
        unfold parse_slice. rewrite show_N_neq_empty.
        change (String.eqb "-1" "") with false. cbv iota. cbn [bind].
        change (py_int "-1") with (Ok (-1)%Z). cbv iota beta. change (-1 <? 0)%Z with true. cbv iota.
        rewrite Hal. cbn [bind]. rewrite string_to_index_digits. cbn [bind].
        replace (Z.of_nat (S (d_n x)) + -1 + 1)%Z with (Z.of_nat (S (d_n x))) by lia.
        rewrite string_to_index_Z by lia. cbn [bind]. now rewrite nat_N_Z. }
      rewrite E. cbn [bind]. apply ok_pair; lia. }
  destruct Hr as (a & Ha & Hr). rewrite (load_one_range pfloat dims vars var v nc k x z _ _ F Hx Hr). cbv zeta.
  unfold read_block. set (l := List.map (fun y => (0%Z, Z.of_nat (d_n y))) (firstn k dims) ++ _).
  assert (Hk : (k < length dims)%nat) by (apply nth_error_Some; congruence).
  replace (length l =? length (shape v))%nat with true.
  2: { symmetry. apply Nat.eqb_eq. rewrite (ff_shape _ _ _ _ _ F). unfold l. cbn [length].
       rewrite !app_length. cbn [length]. rewrite !app_length, !map_length, firstn_length, skipn_length. cbn [length]. lia. }
  cbn [negb].
  replace (existsb (fun r => (fst r <? 0) || (snd r <? 0))%Z l) with false.
  2: { symmetry. rewrite <- not_true_iff_false. intros E. apply existsb_exists in E as (r & Hrr & E).
       assert (0 <= fst r /\ 0 <= snd r)%Z.
       { unfold l in Hrr. apply in_app_or in Hrr as [Hrr|[<-|Hrr]].
         - apply in_map_iff in Hrr as (y & <- & _). cbn. lia.
         - cbn. lia.
         - apply in_app_or in Hrr as [Hrr|[<-|[]]]; [apply in_map_iff in Hrr as (y & <- & _)|]; cbn; lia. }
       apply orb_true_iff in E as [E|E]; apply Z.ltb_lt in E; lia. }
  replace (forallb (fun rn => (fst (fst rn) + snd (fst rn) <=? Z.of_nat (snd rn))%Z) (combine l (shape v))) with false.
  2: { symmetry. rewrite <- not_true_iff_false. intros E. rewrite forallb_forall in E.
       assert (Hin : In ((Z.of_nat a, Z.of_nat (S (d_n x) - a)), d_n x) (combine l (shape v))).
       { apply nth_error_In with k. apply nth_error_combine.
         - unfold l. rewrite nth_error_app2; rewrite map_length, firstn_length, Nat.min_l by lia; [|lia].
           now rewrite Nat.sub_diag.
         - rewrite (ff_shape _ _ _ _ _ F), nth_error_app1 by (now rewrite map_length).
           rewrite nth_error_map, Hx. reflexivity. }
       specialize (E _ Hin). cbn [fst snd] in E. apply Z.leb_le in E. lia. }
  reflexivity.
Qed.
Print Assumptions C72_open_slices_refuted.

(** A list of indices, or a negative index, is refused as well; so is a missing
    variable, with an exception that does not name it. *)
Theorem C72_refused : forall pfloat A dims vars var (v : nda A) nc k x,
  frame_file dims vars var v nc -> nth_error dims k = Some x ->
  (forall i, (0 < i)%nat -> load_frame pfloat dims vars var (only_cut k (VInt (- Z.of_nat i))) None = Err TypeError) /\
  (forall js, (1 < length js)%nat ->
     load_frame pfloat dims vars var
       (only_cut k (VStr (join "," (List.map (fun j => show_N (N.of_nat j)) js)))) None = Err TypeError) /\
  (forall other zs comp, lookup other vars = None ->
     load_frame pfloat dims vars other zs comp = Err UnboundLocalError).
Proof.
  intros pfloat A dims vars var v nc k x F Hx. split; [|split].
  - intros i Hi.
    rewrite (load_one_range pfloat dims vars var v nc k x (VInt (- Z.of_nat i)) (- Z.of_nat i) 1 F Hx eq_refl). cbv zeta.
    unfold read_block. set (l := List.map (fun y => (0%Z, Z.of_nat (d_n y))) (firstn k dims) ++ _).
    assert (Hk : (k < length dims)%nat) by (apply nth_error_Some; congruence).
    replace (length l =? length (shape v))%nat with true.
    2: { symmetry. apply Nat.eqb_eq. rewrite (ff_shape _ _ _ _ _ F). unfold l. cbn [length].
         rewrite !app_length. cbn [length]. rewrite !app_length, !map_length, firstn_length, skipn_length. cbn [length]. lia. }
    cbn [negb].
    replace (existsb (fun r => (fst r <? 0) || (snd r <? 0))%Z l) with true; [reflexivity|].
    symmetry. apply existsb_exists. eexists. split; [apply in_or_app; right; left; reflexivity|].
    cbn [fst snd]. apply orb_true_iff. left. apply Z.ltb_lt. lia.
  - intros js Hj. eapply load_one_error; eauto. unfold cut_range. rewrite parse_list by exact Hj. reflexivity.
  - intros other zs comp Ho. unfold load_frame. now rewrite Ho.
Qed.
Print Assumptions C72_refused.

Example C72_refused_ex :
  load_frame (fun _ => None) ex_dims ex_vars "CartGridField" [None; Some (VStr "1:")] None = Err ValueError /\
  load_frame (fun _ => None) ex_dims ex_vars "CartGridField" [None; Some (VStr "0,2")] None = Err TypeError /\
  load_frame (fun _ => None) ex_dims ex_vars "CartGridField" [Some (VInt (-1))] None = Err TypeError /\
  load_frame (fun _ => None) ex_dims ex_vars "Field" [] None = Err UnboundLocalError.
Proof. repeat split; vm_compute; reflexivity. Qed.

(** ** C73: ghost cells *)

Lemma floor_ceil_sum (z : Z) : (z / 2 + - (- z / 2) = z)%Z.
Proof. pose proof (Z.div_mod z 2). pose proof (Z.div_mod (- z) 2). pose proof (Z.mod_pos_bound z 2). pose proof (Z.mod_pos_bound (-z) 2). lia. Qed.

(** Without ghost cells nothing changes.  With [g] ghost layers on both sides
    both ends of the grid are moved inwards by [g] cells. *)
Theorem C73_ghost_layers : forall x,
  ghost_dim x (d_n x) = x /\
  forall g, (0 < g)%nat -> (0 < d_n x)%nat ->
    let y := ghost_dim x (d_n x + 2 * g) in
    d_n y = (d_n x + 2 * g)%nat /\
    d_lo y == d_lo x + inject_Z (Z.of_nat g) * dwidth x /\
    d_up y == d_up x - inject_Z (Z.of_nat g) * dwidth x.
Proof.
  intros x. split; [unfold ghost_dim; now rewrite Nat.eqb_refl|]. intros g Hg Hn. cbv zeta.
  unfold ghost_dim. destruct (Nat.eqb_spec (d_n x) (d_n x + 2 * g)); [lia|]. cbn [d_n d_lo d_up].
  split; [reflexivity|].
  replace (Z.of_nat (d_n x) - Z.of_nat (d_n x + 2 * g))%Z with (- Z.of_nat g * 2)%Z by lia.
  rewrite Z.div_mul by lia. rewrite Z.mul_opp_l, Z.opp_involutive, Z.div_mul by lia.
  rewrite inject_Z_opp. split; ring.
Qed.
Print Assumptions C73_ghost_layers.

(** Hence the cells of the grid never have the width of the stored cells when
    the data have a different number of cells, and the ghost cells are not
    outside the stored domain. *)
Theorem C73_ghost_cells_refuted : forall x n,
  d_lo x < d_up x -> (0 < d_n x)%nat -> (0 < n)%nat -> n <> d_n x ->
  ~ dwidth (ghost_dim x n) == dwidth x /\
  ((d_n x < n)%nat -> d_lo x <= d_lo (ghost_dim x n) /\ d_up (ghost_dim x n) <= d_up x /\
     (d_lo x < d_lo (ghost_dim x n))).
Proof.
  intros x n Hb Hc Hn Hne. pose proof (dwidth_pos x Hb Hc) as Hw.
  unfold ghost_dim. destruct (Nat.eqb_spec (d_n x) n) as [E|_]; [congruence|].
  set (diff := (Z.of_nat (d_n x) - Z.of_nat n)%Z).
  pose proof (floor_ceil_sum diff) as Hs. split.
  - unfold dwidth at 1. cbn [d_lo d_up d_n]. intros E.
    assert (Nz : ~ inject_Z (Z.of_nat n) == 0) by (unfold Qeq; cbn; lia).
    assert (Nc : ~ inject_Z (Z.of_nat (d_n x)) == 0) by (unfold Qeq; cbn; lia).
    assert (E1 : d_up x - d_lo x == inject_Z (Z.of_nat (d_n x)) * dwidth x).
    { unfold dwidth. field. exact Nc. }
    assert (E2 : (d_up x + inject_Z (- (- diff / 2)) * dwidth x) - (d_lo x - inject_Z (diff / 2) * dwidth x)
                 == (inject_Z (Z.of_nat (d_n x)) + inject_Z diff) * dwidth x).
    { rewrite <- Hs at 3. rewrite inject_Z_plus.
      transitivity ((d_up x - d_lo x) + (inject_Z (diff / 2) + inject_Z (- (- diff / 2))) * dwidth x); [ring|].
      rewrite E1. ring. }
    rewrite E2 in E.
    assert (E3 : (inject_Z (Z.of_nat (d_n x)) + inject_Z diff - inject_Z (Z.of_nat n)) * dwidth x == 0).
    { transitivity (inject_Z (Z.of_nat n) * ((inject_Z (Z.of_nat (d_n x)) + inject_Z diff) * dwidth x / inject_Z (Z.of_nat n) - dwidth x)).
      - field. exact Nz.
      - rewrite E. ring. }
    apply Qmult_integral in E3 as [E3|E3]; [|lra].
    rewrite <- inject_Z_plus in E3. unfold Qminus in E3. rewrite <- inject_Z_opp, <- inject_Z_plus in E3.
    unfold Qeq in E3. cbn in E3. unfold diff in E3. lia.
  - intros Hlt. cbn [d_lo d_up].
    assert (L1 : (diff / 2 < 0)%Z) by (apply Z.div_lt_upper_bound; unfold diff; lia).
    assert (L2 : (- (- diff / 2) <= 0)%Z) by (assert (0 <= - diff / 2)%Z by (apply Z.div_pos; unfold diff; lia); lia).
    assert (L1' : inject_Z (diff / 2) < 0) by (change 0 with (inject_Z 0); rewrite <- Zlt_Qlt; exact L1).
    assert (L2' : inject_Z (- (- diff / 2)) <= 0) by (change 0 with (inject_Z 0); rewrite <- Zle_Qle; exact L2).
    assert (M1 : inject_Z (diff / 2) * dwidth x < 0 * dwidth x) by (apply Qmult_lt_compat_r; auto).
    assert (M2 : inject_Z (- (- diff / 2)) * dwidth x <= 0 * dwidth x) by (apply Qmult_le_compat_r; [auto|lra]).
    split; [lra|]. split; lra.
Qed.
Print Assumptions C73_ghost_cells_refuted.

Example C73_ex : dnodes (ghost_dim (mk_dim 0 4 4) 6) <> dnodes (mk_dim (-(1)) 5 6) /\
  d_lo (ghost_dim (mk_dim 0 4 4) 6) == 1 /\ d_up (ghost_dim (mk_dim 0 4 4) 6) == 3.
Proof. split; [vm_compute; discriminate|]. split; vm_compute; reflexivity. Qed.
