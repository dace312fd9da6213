(** * Proofs about animate: frames *)
From Coq Require Import String Ascii List Arith ZArith QArith Bool Lia Lqa Permutation Sorted.
From Verif Require Import Prelude PreludeFacts NdArray Sort GData_Model DataSpace_Model DataSpace_Spec DataSpace_Proofs DataSpace_Proofs2 DataSpace_Proofs3
  Multi_Model Multi_Proofs Multi_Proofs2 Range_Model Range_Props Anim_Model.
Import ListNotations.
Open Scope list_scope.

Section Anim.
  Context {A : Type} (vals : gdata A -> list Q) (dims : gdata A -> nat) (time : blk A -> option Q) (fmt : Q -> string).
  Implicit Types (ds : dspace (blk A)) (r : ref).

  (** ** What a frame should be *)

  (** The title of a dataset: frame number and time, if known and not 0. *)
  Definition right_title (o : aopts) (b : blk A) (s : string) : Prop :=
    (a_notitle o = true -> s = ""%string) /\
    (a_notitle o = false -> exists f t, s = (f ++ t)%string /\
       (b_frame b = None \/ b_frame b = Some 0%Z -> f = ""%string) /\
       (forall z, b_frame b = Some z -> z <> 0%Z -> f = (" frame: " ++ show_Z z ++ " ")%string) /\
       (time b = None -> t = ""%string) /\
       (forall q, time b = Some q -> q == 0 -> t = ""%string) /\
       (forall q, time b = Some q -> ~ q == 0 -> t = (" time: " ++ fmt q)%string)).

  (** The calls for the datasets [l] in one frame: in order, one colour bar. *)
  Definition frame_ok (o : aopts) (color : option string) (legend : bool) ds (st : lims) (l : list ref) (calls : list acall) : Prop :=
    List.map ac_ref calls = l /\
    (forall c, In c calls -> exists d, lookup ds (ac_ref c) = Some d /\ right_title o (ds_data d) (ac_title c)) /\
    Forall (fun c => ac_lims c = st /\ ac_color c = color /\ ac_legend c = legend) calls /\
    List.map ac_colorbar calls = match l with [] => [] | _ :: l' => a_colorbar o :: repeat false (length l') end.

  Lemma title_right o b : right_title o b (title_of time fmt o b).
  Proof.
    unfold right_title, title_of. split; intros H; rewrite H; [reflexivity|].
    exists (match b_frame b with Some z => if (z =? 0)%Z then "" else " frame: " ++ show_Z z ++ " " | None => "" end)%string,
           (match time b with Some t => if Qeq_bool t 0 then "" else " time: " ++ fmt t | None => "" end)%string.
    split; [reflexivity|]. split; [now intros [->| ->]|]. split; [intros z -> N; now rewrite (proj2 (Z.eqb_neq z 0) N)|].
    split; [now intros ->|]. split.
    - intros q -> Hq. apply Qeq_bool_iff in Hq. now rewrite Hq.
    - intros q -> Hq. destruct (Qeq_bool q 0) eqn:E; [apply Qeq_bool_iff in E; contradiction|reflexivity].
  Qed.

  Lemma draw_blocks_spec o color legend st ds l : forall first,
    (forall r, In r l -> lookup ds r <> None) ->
    exists calls, draw_blocks time fmt o color legend st ds first l = Ok calls /\
      List.map ac_ref calls = l /\
      (forall c, In c calls -> exists d, lookup ds (ac_ref c) = Some d /\ right_title o (ds_data d) (ac_title c)) /\
      Forall (fun c => ac_lims c = st /\ ac_color c = color /\ ac_legend c = legend) calls /\
      List.map ac_colorbar calls = match l with [] => [] | _ :: l' => (a_colorbar o && first) :: repeat false (length l') end.
  Proof.
    induction l as [|r l IH]; intros first Hl; cbn [draw_blocks].
    - exists []. split; [reflexivity|]. split; [reflexivity|]. split; [intros c []|]. split; [constructor|reflexivity].
    - destruct (lookup ds r) as [d|] eqn:Ed; [|exfalso; apply (Hl r); [now left|exact Ed]].
      destruct (IH false) as (calls & E & R & T & F & C); [intros r' Hr'; apply Hl; now right|]. rewrite E. cbn [bind].
      eexists. split; [reflexivity|]. split; [cbn [List.map ac_ref]; now rewrite R|]. split; [|split].
      + intros c [<-|Hc]; [|now apply T]. cbn [ac_ref ac_title]. exists d. split; [exact Ed|apply title_right].
      + constructor; [cbn; auto|exact F].
      + cbn [List.map ac_colorbar]. rewrite C. f_equal. destruct l; [reflexivity|]. cbn [length repeat]. now rewrite andb_false_r.
  Qed.

  Definition has_all ds (l : list ref) : Prop := forall r, In r l -> lookup ds r <> None.

  (** Limits stay as they are. *)
  Lemma run_fixed o color legend ds st fl :
    a_multiblock o && a_float o = false -> Forall (fun l => l <> [] /\ has_all ds l) fl ->
    exists fs, run vals dims time fmt o color legend ds st fl = Ok (fs, st) /\ Forall2 (frame_ok o color legend ds st) fl fs.
  Proof.
    intros M. induction fl as [|l fl IH]; intros F; cbn [run]; [exists []; split; [reflexivity|constructor]|].
    inversion F as [|? ? (N & Hl) F']; subst. unfold update. rewrite M. cbn [bind].
    destruct (draw_blocks_spec o color legend st ds l true Hl) as (calls & E & R & T & Fc & C).
    destruct l as [|r l]; [congruence|]. rewrite E. cbn [bind]. destruct (IH F') as (fs & E' & F2). rewrite E'. cbn [bind].
    eexists. split; [reflexivity|]. constructor; [|exact F2]. split; [exact R|]. split; [exact T|]. split; [exact Fc|]. rewrite C, andb_true_r. reflexivity.
  Qed.

  (** The number of dimensions and values of the datasets. *)
  Definition sets ds (l : list ref) : list (nat * list Q) := List.map (set_of vals dims ds) l.
  Definition have_values ds (l : list ref) : Prop :=
    forall r, In r l -> exists d, lookup ds r = Some d /\ vals (b_data (ds_data d)) <> [].

  Lemma have_lookup ds l : have_values ds l -> has_all ds l.
  Proof. intros H r Hr. destruct (H r Hr) as (d & E & _). congruence. Qed.

  (** The limits are the common range of [l] along the axis of the values,
      which depends on the number of dimensions of the last dataset. *)
  Definition ranged (o : aopts) ds (l : list ref) (set : Q -> Q -> bool -> Prop) : Prop :=
    exists lo hi l' r d, l = l' ++ [r] /\ lookup ds r = Some d /\
      right_range (a_cutoff o) (scaled_sets (a_yscale o) (a_zscale o) (sets ds l)) lo hi /\
      set lo hi (dims (b_data (ds_data d)) =? 1)%nat.

  Lemma range_exists o ds l : l <> [] -> have_values ds l -> good_cutoff (a_cutoff o) ->
    exists lo hi l' r d, l = l' ++ [r] /\ lookup ds r = Some d /\
      range_of vals dims o ds l = Ok (Some lo, Some hi, dims (b_data (ds_data d))) /\
      right_range (a_cutoff o) (scaled_sets (a_yscale o) (a_zscale o) (sets ds l)) lo hi.
  Proof.
    intros N H C. destruct (exists_last N) as (l' & r & ->).
    destruct (H r) as (d & Ed & Hd); [apply in_or_app; right; now left|].
    assert (E1 : sets ds (l' ++ [r]) = sets ds l' ++ [(dims (b_data (ds_data d)), vals (b_data (ds_data d)))]).
    { unfold sets. rewrite map_app. cbn [List.map]. unfold set_of at 2. now rewrite Ed. }
    destruct (C92_animate_range (a_yscale o) (a_zscale o) (a_cutoff o) (sets ds l') (dims (b_data (ds_data d))) (vals (b_data (ds_data d)))) as (lo & hi & E & R); [|exact C|].
    - rewrite <- E1. unfold sets. rewrite Forall_map. apply Forall_forall. intros q Hq. destruct (H q Hq) as (e & Ee & He). unfold set_of. now rewrite Ee.
    - exists lo, hi, l', r, d. split; [reflexivity|]. split; [exact Ed|]. unfold range_of. fold (sets ds (l' ++ [r])). rewrite E1. auto.
  Qed.

  (** With --float --multiblock each frame has the range of its own datasets. *)
  Definition own_range (o : aopts) ds (l : list ref) (st : lims) : Prop :=
    ranged o ds l (fun lo hi one =>
      if one then l_ymin st = Some lo /\ l_ymax st = Some hi else l_zmin st = Some lo /\ l_zmax st = Some hi).

  Lemma run_float o color legend ds fl : forall st,
    a_multiblock o && a_float o = true -> good_cutoff (a_cutoff o) -> Forall (fun l => l <> [] /\ have_values ds l) fl ->
    exists fs st', run vals dims time fmt o color legend ds st fl = Ok (fs, st') /\
      Forall2 (fun l calls => exists st, own_range o ds l st /\ frame_ok o color legend ds st l calls) fl fs.
  Proof.
    induction fl as [|l fl IH]; intros st M Ct F; cbn [run]; [exists [], st; split; [reflexivity|constructor]|].
    inversion F as [|? ? (N & Hl) F']; subst. unfold update. rewrite M.
    destruct (range_exists o ds l N Hl Ct) as (lo & hi & l' & r & d & El & Ed & E & R). rewrite E. cbn [bind].
    set (st1 := if (dims (b_data (ds_data d)) =? 1)%nat then mk_lims (Some lo) (Some hi) (l_zmin st) (l_zmax st) else mk_lims (l_ymin st) (l_ymax st) (Some lo) (Some hi)).
    destruct (draw_blocks_spec o color legend st1 ds l true (have_lookup ds l Hl)) as (calls & E1 & R1 & T & Fc & C).
    destruct l as [|r0 l0]; [congruence|]. rewrite E1. cbn [bind]. destruct (IH st1 M Ct F') as (fs & st' & E' & F2). rewrite E'. cbn [bind].
    eexists _, _. split; [reflexivity|]. constructor; [|exact F2]. exists st1. split.
    - exists lo, hi, l', r, d. split; [exact El|]. split; [exact Ed|]. split; [exact R|]. unfold st1. destruct (dims (b_data (ds_data d)) =? 1)%nat; split; reflexivity.
    - split; [exact R1|]. split; [exact T|]. split; [exact Fc|]. rewrite C, andb_true_r. reflexivity.
  Qed.

  (** ** One animation *)

  Definition is_saved (o : aopts) : Prop := a_save o = true \/ given (a_saveas o) <> None.
  Definition movie_name (o : aopts) (default : string) : string := match given (a_saveas o) with Some s => s | None => default end.
  Definition numbered (prefix : string) (fs : list (list acall)) (files : list (string * list acall)) : Prop :=
    length files = length fs /\
    forall i calls, nth_error fs i = Some calls -> nth_error files i = Some ((prefix ++ "_" ++ show_Z (Z.of_nat i) ++ ".png")%string, calls).

  (** What is written: the frames satisfy [P]. *)
  Definition written (o : aopts) (default : string) (P : list (list acall) -> Prop)
      (movies : list (string * list (list acall))) (files : list (string * list acall)) : Prop :=
    (given (a_saveframes o) = None -> is_saved o -> exists fs, P fs /\ movies = [(movie_name o default, fs)]) /\
    (given (a_saveframes o) = None -> ~ is_saved o -> movies = []) /\
    (given (a_saveframes o) = None -> files = []) /\
    (forall p, given (a_saveframes o) = Some p -> movies = [] /\ exists fs, P fs /\ numbered p fs files).

  Lemma combine_numbered p (fs : list (list acall)) : numbered p fs (combine (List.map (frame_name p) (seq 0 (length fs))) fs).
  Proof.
    split; [rewrite combine_length, map_length, seq_length; lia|].
    intros i calls H. assert (L : (i < length fs)%nat) by (apply nth_error_Some; congruence).
    assert (G : forall (a : list string) (b : list (list acall)) j x y, nth_error a j = Some x -> nth_error b j = Some y -> nth_error (combine a b) j = Some (x, y)).
    { clear. induction a as [|u a IH]; intros [|v b] [|j] x y H1 H2; try discriminate; cbn in *; [congruence|eauto]. }
    apply G; [|exact H]. rewrite nth_error_map, (nth_error_nth' _ 0%nat), seq_nth by (rewrite ?seq_length; exact L). reflexivity.
  Qed.

  Lemma one_anim_spec o color legend default ds st fl (P : list (list acall) -> Prop) (Inv : lims -> Prop) :
    (Inv st -> exists fs st', run vals dims time fmt o color legend ds st fl = Ok (fs, st') /\ Inv st' /\ P fs) -> Inv st ->
    exists movies files st', one_anim vals dims time fmt o color legend default ds st fl = Ok (movies, files, st') /\ Inv st' /\
      written o default P movies files.
  Proof.
    intros HR I. destruct (HR I) as (fs & st1 & E & I1 & HP). unfold one_anim, written, is_saved, movie_name.
    destruct (given (a_saveframes o)) as [p|] eqn:G.
    - rewrite E. cbn [bind]. eexists _, _, _. split; [reflexivity|]. split; [exact I1|].
      split; [discriminate|]. split; [discriminate|]. split; [discriminate|]. intros p' [= <-]. split; [reflexivity|]. exists fs. split; [exact HP|apply combine_numbered].
    - destruct (a_save o || match given (a_saveas o) with Some _ => true | None => false end) eqn:Sv.
      + rewrite E. cbn [bind]. eexists _, _, _. split; [reflexivity|]. split; [exact I1|].
        assert (Y : a_save o = true \/ given (a_saveas o) <> None).
        { apply orb_true_iff in Sv as [Sv|Sv]; [now left|right; intros H; rewrite H in Sv; discriminate Sv]. }
        split; [intros _ _; exists fs; auto|]. split; [intros _ N; contradiction|]. split; [reflexivity|discriminate].
      + eexists _, _, _. split; [reflexivity|]. split; [exact I|].
        assert (Y : ~ (a_save o = true \/ given (a_saveas o) <> None)).
        { apply orb_false_iff in Sv as (S1 & S2). intros [H|H]; [congruence|]. destruct (given (a_saveas o)); [discriminate S2|congruence]. }
        split; [intros _ N; contradiction|]. split; [reflexivity|]. split; [reflexivity|discriminate].
  Qed.
End Anim.
