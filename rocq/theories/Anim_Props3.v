(** * C94: examples and what does not hold *)
From Coq Require Import String Ascii List Arith ZArith QArith Bool Lia Lqa Permutation Sorted.
From Verif Require Import Prelude PreludeFacts NdArray Sort GData_Model DataSpace_Model DataSpace_Spec DataSpace_Proofs DataSpace_Proofs2 DataSpace_Proofs3
  DataSpace_Props Multi_Model Multi_Proofs Multi_Proofs2 Range_Model Range_Props Anim_Model Anim_Proofs Anim_Props Anim_Props2.
Import ListNotations.
Open Scope list_scope.

Definition dvals (g : gdata Q) : list Q := match g_vals g with Some v => flat v | None => [] end.
Definition ddims (g : gdata Q) : nat := match c_cells g with Some c => length c | None => 0%nat end.
Definition dtime (_ : blk Q) : option Q := Some (1 # 2).
Definition dfmt (_ : Q) : string := "5.0000e-01"%string.
Definition dblk (f : string) (frame : option Z) (cells : list nat) (v : list Q) : dset (blk Q) :=
  mk_dset 0 f true "" (mk_blk (mk_gdata None (Some (mk_nda (cells ++ [1%nat]) v)) (Some cells) None None None) frame []).
Definition no_lims : lims := mk_lims None None None None.
Definition dopts (group float multi : bool) (title : option string) (l : lims) (save : bool) (frames : option string) : aopts :=
  mk_aopts None group float multi title false 1 1 None l None true save None frames true.
Notation anim o ds := (animate dvals ddims dtime dfmt o ds).

(** The file names of two frames and the limits of all values. *)
Definition two : dspace (blk Q) :=
  [("a", [dblk "s_0.gkyl" (Some 0%Z) [2%nat] [1; 5]; dblk "s_1.gkyl" (Some 1%Z) [2%nat] [-(3); 2]])]%string.

Example C94_plain_ex :
  match anim (dopts false false false None no_lims false (Some "f"%string)) two with
  | Ok (_, out) =>
      o_frames out =
      [("f_0.png"%string, [mk_acall ("a"%string, 0%nat) " time: 5.0000e-01" true None false (mk_lims (Some ((-(3)) * 1)) (Some (5 * 1)) None None)]);
       ("f_1.png"%string, [mk_acall ("a"%string, 1%nat) " frame: 1  time: 5.0000e-01" true None false (mk_lims (Some ((-(3)) * 1)) (Some (5 * 1)) None None)])]
      /\ o_movies out = [] /\ o_shown out = None
  | Err _ => False
  end.
Proof. vm_compute. repeat split. Qed.

Example C94_plain_hyps :
  names two None ["a"%string] /\ Forall (fun t => In t (List.map fst two)) ["a"%string] /\
  active_all two ["a"%string] = [("a"%string, 0%nat); ("a"%string, 1%nat)] /\ have_values dvals two (active_all two ["a"%string]).
Proof.
  split; [constructor|]. split; [constructor; [now left|constructor]|]. split; [reflexivity|].
  intros r [<-|[<-|[]]]; eexists; (split; [reflexivity|discriminate]).
Qed.

(** Two blocks in each of two frames, loaded out of order; --float. *)
Definition blocks : dspace (blk Q) :=
  [("a", [dblk "s_b0_12.gkyl" None [2; 2]%nat [1; 5]; dblk "s_b0_3.gkyl" None [2; 2]%nat [0; 2];
          dblk "s_b0_12.gkyl" None [2; 2]%nat [7; 6]; dblk "s_b0_3.gkyl" None [2; 2]%nat [9; 8]])]%string.
Example C94_multiblock_ex :
  match anim (dopts false true true None no_lims true None) blocks with
  | Ok (_, out) =>
      List.map (fun m => (fst m, List.map (List.map (fun c => (snd (ac_ref c), ac_colorbar c, l_zmin (ac_lims c), l_zmax (ac_lims c)))) (snd m))) (o_movies out) =
      [("anim.mp4"%string,
        [[(1%nat, true, Some (0 * 1), Some (9 * 1)); (3%nat, false, Some (0 * 1), Some (9 * 1))];
         [(0%nat, true, Some (1 * 1), Some (7 * 1)); (2%nat, false, Some (1 * 1), Some (7 * 1))]])]
  | Err _ => False
  end.
Proof. vm_compute. reflexivity. Qed.
Example C94_multiblock_hyps : exists ds', set_frame blocks = Ok (ds', [3; 12]%Z) /\
  forall l, In l (List.map (fun z => List.filter (in_frame ds' z) (active_all blocks ["a"%string])) [3; 12]%Z) -> l <> [].
Proof. eexists. split; [vm_compute; reflexivity|]. intros l H. vm_compute in H. destruct H as [<-|[<-|[]]]; discriminate. Qed.

Definition tags : dspace (blk Q) :=
  [("a", [dblk "s_0.gkyl" (Some 0%Z) [2; 2]%nat [1; 5]; dblk "s_1.gkyl" (Some 1%Z) [2; 2]%nat [3; 2]]);
   ("b", [dblk "t_0.gkyl" (Some 0%Z) [2; 2]%nat [0; 1]])]%string.
Example C94_grouptags_ex :
  match anim (dopts true false false None no_lims true None) tags with
  | Ok (_, out) =>
      List.map (fun m => (fst m, List.map (List.map (fun c => (ac_ref c, l_zmin (ac_lims c), l_zmax (ac_lims c)))) (snd m))) (o_movies out) =
      [("anim_a.mp4"%string, [[(("a"%string, 0%nat), Some (1 * 1), Some (5 * 1))]]);
       ("anim_b.mp4"%string, [[(("b"%string, 0%nat), Some (0 * 1), Some (1 * 1))]])]
  | Err _ => False
  end.
Proof. vm_compute. reflexivity. Qed.
Example C94_grouptags_hyps :
  groups tags None ["a"; "b"]%string /\ Forall (fun t => active_all tags [t] <> [] /\ have_values dvals tags (active_all tags [t])) ["a"; "b"]%string.
Proof.
  split.
  - left. split; [reflexivity|]. split; [|reflexivity]. repeat constructor; discriminate.
  - constructor; [|constructor; [|constructor]]; (split; [discriminate|]); intros r Hr; vm_compute in Hr.
    + destruct Hr as [<-|[<-|[]]]; eexists; (split; [reflexivity|discriminate]).
    + destruct Hr as [<-|[]]; eexists; (split; [reflexivity|discriminate]).
Qed.

Ltac compute_run :=
  match goal with |- context [animate dvals ddims dtime dfmt ?o ?d] =>
    let v := eval vm_compute in (animate dvals ddims dtime dfmt o d) in
    assert (E : animate dvals ddims dtime dfmt o d = v) by (vm_compute; reflexivity) end.

(** The last picture written under a name. *)
Definition picture (out : aout) (name : string) : option (list acall) :=
  fold_left (fun acc f => if String.eqb (fst f) name then Some (snd f) else acc) (o_frames out) None.

(** --grouptags --saveframes: the pictures of a tag replace those of the tag
    before, since the names do not contain the tag. *)
Theorem C94_group_frames_refuted : exists o ds ds' out, a_group o = true /\ given (a_saveframes o) <> None /\
  anim o ds = Ok (ds', out) /\ active_all ds ["a"%string] <> [] /\
  forall r, In r (active_all ds ["a"%string]) -> forall name calls, picture out name = Some calls -> ~ In r (List.map ac_ref calls).
Proof.
  exists (dopts true false false None no_lims false (Some "f"%string)), tags. compute_run.
  do 2 eexists. split; [reflexivity|]. split; [discriminate|]. split; [exact E|]. split; [discriminate|].
  intros r Hr name calls H. unfold picture in H. cbn -[String.eqb] in H. destruct (String.eqb "f_0.png" name); [|discriminate H].
  injection H as <-. cbn. intros [<-|[]]. vm_compute in Hr. destruct Hr as [Hr|[Hr|[]]]; discriminate Hr.
Qed.

(** --grouptags: an animation that is shown is drawn with the limits of the
    last tag; a value of the first tag lies outside. *)
Theorem C94_group_shown_refuted : exists o ds ds' out fs rest c v,
  a_group o = true /\ anim o ds = Ok (ds', out) /\ o_shown out = Some (Ok fs :: rest) /\
  In c (concat fs) /\ (exists d, lookup ds (ac_ref c) = Some d /\ In v (dvals (b_data (ds_data d)))) /\
  exists z, l_zmax (ac_lims c) = Some z /\ z < v * a_zscale o.
Proof.
  exists (dopts true false false None no_lims false None), tags. compute_run.
  do 2 eexists. eexists _, _, _, 5. split; [reflexivity|]. split; [exact E|]. split; [reflexivity|]. split; [left; reflexivity|]. split.
  - eexists. split; [reflexivity|]. right. now left.
  - eexists. split; [reflexivity|]. reflexivity.
Qed.

(** --grouptags overwrites limits given by the user, also with --float. *)
Theorem C94_group_limits_refuted : exists o ds ds' out name fs c,
  a_group o = true /\ a_float o = true /\ l_zmin (a_lims o) = Some 0 /\ l_zmax (a_lims o) = Some 10 /\
  anim o ds = Ok (ds', out) /\ In (name, fs) (o_movies out) /\ In c (concat fs) /\
  exists z, l_zmax (ac_lims c) = Some z /\ ~ z == 10.
Proof.
  exists (dopts true true false None (mk_lims None None (Some 0) (Some 10)) true None), tags. compute_run.
  do 2 eexists. eexists _, _, _. split; [reflexivity|]. split; [reflexivity|]. split; [reflexivity|]. split; [reflexivity|]. split; [exact E|].
  split; [left; reflexivity|]. split; [left; reflexivity|]. eexists. split; [reflexivity|]. discriminate.
Qed.

(** A title given by the user is not shown, nor is the number of frame 0. *)
Theorem C94_title_refuted : exists o ds ds' out name calls c d,
  a_title o = Some "density"%string /\ a_notitle o = false /\ anim o ds = Ok (ds', out) /\ In (name, calls) (o_frames out) /\ In c calls /\
  lookup ds (ac_ref c) = Some d /\ b_frame (ds_data d) = Some 0%Z /\
  contains "density" (ac_title c) = false /\ contains "frame" (ac_title c) = false.
Proof.
  exists (dopts false false false (Some "density"%string) no_lims false (Some "f"%string)), two. compute_run.
  do 2 eexists. eexists _, _, _, _. split; [reflexivity|]. split; [reflexivity|]. split; [exact E|]. split; [left; reflexivity|]. split; [left; reflexivity|].
  split; [reflexivity|]. split; [reflexivity|]. split; reflexivity.
Qed.

(** --multiblock with datasets of one tag of which none belongs to the first
    frame. *)
Example C94_first_frame_ex :
  anim (mk_aopts (Some "b"%string) false true true None false 1 1 None no_lims None true true None None true)
    [("a", [dblk "s_0.gkyl" None [2%nat] [1]; dblk "s_1.gkyl" None [2%nat] [1]; dblk "s_2.gkyl" None [2%nat] [1]]); ("b", [dblk "s_4.gkyl" None [2%nat] [1]; dblk "s_5.gkyl" None [2%nat] [1]])]%string
  <> Err IndexError /\
  anim (mk_aopts (Some "b"%string) false true true None false 1 1 None no_lims None true true None None true)
    [("a", [dblk "s_5.gkyl" None [2%nat] [1]; dblk "s_4.gkyl" None [2%nat] [1]; dblk "s_1.gkyl" None [2%nat] [1]]); ("b", [dblk "s_4.gkyl" None [2%nat] [1]; dblk "s_5.gkyl" None [2%nat] [1]])]%string
  = Err IndexError.
Proof. vm_compute. split; [discriminate|reflexivity]. Qed.

Print Assumptions C94_plain.
Print Assumptions C94_no_datasets.
Print Assumptions C94_multiblock.
Print Assumptions C94_grouptags.
Print Assumptions C94_group_frames_refuted.
Print Assumptions C94_group_shown_refuted.
Print Assumptions C94_group_limits_refuted.
Print Assumptions C94_title_refuted.
