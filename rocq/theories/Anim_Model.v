(** * Model of commands/animate.py: which datasets each frame of an animation
    shows, with which limits and title, and which files are written.

    The drawing itself is Draw_Model; it is taken to succeed.  --xlim and
    the like (185-196) and --figsize are in PlotOpt_Model; the encoding of movies
    is not modelled. *)
From Coq Require Import String Ascii List Arith ZArith QArith Bool.
From Verif Require Import Prelude NdArray Sort GData_Model DataSpace_Model Multi_Model Range_Model.
Import ListNotations.
Open Scope list_scope.

(** The limits in [kwargs], which all animations share. commands/animate.py 18-22, 198-215, 246-257. *)
Record lims := mk_lims { l_ymin : option Q; l_ymax : option Q; l_zmin : option Q; l_zmax : option Q }.

(** Options of commands/animate.py 90-183. *)
Record aopts := mk_aopts {
  a_use : option string;
  a_group : bool;             (* --grouptags *)
  a_float : bool;
  a_multiblock : bool;
  a_title : option string;
  a_notitle : bool;
  a_yscale : Q;
  a_zscale : Q;
  a_cutoff : option Q;
  a_lims : lims;              (* --ymin, --ymax, --zmin, --zmax *)
  a_color : option string;
  a_colorbar : bool;
  a_save : bool;
  a_saveas : option string;
  a_saveframes : option string;
  a_show : bool
}.

(** What is passed to [output.plot] for one dataset (lines 39-51). *)
Record acall := mk_acall {
  ac_ref : ref;
  ac_title : string;
  ac_colorbar : bool;
  ac_color : option string;
  ac_legend : bool;
  ac_lims : lims
}.

(** [if s:] for an optional string. commands/animate.py 279, 319, 354. *)
Definition given (s : option string) : option string :=
  match s with Some "" => None | s => s end%string.

(** Movies (with their frames) and pictures in the order they are written, and
    the animations shown; a shown animation is drawn after the command has got
    to the end, so an exception there does not end the command.
    commands/animate.py 283, 288, 323, 328, 358, 363, 370. *)
Record aout := mk_aout {
  o_movies : list (string * list (list acall));
  o_frames : list (string * list acall);
  o_shown : option (list (res (list (list acall))))
}.

Section Anim.
  (** [vals]: the values of a dataset, [dims]: its number of dimensions,
      [time]: [ctx["time"]], [fmt]: the format ".4e". *)
  Context {A : Type} (vals : gdata A -> list Q) (dims : gdata A -> nat) (time : blk A -> option Q) (fmt : Q -> string).
  Implicit Types (ds : dspace (blk A)) (r : ref).

  Definition set_of ds r : nat * list Q :=
    match lookup ds r with Some d => (dims (b_data (ds_data d)), vals (b_data (ds_data d))) | None => (0%nat, []) end.

  (** animate.py 59-86. *)
  Definition range_of (o : aopts) ds (l : list ref) : res (option Q * option Q * nat) :=
    anim_range (a_yscale o) (a_zscale o) (a_cutoff o) (List.map (set_of ds) l).

  (** Lines 28-36.  [--title] is overwritten, and a frame number or time of 0
      is left out. *)
  Definition title_of (o : aopts) (b : blk A) : string :=
    if a_notitle o then ""%string
    else (match b_frame b with Some z => if (z =? 0)%Z then "" else " frame: " ++ show_Z z ++ " " | None => "" end ++
          match time b with Some t => if Qeq_bool t 0 then "" else " time: " ++ fmt t | None => "" end)%string.

  (** Lines 27-54: the datasets of one frame; without any, [im] is not bound. *)
  Fixpoint draw_blocks (o : aopts) (color : option string) (legend : bool) (st : lims) ds (first : bool) (l : list ref) : res (list acall) :=
    match l with
    | [] => Ok []
    | r :: l' =>
        match lookup ds r with
        | None => Err KeyError
        | Some d =>
            let* rest := draw_blocks o color legend st ds false l' in
            Ok (mk_acall r (title_of o (ds_data d)) (a_colorbar o && first) color legend st :: rest)
        end
    end.

  (** [_update], lines 10-54. *)
  Definition update (o : aopts) (color : option string) (legend : bool) ds (st : lims) (l : list ref) : res (list acall * lims) :=
    let* st :=
      if a_multiblock o && a_float o then
        let* rn := range_of o ds l in
        let '(lo, hi, n) := rn in
        Ok (if (n =? 1)%nat then mk_lims lo hi (l_zmin st) (l_zmax st) else mk_lims (l_ymin st) (l_ymax st) lo hi)
      else Ok st in
    match l with
    | [] => Err UnboundLocalError
    | _ => let* calls := draw_blocks o color legend st ds true l in Ok (calls, st)
    end.

  (** The frames of an animation one after the other.
      commands/animate.py 268-271, 286-289, 313-317, 326-329, 347-351, 361-364, each calling [_update] (10-54). *)
  Fixpoint run (o : aopts) (color : option string) (legend : bool) ds (st : lims) (fl : list (list ref)) : res (list (list acall) * lims) :=
    match fl with
    | [] => Ok ([], st)
    | l :: fl' =>
        let* (calls, st) := update o color legend ds st l in
        let* (rest, st) := run o color legend ds st fl' in
        Ok (calls :: rest, st)
    end.

  (** [f"{prefix:s}_{i:d}.png"]. commands/animate.py 288, 328, 363. *)
  Definition frame_name (prefix : string) (i : nat) : string :=
    (prefix ++ "_" ++ show_Z (Z.of_nat i) ++ ".png")%string.

  (** Lines 267-291, 312-331 and 346-366: an animation with the frames [fl].
      Returned: movies, pictures, limits, and whether it can still be shown. *)
  Definition one_anim (o : aopts) (color : option string) (legend : bool) (default : string) ds (st : lims) (fl : list (list ref))
    : res (list (string * list (list acall)) * list (string * list acall) * lims) :=
    match given (a_saveframes o) with
    | None =>
        let name := match given (a_saveas o) with Some s => s | None => default end in
        if a_save o || match given (a_saveas o) with Some _ => true | None => false end then
          let* (frames, st) := run o color legend ds st fl in
          Ok ([(name, frames)], [], st)
        else Ok ([], [], st)
    | Some prefix =>
        let* (frames, st) := run o color legend ds st fl in
        Ok ([], combine (List.map (frame_name prefix) (seq 0 (length frames))) frames, st)
    end.

  (** Lines 369-371. *)
  Definition shown (o : aopts) (color : option string) (legend : bool) ds (st : lims) (anims : list (list (list ref)))
    : option (list (res (list (list acall)))) :=
    match given (a_saveframes o) with
    | Some _ => None
    | None => if a_show o then Some (List.map (fun fl => let* (frames, _) := run o color legend ds st fl in Ok frames) anims) else None
    end.

  (** Lines 243-292: one animation for each tag.  [yset] as in line 229. *)
  Fixpoint tag_anims (o : aopts) ds (n : nat) (tags : list string) (yset : bool) (st : lims)
    : res (list (string * list (list acall)) * list (string * list acall) * list (list (list ref)) * lims) :=
    match tags with
    | [] => Ok ([], [], [], st)
    | t :: tags' =>
        let* rs := refs_of ds (Some t) in
        let* rn := range_of o ds rs in
        let '(lo, hi, nd) := rn in
        let yset' := if (nd =? 1)%nat then true else yset in
        let st := if (nd =? 1)%nat then mk_lims lo hi (l_zmin st) (l_zmax st)
                  else mk_lims (if yset then None else l_ymin st) (if yset then None else l_ymax st) lo hi in
        let fl := firstn (Nat.min n (length rs)) (List.map (fun r => [r]) rs) in
        let* out := one_anim o (a_color o) true ("anim_" ++ t ++ ".mp4") ds st fl in
        let '(movies, frames, st) := out in
        let* rest := tag_anims o ds n tags' yset' st in
        let '(movies', frames', anims', st) := rest in
        Ok (movies ++ movies', frames ++ frames', fl :: anims', st)
    end.

  (** Lines 233-236: the smallest number of active datasets of a tag; [None]
      stands for NAN. *)
  Fixpoint min_size ds (tags : list string) (n : option nat) : res (option nat) :=
    match tags with
    | [] => Ok n
    | t :: tags' =>
        let* k := get_num_datasets ds (Some t) true in
        min_size ds tags' (Some (match n with Some n => Nat.min n k | None => k end))
    end.

  (** Line 303. *)
  Fixpoint of_frame ds (z : Z) (rs : list ref) : res (list ref) :=
    match rs with
    | [] => Ok []
    | r :: rs' =>
        match lookup ds r with
        | None => Err KeyError
        | Some d =>
            match b_frame (ds_data d) with
            | None => Err KeyError
            | Some f => let* rest := of_frame ds z rs' in Ok (if (f =? z)%Z then r :: rest else rest)
            end
        end
    end.

  (** Lines 198-215. *)
  Definition start_lims (o : aopts) ds : res lims :=
    let st := a_lims o in
    if negb (a_float o) && negb (a_group o) then
      let* rs := refs_of ds (a_use o) in
      let* rn := range_of o ds rs in
      let '(lo, hi, nd) := rn in
      let def x y := match x with Some _ => x | None => y end in
      Ok (if (nd =? 1)%nat then mk_lims (def (l_ymin st) lo) (def (l_ymax st) hi) (l_zmin st) (l_zmax st)
          else mk_lims (l_ymin st) (l_ymax st) (def (l_zmin st) lo) (def (l_zmax st) hi))
    else Ok st.

  (** animate.py 176-372.  [set_frame] changes the datasets. *)
  Definition animate (o : aopts) ds : res (dspace (blk A) * aout) :=
    let* st := start_lims o ds in
    if a_group o then
      let* tags := tag_iterator ds (a_use o) true in
      let* n := min_size ds tags None in
      let* out := tag_anims o ds (match n with Some n => n | None => 0%nat end) tags false st in
      let '(movies, frames, anims, st) := out in
      Ok (ds, mk_aout movies frames (match tags with [] => if a_show o then Some [] else None | _ => shown o (a_color o) true ds st anims end))
    else if a_multiblock o then
      let* sf := set_frame ds in
      let (ds, zs) := sf in
      let* rs := refs_of ds (a_use o) in
      let* fl := mapM (fun z => of_frame ds z rs) zs in
      let* color :=
        match given (a_color o) with
        | Some _ => Ok (a_color o)
        | None => match fl with
                  | (r :: _) :: _ => Ok (if (fst (set_of ds r) =? 1)%nat then Some "tab:blue"%string else a_color o)
                  | _ => Err IndexError
                  end
        end in
      let* out := one_anim o color false "anim.mp4" ds st fl in
      let '(movies, frames, st) := out in
      Ok (ds, mk_aout movies frames (shown o color false ds st [fl]))
    else
      let* rs := refs_of ds (a_use o) in
      let fl := List.map (fun r => [r]) rs in
      let* out := one_anim o (a_color o) false "anim.mp4" ds st fl in
      let '(movies, frames, st) := out in
      Ok (ds, mk_aout movies frames (shown o (a_color o) false ds st [fl])).
End Anim.
