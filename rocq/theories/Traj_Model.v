(** * Model of commands/trajectory.py *)
From Coq Require Import String List Arith ZArith Bool Reals.
From Verif Require Import Prelude DataSpace_Model.
Import ListNotations.
Open Scope string_scope.
Open Scope list_scope.
Open Scope nat_scope.

(** The first axis of the grid, the number of components and the values, one row per
    position. commands/trajectory.py 18-19. *)
Record track := mk_track { tk_time : list R; tk_comps : nat; tk_rows : list (list R) }.

(** NaN is [None]. commands/trajectory.py 22-48. *)
Definition point := (option R * option R * option R)%type.

(** [np.where(x > lo, x, nan)] and [np.where(x < hi, x, nan)]; any comparison with NaN is
    false. commands/trajectory.py 22-45. *)
Definition above (lo : option R) (x : option R) : option R :=
  match lo, x with Some l, Some v => if Rlt_dec l v then Some v else None | Some _, None => None | None, _ => x end.
(** commands/trajectory.py 22-45. *)
Definition below (hi : option R) (x : option R) : option R :=
  match hi, x with Some h, Some v => if Rlt_dec v h then Some v else None | Some _, None => None | None, _ => x end.

(** commands/trajectory.py 11, for instance [xmin] and [xmax]. *)
Definition bounds := (option R * option R)%type.

(** Lines 22-45: one masked coordinate. *)
Definition masked (d : track) (c : nat) (b : bounds) : res (list (option R)) :=
  if c <? tk_comps d then Ok (List.map (fun row => below (snd b) (above (fst b) (Some (nth c row 0%R)))) (tk_rows d)) else Err IndexError.

Definition item {A} (l : list A) (i : nat) : res A := match nth_error l i with Some x => Ok x | None => Err IndexError end.

(** [coords[i, c]]. commands/trajectory.py 55-57. *)
Definition entry (d : track) (i c : nat) : res R :=
  let* row := item (tk_rows d) i in if c <? tk_comps d then Ok (nth c row 0%R) else Err IndexError.

(** commands/trajectory.py 58. *)
Definition plus (x : option R) (y : R) : option R := match x with Some v => Some (v + y)%R | None => None end.

(** What one dataset adds to a frame: the path, the dot, the line of the velocity and
    the number of the colour. commands/trajectory.py 47-59. *)
Record shot := mk_shot { sh_path : list point; sh_dot : point; sh_velocity : option (point * point); sh_colour : nat }.

(** Lines 50-54; [time[-1]] of an empty axis is not reached. *)
Definition time_step (time : list R) (t leap : nat) : res R :=
  let* now := item time t in
  let* next := if length time <=? t + leap then item time (length time - 1) else item time (t + leap) in
  Ok (next - now)%R.

(** Lines 17-62 for one dataset; [s] datasets come before. *)
Definition one_shot (i leap : nat) (vel : bool) (bx by_ bz : bounds) (s : nat) (d : track) : res shot :=
  let t := i * leap in
  let* x := masked d 0 bx in
  let* y := masked d 1 by_ in
  let* z := masked d 2 bz in
  let* px := item x t in
  let* py := item y t in
  let* pz := item z t in
  let* v :=
    if vel && (tk_comps d =? 6) then
      let* dt := time_step (tk_time d) t leap in
      let* dx := entry d i 3 in
      let* dy := entry d i 4 in
      let* dz := entry d i 5 in
      Ok (Some ((px, py, pz), (plus px (dx * dt)%R, plus py (dy * dt)%R, plus pz (dz * dt)%R)))
    else Ok None in
  Ok (mk_shot (combine (combine x y) z) (px, py, pz) v (s mod 10)).

Fixpoint shots (i leap : nat) (vel : bool) (bx by_ bz : bounds) (s : nat) (ds : list track) : res (list shot) :=
  match ds with
  | [] => Ok []
  | d :: ds' => let* a := one_shot i leap vel bx by_ bz s d in let* l := shots i leap vel bx by_ bz (S s) ds' in Ok (a :: l)
  end.

(** Lines 11-69: one frame; the title shows a time of the last dataset of the loop. *)
Definition update (i leap : nat) (vel : bool) (bx by_ bz : bounds) (ds : list track) : res (list shot * R) :=
  let* l := shots i leap vel bx by_ bz 0 ds in
  match rev ds with
  | [] => Err UnboundLocalError
  | d :: _ => let* t := item (tk_time d) (i * leap) in Ok (l, t)
  end.

Record options := mk_opts {
  op_use : option string; op_numframes : option Z; op_velocity : bool; op_x : bounds; op_y : bounds; op_z : bounds;
  op_save : bool; op_saveas : string }.

(** Lines 110-114; [frames] of a negative number are none. *)
Definition timing (num_pos : nat) (n : option Z) : Z * Z :=
  match n with
  | Some k => if (k =? 0)%Z then (1, Z.of_nat num_pos)%Z else (Z.of_nat num_pos / k, k)%Z
  | None => (1, Z.of_nat num_pos)%Z
  end.

(** Lines 90-138: the frames in order and the name of the file, if one is written. The
    loop of a frame goes over the active datasets of the tag (C16). *)
Definition trajectory (o : options) (ds : dspace track) : res (list (list shot * R) * option string) :=
  let* tags := tag_iterator ds (op_use o) true in
  match tags with
  | [] => Err IndexError
  | [tag] =>
      match aget tag ds with
      | None => Err KeyError
      | Some l =>
          let* d := item l 0 in
          let (jump, count) := timing (length (tk_rows (ds_data d))) (op_numframes o) in
          let* fs := mapM (fun i => update i (Z.to_nat jump) (op_velocity o) (op_x o) (op_y o) (op_z o)
                                      (List.map ds_data (List.filter ds_status l))) (seq 0 (Z.to_nat count)) in
          Ok (fs, if op_save o || negb (String.eqb (op_saveas o) "") then Some (if String.eqb (op_saveas o) "" then "anim.mp4" else op_saveas o) else None)
      end
  | _ => Err ClickFail
  end.
