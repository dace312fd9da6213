(** * Model of tools/laguerre_compose.py, tools/transform_frame.py and the
    commands that use them.

    Numbers are exact reals, coordinates are one-dimensional arrays. *)
From Coq Require Import String Ascii List Arith ZArith Bool Lia Reals.
From Verif Require Import Prelude NdArray Ev_Model Tools_Arr Tools_Model Calc_Model DataSpace_Model.
Import ListNotations.
Open Scope list_scope.
Open Scope nat_scope.

(** ** tools/laguerre_compose.py *)

(** The third array of [np.meshgrid(x, v, w, indexing="ij")]. tools/laguerre_compose.py 49. *)
Definition mesh3 (x v w : list R) : arr :=
  tabulate [length x; length v; length w] (fun idx => nth (nth 2 idx 0) w 0%R).

(** 38-75.  [centres] is [(c[:-1] + c[1:])/2]; the values are
    [in_f_values] and [in_T_m_values]. *)
Definition laguerre_compose (grid : list (list R)) (fv tv : arr) : res (list (list R) * arr) :=
  match grid with
  | x :: vpar :: _ =>
      let vperp := vpar in
      let v3 := mesh3 (centres x) (centres vpar) (centres vpar) in
      let* F0 := comp 0 fv in
      let* G := comp 1 fv in
      let* T := comp 0 tv in
      let* q := rb Rdiv (transpose 0%R G) T in
      let* F1 := rb Rminus F0 (transpose 0%R q) in
      let F0 := add_axis F0 in
      let F1 := add_axis F1 in
      let T := add_axis (add_axis T) in
      let* a := rb Rdiv (rmap (fun v => v ^ 2 / 2)%R v3) T in
      let* b := rb Rmult F1 (rmap (fun s => 1 - s)%R a) in
      let* c := rb Rplus F0 b in
      let* d := rb Rdiv c (rmap (fun t => 2 * PI * t)%R T) in
      let* e := rb Rdiv (rmap (fun v => - v ^ 2 / 2)%R v3) T in
      let* f := rb Rmult d (rmap exp e) in
      Ok ([x; vpar; vperp], add_axis f)
  | _ => Err IndexError
  end.

(** ** tools/transform_frame.py *)

(** 35-36: [np.meshgrid] of all coordinates with [indexing="ij"]. *)
Definition mesh (grid : list (list R)) (k : nat) : arr :=
  tabulate (List.map (@length R) grid) (fun idx => nth (nth k idx 0) (nth k grid []) 0%R).

(** [e[a:b] += w] for a one-dimensional [e]; [w] is stretched if it has one
    element or no axis. tools/transform_frame.py 47-48. *)
Definition iadd_slice (a b : nat) (w : arr) (e : list R) : res (list R) :=
  let n := b - a in
  let put (rd : nat -> R) :=
    Ok (List.map (fun i => if (a <=? i) && (i <? b) then (nth i e 0 + rd (i - a)%nat)%R else nth i e 0%R) (seq 0 (length e))) in
  match shape w with
  | [] => put (fun _ => val w [])
  | [m] => if m =? n then put (fun i => val w [i])
           else if m =? 1 then put (fun _ => val w [0])
           else Err ValueError
  | _ => Err ValueError
  end.

(** 42-47: with [nx - 1 = 0] the slices [:-1] and [1:] are empty. *)
Definition ext_u (nx : nat) (w : arr) : res (list R) :=
  let e := List.repeat 0%R nx in
  let* e := iadd_slice 0 (nx - 1) w e in
  let* e := iadd_slice 1 nx w e in
  Ok (List.map (fun i => if (1 <=? i) && (i <? nx - 1) then (nth i e 0 / 2)%R else nth i e 0%R) (seq 0 nx)).

(** [out[i, ...] += s]. tools/transform_frame.py 52. *)
Definition add_row (i : nat) (s : R) (a : arr) : arr :=
  tabulate (shape a) (fun idx => if nth 0 idx 0 =? i then (val a idx + s)%R else val a idx).

(** 49-51. *)
Definition add_rows (e : list R) (a : arr) : arr :=
  fold_left (fun a i => add_row i (nth i e 0%R) a) (seq 0 (length e)) a.

(** 39-52. *)
Fixpoint shift_loop (nx : nat) (u : arr) (vs : list nat) (out : list arr) : res (list arr) :=
  match vs with
  | [] => Ok out
  | v :: vs' =>
      let* w := comp v u in
      let* e := ext_u nx w in
      shift_loop nx u vs' (set_nth (1 + v) (add_rows e (nth (1 + v) out (zeros []))) out)
  end.

(** 33-93; the values are handed on.  With [c_dim] other than 1, lines 56 and
    73 ask a one-dimensional array for its second axis, if there is a velocity
    dimension to shift. *)
Definition transform_frame (grid : list (list R)) (u : arr) (c_dim : Z) : res (list arr) :=
  let out := List.map (mesh grid) (seq 0 (length grid)) in
  let v_dim := Z.to_nat (Z.of_nat (length grid) - c_dim) in
  if (c_dim =? 1)%Z then
    match grid with
    | [] => Ok out
    | x :: _ => shift_loop (length x) u (seq 0 v_dim) out
    end
  else match v_dim with
       | 0 => Ok out
       | _ => Err IndexError
       end.

(** ** commands/laguerre_compose.py 18-29, commands/transform_frame.py 20-31

    [zip] over the active datasets of two tags.  With [--tag] the result goes
    to a new object that is never added to the data space. *)
Section ZipCommand.
  Context {X : Type} (f : X -> X -> res X) (tag1 tag2 : string) (tag : option string).

  Fixpoint zip_loop (ps : list (ref * ref)) (ds : dspace X) : res (dspace X) :=
    match ps with
    | [] => Ok ds
    | (r1, r2) :: ps' =>
        match lookup ds r1, lookup ds r2 with
        | Some d1, Some d2 =>
            let* y := f (ds_data d1) (ds_data d2) in
            zip_loop ps' (match tag with
                          | Some t => if String.eqb t "" then modify ds r1 (set_data y) else ds
                          | None => modify ds r1 (set_data y)
                          end)
        | _, _ => Err KeyError (* unreachable *)
        end
    end.

  (** commands/laguerre_compose.py 20-28, commands/transform_frame.py 23-31. *)
  Definition zip_command (ds : dspace X) : res (dspace X) :=
    let* a := active_refs ds tag1 in
    let* b := match a with [] => Ok [] | _ => active_refs ds tag2 end in
    zip_loop (combine a b) ds.
End ZipCommand.
