(** * Model of the commands that replace datasets by new ones under a tag of
    their own: commands/current.py and commands/val2coord.py. *)
From Coq Require Import String Ascii List Arith ZArith Bool.
From Verif Require Import Prelude NdArray DataSpace_Model.
Import ListNotations.
Open Scope list_scope.

(** ** The loop

    current.py 23-31 and val2coord.py 71-109: for every active dataset of the
    used tags compute some results, add each of them under the tag [T], and
    deactivate the dataset.  (current.py deactivates before adding its only
    result, which makes no difference.)  New datasets are active and have no
    file (gdata.py 76-103). *)
Section Spawn.
  Context {X : Type} (f : X -> res (list X)) (T label : string).

  Definition add_all (ys : list X) (ds : dspace X) : dspace X :=
    fold_left (fun ds y => add ds T (mk_dset (next_id ds) "" true label y)) ys ds.

  (** commands/current.py 23-30, commands/val2coord.py 73-108. *)
  Definition spawn_body (_ : nat) (r : ref) (ds : dspace X) : res (dspace X) :=
    match lookup ds r with
    | None => Err KeyError (* unreachable *)
    | Some d => let* ys := f (ds_data d) in
                Ok (modify (add_all ys ds) r (set_status false))
    end.

  (** [enum] is passed by val2coord (and the number ignored). *)
  Definition spawn_command (use : option string) (enum : bool) (ds : dspace X) : res (dspace X) :=
    iterate (fun ds => ds) spawn_body true use enum SelNone ds.
End Spawn.

(** current.py 10-32; [f] is [accumulate_current]. *)
Definition current_command {X} (f : X -> res X) (use : option string) (tag label : string) (ds : dspace X) :=
  spawn_command (fun x => let* y := f x in Ok [y]) tag label use false ds.

(** ** val2coord.py *)

(** val2coord.py 8-39.  A list with commas needs [np.int], which numpy 1.24
    and later (pyproject.toml asks for 1.24.4) do not have.  [np.arange] with
    increment zero divides by zero. *)
Definition get_range (s : string) (len : nat) : res (list Z) :=
  if (1 <? length (split_on "," s))%nat then Err AttributeError
  else if has_char ":" s then
    match split_on ":" s with
    | s0 :: s1 :: rest =>
        let wrap z := if (z <? 0)%Z then (Z.of_nat len + z)%Z else z in
        let* lo := (if String.eqb s0 "" then Ok 0%Z else let* z := py_int s0 in Ok (wrap z)) in
        let* hi := (if String.eqb s1 "" then Ok (Z.of_nat len) else let* z := py_int s1 in Ok (wrap z)) in
        let* inc := match rest with
                    | [] => Ok 1%Z
                    | s2 :: _ => if String.eqb s2 "" then Ok 1%Z else py_int s2
                    end in
        if (inc =? 0)%Z then Err ZeroDivisionError else Ok (range_list lo hi inc)
    | _ => Err IndexError (* unreachable: the string has a colon *)
    end
  else let* z := py_int s in Ok [z].

Section V2C.
  Context {A : Type}.

  (** [values[..., c]]: the last axis is dropped. commands/val2coord.py 92-93. *)
  Definition column (c : Z) (v : nda A) : res (nda A) :=
    match rev (shape v) with
    | [] => Err IndexError
    | nc :: _ =>
        let* k := norm_index nc c in
        let lead := removelast (shape v) in
        Ok (mk_nda lead (flat (take (List.map (seq 0) lead ++ [[k]]) v)))
    end.

  (** val2coord.py 95-96: [np.append(x, np.atleast_1d(x[0]), axis=0)].  When
      [x] has several axes, [x[0]] has one less and numpy raises. *)
  Definition close (x : nda A) : res (nda A) :=
    match shape x, flat x with
    | [n], a :: _ => Ok (mk_nda [S n] (flat x ++ [a]))
    | [_], [] => Err IndexError
    | _, _ => Err ValueError
    end.

  (** A dataset: coordinate arrays and values.  Coordinates and values have the
      same type of numbers here, columns of the values become coordinates. commands/val2coord.py 104. *)
  Definition vdata := (list (nda A) * nda A)%type.

  (** val2coord.py 81-107, one column. *)
  Definition one_column (periodic : bool) (v : nda A) (xc yc : Z) : res vdata :=
    let* x := column xc v in
    let* y := column yc v in
    let* x' := (if periodic then close x else Ok x) in
    let* y' := (if periodic then close y else Ok y) in
    Ok ([x'], mk_nda (shape y' ++ [1%nat]) (flat y')).

  (** val2coord.py 72-107: all columns of one dataset.  [ctx.exit()] is
      [Quit]; options that are not given are [None] and have no [split]. *)
  Definition val2coord (xs ys : option string) (periodic : bool) (d : vdata) : res (list vdata) :=
    let v := snd d in
    match shape v with
    | [] | [_] => Err IndexError          (* values[0, :] *)
    | 0%nat :: _ :: _ => Err IndexError
    | S _ :: len :: _ =>
        match xs, ys with
        | Some xs, Some ys =>
            let* xcs := get_range xs len in
            let* ycs := get_range ys len in
            if (1 <? length xcs)%nat && negb (length xcs =? length ycs)%nat then Err Quit
            else mapM (fun iy =>
                   match nth_error xcs (if (1 <? length xcs)%nat then fst iy else 0%nat) with
                   | None => Err IndexError
                   | Some xc => one_column periodic v xc (snd iy)
                   end) (combine (seq 0 (length ycs)) ycs)
        | _, _ => Err AttributeError
        end
    end.

  (** val2coord.py 62-70 and the loop. *)
  Definition val2coord_command (use tag xs ys : option string) (label : string) (periodic : bool)
      (ds : dspace vdata) : res (dspace vdata) :=
    let* tags := tag_iterator ds None true in
    let T := match tag with
             | Some t => t
             | None => match tags with [t] => t | _ => "val2coord"%string end
             end in
    spawn_command (val2coord xs ys periodic) T label use true ds.
End V2C.
