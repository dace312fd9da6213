(** * Model of the command line entry (pgkyl.py) and of [load]
    (commands/load.py). *)
From Coq Require Import String Ascii List Arith ZArith Bool.
From Verif Require Import Prelude Sort.
Import ListNotations.
Open Scope list_scope.

(** ** Command lookup: pgkyl.py 42-63

    [cmds] are the names of the registered commands ([list_commands] gives them
    sorted, which only affects an error message); [glob] is the file system as
    seen by [glob.glob].  The result is the command run and the new
    [in_data_strings]. *)
Section Lookup.
  Context (cmds : list string) (glob : string -> list string).

  Definition is_cmd (w : string) : bool := existsb (String.eqb w) cmds.

  (** A missing "load" command is reported by click as an error. pgkyl.py 41-62. *)
  Definition get_command (w : string) (queue : list string) : res (string * list string) :=
    if is_cmd w then Ok (w, queue)
    else match List.filter (fun x => starts_with w x) cmds with
         | [m] => Ok (m, queue)
         | _ :: _ => Err ClickFail
         | [] =>
             match glob w with
             | _ :: _ => if is_cmd "load" then Ok ("load"%string, queue ++ [w]) else Err ClickFail
             | [] => Err ClickFail
             end
         end.

  (** click resolves all words of a chain before it invokes any command
      ([MultiCommand.invoke] with [chain=True]). pgkyl.py 66. *)
  Fixpoint resolve (ws : list string) (queue : list string) : res (list string * list string) :=
    match ws with
    | [] => Ok ([], queue)
    | w :: ws' => let* (c, q) := get_command w queue in
                  let* (cs, q') := resolve ws' q in
                  Ok (c :: cs, q')
    end.

  (** Invocation: the data strings read by the [load] commands, in order
      (load.py 63-64 and 154); other commands do not touch the queue. *)
  Fixpoint invoke (cs : list string) (queue : list string) (loaded : nat) : res (list string) :=
    match cs with
    | [] => Ok []
    | c :: cs' =>
        if String.eqb c "load" then
          match nth_error queue loaded with
          | None => Err IndexError
          | Some s => let* r := invoke cs' queue (S loaded) in Ok (s :: r)
          end
        else invoke cs' queue loaded
    end.

  Definition chain (ws : list string) : res (list string) :=
    let* (cs, q) := resolve ws [] in invoke cs q 0.
End Lookup.

(** ** Files of a data string: load.py 66-81 *)

(** One element of the sorting key. commands/load.py 28-33. *)
Inductive kel := KStr (s : string) | KInt (z : Z).

(** load.py 28-33.  Line 31 takes the part before the first dot of the last
    part, line 32 the part after it; any exception switches sorting off. *)
Definition crush (s : string) : res (list kel) :=
  let sp := split_on "_" s in
  match split_on "." (last sp ""%string) with
  | t0 :: t1 :: _ => let* n := py_int t0 in
                     Ok (List.map KStr (removelast sp) ++ [KInt n; KStr t1])
  | [t0] => let* _ := py_int t0 in Err IndexError
  | [] => Err IndexError
  end.

(** Comparison of tuples: the first different elements decide; a string and an
    integer cannot be compared (None). Used by [sorted] in commands/load.py 70-77. *)
Fixpoint kcmp (a b : list kel) : option comparison :=
  match a, b with
  | [], [] => Some Eq
  | [], _ => Some Lt
  | _, [] => Some Gt
  | x :: a', y :: b' =>
      match x, y with
      | KStr s, KStr t => match String.compare s t with Eq => kcmp a' b' | c => Some c end
      | KInt m, KInt n => match Z.compare m n with Eq => kcmp a' b' | c => Some c end
      | _, _ => None
      end
  end.

Definition kleb (a b : list kel) : bool :=
  match kcmp a b with Some Gt | None => false | _ => true end.

(** [sorted(files, key=_crush)], [None] if it raises.  A comparison sort
    compares all neighbours of the sorted sequence, so if there is a pair that
    cannot be compared (which then are neighbours up to elements that cannot be
    compared with one of the two either) it raises. commands/load.py 70-77. *)
Definition sort_files (files : list string) : option (list string) :=
  match mapM crush files with
  | Err _ => None
  | Ok keys =>
      if forallb (fun a => forallb (fun b => match kcmp a b with Some _ => true | None => false end) keys) keys
      then Some (List.map snd (isort (fun p q => kleb (fst p) (fst q)) (combine keys files)))
      else None
  end.

(** load.py 67-81. *)
Definition has_wildcard (s : string) : bool := has_char "*" s || has_char "?" s || has_char "!" s.

Definition load_files (glob : string -> list string) (s : string) : list string :=
  if has_wildcard s then
    let files := List.filter (fun f => negb (contains "restart" f)) (glob s) in
    match sort_files files with Some l => l | None => files end
  else [s].

(** ** Options of [load]: load.py 9-25, 82-132

    An option not given is [None]; an empty string counts as not given. *)
Definition given (o : option string) : option string :=
  match o with Some EmptyString => None | _ => o end.

(** load.py 9-25. *)
Definition pick_cut (loc glob : option string) : option string :=
  match given loc, given glob with
  | Some l, Some _ => Some l
  | Some l, None => Some l
  | None, Some g => Some g
  | None, None => None
  end.

Record options := mk_options {
  o_cuts : list (option string);     (* z0 .. z5, component *)
  o_varname : list string;           (* repeatable *)
  o_c2p : option string;
  o_c2p_vel : option string
}.

(** commands/load.py 84-132: cuts, variables and mappings given to [load] or to pgkyl. *)
Record load_args := mk_load_args {
  l_cuts : list (option string);
  l_vars : list string;
  l_mapc2p : option string;
  l_mapc2p_vel : option string
}.

(** load.py 82-132. *)
Definition load_options (loc glob : options) : load_args :=
  let cuts := List.map (fun p => pick_cut (fst p) (snd p)) (combine (o_cuts loc) (o_cuts glob)) in
  let vars := match o_varname loc, o_varname glob with
              | (_ :: _) as l, _ => l
              | [], (_ :: _) as g => g
              | [], [] => ["CartGridField"%string]
              end in
  let m0 := match given (o_c2p loc), given (o_c2p glob) with
            | Some l, _ => Some l
            | None, g => g
            end in
  let (m, mv) := match given (o_c2p_vel loc), given (o_c2p_vel glob) with
                 | Some l, Some _ => (Some l, None)        (* line 119: assigned to [mapc2p_name] *)
                 | Some l, None => (m0, Some l)
                 | None, g => (m0, g)
                 end in
  let vars' := match vars with [v] => split_on "," v | _ => vars end in
  mk_load_args cuts vars' m mv.

(** ** The datasets of one [load]: load.py 134-150: one per variable and file,
    variables outermost. *)
Definition load_pairs (vars files : list string) : list (string * string) :=
  flat_map (fun v => List.map (fun f => (v, f)) files) vars.
