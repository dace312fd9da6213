(** * commands/style.py, utils/load_style.py, pgkyl.py 131-133 and output/plot.py 90-136 *)
From Coq Require Import String Ascii List Arith Bool.
From Verif Require Import Prelude.
Import ListNotations.
Open Scope list_scope.
Open Scope string_scope.

(** ** Strings *)

(** White space of [str.strip] among the ASCII characters. utils/load_style.py 9-10. *)
Definition is_space (c : ascii) : bool :=
  let n := nat_of_ascii c in ((9 <=? n) && (n <=? 13) || (28 <=? n) && (n <=? 32))%nat.

(** [s.strip()]. utils/load_style.py 9-10, commands/style.py 24-25. *)
Fixpoint lstrip (s : string) : string :=
  match s with "" => "" | String c s' => if is_space c then lstrip s' else s end.
(** utils/load_style.py 9-10, commands/style.py 24-25. *)
Fixpoint rstrip (s : string) : string :=
  match s with
  | "" => ""
  | String c s' => match rstrip s' with "" => if is_space c then "" else String c "" | r => String c r end
  end.
(** utils/load_style.py 9-10, commands/style.py 24-25. *)
Definition strip (s : string) : string := rstrip (lstrip s).

(** [s[n:]]. utils/load_style.py 10, commands/style.py 25. *)
Fixpoint from (n : nat) (s : string) : string :=
  match n, s with S n', String _ s' => from n' s' | _, _ => s end.

(** [s[a:-1]]. *)
Definition slice_but_last (a : nat) (s : string) : string := from a (String.substring 0 (String.length s - 1) s).

(** [fh.readlines()]: lines with their newline; carriage returns are not modelled. utils/load_style.py 6. *)
Definition newline : ascii := "010".
(** utils/load_style.py 6. *)
Fixpoint readlines (s : string) : list string :=
  match s with
  | "" => []
  | String c s' =>
      if Ascii.eqb c newline then String c "" :: readlines s'
      else match readlines s' with [] => [String c ""] | l :: ls => String c l :: ls end
  end.

(** ** The dictionary [ctx.obj["rcParams"]] *)
Section Style.
  (** What the right-hand side of a colour cycle evaluates to. *)
  Context {A : Type}.
  (** Python's [eval] followed by [cycler(color=arg)] (load_style.py 12-13). *)
  Context (eval_cycle : string -> res A).
  (** How a cycle prints its list of colours, in [cycler('color', ...)]. *)
  Context (show_colors : A -> string).

  (** utils/load_style.py 10-14. *)
  Inductive value := Text (s : string) | Cycle (a : A).

  (** [ctx.obj["rcParams"]], utils/load_style.py 15. *)
  Definition dict := list (string * value).

  (** [d[k] = v]: a key that is there keeps its place. utils/load_style.py 15, commands/style.py 26. *)
  Fixpoint set (k : string) (v : value) (d : dict) : dict :=
    match d with
    | [] => [(k, v)]
    | (k', v') :: d' => if String.eqb k' k then (k, v) :: d' else (k', v') :: set k v d'
    end.

  (** commands/style.py 31. *)
  Fixpoint get (k : string) (d : dict) : option value :=
    match d with [] => None | (k', v) :: d' => if String.eqb k' k then Some v else get k d' end.

  (** load_style.py 7-10 and style.py 24-26: key and value of a line or an argument. *)
  Definition key_value (line : string) : string * string :=
    let key := List.hd "" (split_on ":" line) in
    (strip key, strip (from (String.length key + 1) line)).

  (** load_style.py 7-15. *)
  Definition load_line (d : dict) (line : string) : res dict :=
    let (key, value) := key_value line in
    if String.eqb (String.substring 0 6 value) "cycler" then
      let* a := eval_cycle (slice_but_last 16 value) in Ok (set key (Cycle a) d)
    else Ok (set key (Text value) d).

  Fixpoint load_lines (d : dict) (ls : list string) : res dict :=
    match ls with [] => Ok d | l :: ls' => let* d' := load_line d l in load_lines d' ls' end.

  (** load_style.py 4-17, for a file that can be read. *)
  Definition load_style (d : dict) (text : string) : res dict := load_lines d (readlines text).

  (** pgkyl.py 131-133: the file is the one of [--style] or the one that comes
      with the package. *)
  Definition start (style_option : option string) (default_file : string) : res dict :=
    load_style [] (match style_option with Some text => text | None => default_file end).

  (** style.py 23-27. *)
  Definition set_param (d : dict) (param : string) : dict :=
    let (key, value) := key_value param in set key (Text value) d.

  (** style.py 18-33: the new dictionary and the lines printed. *)
  Record style_options := { file : option string; sets : list string; print : bool }.

  Definition show_value (v : value) : string :=
    match v with Text s => s | Cycle a => "cycler('color', " ++ show_colors a ++ ")" end.

  (** commands/style.py 18-33. *)
  Definition style (d : dict) (o : style_options) : res (dict * list string) :=
    let* d := match file o with Some text => load_style d text | None => Ok d end in
    let d := fold_left set_param (sets o) d in
    Ok (d, if print o then List.map (fun kv => fst kv ++ " : " ++ show_value (snd kv)) d else []).

  (** ** The settings of Matplotlib *)

  (** What Matplotlib stores for a value given to a key; unknown keys and wrong
      values raise. *)
  Context {W : Type} (validate : string -> value -> res W).
  (** [mpl.rcParams], output/plot.py 97. *)
  Definition settings := string -> option W.

  (** [mpl.rcParams[k] = v]. output/plot.py 97, 109-117, 129-135. *)
  Definition rc_set (rc : settings) (k : string) (v : value) : res settings :=
    let* w := validate k v in Ok (fun k' => if String.eqb k' k then Some w else rc k').

  (** plot.py 94-95. *)
  Fixpoint rc_all (rc : settings) (d : dict) : res settings :=
    match d with [] => Ok rc | (k, v) :: d' => let* rc' := rc_set rc k v in rc_all rc' d' end.

  (** [plt.style.use] and [plt.xkcd()]. *)
  Context (style_use : string -> settings -> res settings) (use_xkcd : settings -> settings).

  (** The options of [plot] that change settings; an empty text counts as not given
      (so does a line width of 0, which is [None] here). *)
  Record plot_options := {
    o_style : string; o_cmap : string; o_diverging : bool; o_jet : bool; o_xkcd : bool;
    o_color : string; o_linewidth : option string; o_linestyle : string }.

  Definition rc_if (rc : settings) (s k : string) : res settings :=
    if String.eqb s "" then Ok rc else rc_set rc k (Text s).

  (** plot.py 90-136. *)
  Definition plot_settings (default_path : string) (d : dict) (o : plot_options) (rc : settings) : res settings :=
    let* rc :=
      if negb (String.eqb (o_style o) "") then style_use (o_style o) rc
      else match d with [] => style_use default_path rc | _ => rc_all rc d end in
    let* rc :=
      if negb (String.eqb (o_cmap o) "") then rc_set rc "image.cmap" (Text (o_cmap o))
      else if o_diverging o then rc_set rc "image.cmap" (Text "RdBu_r") else Ok rc in
    let* rc := if o_jet o then rc_set rc "image.cmap" (Text "jet") else Ok rc in
    let rc := if o_xkcd o then use_xkcd rc else rc in
    let* rc := rc_if rc (o_color o) "lines.color" in
    let* rc := match o_linewidth o with Some w => rc_set rc "lines.linewidth" (Text w) | None => Ok rc end in
    rc_if rc (o_linestyle o) "lines.linestyle".
End Style.
Arguments value : clear implicits.
Arguments dict : clear implicits.
