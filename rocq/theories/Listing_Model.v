(** * commands/listoutputs.py *)
From Coq Require Import String Ascii List Arith Bool.
From Verif Require Import Prelude Sort.
Import ListNotations.
Open Scope list_scope.
Open Scope string_scope.

(** [s.endswith(p)]. commands/listoutputs.py 24. *)
Fixpoint ends_with (p s : string) : bool :=
  String.eqb s p || match s with "" => false | String _ s' => ends_with p s' end.

(** [s[:-n]] for [n > 0]. *)
Definition drop_last (n : nat) (s : string) : string := String.substring 0 (String.length s - n) s.

(** listoutputs.py 18: [glob(f"*.{ext}")] among the names in the directory, in the
    order of the directory. The star does not match names that start with a dot.
    Extensions with wildcards or slashes are not modelled. *)
Definition matches (ext fn : string) : bool := negb (starts_with "." fn) && ends_with ("." ++ ext) fn.

(** listoutputs.py 28: [re.sub(r"_\d+$", "", s)]; the leftmost place where an
    underscore is followed by digits up to the end (other than ASCII digits, and a
    newline at the end of a name, are not modelled). *)
Fixpoint strip_number (s : string) : string :=
  match s with
  | "" => ""
  | String a s' => if Ascii.eqb a "_" && is_digits s' then "" else String a (strip_number s')
  end.

(** listoutputs.py 21-28. *)
Definition stem (ext fn : string) : string :=
  let s := drop_last (String.length ext + 1) fn in
  let s := if ends_with "_restart" s then drop_last 8 s else s in
  strip_number s.

(** listoutputs.py 19-32: stems that are not in the list yet are appended. *)
Definition unique (l : list string) : list string :=
  fold_left (fun u s => if existsb (String.eqb s) u then u else (u ++ [s])%list) l [].

(** listoutputs.py 17-39, one extension: the lines printed. *)
Definition listing (dir : list string) (ext : string) : list string :=
  let u := unique (List.map (stem ext) (List.filter (matches ext) dir)) in
  ((if (0 <? List.length u)%nat then [(ext ++ ":")%string] else [])
  ++ List.map (fun s => ("- " ++ s)%string) (isort String.leb u))%list.

(** listoutputs.py 13-40. *)
Definition listoutputs (dir : list string) (extensions : string) : list string :=
  List.concat (List.map (listing dir) (split_on "," extensions)).
