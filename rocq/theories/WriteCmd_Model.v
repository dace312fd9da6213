(** * Model of the [write] command (commands/write.py): which dataset goes to
    which file. *)
From Coq Require Import String Ascii List Arith ZArith NArith Bool.
From Verif Require Import Prelude NdArray GData_Model Write_Model DataSpace_Model.
Import ListNotations.
Open Scope list_scope.

(** write.py 27-32: the name and the mode actually used.  [mode] is the value
    of [--mode]. *)
Definition name_and_mode (filename mode : string) : string * string :=
  match split_on "." filename with
  | s0 :: _ :: _ => (s0, last (split_on "." filename) ""%string)
  | _ => (filename, mode)
  end.

(** gdata.py 461-463, 486-489: an empty mode leaves the default extension. *)
Definition extension_of (mode : string) : string := if String.eqb mode "" then "gkyl"%string else mode.

(** write.py 34-51 without [--single]: the files written, in order, with the
    datasets they come from.  Writing does not change tags, positions or status
    of the datasets. *)
Definition write_files {X} (ds : dspace X) (use : option string) (filename mode : string)
  : res (list (ref * string)) :=
  let (fn, md) := name_and_mode filename mode in
  let* num := get_num_datasets ds use true in
  let* vs := visits ds use true true SelNone in
  Ok (List.map (fun v =>
        let out := if (1 <? num)%nat then (fn ++ "_" ++ show_N (N.of_nat (fst v)) ++ "." ++ md)%string
                   else (fn ++ "." ++ md)%string in
        let file := match lookup ds (snd v) with Some d => ds_file d | None => ""%string end in
        (snd v, out_name file out (extension_of md))) vs).

(** write.py 37-39, 46-50 with [--single]: everything goes to one file, each
    dataset under its own variable name (tag and number). *)
Definition write_single {X} (ds : dspace X) (use : option string) (filename mode : string)
  : res (string * list (ref * string)) :=
  let (fn, md) := name_and_mode filename mode in
  let* num := get_num_datasets ds use true in
  let* vs := visits ds use true true SelNone in
  Ok ((fn ++ "." ++ md)%string,
      List.map (fun v => (snd v, (fst (snd v) ++ "_" ++ show_N (N.of_nat (fst v)))%string)) vs).
