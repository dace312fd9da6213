(** * Model of utils/input_parser.py and of the tools that chain through it

    What a tool may be handed by a script: a dataset, an array, a tuple or list
    of grid and values, or anything else.  Arrays are the ones of NdArray over
    the reals. *)
From Coq Require Import String Ascii List Arith ZArith Bool Lia Reals.
From Verif Require Import Prelude NdArray Ev_Model Tools_Arr Tools_Model.
Import ListNotations.
Open Scope list_scope.
Open Scope nat_scope.

(** Python objects as far as input_parser tells them apart (33-48).  A dataset
    has a grid and values; both are [None] (an [OtherO]) before anything is
    loaded (data/gdata.py 259-260 and 277-278 return what is stored). *)
Inductive pyobj :=
| DataO (grid values : pyobj)
| ArrayO (a : arr)
| TupleO (items : list pyobj)
| ListO (items : list pyobj)
| OtherO.

(** input_parser.py 38-44: the two items of a tuple or list. *)
Definition parse_pair (g v : pyobj) : res (pyobj * pyobj) :=
  match g with
  | ListO axes =>
      match v with
      | ArrayO a =>
          (* len(data[1].shape)-1 may be -1, which no length equals *)
          if negb (length axes =? length (shape a)) && negb (Z.of_nat (length axes) =? Z.of_nat (length (shape a)) - 1)%Z
          then Err ValueError else Ok (g, v)
      | _ => Err TypeError
      end
  | _ => Err TypeError
  end.

(** input_parser.py 32-48. *)
Definition parse_input (x : pyobj) : res (pyobj * pyobj) :=
  match x with
  | DataO g v => Ok (g, v)
  | ArrayO a => Ok (TupleO [], x)
  | TupleO [g; v] | ListO [g; v] => parse_pair g v
  | TupleO _ | ListO _ | OtherO => Err TypeError
  end.

(** [values[..., k]] and the like: [None], tuples and lists cannot be indexed
    so.  (A dataset stored as the values of another one is not considered: also
    TypeError.) tools/prim_vars.py 15 and throughout. *)
Definition as_array (x : pyobj) : res arr :=
  match x with ArrayO a => Ok a | _ => Err TypeError end.

(** The shape of all tools of one input, e.g. tools/prim_vars.py 12-20,
    tools/mag_sq.py 28-42: parse, compute, return the grid and the new values.
    (Tools such as get_vx parse their input once more for each quantity they
    are made of; that gives the same.) *)
Definition tool1 (f : arr -> res arr) (x : pyobj) : res (pyobj * pyobj) :=
  let* (g, v) := parse_input x in
  let* a := as_array v in
  let* o := f a in
  Ok (g, ArrayO o).

(** tools/pressure_diagnostics.py 52-72, 84-95, 109-148: pressure tensor and
    field; the grid is the one mag_sq returns for the field. *)
Definition tool2 (f : arr -> arr -> res arr) (p b : pyobj) : res (pyobj * pyobj) :=
  let* (_, pv) := parse_input p in
  let* (bg, bv) := parse_input b in
  let* pa := as_array pv in
  let* ba := as_array bv in
  let* o := f pa ba in
  Ok (bg, ArrayO o).

(** tools/pressure_diagnostics.py 75-81, 98-106, 151-157: ten-moment data and an
    electromagnetic field; pressure tensor and magnetic field are handed on as
    tuples. *)
Definition tool_10m (f : arr -> arr -> res arr) (species field : pyobj) : res (pyobj * pyobj) :=
  let* (pg, pv) := tool1 get_pij species in
  let* (fg, fv) := parse_input field in
  let* fa := as_array fv in
  let* b := cols 3 6 fa in
  tool2 f (TupleO [pg; pv]) (TupleO [fg; ArrayO b]).

(** get_gkyl_10m_p_par (75-81), get_gkyl_10m_p_perp (98-106) and
    get_gkyl_10m_agyro (151-157). *)
Definition p_par_10m := tool_10m get_p_par.
Definition p_perp_10m := tool_10m get_p_perp.
Definition agyro_10m (measure : string) := tool_10m (get_agyro measure).
