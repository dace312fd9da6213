(** * Specification of index strings, tag lists and dataset positions, written
    from the Python documentation and the help texts of commands/status.py,
    independently of [DataSpace_Model]'s loops. *)
From Coq Require Import String Ascii List Arith ZArith Bool Sorted.
From Verif Require Import Prelude DataSpace_Model.
Import ListNotations.
Open Scope list_scope.

(** Negative indices count from the end. *)
Definition from_end (n : nat) (i : Z) : Z := if (i <? 0)%Z then (i + Z.of_nat n)%Z else i.

(** Position [k] belongs to [start:stop:step] of a list of length [n]. *)
Definition in_slice (n : nat) (start stop : option Z) (step : Z) (k : nat) : Prop :=
  (k < n)%nat /\
  if (0 <? step)%Z then
    let lo := Z.max 0 (match start with None => 0%Z | Some i => from_end n i end) in
    let hi := match stop with None => Z.of_nat n | Some j => from_end n j end in
    (lo <= Z.of_nat k < hi)%Z /\ (step | Z.of_nat k - lo)%Z
  else
    let lo := Z.min (Z.of_nat n - 1)
                (match start with None => (Z.of_nat n - 1)%Z | Some i => from_end n i end) in
    let hi := match stop with None => (-1)%Z | Some j => from_end n j end in
    (hi < Z.of_nat k <= lo)%Z /\ (step | lo - Z.of_nat k)%Z.

(** The positions of a slice, in order. *)
Definition is_slice (n : nat) (start stop : option Z) (step : Z) (ps : list nat) : Prop :=
  (forall k, In k ps <-> in_slice n start stop step k) /\
  if (0 <? step)%Z then StronglySorted lt ps else StronglySorted gt ps.

Definition show_opt (o : option Z) : string :=
  match o with None => ""%string | Some z => show_Z z end.

(** The index option [--index] picks the positions [ps] from [n] datasets. *)
Inductive picks (n : nat) : option string -> list nat -> Prop :=
| picks_all : picks n None (seq 0 n)
| picks_list zs ps :
    zs <> [] ->
    Forall2 (fun z p => (0 <= from_end n z < Z.of_nat n)%Z /\ Z.of_nat p = from_end n z) zs ps ->
    picks n (Some (join "," (List.map show_Z zs))) ps
| picks_slice a b ps :
    is_slice n a b 1 ps ->
    picks n (Some (show_opt a ++ ":" ++ show_opt b)%string) ps
| picks_step a b c ps :
    c <> 0%Z -> is_slice n a b c ps ->
    picks n (Some (show_opt a ++ ":" ++ show_opt b ++ ":" ++ show_Z c)%string) ps.

(** The tag option names the tags [ts]. *)
Inductive names {X} (ds : dspace X) : option string -> list string -> Prop :=
| names_all : names ds None (List.map fst ds)
| names_list ts :
    ts <> [] -> join "," ts <> ""%string ->
    Forall (fun t => has_char "," t = false) ts ->
    names ds (Some (join "," ts)) ts.

(** The datasets picked by a tag and an index option, in order: [pos t] are
    the positions picked under tag [t]. *)
Definition selected (ts : list string) (pos : string -> list nat) : list ref :=
  flat_map (fun t => List.map (pair t) (pos t)) ts.

Definition picks_under {X} (ds : dspace X) (index : option string) (ts : list string)
    (pos : string -> list nat) : Prop :=
  forall t, In t ts -> exists l, aget t ds = Some l /\ picks (length l) index (pos t).

Definition is_active {X} (ds : dspace X) (r : ref) : bool :=
  match lookup ds r with Some d => ds_status d | None => false end.
