(** * Specification of block choices and balances, written from the help texts
    of the commands, independently of the loops in [Gk_Model]. *)
From Coq Require Import String Ascii ZArith List Bool Reals.
From Verif Require Import Prelude DataSpace_Spec Gk_Model.
Import ListNotations.
Open Scope string_scope.
Open Scope nat_scope.

(** Sum of [f] over a list. *)
Definition total {A} (f : A -> R) (l : list A) : R := fold_right Rplus 0%R (List.map f l).

(** The array [l] holds [f 0 .. f (T-1)]. *)
Definition holds (T : nat) (f : nat -> R) (l : list R) : Prop :=
  length l = T /\ forall t, t < T -> nth t l 0%R = f t.

(** Block numbers lie in 0..9999. *)
Definition max_blocks : nat := Z.to_nat 10000.

(** The number of blocks that the option [--multib] chooses; [pattern] finds
    the files of all blocks. *)
Inductive chosen (fs : files) (pattern : string) : string -> nat -> Prop :=
| chosen_single : chosen fs pattern "-10" 1
| chosen_all : chosen fs pattern "-1" (f_glob fs pattern)
| chosen_list zs : 2 <= length zs -> chosen fs pattern (join "," (List.map show_Z zs)) (length zs)
| chosen_slice a b ps : is_slice max_blocks a b 1 ps ->
    chosen fs pattern (show_opt a ++ ":" ++ show_opt b) (length ps)
| chosen_step a b c ps : c <> 0%Z -> is_slice max_blocks a b c ps ->
    chosen fs pattern (show_opt a ++ ":" ++ show_opt b ++ ":" ++ show_Z c) (length ps).

(** The name of a file of block [b]. *)
Definition file_name (o : opts) (b : nat) (rest : string) : string :=
  o_path o ++ "/" ++ o_name o ++
  (if String.eqb (o_multib o) "-10" then "" else "_b" ++ show_Z (Z.of_nat b)) ++ "-" ++ rest.

Definition fdot_of (o : opts) (b : nat) (sp : string) := file_name o b (sp ++ "_fdot_integrated_moms.gkyl").
Definition source_of (o : opts) (b : nat) (sp : string) := file_name o b (sp ++ "_source_integrated_moms.gkyl").
Definition flux_of (o : opts) (b : nat) (sp bd : string) :=
  file_name o b (sp ++ "_bflux_" ++ bd ++ "_integrated_HamiltonianMoments.gkyl").
Definition distf_of (o : opts) (b : nat) (sp : string) := file_name o b (sp ++ "_integrated_moms.gkyl").
Definition six : list string := ["xlower"; "xupper"; "ylower"; "yupper"; "zlower"; "zupper"].

(** A file of moments at [T] times, with more than [c] and more than one
    components. *)
Definition good (T c : nat) (h : hist) : Prop :=
  length (h_times h) = T /\ length (h_rows h) = T /\
  forall row, In row (h_rows h) -> c < length row /\ length row <> 1.

(** Moment [c] at time number [t]; zero if the file does not exist. *)
Definition moment (fs : files) (c : nat) (name : string) (t : nat) : R :=
  match f_moms fs name with
  | None => 0%R
  | Some h => nth c (nth t (h_rows h) []) 0%R
  end.

(** The same for a file of scalars. *)
Definition scalar (fs : files) (name : string) (t : nat) : R :=
  match f_scal fs name with None => 0%R | Some x => nth t (t_vals x) 0%R end.

(** No "*" in path and name, and no file options. *)
Definition plain (o : opts) : Prop :=
  has_char "*" (o_path o) = false /\ has_char "*" (o_name o) = false /\
  o_fdot_file o = [] /\ o_source_file o = [] /\ (forall b, o_bflux_file o b = []) /\
  o_f_file o = [] /\ o_field_dot_file o = [] /\ o_field_file o = [].

(** The files of a species in a block: the required one is there and all
    present ones cover the same [T] times. *)
Definition files_ok (fs : files) (o : opts) (T c b : nat) (sp : string) : Prop :=
  (exists h, f_moms fs (fdot_of o b sp) = Some h) /\
  forall name h, In name (fdot_of o b sp :: source_of o b sp :: List.map (flux_of o b sp) six) ->
    f_moms fs name = Some h -> good T c h.

(** The terms of the balance at time number [t], summed over blocks, species
    and boundaries. *)
Definition change fs o c n sps t :=
  total (fun b => total (fun sp => moment fs c (fdot_of o b sp) t) sps) (seq 0 n).
Definition source fs o c n sps t :=
  total (fun b => total (fun sp => moment fs c (source_of o b sp) t) sps) (seq 0 n).
Definition flux fs o c n sps t :=
  total (fun b => total (fun sp => total (fun bd => moment fs c (flux_of o b sp bd) t) six) sps) (seq 0 n).
Definition content fs o c n sps t :=
  total (fun b => total (fun sp => moment fs c (distf_of o b sp) t) sps) (seq 0 n).
Definition field_rate fs o n t := total (fun b => scalar fs (file_name o b "field_energy_dot.gkyl") t) (seq 0 n).
Definition field_energy fs o n t := total (fun b => scalar fs (file_name o b "field_energy.gkyl") t) (seq 0 n).

(** Does the file exist? *)
Definition present (fs : files) (name : string) : bool :=
  match f_moms fs name with Some _ => true | None => false end.
Definition times_of (fs : files) (name : string) : list R :=
  match f_moms fs name with Some h => h_times h | None => [] end.
