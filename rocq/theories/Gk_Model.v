(** * The gyrokinetic helpers and balance commands

    Models of utils/gkeyll_enums.py, utils/gk_utils.py (block selection),
    commands/gk_particle_balance.py, commands/gk_energy_balance.py and the
    frame selection of commands/gk_distf.py. *)
From Coq Require Import String Ascii ZArith List Bool Reals Lra.
From Verif Require Import Prelude Sort.
Import ListNotations.
Open Scope string_scope.
Open Scope nat_scope.

(** ** utils/gkeyll_enums.py *)

(** Lines 6-12. *)
Definition gkyl_geometry_id : list string :=
  ["GKYL_GEOMETRY_NONE"; "GKYL_GEOMETRY_TOKAMAK"; "GKYL_GEOMETRY_MIRROR";
   "GKYL_GEOMETRY_MAPC2P"; "GKYL_GEOMETRY_FROMFILE"].

(** Lines 14-17: [enum[idx]]. *)
Definition enum_idx_to_key (enum : list string) (idx : Z) : res string :=
  let* p := norm_index (length enum) idx in
  match nth_error enum p with Some k => Ok k | None => Err IndexError end.

(** Lines 20-22: [enum.index(key)], the first position of the key. *)
Fixpoint index_from (i : Z) (key : string) (enum : list string) : res Z :=
  match enum with
  | [] => Err ValueError
  | k :: enum' => if String.eqb k key then Ok i else index_from (i + 1) key enum'
  end.
Definition enum_key_to_idx (enum : list string) (key : string) : res Z := index_from 0 key enum.

(** commands/gk_nodes.py 16-27: [ctx] holds the metadata entry "geometry_type"
    if the file has one. *)
Definition is_geo_mapc2p (geometry_type : option Z) : res bool :=
  match geometry_type with
  | None => Ok true
  | Some g => let* i := enum_key_to_idx gkyl_geometry_id "GKYL_GEOMETRY_MAPC2P" in Ok (i =? g)%Z
  end.

(** ** utils/gk_utils.py: block selection *)

(** Line 12. *)
Definition max_num_blocks : nat := Z.to_nat 10000.

(** Line 82: [int(p) if p else None]. *)
Definition slice_part (p : string) : res (option Z) :=
  if String.eqb p "" then Ok None else let* z := py_int p in Ok (Some z).

(** Lines 75-87: the arguments of [slice]; with one argument it is the stop. *)
Definition parse_slice_string (value : string) : res (option Z * option Z * option Z) :=
  let* parts := mapM slice_part (split_on ":" value) in
  match parts with
  | [b] => Ok (None, b, None)
  | [a; b] => Ok (a, b, None)
  | [a; b; c] => Ok (a, b, c)
  | _ => Err TypeError
  end.

(** Lines 123-124. *)
Definition blocks_of_slice (multib : string) : res (list Z) :=
  let* (a, b, c) := parse_slice_string multib in
  let* ps := slice_list max_num_blocks a b c in
  Ok (List.map Z.of_nat ps).

(** Lines 89-130.  [glob] gives the number of files matching a pattern. *)
Definition get_block_indices (glob : string -> nat) (multib file_path_name : string) : res (list Z) :=
  if String.eqb multib "-10" then Ok [0%Z]
  else if String.eqb multib "-1" then Ok (List.map Z.of_nat (seq 0 (glob file_path_name)))
  else if has_char "," multib then mapM py_int (split_on "," multib)
  else if has_char ":" multib then blocks_of_slice multib
  else match py_int multib with
       | Ok z => Ok [z]
       | Err ValueError => Err NameError
       | Err e => Err e
       end.

(** ** The balance commands *)

(** [str.replace(pat, rep)], [pat] not empty; [skip] counts the characters of
    a match still to be dropped. commands/gk_particle_balance.py 213, 217, 228, 243. *)
Fixpoint replace_from (skip : nat) (pat rep s : string) : string :=
  match s with
  | "" => ""
  | String c s' =>
      match skip with
      | S k => replace_from k pat rep s'
      | 0 =>
          if starts_with pat s then rep ++ replace_from (String.length pat - 1) pat rep s'
          else String c (replace_from 0 pat rep s')
      end
  end.
Definition replace (pat rep s : string) : string := replace_from 0 pat rep s.

(** A dynamic-vector file: time stamps and one row of components per time
    stamp.  [times] and [rows] have equal length in a file written by
    Gkeyll. Read at commands/gk_particle_balance.py 115-125. *)
Record hist := Hist { h_times : list R; h_rows : list (list R) }.

(** A file with one component.
    Read at commands/gk_particle_balance.py 115-125 and the same lines of commands/gk_energy_balance.py. *)
Record trace := Trace { t_times : list R; t_vals : list R }.

(** The files on disk by name.  Files of integrated moments and files of
    scalars (field energies and time step) are kept apart; a scalar file is
    assumed to have one component.  [f_glob] counts the files matching a
    pattern. commands/gk_particle_balance.py 115-125, 189. *)
Record files := Files {
  f_moms : string -> option hist;
  f_scal : string -> option trace;
  f_glob : string -> nat }.

(** [np.squeeze(val)[:, c]] for [val] with one row per time stamp: squeezing
    drops an axis of length one, after which two indices are too many.
    commands/gk_particle_balance.py 256-264. *)
Definition column (c : nat) (h : hist) : res (list R) :=
  match h_rows h with
  | [_] => Err IndexError
  | rows =>
      mapM (fun row => if length row =? 1 then Err IndexError
                       else match nth_error row c with Some x => Ok x | None => Err IndexError end) rows
  end.

(** [a += b] for one-dimensional arrays.  A squeezed file with a single time
    stamp is an array without axes, which behaves here as one of length
    one. commands/gk_particle_balance.py 148, 271. *)
Definition iadd (a b : list R) : res (list R) :=
  if length b =? length a then Ok (map2 Rplus a b)
  else match b with
       | [y] => Ok (List.map (fun x => (x + y)%R) a)
       | _ => Err ValueError
       end.

(** Element-wise operation with broadcasting of arrays of length one. commands/gk_particle_balance.py 291. *)
Definition bcast (op : R -> R -> R) (a b : list R) : res (list R) :=
  if length a =? length b then Ok (map2 op a b)
  else match a, b with
       | [x], _ => Ok (List.map (op x) b)
       | _, [y] => Ok (List.map (fun x => op x y) a)
       | _, _ => Err ValueError
       end.

(** gk_particle_balance.py 141-149, gk_energy_balance.py 149-157. *)
Definition accumulate_or_assign (target : option (list R)) (old : list R) : res (option (list R)) :=
  match target with
  | None => Ok (Some old)
  | Some t => let* t' := iadd t old in Ok (Some t')
  end.

(** The options of both commands that matter here.  All file options except
    [dt_file] are declared with [multiple=True], so click passes a tuple.
    commands/gk_particle_balance.py 12-58. *)
Record opts := Opts {
  o_name : string;
  o_species : string;
  o_path : string;
  o_rel : bool;
  o_multib : string;
  o_fdot_file : list string;
  o_source_file : list string;
  o_bflux_file : string -> list string;  (* by "xlower", ... *)
  o_f_file : list string;
  o_field_dot_file : list string;
  o_field_file : list string;
  o_dt_file : option string }.

(** [kwargs["path"] + kwargs[...].replace(...)] if the option is given: a tuple
    has no [replace]. commands/gk_particle_balance.py 216-219, 227-230, 242-245. *)
Definition file_or (given : list string) (default : string) : res string :=
  match given with [] => Ok default | _ => Err AttributeError end.

(** gk_particle_balance.py 173-204, gk_energy_balance.py 184-217: the prefix and
    the number of blocks.  [first] is the species used in the search for
    blocks; [star] is the error raised when [--fdot_file] is given too. *)
Definition prefix_of (o : opts) : string :=
  o_path o ++ "/" ++ o_name o ++ (if String.eqb (o_multib o) "-10" then "-" else "_b*-").

Definition num_blocks (fs : files) (o : opts) (first : string) : res nat :=
  if String.eqb (o_multib o) "-10" then Ok 1
  else if String.eqb (o_multib o) "-1" then
    match o_fdot_file o with
    | [] => Ok (f_glob fs (prefix_of o ++ first ++ "_fdot_integrated_moms.gkyl"))
    | _ => Err TypeError
    end
  else if has_char "," (o_multib o) then
    let* bs := mapM py_int (split_on "," (o_multib o)) in Ok (length bs)
  else if has_char ":" (o_multib o) then
    let* bs := blocks_of_slice (o_multib o) in Ok (length bs)
  else Err NameError.

(** [str(bI)]. commands/gk_particle_balance.py 213. *)
Definition block_prefix (o : opts) (b : nat) : string :=
  replace "*" (show_Z (Z.of_nat b)) (prefix_of o).

(** The boundaries in the order of the loops over [dirs] and [edges].
    commands/gk_particle_balance.py 91-92, 240-241. *)
Definition boundaries : list string :=
  flat_map (fun d => List.map (fun e => d ++ e) ["lower"; "upper"]) ["x"; "y"; "z"].

(** What is read for one species in one block. commands/gk_particle_balance.py 215-273. *)
Record part := Part {
  p_time_fdot : list R; p_fdot : list R;
  p_time_src : option (list R); p_src : list R;
  p_time_bflux : list (list R); p_bflux : list R }.

(** Lines 240-253 of gk_particle_balance.py: the boundary flux files present. *)
Fixpoint read_bflux (fs : files) (o : opts) (pre : string) (bs : list string) : res (list hist) :=
  match bs with
  | [] => Ok []
  | b :: bs' =>
      let* name := file_or (o_bflux_file o b) (pre ++ "_bflux_" ++ b ++ "_integrated_HamiltonianMoments.gkyl") in
      let* rest := read_bflux fs o pre bs' in
      Ok (match f_moms fs name with Some h => h :: rest | None => rest end)
  end.

(** [bflux_tot = bflux[0]; for i in range(1, n): bflux_tot += bflux[i]]. *)
Fixpoint sum_into (t : list R) (l : list (list R)) : res (list R) :=
  match l with
  | [] => Ok t
  | a :: l' => let* t' := iadd t a in sum_into t' l'
  end.

(** gk_particle_balance.py 215-273 with [c = 0], gk_energy_balance.py 246-304
    with [c = 2]; [pre] is the block prefix followed by the species. *)
Definition read_part (fs : files) (o : opts) (c : nat) (pre : string) : res part :=
  let* fdot_file := file_or (o_fdot_file o) (pre ++ "_fdot_integrated_moms.gkyl") in
  match f_moms fs fdot_file with
  | None => Err OSError
  | Some hf =>
      let* src_file := file_or (o_source_file o) (pre ++ "_source_integrated_moms.gkyl") in
      let hs := f_moms fs src_file in
      let* hb := read_bflux fs o pre boundaries in
      let* fdot := column c hf in
      let* src := match hs with Some h => column c h | None => Ok (List.map (fun x => (0 * x)%R) fdot) end in
      let* bs := mapM (column c) hb in
      let* bflux := match bs with
                    | [] => Ok (List.map (fun x => (0 * x)%R) fdot)
                    | b :: bs' => sum_into b bs'
                    end in
      Ok (Part (h_times hf) fdot (option_map h_times hs) src (List.map h_times hb) bflux)
  end.

(** A dataset added to the data space: tag, grid and values.  The grid of the
    flux is the list of the time stamps of every boundary. commands/gk_particle_balance.py 317-331. *)
Inductive grid := GArr (t : list R) | GList (ts : list (list R)).
Record out := Out { o_tag : string; o_grid : grid; o_vals : list R }.

(** [None] where an array is expected. commands/gk_particle_balance.py 288-304. *)
Definition need (x : option (list R)) : res (list R) :=
  match x with Some l => Ok l | None => Err TypeError end.

(** [ax.plot(x, y)] refuses arrays of different lengths. commands/gk_particle_balance.py 294-304. *)
Definition plot (x y : list R) : res unit :=
  if length x =? length y then Ok tt else Err ValueError.

(** [a[1:]] of an array without axes is an error. *)
Definition rest1 (a : list R) : res (list R) :=
  match a with [_] => Err IndexError | _ => Ok (tl a) end.

(** The accumulated arrays of the particle balance. commands/gk_particle_balance.py 208-210, 276-278. *)
Record sums := Sums { s_fdot : option (list R); s_src : option (list R); s_bflux : option (list R); s_last : option part }.

(** Lines 211-278. *)
Fixpoint particle_loop (fs : files) (o : opts) (bs : list nat) (s : sums) : res sums :=
  match bs with
  | [] => Ok s
  | b :: bs' =>
      let* p := read_part fs o 0 (block_prefix o b ++ o_species o) in
      let* fdot := accumulate_or_assign (s_fdot s) (p_fdot p) in
      let* src := accumulate_or_assign (s_src s) (p_src p) in
      let* bflux := accumulate_or_assign (s_bflux s) (p_bflux p) in
      particle_loop fs o bs' (Sums fdot src bflux (Some p))
  end.

(** Lines 344-361: the integrated moments of the distribution function. *)
Fixpoint distf_loop (fs : files) (o : opts) (c : nat) (pres : list string) (acc : option (list R)) : res (option (list R)) :=
  match pres with
  | [] => Ok acc
  | pre :: pres' =>
      let* name := file_or (o_f_file o) (pre ++ "_integrated_moms.gkyl") in
      match f_moms fs name with
      | None => Err TypeError
      | Some h =>
          let* d := column c h in
          let* acc' := accumulate_or_assign acc d in
          distf_loop fs o c pres' acc'
      end
  end.

(** Lines 336-339. *)
Definition dt_name (o : opts) : string :=
  match o_dt_file o with
  | Some f => if String.eqb f "" then replace "_b*" "" (prefix_of o) ++ "dt.gkyl" else o_path o ++ "/" ++ f
  | None => replace "_b*" "" (prefix_of o) ++ "dt.gkyl"
  end.

(** Lines 211-386: the datasets added to the data space.  The drawing itself
    is not modelled apart from the length check of [plot]; with no block read
    the names assigned in the loop are unbound, but a [TypeError] on [None]
    comes first.  [time_fdot] is only used when a block was read. *)
Definition gk_particle_balance (fs : files) (o : opts) : res (list out) :=
  let* n := num_blocks fs o (o_species o) in
  let* s := particle_loop fs o (seq 0 n) (Sums None None None None) in
  if negb (o_rel o) then
    let* src := need (s_src s) in
    let* bflux := need (s_bflux s) in
    let* fdot := need (s_fdot s) in
    match src, s_last s with
    | [], _ => Err IndexError
    | _ :: src', Some p =>
        let src := 0%R :: src' in
        let* d := bcast Rminus src bflux in
        let* err := bcast Rminus d fdot in
        let* _ := plot (p_time_fdot p) fdot in
        let* _ := match p_time_src p with Some t => plot t src | None => Ok tt end in
        let* _ := match p_time_bflux p with t :: _ => plot t bflux | [] => Ok tt end in
        let* _ := plot (p_time_fdot p) err in
        Ok (([Out "fdot" (GArr (p_time_fdot p)) fdot] ++
            match p_time_src p with Some t => [Out "src" (GArr t) src] | None => [] end ++
            match p_time_bflux p with [] => [] | ts => [Out "bflux" (GList ts) (List.map Ropp bflux)] end ++
            [Out "err" (GArr (p_time_fdot p)) err])%list)
    | _, None => Err UnboundLocalError (* unreachable: [src] is not None *)
    end
  else
    match f_scal fs (dt_name o) with
    | None => Err AttributeError
    | Some dt =>
        let* distf := distf_loop fs o 0 (List.map (fun b => block_prefix o b ++ o_species o) (seq 0 n)) None in
        let* fdot := need (s_fdot s) in
        let* src := need (s_src s) in
        let* bflux := need (s_bflux s) in
        let* distf := need distf in
        let* d := bcast Rminus (tl src) (tl bflux) in
        let* err := bcast Rminus d (tl fdot) in
        let* a := bcast Rmult err (t_vals dt) in
        let* q := bcast Rdiv a (tl distf) in
        let* _ := plot (t_times dt) q in
        Ok [Out "rel_err" (GArr (t_times dt)) q]
    end.

(** ** The energy balance *)

(** gk_energy_balance.py 243-309: the sums over the species of a block. *)
Fixpoint species_loop (fs : files) (o : opts) (pre : string) (species : list string) (s : sums) : res sums :=
  match species with
  | [] => Ok s
  | sp :: species' =>
      let* p := read_part fs o 2 (pre ++ sp) in
      let* fdot := accumulate_or_assign (s_fdot s) (p_fdot p) in
      let* src := accumulate_or_assign (s_src s) (p_src p) in
      let* bflux := accumulate_or_assign (s_bflux s) (p_bflux p) in
      species_loop fs o pre species' (Sums fdot src bflux (Some p))
  end.

(** The accumulated arrays; the last species of the last block decides which
    traces are shown.
    commands/gk_energy_balance.py, the same names as in commands/gk_particle_balance.py 208-278. *)
Record esums := ESums { e_field : option (list R); e_time_field : list R; e_sums : sums }.

(** Lines 225-315. *)
Fixpoint energy_loop (fs : files) (o : opts) (species : list string) (bs : list nat) (e : esums) : res esums :=
  match bs with
  | [] => Ok e
  | b :: bs' =>
      let* name := file_or (o_field_dot_file o) (block_prefix o b ++ "field_energy_dot.gkyl") in
      match f_scal fs name with
      | None => Err OSError
      | Some t =>
          let* s := species_loop fs o (block_prefix o b) species (Sums None None None None) in
          let* field := accumulate_or_assign (e_field e) (t_vals t) in
          let* x := need (s_fdot s) in let* fdot := accumulate_or_assign (s_fdot (e_sums e)) x in
          let* x := need (s_src s) in let* src := accumulate_or_assign (s_src (e_sums e)) x in
          let* x := need (s_bflux s) in let* bflux := accumulate_or_assign (s_bflux (e_sums e)) x in
          energy_loop fs o species bs' (ESums field (t_times t) (Sums fdot src bflux (s_last s)))
      end
  end.

(** Lines 393-425: field energy and moments of the distribution function.  A
    missing field energy file gives [None]; [np.asarray(None)] is an array
    without axes, so that adding another block to it fails, and with a single
    block [field[1:]]. *)
Fixpoint energy_distf_loop (fs : files) (o : opts) (species : list string) (bs : list nat)
    (field distf : option (list R)) : res (option (list R) * option (list R)) :=
  match bs with
  | [] => Ok (field, distf)
  | b :: bs' =>
      let* name := file_or (o_field_file o) (block_prefix o b ++ "field_energy.gkyl") in
      let* d := distf_loop fs o 2 (List.map (fun sp => block_prefix o b ++ sp) species) None in
      match f_scal fs name with
      | None => Err (match field, bs' with None, [] => IndexError | _, _ => TypeError end)
      | Some t =>
          let* field' := accumulate_or_assign field (t_vals t) in
          let* x := need d in let* distf' := accumulate_or_assign distf x in
          energy_distf_loop fs o species bs' field' distf'
      end
  end.
(** Lines 180-452. *)
Definition gk_energy_balance (fs : files) (o : opts) : res (list out) :=
  let species := split_on "," (o_species o) in
  let* n := num_blocks fs o (hd "" species) in
  let* e := energy_loop fs o species (seq 0 n) (ESums None [] (Sums None None None None)) in
  let s := e_sums e in
  if negb (o_rel o) then
    let* src := need (s_src s) in
    let* bflux := need (s_bflux s) in
    let* fdot := need (s_fdot s) in
    let* field := need (e_field e) in
    match src, s_last s with
    | [], _ => Err IndexError
    | _ :: src', Some p =>
        let src := 0%R :: src' in
        let* d := bcast Rminus src bflux in
        let* g := bcast Rminus fdot field in
        let* err := bcast Rminus d g in
        let* _ := plot (p_time_fdot p) fdot in
        let* _ := match p_time_src p with Some t => plot t src | None => Ok tt end in
        let* _ := match p_time_bflux p with t :: _ => plot t bflux | [] => Ok tt end in
        let* _ := plot (e_time_field e) field in
        let* _ := plot (p_time_fdot p) err in
        Ok (([Out "fdot" (GArr (p_time_fdot p)) fdot] ++
            match p_time_src p with Some t => [Out "src" (GArr t) src] | None => [] end ++
            match p_time_bflux p with [] => [] | ts => [Out "bflux" (GList ts) (List.map Ropp bflux)] end ++
            [Out "field_dot" (GArr (e_time_field e)) field] ++
            [Out "err" (GArr (p_time_fdot p)) err])%list)
    | _, None => Err UnboundLocalError (* unreachable *)
    end
  else
    match f_scal fs (dt_name o) with
    | None => Err AttributeError
    | Some dt =>
        let* fd := energy_distf_loop fs o species (seq 0 n) None None in
        let* field := need (fst fd) in let* field := rest1 field in
        let* field_dot := need (e_field e) in let* field_dot := rest1 field_dot in
        let* fdot := need (s_fdot s) in
        let* src := need (s_src s) in
        let* bflux := need (s_bflux s) in
        let* distf := need (snd fd) in
        let* d := bcast Rminus (tl src) (tl bflux) in
        let* g := bcast Rminus (tl fdot) field_dot in
        let* err := bcast Rminus d g in
        let* a := bcast Rmult err (t_vals dt) in
        let* en := bcast Rminus (tl distf) field in
        let* q := bcast Rdiv a en in
        let* _ := plot (t_times dt) q in
        Ok [Out "rel_err" (GArr (t_times dt)) q]
    end.

(** ** commands/gk_distf.py *)

(** Lines 64-71: (enabled, file to use instead of the default). *)
Definition resolve_optional_file_option (v : option string) : bool * option string :=
  match v with
  | None => (false, None)
  | Some s => if String.eqb s "" then (true, None) else (true, Some s)
  end.

(** Lines 88-89 and 204-206. *)
Definition block_name (name : string) (block : option Z) : string :=
  match block with Some b => name ++ "_b" ++ show_Z b | None => name end.
Definition infix (suffix : string) : string :=
  if String.eqb suffix "" then "" else suffix ++ "_".
Definition stem (name species suffix : string) (block : option Z) : string :=
  block_name name block ++ "-" ++ species ++ "_" ++ infix suffix.

(** Lines 91-93: the file of a frame. *)
Definition jf_name (name species suffix : string) (block : option Z) (frame : Z) : string :=
  stem name species suffix block ++ show_Z frame ++ ".gkyl".

(** [s.removeprefix(p)]. commands/gk_distf.py 208-210. *)
Fixpoint drop_prefix (p s : string) : option string :=
  match p, s with
  | "", _ => Some s
  | String a p', String b s' => if Ascii.eqb a b then drop_prefix p' s' else None
  | String _ _, "" => None
  end.
Definition removeprefix (p s : string) : string :=
  match drop_prefix p s with Some r => r | None => s end.

(** [s[:-5]]. *)
Definition drop5 (s : string) : string := String.substring 0 (String.length s - 5) s.

(** [s.endswith(p)]. Used for commands/gk_distf.py 209. *)
Fixpoint ends_with (p s : string) : bool :=
  String.eqb s p || match s with "" => false | String _ s' => ends_with p s' end.

(** [glob.glob(f"{glob.escape(stem)}*.gkyl")] in a directory with the given
    files (no directory separators in the names). commands/gk_distf.py 209. *)
Definition glob_stem (st : string) (dir : list string) : list string :=
  List.filter (fun f => match drop_prefix st f with Some r => ends_with ".gkyl" r | None => false end) dir.

(** Lines 207-211: the set of frame numbers, sorted. *)
Definition frame_of (st f : string) : list Z :=
  let d := drop5 (removeprefix st f) in
  if is_digits d then match py_int d with Ok z => [z] | Err _ => [] end else [].
Definition available (st : string) (dir : list string) : list Z :=
  isort Z.leb (nodup Z.eq_dec (flat_map (frame_of st) (glob_stem st dir))).

(** [s.strip()] for blanks (other white space is not modelled). commands/gk_distf.py 196, 198. *)
Fixpoint lstrip (s : string) : string :=
  match s with String " " s' => lstrip s' | _ => s end.
Fixpoint rstrip (s : string) : string :=
  match s with
  | "" => ""
  | String c s' => match rstrip s' with
                   | "" => if Ascii.eqb c " " then "" else String c ""
                   | r => String c r
                   end
  end.
Definition strip (s : string) : string := rstrip (lstrip s).

(** Lines 196-218: the frames to load. *)
Definition frames_of (name species suffix : string) (block : option Z) (dir : list string) (spec : string) : res (list Z) :=
  let spec := strip spec in
  if has_char "," spec then mapM (fun f => py_int (strip f)) (split_on "," spec)
  else if negb (has_char ":" spec) then let* z := py_int spec in Ok [z]
  else
    let av := available (stem name species suffix block) dir in
    let parts := split_on ":" spec in
    match parts with
    | p0 :: p1 :: rest =>
        let* lower := if String.eqb p0 "" then match av with a :: _ => Ok a | [] => Err IndexError end else py_int p0 in
        let* upper := if String.eqb p1 "" then match av with [] => Err IndexError | _ => Ok (last av 0 + 1)%Z end else py_int p1 in
        let* step := match rest with
                     | [p2] => if String.eqb p2 "" then Ok 1%Z else py_int p2
                     | _ => Ok 1%Z
                     end in
        if existsb (fun f => (lower <=? f) && (f <? upper))%Z av && (step =? 0)%Z then Err ZeroDivisionError
        else Ok (List.filter (fun f => (lower <=? f) && (f <? upper) && ((f - lower) mod step =? 0))%Z av)
    | _ => Err IndexError (* unreachable: the text has a colon *)
    end.

(** Lines 29-36: cell edges from cell centres.  The array is filled from
    zeros; the last assignment reads the entry before the last one, which for
    a single cell is the first. *)
Definition cell_centered_to_nodal (c : list R) : res (list R) :=
  match c with
  | [] => Err IndexError
  | c0 :: c' =>
      let n := length c in
      let cl := last c 0%R in
      let nodes := (0%R :: map2 (fun a b => 0.5 * (a + b))%R (removelast c) c' ++ [0%R])%list in
      let nodes := set_nth 0 (c0 + (c0 - nth 1 nodes 0))%R nodes in
      let nodes := set_nth n (cl + (cl - nth (n - 1) nodes 0))%R nodes in
      Ok nodes
  end.
