(** * Model of [GData.info] (data/gdata.py 320-458) and of commands/info.py

    The four metadata keys "cells", "num_comps", "lower", "upper" are those of
    [GData_Model.gdata]; the other keys of [ctx] are a dictionary in insertion order. *)
From Coq Require Import String Ascii List ZArith QArith Bool Lia.
From Verif Require Import Prelude NdArray GData_Model DataSpace_Model.
Import ListNotations.
Open Scope list_scope.

(** Values of metadata: integers, floats, texts, truth values, [None] and any other
    object (lists, arrays, dictionaries; taken as true). What [ctx] may hold, data/gdata.py 84-89. *)
Inductive meta := VInt (z : Z) | VNum (q : Q) | VText (s : string) | VBool (b : bool) | VNone | VObj (n : nat).

Record idata := mk_idata { i_data : gdata Q; i_ctx : list (string * meta) }.

Section Info.
  (** [f"{x:e}"] and [f"{val}"]. *)
  Context (fmt_e : Q -> string) (show : meta -> string).

  (** [f"{v:e}"], [f"{v:d}"], [f"{v:s}"] of metadata. data/gdata.py 371, 376, 415, 420, 419, 431, 435, 447. *)
  Definition e_of (v : meta) : res string :=
    match v with
    | VInt z => Ok (fmt_e (inject_Z z)) | VNum q => Ok (fmt_e q) | VBool b => Ok (fmt_e (if b then 1 else 0))
    | VText _ => Err ValueError | VNone | VObj _ => Err TypeError
    end.
  Definition d_of (v : meta) : res string :=
    match v with
    | VInt z => Ok (show_Z z) | VBool b => Ok (if b then "1" else "0")%string
    | VNum _ | VText _ => Err ValueError | VNone | VObj _ => Err TypeError
    end.
  Definition s_of (v : meta) : res string :=
    match v with
    | VText s => Ok s | VInt _ | VNum _ | VBool _ => Err ValueError | VNone | VObj _ => Err TypeError
    end.

  Definition truth (v : meta) : bool :=
    match v with
    | VInt z => negb (z =? 0)%Z | VNum q => negb (Qeq_bool q 0) | VText s => negb (String.eqb s "")
    | VBool b => b | VNone => false | VObj _ => true
    end.

  Open Scope string_scope.

  (** data/gdata.py 371. *)
  Definition nl : string := String "010" "".
  (** data/gdata.py 379-380, 385, 390, 401, 407. *)
  Definition d_nat (n : nat) : string := show_Z (Z.of_nat n).

  (** gdata.py 357-363. *)
  Definition groups : list string :=
    ["time"; "frame"; "lower"; "upper"; "cells"; "grid_type"; "poly_order"; "basis_type"; "is_modal"; "num_comps";
     "changeset"; "builddate"; "geometry_type"; "geqdsk_sign_convention"]%list.

  Definition has (d : idata) (k : string) : bool := match aget k (i_ctx d) with Some _ => true | None => false end.

  (** [s[-1]] *)
  Definition last_of {A} (l : list A) : res A := match List.rev l with [] => Err IndexError | a :: _ => Ok a end.
  Definition item {A} (l : list A) (k : nat) : res A := match nth_error l k with Some a => Ok a | None => Err IndexError end.

  (** 381-392; [cells] is [None] for the integer 0 that stands for no cells (line 202). *)
  Definition dim_line (head : string) (d : Z) (c : nat) (lo up : Q) : string :=
    head ++ show_Z d ++ ": Num. cells: " ++ d_nat c ++ "; Lower: " ++ fmt_e lo ++ "; Upper: " ++ fmt_e up.

  Definition grid_text (d : idata) (nd : nat) (cells : option (list nat)) (bounds : option (list Q * list Q)) : res string :=
    let g := i_data d in
    let present {A} (o : option A) := match o with Some _ => true | None => false end in
    if present (c_lower g) || present (c_upper g) || present (c_cells g) || has d "grid_type" then
      let* gt := match aget "grid_type" (i_ctx d) with Some v => s_of v | None => Err KeyError end in
      let* inner :=
        match c_lower g, c_upper g, c_cells g with
        | Some lo, Some up, Some cs =>
            mapM (fun k => let* c := item cs k in let* l := item lo k in let* u := item up k in
                           Ok (dim_line "│  ├─ Dim " (Z.of_nat k) c l u ++ nl)) (seq 0 (nd - 1))
        | _, _, _ => Ok []
        end in
      match cells with
      | None => Err TypeError
      | Some cs =>
          let* c := last_of cs in
          match bounds with
          | None => Err TypeError
          | Some (lo, up) =>
              let* l := last_of lo in
              let* u := last_of up in
              Ok ("├─ Grid: (" ++ gt ++ ")" ++ nl ++ List.fold_right append "" inner ++ dim_line "│  └─ Dim " (Z.of_nat nd - 1) c l u)
          end
      end
    else Ok "".

  (** [np.nanargmax], [np.nanargmin]: the first position of the extremum ([lt a b]:
      [b] is better than [a]). data/gdata.py 396, 398. *)
  Fixpoint arg_best (lt : Q -> Q -> bool) (l : list Q) (k : nat) (best : Q * nat) : Q * nat :=
    match l with
    | [] => best
    | x :: l' => arg_best lt l' (S k) (if lt (fst best) x then (x, k) else best)
    end.

  Definition q_lt (a b : Q) : bool := negb (Qle_bool b a).

  (** [np.nanmax] with [np.unravel_index]; an empty array raises. data/gdata.py 395-398. *)
  Definition extreme (lt : Q -> Q -> bool) (v : nda Q) : res (Q * list nat) :=
    match flat v with
    | [] => Err ValueError
    | x :: l =>
        let b := arg_best lt l 1 (x, 0%nat) in
        match nth_error (indices (shape v)) (snd b) with
        | Some idx => Ok (fst b, idx)
        | None => Err ValueError (* unreachable: the array has as many entries as indices *)
        end
    end.

  (** [str(t)] of a tuple of integers. data/gdata.py 399, 405. *)
  Definition show_tuple (l : list nat) : string :=
    match l with
    | [a] => "(" ++ d_nat a ++ ",)"
    | _ => "(" ++ join ", " (List.map d_nat l) ++ ")"
    end.

  (** 394-409. *)
  Definition values_text (nc nd : nat) (v : option (nda Q)) : res string :=
    match v with
    | None => Ok ""
    | Some v =>
        let* mx := extreme q_lt v in
        let* mn := extreme (fun a b => q_lt b a) v in
        let* cx := if (1 <? nc)%nat then let* k := last_of (snd mx) in Ok (" component " ++ d_nat k) else Ok "" in
        let* cn := if (1 <? nc)%nat then let* k := last_of (snd mn) in Ok (" component " ++ d_nat k) else Ok "" in
        Ok (nl ++ "├─ Maximum: " ++ fmt_e (fst mx) ++ " at " ++ show_tuple (firstn nd (snd mx)) ++ cx ++ nl
            ++ "├─ Minimum: " ++ fmt_e (fst mn) ++ " at " ++ show_tuple (firstn nd (snd mn)) ++ cn)
    end.

  (** Text for a key that is present. data/gdata.py 369-377, 413-416, 429-436, 445-448. *)
  Definition line_if (d : idata) (k : string) (f : meta -> res string) : res string :=
    match aget k (i_ctx d) with Some v => f v | None => Ok "" end.

  (** 411-425. *)
  Definition basis_text (d : idata) : res string :=
    if has d "poly_order" || has d "basis_type" || has d "is_modal" || match c_ncomps (i_data d) with Some _ => true | None => false end then
      let* p := line_if d "poly_order" (fun v => let* s := d_of v in Ok (nl ++ "│  ├─ Polynomial Order: " ++ s)) in
      let* b := line_if d "basis_type" (fun v =>
        match aget "is_modal" (i_ctx d) with
        | None => Err KeyError
        | Some m => let* s := s_of v in Ok (nl ++ "│  └─ Basis Type: " ++ s ++ (if truth m then " (modal)" else ""))
        end) in
      Ok (nl ++ "├─ DG info:" ++ p ++ b)
    else Ok "".

  (** 427-437. *)
  Definition build_text (d : idata) : res string :=
    if has d "changeset" || has d "builddate" then
      let* c := line_if d "changeset" (fun v => let* s := s_of v in Ok (nl ++ "│  ├─ Changeset: " ++ s)) in
      let* b := line_if d "builddate" (fun v => let* s := s_of v in Ok (nl ++ "│  └─ Build Date: " ++ s)) in
      Ok (nl ++ "├─ Created with Gkeyll:" ++ c ++ b)
    else Ok "".

  (** utils/gkeyll_enums.py 6-12; [l[z]] with a negative index. *)
  Definition geometries : list string :=
    ["GKYL_GEOMETRY_NONE"; "GKYL_GEOMETRY_TOKAMAK"; "GKYL_GEOMETRY_MIRROR"; "GKYL_GEOMETRY_MAPC2P"; "GKYL_GEOMETRY_FROMFILE"]%list.
  Definition geometry_of (v : meta) : res string :=
    let at_ z := let* k := norm_index (List.length geometries) z in item geometries k in
    match v with
    | VInt z => at_ z
    | VBool b => at_ (if b then 1 else 0)%Z
    | _ => Err TypeError
    end.

  (** 439-449. *)
  Definition geometry_text (d : idata) : res string :=
    if has d "geometry_type" || has d "geqdsk_sign_convention" then
      let* t := line_if d "geometry_type" (fun v => let* s := geometry_of v in Ok (nl ++ "│  ├─ Type: " ++ s)) in
      let* q := line_if d "geqdsk_sign_convention" (fun v => let* s := d_of v in Ok (nl ++ "│  ├─ GEQDSK sign convention: " ++ s)) in
      Ok (nl ++ "├─ Geometry info:" ++ t ++ q)
    else Ok "".

  (** 451-456. *)
  Definition other_text (d : idata) : string :=
    List.fold_right append "" (List.map (fun kv => nl ++ "├─ " ++ fst kv ++ ": " ++ show (snd kv))
      (List.filter (fun kv : string * meta => negb (existsb (String.eqb (fst kv)) groups)) (i_ctx d))).

  (** gdata.py 337-458. *)
  Definition info (d : idata) : res string :=
    let g := i_data d in
    let* nc := get_num_comps g in
    let nd := get_num_dims g in
    let cells := get_num_cells g in
    let* bounds := get_bounds g in
    let* t := line_if d "time" (fun v => let* s := e_of v in Ok ("├─ Time: " ++ s ++ nl)) in
    let* f := line_if d "frame" (fun v => let* s := d_of v in Ok ("├─ Frame: " ++ s ++ nl)) in
    let head := t ++ f ++ "├─ Number of components: " ++ d_nat nc ++ nl ++ "├─ Number of dimensions: " ++ d_nat nd ++ nl in
    let* gr := grid_text d nd cells bounds in
    let* vs := values_text nc nd (g_vals g) in
    let* ba := basis_text d in
    let* bu := build_text d in
    let* ge := geometry_text d in
    Ok (head ++ gr ++ vs ++ ba ++ bu ++ ge ++ other_text d).

  (** ** commands/info.py 17-36: the texts printed, each ended by a newline by [click.echo];
      colours are not modelled. [ds_label] is what [get_label] returns. *)
  Definition title (tag : string) (label : string) (i : nat) : string :=
    label ++ (if String.eqb label "" then "" else " ") ++ "(" ++ tag ++ "#" ++ d_nat i ++ ")".

  Definition info_cmd (compact all : bool) (use : option string) (ds : dspace idata) : res (list string) :=
    let* st := iterate (fun st : dspace idata * list string => fst st)
      (fun i r st =>
        match lookup (fst st) r with
        | None => Err KeyError (* unreachable *)
        | Some x =>
            let t := title (fst r) (ds_label x) i in
            if compact then Ok (fst st, (snd st ++ [t])%list)
            else let* s := info (ds_data x) in Ok (fst st, (snd st ++ [t; (s ++ nl)%string])%list)
        end) (negb all) use true SelNone (ds, []) in
    Ok (snd st).
End Info.
