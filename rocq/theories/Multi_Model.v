(** * Model of the multi-block machinery: frame numbers from file names
    (utils/set_frame.py), neighbouring blocks (data/gdata.py 294-319) and the
    line-outs across blocks of the select command (commands/select.py 37-136). *)
From Coq Require Import String Ascii List Arith ZArith QArith Qabs Bool.
From Verif Require Import Prelude NdArray GData_Model Select_Model DataSpace_Model Sort.
Import ListNotations.
Open Scope list_scope.

(** What the multi-block code reads of a dataset: the arrays with their
    metadata, [ctx["frame"]] and [_neighbors] (gdata.py 101), one pair
    (lower, upper) per axis; a neighbour is referred to by tag and position. *)
Record blk (A : Type) := mk_blk {
  b_data : gdata A;
  b_frame : option Z;
  b_nbrs : list (option ref * option ref)
}.
Arguments mk_blk {A}. Arguments b_data {A}. Arguments b_frame {A}. Arguments b_nbrs {A}.

(** ** utils/set_frame.py *)

(** [s.split(".gkyl")[0]]: the part before the first occurrence of [p] (line 44). *)
Fixpoint before (p s : string) : string :=
  match s with
  | EmptyString => EmptyString
  | String c s' => if starts_with p s then EmptyString else String c (before p s')
  end.

(** [s[n:]]. utils/set_frame.py 45. *)
Fixpoint drop (n : nat) (s : string) : string :=
  match n, s with
  | O, _ => s
  | S n', String _ s' => drop n' s'
  | S _, EmptyString => EmptyString
  end.

(** [min(files, key=len)] (line 31): the first of the shortest names. *)
Fixpoint shortest (f : string) (fs : list string) : string :=
  match fs with
  | [] => f
  | g :: fs' => shortest (if (String.length g <? String.length f)%nat then g else f) fs'
  end.

(** Lines 32-39, the loop over the characters of the shortest name for one
    file.  [None] stands for infinity.  The file is never shorter, so its
    character [j] exists. *)
Fixpoint scan (j : nat) (short f : string) (idx : option nat) : option nat :=
  match short, f with
  | String a short', String b f' =>
      let below := match idx with None => true | Some k => (j <? k)%nat end in
      scan (S j) short' f' (if negb (Ascii.eqb a b) && below then Some j else idx)
  | _, _ => idx
  end.
Definition first_difference (short : string) (files : list string) : option nat :=
  fold_left (fun idx f => scan 0 short f idx) files None.

(** Lines 43-47.  With no difference the slice [f[inf:]] raises. *)
Definition frame_number (idx : option nat) (f : string) : res Z :=
  match idx with
  | None => Err TypeError
  | Some k => py_int (hd ""%string (split_on "_" (drop k (before ".gkyl" f))))
  end.

(** [np.unique(np.sort(l))] (line 56): increasing, without repetition. *)
Fixpoint dedup {A} (eqb : A -> A -> bool) (l : list A) : list A :=
  match l with
  | a :: ((b :: _) as l') => if eqb a b then dedup eqb l' else a :: dedup eqb l'
  | _ => l
  end.
Definition unique_Z (l : list Z) : list Z := dedup Z.eqb (isort Z.leb l).

(** [np.unique] of coordinates. commands/select.py 102, 126. *)
Definition unique_Q (l : list Q) : list Q := dedup Qeq_bool (isort Qle_bool l).

Section Multi.
  Context {A : Type}.
  Implicit Types (ds : dspace (blk A)) (r : ref).

  (** utils/set_frame.py 52. *)
  Definition set_b_frame (z : Z) (b : blk A) : blk A := mk_blk (b_data b) (Some z) (b_nbrs b).
  (** data/gdata.py 299-316. *)
  Definition set_b_nbrs (n : list (option ref * option ref)) (b : blk A) : blk A :=
    mk_blk (b_data b) (b_frame b) n.

  (** The datasets an iterator yields ([list(data.iterator(use))]). commands/select.py 51, 93, 118. *)
  Definition refs_of ds (use : option string) : res (list ref) :=
    let* vs := visits ds use false true SelNone in Ok (List.map snd vs).

  (** set_frame.py 5-57.  Line 51: [enum=True] counts positions within the
      tag, inactive datasets included. *)
  Definition set_frame ds : res (dspace (blk A) * list Z) :=
    let* rs := refs_of ds None in
    let files := List.map (fun r => match lookup ds r with Some d => ds_file d | None => ""%string end) rs in
    match files with
    | [] => Err ValueError          (* min of an empty list *)
    | f :: fs =>
        let idx := first_difference (shortest f fs) files in
        let* frames := mapM (frame_number idx) files in
        let* ds' := iterate (fun ds => ds)
                      (fun i r ds => match nth_error frames i with
                                     | None => Err IndexError
                                     | Some z => Ok (modify ds r (fun d => set_data (set_b_frame z (ds_data d)) d))
                                     end) true None true SelNone ds in
        Ok (ds', unique_Z frames)
    end.

  (** ** GData.set_neighbors (gdata.py 295-319) *)

  (** [np.isclose(a, b)] with the default tolerances. data/gdata.py 302-315. *)
  Definition isclose (a b : Q) : bool :=
    Qle_bool (Qabs (a - b)) ((1 # 100000000) + (1 # 100000) * Qabs b).

  (** [data.get_grid()[dim][0]] and [...[-1]].  For mapped grids (arrays of
      more than one axis) [isclose] gives an array, whose truth value is an
      error unless it has one element; modelled as an error always. *)
  Definition edge (last_one : bool) (d : gdata A) (dim : nat) : res Q :=
    match g_grid d with
    | None => Err TypeError
    | Some g =>
        match nth_error g dim with
        | None => Err IndexError
        | Some a =>
            match shape a with
            | [_] => match (if last_one then rev (flat a) else flat a) with
                     | [] => Err IndexError
                     | x :: _ => Ok x
                     end
            | _ => Err ValueError
            end
        end
    end.

  (** [np.isclose(self.get_grid()[dim][i], data.get_grid()[dim'][j])]. data/gdata.py 302-315. *)
  Definition close (d : gdata A) (i : bool) (e : gdata A) (j : bool) (dim : nat) : res bool :=
    let* x := edge i d dim in
    let* y := edge j e dim in
    Ok (isclose x y).

  (** [m and k]. data/gdata.py 307-315. *)
  Definition and_then (m : res bool) (k : res bool) : res bool :=
    let* b := m in if b then k else Ok false.

  (** Lines 301-317: is [e] the lower (0) or upper (1) neighbour of [d] along
      [dim]?  In three dimensions [list(range(3)).remove(dim)] is [None], so
      subscripting it (only evaluated after the first comparison held) raises. *)
  Definition adjoins (d e : gdata A) (nd dim : nat) : res (option nat) :=
    match nd with
    | 1%nat =>
        let* lo := close d false e true dim in
        if lo then Ok (Some 0%nat)
        else let* up := close d true e false dim in
             Ok (if up then Some 1%nat else None)
    | 2%nat =>
        let other := (1 - dim)%nat in       (* not dim *)
        let* lo := and_then (close d false e true dim) (close d false e false other) in
        if lo then Ok (Some 0%nat)
        else let* up := and_then (close d true e false dim) (close d false e false other) in
             Ok (if up then Some 1%nat else None)
    | 3%nat =>
        let* lo := and_then (close d false e true dim) (Err TypeError) in
        Ok None
    | _ => Ok None
    end.

  (** [self._neighbors[dim][side] = data]. data/gdata.py 303-316. *)
  Definition put_nbr (dim side : nat) r (nb : list (option ref * option ref)) :=
    match nth_error nb dim with
    | None => nb                            (* unreachable: dim was appended *)
    | Some (lo, up) => set_nth dim (if (side =? 0)%nat then (Some r, up) else (lo, Some r)) nb
    end.

  (** Lines 300-317: the inner loop over the datasets. *)
  Fixpoint scan_nbrs (d : gdata A) (nd dim : nat) (l : list (ref * gdata A))
      (nb : list (option ref * option ref)) : res (list (option ref * option ref)) :=
    match l with
    | [] => Ok nb
    | (r, e) :: l' =>
        let* a := adjoins d e nd dim in
        scan_nbrs d nd dim l' (match a with Some s => put_nbr dim s r nb | None => nb end)
    end.

  (** Lines 296-319.  The pairs are appended to those of earlier calls, while
      positions [0 .. num_dims-1] are written. *)
  Fixpoint nbr_dims (d : gdata A) (nd : nat) (dims : list nat) (l : list (ref * gdata A))
      (nb : list (option ref * option ref)) : res (list (option ref * option ref)) :=
    match dims with
    | [] => Ok nb
    | k :: dims' =>
        let* nb' := scan_nbrs d nd k l (nb ++ [(None, None)]) in
        nbr_dims d nd dims' l nb'
    end.
  Definition neighbors (d : gdata A) (old : list (option ref * option ref)) (l : list (ref * gdata A))
    : res (list (option ref * option ref)) :=
    nbr_dims d (get_num_dims d) (seq 0 (get_num_dims d)) l old.

  Definition block_at ds r : res (blk A) :=
    match lookup ds r with Some d => Ok (ds_data d) | None => Err KeyError (* unreachable *) end.

  (** [block.set_neighbors(l)]. data/gdata.py 295-319. *)
  Definition set_neighbors ds r (l : list ref) : res (dspace (blk A)) :=
    let* b := block_at ds r in
    let* es := mapM (fun s => let* e := block_at ds s in Ok (s, b_data e)) l in
    let* nb := neighbors (b_data b) (b_nbrs b) es in
    Ok (modify ds r (fun d => set_data (set_b_nbrs nb (ds_data d)) d)).

  (** ** Line-outs of commands/select.py *)
  Context (pfloat : string -> option Q).

  (** [for val in values]: the sub-arrays along the first axis. commands/select.py 88, 98, 113, 123. *)
  Definition rows (v : nda A) : res (list (nda A)) :=
    match shape v with
    | [] => Err TypeError
    | n :: sh => Ok (List.map (fun i => mk_nda sh (firstn (prod sh) (skipn (i * prod sh) (flat v)))) (seq 0 n))
    end.

  (** [values[0]] *)
  Definition first_row (v : nda A) : res (nda A) :=
    let* rs := rows v in
    match rs with [] => Err IndexError | r :: _ => Ok r end.

  (** [np.array(list of arrays)]: all shapes must agree; an empty list has
      shape (0,). *)
  Definition stack (l : list (nda A)) : res (nda A) :=
    match l with
    | [] => Ok (mk_nda [0%nat] [])
    | a :: _ =>
        if forallb (fun b => if list_eq_dec Nat.eq_dec (shape b) (shape a) then true else false) l
        then Ok (mk_nda (length l :: shape a) (List.concat (List.map flat l)))
        else Err ValueError
    end.

  (** [np.array([list of arrays])]. commands/select.py 103. *)
  Definition stack1 (l : list (nda A)) : res (nda A) :=
    let* a := stack l in Ok (mk_nda (1%nat :: shape a) (flat a)).

  (** The options of select.py 12-30 that the multi-block branch uses. *)
  Record mopts := mk_mopts {
    m_z0 : option string; m_z1 : option string; m_comp : option string;
    m_use : option string; m_tag : option string; m_label : string; m_multiframe : bool }.

  Definition given (z : option string) : option string :=
    match z with Some s => if String.eqb s "" then None else Some s | None => None end.

  (** [postgkyl.data.select(block, z0=..., comp=...)], lines 77-79, 99-101:
      [cut] is the axis of the coordinate given. *)
  Definition cut_block ds r (cut : nat) (z : string) (comp : option string)
    : res (list garr * nda A) :=
    let* b := block_at ds r in
    let zs := if (cut =? 0)%nat then [Some (VStr z)] else [None; Some (VStr z)] in
    let* out := select pfloat (b_data b) zs (option_map VStr comp) false in
    Ok (fst out).

  (** Lines 81-83 ([for val in values[0]]) and 103-105 ([for val in values]). *)
  Definition cut_rows (cut : nat) (v : nda A) : res (list (nda A)) :=
    if (cut =? 0)%nat then let* w := first_row v in rows w else rows v.

  (** [block._neighbors[ax][1]] *)
  Definition upper_nbr ds r (ax : nat) : res (option ref) :=
    let* b := block_at ds r in
    match nth_error (b_nbrs b) ax with Some p => Ok (snd p) | None => Err IndexError end.

  (** [grid_list[ax] = np.append(grid_list[ax], grid[ax])]. commands/select.py 97, 122. *)
  Definition append_axis (ax : nat) (g h : list garr) : res (list garr) :=
    match nth_error h ax, nth_error g ax with
    | Some b, Some a => Ok (set_nth ax (mk_nda [length (flat a ++ flat b)] (flat a ++ flat b)) g)
    | _, _ => Err IndexError
    end.

  (** Lines 84-93 / 106-115: the while loop.  The number of passes is bounded
      by [fuel]; the code has no bound. *)
  Fixpoint follow (fuel : nat) ds (use : option string) r (cut : nat) (z : string)
      (comp : option string) (g : list garr) (vl : list (nda A))
    : res (dspace (blk A) * ref * list garr * list (nda A)) :=
    match fuel with
    | O => Err OutOfFuel
    | S fuel' =>
        let ax := (1 - cut)%nat in
        let* n := upper_nbr ds r ax in
        match n with
        | None => Ok (ds, r, g, vl)
        | Some r' =>
            let* l := refs_of ds use in
            let* ds' := set_neighbors ds r' l in
            let* gv := cut_block ds' r' cut z comp in
            let* g' := append_axis ax g (fst gv) in
            let* vs := cut_rows cut (snd gv) in
            follow fuel' ds' use r' cut z comp g' (vl ++ vs)
        end
    end.

  (** [grid_list[ax] = np.unique(grid_list[ax])]. commands/select.py 102, 126. *)
  Definition unique_axis (ax : nat) (g : list garr) : res (list garr) :=
    match nth_error g ax with
    | None => Err IndexError
    | Some a => let u := unique_Q (flat a) in Ok (set_nth ax (mk_nda [length u] u) g)
    end.

  (** Lines 75-97 (cut = 0) and 98-119 (cut = 1). *)
  Definition lineout (fuel : nat) ds (use : option string) r (cut : nat) (z : string)
      (comp : option string) : res (dspace (blk A) * ref * list garr * nda A) :=
    let* gv := cut_block ds r cut z comp in
    let* vs := cut_rows cut (snd gv) in
    let* o := follow fuel ds use r cut z comp (fst gv) vs in
    let '(ds', r', g, vl) := o in
    let* g' := unique_axis (1 - cut) g in
    let* v := if (cut =? 0)%nat then stack1 vl else stack vl in
    Ok (ds', r', g', v).

  (** [dat.get_bounds()[k][dim]]. commands/select.py 60, 65, 72. *)
  Definition bound ds r (up : bool) (dim : nat) : res Q :=
    let* b := block_at ds r in
    let* o := get_bounds (b_data b) in
    match o with
    | None => Err TypeError
    | Some p => match nth_error (if up then snd p else fst p) dim with
                | Some q => Ok q | None => Err IndexError end
    end.

  (** Lines 50-53, one dimension. *)
  Definition lowest ds (l : list ref) (dim : nat) : res Q :=
    let* bs := mapM (fun r => bound ds r false dim) l in
    match bs with [] => Err ValueError | q :: qs => Ok (fold_left qmin qs q) end.

  (** Lines 55-60 / 63-68: the last block that starts at the lower edge along
      the other axis and contains the coordinate; [block] keeps its earlier
      value (possibly from the previous frame) when there is none. *)
  Fixpoint find_block ds (l : list ref) (cut : nat) (z : string) (low : Q) (block : option ref)
    : res (option ref) :=
    match l with
    | [] => Ok block
    | r :: l' =>
        let* lo := bound ds r false cut in
        match pfloat z with
        | None => Err ValueError
        | Some q =>
            let* up := bound ds r true cut in
            let* ol := bound ds r false (1 - cut) in
            let here := Qle_bool lo q && Qle_bool q up && Qeq_bool ol low in
            find_block ds l' cut z low (if here then Some r else block)
        end
    end.

  (** Lines 46-136: one frame.  [i] is its number in [enumerate].  When both
      z0 and z1 are given, [value_list] is an array when line 104 appends to
      it.  A missing tag is the key [None] in Python; here the empty tag. *)
  Definition one_frame (fuel : nat) (o : mopts) (i : nat) (l : list ref)
      (st : dspace (blk A) * option ref) : res (dspace (blk A) * option ref) :=
    let (ds, block) := st in
    let* low0 := lowest ds l 0 in
    let* low1 := lowest ds l 1 in
    let* block := match given (m_z0 o) with
                  | Some z => find_block ds l 0 z low1 block | None => Ok block end in
    let* block := match given (m_z1 o) with
                  | Some z => find_block ds l 1 z low0 block | None => Ok block end in
    match block with
    | None => Err UnboundLocalError
    | Some r =>
        let* ds := set_neighbors ds r l in
        let* out :=
          match given (m_z0 o), given (m_z1 o) with
          | None, None => Err UnboundLocalError          (* grid_list *)
          | Some z, None => lineout fuel ds (m_use o) r 0 z (m_comp o)
          | None, Some z => lineout fuel ds (m_use o) r 1 z (m_comp o)
          | Some z, Some _ =>
              let* _ := lineout fuel ds (m_use o) r 0 z (m_comp o) in Err AttributeError
          end in
        let '(ds, r', g, v) := out in
        let ds := fold_left (fun ds s => modify ds s (set_status false)) l ds in
        match push empty_gdata g v with
        | (_, Some e) => Err e
        | (d, None) =>
            let t := match m_tag o with Some t => t | None => ""%string end in
            Ok (add ds t (mk_dset (next_id ds) "" true (m_label o) (mk_blk d (Some (Z.of_nat i)) [])),
                Some r')
        end
    end.

  Fixpoint all_frames (fuel : nat) (o : mopts) (i : nat) (ls : list (list ref))
      (st : dspace (blk A) * option ref) : res (dspace (blk A) * option ref) :=
    match ls with
    | [] => Ok st
    | l :: ls' => let* st' := one_frame fuel o i l st in all_frames fuel o (S i) ls' st'
    end.

  (** Lines 39-48: the datasets of each frame. *)
  Definition frame_lists ds (o : mopts) (frames : list Z) : res (list (list ref)) :=
    if m_multiframe o then
      mapM (fun z =>
        let* rs := refs_of ds (m_use o) in
        let* hit := mapM (fun r => let* b := block_at ds r in
                                   match b_frame b with
                                   | None => Err KeyError
                                   | Some f => Ok (r, (f =? z)%Z) end) rs in
        Ok (List.map fst (filter (fun p => snd p) hit))) frames
    else let* rs := refs_of ds (m_use o) in Ok [rs].

  (** commands/select.py 37-136 with [--multiblock]. *)
  Definition select_multiblock (fuel : nat) (o : mopts) ds : res (dspace (blk A)) :=
    let* p := set_frame ds in
    let (ds1, frames) := p in
    let* ls := frame_lists ds1 o frames in
    let* st := all_frames fuel o 0 ls (ds1, None) in
    Ok (fst st).
End Multi.
