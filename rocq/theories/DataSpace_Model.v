(** * Model of the data space of the command line (commands/data_space.py), of
    activate/deactivate (commands/status.py) and of the common shape of the
    commands that loop over datasets. *)
From Coq Require Import String Ascii List Arith ZArith Bool.
From Verif Require Import Prelude NdArray.
Import ListNotations.
Open Scope list_scope.

(** A dataset object as the data space sees it (data/gdata.py 92-103, 140-177).
    [ds_id] stands for the identity of the Python object; everything computed
    from the data itself is the opaque [ds_data]. *)
Record dset (X : Type) := mk_dset {
  ds_id : nat;
  ds_file : string;
  ds_status : bool;
  ds_label : string;
  ds_data : X
}.
Arguments mk_dset {X}. Arguments ds_id {X}. Arguments ds_file {X}.
Arguments ds_status {X}. Arguments ds_label {X}. Arguments ds_data {X}.

(** gdata.py 168-172 and 159-160. *)
Definition set_status {X} (b : bool) (d : dset X) : dset X :=
  mk_dset (ds_id d) (ds_file d) b (ds_label d) (ds_data d).
Definition set_label {X} (l : string) (d : dset X) : dset X :=
  mk_dset (ds_id d) (ds_file d) (ds_status d) l (ds_data d).
Definition set_data {X} (x : X) (d : dset X) : dset X :=
  mk_dset (ds_id d) (ds_file d) (ds_status d) (ds_label d) x.

(** data_space.py 15-16: [_dataset_dict], in insertion order. *)
Definition dspace (X : Type) := list (string * list (dset X)).

(** A dataset is referred to by its tag and position.
    The dictionary of lists of commands/data_space.py 15-16. *)
Definition ref := (string * nat)%type.

Section DS.
  Context {X : Type}.
  Implicit Types (ds : dspace X) (d : dset X).

  (** data_space.py 167-168 for a non-negative index. *)
  Definition lookup ds (r : ref) : option (dset X) :=
    match aget (fst r) ds with Some l => nth_error l (snd r) | None => None end.

  (** Change the object found at [r].
      Used for the changes commands/data_space.py 155-164 and commands/status.py make. *)
  Definition modify ds (r : ref) (f : dset X -> dset X) : dspace X :=
    match aget (fst r) ds with
    | Some l => match nth_error l (snd r) with
                | Some d => aset (fst r) (set_nth (snd r) (f d) l) ds
                | None => ds
                end
    | None => ds
    end.

  (** data_space.py 146-152. *)
  Definition add ds (tag : string) d : dspace X :=
    match aget tag ds with
    | Some l => aset tag (l ++ [d]) ds
    | None => aset tag [d] ds
    end.
End DS.

(** ** Index selection: data_space.py 22-50 *)

(** The values [select] may have. commands/data_space.py 20, 26-50. *)
Inductive sel :=
| SelNone
| SelInt (i : Z)
| SelSlice (lo up step : option Z)
| SelStr (s : string).

(** [bool(select)]. commands/data_space.py 22, 59. *)
Definition sel_truthy (s : sel) : bool :=
  match s with
  | SelNone => false
  | SelInt i => negb (i =? 0)%Z
  | SelSlice _ _ _ => true
  | SelStr s => negb (String.eqb s "")
  end.

(** [idx_sel]. commands/data_space.py 22-50. *)
Inductive isel :=
| ISlice (lo up step : option Z)
| IList (l : list Z).

(** One part of a text [a:b], commands/data_space.py 37-42. *)
Definition opt_int (s : string) : res (option Z) :=
  if String.eqb s "" then Ok None else let* z := py_int s in Ok (Some z).

(** commands/data_space.py 22-50. *)
Definition parse_sel (s : sel) : res isel :=
  match s with
  | SelNone => Ok (ISlice None None None)
  | SelInt i => Ok (IList [i])
  | SelSlice a b c => Ok (ISlice a b c)
  | SelStr s =>
      if has_char ":" s then
        match split_on ":" s with
        | s0 :: s1 :: rest =>
            let* lo := opt_int s0 in
            let* up := opt_int s1 in
            match rest with
            | [] => Ok (ISlice lo up None)
            | s2 :: _ => let* st := py_int s2 in Ok (ISlice lo up (Some st))
            end
        | _ => Err IndexError (* unreachable: the string has a colon *)
        end
      else let* l := mapM py_int (split_on "," s) in Ok (IList l)
  end.

(** data_space.py 52-56: the tags to visit. *)
Definition tags_of {X} (ds : dspace X) (tag : option string) : list string :=
  match tag with
  | None => List.map fst ds
  | Some t => if String.eqb t "" then List.map fst ds else split_on "," t
  end.

(** ** The iterator as a loop: data_space.py 18-84

    The Python iterator is a generator: the status of a dataset is tested when
    it is reached, the list of a tag is looked up (and a slice of it copied)
    when the tag is reached, and the loop body runs in between and may change
    the data space.  [body i r st] is the body for the dataset [r], [i] being
    the number yielded in [enum] mode; [space st] is the current data space. *)
Section Loop.
  Context {X St : Type}.
  Context (space : St -> dspace X) (body : nat -> ref -> St -> res St).
  Context (only_active : bool).

  (** Lines 61-62 / 72-73. *)
  Definition visit (i : nat) (r : ref) (st : St) : res St :=
    match lookup (space st) r with
    | None => Ok st (* unreachable: positions come from the list *)
    | Some d => if negb only_active || ds_status d then body i r st else Ok st
    end.

  (** Lines 60-68 *)
  Fixpoint loop_slice (t : string) (ps : list nat) (i : nat) (st : St) : res St :=
    match ps with
    | [] => Ok st
    | p :: ps' => let* st' := visit i (t, p) st in loop_slice t ps' (S i) st'
    end.

  (** Lines 70-75, with the handlers of lines 77-82. *)
  Fixpoint loop_list (t : string) (is : list Z) (st : St) : res St :=
    match is with
    | [] => Ok st
    | z :: is' =>
        match aget t (space st) with
        | None => Err Quit
        | Some l =>
            match norm_index (length l) z with
            | Err _ => Err Quit
            | Ok p => let* st' := visit 0 (t, p) st in loop_list t is' st'
            end
        end
    end.

  (** Lines 57-83. *)
  Fixpoint loop_tags (truthy : bool) (s : isel) (tags : list string) (st : St) : res St :=
    match tags with
    | [] => Ok st
    | t :: tags' =>
        let* st' :=
          match s with
          | ISlice lo up step =>
              match aget t (space st) with
              | None => Err Quit
              | Some l => let* ps := slice_list (length l) lo up step in loop_slice t ps 0 st
              end
          | IList is =>
              if truthy then loop_list t is st
              else match aget t (space st) with
                   | None => Err Quit
                   | Some _ => Err TypeError (* a list used as an index *)
                   end
          end in
        loop_tags truthy s tags' st'
    end.

  (** Lines 18-84. *)
  Definition iterate (tag : option string) (enum : bool) (s : sel) (st : St) : res St :=
    if enum && sel_truthy s then Err Quit
    else let* is := parse_sel s in
         loop_tags (sel_truthy s) is (tags_of (space st) tag) st.
End Loop.

(** The sequence of datasets yielded when the loop body changes nothing. commands/data_space.py 57-84. *)
Definition visits {X} (ds : dspace X) (tag : option string) (enum only_active : bool) (s : sel)
  : res (list (nat * ref)) :=
  let* st := iterate (fun st : dspace X * list (nat * ref) => fst st)
               (fun i r st => Ok (fst st, snd st ++ [(i, r)])) only_active tag enum s (ds, []) in
  Ok (snd st).

(** data_space.py 171-177. *)
Definition get_num_datasets {X} (ds : dspace X) (tag : option string) (only_active : bool) : res nat :=
  let* n := iterate (fun st : dspace X * nat => fst st) (fun _ _ st => Ok (fst st, S (snd st)))
              only_active tag false SelNone (ds, 0%nat) in
  Ok (snd n).

(** data_space.py 91-93: [True in (...)] over the active datasets of a tag
    (the generator is not exhausted by Python, which only matters if a later
    tag of a tag name with commas is unknown). *)
Fixpoint active_tags {X} (ds : dspace X) (keys : list string) : res (list string) :=
  match keys with
  | [] => Ok []
  | t :: ks => let* vs := visits ds (Some t) false true SelNone in
               let* r := active_tags ds ks in
               Ok (match vs with [] => r | _ => t :: r end)
  end.

(** data_space.py 86-98. *)
Definition tag_iterator {X} (ds : dspace X) (tag : option string) (only_active : bool) : res (list string) :=
  let none := if only_active then active_tags ds (List.map fst ds) else Ok (List.map fst ds) in
  match tag with
  | Some t => if String.eqb t "" then none else Ok (split_on "," t)
  | None => none
  end.

(** ** Status: data_space.py 155-164 and commands/status.py *)

Section Status.
  Context {X : Type}.
  Implicit Type ds : dspace X.

  (** commands/data_space.py 155-164. *)
  Definition set_all (b : bool) ds (tag : option string) (s : sel) : res (dspace X) :=
    iterate (fun ds => ds) (fun _ r ds => Ok (modify ds r (set_status b))) false tag false s ds.

  (** data_space.py 155-158: despite its name it deactivates. *)
  Definition activate_all ds (tag : option string) : res (dspace X) := set_all false ds tag SelNone.

  (** data_space.py 161-164. *)
  Definition deactivate_all ds (tag : option string) : res (dspace X) := set_all false ds tag SelNone.

  Definition sel_of_index (index : option string) : sel :=
    match index with None => SelNone | Some s => SelStr s end.

  (** status.py 27-35. *)
  Definition cmd_activate ds (tag index : option string) (focused : bool) : res (dspace X) :=
    let* ds1 := if focused then Ok ds else deactivate_all ds None in
    set_all true ds1 tag (sel_of_index index).

  (** status.py 61-69. *)
  Definition cmd_deactivate ds (tag index : option string) (focused : bool) : res (dspace X) :=
    let* ds1 := if focused then activate_all ds None else Ok ds in
    set_all false ds1 tag (sel_of_index index).
End Status.

(** ** Labels: data_space.py 101-143 *)

(** [file_name[: -(len(file_name.split(".")[-1]) + 1)]] *)
Definition drop_extension (s : string) : string :=
  let n := String.length (last (split_on "." s) ""%string) in
  substring 0 (String.length s - (n + 1)) s.

(** Lines 118-124: is part [i] included? [idx_max] is the first name with the
    most parts ([np.argmax]). *)
Definition part (nm : list string) (i : nat) : option string := nth_error nm i.
Fixpoint argmax_len (l : list (list string)) : list string :=
  match l with
  | [] => []
  | [a] => a
  | a :: l' => let b := argmax_len l' in if (length b <=? length a)%nat then a else b
  end.
Definition include (names : list (list string)) (reference : string) (i : nat) : bool :=
  existsb (fun nm => match part nm i with Some p => negb (String.eqb p reference) | None => false end) names.

(** Lines 125-133: extending one label. *)
Definition extend (lab : string) (nm : list string) (i : nat) : string :=
  match part nm i with
  | Some p => if String.eqb lab "" then p else (lab ++ "_" ++ p)%string
  | None => lab
  end.

(** Lines 116-136. *)
Definition make_labels (names : list (list string)) : list string :=
  let big := argmax_len names in
  fold_left (fun labels i =>
      match part big i with
      | Some reference => if include names reference i
                          then map2 (fun lab nm => extend lab nm i) labels names
                          else labels
      | None => labels
      end) (seq 0 (length big)) (List.map (fun _ => ""%string) names).

(** Lines 101-143.  With no active dataset [np.max] of an empty list fails. *)
Definition set_unique_labels {X} (ds : dspace X) : res (dspace X) :=
  let* vs := visits ds None false true SelNone in
  match vs with
  | [] => Err ValueError
  | _ =>
      let files := List.map (fun v => match lookup ds (snd v) with Some d => ds_file d | None => ""%string end) vs in
      let names := List.map (fun f => split_on "_" (drop_extension f)) files in
      let labels := make_labels names in
      let* st := iterate (fun st : dspace X * list string => fst st)
                   (fun _ r st => match snd st with
                                  | [] => Err IndexError
                                  | l :: ls => Ok (modify (fst st) r (set_label l), ls)
                                  end) true None false SelNone (ds, labels) in
      Ok (fst st)
  end.

(** ** Commands over datasets

    The shape shared by integrate.py 20-30, interpolate.py 49-76, fft.py 25-35,
    magsq.py 19-27, differentiate.py, mhd.py, euler.py, tenmoment.py
    ...: loop over the active datasets; without [--tag] the dataset
    is overwritten, otherwise a new dataset with that tag is added.  [f] is the
    computation.  New datasets are active (gdata.py 103) and have no file;
    [fresh] gives the identity of the new object. *)
Section Command.
  Context {X : Type} (f : X -> res X) (use tag : option string) (label : string).

  Definition next_id (ds : dspace X) : nat :=
    S (fold_right Nat.max 0%nat (List.map ds_id (flat_map snd ds))).

  (** The loop body of the commands, for instance commands/interpolate.py 49-75. *)
  Definition cmd_body (_ : nat) (r : ref) (ds : dspace X) : res (dspace X) :=
    match lookup ds r with
    | None => Err KeyError (* unreachable *)
    | Some d =>
        let* y := f (ds_data d) in
        match tag with
        | Some t => if String.eqb t "" then Ok (modify ds r (set_data y))
                    else Ok (add ds t (mk_dset (next_id ds) "" true label y))
        | None => Ok (modify ds r (set_data y))
        end
    end.

  (** The loop of the commands, for instance commands/interpolate.py 49-75. *)
  Definition command (ds : dspace X) : res (dspace X) :=
    iterate (fun ds => ds) cmd_body true use false SelNone ds.
End Command.

(** The shape shared by velocity.py 19-32, parrotate.py, perprotate.py,
    bparrotate.py: pair up the active datasets of two tags
    ([zip] stops with the shorter one), add one result per pair, then
    deactivate both inputs.  Modelled for plain tags (no commas), for which
    both lists are copied before the first result is added; [zip] asks the
    second iterator only while the first still yields. *)
Section Pair.
  Context {X : Type} (f : X -> X -> res X) (tag1 tag2 out label : string).

  Definition active_refs (ds : dspace X) (t : string) : res (list ref) :=
    let* vs := visits ds (Some t) false true SelNone in Ok (List.map snd vs).

  (** The body of the loop, commands/velocity.py 19-29, commands/parrotate.py 30-38. *)
  Fixpoint pair_loop (ps : list (ref * ref)) (ds : dspace X) : res (dspace X) :=
    match ps with
    | [] => Ok ds
    | (r1, r2) :: ps' =>
        match lookup ds r1, lookup ds r2 with
        | Some d1, Some d2 =>
            let* y := f (ds_data d1) (ds_data d2) in
            pair_loop ps' (add ds out (mk_dset (next_id ds) "" true label y))
        | _, _ => Err KeyError (* unreachable *)
        end
    end.

  (** commands/velocity.py 19-31, commands/parrotate.py 30-40. *)
  Definition pair_command (ds : dspace X) : res (dspace X) :=
    let* a := active_refs ds tag1 in
    let* b := match a with [] => Ok [] | _ => active_refs ds tag2 end in
    let* ds1 := pair_loop (combine a b) ds in
    let* ds2 := deactivate_all ds1 (Some tag1) in
    deactivate_all ds2 (Some tag2).
End Pair.
