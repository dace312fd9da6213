(** * Model of the commands that walk through several iterators at once

    commands/agyro.py, energetics.py, velocity.py, parrotate.py ... loop over
    [zip(data.iterator(a), data.iterator(b), ...)] and add a dataset per turn.
    The iterators are generators: they are advanced in turn, and the list of a
    tag is read when the tag is reached, so what the loop adds may be seen by a
    later turn. *)
From Coq Require Import String Ascii List Arith ZArith Bool Reals.
From Verif Require Import Prelude NdArray Tools_Arr Tools_Model DataSpace_Model.
Import ListNotations.
Open Scope list_scope.

(** ** One suspended iterator: data_space.py 52-83 without [enum] and [select]

    The tag being walked through, the positions of it still to come (lines
    60-61: the slice is a copy of the list), and the tags still to come. *)
Record gen := mk_gen { g_tag : string; g_pos : list nat; g_tags : list string }.

Section Gen.
  Context {X : Type}.
  Implicit Type ds : dspace X.

  (** Lines 61-67: up to the next active dataset of the current tag. *)
  Fixpoint next_pos ds (t : string) (ps : list nat) : option (nat * list nat) :=
    match ps with
    | [] => None
    | p :: ps' =>
        match lookup ds (t, p) with
        | None => next_pos ds t ps' (* unreachable: positions come from the list *)
        | Some d => if ds_status d then Some (p, ps') else next_pos ds t ps'
        end
    end.

  (** Lines 57-79. *)
  Fixpoint next_tag ds (tags : list string) : res (option (ref * gen)) :=
    match tags with
    | [] => Ok None
    | t :: tags' =>
        match aget t ds with
        | None => Err Quit
        | Some l =>
            match next_pos ds t (seq 0 (length l)) with
            | Some (p, ps) => Ok (Some ((t, p), mk_gen t ps tags'))
            | None => next_tag ds tags'
            end
        end
    end.

  Definition next ds (g : gen) : res (option (ref * gen)) :=
    match next_pos ds (g_tag g) (g_pos g) with
    | Some (p, ps) => Ok (Some ((g_tag g, p), mk_gen (g_tag g) ps (g_tags g)))
    | None => next_tag ds (g_tags g)
    end.

  (** A call of [iterator]; the tags are listed (lines 52-56) by the first
      [next], before anything is added. *)
  Definition start ds (use : option string) : gen := mk_gen ""%string [] (tags_of ds use).

  (** [zip]: the iterators are advanced from the left, up to the first one
      without a next element. For instance commands/agyro.py 33. *)
  Fixpoint nexts ds (gs : list gen) : res (option (list ref * list gen)) :=
    match gs with
    | [] => Ok (Some ([], []))
    | g :: gs' =>
        let* n := next ds g in
        match n with
        | None => Ok None
        | Some (r, g') =>
            let* m := nexts ds gs' in
            Ok (match m with None => None | Some (rs, gs'') => Some (r :: rs, g' :: gs'') end)
        end
    end.

  (** ** The loop

      [f] is the computation on the datasets of one turn.  The loop is written
      along the first iterator, [gs] are the others. *)
  Section Loop.
    Context (f : list X -> res X) (out label : string).

    (** commands/agyro.py 34. *)
    Definition gather ds (rs : list ref) : res (list X) :=
      mapM (fun r => match lookup ds r with Some d => Ok (ds_data d) | None => Err KeyError end) rs.

    (** commands/agyro.py 34-37, commands/energetics.py 24-30. *)
    Definition zip_body (rs : list ref) ds : res (dspace X) :=
      let* xs := gather ds rs in
      let* y := f xs in
      Ok (add ds out (mk_dset (next_id ds) "" true label y)).

    (** The flag tells that some other iterator has ended. commands/agyro.py 33-38. *)
    Fixpoint zip_pos (t : string) (ps : list nat) (gs : list gen) ds : res (bool * list gen * dspace X) :=
      match ps with
      | [] => Ok (false, gs, ds)
      | p :: ps' =>
          match lookup ds (t, p) with
          | None => zip_pos t ps' gs ds (* unreachable *)
          | Some d =>
              if ds_status d then
                let* n := nexts ds gs in
                match n with
                | None => Ok (true, gs, ds)
                | Some (rs, gs') => let* ds' := zip_body ((t, p) :: rs) ds in zip_pos t ps' gs' ds'
                end
              else zip_pos t ps' gs ds
          end
      end.

    (** commands/agyro.py 33-38. *)
    Fixpoint zip_tags (tags : list string) (gs : list gen) ds : res (dspace X) :=
      match tags with
      | [] => Ok ds
      | t :: tags' =>
          match aget t ds with
          | None => Err Quit
          | Some l =>
              let* s := zip_pos t (seq 0 (length l)) gs ds in
              match s with
              | (true, _, ds') => Ok ds'
              | (false, gs', ds') => zip_tags tags' gs' ds'
              end
          end
      end.

    (** commands/agyro.py 33-38, commands/energetics.py 22-32. *)
    Definition zip_loop (use : option string) (uses : list (option string)) ds : res (dspace X) :=
      zip_tags (tags_of ds use) (List.map (start ds) uses) ds.
  End Loop.

  (** The trailing [data.deactivate_all(tag=...)] lines.
      commands/energetics.py 33-35, commands/velocity.py 30-31. *)
  Fixpoint deactivate_each (uses : list (option string)) ds : res (dspace X) :=
    match uses with
    | [] => Ok ds
    | u :: us => let* ds' := deactivate_all ds u in deactivate_each us ds'
    end.
End Gen.

(** ** The commands: a dataset is its coordinates and its values *)
Notation fdata := (list arr * arr)%type.

(** Computations of two and of three datasets. commands/agyro.py 33-34. *)
Definition on2 (f : fdata -> fdata -> res fdata) (l : list fdata) : res fdata :=
  match l with [a; b] => f a b | _ => Err TypeError end.
(** commands/energetics.py 22-25. *)
Definition on3 (f : fdata -> fdata -> fdata -> res fdata) (l : list fdata) : res fdata :=
  match l with [a; b; c] => f a b c | _ => Err TypeError end.

(** utils/input_parser.py 37-44: a pair of a list and an array is accepted if
    the list has an entry for every axis, or for every axis but one. *)
Definition input_parser (d : fdata) : res fdata :=
  if negb (length (fst d) =? length (shape (snd d)))%nat
     && negb (S (length (fst d)) =? length (shape (snd d)))%nat
  then Err ValueError else Ok d.

(** agyro.py 33-38; the coordinates are those [mag_sq] returns, the ones of the field. *)
Definition agyro_pair (measure : string) (p b : fdata) : res fdata :=
  let* w := get_agyro measure (snd p) (snd b) in Ok (fst b, w).

(** agyro.py 33-34, 64-65. *)
Definition agyro_tag (tag : option string) : string :=
  match tag with Some t => if String.eqb t "" then "agyro" else t | None => "agyro" end.

(** agyro.py 8-39; the inputs stay active. *)
Definition agyro_command (measure pressure bfield : string) (tag : option string) (label : string)
    (ds : dspace fdata) : res (dspace fdata) :=
  if negb (existsb (String.eqb measure) agyro_choices) then Err ClickFail
  else zip_loop (on2 (agyro_pair measure)) (agyro_tag tag) label (Some pressure) [Some bfield] ds.

(** pressure_diagnostics.py 151-157 on datasets: both pairs go through
    [input_parser] (get_pij gets a dataset, which needs no check). *)
Definition mom_agyro_pair (measure : string) (s e : fdata) : res fdata :=
  let* p := get_pij (snd s) in
  let* b := cols 3 6 (snd e) in
  let* p' := input_parser (fst s, p) in
  let* b' := input_parser (fst e, b) in
  agyro_pair measure p' b'.

(** agyro.py 42-70; without [--species] or [--field] all tags are walked through. *)
Definition mom_agyro_command (measure : string) (species field tag : option string) (label : string)
    (ds : dspace fdata) : res (dspace fdata) :=
  if negb (existsb (String.eqb measure) mom_agyro_choices) then Err ClickFail
  else zip_loop (on2 (mom_agyro_pair measure)) (agyro_tag tag) label species [field] ds.

(** energetics.py (commands) 22-31, tools/energetics.py 14-60: the coordinates
    are the ones of the field. *)
Definition energetics_triple (elc ion em : fdata) : res fdata :=
  let* w := energetics (snd elc) (snd ion) (snd em) in Ok (fst em, w).

(** commands/energetics.py 10-37. *)
Definition energetics_command (elc ion field tag label : string) (ds : dspace fdata) : res (dspace fdata) :=
  let* ds' := zip_loop (on3 energetics_triple) tag label (Some elc) [Some ion; Some field] ds in
  deactivate_each [Some elc; Some ion; Some field] ds'.
