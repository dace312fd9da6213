(** * Model of commands/relchange.py *)
From Coq Require Import String List ZArith Bool.
From Verif Require Import Prelude DataSpace_Model.
Import ListNotations.
Open Scope list_scope.

Section RelChange.
  (** [rel reference dataset] is [postgkyl.tools.rel_change] with the option [--comp]. *)
  Context {X : Type} (rel : X -> X -> res X).

  (** relchange.py 23-34, for the tag [t] and the position [p] of the reference.
      [GData(tag=..., compgrid=...)] (line 25) raises: the parameter is called
      [comp_grid]. *)
  Definition rel_body (tag t : string) (p : nat) (_ : nat) (r : ref) (ds : dspace X) : res (dspace X) :=
    if negb (String.eqb tag "") then Err TypeError
    else match lookup ds (t, p), lookup ds r with
         | Some d0, Some d => let* y := rel (ds_data d0) (ds_data d) in Ok (modify ds r (set_data y))
         | _, _ => Err KeyError (* unreachable *)
         end.

  (** relchange.py 21-35: [get_dataset] (data_space.py 167-168), then the loop. *)
  Definition rel_tag (index : Z) (tag t : string) (ds : dspace X) : res (dspace X) :=
    match aget t ds with
    | None => Err KeyError
    | Some l => let* p := norm_index (length l) index in
                iterate (fun ds => ds) (rel_body tag t p) true (Some t) false SelNone ds
    end.

  Fixpoint rel_tags (index : Z) (tag : string) (ts : list string) (ds : dspace X) : res (dspace X) :=
    match ts with
    | [] => Ok ds
    | t :: ts' => let* ds' := rel_tag index tag t ds in rel_tags index tag ts' ds'
    end.

  (** relchange.py 17-36. *)
  Definition relchange (use : option string) (index : Z) (tag : string) (ds : dspace X) : res (dspace X) :=
    let* ts := tag_iterator ds use true in rel_tags index tag ts ds.
End RelChange.
