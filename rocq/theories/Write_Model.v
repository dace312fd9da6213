(** * Model of the text output and of the output names of [GData.write]
    (data/gdata.py 461-614).  The binary [.gkyl] output is in [Gkyl_Model]. *)
From Coq Require Import String Ascii List Arith ZArith QArith Bool.
From Verif Require Import Prelude NdArray GData_Model.
Import ListNotations.
Open Scope list_scope.

(** ** Output name *)

(** [s.split(c, maxsplit=1)[0]] *)
Fixpoint before (c : ascii) (s : string) : string :=
  match s with
  | EmptyString => EmptyString
  | String a s' => if Ascii.eqb a c then EmptyString else String a (before c s')
  end.

(** [s.lstrip(c)], [s.rstrip(c)], [s.strip(c)] for a single character. data/gdata.py 494. *)
Fixpoint lstrip (c : ascii) (s : string) : string :=
  match s with
  | EmptyString => EmptyString
  | String a s' => if Ascii.eqb a c then lstrip c s' else s
  end.
(** data/gdata.py 494. *)
Fixpoint rstrip (c : ascii) (s : string) : string :=
  match s with
  | EmptyString => EmptyString
  | String a s' =>
      match rstrip c s' with
      | EmptyString => if Ascii.eqb a c then EmptyString else String a EmptyString
      | t => String a t
      end
  end.
(** data/gdata.py 494. *)
Definition strip (c : ascii) (s : string) : string := rstrip c (lstrip c s).

(** gdata.py 491-507 with the file name a string (it always is: line 96
    converts it with [str]); the branch for [None] is never taken. *)
Definition out_name (file_name given ext : string) : string :=
  match given with
  | EmptyString => (strip "_" (before "." file_name) ++ "_mod." ++ ext)%string
  | _ => if String.eqb (last (split_on "." given) ""%string) ext then given
         else (given ++ "." ++ ext)%string
  end.

(** ** Text output *)

(** [0.5 * (a[1:] + a[:-1])] for a 1-D array. *)
Definition centres (l : list Q) : list Q :=
  map2 (fun x y => (1 # 2) * (x + y))%Q (tl l) (removelast l).

(** gdata.py 583-585: [grid] is the dataset's own list, so the dataset is
    changed; the entries before an exception keep their new value.  Only 1-D
    coordinate arrays are modelled (an n-D array of a mapped grid would be
    averaged along its first axis). *)
Fixpoint recentre (g : list garr) (nd : nat) : list garr * option exn :=
  match nd, g with
  | O, _ => (g, None)
  | S _, [] => ([], Some IndexError)
  | S n, a :: g' =>
      match shape a with
      | [_] => let c := centres (flat a) in
               let (r, e) := recentre g' n in (mk_nda [length c] c :: r, e)
      | _ => (g, Some TypeError)
      end
  end.

(** gdata.py 587-590.  The code uses doubles; products and quotients are exact
    below 2^53. *)
Definition basis (cells : list nat) : list nat :=
  List.map (fun d => if (d <? length cells - 1)%nat then prod (skipn (S d) cells) else 1%nat)
           (seq 0 (length cells)).

(** gdata.py 594-599. *)
Fixpoint unrank (bs : list nat) (i : nat) : list nat :=
  match bs with
  | [] => []
  | b :: bs' => (i / b)%nat :: unrank bs' (i mod b)%nat
  end.

Definition of_opt {A} (o : option A) : res A :=
  match o with Some a => Ok a | None => Err IndexError end.

Section Txt.
  Context {A : Type}.
  (** [f"{x:.15e}"] for coordinates and for values. *)
  Context (fq : Q -> string) (fa : A -> string).

  Definition newline : string := String (ascii_of_nat 10) EmptyString.

  (** gdata.py 600-608: one line. *)
  Definition txt_line (g : list garr) (v : nda A) (nd nc : nat) (bs : list nat) (i : nat) : res string :=
    let idxs := unrank bs i in
    let* xs := mapM (fun d => let* a := of_opt (nth_error g d) in
                              let* j := of_opt (nth_error idxs d) in
                              of_opt (nth_error (flat a) j)) (seq 0 nd) in
    let* vs := mapM (fun c => of_opt (get v (idxs ++ [c]))) (seq 0 (nc - 1)) in
    let* w := match nc with
              | O => Err IndexError
              | S m => of_opt (get v (idxs ++ [m]))
              end in
    Ok (fold_left (fun s x => s ++ fa x ++ ", ")%string vs
          (fold_left (fun s x => s ++ fq x ++ ", ")%string xs ""%string)
        ++ fa w ++ newline)%string.

  (** gdata.py 509-514 and 581-611: the changed dataset and the lines of the
      file.  [list(num_cells)] fails for a dataset without cells. *)
  Definition write_txt (d : gdata A) : gdata A * res (list string) :=
    match get_num_comps d, get_num_cells d, get_bounds d with
    | Ok nc, Some cells, Ok _ =>
        match g_grid d, g_vals d with
        | Some g, Some v =>
            let nd := get_num_dims d in
            let (g', e) := recentre g nd in
            let d' := mk_gdata (Some g') (g_vals d) (c_cells d) (c_ncomps d) (c_lower d) (c_upper d) in
            match e with
            | Some e => (d', Err e)
            | None => (d', mapM (txt_line g' v nd nc (basis cells)) (seq 0 (prod cells)))
            end
        | _, _ => (d, Err TypeError)
        end
    | Err e, _, _ => (d, Err e)
    | _, None, _ => (d, Err TypeError)
    | _, _, Err e => (d, Err e)
    end.
End Txt.
