(** * Shared vocabulary: Python-like results, strings, integers and slices.

    Nothing here models a particular file of /repo; these are the pieces of
    Python used throughout the models. *)
From Coq Require Import String Ascii List ZArith NArith Bool Lia.
From Coq Require Import DecimalString.
From Coq Require Decimal DecimalFacts DecimalN DecimalPos.
Import ListNotations.
Open Scope list_scope.

(** Python exceptions (and [click]/[quit] aborts) as values. *)
Inductive exn :=
| ValueError | TypeError | IndexError | KeyError | NameError | AttributeError
| OSError | ZeroDivisionError | UnboundLocalError | RuntimeError
| Quit          (* quit() *)
| ClickFail     (* ctx.fail(...) *)
| OutOfFuel.    (* artefact of the model: loop bound exhausted *)

Inductive res (A : Type) :=
| Ok (a : A)
| Err (e : exn).
Arguments Ok {A} _.
Arguments Err {A} _.

Definition bind {A B} (m : res A) (f : A -> res B) : res B :=
  match m with Ok a => f a | Err e => Err e end.

Notation "'let*' x ':=' m 'in' k" := (bind m (fun x => k))
  (at level 200, x pattern, m at level 100, k at level 200, right associativity).

Fixpoint mapM {A B} (f : A -> res B) (l : list A) : res (list B) :=
  match l with
  | [] => Ok []
  | a :: l' => let* b := f a in let* bs := mapM f l' in Ok (b :: bs)
  end.

(** ** Strings *)

(** [str.split(c)] for a one-character separator. *)
Fixpoint split_on (c : ascii) (s : string) : list string :=
  match s with
  | EmptyString => [EmptyString]
  | String a s' =>
      if Ascii.eqb a c then EmptyString :: split_on c s'
      else match split_on c s' with
           | [] => [String a EmptyString] (* unreachable *)
           | h :: t => String a h :: t
           end
  end.

(** [c in s] for one character. *)
Fixpoint has_char (c : ascii) (s : string) : bool :=
  match s with
  | EmptyString => false
  | String a s' => Ascii.eqb a c || has_char c s'
  end.

(** [s.startswith(p)]. *)
Fixpoint starts_with (p s : string) : bool :=
  match p, s with
  | EmptyString, _ => true
  | String a p', String b s' => Ascii.eqb a b && starts_with p' s'
  | String _ _, EmptyString => false
  end.

(** [p in s] for strings. *)
Fixpoint contains (p s : string) : bool :=
  starts_with p s ||
  match s with EmptyString => false | String _ s' => contains p s' end.

(** [sep.join(l)]. *)
Fixpoint join (sep : string) (l : list string) : string :=
  match l with
  | [] => EmptyString
  | [a] => a
  | a :: l' => (a ++ sep ++ join sep l')%string
  end.

(** ** Integers and their decimal notation *)

(** [str.isdigit] restricted to ASCII digits (Python also accepts other Unicode
    digits). *)
Definition is_digits (s : string) : bool :=
  match s with
  | EmptyString => false
  | _ => match NilEmpty.uint_of_string s with Some _ => true | None => false end
  end.

(** [int(s)] for a string of digits. *)
Definition digits_val (s : string) : option N :=
  match s with
  | EmptyString => None
  | _ => option_map N.of_uint (NilEmpty.uint_of_string s)
  end.

(** [int(s)]: optional sign followed by digits.  Surrounding blanks and
    underscores between digits, which Python accepts, are treated as
    [ValueError] here. *)
Definition py_int (s : string) : res Z :=
  match s with
  | String "-" s' =>
      match digits_val s' with Some n => Ok (- Z.of_N n)%Z | None => Err ValueError end
  | String "+" s' =>
      match digits_val s' with Some n => Ok (Z.of_N n) | None => Err ValueError end
  | _ => match digits_val s with Some n => Ok (Z.of_N n) | None => Err ValueError end
  end.

(** [str(n)]. *)
Definition show_N (n : N) : string := NilEmpty.string_of_uint (N.to_uint n).
Definition show_Z (z : Z) : string :=
  match z with
  | Z0 => "0"%string
  | Zpos p => show_N (Npos p)
  | Zneg p => String "-" (show_N (Npos p))
  end.

(** ** Python slices *)

(** Clamp used by CPython's [PySlice_AdjustIndices] for one end, positive
    step. *)
Definition adjust_pos (len i : Z) : Z :=
  (if i <? 0 then Z.max (i + len) 0 else Z.min i len)%Z.

(** The same for negative step (result in [-1 .. len-1]). *)
Definition adjust_neg (len i : Z) : Z :=
  (if i <? 0 then Z.max (i + len) (-1) else Z.min i (len - 1))%Z.

(** [slice(start, stop, step).indices(len)]. *)
Definition slice_indices (len : Z) (start stop step : option Z) : res (Z * Z * Z) :=
  let st := match step with None => 1%Z | Some s => s end in
  if (st =? 0)%Z then Err ValueError
  else if (0 <? st)%Z then
    Ok (match start with None => 0%Z | Some i => adjust_pos len i end,
        match stop with None => len | Some i => adjust_pos len i end, st)
  else
    Ok (match start with None => (len - 1)%Z | Some i => adjust_neg len i end,
        match stop with None => (-1)%Z | Some i => adjust_neg len i end, st).

(** Number of elements of [range(lo, hi, st)]. *)
Definition range_len (lo hi st : Z) : Z :=
  (if 0 <? st then Z.max 0 ((hi - lo + st - 1) / st)
   else Z.max 0 ((lo - hi - st - 1) / (- st)))%Z.

(** [list(range(lo, hi, st))]. *)
Definition range_list (lo hi st : Z) : list Z :=
  List.map (fun k => lo + Z.of_nat k * st)%Z (seq 0 (Z.to_nat (range_len lo hi st))).

(** Positions selected by [x[start:stop:step]] from a sequence of length
    [len]. *)
Definition slice_list (len : nat) (start stop step : option Z) : res (list nat) :=
  let* (lo, hi, st) := slice_indices (Z.of_nat len) start stop step in
  Ok (List.map Z.to_nat (range_list lo hi st)).

(** [x[i]]: position meant by a (possibly negative) integer index. *)
Definition norm_index (len : nat) (i : Z) : res nat :=
  (let j := if i <? 0 then i + Z.of_nat len else i in
   if (0 <=? j) && (j <? Z.of_nat len) then Ok (Z.to_nat j) else Err IndexError)%Z.

(** [x[a:b]] with both ends given and step one: the positions selected. *)
Definition slice2 (len : nat) (a b : Z) : list nat :=
  let lo := adjust_pos (Z.of_nat len) a in
  let hi := adjust_pos (Z.of_nat len) b in
  seq (Z.to_nat lo) (Z.to_nat (hi - lo)).

(** ** Small list helpers *)

Definition prod (l : list nat) : nat := fold_right Nat.mul 1%nat l.

Fixpoint map2 {A B C} (f : A -> B -> C) (l : list A) (m : list B) : list C :=
  match l, m with
  | a :: l', b :: m' => f a b :: map2 f l' m'
  | _, _ => []
  end.

(** Elements of [l] at the listed positions (positions out of range are an
    [IndexError]). *)
Definition pick {A} (l : list A) (ks : list nat) : res (list A) :=
  mapM (fun k => match nth_error l k with Some a => Ok a | None => Err IndexError end) ks.

(** Replace position [k]. *)
Fixpoint set_nth {A} (k : nat) (a : A) (l : list A) : list A :=
  match l, k with
  | [], _ => []
  | _ :: l', 0%nat => a :: l'
  | b :: l', S k' => b :: set_nth k' a l'
  end.

(** Association lists with Python dictionary behaviour: insertion order kept,
    assignment to an existing key keeps its place. *)
Section Assoc.
  Context {V : Type}.
  Fixpoint aget (k : string) (d : list (string * V)) : option V :=
    match d with
    | [] => None
    | (k', v) :: d' => if String.eqb k k' then Some v else aget k d'
    end.
  Fixpoint aset (k : string) (v : V) (d : list (string * V)) : list (string * V) :=
    match d with
    | [] => [(k, v)]
    | (k', v') :: d' => if String.eqb k k' then (k, v) :: d' else (k', v') :: aset k v d'
    end.
  Fixpoint adel (k : string) (d : list (string * V)) : list (string * V) :=
    match d with
    | [] => []
    | (k', v') :: d' => if String.eqb k k' then adel k d' else (k', v') :: adel k d'
    end.
End Assoc.
