(** * What a figure shows, read off the calls made on it *)
From Coq Require Import String Ascii List Arith ZArith QArith Bool.
From Verif Require Import Prelude Label_Model.
Import ListNotations.
Open Scope list_scope.

(** The texts, lines, ... that panel [k] is given, in order. *)
Definition xlabels (k : nat) (l : list event) : list string :=
  flat_map (fun e => match e with Xlabel j s => if (j =? k)%nat then [s] else [] | _ => [] end) l.
Definition ylabels (k : nat) (l : list event) : list string :=
  flat_map (fun e => match e with Ylabel j s => if (j =? k)%nat then [s] else [] | _ => [] end) l.
Definition titles (k : nat) (l : list event) : list string :=
  flat_map (fun e => match e with Title j s => if (j =? k)%nat then [s] else [] | _ => [] end) l.
Definition switched_off (k : nat) (l : list event) : bool :=
  existsb (fun e => match e with AxisOff j => (j =? k)%nat | _ => false end) l.
Definition lines_of (k : nat) (l : list event) : list (option string) :=
  flat_map (fun e => match e with Line j s => if (j =? k)%nat then [s] else [] | _ => [] end) l.
Definition contours_of (k : nat) (l : list event) : list levels :=
  flat_map (fun e => match e with Contour j s => if (j =? k)%nat then [s] else [] | _ => [] end) l.
Definition bars_of (k : nat) (l : list event) : list string :=
  flat_map (fun e => match e with Bar j s => if (j =? k)%nat then [s] else [] | _ => [] end) l.
Definition texts_of (k : nat) (l : list event) : list string :=
  flat_map (fun e => match e with Text j s => if (j =? k)%nat then [s] else [] | _ => [] end) l.
Definition legends_of (k : nat) (l : list event) : nat :=
  length (flat_map (fun e => match e with Legend j => if (j =? k)%nat then [tt] else [] | _ => [] end) l).
Definition xlims_of (k : nat) (l : list event) : list (option Q * option Q) :=
  flat_map (fun e => match e with Xlim j a b => if (j =? k)%nat then [(a, b)] else [] | _ => [] end) l.
Definition ylims_of (k : nat) (l : list event) : list (option Q * option Q) :=
  flat_map (fun e => match e with Ylim j a b => if (j =? k)%nat then [(a, b)] else [] | _ => [] end) l.

(** The texts of the figure itself. *)
Definition suptitles (l : list event) : list string :=
  flat_map (fun e => match e with SupTitle s => [s] | _ => [] end) l.
Definition supxs (l : list event) : list string :=
  flat_map (fun e => match e with SupX s => [s] | _ => [] end) l.
Definition supys (l : list event) : list string :=
  flat_map (fun e => match e with SupY s => [s] | _ => [] end) l.

(** A label that tells how an axis [base] was shifted and scaled: a shift of 0
    and a scale of 1 are not mentioned, others are. *)
Inductive described (fmt : Q -> string) (base : string) (shift scale : Q) : string -> Prop :=
| d_plain : shift == 0 -> scale == 1 -> described fmt base shift scale base
| d_shift : ~ shift == 0 -> scale == 1 ->
    described fmt base shift scale (base ++ " + " ++ fmt shift)%string
| d_scale : shift == 0 -> ~ scale == 1 ->
    described fmt base shift scale (base ++ " $\times$ " ++ fmt scale)%string
| d_both : ~ shift == 0 -> ~ scale == 1 ->
    described fmt base shift scale ("(" ++ base ++ " + " ++ fmt shift ++ ") $\times$ " ++ fmt scale)%string.

(** An empty text is as good as none. *)
Definition unless_empty (s : string) : list string := if String.eqb s "" then [] else [s].

(** [m] values from [a] to [b] at equal distances *)
Definition equally_spaced (a b : Q) (m : nat) (l : list Q) : Prop :=
  length l = m /\ nth 0 l 0 == a /\ ((2 <= m)%nat -> nth (m - 1) l 0 == b) /\
  forall i, (S (S i) < m)%nat -> nth (S (S i)) l 0 - nth (S i) l 0 == nth (S i) l 0 - nth i l 0.

(** Every value is below the next one. *)
Definition rising (l : list Q) : Prop := forall i, (S i < length l)%nat -> nth i l 0 < nth (S i) l 0.

(** The label of component [c] of [n]: the prefix, and the number if there are
    several, with an underscore between unless the prefix is empty; leading
    underscores of the prefix are dropped. *)
Inductive is_label (prefix : string) (n c : nat) : string -> Prop :=
| lab_one : n = 1%nat -> is_label prefix n c prefix
| lab_several us p : (1 < n)%nat -> prefix = (us ++ p)%string ->
    Forall (eq "_"%char) (list_ascii_of_string us) -> String.get 0 p <> Some "_"%char ->
    is_label prefix n c (if String.eqb p "" then ("c" ++ show_Z (Z.of_nat c))%string
                         else (p ++ "_c" ++ show_Z (Z.of_nat c))%string).

(** The text of a colour bar for the values. *)
Inductive is_bar_label (fmt : Q -> string) (given : option string) (scale : Q) : string -> Prop :=
| bl_plain : scale == 1 -> is_bar_label fmt given scale (match given with Some s => s | None => ""%string end)
| bl_alone : ~ scale == 1 -> given = None \/ given = Some ""%string ->
    is_bar_label fmt given scale ("$\times$ " ++ fmt scale)%string
| bl_both s : ~ scale == 1 -> given = Some s -> s <> ""%string ->
    is_bar_label fmt given scale (s ++ " $\times$ " ++ fmt scale)%string.
