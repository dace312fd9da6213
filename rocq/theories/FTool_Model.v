(** * Squared magnitudes and relative changes in double precision *)
From Coq Require Import String Ascii List Arith ZArith Bool Reals.
From Verif Require Import Prelude NdArray Ev_Model Tools_Arr Tools_Model Float_Model.
Import ListNotations.
Open Scope string_scope. Open Scope list_scope. Open Scope nat_scope.

(** The operators of tools/mag_sq.py 36 and tools/rel_change.py 21-23, rounded once. *)
Definition fsub_ : arr -> arr -> res arr := rb (fun x y => fl (x - y)).
Definition fmul_ : arr -> arr -> res arr := rb (fun x y => fl (x * y)).
Definition fdiv_ : arr -> arr -> res arr := rb (fun x y => fl (x / y)).

Section Sum.
  (** np.sum at a position of the result. *)
  Context (sum : list nat -> list R -> R).
  (** tools/mag_sq.py 36: [np.sum(values*values, axis=-1)]. *)
  Definition fsum_comps (v : arr) : res arr :=
    match shape v with
    | [] => Err ValueError
    | _ => Ok (tabulate (removelast (shape v)) (fun idx => sum idx (List.map (fun c => val v (idx ++ [c])) (seq 0 (last (shape v) 0)))))
    end.

  (** tools/mag_sq.py 12-42: [coords] is "a:b". *)
  Definition fmag_sq (coords : string) (v : arr) : res arr :=
    match split_on ":" coords with
    | a :: b :: _ =>
        let* a := py_int a in let* b := py_int b in
        let* w := cols a b v in
        let* _ := comp 0 w in
        let* p := fmul_ w w in
        let* o := fsum_comps p in
        Ok (add_axis o)
    | [a] => let* _ := py_int a in Err IndexError
    | [] => Err IndexError
    end.
End Sum.

(** tools/rel_change.py 20-23. *)
Definition frel_comp (k : nat) (v v0 : arr) (ref : Z) (out : arr) : res arr :=
  let* a := comp k v in let* b := comp k v0 in
  let* d := fsub_ a b in
  let* r := norm_index (last (shape v0) 0) ref in
  let* c := comp r v0 in
  let* q := fdiv_ d c in
  set_col k q out.
(** tools/rel_change.py 19-23. *)
Fixpoint frel_loop (v v0 : arr) (cmp : option string) (ks : list nat) (out : arr) : res arr :=
  match ks with
  | [] => Ok out
  | k :: ks' =>
      let* r := match cmp with Some s => py_int s | None => Ok (Z.of_nat k) end in
      let* o := frel_comp k v v0 r out in frel_loop v v0 cmp ks' o
  end.
(** tools/rel_change.py 4-24. *)
Definition frel_change (v0 v : arr) (cmp : option string) : res arr :=
  frel_loop v v0 cmp (seq 0 (last (shape v) 0)) (zeros (shape v)).
