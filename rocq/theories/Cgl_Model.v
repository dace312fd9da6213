(** * The pressure tensor along a magnetic field: commands/old/cglpressure.py

    [getParPerp] and [getAgyro] of /repo/src/postgkyl/commands/old/cglpressure.py.
    The command around them is not modelled: the file imports
    [postgkyl.tools.stack], which does not exist, so only the two functions have a
    meaning.  Arrays are arrays of reals with the components last ([Tools_Arr.v]);
    [np.copy] of a slice is the slice, since arrays are values here. *)
From Coq Require Import String Ascii List Arith ZArith Bool Lia Reals Lra.
From Verif Require Import Prelude NdArray Ev_Model Tools_Arr Tools_Model.
Import ListNotations.
Open Scope list_scope.
Open Scope nat_scope.

(** Lines 13-18 and 39-44: the six components, without the component axis. *)
Definition six (p : arr) : res (arr * arr * arr * arr * arr * arr) :=
  let* pxx := comp 0 p in let* pxy := comp 1 p in let* pxz := comp 2 p in
  let* pyy := comp 3 p in let* pyz := comp 4 p in let* pzz := comp 5 p in
  Ok (pxx, pxy, pxz, pyy, pyz, pzz).

(** Lines 20-23 and 46-49: the direction of the field. *)
Definition direction (B : arr) : res (arr * arr * arr) :=
  let* b0 := comp 0 B in let* b1 := comp 1 B in let* b2 := comp 2 B in
  let* s0 := mul b0 b0 in let* s1 := mul b1 b1 in let* s := add s0 s1 in
  let* s2 := mul b2 b2 in let* s := add s s2 in
  let b := rmap sqrt s in
  let* bx := div b0 b in let* by_ := div b1 b in let* bz := div b2 b in
  Ok (bx, by_, bz).

(** Lines 25-30 and 51-56. *)
Definition parallel (c : arr * arr * arr * arr * arr * arr) (d : arr * arr * arr) : res arr :=
  let '(pxx, pxy, pxz, pyy, pyz, pzz) := c in
  let '(bx, by_, bz) := d in
  let* a1 := mul bx bx in let* a1 := mul a1 pxx in
  let* a2 := mul by_ by_ in let* a2 := mul a2 pyy in
  let* s := add a1 a2 in
  let* a3 := mul bz bz in let* a3 := mul a3 pzz in
  let* s := add s a3 in
  let* c1 := mul bx by_ in let* c1 := mul c1 pxy in
  let* c2 := mul bx bz in let* c2 := mul c2 pxz in
  let* c := add c1 c2 in
  let* c3 := mul by_ bz in let* c3 := mul c3 pyz in
  let* c := add c c3 in
  add s (scale 2 c).

(** Lines 31 and 57: [(pxx + pyy + pzz - q)/2.0]. *)
Definition half_rest (c : arr * arr * arr * arr * arr * arr) (q : arr) : res arr :=
  let '(pxx, _, _, pyy, _, pzz) := c in
  let* s := add pxx pyy in let* s := add s pzz in
  let* s := sub s q in
  Ok (rmap (fun x => x / 2)%R s).

(** Lines 10-33, [getParPerp]; line 31 reads the component just assigned. *)
Definition getParPerp (p B : arr) : res arr :=
  let* tmp := cols 0 2 p in
  let* c := six p in
  let* d := direction B in
  let* q := parallel c d in
  let* tmp := set_col 0 q tmp in
  let* q := comp 0 tmp in
  let* r := half_rest c q in
  set_col 1 r tmp.

(** Lines 59-64: [p_ij - (ppar*b_i*b_j + pper*(delta - b_i*b_j))]. *)
Definition rest (delta : R) (pij bi bj ppar pper : arr) : res arr :=
  let* a := mul ppar bi in let* a := mul a bj in
  let* c := mul bi bj in
  let* c := mul pper (rmap (fun x => delta - x)%R c) in
  let* s := add a c in
  sub pij s.

(** Lines 36-66, [getAgyro]. *)
Definition getAgyro (p B : arr) : res arr :=
  let* tmp := cols 0 6 p in
  let* c := six p in
  let* d := direction B in
  let* ppar := parallel c d in
  let* pper := half_rest c ppar in
  let '(pxx, pxy, pxz, pyy, pyz, pzz) := c in
  let '(bx, by_, bz) := d in
  let* e := rest 1 pxx bx bx ppar pper in let* tmp := set_col 0 e tmp in
  let* e := rest 0 pxy bx by_ ppar pper in let* tmp := set_col 1 e tmp in
  let* e := rest 0 pxz bx bz ppar pper in let* tmp := set_col 2 e tmp in
  let* e := rest 1 pyy by_ by_ ppar pper in let* tmp := set_col 3 e tmp in
  let* e := rest 0 pyz by_ bz ppar pper in let* tmp := set_col 4 e tmp in
  let* e := rest 1 pzz bz bz ppar pper in set_col 5 e tmp.
