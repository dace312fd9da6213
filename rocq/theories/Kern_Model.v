(** * Choice of the expansion kernel in modalDG/interpolate.py. *)
From Coq Require Import List ZArith.
From Verif Require Import Prelude Kern_Exp Kern_Tab.
Import ListNotations.

(** interpolate.py 46, 52, 63, 78, 98, 121: [expand_Nd[int(poly_order - 1)]].
    Negative positions count from the end as in every Python list.  A kernel
    may be a bare [return] ([None] inside).  For any other number of dimensions
    no branch is taken (42-126), here [None] outside.  The loops around it are
    those of C31; the function ends by calling [pushGrid], which GData does not
    have (130), and so raises AttributeError whatever was computed. *)
Definition kernel (d : nat) (p : Z) : option (res (option kexp)) :=
  match expand_lists d with
  | None => None
  | Some l =>
      let i := (p - 1)%Z in
      let n := Z.of_nat (length l) in
      let j := if (i <? 0)%Z then (i + n)%Z else i in
      Some (if ((0 <=? j) && (j <? n))%Z%bool then
              match nth_error l (Z.to_nat j) with Some k => Ok k | None => Err IndexError end
            else Err IndexError)
  end.
