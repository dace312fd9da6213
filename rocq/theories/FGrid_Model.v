(** * The grid of a file in double precision

    [Gkyl_Model] reads files over any numbers; here the numbers are doubles: each
    operation is followed by one rounding ([Float_Model.fl]).  Overflow, infinities
    and NaN are left out. *)
From Coq Require Import List ZArith Reals Bool.
From Flocq Require Import Core.
From Verif Require Import Prelude Gkyl_Model Float_Model.
Import ListNotations.
Open Scope R_scope.

(** The arithmetic of the double arrays in data/gkyl_reader.py 284-288, 541-552;
    [dec] gives the value of the bytes of a number. *)
Definition dnum (dec : nat -> list Z -> R) : fops R :=
  mk_fops R dec 0 (fun x y => fl (x + y)) (fun x y => fl (x - y)) (fun x y => fl (x * y)) (fun x y => fl (x / y)) (fun z => fl (IZR z)).

(** [np.linspace(lo, up, n + 1)] of data/gkyl_reader.py 552 and data/dg.py 137 as
    numpy computes it, with its other formula for a step that is rounded to 0. *)
Definition np_linspace (lo up : R) (n : nat) : list R :=
  match n with
  | O => [fl (fl (0 * fl (up - lo)) + lo)]
  | _ =>
      let num := fun i => fl (IZR (Z.of_nat i)) in
      let delta := fl (up - lo) in
      let step := fl (delta / num n) in
      List.map (fun i => fl (fl (if Req_bool step 0 then fl (num i / num n) * delta else num i * step) + lo)) (seq 0 n) ++ [up]
  end.
