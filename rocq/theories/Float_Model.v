(** * Integers computed through floating-point numbers

    Doubles are real numbers, each operation is followed by one rounding to the nearest
    double (ties to even). Overflow, infinities and NaN are left out. *)
From Coq Require Import List ZArith Reals Bool.
From Flocq Require Import Core.
From Verif Require Import Prelude.
Import ListNotations.
Open Scope R_scope.

(** Rounding to a double: 53 bits, smallest exponent -1074. *)
Definition fl : R -> R := round radix2 (FLT_exp (-1074) 53) ZnearestE.

(** [a/b] of two integers, [a*b] and [np.sqrt(a)].
    Used in output/plot.py 203, 273-291 and the places named below. *)
Definition f_div (a b : Z) : R := fl (IZR a / IZR b).
Definition f_mul (x y : R) : R := fl (x * y).
Definition f_sqrt (a : Z) : R := fl (sqrt (fl (IZR a))).

(** [int(np.floor(a/b))], [int(np.ceil(a/b))] and [int(a/b)]; output/plot.py 203, 275
    and 278, commands/trajectory.py 112, tools/growth.py 49, data/gkyl_reader.py 233-234
    and 425. *)
Definition int_floor_div (a b : Z) : res Z := if (b =? 0)%Z then Err ZeroDivisionError else Ok (Zfloor (f_div a b)).
Definition int_ceil_div (a b : Z) : res Z := if (b =? 0)%Z then Err ZeroDivisionError else Ok (Zceil (f_div a b)).
Definition int_div (a b : Z) : res Z := if (b =? 0)%Z then Err ZeroDivisionError else Ok (Ztrunc (f_div a b)).

(** data/gkyl_reader.py 545-546, data/gkyl_adios_reader.py 256-257: the ghost cells below
    and above. *)
Definition ghosts (c z : Z) : Z * Z := (Zfloor (f_mul (IZR (c - z)) 0.5), Zceil (f_mul (IZR (c - z)) 0.5)).

(** output/plot.py 273-291: rows and columns of panels. *)
Definition f_layout (rows cols : option Z) (n : Z) : res (Z * Z) :=
  match rows, cols with
  | Some r, _ => let* c := int_ceil_div n r in Ok (r, c)
  | None, Some c => let* r := int_ceil_div n c in Ok (r, c)
  | None, None =>
      let sr := f_sqrt n in
      let up := IZR (Zceil sr) in
      let down := IZR (Zfloor sr) in
      if Req_bool sr up then Ok (Ztrunc sr, Ztrunc sr)
      else if Rle_bool (IZR n) (f_mul up down) then Ok (Zfloor sr, Zceil sr)
      else Ok (Zceil sr, Zceil sr)
  end.

(** tools/fft.py 94: [int(np.sqrt(np.sum(N[:] ** 2)))]. *)
Definition f_bins (ns : list nat) : Z := Ztrunc (f_sqrt (Z.of_nat (fold_right (fun m s => m * m + s)%nat 0%nat ns))).

(** data/gkyl_reader.py 507-508, 532-533, data/gkyl_adios_reader.py 243-246: the ends of the
    slice of components for the dimension [d] of [nd]. *)
Definition f_slice (num_comps nd d : Z) : Z * Z :=
  (Ztrunc (f_mul (IZR d) (f_div num_comps nd)), Ztrunc (f_mul (IZR (d + 1)) (f_div num_comps nd))).

(** [x // y] and [x % y] of doubles, [0 <= x] and [0 < y]: C's fmod is exact; numpy
    divides what it leaves and rounds the quotient to the nearest integer. *)
Definition fmod (x y : R) : R := x - IZR (Ztrunc (x / y)) * y.
Definition f_floor_divide (x y : R) : R :=
  let d := fl (fl (x - fmod x y) / y) in
  if Rlt_dec (1 / 2) (d - IZR (Zfloor d)) then IZR (Zfloor d) + 1 else IZR (Zfloor d).

(** data/gdata.py 587-590: the product is one of integers, stored as a double. *)
Definition f_basis (cells : list nat) : list R :=
  List.map (fun d => if (d <? length cells - 1)%nat then fl (INR (fold_right Nat.mul 1%nat (skipn (S d) cells))) else 1)
           (seq 0 (length cells)).

(** data/gdata.py 594-599: the indices of line [i] of the text dump. *)
Fixpoint f_unrank (bs : list R) (i : R) : list Z :=
  match bs with
  | [] => []
  | b :: bs' => Ztrunc (f_floor_divide i b) :: f_unrank bs' (fmod i b)
  end.

Section Root.
  (** [x ** y] of the C library. *)
  Context (pw : R -> R -> R).

  (** data/dg.py 325, 355, 492, 565: [int(round(n ** (1.0 / d)))]; [round] takes ties to
      the even integer. *)
  Definition f_root (d n : nat) : nat := Z.to_nat (ZnearestE (pw (INR n) (fl (1 / INR d)))).
End Root.
