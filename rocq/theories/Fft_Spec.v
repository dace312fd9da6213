(** * What a Fourier transform is: waves and sums over all points *)
From Coq Require Import List Arith ZArith Bool Lia Reals Lra.
From Coquelicot Require Import Complex.
From Verif Require Import Prelude PreludeFacts NdArray Fft_Model.
Import ListNotations.
Open Scope nat_scope.

(** The wave with [k_i] turns along axis [i] of a box of [n_i] points, at point [x]. *)
Fixpoint wave (sh k x : list nat) : C :=
  match sh, k, x with
  | n :: sh', i :: k', j :: x' => Cmult (cis (turn n i j)) (wave sh' k' x')
  | _, _, _ => RtoC 1
  end.

(** Sum over all points of a box. *)
Definition box_sum (sh : list nat) (f : list nat -> C) : C :=
  fold_right (fun x s => Cplus (f x) s) (RtoC 0) (indices sh).

(** Number of points. *)
Definition size (sh : list nat) : R := INR (prod sh).

(** The plane wave with frequencies [nu_i] at point [x] of a grid, from the
    coordinates of the point. *)
Fixpoint phase (nu : list R) (gs : list (list R)) (x : list nat) : R :=
  match nu, gs, x with
  | f :: nu', g :: gs', j :: x' => (2 * PI * (f * nth j g 0) + phase nu' gs' x')%R
  | _, _, _ => 0%R
  end.
Definition plane_wave (nu : list R) (gs : list (list R)) (x : list nat) : C := cis (phase nu gs x).

(** Coordinates with equal steps. *)
Definition uniform (g : list R) : Prop :=
  exists x0 dx, dx <> 0%R /\ forall j, j < length g -> nth j g 0%R = (x0 + INR j * dx)%R.

(** The dataset with one array of coordinates per axis. *)
Definition dataset (gs : list (list R)) (v : nda C) : fdat := mk_fdat (List.map Pts gs) v.

(** Values with [m] components on [cells], and coordinates of one to three axes,
    none of which has fewer than three coordinates. *)
Definition good (gs : list (list R)) (cells : list nat) (m : nat) (v : nda C) : Prop :=
  wf v /\ shape v = cells ++ [m] /\ length cells = length gs /\ 1 <= length gs <= 3 /\
  Forall (fun g => 2 < length g) gs.

(** [r] delivers coordinates [g] and values [w]: in the dataset if it is to be
    overwritten, as the result and with the dataset as before if not. *)
Definition delivers (r : res (fdat * option (list coord * nda C))) (overwrite : bool) (d : fdat)
    (g : list coord) (w : nda C) : Prop :=
  if overwrite then exists ret, r = Ok (mk_fdat g w, ret) else r = Ok (d, Some (g, w)).
