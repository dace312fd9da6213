(** * The Butterworth filter: tools/filters.py 60-86

    [butter_filtering] with [_butter_lowpass] and [_butter_lowpass_filter] of
    /repo/src/postgkyl/tools/filters.py.  [scipy.signal.butter] and
    [scipy.signal.lfilter] are external: they are modelled by the steps of their
    documented algorithms (poles of the analogue prototype, frequency warping,
    bilinear transform, polynomial coefficients; direct form II transposed), over
    exact complex and real numbers.  A time step of zero is the Python float. *)
From Coq Require Import List Arith ZArith Bool Lia Reals Lra.
From Coquelicot Require Import Complex.
From Verif Require Import Prelude Fft_Model.
Import ListNotations.
Open Scope list_scope.
Open Scope nat_scope.

(** ** scipy.signal.butter(order, Wn, btype="low", analog=False) *)

(** [buttap]: the poles [-exp(1j*pi*m/(2*N))] for [m = -N+1, -N+3, ..., N-1]. *)
Definition prototype (n : nat) : list C :=
  List.map (fun i => Copp (cis (PI * IZR (2 * Z.of_nat i + 1 - Z.of_nat n) / (2 * INR n))%R)) (seq 0 n).

Definition cprod (l : list C) : C := fold_right Cmult (RtoC 1) l.

(** [np.poly(roots)]: highest power first; [np.convolve(a, [1, -r])] for each root. *)
Definition conv1 (a : list C) (r : C) : list C :=
  List.map (fun p => Cplus (fst p) (snd p)) (combine (a ++ [RtoC 0]) (List.map (Cmult (Copp r)) (RtoC 0 :: a))).
Definition poly (roots : list C) : list C := fold_left conv1 roots [RtoC 1].

(** Numerator and denominator.  The sampling frequency of the design is 2, its
    warped cut-off [4*tan(pi*Wn/2)]; there are no zeros before the bilinear
    transform, which adds one at -1 for each pole.  The coefficients are real. *)
Definition butter (n : nat) (wn : R) : res (list R * list R) :=
  if Rle_dec wn 0 then Err ValueError
  else if Rle_dec 1 wn then Err ValueError
  else
    let warped := (4 * tan (PI * wn / 2))%R in
    let p := List.map (Cmult (RtoC warped)) (prototype n) in
    let k := (warped ^ n)%R in
    let pz := List.map (fun q => Cdiv (Cplus (RtoC 4) q) (Cminus (RtoC 4) q)) p in
    let zz := repeat (RtoC (-1)) n in
    let kz := (k * Re (Cdiv (RtoC 1) (cprod (List.map (fun q => Cminus (RtoC 4) q) p))))%R in
    Ok (List.map (fun c => kz * Re c)%R (poly zz), List.map Re (poly pz)).

(** ** scipy.signal.lfilter(b, a, x) with as many coefficients below as above *)

(** One sample: the output and the new state. scipy.signal.lfilter, used in tools/filters.py 69. *)
Definition lstep (b a : list R) (d : list R) (x : R) : R * list R :=
  let y := (nth 0 b 0 * x + nth 0 d 0)%R in
  (y, List.map (fun i => (nth (S i) d 0 + nth (S i) b 0 * x - nth (S i) a 0 * y)%R) (seq 0 (length d))).

Fixpoint lrun (b a d xs : list R) : list R :=
  match xs with
  | [] => []
  | x :: xs' => let (y, d') := lstep b a d x in y :: lrun b a d' xs'
  end.

(** The coefficients are divided by the first one of the denominator; the filter
    starts at rest. Used in tools/filters.py 69. *)
Definition lfilter (b a xs : list R) : list R :=
  let a0 := nth 0 a 0%R in
  lrun (List.map (fun c => c / a0)%R b) (List.map (fun c => c / a0)%R a) (repeat 0%R (length b - 1)) xs.

(** ** filters.py *)

(** Lines 60-64, [_butter_lowpass]: [None / nyq] is a TypeError. *)
Definition butter_lowpass (cutoff : option R) (fs : R) (order : nat) : res (list R * list R) :=
  let nyq := (0.5 * fs)%R in
  match cutoff with
  | None => Err TypeError
  | Some c => butter order (c / nyq)
  end.

(** Lines 67-70. *)
Definition butter_lowpass_filter (data : list R) (cutoff : option R) (fs : R) (order : nat) : res (list R) :=
  let* (b, a) := butter_lowpass cutoff fs order in
  Ok (lfilter b a data).

(** Lines 73-86; the order is 6. *)
Definition butter_filtering (data : list R) (dt : R) (cutoff : option R) : res (list R) :=
  if Req_EM_T dt 0 then Err ZeroDivisionError
  else butter_lowpass_filter data cutoff (1 / dt) 6.
