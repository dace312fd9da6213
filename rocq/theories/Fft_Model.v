(** * Fourier transforms: tools/fft.py, tools/filters.py, tools/init_polar.py, tools/polar_isotropic.py

    Values are exact complex numbers (rounding, nan and inf are not modelled).
    scipy.fft.fft, fftn and fftfreq, numpy.fft.fft, ifft and fftfreq are
    external: they are taken to be the sums and lists of their documentation,
    written out below. *)
From Coq Require Import String Ascii List Arith ZArith Bool Lia Reals Lra.
From Coquelicot Require Import Complex.
From Verif Require Import Prelude PreludeFacts NdArray.
Import ListNotations.
Open Scope list_scope.
Open Scope nat_scope.

(** ** The library functions *)

(** [exp(i t)]. For the documented sums of tools/fft.py 55, 79. *)
Definition cis (t : R) : C := (cos t, sin t).

(** [sum(f(j) for j in range(n))]. For the documented sums of tools/fft.py 55, 79. *)
Fixpoint csum (n : nat) (f : nat -> C) : C :=
  match n with 0 => RtoC 0 | S m => Cplus (csum m f) (f m) end.

(** The angle of step [j] of the wave that makes [k] turns in [n] steps.
    For the documented sums of tools/fft.py 55, 79. *)
Definition turn (n k j : nat) : R := (2 * PI * INR k * INR j / INR n)%R.

(** [fft(x)[k]] of [n] values. tools/fft.py 55, tools/filters.py 34. *)
Definition dft (n : nat) (f : nat -> C) (k : nat) : C :=
  csum n (fun j => Cmult (f j) (cis (- turn n k j))).

(** [ifft(x)[j]] of [n] values. tools/filters.py 57. *)
Definition idft (n : nat) (f : nat -> C) (j : nat) : C :=
  Cmult (RtoC (/ INR n)) (csum n (fun k => Cmult (f k) (cis (turn n k j)))).

(** [fftn(x)[ks]]: one axis after the other. tools/fft.py 79. *)
Fixpoint dftn (sh : list nat) (f : list nat -> C) (ks : list nat) : C :=
  match sh, ks with
  | n :: sh', k :: ks' => csum n (fun j => Cmult (dftn sh' (fun x => f (j :: x)) ks') (cis (- turn n k j)))
  | _, _ => f []
  end.

(** [fftfreq(n, d)]: [0, 1, ..., (n-1)//2, -(n//2), ..., -1] over [n * d]; the
    division by [n * d] raises for no points (a spacing of 0 gives nan in numpy,
    and is excluded in the theorems). *)
Definition freq_numbers (n : nat) : list Z :=
  List.map Z.of_nat (seq 0 ((n - 1) / 2 + 1))
  ++ List.map (fun i => (Z.of_nat i - Z.of_nat (n / 2))%Z) (seq 0 (n / 2)).

Definition fftfreq (n : nat) (d : R) : res (list R) :=
  if n =? 0 then Err ZeroDivisionError
  else Ok (List.map (fun z => (IZR z / (INR n * d))%R) (freq_numbers n)).

(** ** Datasets

    An entry of the list of coordinates is an array, or the number 0 that fft.py
    line 87 appends. Mapped (several-dimensional) coordinates are not modelled. *)
Inductive coord := Pts (l : list R) | Num (x : R).

Record fdat := mk_fdat { f_grid : list coord; f_vals : nda C }.

(** [len(kx)], implied by [np.meshgrid] of tools/init_polar.py 26-28, 54. *)
Definition coord_len (c : coord) : res nat :=
  match c with Pts l => Ok (length l) | Num _ => Err TypeError end.

(** [v[idx]], 0 outside (never read there). *)
Definition cval (v : nda C) (idx : list nat) : C :=
  match get v idx with Some z => z | None => RtoC 0 end.

(** Items whose position (counted from [k]) is not in [idx]. tools/fft.py 44-45. *)
Fixpoint keep_not {A} (k : nat) (idx : list nat) (l : list A) : list A :=
  match l with
  | [] => []
  | a :: l' => if existsb (Nat.eqb k) idx then keep_not (S k) idx l' else a :: keep_not (S k) idx l'
  end.

(** fft.py 35-41: positions of the axes with at most two coordinates. *)
Fixpoint dummies (k : nat) (g : list coord) : res (list nat) :=
  match g with
  | [] => Ok []
  | c :: g' =>
      let* n := coord_len c in
      let* idx := dummies (S k) g' in
      Ok (if n <=? 2 then k :: idx else idx)
  end.

(** [np.squeeze(values, tuple(idx))]: all axes named must have one entry. tools/fft.py 45. *)
Definition squeeze (idx : list nat) (v : nda C) : res (nda C) :=
  if forallb (fun k => nth k (shape v) 0 =? 1) idx
  then Ok (mk_nda (keep_not 0 idx (shape v)) (flat v)) else Err ValueError.

(** [grid[1] - grid[0]]. *)
Definition spacing (c : coord) : res R :=
  match c with
  | Pts (a :: b :: _) => Ok (b - a)%R
  | Pts _ => Err IndexError
  | Num _ => Err TypeError
  end.

(** fft.py 50-52, 72-76: the frequencies of one axis. *)
Definition axis_freq (c : coord) : res (nat * list R) :=
  let* n := coord_len c in
  let* dx := spacing c in
  let* f := fftfreq n dx in
  Ok (n, f).

(** fft.py 53-56: all components along the last axis before the components. *)
Definition ft_last (v : nda C) : nda C :=
  let cells := removelast (shape v) in
  tabulate (shape v) (fun idx =>
    let x := removelast idx in
    dft (last cells 0) (fun j => cval v (removelast x ++ [j; last idx 0])) (last x 0)).

(** fft.py 77-80: all components along all axes. *)
Definition ft_all (v : nda C) : nda C :=
  let cells := removelast (shape v) in
  tabulate (shape v) (fun idx => dftn cells (fun x => cval v (x ++ [last idx 0])) (removelast idx)).

(** [np.abs(z)**2]. *)
Definition power (z : C) : C := RtoC (Cmod z * Cmod z)%R.

(** [np.abs(v[:h0, :h1, ..., :])**2]: too many indices raise. *)
Definition psd_of (hs : list nat) (v : nda C) : res (nda C) :=
  if length (shape v) <? S (length hs) then Err IndexError
  else Ok (tabulate (List.map (fun p => Nat.min (fst p) (snd p)) (combine hs (shape v)) ++ skipn (length hs) (shape v))
             (fun idx => power (cval v idx))).

(** ** tools/init_polar.py

    [1 & n == 1 & m == 1] is a chain of comparisons of [1 & n]: see lines 15, 41. *)
Definition odd_one (n : nat) : nat := n mod 2.

Definition item {A} (l : list A) (i : nat) : res A :=
  match nth_error l i with Some a => Ok a | None => Err IndexError end.

(** tools/init_polar.py 22, 44-48. *)
Definition rmax2 (l m : list R) : res R := let* a := item l 1 in let* b := item m 1 in Ok (Rmax a b).

(** init_polar.py 14-22: the width of the bins in two dimensions. *)
Definition width2 (kx ky : list R) : res R :=
  let nkx := length kx in let nky := length ky in
  if (nkx =? odd_one nky) && (odd_one nky =? 1) then Ok 0%R
  else if nkx =? 1 then item ky 1
  else if nky =? 1 then item kx 1
  else rmax2 kx ky.

(** init_polar.py 41-50: in three dimensions. *)
Definition width3 (kx ky kz : list R) : res R :=
  let nkx := length kx in let nky := length ky in let nkz := length kz in
  if (nkx =? odd_one nky) && (odd_one nky =? odd_one nkz) && (odd_one nkz =? 1) then Ok 0%R
  else if nkx =? 1 then rmax2 ky kz
  else if nky =? 1 then rmax2 kx kz
  else if nkz =? 1 then rmax2 kx ky
  else let* a := item kx 1 in let* b := item ky 1 in let* c := item kz 1 in Ok (Rmax (Rmax a b) c).

(** Lines 23, 51: the wave number of bin [i]. *)
Definition bin_k (dkp : R) (i : nat) : R := ((INR i + 1) * dkp)%R.
(** Lines 24, 52: the lower end of bin [i]. *)
Definition bin_lim (dkp : R) (i : nat) : R := (dkp / 2 + INR i * dkp)%R.

Definition rleb (a b : R) : bool := if Rle_dec a b then true else false.

(** Lines 30-36, 56-62: [pn] of the overflow and of the bins [0 .. n-1]. *)
Definition in_bin (dkp : R) (i : nat) (kp : R) : bool :=
  negb (rleb (bin_lim dkp (S i)) kp) && rleb (bin_lim dkp i) kp.

(** [polar_index] of one mode: 0 at first, then the last bin if it overflows,
    then each bin in turn that it falls into. *)
Definition polar_index (n : nat) (dkp kp : R) : nat :=
  fold_left (fun p i => if in_bin dkp i kp then i else p) (seq 0 n)
            (if rleb (bin_lim dkp n) kp then n - 1 else 0).

(** [nbin] of bin [i] over the modes [kps]. tools/init_polar.py 32, 36, 58, 62. *)
Definition nbin (n : nat) (dkp : R) (kps : list R) (i : nat) : nat :=
  (if i =? n - 1 then length (filter (rleb (bin_lim dkp n)) kps) else 0)
  + length (filter (in_bin dkp i) kps).

(** polar_isotropic.py 7-18: power added to the bins mode by mode, over the
    number in each bin (an empty bin is nan in numpy: excluded in the theorems). *)
Definition isotropic (n : nat) (dkp : R) (modes : list (R * C)) (i : nat) : C :=
  Cmult (fold_left (fun s m => if polar_index n dkp (fst m) =? i then Cplus s (snd m) else s) modes (RtoC 0))
        (RtoC (/ INR (nbin n dkp (List.map fst modes) i))).

(** Lines 26-29, 53-55: the length of the wave vector of mode [x]. *)
Fixpoint ksq (ks : list (list R)) (x : list nat) : R :=
  match ks, x with
  | k :: ks', i :: x' => (nth i k 0 * nth i k 0 + ksq ks' x')%R
  | _, _ => 0%R
  end.
Definition klen (ks : list (list R)) (x : list nat) : R := sqrt (ksq ks x).

(** fft.py 93-111. *)
Definition iso_of (ns : list nat) (ks : list (list R)) (ft : nda C) : res (list coord * nda C) :=
  let n := Nat.sqrt (fold_right (fun m s => m * m + s) 0 ns) in
  let* dkp := match ks with
              | [kx; ky] => width2 kx ky
              | [kx; ky; kz] => width3 kx ky kz
              | _ => Err IndexError
              end in
  let cells := List.map (fun k : list R => length k) ks in
  Ok ([Pts (List.map (bin_k dkp) (seq 0 n))],
      tabulate [n; last (shape ft) 0] (fun idx =>
        isotropic n dkp (List.map (fun x => (klen ks x, cval ft (x ++ [nth 1 idx 0]))) (indices cells)) (nth 0 idx 0))).

(** ** tools/fft.py 15-119

    The dataset after the call, and what is returned ([None] in one dimension
    when the dataset is overwritten). [get_grid] hands out the list of the
    dataset itself, so that [grid.pop] (line 44) shortens it. *)
Definition fft (psd iso overwrite : bool) (d : fdat) : res (fdat * option (list coord * nda C)) :=
  let* idx := dummies 0 (f_grid d) in
  let grid := keep_not 0 idx (f_grid d) in
  let* v := match idx with [] => Ok (f_vals d) | _ => squeeze idx (f_vals d) end in
  let d := mk_fdat grid (f_vals d) in
  match grid with
  | [c] =>
      let* nf := axis_freq c in
      let h := fst nf / 2 in
      let ft := ft_last v in
      let* ft := if psd then psd_of [h] ft else Ok ft in
      let f := [Pts (if psd then firstn h (snd nf) else snd nf)] in
      Ok (if overwrite then (mk_fdat f ft, None) else (d, Some (f, ft)))
  | _ =>
      if 3 <? length grid then Err IndexError
      else
        let* nfs := mapM axis_freq grid in
        let ft := ft_all v in
        if psd then
          if (length grid =? 2) || (length grid =? 3) then
            let hs := List.map (fun nf => fst nf / 2) nfs in
            let ks := List.map (fun nf => firstn (fst nf / 2) (snd nf)) nfs in
            let f := List.map Pts ks ++ (if length grid =? 2 then [Num 0%R] else []) in
            let* ft := psd_of hs ft in
            if iso then
              let* r := iso_of (List.map fst nfs) ks ft in
              Ok ((if overwrite then mk_fdat (fst r) (snd r) else d), Some r)
            else Ok ((if overwrite then mk_fdat f ft else d), Some (f, ft))
          else Err ValueError
        else
          let f := List.map (fun nf => Pts (snd nf)) nfs in
          Ok ((if overwrite && negb iso then mk_fdat f ft else d), Some (f, ft))
  end.

(** ** tools/filters.py 18-57 [fft_filtering] with a given cutoff *)
Definition fft_filtering (data : list C) (dt cutoff : R) : res (list C) :=
  let n := length data in
  let* freq := fftfreq n dt in
  let ft k := dft n (fun j => nth j data (RtoC 0)) k in
  let kept k :=
    let f := nth k freq 0%R in
    if negb (rleb f cutoff) then RtoC 0
    else if negb (rleb (- cutoff) f) then RtoC 0
    else ft k in
  Ok (List.map (idft n kept) (seq 0 n)).
