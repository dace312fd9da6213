(** * The twist-and-shift notebook (notebooks/twist_shift.mo.py)

    Two-dimensional arrays are their shape and a function of the indices; numbers are reals.
    Where numpy would compute with NaN (an empty or undefined kernel) the model has an error. *)
From Coq Require Import String List ZArith Reals Bool.
From Flocq Require Import Core.
From Verif Require Import Prelude Sort.
Import ListNotations.
Open Scope string_scope. Open Scope list_scope. Open Scope R_scope.

(** The array [field], twist_shift.mo.py 11-17. *)
Record mat := mk_mat { m_rows : nat; m_cols : nat; m_at : nat -> nat -> R }.

(** ** numpy on such arrays *)

(** [m[lo:hi, :]], [m[:, lo:hi]] for resolved bounds. twist_shift.mo.py 22-37 and 57-64. *)
Definition cut_rows (lo hi : nat) (m : mat) : mat :=
  mk_mat (Nat.min hi (m_rows m) - lo) (m_cols m) (fun i j => m_at m (lo + i)%nat j).
(** twist_shift.mo.py 22-37 and 57-64. *)
Definition cut_cols (lo hi : nat) (m : mat) : mat :=
  mk_mat (m_rows m) (Nat.min hi (m_cols m) - lo) (fun i j => m_at m i (lo + j)%nat).

(** The first index of [-k:]; [-0:] is everything. *)
Definition from_end (k n : nat) : nat := if (k =? 0)%nat then 0%nat else (n - k)%nat.

(** [m[::a, ::b]]. twist_shift.mo.py 41, 68, 125. *)
Definition every (a b : nat) (m : mat) : res mat :=
  if (a =? 0)%nat || (b =? 0)%nat then Err ValueError
  else Ok (mk_mat ((m_rows m + a - 1) / a) ((m_cols m + b - 1) / b) (fun i j => m_at m (i * a)%nat (j * b)%nat)).

(** [np.concatenate([a, b, c], axis=1)] of arrays with the same number of rows. *)
Definition beside (a b : mat) : mat :=
  mk_mat (m_rows a) (m_cols a + m_cols b)
         (fun i j => if (j <? m_cols a)%nat then m_at a i j else m_at b i (j - m_cols a)%nat).

(** [a + b] with broadcasting. twist_shift.mo.py 22-37, 56-65, 114, 123. *)
Definition bcast (a b : nat) : res nat :=
  if (a =? b)%nat then Ok a else if (a =? 1)%nat then Ok b else if (b =? 1)%nat then Ok a else Err ValueError.
(** twist_shift.mo.py 22-37, 56-65, 114, 123. *)
Definition pick (n i : nat) : nat := if (n =? 1)%nat then 0%nat else i.
(** twist_shift.mo.py 22-37, 56-65, 114, 123. *)
Definition plus (a b : mat) : res mat :=
  let* r := bcast (m_rows a) (m_rows b) in
  let* c := bcast (m_cols a) (m_cols b) in
  Ok (mk_mat r c (fun i j => m_at a (pick (m_rows a) i) (pick (m_cols a) j) + m_at b (pick (m_rows b) i) (pick (m_cols b) j))).
(** twist_shift.mo.py 114 and 123. *)
Definition times (w : R) (m : mat) : mat := mk_mat (m_rows m) (m_cols m) (fun i j => w * m_at m i j).

(** Python's [sum] of arrays; of none it is the number 0, which [np.pad] and the subscript
    refuse. *)
Definition total (l : list mat) : res mat :=
  match l with
  | [] => Err ValueError
  | m :: l' => fold_left (fun acc x => let* a := acc in plus a x) l' (Ok m)
  end.

(** [np.pad(m, ((0, 0), (k, k)), mode='edge')], [np.pad(m, ((k, k), (0, 0)), mode='reflect')] and
    ['constant'] padding by one in each direction. *)
Definition edge (n : nat) (i : Z) : nat := Z.to_nat (Z.max 0 (Z.min i (Z.of_nat n - 1))).
Definition reflect (n : nat) (i : Z) : nat :=
  if (n =? 1)%nat then 0%nat
  else let p := (2 * (Z.of_nat n - 1))%Z in
       let r := (i mod p)%Z in
       Z.to_nat (if (r <? Z.of_nat n)%Z then r else (p - r)%Z).
Definition pad_cols_edge (k : nat) (m : mat) : res mat :=
  if (m_cols m =? 0)%nat && (0 <? k)%nat then Err ValueError
  else Ok (mk_mat (m_rows m) (m_cols m + 2 * k) (fun i j => m_at m i (edge (m_cols m) (Z.of_nat j - Z.of_nat k)))).
Definition pad_rows_reflect (k : nat) (m : mat) : res mat :=
  if (m_rows m =? 0)%nat && (0 <? k)%nat then Err ValueError
  else Ok (mk_mat (m_rows m + 2 * k) (m_cols m) (fun i j => m_at m (reflect (m_rows m) (Z.of_nat i - Z.of_nat k)) j)).
Definition zero_cols (m : mat) : mat :=
  mk_mat (m_rows m) (m_cols m + 2)
         (fun i j => if (0 <? j)%nat && (j <? m_cols m + 1)%nat then m_at m i (j - 1)%nat else 0).
Definition zero_rows (m : mat) : mat :=
  mk_mat (m_rows m + 2) (m_cols m)
         (fun i j => if (0 <? i)%nat && (i <? m_rows m + 1)%nat then m_at m (i - 1)%nat j else 0).

(** Periodic padding by [k] columns, lines 32, 47-48 and 111. *)
Definition pad_cols_periodic (k : nat) (m : mat) : mat :=
  beside (beside (cut_cols (from_end k (m_cols m)) (m_cols m) m) m) (cut_cols 0 k m).

(** ** filter_downsample, lines 11-125 *)

(** "5point", lines 16-41: first along x, then along y. *)
Definition smooth3_rows (m : mat) : mat :=
  if (3 <=? m_rows m)%nat then
    mk_mat (m_rows m) (m_cols m) (fun i j =>
      if (i =? m_rows m - 1)%nat then (m_at m (m_rows m - 2)%nat j + m_at m (m_rows m - 1)%nat j) / 2
      else if (i =? 0)%nat then (m_at m 0%nat j + m_at m 1%nat j) / 2
      else (m_at m (i - 1)%nat j + m_at m i j + m_at m (i + 1)%nat j) / 3)
  else m.
Definition smooth3_cols (periodic : bool) (m : mat) : mat :=
  if (3 <=? m_cols m)%nat then
    if periodic then
      let p := pad_cols_periodic 1 m in
      mk_mat (m_rows m) (m_cols m) (fun i j => (m_at p i j + m_at p i (j + 1)%nat + m_at p i (j + 2)%nat) / 3)
    else
      mk_mat (m_rows m) (m_cols m) (fun i j =>
        if (j =? m_cols m - 1)%nat then (m_at m i (m_cols m - 2)%nat + m_at m i (m_cols m - 1)%nat) / 2
        else if (j =? 0)%nat then (m_at m i 0%nat + m_at m i 1%nat) / 2
        else (m_at m i (j - 1)%nat + m_at m i j + m_at m i (j + 1)%nat) / 3)
  else m.
Definition five_point (periodic : bool) (m : mat) : mat := smooth3_cols periodic (smooth3_rows m).

(** "9point", lines 43-68: the sum over the nine neighbours divided by their number. *)
Definition sum9 (p : mat) (i j : nat) : R :=
  m_at p i j + m_at p i (j + 1)%nat + m_at p i (j + 2)%nat +
  m_at p (i + 1)%nat j + m_at p (i + 1)%nat (j + 1)%nat + m_at p (i + 1)%nat (j + 2)%nat +
  m_at p (i + 2)%nat j + m_at p (i + 2)%nat (j + 1)%nat + m_at p (i + 2)%nat (j + 2)%nat.
Definition nine_point (periodic : bool) (m : mat) : mat :=
  let pad f := zero_rows (if periodic then pad_cols_periodic 1 f else zero_cols f) in
  let ones := mk_mat (m_rows m) (m_cols m) (fun _ _ => 1) in
  mk_mat (m_rows m) (m_cols m) (fun i j => sum9 (pad m) i j / Rmax (sum9 (pad ones) i j) 1).

(** [np.convolve(a, v)], the full one. twist_shift.mo.py 80. *)
Definition rsum (l : list R) : R := fold_right Rplus 0 l.
(** twist_shift.mo.py 80. *)
Definition convolve (a v : list R) : list R :=
  map (fun k => rsum (map (fun i => nth i a 0 * (if (i <=? k)%nat then nth (k - i) v 0 else 0)) (seq 0 (length a))))
      (seq 0 (length a + length v - 1)).
(** [np.arange(-half, half + 1)]. *)
Definition arange (half : Z) : list R :=
  map (fun k => IZR (Z.of_nat k - half)) (seq 0 (Z.to_nat (2 * half + 1))).

(** make_kernel, lines 70-103. *)
Definition raw_kernel (n : nat) (filter_type : string) (a : nat) (sigma : R) : res (list R) :=
  if filter_type =? "box" then Ok (repeat 1 n)
  else if filter_type =? "triangle" then Ok (convolve (repeat 1 n) (repeat 1 n))
  else if filter_type =? "gaussian" then
    if Rlt_dec 0 sigma then
      let half := Zceil (3 * sigma * INR n) in
      Ok (map (fun k => exp (- (1 / 2) * (k / (sigma * INR n)) ^ 2)) (arange half))
    else Err ValueError
  else if filter_type =? "hann" then
    let half := (a * n)%nat in
    if (half =? 0)%nat then Err ValueError
    else Ok (map (fun k => 1 / 2 + 1 / 2 * cos (PI * k / INR half)) (arange (Z.of_nat half)))
  else if filter_type =? "blackman" then
    let half := (a * n)%nat in
    if (half =? 0)%nat then Err ValueError
    else Ok (map (fun k => let t := k / INR half in
                           42 / 100 + 1 / 2 * cos (PI * t) + 8 / 100 * cos (2 * PI * t)) (arange (Z.of_nat half)))
  else Ok (repeat 1 n).
Definition normalise (w : list R) : list R :=
  let c := map (fun x => Rmax x 0) w in
  map (fun x => x / rsum c) c.
Definition make_kernel (n : nat) (filter_type : string) (a : nat) (sigma : R) : res (list R) :=
  if (n =? 0)%nat then Err ValueError
  else if (n =? 1)%nat then Ok [1]
  else let* w := raw_kernel n filter_type a sigma in Ok (normalise w).

(** Lines 105-125. *)
Definition filter_cols (w : list R) (periodic : bool) (m : mat) : res mat :=
  let half := (length w / 2)%nat in
  let* p := (if periodic then Ok (pad_cols_periodic half m) else pad_cols_edge half m) in
  total (map (fun k => times (nth k w 0) (cut_cols k (k + m_cols m) p)) (seq 0 (length w))).
Definition filter_rows (w : list R) (m : mat) (n : nat) : res mat :=
  let half := (length w / 2)%nat in
  let* p := pad_rows_reflect half m in
  total (map (fun k => times (nth k w 0) (cut_rows k (k + n) p)) (seq 0 (length w))).

Definition filter_downsample (field : mat) (nint_x nint_y : nat) (filter_type : string) (a : nat) (sigma : R)
    (periodic : bool) : res mat :=
  if filter_type =? "5point" then every nint_x nint_y (five_point periodic field)
  else if filter_type =? "9point" then every nint_x nint_y (nine_point periodic field)
  else
    let* wy := make_kernel nint_y filter_type a sigma in
    let* tmp := filter_cols wy periodic field in
    let* wx := make_kernel nint_x filter_type a sigma in
    let* out := filter_rows wx tmp (m_rows field) in
    every nint_x nint_y out.

(** ** The twist and shift, lines 230-341 *)

(** [x % p] for [p > 0]. *)
Definition fmod_py (x p : R) : R := x - p * IZR (Zfloor (x / p)).

(** [np.linspace(a, b, n)]. twist_shift.mo.py 245-246 and 307-308. *)
Definition linspace (a b : R) (n i : nat) : R :=
  if (n =? 1)%nat then a else a + INR i * ((b - a) / INR (n - 1)).

(** [np.interp(x, xp, fp)] for increasing [xp]: the points are given as pairs. twist_shift.mo.py 316. *)
Fixpoint interp_from (x : R) (p : R * R) (l : list (R * R)) : R :=
  match l with
  | [] => snd p
  | q :: l' => if Rlt_dec x (fst q) then (snd q - snd p) / (fst q - fst p) * (x - fst p) + snd p else interp_from x q l'
  end.
(** twist_shift.mo.py 316. *)
Definition interp (x : R) (l : list (R * R)) : R :=
  match l with
  | [] => 0
  | p :: l' => if Rlt_dec x (fst p) then snd p else interp_from x p l'
  end.

(** With [period]: coordinates modulo the period, sorted, one point added on either side.
    twist_shift.mo.py 313 and 326-328. *)
Definition by_fst (p q : R * R) : bool := if Rle_dec (fst p) (fst q) then true else false.
(** twist_shift.mo.py 313 and 326-328. *)
Definition interp_periodic (x : R) (l : list (R * R)) (period : R) : R :=
  let s := isort by_fst (map (fun p => (fmod_py (fst p) period, snd p)) l) in
  match s with
  | [] => 0
  | f :: _ =>
      let e := last s f in
      interp (fmod_py x period) ((fst e - period, snd e) :: s ++ [(fst f + period, snd f)])
  end.

(** q_func, lines 127-128, for positive [r] and [r0]. *)
Definition q_func (r r0 q0 nshear : R) : R := q0 * Rpower (r / r0) nshear.

Section Twist.
  Context (n_x n_y nint_x nint_y : nat) (q0 shat : R).
  (** Lines 232-240: the box. *)
  Definition t_x0 : R := 2.
  Definition t_Lx : R := 1.
  Definition t_Cy : R := t_x0 / q0.
  Definition t_Ly : R := 2 * PI * t_Cy.
  (** The nodes of a grid with [n] points in x or y, lines 243-246 and 305-308. *)
  Definition grid_x (n : nat) : nat -> R := linspace t_x0 (t_x0 + t_Lx - t_Lx / INR n) n.
  Definition grid_y (n : nat) : nat -> R := linspace (- t_Ly / 2) (t_Ly / 2 - t_Ly / INR n) n.

  (** Lines 311-316: the field on the fine grid. *)
  Definition upsample (phi : mat) : mat :=
    let fy i j := interp_periodic (grid_y (n_y * nint_y) j)
                    (map (fun l => (grid_y n_y l, m_at phi i l)) (seq 0 n_y)) t_Ly in
    mk_mat (n_x * nint_x) (n_y * nint_y) (fun i j =>
      interp (grid_x (n_x * nint_x) i) (map (fun k => (grid_x n_x k, fy k j)) (seq 0 n_x))).

  (** Lines 318-328. *)
  Definition shift_at (i : nat) : R := 2 * PI * t_Cy * q_func (grid_x (n_x * nint_x) i) t_x0 q0 shat.
  Definition wrapped (y : R) : R := fmod_py (y + t_Ly / 2) t_Ly - t_Ly / 2.
  Definition twist (phi : mat) : mat :=
    let n := (n_y * nint_y)%nat in
    mk_mat (m_rows phi) (m_cols phi) (fun i j =>
      interp_periodic (wrapped (grid_y n j + shift_at i)) (map (fun l => (grid_y n l, m_at phi i l)) (seq 0 n)) t_Ly).

  (** Lines 330-341. *)
  Definition twist_shift (apply_filter : bool) (filter_type : string) (a : nat) (sigma : R) (phi : mat) : res mat :=
    let fine := twist (upsample phi) in
    if apply_filter then filter_downsample fine nint_x nint_y filter_type a sigma true
    else every nint_x nint_y fine.

  (** Lines 454-470: the local shear that is plotted; [grad] is [np.gradient(q_profile, x_local)]. *)
  Definition x_local (i : nat) : R := grid_x n_x i - t_x0.
  Definition q_profile (i : nat) : R := q_func (grid_x n_x i) t_x0 q0 shat.
  Definition shat_local (grad : nat -> R) (i : nat) : R := x_local i / q_profile i * grad i.
End Twist.
