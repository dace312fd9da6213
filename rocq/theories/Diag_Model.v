(** * tools/calc_ke_dke.py and tools/calc_enstrophy.py *)
From Coq Require Import String Ascii List Arith ZArith Bool Reals.
From Verif Require Import Prelude.
Import ListNotations.
Open Scope list_scope.

(** A loaded file: coordinates per axis, shape of the values (the last axis are
    the components) and the value at every index.
    tools/calc_ke_dke.py 32-50, tools/calc_enstrophy.py 23-44. *)
Record frame := { f_grid : list (list R); f_shape : list nat; f_at : list nat -> R }.

(** [np.sum]. tools/calc_ke_dke.py 57, tools/calc_enstrophy.py 68, 77. *)
Definition sum (n : nat) (f : nat -> R) : R := fold_right Rplus 0%R (List.map f (seq 0 n)).
Definition sum3 (n0 n1 n2 : nat) (f : nat -> nat -> nat -> R) : R :=
  sum n0 (fun i => sum n1 (fun j => sum n2 (fun k => f i j k))).

(** [grid[d][1] - grid[d][0]]. *)
Definition spacing (g : list (list R)) (d : nat) : res R :=
  match nth_error g d with
  | Some (x0 :: x1 :: _) => Ok (x1 - x0)%R
  | _ => Err IndexError
  end.

(** Columns 0 to 3 of the values (calc_ke_dke.py 47-50, calc_enstrophy.py 41-44). *)
Definition moments (fr : frame) : res (list nat * (nat -> list nat -> R)) :=
  match List.rev (f_shape fr) with
  | [] => Err IndexError
  | nc :: lead => if (4 <=? nc)%nat then Ok (List.rev lead, fun c idx => f_at fr (idx ++ [c])) else Err IndexError
  end.

(** The single row of an array made with [np.zeros((1, n))]. *)
Definition zeros (n : Z) : res (list R) := if (n <? 0)%Z then Err ValueError else Ok (repeat 0%R (Z.to_nat n)).

(** [a[0, i]] for [i >= 0]. *)
Definition item (a : list R) (i : nat) : res R :=
  match nth_error a i with Some x => Ok x | None => Err IndexError end.

(** [a[0, i] = x] for [i >= 0]. *)
Definition store (a : list R) (i : nat) (x : R) : res (list R) :=
  if (i <? List.length a)%nat then Ok (set_nth i x a) else Err IndexError.

Definition for_each {S} (is : list nat) (body : nat -> S -> res S) (s : S) : res S :=
  fold_left (fun m i => let* s := m in body i s) is (Ok s).

Section Files.
  (** Loading a file by name. *)
  Context (load : string -> res frame).

  (** calc_ke_dke.py 44-58: one round of the loop; the energy of the frame. *)
  Definition frame_energy (dx dy dz vol : R) (fr : frame) : res R :=
    let* (sh, m) := moments fr in
    match sh with
    | [n0; n1; n2] =>
        let e i j k :=
          let rho := m 0%nat [i; j; k] in
          let u := (m 1%nat [i; j; k] / rho)%R in
          let v := (m 2%nat [i; j; k] / rho)%R in
          let w := (m 3%nat [i; j; k] / rho)%R in
          (rho * (u * u + v * v + w * w))%R in
        Ok (sum3 n0 n1 n2 e * dx * dy * dz * vol)%R
    | _ => Err ValueError (* fewer axes: no axis to sum over; more axes are not modelled *)
    end.

  (** calc_ke_dke.py 9-66. [dEk] is [ke]: one array is written by both loops and
      returned twice. Frame numbers are not negative. The name of the files in the
      loop does not contain the argument (line 45). *)
  Definition calc_ke_dke (root : string) (init final : nat) (dim : nat) (vol t0 t1 : R) : res (list R * list R) :=
    let n := (Z.of_nat final - Z.of_nat init + 1)%Z in
    let* ke := zeros n in
    let* f := load (root ++ show_Z (Z.of_nat init) ++ ".bp")%string in
    let* dx := spacing (f_grid f) 0 in
    let* dy := spacing (f_grid f) 1 in
    let* dt := if (n =? 0)%Z then Err ZeroDivisionError else Ok ((t1 - t0 + 1) / IZR n)%R in
    let* dz := if (dim =? 3)%nat then spacing (f_grid f) 2 else Ok 1%R in
    let* (ke, _) := for_each (seq init (S final - init)) (fun c '(ke, r) =>
      let* fr := load ("root_file_name" ++ show_Z (Z.of_nat c) ++ ".bp")%string in
      let* e := frame_energy dx dy dz vol fr in
      let* ke := store ke r e in Ok (ke, S r)) (ke, 0%nat) in
    let* (ke, _) := for_each (seq init (final - 1 - init)) (fun i '(ke, r) =>
      let* b := item ke (i + 1) in
      let* a := item ke i in
      let* ke := store ke r (- (b - a) / dt)%R in Ok (ke, S r)) (ke, 0%nat) in
    Ok (ke, ke).

  (** [np.gradient(..., edge_order=2)] along one axis with [n] points at distance [h]:
      central differences inside, one-sided ones of second order at the ends. *)
  Definition difference (n : nat) (h : R) (g : nat -> R) (i : nat) : R :=
    if (i =? 0)%nat then ((-3 / 2 / h) * g 0%nat + (2 / h) * g 1%nat + (-1 / 2 / h) * g 2%nat)%R
    else if (i =? n - 1)%nat then ((1 / 2 / h) * g (n - 3)%nat + (-2 / h) * g (n - 2)%nat + (3 / 2 / h) * g (n - 1)%nat)%R
    else ((g (i + 1)%nat - g (i - 1)%nat) / (2 * h))%R.

  Definition array3 := nat -> nat -> nat -> R.

  (** [np.gradient(u, dx, dy, dz, edge_order=2)], for at least three points per axis. *)
  Definition gradient (n0 n1 n2 : nat) (dx dy dz : R) (u : array3) (d : nat) : array3 :=
    fun i j k =>
      match d with
      | 0 => difference n0 dx (fun i' => u i' j k) i
      | 1 => difference n1 dy (fun j' => u i j' k) j
      | _ => difference n2 dz (fun k' => u i j k') k
      end%nat.

  (** calc_enstrophy.py 74-76: the trace of the elementwise product of a matrix with
      its transpose. *)
  Definition trace_product (a : nat -> nat -> R) : R :=
    let t i j := a j i in let p i j := (t i j * a i j)%R in sum 3 (fun d => p d d).

  (** calc_enstrophy.py 70-77: entries of [incom_mag] written for a frame of this
      shape; [mag] is what the earlier frames left. *)
  Definition update_mag (n0 n1 n2 : nat) (x : array3) (mag : array3) : array3 :=
    fun c j k => if ((c <? n0 - 1) && (j <? n1 - 1) && (k <? n2 - 1))%nat then x c j k else mag c j k.

  (** calc_enstrophy.py 37-78: one frame. [enstrophy] and [incom_enstrophy] are one
      array (line 32): the second store overwrites the first. *)
  Definition enstrophy_frame (shape0 : nat * nat * nat) (dx dy dz : R) (fr : frame) (st : list R * array3 * nat) : res (list R * array3 * nat) :=
    let '(ens, mag, r) := st in
    let '(s0, s1, s2) := shape0 in
    let* (sh, m) := moments fr in
    match sh with
    | [n0; n1; n2] =>
        if ((n0 <? 3) || (n1 <? 3) || (n2 <? 3))%nat%bool then Err ValueError else
        let vel c : array3 := fun i j k => (m c [i; j; k] / m 0%nat [i; j; k])%R in
        let a c d : array3 := gradient n0 n1 n2 dx dy dz (vel c) d in
        let curl_mag i j k :=
          ((a 3%nat 1%nat i j k - a 2%nat 2%nat i j k) * (a 3%nat 1%nat i j k - a 2%nat 2%nat i j k)
           + (a 1%nat 2%nat i j k - a 3%nat 0%nat i j k) * (a 1%nat 2%nat i j k - a 3%nat 0%nat i j k)
           + (a 2%nat 0%nat i j k - a 1%nat 1%nat i j k) * (a 2%nat 0%nat i j k - a 1%nat 1%nat i j k))%R in
        let* ens := store ens r (sum3 n0 n1 n2 curl_mag * dx * dy * dz)%R in
        if ((s0 <? n0 - 1) || (s1 <? n1 - 1) || (s2 <? n2 - 1))%nat%bool then Err IndexError else
        let mag := update_mag n0 n1 n2 (fun i j k => trace_product (fun c d => a (S c) d i j k) * m 0%nat [i; j; k])%R mag in
        let* ens := store ens r (sum3 s0 s1 s2 mag * dx * dy * dz)%R in
        Ok (ens, mag, S r)
    | _ => Err ValueError (* other numbers of axes: the number of spacings does not fit *)
    end.

  (** calc_enstrophy.py 8-81. *)
  Definition calc_enstrophy (info_file : string) (init final : nat) : res (list R * list R) :=
    let name i := (info_file ++ show_Z (Z.of_nat i) ++ ".bp")%string in
    let* f := load (name init) in
    let* dx := spacing (f_grid f) 0 in
    let* dy := spacing (f_grid f) 1 in
    let* dz := spacing (f_grid f) 2 in
    let* ens := zeros (Z.of_nat final - Z.of_nat init + 1) in
    match f_shape f with
    | [s0; s1; s2; sc] =>
        (* lines 33-35 index [data] by zeros in the other axes *)
        if ((s0 =? 0) || (s1 =? 0) || (s2 =? 0) || (sc =? 0))%nat%bool then Err IndexError else
        let* (ens, _, _) := for_each (seq init (S final - init)) (fun i st =>
          let* fr := load (name i) in enstrophy_frame (s0, s1, s2) dx dy dz fr st) (ens, fun _ _ _ => 0%R, 0%nat) in
        Ok (ens, ens)
    | _ => Err IndexError (* fewer axes; more axes are not modelled *)
    end.
End Files.
