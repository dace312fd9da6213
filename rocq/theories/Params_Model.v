(** * Model of tools/params.py and tools/accumulate_current.py

    Only values are modelled, the grid is handed through.  A dataset is its
    dictionary of metadata and its values; numbers are exact reals. *)
From Coq Require Import String Ascii List Arith ZArith Bool Lia Reals.
From Verif Require Import Prelude NdArray Ev_Model Tools_Arr Tools_Model.
Import ListNotations.
Open Scope string_scope.
Open Scope list_scope.
Open Scope nat_scope.

(** A GData object: [ctx] and [values].  Metadata other than numbers are not
    needed here; a key without a number is taken as missing. What tools/params.py 29, 45, 57-58 read. *)
Record gdat := mk_gdat { ctx : string -> option R; vals : arr }.

(** [d.ctx[key] if d.ctx[key] else default]: a missing key is an error, zero is
    false. tools/params.py 29, 45, 57-58. *)
Definition ctx_or (d : gdat) (key : string) (default : R) : res R :=
  match ctx d key with
  | None => Err KeyError
  | Some x => if Req_EM_T x 0 then Ok default else Ok x
  end.

(** ** tools/params.py *)

(** 17-23. *)
Definition get_magB (field : gdat) : res arr :=
  let* b := cols 3 6 (vals field) in
  let* m := mag_sq "0:3" b in
  Ok (rmap sqrt m).

(** The keyword arguments. tools/params.py 26-28, 43-44, 55-56. *)
Record kw := mk_kw {
  k_gamma : R; k_moms : option nat; k_mass : R; k_charge : R;
  k_eps : R; k_mu : R; k_sqrt2 : bool }.

(** 26-40. *)
Definition get_vt (k : kw) (mhd : bool) (species : gdat) : res arr :=
  let* m := ctx_or species "mass" (k_mass k) in
  let* t := if mhd then get_mhd_temp (k_gamma k) (k_mu k) (vals species)
            else get_temp (k_gamma k) (k_moms k) (vals species) in
  let v := rmap (fun x => sqrt (x / m))%R t in
  Ok (if k_sqrt2 k then rmap (fun x => x * sqrt 2)%R v else v).

(** 43-52. *)
Definition get_vA (k : kw) (species field : gdat) : res arr :=
  let* mu := ctx_or field "mu_0" (k_mu k) in
  let* b := get_magB field in
  let* rho := get_density (vals species) in
  div b (rmap (fun x => sqrt (mu * x))%R rho).

(** 55-63. *)
Definition get_omegaC (k : kw) (species field : gdat) : res arr :=
  let* m := ctx_or species "mass" (k_mass k) in
  let* q := ctx_or species "charge" (k_charge k) in
  let* b := get_magB field in
  Ok (rmap (fun x => Rabs q * x / m)%R b).

(** 66-77. *)
Definition get_omegaP (k : kw) (species field : gdat) : res arr :=
  let* m := ctx_or species "mass" (k_mass k) in
  let* q := ctx_or species "charge" (k_charge k) in
  let* eps := ctx_or field "epsilon_0" (k_eps k) in
  let* rho := get_density (vals species) in
  Ok (rmap (fun x => sqrt (q ^ 2 / m ^ 2 * x / eps))%R rho).

(** 80-91. *)
Definition get_d (k : kw) (species field : gdat) : res arr :=
  let* eps := ctx_or field "epsilon_0" (k_eps k) in
  let* mu := ctx_or field "mu_0" (k_mu k) in
  let* w := get_omegaP k species field in
  Ok (rmap (fun x => 1 / sqrt (eps * mu) / x)%R w).

(** 94-108. *)
Definition get_lambdaD (k : kw) (species field : gdat) : res arr :=
  let* w := get_omegaP k species field in
  let* v := get_vt k false species in
  let* o := div v w in
  Ok (if k_sqrt2 k then rmap (fun x => x / sqrt 2)%R o else o).

(** 111-125. *)
Definition get_rho (k : kw) (species field : gdat) : res arr :=
  let* w := get_omegaC k species field in
  let* v := get_vt k false species in
  let* o := div v w in
  Ok (if k_sqrt2 k then o else rmap (fun x => x * sqrt 2)%R o).

(** 128-137. *)
Definition get_beta (k : kw) (species field : gdat) : res arr :=
  let* va := get_vA k species field in
  let* v := get_vt k false species in
  let* o := div (sq v) (sq va) in
  Ok (if k_sqrt2 k then o else rmap (fun x => x * 2)%R o).

(** ** tools/accumulate_current.py 16-44

    GData has no attribute [mass] (data/gdata.py), and neither has a tuple. *)
Definition accumulate_current (v : arr) (qbym : bool) : res arr :=
  if qbym then Err AttributeError else Ok (scale (-1) v).
