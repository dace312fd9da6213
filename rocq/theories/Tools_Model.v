(** * Model of the point-wise diagnostics in tools/ and of the commands using them

    Only the arrays of values are modelled; the grid is handed through unchanged.
    The optional output argument ([if out_mom: out_mom.push(grid, out_values)])
    is the caller's business (GData.push is in GData_Model).  Defaults of
    keyword arguments are given by the callers below. *)
From Coq Require Import String Ascii List Arith ZArith Bool Lia Reals.
From Verif Require Import Prelude NdArray Ev_Model Tools_Arr.
Import ListNotations.
Open Scope string_scope.
Open Scope list_scope.
Open Scope nat_scope.

Notation arr := (nda R).

(** Operators on arrays, tools/prim_vars.py 23-33 and throughout. *)
Definition add := rb Rplus.
(** tools/prim_vars.py 71-82 and throughout. *)
Definition sub := rb Rminus.
(** tools/prim_vars.py 71-82 and throughout. *)
Definition mul := rb Rmult.
(** tools/prim_vars.py 23-33 and throughout. *)
Definition div := rb Rdiv.
(** tools/prim_vars.py 177-211 and throughout. *)
Definition sq (a : arr) : arr := rmap (fun x => x * x)%R a.   (* a**2 *)
Definition scale (c : R) (a : arr) : arr := rmap (fun x => c * x)%R a.

(** ** tools/prim_vars.py *)

(** 12-20. *)
Definition get_density (v : arr) : res arr := col 0 v.

(** 23-32, 35-44, 47-56: component [k] over the density. *)
Definition get_v (k : nat) (v : arr) : res arr :=
  let* rho := get_density v in let* m := col k v in div m rho.
Definition get_vx := get_v 1.
Definition get_vy := get_v 2.
Definition get_vz := get_v 3.

(** 59-68: [in_values[..., 1:4] / rho]. *)
Definition get_vi (v : arr) : res arr :=
  let* rho := get_density v in let* m := cols 1 4 v in div m rho.

(** 71-81 (pxx), 84-95 (pxy), 98-109 (pxz), 112-122 (pyy),
    125-136 (pyz), 139-149 (pzz): component [k] minus [rho*v_a*v_b] (evaluated from the left). *)
Definition get_pab (k a b : nat) (v : arr) : res arr :=
  let* rho := get_density v in
  let* va := get_v a v in
  let* vb := get_v b v in
  let* m := col k v in
  let* r := mul rho va in
  let* r := mul r vb in
  sub m r.
Definition get_pxx := get_pab 4 1 1.
Definition get_pxy := get_pab 5 1 2.
Definition get_pxz := get_pab 6 1 3.
Definition get_pyy := get_pab 7 2 2.
Definition get_pyz := get_pab 8 2 3.
Definition get_pzz := get_pab 9 3 3.

(** 152-174. *)
Definition get_pij (v : arr) : res arr :=
  let* z := cols 4 10 v in
  let* pxx := get_pxx v in let* pxy := get_pxy v in let* pxz := get_pxz v in
  let* pyy := get_pyy v in let* pyz := get_pyz v in let* pzz := get_pzz v in
  let* o := set_col 0 (squeeze_all pxx) (zeros (shape z)) in
  let* o := set_col 1 (squeeze_all pxy) o in
  let* o := set_col 2 (squeeze_all pxz) o in
  let* o := set_col 3 (squeeze_all pyy) o in
  let* o := set_col 4 (squeeze_all pyz) o in
  set_col 5 (squeeze_all pzz) o.

(** [vx**2 + vy**2 + vz**2]. *)
Definition vsq (v : arr) : res arr :=
  let* vx := get_vx v in let* vy := get_vy v in let* vz := get_vz v in
  let* s := add (sq vx) (sq vy) in add s (sq vz).

(** 181-190, 217-226: the number of moments, guessed from the number of
    components if not given. *)
Definition moments (num_moms : option nat) (v : arr) : res nat :=
  match num_moms with
  | Some n => Ok n
  | None =>
      match shape v with
      | [] => Err IndexError
      | _ => let nc := last (shape v) 0 in
             if nc =? 5 then Ok 5 else if nc =? 10 then Ok 10 else Err ValueError
      end
  end.

(** 177-210. *)
Definition get_p (gamma : R) (num_moms : option nat) (v : arr) : res arr :=
  let* n := moments num_moms v in
  if n =? 5 then
    let* rho := get_density v in
    let* s := vsq v in
    let* e := col 4 v in
    let* k := mul (scale (1 / 2) rho) s in
    let* d := sub e k in
    Ok (scale (gamma - 1) d)
  else
    let* pxx := get_pxx v in let* pyy := get_pyy v in let* pzz := get_pzz v in
    let* s := add pxx pyy in
    let* s := add s pzz in
    Ok (rmap (fun x => x / 3)%R s).

(** 213-242. *)
Definition get_ke (gamma : R) (num_moms : option nat) (v : arr) : res arr :=
  let* n := moments num_moms v in
  if n =? 5 then
    let* pr := get_p gamma (Some n) v in
    let* e := col 4 v in
    sub e (rmap (fun x => x / (gamma - 1))%R pr)
  else
    let* rho := get_density v in
    let* s := vsq v in
    mul (scale (1 / 2) rho) s.

(** 245-255. *)
Definition get_temp (gamma : R) (num_moms : option nat) (v : arr) : res arr :=
  let* rho := get_density v in let* pr := get_p gamma num_moms v in div pr rho.

(** 258-268. *)
Definition get_sound (gamma : R) (num_moms : option nat) (v : arr) : res arr :=
  let* rho := get_density v in let* pr := get_p gamma num_moms v in
  let* q := div (scale gamma pr) rho in Ok (rmap sqrt q).

(** 271-283. *)
Definition get_mach (gamma : R) (num_moms : option nat) (v : arr) : res arr :=
  let* s := vsq v in let* cs := get_sound gamma num_moms v in div (rmap sqrt s) cs.

(** 286-316: one component of the field. *)
Definition get_mhd_Bx (v : arr) : res arr := col 5 v.
Definition get_mhd_By (v : arr) : res arr := col 6 v.
Definition get_mhd_Bz (v : arr) : res arr := col 7 v.
(** 319-327. *)
Definition get_mhd_Bi (v : arr) : res arr := cols 5 8 v.

(** 330-340. *)
Definition get_mhd_mag_p (mu0 : R) (v : arr) : res arr :=
  let* bx := get_mhd_Bx v in let* by_ := get_mhd_By v in let* bz := get_mhd_Bz v in
  let* s := add (sq bx) (sq by_) in let* s := add s (sq bz) in
  Ok (rmap (fun x => (1 / 2) * x / mu0)%R s).

(** 343-357. *)
Definition get_mhd_p (gamma mu0 : R) (v : arr) : res arr :=
  let* rho := get_density v in
  let* s := vsq v in
  let* mp := get_mhd_mag_p mu0 v in
  let* e := col 4 v in
  let* k := mul (scale (1 / 2) rho) s in
  let* d := sub e k in
  let* d := sub d mp in
  Ok (scale (gamma - 1) d).

(** 360-369. *)
Definition get_mhd_temp (gamma mu0 : R) (v : arr) : res arr :=
  let* rho := get_density v in let* pr := get_mhd_p gamma mu0 v in div pr rho.
(** 372-382. *)
Definition get_mhd_sound (gamma mu0 : R) (v : arr) : res arr :=
  let* rho := get_density v in let* pr := get_mhd_p gamma mu0 v in
  let* q := div (scale gamma pr) rho in Ok (rmap sqrt q).
(** 385-396. *)
Definition get_mhd_mach (gamma mu0 : R) (v : arr) : res arr :=
  let* s := vsq v in let* cs := get_mhd_sound gamma mu0 v in div (rmap sqrt s) cs.

(** ** tools/mag_sq.py 12-42: [coords] is "a:b". *)
Definition mag_sq (coords : string) (v : arr) : res arr :=
  let s := split_on ":" coords in
  match s with
  | a :: b :: _ =>
      let* a := py_int a in let* b := py_int b in
      let* w := cols a b v in
      (* values[..., 0] *)
      let* _ := comp 0 w in
      let* p := mul w w in
      let* o := sum_comps p in
      Ok (add_axis o)
  | [a] => let* _ := py_int a in Err IndexError
  | [] => Err IndexError
  end.

(** ** tools/pressure_diagnostics.py *)

(** 52-72. *)
Definition get_p_par (p b : arr) : res arr :=
  let* pxx := col 0 p in let* pxy := col 1 p in let* pxz := col 2 p in
  let* pyy := col 3 p in let* pyz := col 4 p in let* pzz := col 5 p in
  let* bx := col 0 b in let* by_ := col 1 b in let* bz := col 2 b in
  let* m := mag_sq "0:3" b in
  let* a1 := mul bx bx in let* a1 := mul a1 pxx in
  let* a2 := mul by_ by_ in let* a2 := mul a2 pyy in
  let* a3 := mul bz bz in let* a3 := mul a3 pzz in
  let* c1 := mul bx by_ in let* c1 := mul c1 pxy in
  let* c2 := mul bx bz in let* c2 := mul c2 pxz in
  let* c3 := mul by_ bz in let* c3 := mul c3 pyz in
  let* s := add a1 a2 in let* s := add s a3 in
  let* c := add c1 c2 in let* c := add c c3 in
  let* s := add s (scale 2 c) in
  div s m.

(** 84-95. *)
Definition get_p_perp (p b : arr) : res arr :=
  let* pxx := col 0 p in let* pyy := col 3 p in let* pzz := col 5 p in
  let* pp := get_p_par p b in
  let* s := add pxx pyy in let* s := add s pzz in
  let* d := sub s pp in
  Ok (rmap (fun x => x / 2)%R d).

(** 75-81, 98-106, 151-157: ten-moment data and an electromagnetic field. *)
Definition of_moments {A} (f : arr -> arr -> res A) (species field : arr) : res A :=
  let* p := get_pij species in let* b := cols 3 6 field in f p b.
Definition get_gkyl_10m_p_par := of_moments get_p_par.
Definition get_gkyl_10m_p_perp := of_moments get_p_perp.

(** 138-143: deviation [p_ij - (p_par*b_i*b_j/B2 + p_perp*(delta - b_i*b_j/B2))]. *)
Definition agyro_part (delta : R) (pij bi bj pp pe m : arr) : res arr :=
  let* a := mul pp bi in let* a := mul a bj in let* a := div a m in
  let* c := mul bi bj in let* c := div c m in
  let* c := mul pe (rmap (fun x => delta - x)%R c) in
  let* s := add a c in
  sub pij s.

(** Python's [str.lower]. tools/pressure_diagnostics.py 129 and 137. *)
Definition lower_char (c : ascii) : ascii :=
  let n := nat_of_ascii c in if ((65 <=? n) && (n <=? 90))%nat then ascii_of_nat (n + 32) else c.
(** tools/pressure_diagnostics.py 129 and 137. *)
Fixpoint str_lower (s : string) : string :=
  match s with EmptyString => EmptyString | String c r => String (lower_char c) (str_lower r) end.

(** 109-148. *)
Definition get_agyro (measure : string) (p b : arr) : res arr :=
  let* pxx := col 0 p in let* pxy := col 1 p in let* pxz := col 2 p in
  let* pyy := col 3 p in let* pyz := col 4 p in let* pzz := col 5 p in
  let* bx := col 0 b in let* by_ := col 1 b in let* bz := col 2 b in
  let* m := mag_sq "0:3" b in
  let* pp := get_p_par p b in
  let* pe := get_p_perp p b in
  if (str_lower measure =? "swisdak")%string then
    let* i1 := add pxx pyy in let* i1 := add i1 pzz in
    let* d1 := mul pxx pyy in let* d2 := mul pxx pzz in let* d3 := mul pyy pzz in
    let* e1 := mul pxy pxy in let* e2 := mul pxz pxz in let* e3 := mul pyz pyz in
    let* d := add d1 d2 in let* d := add d d3 in
    let* e := add e1 e2 in let* e := add e e3 in
    let* i2 := sub d e in
    let* u := sub i1 pp in
    let* w := add i1 (scale 3 pp) in
    let* den := mul u w in
    let* q := div (scale 4 i2) den in
    Ok (rmap (fun x => sqrt (1 - x))%R q)
  else if (str_lower measure =? "frobenius")%string then
    let* dxx := agyro_part 1 pxx bx bx pp pe m in
    let* dxy := agyro_part 0 pxy bx by_ pp pe m in
    let* dxz := agyro_part 0 pxz bx bz pp pe m in
    let* dyy := agyro_part 1 pyy by_ by_ pp pe m in
    let* dyz := agyro_part 0 pyz by_ bz pp pe m in
    let* dzz := agyro_part 1 pzz bz bz pp pe m in
    let* s := add (sq dxx) (scale 2 (sq dxy)) in
    let* s := add s (scale 2 (sq dxz)) in
    let* s := add s (sq dyy) in
    let* s := add s (scale 2 (sq dyz)) in
    let* s := add s (sq dzz) in
    let* t := mul (scale 4 pp) pe in
    let* t := add (scale 2 (sq pe)) t in
    div (rmap sqrt s) (rmap sqrt t)
  else Err ValueError.
Definition get_gkyl_10m_agyro (measure : string) := of_moments (get_agyro measure).

(** commands/agyro.py 10 and 44: the measures the two commands accept. *)
Definition agyro_choices : list string := ["swisdak"; "frobenius"]%string.
Definition mom_agyro_choices : list string := ["swidak"; "frobenius"]%string.

(** ** tools/parrotate.py 12-54 and tools/perprotate.py 14-44

    In parrotate the handler of [IndexError] reads [rotator.shape], which GData
    does not have: what leaves the function is an [AttributeError]. *)
Definition par_comp (u w : arr) (k : nat) (out : arr) : res arr :=
  let* p := mul u w in let* n := sum_comps p in
  let* p := mul w w in let* d := sum_comps p in
  let* q := div n d in
  let* c := comp k w in
  let* r := mul q c in
  set_col k r out.

Definition parrotate (coords : string) (data rotator : arr) : res arr :=
  let* w :=
    match split_on ":" coords with
    | a :: b :: _ => let* a := py_int a in let* b := py_int b in cols a b rotator
    | [a] => let* _ := py_int a in Err IndexError
    | [] => Err IndexError
    end in
  let r :=
    let* o := par_comp data w 0 (zeros (shape data)) in
    let* o := par_comp data w 1 o in
    par_comp data w 2 o in
  match r with
  | Err IndexError => Err AttributeError
  | r => r
  end.

(** perprotate subtracts the tuple (grid, values) returned by parrotate from an
    array: numpy first converts the tuple to an array, which fails because the
    list of coordinate arrays and the array of values differ in shape. tools/perprotate.py 35-44. *)
Definition perprotate (coords : string) (data rotator : arr) : res arr :=
  let* _ := parrotate coords data rotator in Err ValueError.

(** gdata.py 280-292: what is pushed may be a list of coordinates or an array;
    [set_values] reads the attribute [shape] of the second argument, and then
    [set_grid] walks over the first. *)
Inductive pyval := VGrid (g : list arr) | VArr (a : arr).
Definition push_py (grid values : pyval) : res (pyval * pyval) :=
  match values with
  | VGrid _ => Err AttributeError
  | VArr a => match shape a with [] => Err IndexError | _ => Ok (grid, values) end
  end.

(** commands/parrotate.py 30-37, perprotate.py 27-34 and bparrotate.py 31-39 for
    one pair of datasets: the first two commands push (values, grid). *)
Definition parrotate_cmd (grid : list arr) (data rotator : arr) : res (pyval * pyval) :=
  let* o := parrotate "0:3" data rotator in push_py (VArr o) (VGrid grid).
Definition perprotate_cmd (grid : list arr) (data rotator : arr) : res (pyval * pyval) :=
  let* o := perprotate "0:3" data rotator in push_py (VArr o) (VGrid grid).
Definition bparrotate_cmd (grid : list arr) (data field : arr) : res (pyval * pyval) :=
  let* o := parrotate "3:6" data field in push_py (VGrid grid) (VArr o).

(** ** tools/rel_change.py 4-24: [comp] is the text of a component number. *)
Definition rel_comp (k : nat) (v v0 : arr) (ref : Z) (out : arr) : res arr :=
  let* a := comp k v in let* b := comp k v0 in
  let* d := sub a b in
  let* r := norm_index (last (shape v0) 0) ref in
  let* c := comp r v0 in
  let* q := div d c in
  set_col k q out.

Definition rel_change (v0 v : arr) (cmp : option string) : res arr :=
  let fix loop ks out :=
    match ks with
    | [] => Ok out
    | k :: ks' =>
        let* r := match cmp with Some s => py_int s | None => Ok (Z.of_nat k) end in
        let* o := rel_comp k v v0 r out in loop ks' o
    end in
  loop (seq 0 (last (shape v) 0)) (zeros (shape v)).

(** ** tools/energetics.py 14-60 *)
Definition gas_gamma : R := (5 / 3)%R.
Definition energetics (elc ion field : arr) : res arr :=
  let* z := cols 0 7 field in
  let* pre := get_p gas_gamma None elc in
  let* kee := get_ke gas_gamma None elc in
  let* pri := get_p gas_gamma None ion in
  let* kei := get_ke gas_gamma None ion in
  let* e2 := mag_sq "0:3" field in
  let* b2 := mag_sq "3:6" field in
  let e2 := rmap (fun x => x / 2)%R e2 in
  let b2 := rmap (fun x => x / 2)%R b2 in
  let* o := set_col 0 (squeeze_all pre) (zeros (shape z)) in
  let* o := set_col 1 (squeeze_all kee) o in
  let* o := set_col 2 (squeeze_all pri) o in
  let* o := set_col 3 (squeeze_all kei) o in
  let* o := set_col 4 (squeeze_all e2) o in
  let* o := set_col 5 (squeeze_all b2) o in
  let* s := add pre kee in let* s := add s pri in let* s := add s kei in
  let* s := add s e2 in let* s := add s b2 in
  set_col 6 (squeeze_all s) o.

(** ** tools/rotation_matrix.py 6-31: rows of the matrix for a 3-vector
    ([np.abs] is the element-wise absolute value). *)
Definition rotation_matrix (v : list R) : res (list (list R)) :=
  let k := List.map (fun x => x / Rabs x)%R v in
  match k with
  | [k0; k1; k2] =>
      let n2 := sqrt (k1 * k1 + k2 * k2) in
      let n3 := sqrt ((k1 * k1 + k2 * k2) * (k1 * k1 + k2 * k2) + k0 * k0 * k1 * k1 + k0 * k0 * k2 * k2) in
      Ok [[k0; k1; k2];
          [0; - k2 / n2; k1 / n2];
          [(k1 * k1 + k2 * k2) / n3; - k0 * k1 / n3; - k0 * k2 / n3]]%R
  | _ :: _ :: _ :: _ => Err ValueError (* rot[0, :] = k *)
  | _ => Err IndexError
  end.

(** ** Variables of the commands euler, tenmoment and mhd

    commands/euler.py 13-15, 35-55, commands/tenmoment.py 11-14, 35-69,
    commands/mhd.py 15-18, 37-65; a name outside the choices is rejected by
    click. *)
Definition euler_var (gamma : R) (name : string) : option (arr -> res arr) :=
  if (name =? "density")%string then Some get_density
  else if (name =? "xvel")%string then Some get_vx
  else if (name =? "yvel")%string then Some get_vy
  else if (name =? "zvel")%string then Some get_vz
  else if (name =? "vel")%string then Some get_vi
  else if (name =? "pressure")%string then Some (get_p gamma (Some 5))
  else if (name =? "ke")%string then Some (get_ke gamma (Some 5))
  else if (name =? "temp")%string then Some (get_temp gamma (Some 5))
  else if (name =? "sound")%string then Some (get_sound gamma (Some 5))
  else if (name =? "mach")%string then Some (get_mach gamma (Some 5))
  else None.

Definition tenmoment_var (gamma : R) (name : string) : option (arr -> res arr) :=
  if (name =? "density")%string then Some get_density
  else if (name =? "xvel")%string then Some get_vx
  else if (name =? "yvel")%string then Some get_vy
  else if (name =? "zvel")%string then Some get_vz
  else if (name =? "vel")%string then Some get_vi
  else if (name =? "pressureTensor")%string then Some get_pij
  else if (name =? "pxx")%string then Some get_pxx
  else if (name =? "pxy")%string then Some get_pxy
  else if (name =? "pxz")%string then Some get_pxz
  else if (name =? "pyy")%string then Some get_pyy
  else if (name =? "pyz")%string then Some get_pyz
  else if (name =? "pzz")%string then Some get_pzz
  else if (name =? "pressure")%string then Some (get_p gamma (Some 10))
  else if (name =? "ke")%string then Some (get_ke gamma (Some 10))
  else if (name =? "temp")%string then Some (get_temp gamma (Some 10))
  else if (name =? "sound")%string then Some (get_sound gamma (Some 10))
  else if (name =? "mach")%string then Some (get_mach gamma (Some 10))
  else None.

(** commands/mhd.py 37-65. *)
Definition mhd_var (gamma mu0 : R) (name : string) : option (arr -> res arr) :=
  if (name =? "density")%string then Some get_density
  else if (name =? "xvel")%string then Some get_vx
  else if (name =? "yvel")%string then Some get_vy
  else if (name =? "zvel")%string then Some get_vz
  else if (name =? "vel")%string then Some get_vi
  else if (name =? "Bx")%string then Some get_mhd_Bx
  else if (name =? "By")%string then Some get_mhd_By
  else if (name =? "Bz")%string then Some get_mhd_Bz
  else if (name =? "Bi")%string then Some get_mhd_Bi
  else if (name =? "magpressure")%string then Some (get_mhd_mag_p mu0)
  else if (name =? "pressure")%string then Some (get_mhd_p gamma mu0)
  else if (name =? "temp")%string then Some (get_mhd_temp gamma mu0)
  else if (name =? "sound")%string then Some (get_mhd_sound gamma mu0)
  else if (name =? "mach")%string then Some (get_mhd_mach gamma mu0)
  else None.
