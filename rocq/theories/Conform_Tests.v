(** * The models run on the project's own test data

    Tests, not proofs: the bytes of files in /repo/tests/test_data (in [Conform_Data]) go
    through the models, and the outcomes are those which the project's tests expect
    (/repo/tests). Numbers are exact rationals, compared within the tolerance of the
    test. *)
From Coq Require Import String Ascii List ZArith QArith Qabs Bool.
From Verif Require Import Prelude NdArray Gkyl_Model GData_Model Select_Model Pipe_Model Readers_Model Dg_Poly Dg_Model
  Msgpack_Model Conform_Data.
Import ListNotations.
Open Scope string_scope. Open Scope list_scope.

(** A number stored as an IEEE 754 double, least significant byte first. *)
Definition le_val (w : list Z) : Z := fold_right (fun b a => (b + 256 * a)%Z) 0%Z w.
Definition pow2 (e : Z) : Q := if (0 <=? e)%Z then inject_Z (2 ^ e) else Qmake 1 (Z.to_pos (2 ^ (- e))).
Definition float64 (w : list Z) : Q :=
  let n := le_val w in
  let m := (n mod 2 ^ 52)%Z in
  let e := ((n / 2 ^ 52) mod 2 ^ 11)%Z in
  let v := if (e =? 0)%Z then (inject_Z m * pow2 (-1074))%Q else (inject_Z (2 ^ 52 + m) * pow2 (e - 1075))%Q in
  Qred (if (n / 2 ^ 63 =? 0)%Z then v else - v)%Q.
Definition dec (_ : nat) (w : list Z) : Q := float64 w.

Definition ops : fops Q :=
  mk_fops Q dec 0%Q (fun a b => Qred (a + b)) (fun a b => Qred (a - b)) (fun a b => Qred (a * b)) (fun a b => Qred (a / b)) inject_Z.
Definition open (f : list Z) (cuts : option (list string)) : res (loaded (F := Q) (M := mval)) := load ops unpack (MBool true) f cuts [].
Definition run {A B} (r : res A) (k : A -> B) : option B := match r with Ok a => Some (k a) | Err _ => None end.

Definition dot (a b : list Q) : Q := fold_left (fun s p => Qred (s + fst p * snd p)) (combine a b) 0%Q.
Fixpoint ev (e : pexp) (x : list Q) : Q :=
  match e with
  | Nu m k => Qred (Qmake m (Z.to_pos (10 ^ Z.of_nat k)))
  | Va i => nth i x 0%Q
  | Ng a => Qred (- ev a x)
  | Ad a b => Qred (ev a x + ev b x)
  | Su a b => Qred (ev a x - ev b x)
  | Mu a b => Qred (ev a x * ev b x)
  | Di a b => Qred (ev a x / ev b x)
  | Po a n => Qred (ev a x ^ Z.of_nat n)
  end.
Definition root (d r : nat) : nat := match find (fun k => (r <=? k ^ d)%nat) (seq 0 (S r)) with Some k => k | None => O end.

Definition near (tol x y : Q) : bool := Qle_bool (Qabs (x - y)) tol.
(** [assert_approx_equal(x, y)]: seven digits. *)
Definition approx (x y : Q) : bool := Qle_bool (Qabs (x - y)) (Qabs y * (1 # 1000000)).
Definition mean (a : nda Q) : Q := Qred (fold_left (fun s x => Qred (s + x)) (flat a) 0%Q / inject_Z (Z.of_nat (length (flat a)))).

Definition grid_ndas (g : loaded (F := Q) (M := mval)) : list garr := List.map arr1 (l_grid g).
Definition dg_data (g : loaded (F := Q) (M := mval)) (grid : list garr) (gtype : string) (nc nv : nat) : dgdata (F := Q) :=
  mk_dgdata (l_data g) grid gtype
    (match aget "basis_type" (l_ctx g) with Some (MStr s) => Some s | _ => None end)
    (match aget "poly_order" (l_ctx g) with Some (MInt z) => Some (Z.to_nat z) | _ => None end) nc nv.
Definition interp (d : dgdata (F := Q)) (poly : option nat) (basis : option string) (n : option nat) : res (list (nda Q) * nda Q) :=
  let* o := modal_init d poly basis n in modal_interpolate ops dot ev root d o [0%nat].

(** ** /repo/tests/test_load.py *)

(** test_gkyl_type1 *)
Example test_type1 : run (open shock_f_ser None) (fun g => (l_cells g, shape (l_data g))) = Some ([8; 8]%Z, [8; 8; 4]%nat).
Proof. vm_compute. reflexivity. Qed.

(** test_gkyl_type1_partial *)
Example test_type1_partial : run (open twostream_f (Some ["16"; "8:-8"; ""; ""; ""; ""; "0"])) (fun g => shape (l_data g)) = Some [1; 16; 1]%nat.
Proof. vm_compute. reflexivity. Qed.

(** test_gkyl_type1_c2p: the mapped grid does not change the number of cells. *)
Definition mapped (f map : list Z) : res (loaded (F := Q) (M := mval) * list garr) :=
  let* g := open f None in let* m := open map None in let* gr := c2p_grid (length (l_cells g)) (l_data m) in Ok (g, gr).
Example test_type1_c2p : run (mapped shock_f_ser shock_rtheta_ser) (fun p => (get_num_cells (mk_gdata (Some (snd p)) (Some (l_data (fst p)))
    (Some (List.map Z.to_nat (l_cells (fst p)))) (Some (Z.to_nat (l_nc (fst p)))) None None), List.map (@shape Q) (snd p)))
  = Some (Some [8; 8]%nat, [[8; 8; 4]; [8; 8; 4]]%nat).
Proof. vm_compute. reflexivity. Qed.

(** The metadata of the file of test_gkyl_c2p_vel, in its order (see test_gkyl_meta). *)
Example test_meta : run (open bimax_elc None) (fun g => l_ctx g)
  = Some [("time", MF64 [0; 0; 0; 0; 0; 0; 0; 0]%Z); ("frame", MInt 0); ("poly_order", MInt 1); ("basis_type", MStr "gkhybrid"); ("is_modal", MBool true)].
Proof. vm_compute. reflexivity. Qed.

(** test_gkyl_c2p_vel. The bounds do not depend on the interpolated values: only their
    shape is computed, with zeros for the products. *)
Definition vel_mapped : res (loaded (F := Q) (M := mval) * list garr) :=
  let* g := open bimax_elc None in let* m := open bimax_mapc2p_vel None in
  let dims := List.map (fun p => mk_dim (fst (fst p)) (snd (fst p)) (Z.to_nat (snd p))) (combine (combine (l_lower g) (l_upper g)) (l_cells g)) in
  let* gr := c2p_vel_grid dims (l_data m) in Ok (g, gr).
Definition vel_bounds : res (option (list Q * list Q)) :=
  let* p := vel_mapped in
  let (g, gr) := p in
  let dg := dg_data g gr "c2p_vel" 1 2 in
  let* o := modal_init dg (Some 1%nat) (Some "gkhyb") None in
  let* gi := modal_grid ops dot ev root dg o in
  let* v := modal_values ops (fun _ _ => 0%Q) ev dg o [0%nat] in
  let d := of_loaded g in
  let d := mk_gdata (Some gr) (g_vals d) (c_cells d) (c_ncomps d) (c_lower d) (c_upper d) in
  match push d gi v with (d', None) => get_bounds d' | (_, Some e) => Err e end.
Example test_c2p_vel : run vel_bounds (fun b => match b with
   | Some (lo, up) => (approx (nth 1 lo 0%Q) (-10609640), approx (nth 2 up 0%Q) (1206345 # 10000000000000000000000)) | None => (false, false) end) = Some (true, true).
Proof. vm_compute. reflexivity. Qed.

(** ** /repo/tests/test_select.py *)

Definition sel (f : list Z) (zs : list (option ival)) : res (list garr * nda Q * gdata Q) :=
  let* g := open f None in select (fun _ => None) (of_loaded g) zs None false.
Definition same (tol : Q) (a : garr) (l : list Q) : bool := (length (flat a) =? length l)%nat && forallb (fun p => near tol (fst p) (snd p)) (combine (flat a) l).

(** test_integer: [select(data, z0=1, z1="5:8")] *)
Example test_integer : run (sel shock_f_ser [Some (VInt 1); Some (VStr "5:8")]) (fun r => match r with (gr, v, _) =>
    (same 0 (nth 0 gr (arr1 [])) [11 # 8; 7 # 4], same (3 # 2000000) (nth 1 gr (arr1 [])) [3926991 # 1000000; 4712389 # 1000000; 5497787 # 1000000; 6283185 # 1000000], shape v) end)%Q
  = Some (true, true, [1; 3; 4]%nat).
Proof. vm_compute. reflexivity. Qed.

(** test_float: [select(data, z0=0.5)] *)
Example test_float : run (sel shock_f_ser [Some (VFloat (1 # 2))]) (fun r => match r with (gr, _, _) => same 0 (nth 0 gr (arr1 [])) [1; 11 # 8] end)%Q = Some true.
Proof. vm_compute. reflexivity. Qed.

(** ** /repo/tests/test_interpolate.py *)

Definition summary (r : res (list (nda Q) * nda Q)) : option (list (list nat) * list nat * bool) :=
  run r (fun p => (List.map (@shape Q) (fst p), shape (snd p), approx (mean (snd p)) (1 # 2))).
Definition plain_interp (f : list Z) (poly : option nat) (basis : option string) (n : option nat) : res (list (nda Q) * nda Q) :=
  let* g := open f None in interp (dg_data g (grid_ndas g) "uniform" 2 0) poly basis n.
Definition mapped_interp (f map : list Z) (basis : string) : res (list (nda Q) * nda Q) :=
  let* p := mapped f map in let (g, gr) := p in interp (dg_data g gr "c2p" 2 0) (Some 1%nat) (Some basis) None.

(** test_ser_p1, test_ser_p1_i, test_ten_p1, test_ser_p1_c2p, test_ten_p1_c2p *)
Example test_ser_p1 : summary (plain_interp shock_f_ser (Some 1%nat) (Some "ms") None) = Some ([[17]; [17]]%nat, [16; 16; 1]%nat, true).
Proof. vm_compute. reflexivity. Qed.
Example test_ser_p1_i : option_map (fun r => snd (fst r)) (summary (plain_interp shock_f_ser (Some 1%nat) (Some "ms") (Some 3%nat))) = Some [24; 24; 1]%nat.
Proof. vm_compute. reflexivity. Qed.
Example test_ten_p1 : summary (plain_interp shock_f_ten (Some 1%nat) (Some "mt") None) = Some ([[17]; [17]]%nat, [16; 16; 1]%nat, true).
Proof. vm_compute. reflexivity. Qed.
Example test_ser_p1_c2p : summary (mapped_interp shock_f_ser shock_rtheta_ser "ms") = Some ([[17; 17]; [17; 17]]%nat, [16; 16; 1]%nat, true).
Proof. vm_compute. reflexivity. Qed.
Example test_ten_p1_c2p : summary (mapped_interp shock_f_ten shock_rtheta_ten "mt") = Some ([[17; 17]; [17; 17]]%nat, [16; 16; 1]%nat, true).
Proof. vm_compute. reflexivity. Qed.
