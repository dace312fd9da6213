(** * Integration and numerical derivatives on a grid

    tools/calculus.py and the ev commands len, grad, grad2, int, avg, div and
    curl of commands/ev_cmd.py, over exact reals.  A grid is one list of
    coordinates per dimension (mapped grids, whose coordinate arrays have
    several axes, are not covered). *)
From Coq Require Import String Ascii List Arith ZArith Bool Lia Reals.
From Verif Require Import Prelude NdArray Sort Ev_Model Tools_Arr.
Import ListNotations.
Open Scope list_scope.
Open Scope nat_scope.

Notation arr := (nda R).

(** ** numpy *)

(** Removing and inserting one axis.
    numpy axes, used in tools/calculus.py 75-84 and commands/ev_cmd.py 247-257. *)
Fixpoint del {A} (ax : nat) (l : list A) : list A :=
  match l, ax with
  | [], _ => []
  | _ :: r, 0 => r
  | x :: r, S a => x :: del a r
  end.
Fixpoint ins {A} (ax : nat) (x : A) (l : list A) : list A :=
  match ax, l with
  | S a, y :: r => y :: ins a x r
  | _, _ => x :: l
  end.

(** An axis number of an array with [n] axes; numpy's [AxisError] is both an
    IndexError and a ValueError. Used in tools/calculus.py 75, 78, 84. *)
Definition norm_axis (n : nat) (ax : Z) : res nat :=
  match norm_index n ax with Ok a => Ok a | Err _ => Err ValueError end.

(** [l[ax]] of a Python list. tools/calculus.py 74, 76, 83. *)
Definition at_ {A} (l : list A) (ax : Z) : res A :=
  let* k := norm_index (length l) ax in
  match nth_error l k with Some x => Ok x | None => Err IndexError end.

(** [np.moveaxis(v, ax, -1)]. *)
Definition move_last (ax : nat) (v : arr) : arr :=
  tabulate (del ax (shape v) ++ [nth ax (shape v) 0])
    (fun idx => val v (ins ax (last idx 0) (removelast idx))).

(** [np.dot(v, w)] with a vector [w]: sum over the last axis. tools/calculus.py 76. *)
Definition dot_last (v : arr) (w : list R) : res arr :=
  if last (shape v) 0 =? length w
  then Ok (tabulate (removelast (shape v))
             (fun idx => rsum (List.map (fun k => val v (idx ++ [k]) * nth k w 0)%R (seq 0 (length w)))))
  else Err ValueError.

(** [v.mean(axis=ax)]. tools/calculus.py 78. *)
Definition mean_axis (ax : nat) (v : arr) : arr :=
  let n := nth ax (shape v) 0 in
  tabulate (del ax (shape v)) (fun idx => rsum (List.map (fun k => val v (ins ax k idx)) (seq 0 n)) / INR n)%R.

(** [np.expand_dims(v, ax)]: negative numbers count in the result. tools/calculus.py 84. *)
Definition expand_dims (ax : nat) (v : arr) : arr := mk_nda (ins ax 1 (shape v)) (flat v).

(** [c[1:] - c[:-1]]. *)
Fixpoint diffs (c : list R) : list R :=
  match c with
  | x :: ((y :: _) as r) => (y - x)%R :: diffs r
  | _ => []
  end.

(** [sorted(axis)]. tools/calculus.py 73, 82. *)
Definition sort_axes (l : list Z) : list Z := isort Z.leb l.

(** [grid[ax].mean()], tools/calculus.py 83. *)
Definition lmean (l : list R) : R := (rsum l / INR (length l))%R.

(** ** tools/calculus.py integrate *)

(** The argument [axis]. tools/calculus.py 35-60 tells these apart. *)
Inductive axis_arg := AxInt (z : Z) | AxTuple (l : list Z) | AxStr (s : string) | AxNone | AxOther.

(** 35-60; [nd] is data.get_num_dims(). In the branch for "a:b" the bounds are
    still text when they reach [range]. *)
Definition parse_axis (nd : nat) (a : axis_arg) : res (list Z) :=
  match a with
  | AxInt z => Ok [z]
  | AxTuple l => Ok l
  | AxStr s =>
      if 1 <? length (split_on "," s) then mapM py_int (split_on "," s)
      else if length (split_on ":" s) =? 2 then Err TypeError
      else let* z := py_int s in Ok [z]
  | AxNone => Ok (List.map Z.of_nat (seq 0 nd))
  | AxOther => Err TypeError
  end.

(** 63-69: widths; data given at the grid points repeat the last one. *)
Definition dz_of (coord : list R) (n : nat) : list R :=
  let d := diffs coord in
  if (1 <? length coord) && (length coord =? n) then d ++ [last d 0%R] else d.

Fixpoint dz_all (grid : list (list R)) (sh : list nat) : res (list (list R)) :=
  match grid, sh with
  | [], _ => Ok []
  | c :: g', n :: sh' => let* r := dz_all g' sh' in Ok (dz_of c n :: r)
  | c :: g', [] => if 1 <? length c then Err IndexError else let* r := dz_all g' [] in Ok (diffs c :: r)
  end.

(** 73-80, one axis. *)
Definition int_step (grid dz : list (list R)) (ax : Z) (v : arr) : res arr :=
  let* g := at_ grid ax in
  if 1 <? length g then
    let* a := norm_axis (length (shape v)) ax in
    let* w := at_ dz ax in
    dot_last (move_last a v) w
  else
    let* a := norm_axis (length (shape v)) ax in Ok (mean_axis a v).

Fixpoint int_steps (grid dz : list (list R)) (axes : list Z) (v : arr) : res arr :=
  match axes with
  | [] => Ok v
  | ax :: r => let* v := int_step grid dz ax v in int_steps grid dz r v
  end.

(** 82-85. *)
Fixpoint expand_steps (axes : list Z) (s : list (list R) * arr) : res (list (list R) * arr) :=
  match axes with
  | [] => Ok s
  | ax :: r =>
      let* k := norm_index (length (fst s)) ax in
      let g' := set_nth k [lmean (nth k (fst s) [])] (fst s) in
      let* a := norm_axis (S (length (shape (snd s)))) ax in
      expand_steps r (g', expand_dims a (snd s))
  end.

(** 13-91 ([overwrite] pushes the result). *)
Definition integrate (nd : nat) (axis : axis_arg) (s : list (list R) * arr) : res (list (list R) * arr) :=
  let* axes := parse_axis nd axis in
  let* dz := dz_all (fst s) (shape (snd s)) in
  let* v := int_steps (fst s) dz (rev (sort_axes axes)) (snd s) in
  expand_steps (sort_axes axes) (fst s, v).

(** ** ev_cmd.py int and avg (212-266)

    Differences from the tool: a coordinate of one point breaks the widths of
    every axis, there is no mean, and the new coordinate is zero. *)
(** The argument is whatever lies below the field on the stack; text other than
    the three forms fails later than here, which only matters if the widths
    fail as well. commands/ev_cmd.py 216-236. *)
Definition ev_parse_axis (nd : nat) (a : axis_arg) : res (list Z) :=
  match a with
  | AxInt z => Ok [z] (* a number *)
  | AxTuple l => Ok l
  | AxStr s =>
      if 1 <? length (split_on "," s) then mapM py_int (split_on "," s)
      else if length (split_on ":" s) =? 2 then Err TypeError
      else if (s =? "all")%string then Ok (List.map Z.of_nat (seq 0 nd))
      else match s with
           | EmptyString => Ok [] (* sorted("") *)
           | _ => Err TypeError (* a letter as an axis *)
           end
  | _ => Err TypeError
  end.

(** 238-243. *)
Fixpoint ev_dz_all (grid : list (list R)) (sh : list nat) : res (list (list R)) :=
  match grid, sh with
  | [], _ => Ok []
  | c :: g', n :: sh' =>
      let d := diffs c in
      let* w := if length c =? n then match d with [] => Err IndexError | _ => Ok (d ++ [last d 0%R]) end else Ok d in
      let* r := ev_dz_all g' sh' in Ok (w :: r)
  | _ :: _, [] => Err IndexError
  end.

(** 247-250. *)
Fixpoint ev_int_steps (dz : list (list R)) (axes : list Z) (v : arr) : res arr :=
  match axes with
  | [] => Ok v
  | ax :: r =>
      let* a := norm_axis (length (shape v)) ax in
      let* w := at_ dz ax in
      let* v := dot_last (move_last a v) w in ev_int_steps dz r v
  end.

(** 255-258 and 159-162: length of the domain; data at the points add the first
    width. *)
Definition ev_length (g : list R) (n : nat) : res R :=
  match g with
  | [] => Err IndexError
  | x :: r =>
      let ln := (last g 0 - x)%R in
      if length g =? n then match r with [] => Err IndexError | y :: _ => Ok (ln + (y - x))%R end else Ok ln
  end.

(** 251-261; [g0], [sh0] are the grid and the shape of the argument. *)
Fixpoint ev_expand_steps (avg : bool) (g0 : list (list R)) (sh0 : list nat) (axes : list Z)
    (s : list (list R) * arr) : res (list (list R) * arr) :=
  match axes with
  | [] => Ok s
  | ax :: r =>
      let* k := norm_index (length (fst s)) ax in
      let g' := set_nth k [0%R] (fst s) in
      let* a := norm_axis (S (length (shape (snd s)))) ax in
      let v := expand_dims a (snd s) in
      let* v := if avg then
                  let* g := at_ g0 ax in let* n := at_ sh0 ax in
                  let* ln := ev_length g n in Ok (rmap (fun x => x / ln)%R v)
                else Ok v in
      ev_expand_steps avg g0 sh0 r (g', v)
  end.

Definition ev_integrate (avg : bool) (axis : axis_arg) (s : list (list R) * arr) : res (list (list R) * arr) :=
  let* axes := ev_parse_axis (length (fst s)) axis in
  let* dz := ev_dz_all (fst s) (shape (snd s)) in
  let* v := ev_int_steps dz (rev (sort_axes axes)) (snd s) in
  ev_expand_steps avg (fst s) (shape (snd s)) (sort_axes axes) (fst s, v).

(** 157-163: the result is one number. *)
Definition ev_len (ax : Z) (s : list (list R) * arr) : res R :=
  let* g := at_ (fst s) ax in let* n := at_ (shape (snd s)) ax in ev_length g n.

(** ** np.gradient(f, x, edge_order=2, axis=ax) with coordinates [x] *)

(** Weights for the derivative from three neighbouring values; [h] and [k] are
    the two distances.  When all distances are equal numpy uses the formulas
    for one distance.
    numpy.gradient with edge_order=2, used in commands/ev_cmd.py 176, 205, 284 and 304-330. *)
Definition g_mid (h k : R) : R * R * R := (- k / (h * (h + k)), (k - h) / (h * k), h / (k * (h + k)))%R.
Definition g_first (h k : R) : R * R * R := (- (2 * h + k) / (h * (h + k)), (h + k) / (h * k), - h / (k * (h + k)))%R.
Definition g_last (h k : R) : R * R * R := (k / (h * (h + k)), - (k + h) / (h * k), (2 * k + h) / (k * (h + k)))%R.
Definition u_first (h : R) : R * R * R := (-(3 / 2) / h, 2 / h, -(1 / 2) / h)%R.
Definition u_last (h : R) : R * R * R := ((1 / 2) / h, - 2 / h, (3 / 2) / h)%R.

Definition app3 (c : R * R * R) (a b d : R) : R := let '(x, y, z) := c in (x * a + y * b + z * d)%R.

(** numpy.gradient uses the formulas for one distance if all distances are equal; commands/ev_cmd.py 176, 205, 284, 304-330. *)
Fixpoint all_eq (h : R) (l : list R) : bool :=
  match l with [] => true | x :: r => if Req_EM_T x h then all_eq h r else false end.

(** Derivative at position [i] of the values [f 0 .. f (n-1)] at distances [d]. *)
Definition grad_at (d : list R) (n : nat) (f : nat -> R) (i : nat) : R :=
  if all_eq (nth 0 d 0%R) d then
    let h := nth 0 d 0%R in
    if i =? 0 then app3 (u_first h) (f 0) (f 1) (f 2)
    else if i =? n - 1 then app3 (u_last h) (f (n - 3)) (f (n - 2)) (f (n - 1))
    else ((f (i + 1)%nat - f (i - 1)%nat) / (2 * h))%R
  else
    if i =? 0 then app3 (g_first (nth 0 d 0) (nth 1 d 0))%R (f 0) (f 1) (f 2)
    else if i =? n - 1 then app3 (g_last (nth (n - 3) d 0) (nth (n - 2) d 0))%R (f (n - 3)) (f (n - 2)) (f (n - 1))
    else app3 (g_mid (nth (i - 1) d 0) (nth i d 0))%R (f (i - 1)) (f i) (f (i + 1)).

Definition gradient (v : arr) (x : list R) (ax : nat) : res arr :=
  let n := nth ax (shape v) 0 in
  if length (shape v) <=? ax then Err ValueError (* AxisError *)
  else if negb (length x =? n) then Err ValueError (* distances must match *)
  else match diffs x with
       | [] => Err IndexError (* diffx[0] *)
       | _ => if n <? 3 then Err ValueError (* too small *)
              else Ok (tabulate (shape v) (fun idx =>
                         grad_at (diffs x) n (fun k => val v (set_nth ax k idx)) (nth ax idx 0)))
       end.

(** [0.5*(c[1:] + c[:-1])]. *)
Fixpoint centres (c : list R) : list R :=
  match c with
  | x :: ((y :: _) as r) => ((1 / 2) * (y + x))%R :: centres r
  | _ => []
  end.

(** [out[..., a:b] = src] for an array of the same cells. commands/ev_cmd.py 183-209. *)
Definition set_cols (a b : nat) (src out : arr) : res arr :=
  let sh := shape out in
  let ks := slice2 (last sh 0) (Z.of_nat a) (Z.of_nat b) in
  if list_eq_dec Nat.eq_dec (shape src) (removelast sh ++ [length ks])
  then Ok (tabulate sh (fun idx =>
         let j := last idx 0 in
         if (a <=? j) && (j <? a + length ks) then val src (removelast idx ++ [j - a]) else val out idx))
  else Err ValueError.

(** ev_cmd.py 166-180. *)
Definition ev_grad (s : list (list R) * arr) : res (list (list R) * arr) :=
  let v := snd s in
  let nd := length (shape v) - 1 in
  let nc := last (shape v) 0 in
  let fix loop ds out :=
    match ds with
    | [] => Ok out
    | d :: r =>
        match nth_error (fst s) d with
        | None => Err IndexError
        | Some c => let* g := gradient v (centres c) d in
                    let* out := set_cols (d * nc) ((d + 1) * nc) g out in loop r out
        end
    end in
  let* out := loop (seq 0 nd) (zeros (removelast (shape v) ++ [nc * nd])) in
  Ok (fst s, out).

(** ev_cmd.py 269-288 (the warning about ignored components is not kept). *)
Definition ev_div (s : list (list R) * arr) : res (list (list R) * arr) :=
  let v := snd s in
  let fix loop ds out :=
    match ds with
    | [] => Ok out
    | d :: r =>
        match nth_error (fst s) d with
        | None => Err IndexError
        | Some c => let* f := comp d v in
                    let* g := gradient f (centres c) d in
                    let* o := comp 0 out in
                    let* t := rb Rplus o g in
                    let* out := set_col 0 t out in loop r out
        end
    end in
  let* out := loop (seq 0 (length (fst s))) (zeros (removelast (shape v) ++ [1])) in
  Ok (fst s, out).

(** One term of the curl: derivative of component [c] along axis [d]. commands/ev_cmd.py 304-330. *)
Definition dcomp (s : list (list R) * arr) (c d : nat) : res arr :=
  match nth_error (fst s) d with
  | None => Err IndexError
  | Some g => let* f := comp c (snd s) in gradient f (centres g) d
  end.

(** ev_cmd.py 291-350.  In three dimensions [out_values] is assigned to before it
    exists. *)
Definition ev_curl (s : list (list R) * arr) : res (list (list R) * arr) :=
  let v := snd s in
  let nc := last (shape v) 0 in
  match length (fst s) with
  | 0 | S (S (S _)) =>
      (* the else branch *)
      if nc <? 3 then Err ValueError
      else match fst s with
           | _ :: _ :: _ :: _ =>
               let* a := dcomp s 2 1 in let* b := dcomp s 1 2 in let* d := rb Rminus a b in Err UnboundLocalError
           | _ => Err IndexError
           end
  | 1 =>
      if negb (nc =? 3) then Err ValueError
      else
        let* a := dcomp s 2 0 in
        let* out := set_col 1 (rmap Ropp a) (zeros (shape v)) in
        let* b := dcomp s 1 0 in
        let* out := set_col 2 b out in Ok (fst s, out)
  | 2 =>
      if nc <? 2 then Err ValueError
      else if nc =? 2 then
        let* a := dcomp s 1 0 in let* b := dcomp s 0 1 in
        let* t := rb Rminus a b in
        let* out := set_col 0 t (zeros (removelast (shape v) ++ [1])) in Ok (fst s, out)
      else
        let* a := dcomp s 2 1 in
        let* out := set_col 0 a (zeros (shape v)) in
        let* b := dcomp s 2 0 in
        let* out := set_col 1 (rmap Ropp b) out in
        let* c := dcomp s 1 0 in let* d := dcomp s 0 1 in
        let* t := rb Rminus c d in
        let* out := set_col 2 t out in Ok (fst s, out)
  end.
