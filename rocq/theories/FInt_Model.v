(** * tools/calculus.py integrate in double precision

    As [Calc_Model.integrate], with every operation followed by rounding to the nearest
    double. The order in which np.dot and mean add up the numbers depends on the machine,
    the library and the layout of the arrays, and np.dot may round a product and a sum
    at once; so the two are parameters here, and [dots] and [sums] say what they may do.
    Numbers of cells are below 2^53. *)
From Coq Require Import String Ascii List Arith ZArith Bool Reals Permutation.
From Verif Require Import Prelude NdArray Ev_Model Tools_Arr Calc_Model Float_Model.
Import ListNotations.
Open Scope list_scope.
Open Scope nat_scope.

(** What np.dot of two vectors may give, tools/calculus.py 76: any order of the additions,
    products rounded on their own or together with an addition. *)
Inductive dots : list (R * R) -> R -> Prop :=
| dots_nil : dots [] 0%R
| dots_one a b : dots [(a, b)] (fl (a * b))
| dots_fma a b l s : dots l s -> dots ((a, b) :: l) (fl (a * b + s))
| dots_add l m s t : dots l s -> dots m t -> dots (l ++ m) (fl (s + t))
| dots_perm l m s : Permutation l m -> dots l s -> dots m s.

(** What np.sum (in mean, tools/calculus.py 78 and 83) may give: any order of the additions. *)
Inductive sums : list R -> R -> Prop :=
| sums_nil : sums [] 0%R
| sums_one a : sums [a] a
| sums_add l m s t : sums l s -> sums m t -> sums (l ++ m) (fl (s + t))
| sums_perm l m s : Permutation l m -> sums l s -> sums m s.

Section Integrate.
  (** np.dot and np.sum for an axis and a position of the result. *)
  Context (dot : nat -> list nat -> list R -> list R -> R) (sum : nat -> list nat -> list R -> R).

  (** 65: [coord[1:] - coord[:-1]]. *)
  Fixpoint fdiffs (c : list R) : list R :=
    match c with
    | x :: ((y :: _) as r) => fl (y - x) :: fdiffs r
    | _ => []
    end.

  (** 63-69. *)
  Definition fdz_of (coord : list R) (n : nat) : list R :=
    let d := fdiffs coord in
    if (1 <? length coord) && (length coord =? n) then d ++ [last d 0%R] else d.
  Fixpoint fdz_all (grid : list (list R)) (sh : list nat) : res (list (list R)) :=
    match grid, sh with
    | [], _ => Ok []
    | c :: g', n :: sh' => let* r := fdz_all g' sh' in Ok (fdz_of c n :: r)
    | c :: g', [] => if 1 <? length c then Err IndexError else let* r := fdz_all g' [] in Ok (fdiffs c :: r)
    end.

  (** 76. *)
  Definition fdot_last (ax : nat) (v : arr) (w : list R) : res arr :=
    if last (shape v) 0 =? length w
    then Ok (tabulate (removelast (shape v))
               (fun idx => dot ax idx (List.map (fun k => val v (idx ++ [k])) (seq 0 (length w))) w))
    else Err ValueError.

  (** 78. *)
  Definition fmean_axis (ax : nat) (v : arr) : arr :=
    let n := nth ax (shape v) 0 in
    tabulate (del ax (shape v)) (fun idx => fl (sum ax idx (List.map (fun k => val v (ins ax k idx)) (seq 0 n)) / INR n)%R).

  (** 73-80. *)
  Definition fint_step (grid dz : list (list R)) (ax : Z) (v : arr) : res arr :=
    let* g := at_ grid ax in
    if 1 <? length g then
      let* a := norm_axis (length (shape v)) ax in
      let* w := at_ dz ax in
      fdot_last a (move_last a v) w
    else
      let* a := norm_axis (length (shape v)) ax in Ok (fmean_axis a v).
  Fixpoint fint_steps (grid dz : list (list R)) (axes : list Z) (v : arr) : res arr :=
    match axes with
    | [] => Ok v
    | ax :: r => let* v := fint_step grid dz ax v in fint_steps grid dz r v
    end.

  (** 83: [grid[ax].mean()]. *)
  Definition fmean (ax : nat) (l : list R) : R := fl (sum ax [] l / INR (length l)).

  (** 82-85. *)
  Fixpoint fexpand_steps (axes : list Z) (s : list (list R) * arr) : res (list (list R) * arr) :=
    match axes with
    | [] => Ok s
    | ax :: r =>
        let* k := norm_index (length (fst s)) ax in
        let g' := set_nth k [fmean k (nth k (fst s) [])] (fst s) in
        let* a := norm_axis (S (length (shape (snd s)))) ax in
        fexpand_steps r (g', expand_dims a (snd s))
    end.

  (** 13-91. *)
  Definition fintegrate (nd : nat) (axis : axis_arg) (s : list (list R) * arr) : res (list (list R) * arr) :=
    let* axes := parse_axis nd axis in
    let* dz := fdz_all (fst s) (shape (snd s)) in
    let* v := fint_steps (fst s) dz (rev (sort_axes axes)) (snd s) in
    fexpand_steps (sort_axes axes) (fst s, v).
End Integrate.
