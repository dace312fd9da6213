(** * Growth rates: tools/growth.py and commands/growth.py

    Numbers are exact reals. [scipy.optimize.curve_fit] is external: it is an
    argument of the model and may return anything or raise. *)
From Coq Require Import String Ascii List Arith ZArith Bool Lia Reals Lra.
From Verif Require Import Prelude NdArray.
Import ListNotations.
Open Scope list_scope.
Open Scope nat_scope.

(** tools/growth.py 9-24 [exp2(x, *params)]; with other than two parameters Python
    raises, which does not happen to the parameters of a fit of [exp2]. *)
Definition exp2 (ps : list R) (x : R) : R := (nth 0 ps 0 * exp (2 * nth 1 ps 0 * x))%R.

(** [l[0:n]]. *)
Definition upto {A} (n : Z) (l : list A) : list A :=
  firstn (Z.to_nat (if (n <? 0)%Z then Z.of_nat (length l) + n else n)) l.

Definition rsum (l : list R) : R := fold_right Rplus 0%R l.

(** What [best_params] can be: the tuple of the caller, [None], or an array from
    [curve_fit]. tools/growth.py 52, 69; commands/growth.py 49-52. *)
Inductive guess := GNone | GTuple (l : list R) | GArr (l : list R).

Definition guess_vals (g : guess) : option (list R) :=
  match g with GNone => None | GTuple l | GArr l => Some l end.

(** [best_params[1]]. *)
Definition second (l : list R) : res R :=
  match l with _ :: b :: _ => Ok b | _ => Err IndexError end.
Definition guess_second (g : guess) : res R :=
  match g with GNone => Err TypeError | GTuple l | GArr l => second l end.

Record fit_state := mk_fit { best_R2 : R; best_params : guess; best_N : Z }.

Section Fit.
  (** [function(x, *params)] and [curve_fit(function, xn, yn, guess)]. *)
  Context (f : list R -> R -> R) (curve_fit : list R -> list R -> option (list R) -> res (list R)).

  (** tools/growth.py 63-66: [None] stands for the nan or -inf that numpy has if
      the sum of squares is 0, which is not greater than anything. Lines 62 and
      65 need as many values as points (numpy's stretching of single values is
      left out). *)
  Definition R2_of (xn yn params : list R) : res (option R) :=
    if negb (length xn =? length yn) then Err ValueError
    else
      let residual := List.map (fun p => (snd p - f params (fst p))%R) (combine xn yn) in
      let ss_res := rsum (List.map (fun r => (r * r)%R) residual) in
      let mean := (rsum yn / INR (length yn))%R in
      let ss_tot := rsum (List.map (fun v => ((v - mean) * (v - mean))%R) yn) in
      Ok (if Req_EM_T ss_tot 0 then None else Some (1 - ss_res / ss_tot)%R).

  (** tools/growth.py 57-80, one round. Coordinates over [max_x = 0] are nan or
      inf, which [curve_fit] refuses. Printing (72-76) needs the second of the
      best and of the new parameters. *)
  Definition one_fit (x y : list R) (max_x : R) (n : Z) (st : fit_state) : res fit_state :=
    let xn := List.map (fun v => (v / max_x)%R) (upto n x) in
    let yn := upto n y in
    match (if Req_EM_T max_x 0 then Err ValueError else curve_fit xn yn (guess_vals (best_params st))) with
    | Err RuntimeError => Ok st
    | Err e => Err e
    | Ok params =>
        let* r2 := R2_of xn yn params in
        let st' := match r2 with
                   | Some r => if Rlt_dec (best_R2 st) r then mk_fit r (GArr params) n else st
                   | None => st
                   end in
        let* _ := guess_second (best_params st') in
        let* _ := second params in
        Ok st'
    end.

  Fixpoint all_fits (x y : list R) (max_x : R) (ns : list Z) (st : fit_state) : res fit_state :=
    match ns with
    | [] => Ok st
    | n :: ns' => let* st' := one_fit x y max_x n st in all_fits x y max_x ns' st'
    end.

  (** [np.linspace(a, b - 1, b - a)]: the integers from [a] to [b - 1]. *)
  Definition regions (a b : Z) : res (list Z) :=
    if (b <? a)%Z then Err ValueError
    else Ok (List.map (fun i => (a + Z.of_nat i)%Z) (seq 0 (Z.to_nat (b - a)))).

  (** tools/growth.py 27-83. *)
  Definition fit_growth (x y : list R) (min_N : option Z) (p0 : guess) : res (list R * R * Z) :=
    let minn := match min_N with Some n => n | None => Z.of_nat (length x / 10) end in
    let max_N := Z.of_nat (length x) in
    match rev x with
    | [] => Err IndexError
    | max_x :: _ =>
        let* ns := regions minn max_N in
        let* st := all_fits x y max_x ns (mk_fit 0 p0 minn) in
        let* b := guess_second (best_params st) in
        match best_params st with
        | GArr (a :: _ :: rest) => Ok (a :: (b / max_x)%R :: rest, best_R2 st, best_N st)
        | _ => Err TypeError (* a tuple cannot be changed *)
        end
    end.
End Fit.

(** ** commands/growth.py, for one dataset *)

(** A dataset that the command adds, or a figure that it shows. commands/growth.py 68-90, 97-102. *)
Inductive product :=
| NewSet (tag label : string) (grid : list (list R)) (vals : nda R)
| Figure (xs ys : list R).

Section Command.
  (** [float(s)]; [curve_fit]; what [fit_growth] does if [y] is not one row of
      values (external as well). *)
  Context (py_float : string -> res R)
          (curve_fit : list R -> list R -> option (list R) -> res (list R))
          (fit_other : list R -> nda R -> option Z -> guess -> res (list R * R * Z)).

  (** commands/growth.py 66, tools/growth.py 27-83. *)
  Definition fit_any (x : list R) (y : nda R) (minn : option Z) (p0 : guess) : res (list R * R * Z) :=
    match shape y with
    | [_] => fit_growth exp2 curve_fit x (flat y) minn p0
    | _ => fit_other x y minn p0
    end.

  (** 52-56. An empty text is taken as no guess. *)
  Definition get_guess (g : option string) : res guess :=
    match g with
    | None => Ok GNone
    | Some s =>
        if String.eqb s "" then Ok GNone
        else match split_on "," s with
             | a :: rest =>
                 let* a' := py_float a in
                 match rest with
                 | b :: _ => let* b' := py_float b in Ok (GTuple [a'; b'])
                 | [] => Err IndexError
                 end
             | [] => Err IndexError (* unreachable *)
             end
    end.

  (** [a.squeeze()]. commands/growth.py 59-63. *)
  Definition squeeze_all (a : nda R) : nda R := mk_nda (filter (fun n => negb (n =? 1)) (shape a)) (flat a).

  (** 62-67: [values[..., 0]], [values[:, idx, 0]] or [values[idx, :, 0]], squeezed. *)
  Definition pick_y (v : nda R) (dir : option Z) (idx : nat) : res (nda R) :=
    let sel sels := Ok (squeeze_all (take sels v)) in
    match dir with
    | Some 0%Z =>
        match shape v with
        | n0 :: n1 :: n2 :: rest =>
            if (idx <? n1) && (0 <? n2) then sel (seq 0 n0 :: [idx] :: [0] :: List.map (seq 0) rest) else Err IndexError
        | _ => Err IndexError
        end
    | Some 1%Z =>
        match shape v with
        | n0 :: n1 :: n2 :: rest =>
            if (idx <? n0) && (0 <? n2) then sel ([idx] :: seq 0 n1 :: [0] :: List.map (seq 0) rest) else Err IndexError
        | _ => Err IndexError
        end
    | _ =>
        match rev (shape v) with
        | n :: _ => if 0 <? n then sel (List.map (seq 0) (removelast (shape v)) ++ [[0]]) else Err IndexError
        | [] => Err IndexError
        end
    end.

  (** 35-47: how many rates. [np.array(shape).squeeze()] of a single number has no length. *)
  Definition num_rates (v : nda R) (dir : option Z) : res nat :=
    match shape v with
    | [_] => Err TypeError
    | [n0; n1] => Ok (match dir with Some 0%Z => n1 | Some 1%Z => n0 | _ => 1 end)
    | _ => Ok 1
    end.

  Definition axis (time : list (list R)) (k : nat) : res (list R) :=
    match nth_error time k with Some t => Ok t | None => Err IndexError end.

  (** 71-78. *)
  Definition midpoints (t : list R) : list R := List.map (fun p => (/ 2 * (fst p + snd p))%R) (combine t (tl t)).
  Definition fitted (t params : list R) : product :=
    let vals := List.map (exp2 params) (midpoints t) in
    NewSet "growth" "Fit" [t] (mk_nda [length vals; 1] vals).

  (** 80-94, for values with two axes (for others [values[i, 0]] is not a number;
      here this is an error). The figure is drawn inside the loop; plotting the
      [k] values so far over all inner times needs the same number of both.
      [zero division] gives inf or nan in numpy, which is not modelled. *)
  Fixpoint instantaneous (t : list R) (v : nda R) (is : list nat) (gammas : list R) : res (list product) :=
    match is with
    | [] => Ok []
    | i :: is' =>
        match get v [i + 1; 0], get v [i - 1; 0], get v [i; 0] with
        | Some b, Some a, Some m =>
            let gs := gammas ++ [((b - a) / (2 * m * (nth (i + 1) t 0 - nth (i - 1) t 0)))%R] in
            let xs := firstn (length t - 2) (tl t) in
            if length xs =? length gs then let* r := instantaneous t v is' gs in Ok (Figure xs gs :: r)
            else Err ValueError
        | _, _, _ => Err IndexError
        end
    end.

  Record options := mk_opts
    { o_guess : option string; o_minn : option Z; o_dataset : bool; o_inst : bool; o_dir : option Z;
      o_tag : option string; o_label : string }.

  (** 51-98, one round: the rate and what was produced. *)
  Definition one_rate (o : options) (time : list (list R)) (v : nda R) (idx : nat) : res (R * list product) :=
    let* p0 := get_guess (o_guess o) in
    let* t0 := axis time 0 in
    let* x := match o_dir o with Some 1%Z => axis time 1 | _ => Ok t0 end in
    let* y := pick_y v (o_dir o) idx in
    let* r := fit_any x y (o_minn o) p0 in
    let params := fst (fst r) in
    let* figs := (if o_inst o then instantaneous t0 v (seq 1 (length t0 - 2)) [] else Ok []) in
    let* rate := second params in
    Ok (rate, (if o_dataset o then [fitted t0 params] else []) ++ figs).

  (** 32-105, one dataset. *)
  Definition growth_one (o : options) (time : list (list R)) (v : nda R) : res (list product) :=
    let* n := num_rates v (o_dir o) in
    let* rs := mapM (one_rate o time v) (seq 0 n) in
    Ok (concat (List.map snd rs)
        ++ match o_tag o with
           | Some tag => if String.eqb tag "" then []
                         else [NewSet tag (o_label o) [List.map INR (seq 0 n)] (mk_nda [n; 1] (List.map fst rs))]
           | None => []
           end).
End Command.
