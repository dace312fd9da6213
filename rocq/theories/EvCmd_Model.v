(** * The ev commands grad2, scale_comp and scale_zi_axis
    (commands/ev_cmd.py 183-209 and 353-409). *)
From Coq Require Import String Ascii List Arith ZArith QArith Bool Reals.
From Verif Require Import Prelude NdArray GData_Model Select_Model Ev_Model Tools_Arr Calc_Model.
Import ListNotations.
Open Scope list_scope.
Open Scope nat_scope.

(** [int(x)]: towards zero. commands/ev_cmd.py 375, 377, 407. *)
Definition qtrunc (q : Q) : Z := Z.quot (Qnum q) (Zpos (Qden q)).

(** [range(a, b)]. Used for the axes of commands/ev_cmd.py 183-209. *)
Definition zrange (a b : Z) : list Z := List.map (fun k => (a + Z.of_nat k)%Z) (seq 0 (Z.to_nat (b - a))).

(** ** grad2, over exact reals as grad in [Calc_Model]

    193-202: the axes.  The argument is text or a number. *)
Inductive ax_arg := AText (s : string) | ANum (q : Q).
Definition grad2_axes (a : ax_arg) : res (list Z) :=
  match a with
  | AText s =>
      if has_char ":" s then
        match split_on ":" s with
        | lo :: up :: _ => let* a := py_int lo in let* b := py_int up in Ok (zrange a b)
        | _ => Err IndexError (* unreachable *)
        end
      else mapM py_int (split_on "," s)
  | ANum q => Ok (zrange (qtrunc q) (qtrunc (q + 1)))
  end.

(** 203-208: [cnt] counts the axes.  The coordinates are taken from a Python
    list, the axis from the array, which has one axis more. *)
Fixpoint grad2_loop (grid : list (list R)) (v : arr) (nc cnt : nat) (ds : list Z) (out : arr) : res arr :=
  match ds with
  | [] => Ok out
  | d :: r =>
      let* c := at_ grid d in
      let* a := norm_axis (length (shape v)) d in
      let* g := gradient v (centres c) a in
      let* out := set_cols (cnt * nc) ((cnt + 1) * nc) g out in
      grad2_loop grid v nc (S cnt) r out
  end.

(** 183-209. *)
Definition ev_grad2 (ax : ax_arg) (s : list (list R) * arr) : res (list (list R) * arr) :=
  let v := snd s in
  let nc := last (shape v) 0 in
  let* ds := grad2_axes ax in
  let* out := grad2_loop (fst s) v nc 0 ds (zeros (removelast (shape v) ++ [nc * length ds])) in
  Ok (fst s, out).

(** ** scale_comp *)
Section ScaleComp.
  (** Python's [float(str)], as in [Select_Model]. *)
  Context (pfloat : string -> option Q).

  (** [original_data[..., ps] *= f]. commands/ev_cmd.py 381-386. *)
  Definition mul_comps (ps : list nat) (f : Q) (v : nda Q) : nda Q :=
    tabulate (shape v) (fun idx =>
      let x := match get v idx with Some x => x | None => 0%Q end in
      if existsb (Nat.eqb (last idx 0)) ps then (x * f)%Q else x).

  (** 369: [scale_factor.item()]. *)
  Definition item (v : Ev_Model.val) : res Q :=
    match v with
    | VArr a => match flat a with [q] => Ok q | _ => Err ValueError end
    | Ev_Model.VStr _ => Err AttributeError
    end.

  (** 371-377. *)
  Definition comp_index (v : Ev_Model.val) : res pidx :=
    match v with
    | Ev_Model.VStr s => idx_parser pfloat (Select_Model.VStr s) None false
    | VArr a => match flat a with [q] => Ok (IInt (qtrunc q)) | _ => Err TypeError end
    end.

  (** 380-386. *)
  Fixpoint scale_each (l : list Z) (f : Q) (v : nda Q) : res (nda Q) :=
    match l with
    | [] => Ok v
    | z :: r => let* p := norm_index (last (shape v) 0) z in scale_each r f (mul_comps [p] f v)
    end.
  Definition scale_parts (i : pidx) (f : Q) (v : nda Q) : res (nda Q) :=
    match shape v with
    | [] => Err IndexError (* too many indices *)
    | _ => match i with
           | ISlice a b => Ok (mul_comps (slice2 (last (shape v) 0) a b) f v)
           | ITuple l => scale_each l f v
           | IInt z => scale_each [z] f v
           end
    end.

  (** 353-388; top of the stack first. *)
  Definition scale_comp (gs : list grid) (vs : list Ev_Model.val) : res (grid * Ev_Model.val) :=
    match gs, vs with
    | [_; _; g], [f; c; VArr v] =>
        let* q := item f in
        let* i := comp_index c in
        let* r := scale_parts i q v in Ok (g, VArr r)
    | _, _ => Err AttributeError
    end.
End ScaleComp.

(** ** scale_zi_axis (390-409)

    [out_grid[i] *= s] multiplies the coordinate array itself, so the model has a
    heap of coordinate arrays: position [a] of the list is the array with
    address [a].  [select] without cuts returns a new list with the same arrays
    (data/select.py 30-31), [push] stores the list it is given and sets the
    bounds (data/gdata.py 262-270, 289-292).  Values play no role here. *)
Definition heap := list (list Q).
Record dat := mk_dat { t_grid : list nat; t_lower : list Q; t_upper : list Q }.

(** 403-407. *)
Definition scale_axis (i : Z) (f : Q) (h : heap) (g : list nat) : res heap :=
  let* k := norm_index (length g) i in
  match nth_error g k with
  | None => Err IndexError
  | Some a => match nth_error h a with
              | None => Err IndexError (* unreachable: a dangling address *)
              | Some c => Ok (set_nth a (List.map (fun x => x * f)%Q c) h)
              end
  end.

(** ev.py 110-152: the selected datasets one after the other. *)
Fixpoint scale_all (i : Z) (f : Q) (gs : list (list nat)) (h : heap) : res heap :=
  match gs with
  | [] => Ok h
  | g :: r => let* h := scale_axis i f h g in scale_all i f r h
  end.

(** gdata.py 262-270. *)
Definition lo_of (h : heap) (a : nat) : res Q := arr_min (mk_nda [length (nth a h [])] (nth a h [])).
Definition up_of (h : heap) (a : nat) : res Q := arr_max (mk_nda [length (nth a h [])] (nth a h [])).
Definition pushed (h : heap) (g : list nat) : res dat :=
  let* lo := mapM (lo_of h) g in let* up := mapM (up_of h) g in Ok (mk_dat g lo up).

Definition grids_of (ds : list dat) (sel : list nat) : list (list nat) :=
  List.map (fun k => match nth_error ds k with Some d => t_grid d | None => [] end) sel.

(** The loop of commands/ev.py 210-213. *)
Fixpoint push_all (h : heap) (sel : list nat) (ds : list dat) : res (list dat) :=
  match sel with
  | [] => Ok ds
  | k :: r => match nth_error ds k with
              | None => Err IndexError
              | Some d => let* d' := pushed h (t_grid d) in push_all h r (set_nth k d' ds)
              end
  end.

(** ev without a tag (ev.py 207-213) and with a new tag (214-226). *)
Definition zi_in_place (i : Z) (f : Q) (sel : list nat) (s : heap * list dat) : res (heap * list dat) :=
  let* h := scale_all i f (grids_of (snd s) sel) (fst s) in
  let* ds := push_all h sel (snd s) in Ok (h, ds).
Definition zi_tagged (i : Z) (f : Q) (sel : list nat) (s : heap * list dat) : res (heap * list dat) :=
  let* h := scale_all i f (grids_of (snd s) sel) (fst s) in
  let* new := mapM (pushed h) (grids_of (snd s) sel) in Ok (h, snd s ++ new).
