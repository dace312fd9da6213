(** * Model of the [ev] command (commands/ev.py) and of the array arithmetic of
    commands/ev_cmd.py. *)
From Coq Require Import String Ascii List Arith ZArith QArith Qabs Bool.
From Verif Require Import Prelude NdArray GData_Model Select_Model DataSpace_Model.
Import ListNotations.
Open Scope list_scope.

(** ** The stack machine: commands/ev.py

    [G], [V], [M], [X] are the types of grids, values, metadata entries and
    datasets.  The three parallel Python stacks [grid_stack], [value_stack] and
    [ctx_stack] are always pushed and popped together; they are one stack of
    groups, a group being the list of (grid, values, ctx) of its datasets. *)
Section Machine.
  Context {G V M X : Type}.
  Context (psel : X -> option string -> res (G * V))   (* pselect(dat, comp=...) *)
          (meta : X -> list (string * M))              (* dat.ctx *)
          (meta_val : M -> V)                          (* np.array(dat.ctx[key]) *)
          (no_grid : G)                                (* None *)
          (parse_float : string -> option V)           (* np.array(float(s)) *)
          (py_eval : string -> res V)                  (* eval(s) *)
          (str_val : string -> V)                      (* str(s) *)
          (mcmp : M -> M -> res bool).                 (* _compare and its truth value, lines 80-85, 129 *)
  (** The table [cmd_base.cmds]: number of inputs and function.  Every entry
      has one output (ev_cmd.py 411-441), so [num_out] is fixed to 1. *)
  Context (cmds : string -> option (nat * (list G -> list V -> res (G * V)))).
  Context (push_data : X -> G -> V -> res X)           (* out.push *)
          (new_data : list (string * M) -> X).         (* GData(ctx=...).
      One element of each of the three stacks, commands/ev.py 53-55. *)

  Definition entry := (G * V * list (string * M))%type.
  (** commands/ev.py 37-39, 53-55. *)
  Definition group := list entry.
  (** commands/ev.py 53. *)
  Definition e_grid (e : entry) : G := fst (fst e).
  (** commands/ev.py 54. *)
  Definition e_val (e : entry) : V := snd (fst e).
  (** commands/ev.py 55. *)
  Definition e_ctx (e : entry) : list (string * M) := snd e.

  (** The pair returned by [_data] for datasets: tag and set index. commands/ev.py 57. *)
  Definition data_id := (option string * option string)%type.

  (** [s in tags], commands/ev.py 18, 20. *)
  Definition in_list (s : string) (l : list string) : bool := existsb (String.eqb s) l.

  (** ev.py 17-34: the parts of a dataset token. *)
  Definition tok_head (s : string) : string := hd ""%string (split_on "[" s).
  Definition tok_set (s : string) : option string :=
    match split_on "[" s with _ :: p :: _ => Some (hd ""%string (split_on "]" p)) | _ => None end.
  Definition tok_comp (s : string) : option string :=
    match split_on "[" s with [_; _; p] => Some (hd ""%string (split_on "]" p)) | _ => None end.
  Definition tok_key (s : string) : option string :=
    match split_on "." s with [_; k] => if String.eqb k "" then None else Some k | _ => None end.

  (** ev.py 41-55: what one dataset contributes. *)
  Definition read_one (key comp : option string) (d : dset X) : res entry :=
    match key with
    | Some k => match aget k (meta (ds_data d)) with
                | Some m => Ok (no_grid, meta_val m, meta (ds_data d))
                | None => Err ClickFail
                end
    | None => let* gv := psel (ds_data d) comp in Ok (gv, meta (ds_data d))
    end.

  Definition read_body (ds : dspace X) (key comp : option string) (_ : nat) (r : ref)
      (st : option string * group) : res (option string * group) :=
    match lookup ds r with
    | None => Ok st (* unreachable *)
    | Some d => let* e := read_one key comp d in Ok (Some (fst r), snd st ++ [e])
    end.

  (** ev.py 18: is the token a reference to datasets? *)
  Definition is_ref (tags : list string) (s : string) : bool :=
    starts_with "f" s || in_list (tok_head s) tags.

  (** ev.py 19-56. *)
  Definition read_ref (ds : dspace X) (tags : list string) (only_active : bool) (s : string)
    : res (group * data_id) :=
    let named := in_list (tok_head s) tags in
    let tag := if named then Some (tok_head s) else None in
    let active := if named then false else only_active in
    let* st := iterate (fun _ => ds) (read_body ds (tok_key s) (tok_comp s)) active tag false
                 (sel_of_index (tok_set s)) (tag, []) in
    Ok (snd st, (fst st, tok_set s)).

  (** ev.py 16-77; [None]: not data. *)
  Definition read_token (ds : dspace X) (tags : list string) (only_active : bool) (s : string)
    : res (option (group * option data_id)) :=
    let const v := Ok (Some ([(no_grid, v, [])], None)) in
    if is_ref tags s then
      let* (g, i) := read_ref ds tags only_active s in Ok (Some (g, Some i))
    else if has_char "(" s || has_char "[" s then let* v := py_eval s in const v
    else if has_char ":" s || has_char "," s then const (str_val s)
    else match parse_float s with Some v => const v | None => Ok None end.

  (** ev.py 125-145: the metadata of one result.  [out] is [out_ctx], [rm] is
      [remove_list].  The loops over the inputs and over the keys of each
      (120-132) are one loop over all entries.  A comparison whose result has
      no truth value ends the command: this is outside the [try] of line 110. *)
  Definition merge_key (st : list (string * M) * list string) (kv : string * M)
    : res (list (string * M) * list string) :=
    match aget (fst kv) (fst st) with
    | Some v => let* same := mcmp (snd kv) v in
                Ok (if same then st else (fst st, snd st ++ [fst kv]))
    | None => Ok (aset (fst kv) (snd kv) (fst st), snd st)
    end.
  Fixpoint merge_keys (l : list (string * M)) (st : list (string * M) * list string)
    : res (list (string * M) * list string) :=
    match l with
    | [] => Ok st
    | kv :: l => let* st' := merge_key st kv in merge_keys l st'
    end.
  Definition merge_ctx (ctxs : list (list (string * M))) : res (list (string * M)) :=
    let* st := merge_keys (concat ctxs) ([], []) in
    Ok (fold_left (fun o k => adel k o) (snd st) (fst st)).

  (** ev.py 111-116: the [i]-th element of each input, the last one of a
      shorter input repeated ([x[-1]] of an empty list is an error). *)
  Definition pick_set (i : nat) (g : group) : res entry :=
    match nth_error g (Nat.min i (length g - 1)) with Some e => Ok e | None => Err IndexError end.

  (** ev.py 110-152, for one [set_idx]. *)
  Definition apply_one (f : list G -> list V -> res (G * V)) (ins : list group) (i : nat) : res entry :=
    let* es := mapM (pick_set i) ins in
    match f (List.map e_grid es) (List.map e_val es) with
    | Err _ => Err ClickFail
    | Ok (g, v) => let* c := merge_ctx (List.map e_ctx es) in Ok (g, v, c)
    end.

  (** ev.py 88-153; [ins] are the popped groups, top of the stack first. *)
  Definition apply_cmd (f : list G -> list V -> res (G * V)) (ins : list group) : res group :=
    mapM (apply_one f ins) (seq 0 (fold_right Nat.max 0%nat (List.map (@length entry) ins))).

  (** State of the loop over the chain, lines 183-198. *)
  Record mstate := mk_mstate { stack : list group; nsel : nat; out_id : option data_id }.

  Definition id_eqb (a b : data_id) : bool :=
    match a, b with
    | (Some x, y), (Some x', y') => String.eqb x x' && match y, y' with
                                    | Some s, Some s' => String.eqb s s' | None, None => true | _, _ => false end
    | (None, y), (None, y') => match y, y' with
                               | Some s, Some s' => String.eqb s s' | None, None => true | _, _ => false end
    | _, _ => false
    end.

  (** ev.py 187-190. *)
  Definition note_id (st : mstate) (i : option data_id) : nat * option data_id :=
    match i with
    | None => (nsel st, out_id st)
    | Some i => let same := match out_id st with Some o => id_eqb i o | None => false end in
                if same then (nsel st, out_id st) else (S (nsel st), Some i)
    end.

  (** ev.py 185-198, one token. *)
  Definition step (ds : dspace X) (tags : list string) (only_active : bool) (s : string) (st : mstate)
    : res mstate :=
    let* t := read_token ds tags only_active s in
    match t with
    | Some (g, i) => let (n, o) := note_id st i in Ok (mk_mstate (g :: stack st) n o)
    | None =>
        match cmds s with
        | None => Err ClickFail
        | Some (n, f) =>
            if (length (stack st) <? n)%nat then Err IndexError   (* pop from an empty list *)
            else if (n =? 0)%nat then Err ValueError              (* max([]) *)
            else let* g := apply_cmd f (firstn n (stack st)) in
                 Ok (mk_mstate (g :: skipn n (stack st)) (nsel st) (out_id st))
        end
    end.

  Fixpoint run (ds : dspace X) (tags : list string) (only_active : bool) (toks : list string) (st : mstate)
    : res mstate :=
    match toks with
    | [] => Ok st
    | s :: toks' => let* st' := step ds tags only_active s st in run ds tags only_active toks' st'
    end.

  (** ev.py 169-170. *)
  Definition tokens (chain : string) : list string :=
    List.filter (fun s => negb (String.eqb s "")) (split_on " " chain).

  (** ev.py 208-213: overwriting the selected datasets; [cnt] counts the
      results used. *)
  Definition write_body (res_g : group) (_ : nat) (r : ref) (st : dspace X * nat) : res (dspace X * nat) :=
    match lookup (fst st) r, nth_error res_g (snd st) with
    | Some d, Some e => let* x := push_data (ds_data d) (e_grid e) (e_val e) in
                        Ok (modify (fst st) r (set_data x), S (snd st))
    | Some _, None => Err IndexError
    | None, _ => Ok st (* unreachable *)
    end.

  (** ev.py 221-226: adding new datasets. *)
  Fixpoint add_results (tag label : string) (res_g : group) (ds : dspace X) : res (dspace X) :=
    match res_g with
    | [] => Ok ds
    | e :: l => let* x := push_data (new_data (e_ctx e)) (e_grid e) (e_val e) in
                add_results tag label l (add ds tag (mk_dset (next_id ds) "" true label x))
    end.

  (** ev.py 164-229.  [tag], [label], [all] are the options.  A chain without
      datasets has the empty tuple as [out_data_id]: an [IndexError].  A data
      token that matched nothing leaves [None] as the tag; adding results under
      the tag [None] is not modelled ([TypeError] here).  Labels: gdata.py
      149-154. *)
  Definition ev (chain : string) (tag label : option string) (all : bool) (ds : dspace X)
    : res (dspace X) :=
    let only_active := negb all in
    let* tags := tag_iterator ds None only_active in
    let lab := match label with Some l => l | None => chain end in
    let* st := run ds tags only_active (tokens chain) (mk_mstate [] 0 None) in
    match stack st with
    | [] => Err ClickFail
    | top :: _ =>
        match out_id st, tag with
        | Some (t, i), None =>
            if (nsel st =? 1)%nat then
              let* r := iterate (fun s : dspace X * nat => fst s) (write_body top) only_active t false
                          (sel_of_index i) (ds, 0%nat) in
              Ok (fst r)
            else
              let* ds1 := deactivate_all ds None in
              match t, top with
              | Some t', _ => add_results t' lab top ds1
              | None, [] => Ok ds1
              | None, _ => Err TypeError
              end
        | Some (t, i), Some o =>
            if String.eqb o "" then
              let* ds1 := deactivate_all ds None in
              match t, top with
              | Some t', _ => add_results t' lab top ds1
              | None, [] => Ok ds1
              | None, _ => Err TypeError
              end
            else add_results o lab top ds
        | None, _ => Err IndexError
        end
    end.
End Machine.
Arguments mk_mstate {G V M}. Arguments stack {G V M}. Arguments nsel {G V M}. Arguments out_id {G V M}.

(** ** [_compare], ev.py 80-85, on the values the readers and [GData] put into
    the metadata: one-dimensional arrays (cells, lower, upper as read: gkyl_reader.py
    467-469), tuples (cells after [set_values], gdata.py 283), numbers and
    strings. *)
Inductive mval := MArr (l : list Q) | MTup (l : list Q) | MNum (q : Q) | MStr (s : string).

Definition qs_eqb (l l' : list Q) : bool :=
  (length l =? length l')%nat && forallb (fun p => Qeq_bool (fst p) (snd p)) (combine l l').

(** The truth value of an array of booleans: an error for more than one
    element; an empty one is false. Used for [_compare], commands/ev.py 84, 129. *)
Definition truth (l : list bool) : res bool :=
  match l with [] => Ok false | [b] => Ok b | _ => Err ValueError end.

(** numpy's [a == b] for an array [b] and a sequence [l], then its truth value
    (line 122).  [mismatch]: what happens for lengths that do not broadcast (an
    error since numpy 1.25, False with a warning before). *)
Definition elementwise (mismatch : res bool) (l b : list Q) : res bool :=
  let eq := List.map (fun p => Qeq_bool (fst p) (snd p)) in
  if (length l =? length b)%nat then truth (eq (combine l b))
  else match l, b with
       | [x], _ => truth (eq (List.map (pair x) b))
       | _, [y] => truth (eq (List.map (fun x => (x, y)) l))
       | _, _ => mismatch
       end.

(** [text]: a string against an array (numpy before 1.25 gives False, later an
    array of False). *)
Definition py_compare (mismatch text : res bool) (a b : mval) : res bool :=
  match a, b with
  | MArr l, (MArr l' | MTup l') => Ok (qs_eqb l l')               (* np.array_equal *)
  | MArr l, _ => Ok false                                         (* shapes (n,) and () *)
  | MTup l, MArr l' => elementwise mismatch l l'
  | MNum x, MArr l' => elementwise mismatch [x] l'
  | MStr _, MArr _ => text
  | MTup l, MTup l' => Ok (qs_eqb l l')
  | MNum x, MNum y => Ok (Qeq_bool x y)
  | MStr s, MStr s' => Ok (String.eqb s s')
  | _, _ => Ok false
  end.

(** ** Array arithmetic: commands/ev_cmd.py with numpy's broadcasting rules

    Values are exact rationals (a division by zero, which gives inf or nan in
    numpy, gives 0 here: theorems about quotients have to exclude it). *)

(** numpy: two axis lengths combine if equal or one of them is 1. *)
Definition bdim (a b : nat) : res nat :=
  if (a =? b)%nat then Ok a
  else if (a =? 1)%nat then Ok b
  else if (b =? 1)%nat then Ok a
  else Err ValueError.

Fixpoint bdims (s t : list nat) : res (list nat) :=
  match s, t with
  | a :: s', b :: t' => let* c := bdim a b in let* r := bdims s' t' in Ok (c :: r)
  | [], [] => Ok []
  | _, _ => Err ValueError (* unreachable: the shapes are padded first *)
  end.

(** Shapes are aligned at their last axes: the shorter one is padded with ones
    in front. numpy broadcasting, used in commands/ev_cmd.py 24-65. *)
Definition pad_front (n : nat) (s : list nat) : list nat := List.repeat 1%nat (n - length s) ++ s.

(** The index into an array of shape [s] (padded) for the index [idx] of the
    result: stretched axes are read at 0. *)
Definition bidx (s idx : list nat) : list nat :=
  map2 (fun n i => if (n =? 1)%nat then 0%nat else i) s idx.

Definition broadcast {A B C} (d : A) (d' : B) (f : A -> B -> C) (a : nda A) (b : nda B) : res (nda C) :=
  let n := Nat.max (length (shape a)) (length (shape b)) in
  let* sh := bdims (pad_front n (shape a)) (pad_front n (shape b)) in
  let rd {T} (dv : T) (x : nda T) idx :=
    match get x (bidx (shape x) (skipn (n - length (shape x)) idx)) with Some v => v | None => dv end in
  Ok (tabulate sh (fun idx => f (rd d a idx) (rd d' b idx))).

(** [a.transpose()]: all axes reversed. commands/ev_cmd.py 47, 65. *)
Definition transpose {A} (d : A) (a : nda A) : nda A :=
  tabulate (rev (shape a)) (fun idx => match get a (rev idx) with Some v => v | None => d end).

Section Arith.
  (** Broadcast operations on numbers, commands/ev_cmd.py 24, 30, 38, 62. *)
  Definition qb (f : Q -> Q -> Q) (a b : nda Q) : res (nda Q) := broadcast 0%Q 0%Q f a b.

  (** ev_cmd.py 22-25, 28-31, with [x] = in_values[0] and [y] = in_values[1]. *)
  Definition v_add (x y : nda Q) : res (nda Q) := qb Qplus x y.
  Definition v_sub (x y : nda Q) : res (nda Q) := qb Qminus y x.

  (** ev_cmd.py 34-49 and 58-67: [a] = in_values[1], [b] = in_values[0]. *)
  Definition v_lead (f : Q -> Q -> Q) (x y : nda Q) : res (nda Q) :=
    let a := y in let b := x in
    if (if list_eq_dec Nat.eq_dec (shape a) (shape b) then true else false)
       || (length (shape a) =? 0)%nat || (length (shape b) =? 0)%nat
    then qb f a b
    else let* r := qb f (transpose 0%Q a) (transpose 0%Q b) in Ok (transpose 0%Q r).
  Definition v_mult := v_lead Qmult.
  Definition v_div := v_lead Qdiv.

  (** [np.sum(a, axis=-1)[..., np.newaxis]]. *)
  Definition sum_last (a : nda Q) : res (nda Q) :=
    match rev (shape a) with
    | [] => Err ValueError (* axis -1 is out of bounds *)
    | n :: _ =>
        let sh := removelast (shape a) in
        Ok (tabulate (sh ++ [1%nat]) (fun idx =>
              fold_left Qplus (List.map (fun c => match get a (removelast idx ++ [c]) with Some v => v | None => 0%Q end)
                                        (seq 0 n)) 0%Q))
    end.
  (** ev_cmd.py 52-55. *)
  Definition v_dot (x y : nda Q) : res (nda Q) := let* p := qb Qmult y x in sum_last p.
End Arith.

(** ** The table of commands over exact values

    Grids are [None] or a list of coordinate arrays; a value is an array or a
    string constant. commands/ev.py 46, 51, 64, 70. *)
Inductive val := VArr (a : nda Q) | VStr (s : string).
Definition grid := option (list garr).

(** ev_cmd.py 6-20. *)
Definition get_grid_ev (g0 g1 : grid) : grid :=
  match g0, g1 with
  | Some a, Some b => if (length b <? length a)%nat then Some a else Some b
  | Some a, None => Some a
  | None, Some b => Some b
  | None, None => None
  end.

Section Table.
  (** The functions numpy applies to each element and which are not rational:
      [np.sqrt], [np.sin], [np.cos], [np.tan], [np.log], [np.log10], [np.exp]
      and [np.power] are arbitrary functions on the elements. *)
  Context (ufun : string -> Q -> Q) (qpow : Q -> Q -> Q).

  Definition un (f : nda Q -> res (nda Q)) (gs : list grid) (vs : list val) : res (grid * val) :=
    match gs, vs with
    | [g0], [VArr x] => let* r := f x in Ok (g0, VArr r)
    | _, _ => Err TypeError
    end.
  (** commands/ev_cmd.py 22-67, 117-131. *)
  Definition bin (f : nda Q -> nda Q -> res (nda Q)) (gs : list grid) (vs : list val) : res (grid * val) :=
    match gs, vs with
    | [g0; g1], [VArr x; VArr y] => let* r := f x y in Ok (get_grid_ev g0 g1, VArr r)
    | _, _ => Err TypeError
    end.
  (** commands/ev_cmd.py 94-97, 145-148. *)
  Definition el (f : Q -> Q) (a : nda Q) : res (nda Q) := Ok (map_nda f a).

  (** ev_cmd.py 112-114, 123-125, 134-136: one number, no grid. *)
  Definition reduce (f : nda Q -> res Q) (gs : list grid) (vs : list val) : res (grid * val) :=
    match gs, vs with
    | [_], [VArr x] => let* r := f x in Ok (Some [], VArr (mk_nda [1%nat] [r]))
    | _, _ => Err TypeError
    end.
  (** [np.mean] (numpy gives nan for an empty array). commands/ev_cmd.py 135. *)
  Definition arr_mean (a : nda Q) : res Q :=
    match flat a with
    | [] => Err ValueError
    | l => Ok (fold_left Qplus l 0%Q / inject_Z (Z.of_nat (length l)))%Q
    end.

  (** ev_cmd.py 139-142: the grid is that of the base. *)
  Definition v_pow (gs : list grid) (vs : list val) : res (grid * val) :=
    match gs, vs with
    | [_; g1], [VArr x; VArr y] => let* r := qb qpow y x in Ok (g1, VArr r)
    | _, _ => Err TypeError
    end.

  (** ev_cmd.py 411-441; len, grad, grad2, int, avg, div, curl, scale_comp and
      scale_zi_axis are not in this table. *)
  Definition cmds_q (s : string) : option (nat * (list grid -> list val -> res (grid * val))) :=
    if String.eqb s "+" then Some (2%nat, bin v_add)
    else if String.eqb s "-" then Some (2%nat, bin v_sub)
    else if String.eqb s "*" then Some (2%nat, bin v_mult)
    else if String.eqb s "/" then Some (2%nat, bin v_div)
    else if String.eqb s "dot" then Some (2%nat, bin v_dot)
    else if String.eqb s "pow" then Some (2%nat, v_pow)
    else if String.eqb s "abs" then Some (1%nat, un (el Qabs))
    else if String.eqb s "sq" then Some (1%nat, un (el (fun x => x * x)%Q))
    else if String.eqb s "max" then Some (1%nat, reduce arr_max)
    else if String.eqb s "min" then Some (1%nat, reduce arr_min)
    else if String.eqb s "mean" then Some (1%nat, reduce arr_mean)
    else if String.eqb s "max2" then Some (2%nat, bin (qb qmax))
    else if String.eqb s "min2" then Some (2%nat, bin (qb qmin))
    else if existsb (String.eqb s) ["sqrt"; "sin"; "cos"; "tan"; "log"; "log10"; "exp"]%string
         then Some (1%nat, un (el (ufun s)))
    else None.
End Table.
