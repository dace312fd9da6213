(** * Model of the [collect] command (commands/collect.py). *)
From Coq Require Import String Ascii List Arith ZArith QArith Qround Bool.
From Verif Require Import Prelude NdArray GData_Model DataSpace_Model.
Import ListNotations.
Open Scope list_scope.

(** What the command reads from a dataset: [ctx["time"]] and [ctx["frame"]]
    ([None]: the key is missing, a [KeyError]), grid and values.  Numbers are
    exact rationals. commands/collect.py 51-68. *)
Record cdata := mk_cdata {
  c_time : option Q;
  c_frame : option Q;
  c_grid : list garr;
  c_vals : nda Q
}.

(** Lines 51-57: the time stamp; [i] is the position of the dataset under its
    tag.  Zero is false in Python. *)
Definition time_stamp (i : nat) (d : cdata) : res Q :=
  match c_time d with
  | None => Err KeyError
  | Some t =>
      if negb (Qeq_bool t 0) then Ok t
      else match c_frame d with
           | None => Err KeyError
           | Some f => if negb (Qeq_bool f 0) then Ok f else Ok (inject_Z (Z.of_nat i))
           end
  end.

(** Lines 60-62: [np.nansum(val, axis=(0, ..., num_dims-1))]; the number of
    dimensions is one less than that of the array. *)
Definition sum_cells (a : nda Q) : nda Q :=
  let cells := removelast (shape a) in
  tabulate [last (shape a) 0%nat] (fun c =>
    fold_right Qplus 0%Q
      (List.map (fun idx => match get a (idx ++ c) with Some v => v | None => 0%Q end) (indices cells))).

(** [time[-1]], [values[-1]], [grid[-1]]. *)
Record chunk := mk_chunk { k_time : list Q; k_vals : list (nda Q); k_grid : list garr }.
Definition empty_chunk : chunk := mk_chunk [] [] [].

(** State of the loop of lines 43-70: counter, completed chunks, last chunk. *)
Record cstate := mk_cstate { s_cnt : Z; s_done : list chunk; s_cur : chunk }.

Section Collect.
  Context (argsort : list Q -> list nat)    (* np.argsort: not a stable sort *)
          (sumdata : bool) (chunk_len : option Z)
          (period : option Q) (offset : Q).

  (** Lines 44-68. *)
  Definition collect_one (i : nat) (d : cdata) (st : cstate) : res cstate :=
    let cnt := (s_cnt st + 1)%Z in
    let full := match chunk_len with Some c => negb (c =? 0)%Z && (c <? cnt)%Z | None => false end in
    let '(cnt, done, cur) := if full then (1%Z, s_done st ++ [s_cur st], empty_chunk)
                             else (cnt, s_done st, s_cur st) in
    let* t := time_stamp i d in
    let v := if sumdata then sum_cells (c_vals d) else c_vals d in
    let g := match k_grid cur with [] => c_grid d | g => g end in
    Ok (mk_cstate cnt done (mk_chunk (k_time cur ++ [t]) (k_vals cur ++ [v]) g)).

  (** [np.array(list of arrays)]; arrays of different shapes are an error. commands/collect.py 92-93. *)
  Definition stack_arrays (l : list (nda Q)) : res (nda Q) :=
    match l with
    | [] => Ok (mk_nda [0%nat] [])
    | a :: _ => if forallb (fun b => if list_eq_dec Nat.eq_dec (shape b) (shape a) then true else false) l
                then Ok (mk_nda (length l :: shape a) (flat_map flat l))
                else Err ValueError
    end.

  (** Python's [%] on numbers. commands/collect.py 95-97. *)
  Definition py_mod (x p : Q) : Q := (x - inject_Z (Qfloor (x / p)) * p)%Q.

  (** Lines 95-97. *)
  Definition epoch (t : Q) : Q :=
    match period with
    | Some p => if Qeq_bool p 0 then t else py_mod (t - offset) p
    | None => t
    end.

  (** [a[sort_idx]] along the first axis. commands/collect.py 99-101. *)
  Definition pick {A} (l : list A) (idx : list nat) : list A :=
    flat_map (fun k => match nth_error l k with Some x => [x] | None => [] end) idx.
  Definition take_rows (a : nda Q) (idx : list nat) : nda Q :=
    mk_nda (length idx :: tl (shape a))
           (flat_map (fun k => firstn (prod (tl (shape a))) (skipn (k * prod (tl (shape a))) (flat a))) idx).

  (** Lines 91-110.  The new dataset has no [time] and no [frame]. *)
  Definition collect_chunk (k : chunk) : res cdata :=
    let* v := stack_arrays (k_vals k) in
    let t := List.map epoch (k_time k) in
    let idx := argsort t in
    let ts := pick t idx in
    let ta := mk_nda [length ts] ts in
    Ok (mk_cdata None None (if sumdata then [ta] else ta :: k_grid k) (take_rows v idx)).

  Definition add_chunks (tag label : string) (outs : list cdata) (ds : dspace cdata) : dspace cdata :=
    fold_left (fun ds o => add ds tag (mk_dset (next_id ds) "" true label o)) outs ds.

  (** The body of the loop of commands/collect.py 50-69. *)
  Definition collect_body (ds : dspace cdata) (i : nat) (r : ref) (st : cstate) : res cstate :=
    match lookup ds r with
    | Some d => collect_one i (ds_data d) st
    | None => Ok st (* unreachable *)
    end.

  (** Lines 36-112 for one tag; [k] is [tag_cnt].  (The label is the option, or
      the custom label of the last dataset or "collect": an arbitrary string
      here.) *)
  Definition collect_tag (out_tags : option (list string)) (label : string) (k : nat) (tag : string)
      (ds : dspace cdata) : res (dspace cdata) :=
    let* st := iterate (fun _ => ds) (collect_body ds) true (Some tag) true SelNone (mk_cstate 0 [] empty_chunk) in
    let* ds1 := deactivate_all ds (Some tag) in
    let* out := match out_tags with
                | None => Ok tag
                | Some [t] => Ok t
                | Some l => match nth_error l k with Some t => Ok t | None => Err IndexError end
                end in
    let* outs := mapM collect_chunk (s_done st ++ [s_cur st]) in
    Ok (add_chunks out label outs ds1).

  Fixpoint collect_tags (out_tags : option (list string)) (label : string) (k : nat) (tags : list string)
      (ds : dspace cdata) : res (dspace cdata) :=
    match tags with
    | [] => Ok ds
    | t :: ts => let* ds' := collect_tag out_tags label k t ds in collect_tags out_tags label (S k) ts ds'
    end.

  (** Lines 21-115. *)
  Definition collect (use tag : option string) (label : string) (ds : dspace cdata) : res (dspace cdata) :=
    let out_tags := match tag with
                    | Some t => if String.eqb t "" then None else Some (split_on "," t)
                    | None => None
                    end in
    let* tags := tag_iterator ds use true in
    collect_tags out_tags label 0 tags ds.
End Collect.
