(** * [pgkyl FILES interpolate integrate AXES collect plot]

    The pieces are those of [Show_Model] (reading and interpolating),
    [Calc_Model] (tools/calculus.py) and [Draw_Model] (output/plot.py); here is
    commands/collect.py on the result, over the reals: one tag, no chunks, no
    period, no sum. *)
From Coq Require Import String Ascii List Arith ZArith Bool Lia Reals.
From Verif Require Import Prelude NdArray Gkyl_Model Msgpack_Model Dg_Sem Dg_Model DgCmd_Model Dg_Props5 Tools_Arr Calc_Model Draw_Model Show_Model.
Import ListNotations.
Open Scope string_scope. Open Scope list_scope. Open Scope nat_scope.

Section Trace.
  Context (dec : nat -> list Z -> R) (root : nat -> nat -> nat) (stored : nat -> nat -> res (list (list R)))
          (word : list Z -> R)               (* value of a float in the metadata, from its bytes *)
          (argsort : list R -> list nat).    (* np.argsort: not a stable sort *)

  (** data/gdata.py 80-138: a file just opened, with its metadata. *)
  Definition open_meta (f : list Z) : res (loaded (F := R) (M := mval)) :=
    if is_compatible f then load (rnum dec) unpack (MBool true) f None [] else Err NameError.

  (** commands/collect.py 51, 53: the number in an entry of the metadata that
      counts as true, or nothing if it counts as false.  Entries that are neither
      numbers nor false cannot be sorted with numbers (line 99); an error here. *)
  Definition nonzero (r : R) : option R := if Req_EM_T r 0 then None else Some r.
  Definition truthy (v : mval) : res (option R) :=
    match v with
    | MNil => Ok None
    | MBool b => Ok (if b then Some 1%R else None)
    | MInt z => Ok (nonzero (IZR z))
    | MF32 w | MF64 w => Ok (nonzero (word w))
    | MStr s | MBin s => if String.eqb s "" then Ok None else Err TypeError
    | MArr l => match l with [] => Ok None | _ => Err TypeError end
    | MMap l => match l with [] => Ok None | _ => Err TypeError end
    | MExt _ _ => Err TypeError
    end.

  (** commands/collect.py 51-57; [i] is the position of the dataset under its tag. *)
  Definition stamp (i : nat) (ctx : list (string * mval)) : res R :=
    match aget "time" ctx with
    | None => Err KeyError
    | Some v =>
        let* a := truthy v in
        match a with
        | Some r => Ok r
        | None =>
            match aget "frame" ctx with
            | None => Err KeyError
            | Some v =>
                let* b := truthy v in
                match b with Some r => Ok r | None => Ok (INR i) end
            end
        end
    end.

  (** commands/collect.py 93: [np.array] of a list of arrays. *)
  Definition stack (l : list (nda R)) : res (nda R) :=
    match l with
    | [] => Ok (mk_nda [0] [])
    | a :: _ => if forallb (fun b => if list_eq_dec Nat.eq_dec (shape b) (shape a) then true else false) l
                then Ok (tabulate (length l :: shape a) (fun idx => val (nth (hd 0 idx) l a) (tl idx)))
                else Err ValueError
    end.

  (** commands/collect.py 100-101: [a[sort_idx]] along the first axis. *)
  Definition pick (l : list R) (order : list nat) : list R := List.map (fun k => nth k l 0%R) order.
  Definition pick_rows (a : nda R) (order : list nat) : nda R :=
    tabulate (length order :: tl (shape a)) (fun idx => val a (nth (hd 0 idx) order 0 :: tl idx)).

  (** commands/collect.py 66-68, 91-110: the stamps, and the datasets in order. *)
  Definition collect_stamped (ts : list R) (data : list (list (list R) * nda R)) : res (list (list R) * nda R) :=
    let grid := hd [] (filter (fun g : list (list R) => negb (length g =? 0)) (List.map (fun z : list (list R) * nda R => fst z) data)) in
    let* v := stack (List.map (fun z : list (list R) * nda R => snd z) data) in
    let order := argsort ts in
    Ok (pick ts order :: grid, pick_rows v order).

  (** The files are opened; each dataset is interpolated (commands/interpolate.py
      49-76), then each is integrated (commands/integrate.py 20-30; [text] is the
      argument AXIS), then all are collected (commands/collect.py 43-112). *)
  Definition trace (fs : list (list Z)) (io : dgopts) (text : string) : res (list (list R) * nda R) :=
    let* gs := mapM open_meta fs in
    let* ys := mapM (fun g => interpolate_data rops rdot evalR root stored io (file_data g)) gs in
    let* zs := mapM (fun y => integrate (dd_dims (i_data y)) (AxStr text)
                        (List.map (fun a => flat a) (dd_grid (i_data y)), dd_values (i_data y))) ys in
    let* ts := mapM (fun p : nat * loaded (F := R) (M := mval) => stamp (fst p) (l_ctx (snd p))) (combine (seq 0 (length gs)) gs) in
    collect_stamped ts zs.

  (** Then output/plot.py 138-481. *)
  Definition trace_plot (fs : list (list Z)) (io : dgopts) (text : string) (o : dopts) : res (list (list call) * list nat) :=
    let* r := trace fs io text in
    plot_data o (mk_pd (List.map line_nda (fst r)) (removelast (shape (snd r))) (snd r)).
End Trace.
