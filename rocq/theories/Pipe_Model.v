(** * From a [.gkyl] file to a dataset and back: [GData.__init__] with the
    Gkeyll reader (data/gdata.py 80-138, data/gkyl_reader.py 136-150 and
    461-473) and [GData.write] with the extension "gkyl" (data/gdata.py 507-518
    and 549-580).

    The reader and the bytes written are those of [Gkyl_Model]; the dataset is
    that of [GData_Model]: coordinates and values are exact rationals here, and
    [dec] and [enc] turn the stored bytes into numbers and back. *)
From Coq Require Import String Ascii List ZArith QArith Bool.
From Verif Require Import Prelude NdArray GData_Model Select_Model Gkyl_Model.
Import ListNotations.
Open Scope string_scope. Open Scope list_scope.

(** The numbers of [Gkyl_Model] are rationals. For the readers of data/gkyl_reader.py 225-228, 324. *)
Definition qnum (dec : nat -> list Z -> Q) : fops Q :=
  mk_fops Q dec 0%Q Qplus Qminus Qmult Qdiv inject_Z.

Section Open.
  Context {M : Type} (dec : nat -> list Z -> Q)
          (unpack : list Z -> option (option (list (string * M)))) (mtrue : M).
  (** [str(x)] of a float. *)
  Context (qstr : Q -> string).

  (** gkyl_reader.py 136-150: [str(ax)], and "" for an axis that is not given. *)
  Definition cut_text (z : option ival) : string :=
    match z with
    | None => ""
    | Some (VInt k) => show_Z k
    | Some (VFloat x) => qstr x
    | Some (VStr s) => s
    end.
  Definition given (z : option ival) : bool := match z with None => false | Some _ => true end.
  Definition partial_idxs (zs : list (option ival)) (comp : option ival) : option (list string) :=
    if existsb given (comp :: firstn 6 zs)
    then Some (List.map (fun k => cut_text (nth k zs None)) (seq 0 6) ++ [cut_text comp])
    else None.

  (** gkyl_reader.py 461-473 and gdata.py 134-137: the attributes of the dataset
      after loading.  The arrays stored under "cells", "lower", "upper" are the
      reader's own, so the ghost-cell adjustment of [load] shows in them.  A
      time trace (recognised here by its missing bounds) stores none of the
      four keys. *)
  Definition arr1 (l : list Q) : garr := mk_nda [length l] l.
  Definition of_loaded (g : loaded (F := Q) (M := M)) : gdata Q :=
    let trace := match l_lower g, l_cells g with [], _ :: _ => true | _, _ => false end in
    let opt {B} (b : B) := if trace then None else Some b in
    mk_gdata (Some (List.map arr1 (l_grid g))) (Some (l_data g))
             (opt (List.map Z.to_nat (l_cells g))) (opt (Z.to_nat (l_nc g)))
             (opt (l_lower g)) (opt (l_upper g)).

  (** [GData(file, z0=..., ..., comp=..., reader_name="gkyl")], gdata.py 80-138,
      with [load=True] and no mapping files; [f] are the bytes of the file. *)
  Definition open_gdata (f : list Z) (zs : list (option ival)) (comp : option ival)
      (ctx : list (string * M)) : res (gdata Q) :=
    if is_compatible f then
      let* g := load (qnum dec) unpack mtrue f (partial_idxs zs comp) ctx in
      Ok (of_loaded g)
    else Err NameError.

  (** [GData.write(extension="gkyl")]: the bytes of the file.
      [np.array(None, dtype=f8)] is a NaN; a dataset without bounds is not
      modelled further ([TypeError] stands for it). *)
  Definition write_gdata (enc : Q -> list Z) (d : gdata Q) : res (list Z) :=
    let* nc := get_num_comps d in
    let* b := get_bounds d in
    match get_num_cells d, b, g_vals d with
    | Some cells, Some (lo, up), Some v =>
        Ok (write_gkyl enc (List.map Z.of_nat cells) lo up (Z.of_nat nc) v)
    | _, _, _ => Err TypeError
    end.
End Open.
