(** * Selecting by coordinate from a file of doubles

    [Gkyl_Model.load], [Pipe_Model.of_loaded] and [Select_Model.select] put together, with
    the nodes of the grid rounded to doubles ([FloatQ_Model.qfl]). *)
From Coq Require Import String List ZArith QArith Bool.
From Verif Require Import Prelude NdArray GData_Model Select_Model Gkyl_Model Pipe_Model FloatQ_Model.
Import ListNotations.
Open Scope list_scope.

(** The arithmetic of the double arrays in data/gkyl_reader.py 284-288, 541-552, on rational numbers. *)
Definition qdnum (dec : nat -> list Z -> Q) : fops Q :=
  mk_fops Q dec 0%Q (fun x y => qfl (x + y))%Q (fun x y => qfl (x - y))%Q (fun x y => qfl (x * y))%Q (fun x y => qfl (x / y))%Q (fun z => qfl (inject_Z z)).

Section Select.
  Context {M : Type} (dec : nat -> list Z -> Q) (unpack : list Z -> option (option (list (string * M)))) (mtrue : M) (pfloat : string -> option Q).

  (** data/gdata.py 80-138 for a file with the bytes [f] and no cuts. *)
  Definition open_doubles (f : list Z) (ctx : list (string * M)) : res (gdata Q) :=
    if is_compatible f then
      let* g := load (qdnum dec) unpack mtrue f None ctx in
      Ok (of_loaded g)
    else Err NameError.

  (** data/select.py 13-99: the file, then [select(data, zk=z)]. *)
  Definition select_at (f : list Z) (ctx : list (string * M)) (k : nat) (z : ival) : res (list garr * nda Q) :=
    let* d := open_doubles f ctx in
    let* (r, _) := select pfloat d (repeat None k ++ [Some z]) None false in
    Ok r.
End Select.
