(** * Specification vocabulary for DG interpolation (independent of the model). *)
From Coq Require Import String List Arith ZArith QArith Bool Lia.
From Verif Require Import Prelude NdArray.
Import ListNotations.
Open Scope string_scope.
Open Scope list_scope.
Open Scope nat_scope.

(** Number of the sub-point [ks] among [ns], first coordinate fastest. *)
Fixpoint fpos (ns ks : list nat) : nat :=
  match ns, ks with
  | n :: ns', k :: ks' => k + n * fpos ns' ks'
  | _, _ => 0
  end.

(** The direction carrying one extra point: the parallel velocity of the
    gyrokinetic hybrid basis, the last direction of the PKPM hybrid basis. *)
Definition extra_dir (nd : nat) (basis : string) : option nat :=
  if String.eqb basis "gkhybrid" then
    match nd with 2 | 3 => Some 1 | 4 => Some 2 | 5 => Some 3 | _ => None end
  else if String.eqb basis "hybrid" then Some (nd - 1)
  else None.

Definition refine (nd n : nat) (basis : string) : list nat :=
  List.map (fun d => match extra_dir nd basis with
                     | Some e => if Nat.eqb d e then S n else n
                     | None => n
                     end) (seq 0 nd).

(** A basis for which the number of dimensions makes sense. *)
Definition dims_ok (nd : nat) (basis : string) : Prop :=
  1 <= nd /\ (basis = "gkhybrid" -> 2 <= nd <= 5).

(** Sub-point [k] of cell [i], with [n] points per cell: position in the refined array. *)
Definition sub_index (ns i k : list nat) : list nat :=
  List.map (fun p => fst (fst p) * snd (fst p) + snd p) (combine (combine i ns) k).

Definition refined_shape (cells ns : list nat) : list nat :=
  List.map (fun p => fst p * snd p) (combine cells ns).

(** ** Polynomial spaces, as sets of exponents *)

Definition total_degree (a : list nat) : nat := fold_right Nat.add 0 a.
(** Degree counting only the variables that appear with exponent two or more
    (Arnold and Awanou's superlinear degree). *)
Definition superlinear_degree (a : list nat) : nat :=
  fold_right (fun e s => (if 2 <=? e then e else 0) + s) 0 a.

Definition in_maximal (p : nat) (a : list nat) : bool := total_degree a <=? p.
Definition in_tensor (p : nat) (a : list nat) : bool := forallb (fun e => e <=? p) a.
Definition in_serendipity (p : nat) (a : list nat) : bool :=
  if Nat.eqb p 0 then forallb (Nat.eqb 0) a else superlinear_degree a <=? p.

(** Exponents at most 1, at most 2 in the special direction. *)
Definition in_hybrid (e : nat) (a : list nat) : bool :=
  forallb (fun p => snd p <=? (if Nat.eqb (fst p) e then 2 else 1)) (combine (seq 0 (length a)) a).

(** Number of exponent vectors of length [d], entries at most [m], in a set. *)
Definition count_exponents (d m : nat) (P : list nat -> bool) : nat :=
  length (filter P (indices (repeat (S m) d))).

(** ** Grids *)
Open Scope nat_scope.

(** [g] splits every cell of the nodes [xc] in [n] equal parts. *)
Definition splits (n : nat) (xc g : list Q) : Prop :=
  length g = n * (length xc - 1) + 1 /\
  forall i j, S i < length xc -> j <= n ->
    exists a b y, nth_error xc i = Some a /\ nth_error xc (S i) = Some b /\
      nth_error g (i * n + j) = Some y /\
      (y == a + (inject_Z (Z.of_nat j) / inject_Z (Z.of_nat n)) * (b - a))%Q.

(** Equally spaced nodes. *)
Definition equispaced (xc : list Q) : Prop :=
  exists x0 h, forall i x, nth_error xc i = Some x -> (x == x0 + inject_Z (Z.of_nat i) * h)%Q.
