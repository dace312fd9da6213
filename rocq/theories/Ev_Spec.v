(** * Specification of reverse Polish evaluation, written independently of the
    stack machine of [Ev_Model]. *)
From Coq Require Import String Ascii List Arith ZArith QArith Qabs Bool.
From Verif Require Import Prelude NdArray.
Import ListNotations.
Open Scope list_scope.

(** Expressions: a leaf is a token (dataset or constant), a node applies an
    operator to its operands in written order. *)
Inductive expr := Leaf (s : string) | Node (op : string) (args : list expr).

(** Reverse Polish notation. *)
Fixpoint postfix (e : expr) : list string :=
  match e with
  | Leaf s => [s]
  | Node op args => flat_map postfix args ++ [op]
  end.

Fixpoint leaves (e : expr) : list string :=
  match e with
  | Leaf s => [s]
  | Node _ args => flat_map leaves args
  end.

(** [e] is what the group [g] provides for the [i]-th result: its [i]-th
    element, or its last one if it is too short. *)
Definition uses {E} (i : nat) (g : list E) (e : E) : Prop :=
  nth_error g i = Some e \/ ((length g <= i)%nat /\ exists g', g = g' ++ [e]).

(** [n] is the size of the largest of the groups. *)
Definition largest_size {E} (gs : list (list E)) (n : nat) : Prop :=
  Forall (fun g => (length g <= n)%nat) gs /\ Exists (fun g => length g = n) gs.

(** ** Ordinary arithmetic *)
Inductive aexp :=
| Tok (s : string)
| Add (a b : aexp) | Sub (a b : aexp) | Mul (a b : aexp) | Div (a b : aexp)
| Pow (a b : aexp) | Max2 (a b : aexp) | Min2 (a b : aexp)
| Abs (a : aexp) | Sq (a : aexp)
| Fun (f : string) (a : aexp).

Definition named_funs : list string := ["sqrt"; "sin"; "cos"; "tan"; "log"; "log10"; "exp"]%string.

Fixpoint to_expr (e : aexp) : expr :=
  match e with
  | Tok s => Leaf s
  | Add a b => Node "+" [to_expr a; to_expr b]
  | Sub a b => Node "-" [to_expr a; to_expr b]
  | Mul a b => Node "*" [to_expr a; to_expr b]
  | Div a b => Node "/" [to_expr a; to_expr b]
  | Pow a b => Node "pow" [to_expr a; to_expr b]
  | Max2 a b => Node "max2" [to_expr a; to_expr b]
  | Min2 a b => Node "min2" [to_expr a; to_expr b]
  | Abs a => Node "abs" [to_expr a]
  | Sq a => Node "sq" [to_expr a]
  | Fun f a => Node f [to_expr a]
  end.

Fixpoint good_funs (e : aexp) : Prop :=
  match e with
  | Tok _ => True
  | Add a b | Sub a b | Mul a b | Div a b | Pow a b | Max2 a b | Min2 a b => good_funs a /\ good_funs b
  | Abs a | Sq a => good_funs a
  | Fun f a => In f named_funs /\ good_funs a
  end.

(** The value of an expression, given the values of its leaves. *)
Fixpoint value (ufun : string -> Q -> Q) (qpow : Q -> Q -> Q) (leaf : string -> Q) (e : aexp) : Q :=
  let v := value ufun qpow leaf in
  match e with
  | Tok s => leaf s
  | Add a b => (v a + v b)%Q
  | Sub a b => (v a - v b)%Q
  | Mul a b => (v a * v b)%Q
  | Div a b => (v a / v b)%Q
  | Pow a b => qpow (v a) (v b)
  | Max2 a b => let x := v a in let y := v b in if Qle_bool y x then x else y
  | Min2 a b => let x := v a in let y := v b in if Qle_bool y x then y else x
  | Abs a => Qabs (v a)
  | Sq a => (v a * v a)%Q
  | Fun f a => ufun f (v a)
  end.

(** The element a leaf array provides for the cell [idx] of the result: a
    number is the same for every cell. *)
Definition cell (a : nda Q) (idx : list nat) : Q :=
  match get a (match shape a with [] => [] | _ => idx end) with Some v => v | None => 0%Q end.

(** The [i]-th array of a leaf with several datasets, its last one if there
    are fewer. *)
Definition ith (l : list (nda Q)) (i : nat) : nda Q := nth i l (last l (mk_nda [] [])).
