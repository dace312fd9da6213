(** * What a part of a dataset is (independent of the code). *)
From Coq Require Import String Ascii List ZArith QArith Bool.
From Verif Require Import Prelude NdArray GData_Model Select_Model Select_Spec Gkyl_Spec.
Import ListNotations.
Open Scope string_scope. Open Scope list_scope. Open Scope nat_scope.

(** The argument asks for the cells [a .. b-1] out of [n], by number. *)
Inductive plain_cut (n : nat) : option ival -> nat -> nat -> Prop :=
| pc_none : 0 < n -> plain_cut n None 0 n
| pc_int k : k < n -> plain_cut n (Some (VInt (Z.of_nat k))) k (S k)
| pc_digits k : k < n -> plain_cut n (Some (VStr (show_N (N.of_nat k)))) k (S k)
| pc_range a b : a < b <= n ->
    plain_cut n (Some (VStr (show_N (N.of_nat a) ++ ":" ++ show_N (N.of_nat b))%string)) a b
| pc_from a : a < n -> plain_cut n (Some (VStr (show_N (N.of_nat a) ++ ":")%string)) a n
| pc_upto b : 0 < b <= n -> plain_cut n (Some (VStr (":" ++ show_N (N.of_nat b))%string)) 0 b
| pc_all : 0 < n -> plain_cut n (Some (VStr ":")) 0 n.

(** The same for components; a slice has its end written. *)
Inductive plain_comp (n : nat) : option ival -> nat -> nat -> Prop :=
| pk_none : 0 < n -> plain_comp n None 0 n
| pk_int k : k < n -> plain_comp n (Some (VInt (Z.of_nat k))) k (S k)
| pk_digits k : k < n -> plain_comp n (Some (VStr (show_N (N.of_nat k)))) k (S k)
| pk_range a b : a < b <= n ->
    plain_comp n (Some (VStr (show_N (N.of_nat a) ++ ":" ++ show_N (N.of_nat b))%string)) a b
| pk_upto b : 0 < b <= n -> plain_comp n (Some (VStr (":" ++ show_N (N.of_nat b))%string)) 0 b.

(** One cut per dimension. *)
Definition plain_cuts (cells : list nat) (zs : list (option ival)) (cuts : list (nat * nat)) : Prop :=
  length cuts = length cells /\
  forall k n a b, nth_error cells k = Some n -> nth_error cuts k = Some (a, b) ->
    plain_cut n (nth k zs None) a b.

(** [e] is the part of [d] made of the cells [cuts] and the components
    [ca .. cb-1]: the values are those of [d], every node is one of the nodes of
    [d], and the metadata say so. *)
Definition part_of (d : gdata Q) (cuts : list (nat * nat)) (ca cb : nat) (e : gdata Q) : Prop :=
  exists gs v gs' v' lo up,
    g_grid d = Some (List.map line gs) /\ g_vals d = Some v /\
    g_grid e = Some (List.map line gs') /\ g_vals e = Some v' /\
    c_cells e = Some (cut_cells cuts) /\ c_ncomps e = Some (cb - ca) /\
    c_lower e = Some lo /\ c_upper e = Some up /\
    wf v' /\ shape v' = cut_cells cuts ++ [cb - ca] /\
    (forall idx c, in_range (cut_cells cuts) idx -> c < cb - ca ->
       get v' (idx ++ [c]) = get v (map2 Nat.add (List.map fst cuts) idx ++ [ca + c])) /\
    length gs' = length cuts /\ length lo = length cuts /\ length up = length cuts /\
    forall k a b, nth_error cuts k = Some (a, b) ->
      exists g g' l u first last,
        nth_error gs k = Some g /\ nth_error gs' k = Some g' /\
        nth_error lo k = Some l /\ nth_error up k = Some u /\
        length g' = S (b - a) /\ (forall i, i <= b - a -> same_node g' g a i) /\
        nth_error g a = Some first /\ (l == first)%Q /\ nth_error g b = Some last /\ (u == last)%Q.

(** The same dataset (coordinates up to the form of the fractions). *)
Definition alike (d e : gdata Q) : Prop :=
  g_vals d = g_vals e /\ c_cells d = c_cells e /\ c_ncomps d = c_ncomps e /\
  (exists gd ge, g_grid d = Some (List.map line gd) /\ g_grid e = Some (List.map line ge) /\
                 Forall2 (Forall2 Qeq) gd ge) /\
  (exists l m, c_lower d = Some l /\ c_lower e = Some m /\ Forall2 Qeq l m) /\
  (exists l m, c_upper d = Some l /\ c_upper e = Some m /\ Forall2 Qeq l m).
