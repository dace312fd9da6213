(** * Reading numbers as decimal text *)
From Coq Require Import String Ascii List ZArith QArith Qabs Qpower Bool.
From Verif Require Import Prelude.
Import ListNotations.
Open Scope string_scope. Open Scope Z_scope.

Definition digit_value (c : ascii) : option Z :=
  let n := nat_of_ascii c in if ((48 <=? n) && (n <=? 57))%nat then Some (Z.of_nat n - 48) else None.

(** Reads the digits in front: their value continuing [acc], how many, and what follows. *)
Fixpoint read_digits (acc : Z) (s : string) : Z * nat * string :=
  match s with
  | "" => (acc, 0%nat, "")
  | String c s' =>
      match digit_value c with
      | Some d => let '(a, k, r) := read_digits (10 * acc + d) s' in (a, S k, r)
      | None => (acc, 0%nat, s)
      end
  end.

(** A number such as -1.25e-03 in front of a text: its exact value, and what follows. *)
Definition read_number (s : string) : option (Q * string) :=
  let (sign, s) := match s with String "-" s' => (-1, s') | _ => (1, s) end in
  let '(a, ka, s) := read_digits 0 s in
  match s with
  | String "." s =>
      let '(b, kb, s) := read_digits a s in
      match s with
      | String "e" (String c s) =>
          let '(x, kx, s) := read_digits 0 s in
          let x := if Ascii.eqb c "-" then - x else x in
          if ((0 <? ka) && (0 <? kx))%nat && (Ascii.eqb c "-" || Ascii.eqb c "+")
          then Some ((inject_Z (sign * b) * Qpower 10 (x - Z.of_nat kb))%Q, s)
          else None
      | _ => None
      end
  | _ => None
  end.

(** The numbers of a line: separated by a comma and a space, ended by a line feed. *)
Fixpoint read_line (fuel : nat) (s : string) : option (list Q) :=
  match fuel with
  | O => None
  | S f =>
      match read_number s with
      | Some (q, String c s') =>
          if Ascii.eqb c (ascii_of_nat 10) then (if String.eqb s' "" then Some [q] else None)
          else if Ascii.eqb c "," then
            match s' with
            | String " " s'' => match read_line f s'' with Some l => Some (q :: l) | None => None end
            | _ => None
            end
          else None
      | _ => None
      end
  end.

(** Texts a number cannot run on into: empty, or starting with something else than a digit. *)
Definition stops (s : string) : Prop := match s with "" => True | String c _ => digit_value c = None end.

(** Numbers of at most [n] decimal digits, and the nearest of them. *)
Definition decimal (n : nat) (d : Q) : Prop := exists m k, Z.abs m < 10 ^ Z.of_nat n /\ (d == inject_Z m * Qpower 10 k)%Q.
Definition nearest_decimal (n : nat) (q v : Q) : Prop :=
  decimal n v /\ forall d, decimal n d -> (Qabs (v - q) <= Qabs (d - q))%Q.

(** Texts of digits only. *)
Definition all_digits (s : string) : Prop := Forall (fun c => digit_value c <> None) (list_ascii_of_string s).
