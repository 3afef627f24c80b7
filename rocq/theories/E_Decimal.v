(** A number syntax for the concrete cases: the longest prefix of the form
    blanks, optional sign, digits, optionally a point and digits.  It agrees with std::stod,
    std::stoi and atof on such texts; exponents, hexadecimal, inf, nan and overflow are left out.
    Theorems do not use it: they hold for every [reader]. *)
From Coq Require Import Ascii String ZArith.
From Verif Require Import Base Num Text M_Text M_Properties.
Open Scope list_scope.
Open Scope Z_scope.

Definition digit (c : ascii) : option Z :=
  let n := Z.of_N (N_of_ascii c) in if ((48 <=? n) && (n <=? 57))%bool then Some (n - 48) else None.
Fixpoint skip_blanks (s : text) : text :=
  match s with c :: t => if in_set [blank; tab] c then skip_blanks t else s | [] => [] end.
(** Digits read so far, how many, and the rest. *)
Fixpoint digits (s : text) (acc : Z) (n : nat) : Z * nat * text :=
  match s with
  | c :: t => match digit c with Some d => digits t (acc * 10 + d) (S n) | None => (acc, n, s) end
  | [] => (acc, n, [])
  end.
(** m / 10^k with trailing zeros removed. *)
Fixpoint strip (m : Z) (k : nat) : Z * nat :=
  match k with
  | O => (m, O)
  | S k' => if (m mod 10 =? 0) then strip (m / 10) k' else (m, k)
  end.
Definition sign (s : text) : bool * text :=
  match s with
  | "-"%char :: t => (true, t)
  | "+"%char :: t => (false, t)
  | _ => (false, s)
  end.
Definition decimal {T} {N : Num T} (s : text) : parsed T :=
  let (neg, s1) := sign (skip_blanks s) in
  let '(m, n, s2) := digits s1 0 0 in
  let '(m2, k, ok) := match s2 with
    | "."%char :: t => let '(m', k, _) := digits t m 0 in (m', k, negb (Nat.eqb (n + k) 0))
    | _ => (m, O, negb (Nat.eqb n 0)) end in
  if ok then
    let (m3, k3) := strip m2 k in
    let x := lit m3 (Z.to_pos (10 ^ Z.of_nat k3)) in Value (if neg then nopp x else x)
  else NoConversion.
Definition integer (s : text) : parsed Z :=
  let (neg, s1) := sign (skip_blanks s) in
  let '(m, n, _) := digits s1 0 0 in
  if Nat.eqb n 0 then NoConversion else Value (if neg then - m else m).
Definition decimal_reader {T} {N : Num T} : reader T :=
  mkReader decimal integer (fun s => match decimal s with Value x => x | _ => zn 0 end).
