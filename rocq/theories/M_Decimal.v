(** Numbers as text: std::to_string(double), used by Properties.cpp 157-162. *)
From Coq Require Import Ascii String ZArith List.
From Flocq Require Import IEEE754.BinarySingleNaN.
From Verif Require Import Base Text Xr Dbl.
Import ListNotations.
Open Scope list_scope.
Open Scope Z_scope.

(** The digit [d], Properties.cpp 160 (std::to_string). *)
Definition digitChar (d : Z) : ascii := ascii_of_N (Z.to_N (48 + d)).

(** The decimal digits of [n] (at most [fuel] + 1 of them), Properties.cpp 160 (std::to_string). *)
Fixpoint digitsOf (fuel : nat) (n : Z) : text :=
  match fuel with
  | O => [digitChar n]
  | S f => if n <? 10 then [digitChar n] else digitsOf f (n / 10) ++ [digitChar (n mod 10)]
  end.

(** m * 2^e in millionths, to nearest, ties to even: what printf "%f" keeps in the default
    rounding mode of the C library.  Properties.cpp 160 (std::to_string). *)
Definition millionths (m : positive) (e : Z) : Z :=
  let n := Zpos m * 1000000 in
  if 0 <=? e then n * 2 ^ e
  else
    let d := 2 ^ (- e) in
    let q := n / d in
    let r := n mod d in
    match 2 * r ?= d with
    | Lt => q
    | Gt => q + 1
    | Eq => if Z.even q then q else q + 1
    end.

(** Six digits after the point, Properties.cpp 160 (std::to_string). *)
Definition sixDigits (n : Z) : text :=
  [digitChar (n / 100000 mod 10); digitChar (n / 10000 mod 10); digitChar (n / 1000 mod 10);
   digitChar (n / 100 mod 10); digitChar (n / 10 mod 10); digitChar (n mod 10)].

(** std::to_string(double), which is printf "%f"; Properties.cpp 160.  The sign that some
    libraries print before nan is left out. *)
Definition toString (x : double) : text :=
  match x with
  | B754_zero s => (if s then tx "-" else []) ++ tx "0.000000"
  | B754_infinity s => (if s then tx "-" else []) ++ tx "inf"
  | B754_nan => tx "nan"
  | B754_finite s m e _ =>
      let n := millionths m e in
      (if s then tx "-" else []) ++ digitsOf (S (Z.to_nat (Z.log2 n))) (n / 1000000) ++ tx "." ++ sixDigits (n mod 1000000)
  end.
