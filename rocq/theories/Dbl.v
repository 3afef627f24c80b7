(** Number instance: IEEE 754 double precision with rounding to nearest even, signed
    zeros, infinities and one NaN, from Flocq.  The functions of the mathematical
    library ([libm]) are arbitrary: theorems about doubles hold whatever they return. *)
From Coq Require Import ZArith Bool.
From Flocq Require Import Core.Core IEEE754.BinarySingleNaN.
From Verif Require Import Base Num Xr.

#[global] Instance prec53 : Prec_gt_0 53 := eq_refl.
#[global] Instance emax1024 : Prec_lt_emax 53 1024 := eq_refl.
Notation double := (binary_float 53 1024).

Class libm : Type := {
  lm_pow : double -> double -> double; lm_exp : double -> double; lm_sin : double -> double; lm_cos : double -> double;
  lm_asin : double -> double; lm_acos : double -> double; lm_atan2 : double -> double -> double }.

(** An integer as a double: exact below 2^53. *)
Definition z2d (z : Z) : double := binary_normalize 53 1024 _ _ mode_NE z 0 false.
(** A decimal literal: numerator and denominator of all literals in the source are
    below 2^53, so one rounded division gives the double nearest to n/d. *)
Definition dlit (n : Z) (d : positive) : double :=
  match d with xH => z2d n | _ => Bdiv mode_NE (z2d n) (z2d (Zpos d)) end.
(** (int) x: undefined for NaN, infinities and values that do not fit. *)
Definition dtoint (x : double) : option Z :=
  match x with
  | B754_zero _ => Some 0%Z
  | B754_finite _ _ _ _ => let z := Btrunc x in if (Z.leb int_min z && Z.leb z int_max)%bool then Some z else None
  | _ => None
  end.

(** No contraction of a * b + c into one rounding is assumed (the build of the
    repository sets no such flag; on x86-64 compilers do not do it by default). *)
#[global] Instance dbl_num (L : libm) : Num double := {|
  lit := dlit;
  nadd := Bplus mode_NE; nsub := Bminus mode_NE; nmul := Bmult mode_NE; ndiv := Bdiv mode_NE; nopp := Bopp; nabs := Babs;
  nlt := Bltb; neqb := Beqb; npow := lm_pow; nexp := lm_exp; nsin := lm_sin; ncos := lm_cos;
  nasin := lm_asin; nacos := lm_acos; natan2 := lm_atan2; ntrunc := dtoint;
  ndblmin := binary_normalize 53 1024 _ _ mode_NE 1 (-1022) false; ndblmax := Bmax_float |}.
