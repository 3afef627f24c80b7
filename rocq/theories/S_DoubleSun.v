(** Specification for C121: what a mathematical library is required to return, and the sites. *)
From Coq Require Import Reals ZArith.
From Flocq Require Import Core.Core IEEE754.BinarySingleNaN.
From Verif Require Import Dbl L_Dbl.
Open Scope R_scope.

(** [z] is the double nearest to [r]. *)
Definition nearest (r : R) (z : double) : Prop := is_finite z = true /\ B2R z = rnd r.
(** sin and cos return the double nearest to the exact value, asin returns NaN outside [-1, 1] as the
    C standard asks, and the functions return NaN for NaN. *)
Record exact_libm (L : libm) : Prop := {
  el_sin : forall x, is_finite x = true -> nearest (sin (B2R x)) (lm_sin x);
  el_cos : forall x, is_finite x = true -> nearest (cos (B2R x)) (lm_cos x);
  el_asin_out : forall x, is_finite x = true -> 1 < Rabs (B2R x) -> lm_asin x = B754_nan;
  el_nan : lm_sin B754_nan = B754_nan /\ lm_cos B754_nan = B754_nan /\ lm_acos B754_nan = B754_nan }.

(** The double [z] is finite and within [eps] of [r]. *)
Definition within (eps r : R) (z : double) : Prop := is_finite z = true /\ Rabs (B2R z - r) <= eps.
(** A library that is right to thirteen decimals, and returns no sine or cosine beyond one. *)
Record good_libm (L : libm) : Prop := {
  gl_sin : forall x, is_finite x = true -> within (1 / 10 ^ 13) (sin (B2R x)) (lm_sin x) /\ Rabs (B2R (lm_sin x)) <= 1;
  gl_cos : forall x, is_finite x = true -> within (1 / 10 ^ 13) (cos (B2R x)) (lm_cos x) /\ Rabs (B2R (lm_cos x)) <= 1;
  gl_asin : forall x, is_finite x = true -> Rabs (B2R x) <= 1 -> within (1 / 10 ^ 13) (asin (B2R x)) (lm_asin x);
  gl_acos : forall x, is_finite x = true -> Rabs (B2R x) <= 1 -> within (1 / 10 ^ 13) (acos (B2R x)) (lm_acos x);
  gl_atan2 : forall x y, is_finite x = true -> is_finite y = true -> is_finite (lm_atan2 x y) = true /\ Rabs (B2R (lm_atan2 x y)) <= 10;
  gl_pow : forall x, is_finite x = true -> Rabs (B2R x) <= 1 -> within (1 / 10 ^ 13) (B2R x * B2R x) (lm_pow x (z2d 2)) }.

(** A double of moderate size. *)
Definition bounded (b : R) (z : double) : Prop := is_finite z = true /\ Rabs (B2R z) <= b.
