(** C54 in double precision. *)
From Coq Require Import Reals List ZArith.
From Flocq Require Import Core.Core IEEE754.BinarySingleNaN.
From Verif Require Import Base Num Xr Dbl M_Weather S_Weather S_DoubleKey L_DoubleKey.

(** On pairs of doubles without NaN the order is strict, and two pairs are equivalent iff they are the same two numbers;
    the zeros of both signs are the same number. *)
Theorem C54_double_order : forall {L : libm},
  (forall k : double * double, latlon_lt k k = false) /\
  (forall a b c : double * double, double_key a -> double_key b -> double_key c -> latlon_lt a b = true -> latlon_lt b c = true -> latlon_lt a c = true) /\
  (forall a b : double * double, double_key a -> double_key b -> (latlon_lt a b = false /\ latlon_lt b a = false <-> same_place a b)).
Proof. exact @C54_double_l. Qed.
Print Assumptions C54_double_order.
(** A search finds an entry for the same place, and fails only if there is none. *)
Theorem C54_double_lookup : forall {L : libm} k (c : list ((double * double) * nat)), double_key k -> (forall k' p, In (k', p) c -> double_key k') ->
  match cache_find k c with
  | Some p => exists k', same_place k' k /\ In (k', p) c
  | None => forall k' p, In (k', p) c -> ~ same_place k' k
  end.
Proof. exact @C54_double_lookup_l. Qed.
Print Assumptions C54_double_lookup.
(** Chicago; the equator from either side. *)
Example C54_double_case : let k := (dlit 4198 100, dlit (-8792) 100) in let z := (B754_zero true, dlit 3 1) in let z' := (B754_zero false, dlit 3 1) in
  double_key k /\ double_key z /\ double_key z' /\ same_place z z' /\ z <> z'.
Proof. exact C54_double_case_l. Qed.
