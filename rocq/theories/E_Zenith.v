(** Example data for C122 and C123: a loaded weather file at the site of C121. *)
From Coq Require Import ZArith List.
From Flocq Require Import IEEE754.BinarySingleNaN.
From Verif Require Import Base Num Dbl M_Epw E_Sun.
Import ListNotations.

Definition zenith_epw : epw double := mkEpw [] [] (Some (latitude_deg, longitude_deg, 0%Z)) sunny_year.
(** A number format that keeps only whether there is a number: the printed text of every number reads back as 100. *)
Definition coarse (x : double) : double := if is_nan x then B754_nan else z2d 100.
