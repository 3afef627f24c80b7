(** Adding up a table of results in double arithmetic. *)
From Coq Require Import Reals ZArith List.
From Flocq Require Import Core.Core IEEE754.BinarySingleNaN.
From Verif Require Import Base Num Dbl.
Import ListNotations.
Open Scope R_scope.

(** The exact sum of all numbers of a table, and of their sizes. *)
Definition table_sum (rows : list (list double)) : R := fold_right Rplus 0 (map B2R (concat rows)).
Definition table_size (rows : list (list double)) : R := fold_right Rplus 0 (map (fun x => Rabs (B2R x)) (concat rows)).
(** At most a year of time steps of thirteen finite numbers, together below 10^300. *)
Record summable (rows : list (list double)) : Prop := {
  su_steps : (Z.of_nat (length rows) <= 8760)%Z;
  su_row : Forall (fun row => length row = 13%nat) rows;
  su_finite : Forall (fun x => is_finite x = true) (concat rows);
  su_size : table_size rows <= IZR (10 ^ 300) }.
(** The number is finite and right to ten digits of the sum of the sizes. *)
Definition right_to_10 (x : double) (rows : list (list double)) : Prop :=
  is_finite x = true /\ Rabs (B2R x - table_sum rows) <= table_size rows / 10000000000.
