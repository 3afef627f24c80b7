(** Specification of a 365-day calendar, independent of the model. *)
From Coq Require Import ZArith List Bool.
Import ListNotations.
Open Scope Z_scope.

(** Days in January .. December of a non-leap year. *)
Definition days_in_month : list Z := [31; 28; 31; 30; 31; 30; 31; 31; 30; 31; 30; 31].

(** Days of the year before month [m] (1 = January): the sum of the months before it. *)
Definition days_before (m : Z) : Z :=
  fold_right Z.add 0 (firstn (Z.to_nat (m - 1)) days_in_month).

(** Day [day] (0..364) of the year is day [dom] (1-based) of month [m]. *)
Definition calendar_day (day m dom : Z) : Prop :=
  1 <= m <= 12 /\ days_before m <= day < days_before (m + 1) /\ dom = day - days_before m + 1.

(** Hour [i] (0..8759) of the year lies in month [m]. *)
Definition hour_in_month (m i : Z) : bool :=
  (24 * days_before m <=? i) && (i <? 24 * days_before (m + 1)).

(** The entries of an hourly series that lie in month [m], in time order. *)
Definition month_part {A} (m : Z) (l : list A) : list A :=
  map snd (filter (fun p => hour_in_month m (Z.of_nat (fst p))) (combine (seq 0 (length l)) l)).
