(** What an occupancy schedule means, independent of both engines. *)
From Coq Require Import Reals ZArith List Bool.
From Verif Require Import M_Params S_Calendar.
Import ListNotations.

(** The schedule fields of a building, as whole numbers of hours and days. *)
Definition whole_schedule (po : population_t R) (hs he ds de : Z) : Prop :=
  po_hoursStart po = IZR hs /\ po_hoursEnd po = IZR he /\ po_daysStart po = IZR ds /\ po_daysEnd po = IZR de.

(** The schedule values a building file is meant to hold. *)
Definition clock_schedule (hs he ds de : Z) : Prop := (0 <= hs <= 23 /\ 0 <= he <= 23 /\ 0 <= ds <= 6 /\ 0 <= de <= 6)%Z.

(** [d] consecutive days starting on weekday [s] end on this weekday. *)
Definition last_day (s d : Z) : Z := ((s + d - 1) mod 7)%Z.

(** Clock hour [h] (from h:00 to h+1:00) belongs to an opening time from [s] to [e] that does not pass midnight. *)
Definition open_at (s e h : Z) : bool := ((s <=? h)%Z && (h <? e)%Z)%bool.

(** Length of month [m] (0 = January) in millions of seconds. *)
Definition month_megaseconds (m : nat) : R := (IZR (nth m days_in_month 0%Z) * 86400 / 1000000)%R.
