(** Year totals of the two engines, for end uses that do not depend on the room. *)
From Coq Require Import Reals ZArith List.
From Verif Require Import Base Num Xr M_Params S_Schedule S_Results S_Physical S_Year S_Totals S_MonthlySound S_MonthlyBalance.
Open Scope R_scope.

(** The months of column [k] are numbers and add up to [x]. *)
Definition year_total (k : nat) (rows : list (list xr)) (x : R) : Prop :=
  exists v, length v = 12%nat /\ is_series k rows (map Fin v) /\ Rsum v = x.

(** Hours of the year that the hourly engine counts as occupied and the monthly engine does not. *)
Definition extra_hours (p : params_t R) (tt : timetable) : R :=
  IZR (occupied_year tt) - 8760 * occupied_share (pa_population p).
