(** C01, C02: the calendar and monthly aggregation. *)
From Coq Require Import ZArith List Lia Reals.
From Verif Require Import Base Num Xr M_TimeFrame M_Params M_Hourly S_Calendar S_Results E_SmallOffice
  L_Calendar L_HourlyOut L_Office.
Import ListNotations.

(** Construction succeeds (every array write is in range) and hour [i] is described by
    the 365-day calendar.  Index arithmetic only: holds for the C++ ints as they are. *)
Theorem C01_calendar : exists a, timeFrame = Ok a /\ Z.of_nat (length a) = 8760%Z /\
  forall i, (0 <= i < 8760)%Z -> exists c, nth_error a (Z.to_nat i) = Some (Some c) /\
    tc_hour c = (i mod 24)%Z /\ tc_ytd c = (i / 24)%Z /\ tc_dow c = ((i / 24) mod 7)%Z /\
    calendar_day (i / 24) (tc_month c) (tc_dom c).
Proof. exact timeFrame_spec. Qed.
Print Assumptions C01_calendar.
(** Concrete case: hour 1416 is midnight on 1 March, a Wednesday-numbered day (59 mod 7 = 3). *)
Example C01_case : calendar_day (1416 / 24) 3 1 /\ (1416 mod 24 = 0)%Z.
Proof. vm_compute. repeat split; discriminate. Qed.

(** For every number type, every building, weather and end use [k]: the hourly table exists,
    its series [v] of that end use is the concatenation of its twelve calendar-month parts,
    and the monthly table's series is the list of their sums in time order. *)
Theorem C02_monthly_aggregation :
  forall (T : Type) (N : Num T) (p : params_t T) (ws : list (weather T)) r0 mrows r,
  simulate p ws r0 true = Ok (mrows, r) ->
  exists hrows, simulate p ws r0 false = Ok (hrows, r) /\
    forall k, (k < 13)%nat -> exists v, is_series k hrows v /\ length v = Z.to_nat 8760 /\
      concat (map (fun m => month_part m v) (zrange 1 12)) = v /\
      is_series k mrows (map (fun m => accumulate (month_part m v)) (zrange 1 12)).
Proof. exact @monthly_from_hourly. Qed.
Print Assumptions C02_monthly_aggregation.

(** In exact arithmetic the annual totals of both tables agree for every end use. *)
Theorem C02_annual_totals : forall (p : params_t xr) ws r0 mrows r hrows r',
  simulate p ws r0 true = Ok (mrows, r) -> simulate p ws r0 false = Ok (hrows, r') ->
  forall k vm vh, is_series k mrows vm -> is_series k hrows vh -> accumulate vm = accumulate vh.
Proof. exact annual_totals. Qed.
Print Assumptions C02_annual_totals.

Example C02_case : exists mrows r, simulate (@smallOffice xr xr_num) (constant_year 8760 (Fin 5)) no_ratios true = Ok (mrows, r).
Proof. exact (office_runs true (Fin 5)). Qed.
