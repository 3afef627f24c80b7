(** Interior lights of the monthly engine in double arithmetic. *)
From Coq Require Import Reals ZArith List.
From Flocq Require Import Core.Core IEEE754.BinarySingleNaN.
From Verif Require Import Base Num Xr Dbl M_Params S_Calendar S_Year S_DoubleTotals S_DoubleAppliances S_DoubleWater.
Import ListNotations.
Open Scope R_scope.

(** Whole hours: open from [tt_firstHour] to [tt_lastHour] of the same day, daylight from [a] to [b], [n] weeks a year.
    The building is open for some of the daylight. *)
Record lamp_hours (p : params_t double) (tt : timetable) (a b n : Z) : Prop := {
  lh_open : whole_hours p tt;
  lh_week : in_week tt;
  lh_day : (tt_firstHour tt <= tt_lastHour tt)%Z;
  lh_light : whole (li_n_day_start (pa_lighting p)) a /\ whole (li_n_day_end (pa_lighting p)) b /\ whole (li_n_weeks (pa_lighting p)) n;
  lh_sun : (0 <= a <= b)%Z /\ (b <= 24)%Z;
  lh_meet : (tt_firstHour tt <= b /\ a <= tt_lastHour tt)%Z;
  lh_weeks : (0 <= n <= 52)%Z }.
(** Zero, or neither tiny nor enormous. *)
Definition some_or_none (x : double) : Prop := is_finite x = true /\ (B2R x = 0 \/ moderate (B2R x)).
Record lamp_powers (p : params_t double) : Prop := {
  lp_occ : some_or_none (li_densityOcc (pa_lighting p));
  lp_unocc : some_or_none (li_densityUnocc (pa_lighting p));
  lp_dim : some_or_none (li_dimmingFraction (pa_lighting p));
  lp_const : some_or_none (bu_constantIllumination (pa_building p));
  lp_sensor : some_or_none (bu_lightingOccupancySensor (pa_building p));
  lp_area : is_finite (st_floorArea (pa_structure p)) = true /\ moderate (B2R (st_floorArea (pa_structure p))) }.

(** Hours of an open day with daylight and without, and the open days of a year. *)
Definition bright_hours (tt : timetable) (a b : Z) : Z := (Z.min (tt_lastHour tt) b - Z.max (tt_firstHour tt) a)%Z.
Definition dark_hours (tt : timetable) (a b : Z) : Z := (tt_lastHour tt - tt_firstHour tt - bright_hours tt a b)%Z.
Definition year_days (tt : timetable) (n : Z) : Z := (open_days tt * n)%Z.
(** The exact energy of month [i] (0 to 11), kWh per m2 of floor: the month's days of the year's energy. *)
Definition lights_exact (p : params_t double) (tt : timetable) (a b n : Z) (i : nat) : R :=
  let li := pa_lighting p in let bu := pa_building p in
  (B2R (li_densityOcc li) * B2R (bu_constantIllumination bu) * B2R (bu_lightingOccupancySensor bu)
     * (IZR (bright_hours tt a b * year_days tt n) * B2R (li_dimmingFraction li) + IZR (dark_hours tt a b * year_days tt n))
   + B2R (li_densityUnocc li) * IZR (8760 - (tt_lastHour tt - tt_firstHour tt) * year_days tt n)) / 1000
  * (IZR (nth i days_in_month 0%Z) / 365).
