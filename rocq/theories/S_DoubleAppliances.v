(** Appliances of the monthly engine in double arithmetic. *)
From Coq Require Import Reals ZArith List.
From Flocq Require Import Core.Core IEEE754.BinarySingleNaN.
From Verif Require Import Base Num Xr Dbl M_Params S_Calendar S_Year S_Monthly S_Double S_DoubleMonthly S_DoubleTotals.
Import ListNotations.
Open Scope R_scope.

(** Opening hours and days of the timetable; a span that is negative goes past midnight or past the end of the week. *)
Definition open_hours (tt : timetable) : Z :=
  let h := (tt_lastHour tt - tt_firstHour tt)%Z in if Z.ltb h 0 then (h + 24)%Z else h.
Definition open_days (tt : timetable) : Z :=
  let d := (tt_lastDay tt - tt_firstDay tt + 1)%Z in if Z.ltb d 0 then (d + 7)%Z else d.
Definition in_week (tt : timetable) : Prop :=
  (0 <= tt_firstHour tt <= 24 /\ 0 <= tt_lastHour tt <= 24 /\ 0 <= tt_firstDay tt <= 6 /\ 0 <= tt_lastDay tt <= 6)%Z.
(** Share of the 168 hours of a week in which the building is open. *)
Definition open_share (tt : timetable) : R := IZR (open_hours tt * open_days tt) / 168.

(** Powers of the electric and of the gas appliances. *)
Record appliance_powers (p : params_t double) : Prop := {
  ap_elec : power (bu_elecApplianceOcc (pa_building p)) /\ power (bu_elecApplianceUnocc (pa_building p));
  ap_gas : power (bu_gasApplianceOcc (pa_building p)) /\ power (bu_gasApplianceUnocc (pa_building p)) }.

(** The exact energy of month [i] (0 to 11), kWh per m2, of appliances of [a] W/m2 in open and [b] W/m2 in other hours. *)
Definition appliances_exact (tt : timetable) (a b : double) (i : nat) : R :=
  month_hours i * (B2R a * open_share tt + B2R b * (1 - open_share tt)) / 1000.
