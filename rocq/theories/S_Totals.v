(** Monthly and yearly totals of the end uses that follow the clock: power times hours. *)
From Coq Require Import Reals ZArith List Bool.
From Verif Require Import Base M_Params M_Hourly S_Calendar S_Year.
Import ListNotations.
Open Scope R_scope.

(** The hours of the year, and those of month [m] (1 = January). *)
Definition year_hours : list Z := zrange 0 8760.
Definition hours_in (m : Z) : list Z := filter (hour_in_month m) year_hours.
Definition number {A} (f : A -> bool) (l : list A) : R := INR (length (filter f l)).
(** The sun is down (no global horizontal radiation, entry 8 of the row) in an hour. *)
Definition dark (w : weather R) : bool := if Rlt_dec 0 (nth 8 (we_sol w) 0) then false else true.

(** Interior equipment of [hours], kWh per m2: powers are in W per m2. *)
Definition equipment_kWh (p : params_t R) (tt : timetable) (hours : list Z) : R :=
  (bu_elecApplianceOcc (pa_building p) * number (occupied tt) hours
   + bu_elecApplianceUnocc (pa_building p) * number (fun k => negb (occupied tt k)) hours) / 1000.
(** Exterior equipment and exterior lights: powers are in W for the building. *)
Definition ext_equipment_kWh (p : params_t R) (hours : list Z) : R :=
  bu_externalEquipment (pa_building p) / st_floorArea (pa_structure p) * INR (length hours) / 1000.
Definition ext_lights_kWh (p : params_t R) (ws : list (weather R)) : R :=
  li_exteriorEnergy (pa_lighting p) / st_floorArea (pa_structure p) * number dark ws / 1000.

(** Occupied hours of a year that starts on weekday 0: 52 weeks and one more day 0. *)
Definition occupied_year (tt : timetable) : Z :=
  if ((tt_lastHour tt <? tt_firstHour tt) || (tt_lastDay tt <? tt_firstDay tt))%Z%bool then 0%Z
  else ((tt_lastHour tt - tt_firstHour tt + 1)
        * (52 * (tt_lastDay tt - tt_firstDay tt + 1) + (if (tt_firstDay tt =? 0)%Z then 1 else 0)))%Z.
Definition clock_timetable (tt : timetable) : Prop :=
  (0 <= tt_firstHour tt <= 23 /\ 0 <= tt_lastHour tt <= 23 /\ 0 <= tt_firstDay tt <= 6 /\ 0 <= tt_lastDay tt <= 6)%Z.
