(** Monthly totals of the hourly engine in double arithmetic. *)
From Coq Require Import Reals ZArith List Bool.
From Flocq Require Import Core.Core IEEE754.BinarySingleNaN.
From Verif Require Import Base Num Xr Dbl M_Params M_Hourly S_Calendar S_Year S_Totals S_Double S_DoubleMonthly.
Import ListNotations.
Open Scope R_scope.

(** The double is the whole number [z]. *)
Definition whole (x : double) (z : Z) : Prop := is_finite x = true /\ B2R x = IZR z.
Definition whole_hours (p : params_t double) (tt : timetable) : Prop :=
  whole (po_hoursStart (pa_population p)) (tt_firstHour tt) /\ whole (po_hoursEnd (pa_population p)) (tt_lastHour tt) /\
  whole (po_daysStart (pa_population p)) (tt_firstDay tt) /\ whole (po_daysEnd (pa_population p)) (tt_lastDay tt).
(** A power that is not negative and that no building reaches. *)
Definition power (x : double) : Prop := is_finite x = true /\ 0 <= B2R x <= IZR (10 ^ 300).
(** Powers of the building, and a floor area of at least one square metre. *)
Record powers (p : params_t double) : Prop := {
  pw_occ : power (bu_elecApplianceOcc (pa_building p));
  pw_unocc : power (bu_elecApplianceUnocc (pa_building p));
  pw_ext : power (bu_externalEquipment (pa_building p));
  pw_lamps : power (li_exteriorEnergy (pa_lighting p));
  pw_area : is_finite (st_floorArea (pa_structure p)) = true /\ 1 <= B2R (st_floorArea (pa_structure p)) }.

(** The exact energies of the hours or of the weather of a month, kWh per m2. *)
Definition equipment_exact (p : params_t double) (tt : timetable) (hours : list Z) : R :=
  (B2R (bu_elecApplianceOcc (pa_building p)) * number (occupied tt) hours
   + B2R (bu_elecApplianceUnocc (pa_building p)) * number (fun k => negb (occupied tt k)) hours) / 1000.
Definition ext_equipment_exact (p : params_t double) (hours : list Z) : R :=
  B2R (bu_externalEquipment (pa_building p)) / B2R (st_floorArea (pa_structure p)) * INR (length hours) / 1000.
(** Without sun: the global radiation, entry 8 of the row, is not above zero (or not a number). *)
Definition dark_d (w : weather double) : bool := negb (Bltb (z2d 0) (nth 8 (we_sol w) (z2d 0))).
Definition ext_lights_exact (p : params_t double) (ws : list (weather double)) : R :=
  B2R (li_exteriorEnergy (pa_lighting p)) / B2R (st_floorArea (pa_structure p)) * number dark_d ws / 1000.

(** The reported number is finite and right to thirteen digits, up to two thousand half distances between the smallest doubles. *)
Definition right_to_13 (x : double) (r : R) : Prop :=
  is_finite x = true /\ Rabs (B2R x - r) <= r / 10000000000000 + 2000 * smallest_step.
Definition column_right (k : nat) (rows : list (list double)) (rs : list R) : Prop :=
  Forall2 (fun row r => exists x, nth_error row k = Some x /\ right_to_13 x r) rows rs.
