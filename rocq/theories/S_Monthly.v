(** What the monthly engine needs to be given.  Independent of how it computes. *)
From Coq Require Import ZArith List Reals.
From Verif Require Import Num Xr M_Params M_Monthly S_Calendar.
Import ListNotations.
Open Scope nat_scope.

(** Nine surfaces (eight directions and the roof). *)
Definition nine_surfaces {T} (s : structure_t T) : Prop :=
  forall v, In v [st_wallArea s; st_windowArea s; st_wallU s; st_windowU s; st_wallEmissivity s; st_wallAbsorption s;
                  st_windowSDF s; st_windowSHGC s; st_windowSCF s] -> length v = 9.
(** Twelve months, 8 directions, 24 hours of the average day. *)
Definition full_tables {T} (w : mweather T) : Prop :=
  (length (mw_msolar w) = 12 /\ forall r, In r (mw_msolar w) -> length r = 8) /\
  (length (mw_mhdbt w) = 12 /\ forall r, In r (mw_mhdbt w) -> length r = 24) /\
  (length (mw_mhEgh w) = 12 /\ forall r, In r (mw_mhEgh w) -> length r = 24) /\
  length (mw_mEgh w) = 12 /\ length (mw_mdbt w) = 12 /\ length (mw_mwind w) = 12.
(** In every month the average day has an hour whose radiation is not zero. *)
Definition sun_every_month {T} {N : Num T} (w : mweather T) : Prop :=
  forall row, In row (mw_mhEgh w) -> exists x, In x row /\ neqb x (zn 0) = false.
(** Every shading device number is 1, 2 or 3 after dropping its decimals. *)
Definition shading_coded {T} {N : Num T} (s : structure_t T) : Prop :=
  forall x, In x (st_windowSDF s) -> ntrunc x = Some 1%Z \/ ntrunc x = Some 2%Z \/ ntrunc x = Some 3%Z.
(** The energy management level can be cast to int. *)
Definition bem_castable {T} {N : Num T} (p : params_t T) : Prop := exists z, ntrunc (bu_bem (pa_building p)) = Some z.

(** *** Interior lighting *)
(** Opening times that do not pass midnight and meet the hours of daylight. *)
Record day_schedule (p : params_t R) : Prop := {
  dy_hours : (0 <= po_hoursEnd (pa_population p) - po_hoursStart (pa_population p) <= 24)%R;
  dy_meet1 : (po_hoursStart (pa_population p) <= li_n_day_end (pa_lighting p))%R;
  dy_meet2 : (li_n_day_start (pa_lighting p) <= po_hoursEnd (pa_population p))%R;
  dy_light : (li_n_day_start (pa_lighting p) <= li_n_day_end (pa_lighting p))%R;
  dy_days : (0 <= po_daysEnd (pa_population p) - po_daysStart (pa_population p) + 1 <= 7)%R;
  dy_weeks : (0 <= li_n_weeks (pa_lighting p) <= 52)%R }.
(** Days a year with that opening time. *)
Definition open_days (p : params_t R) : R :=
  ((po_daysEnd (pa_population p) - po_daysStart (pa_population p) + 1) * li_n_weeks (pa_lighting p))%R.
(** Hours of an open day with daylight and without. *)
Definition open_hours (p : params_t R) : R := (po_hoursEnd (pa_population p) - po_hoursStart (pa_population p))%R.
Definition daylit_hours (p : params_t R) : R :=
  (Rmin (po_hoursEnd (pa_population p)) (li_n_day_end (pa_lighting p)) - Rmax (po_hoursStart (pa_population p)) (li_n_day_start (pa_lighting p)))%R.
Record light_nonneg (p : params_t R) : Prop := {
  ln_occ : (0 <= li_densityOcc (pa_lighting p))%R; ln_unocc : (0 <= li_densityUnocc (pa_lighting p))%R;
  ln_dim : (0 <= li_dimmingFraction (pa_lighting p))%R;
  ln_c : (0 <= bu_constantIllumination (pa_building p))%R; ln_o : (0 <= bu_lightingOccupancySensor (pa_building p))%R }.
(** Annual kWh per m2: occupied with daylight (dimmed), occupied without, and the rest of the 8760 hours. *)
Definition light_year (p : params_t R) (tD tN tU : R) : R :=
  ((li_densityOcc (pa_lighting p) * bu_constantIllumination (pa_building p) * bu_lightingOccupancySensor (pa_building p)
     * (tD * li_dimmingFraction (pa_lighting p) + tN) + li_densityUnocc (pa_lighting p) * tU) / 1000)%R.

(** *** Hot water: annual kWh of fuel per m2 of floor.  The engine's kWh is the float 3.6 MJ. *)
Definition MJ_per_kWh : R := (7549747 / 2097152)%R.
Definition water_year (p : params_t R) : R :=
  (ht_hotWaterDemand (pa_heating p) * (ht_dhw_tset (pa_heating p) - ht_dhw_tsupply (pa_heating p)) * ph_rhoCpWater (pa_phys p)
   / ht_hotWaterDistributionEfficiency (pa_heating p) / ht_hotWaterSystemEfficiency (pa_heating p) / MJ_per_kWh / st_floorArea (pa_structure p))%R.

(** *** Hours with sun: [i] is the first hour of the average day whose radiation is not zero and [j] the last. *)
Definition sun_span (row : list xr) (i j : nat) : Prop :=
  (exists x, nth_error row i = Some x /\ x <> Fin 0) /\ (exists x, nth_error row j = Some x /\ x <> Fin 0) /\
  forall h x, nth_error row h = Some x -> h < i \/ j < h -> x = Fin 0.
(** Hours of month [m]. *)
Definition month_hours (m : nat) : R := (IZR (nth m days_in_month 0%Z) * 24)%R.
