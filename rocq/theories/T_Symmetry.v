(** C82, C83: a building with its walls listed in another order, and one larger by a factor. *)
From Coq Require Import Reals List.
From Verif Require Import Base Num Xr M_Params M_Hourly M_Monthly M_Map S_HourSpec S_Results S_Monthly S_MonthlySound S_MonthlyPlant S_Symmetry E_SmallOffice E_Monthly.
From Verif Require Import L_Turn L_TurnMonthly L_Sized L_SizedMonthly L_SizedHouse L_SymmetryCase.
Import ListNotations.
Open Scope R_scope.

(** Listing the eight walls, with their radiation, in another order leaves the tables unchanged. *)
Theorem C82_hourly : forall order, eight_walls order -> forall p : params_t xr, nine_surfaces (pa_structure p) ->
  forall ws agg, (forall w, In w ws -> length (we_sol w) = 9%nat) ->
  rows_of (simulate (turned order p) (map (turned_hour order) ws) no_ratios agg) = rows_of (simulate p ws no_ratios agg).
Proof. exact turned_simulate. Qed.
Print Assumptions C82_hourly.
Example C82_case : eight_walls eighth /\ nine_surfaces (pa_structure (@smallOffice xr _)) /\
  turned eighth smallOffice <> @smallOffice xr _ /\ turned_hour eighth noon <> noon /\
  (forall w, In w noons -> length (we_sol w) = 9%nat) /\
  forall agg, exists rows r, simulate (@smallOffice xr _) noons no_ratios agg = Ok (rows, r).
Proof. exact C82_case_l. Qed.

Theorem C82_monthly : forall order, eight_walls order -> forall p : params_t xr, nine_surfaces (pa_structure p) ->
  forall w, (forall row, In row (mw_msolar w) -> length row = 8%nat) ->
  simulateMonthly (turned order p) (turned_months order w) = simulateMonthly p w.
Proof. exact turned_monthly. Qed.
Print Assumptions C82_monthly.
Example C82_months : eight_walls eighth /\ nine_surfaces (pa_structure (map_params Fin (@monthlyOffice R _))) /\
  (forall row, In row (mw_msolar (@southSun xr _)) -> length row = 8%nat) /\ turned_months eighth southSun <> @southSun xr _ /\
  exists rows, simulateMonthly (map_params Fin (@monthlyOffice R _)) southSun = Ok rows.
Proof. exact C82_months_l. Qed.

(** A building [c] times as large has the same hourly table, per floor area, and leaves the same state. *)
Theorem C83_hourly : forall (c : R) (p : params_t R), 0 < c -> st_floorArea (pa_structure p) <> 0 ->
  1 / 10000 <= li_naturallyLightedArea (pa_lighting p) /\ 1 / 10000 <= c * li_naturallyLightedArea (pa_lighting p) ->
  forall ws r0 agg, simulate (map_params Fin (sized c p)) ws r0 agg = simulate (map_params Fin p) ws r0 agg.
Proof. exact sized_simulate. Qed.
Print Assumptions C83_hourly.
Example C83_case : 0 < 2 /\ st_floorArea (pa_structure daylitOffice) <> 0 /\
  1 / 10000 <= li_naturallyLightedArea (pa_lighting daylitOffice) /\ 1 / 10000 <= 2 * li_naturallyLightedArea (pa_lighting daylitOffice) /\
  sized 2 daylitOffice <> daylitOffice /\
  forall agg, exists rows r, simulate (map_params Fin daylitOffice) noons no_ratios agg = Ok (rows, r).
Proof. exact C83_case_l. Qed.

(** Monthly engine: defined for both or neither; lights, equipment and hot water are the same.
    Missing: heating, cooling and fans, which agree only up to the tiny constant the code adds to divisors, and pumps ([C83_monthly_refuted]). *)
Theorem C83_monthly_defined : forall (c : R) (p : params_t R) w,
  (exists rows, simulateMonthly (map_params Fin p) w = Ok rows) <-> (exists rows, simulateMonthly (map_params Fin (sized c p)) w = Ok rows).
Proof. exact C83_defined_l. Qed.
Print Assumptions C83_monthly_defined.
Theorem C83_monthly_partial : forall (c : R) (p : params_t R) w rows rows' k, 0 < c -> 0 < st_floorArea (pa_structure p) ->
  0 < ht_hotWaterDistributionEfficiency (pa_heating p) -> 0 < ht_hotWaterSystemEfficiency (pa_heating p) ->
  simulateMonthly (map_params Fin p) w = Ok rows -> simulateMonthly (map_params Fin (sized c p)) w = Ok rows' ->
  In k [elec_int_lights; elec_ext_lights; elec_int_equip; elec_ext_equip; elec_dhw; gas_equip; gas_dhw] ->
  map (fun row => nth_error row k) rows' = map (fun row => nth_error row k) rows.
Proof. exact C83_monthly_l. Qed.
Print Assumptions C83_monthly_partial.
(** A house with cooling pumps of no power and no cooling need: the larger house has less pump energy per floor area in every month,
    because a quotient by zero is replaced by the largest double before the division by the floor area. *)
Theorem C83_monthly_refuted : exists c (p : params_t R) w rows rows', 0 < c /\ sound p /\ plant_ok p /\
  simulateMonthly (map_params Fin p) w = Ok rows /\ simulateMonthly (map_params Fin (sized c p)) w = Ok rows' /\
  forall row row', In row rows -> In row' rows' ->
    exists x x', nth_error row elec_pumps = Some (Fin x) /\ nth_error row' elec_pumps = Some (Fin x') /\ x' < x.
Proof. exact C83_monthly_refuted_l. Qed.
Print Assumptions C83_monthly_refuted.
Example C83_months : 0 < 2 /\ 0 < st_floorArea (pa_structure (@monthlyOffice R _)) /\
  0 < ht_hotWaterDistributionEfficiency (pa_heating (@monthlyOffice R _)) /\ 0 < ht_hotWaterSystemEfficiency (pa_heating (@monthlyOffice R _)) /\
  exists rows, simulateMonthly (map_params Fin (@monthlyOffice R _)) southSun = Ok rows.
Proof. exact C83_months_l. Qed.
