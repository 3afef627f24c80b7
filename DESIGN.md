# Formal model of ISOmodel in Coq: design

## 1. Shape of the development

Everything lives in `rocq/theories` (logical name `Verif`). File prefixes say what a file is for:

| prefix | content |
|---|---|
| `Base`, `Num`, `Xr` | outcome type (`Ok`/`Throw`/`UB`), the record of number operations, the extended reals |
| `M_*` | the model: Gallina transcription of the C++ functions, one citation per definition, no proofs |
| `S_*` | small specifications that do not mention the model |
| `L_*` | lemmas and proofs |
| `T_*` | the property theorems only: each is `exact lemma`, followed by `Print Assumptions`, plus the `Example` that shows its hypotheses are met |

### Numbers

The C++ code computes in `double`. The model's numeric functions are polymorphic in a *record*
`Num T` of operations (no functor, no module type). There are three uses:

* **any** `Num T`: structural claims (which hours are summed, in which order, which slot, which
  branch) are proved for every instance. They therefore hold for IEEE doubles as well.
* `xr` = `Fin r | PInf | NInf | NaN`: IEEE-like arithmetic over exact reals. Division by zero,
  infinities and NaN are explicit values; comparisons with NaN are false; `std::max(a,b)` is
  `(a<b)?b:a`. Well-posedness, bounds, thermostat behaviour and all numeric refutations are stated here.
* plain `R`: the finite part of `xr`, used for algebra; transfer lemmas connect it to `xr`.

* `double` = Flocq's `binary_float 53 1024` (`Dbl.v`): IEEE 754 binary64 with rounding to nearest
  even, overflow, signed zeros and one NaN; the functions of libm are an arbitrary argument. The
  theorems of `T_Double.v` and `T_DoubleMonthly.v` (C88, C102 and the `_double`/`_rounded` forms) are stated here. No fused
  multiply-add is assumed. Flocq is used for definitions and lemmas only; it adds no axiom.

The other numeric theorems are about exact arithmetic: they do not cover rounding, overflow or
signed zeros (in `xr` a zero divisor counts as `+0`).

### Undefined behaviour and exceptions

`outcome A = Ok a | Throw | UB`. Out-of-range `vector::operator[]`, out-of-range array access,
null dereference, reading an uninitialised variable and out-of-range float-to-int casts yield `UB`.

### Input/output

File contents are strings given to the model as arguments. `std::stod`/`atof`/`std::stoi` number
syntax is a parameter of the functions that use it, and its printed form likewise; theorems that need
a relation between the two state it as a hypothesis.

## 2. Plan per property

| id | what is modelled | how it is proved |
|---|---|---|
| C01 | the constructor's triple loop writing five arrays | loop invariant: state after the loop equals closed-form calendar; all writes inside 8760 |
| C02 | `sumHoursByMonth`, the assembly loops, calendar | boundaries = calendar partition; generic in `Num`; sums as folds over filtered hours |
| C03–C05 | `calculateHour`, over `xr` | transfer to `R`, affine dependence of the air temperature on plant power, sign analysis; witness for crossed set-points |
| C06 | `calculateHour`, `initialize` | positivity chain for each divisor; witnesses for the excluded coupling |
| C07 | mass update | one-step maximum principle and induction over the hours; witness without the step condition |
| C08, C09, C12 | `calculateHour` | case analysis, inequalities |
| C10, C11, C20–C22 | `populateSchedules`, `scheduleAndOccupancy` | characterisation of cells, counting argument, witnesses |
| C13–C15, C18 | `simulate` post-processing | generic routing theorem; inequalities on `R`; NaN witness |
| C16 | HourlyModel object state across calls (vectors that only grow) | induction over call histories; witness |
| C17 | year loop | prefix induction |
| C19 | `initialize` Am | piecewise affine: monotone, Lipschitz |
| C23–C35 | `MonthlyModel` stage by stage | conservation equalities, inequalities, witnesses |
| C36–C38 | `EpwData` parser and block loader | round trip with a CSV writer, state machine over lines, UB outcome |
| C39, C40 | `calculateAverages` state machine | refinement to arithmetic mean |
| C41, C42 | geometry formulas | trigonometric identities, inequalities |
| C43 | `toISOData`, `initializeSolar` | round trip on tables |
| C44–C47 | `Properties` | refinement to a finite map / first-match specification |
| C48–C50, C55, C56 | `UserModel` loading | per-parameter characterisation, permutations, string lemmas, witnesses |
| C51–C54 | weather objects on a heap, cache, model creation | state machine, witnesses, invariants by induction over histories |
| C57–C68 | `MonthlyModel`: gains, air exchange, fans, appliances, plant, pump, whole table, week temperatures | exact formulas for every month, refinement to S_Monthly*, counterexample houses |
| C69–C73 | `standalone_main`: from file contents and options to exit code and printed text | refinement to S_Main/S_Program: every printed field; definedness; witnesses |
| C74–C76 | `UserModel` setters and getters as tables of name and member; documented file names | invariant by induction over call histories; loading a changed file = loading and calling (refinement); witnesses |
| C77 | histories of `UserModel::load` on one object | induction over the history, per-parameter last-given value, witness |
| C78, C79 | hourly trajectory (S_Year) summed over hours | telescoping induction over the hours; one-sided invariant of the mass temperature, mirror symmetry |
| C80 | The lists of parameters per end use are a specification by file names (S_Inputs). Records of the two buildings are identified field by field through the loading tables of S_Loading. | Simulation relation hour by hour (yearLoop_rel), separately for needs, fans, pumps, lights, plugs; monthly by stages of the run. |
| C81 | Same lists, complement: hourly_unused, monthly_unused. | Refuted: the building is equal to a patched one for which every stage is convertible. |
| C82 | The building with the walls in another order (`S_Symmetry.turned`), both engines. | The loops over the walls are sums or per-surface vectors; sums are invariant under permutation (also with infinities and NaN), per-surface vectors are permuted (L_Turn, L_TurnMonthly). |
| C83 | The building with all extensive quantities multiplied by a factor (`S_Symmetry.sized`). | Hourly: the initial state is the same field by field, hence the year (L_Sized). Monthly: column by column for lights, equipment and hot water (L_SizedMonthly); the rest is only approximately invariant (DBL_MIN). |
| C84 | Two simulations of one building with two years that agree in an hour or a month (`S_Locality.same_month`, `cell`). | Hourly: both loops in lock step, same schedule cell at hour n. Monthly: entry-wise agreement of vectors is kept by every stage up to the fans. |
| C85 | Solar time and the mirror images of the walls in S_Sides; a calculated year as in C42 | From C42: the projections on mirrored walls differ by the west component of the sun, whose sign is that of the hour angle; the sky factor is monotone |
| C86 | Same; combination of two years entry by entry | From C42 hour by hour; means by C39 |
| C87 | Totals of equipment and exterior lights as sums over the hours of S_Calendar and S_Year | From the per-hour equations of C08 and the column layout of C04; the count of occupied hours by induction on days and, for the 49 pairs of weekdays, by computation |
| C88 | the hourly engine over IEEE doubles (Dbl.v: Flocq binary64, arbitrary libm) | signs of rounded operations, induction over the sums; the rounding error of the sums by the standard model |
| C89 | The parameter readers of the building file, both engines over extended reals | Multiplication by a positive factor commutes with sums, maxima and case distinctions; each column is followed through its sums and the monthly totals (S_Scaling lists the pairs) |
| C90 | Differences of the heat balances of two hours of the same network (S_RC, S_Compare) | Signs of the solutions of the difference network, case split over heating, floating and cooling |
| C91 | Utilisation curve as a real function (S_MonthlyHeat), two runs of the monthly engine (S_MonthlyCompare) | Bernoulli and power mean inequalities for the curve, then the balance of C29 for both runs |
| C92 | The losses as a function of the temperature difference (S_MonthlyHeat, S_MonthlyClimate) | Monotone stack flow and air flow, an odd increasing loss function, then the curve lemmas of C91 |
| C93 | Two simulated years of one building (S_YearCompare) on the trajectories of C04 | Induction over the hours with the mass temperatures ordered, using the step comparison of C90; the annual bound telescopes over the stored heat |
| C94 | Two weather years of one building (S_YearClimate) on the trajectories of C04 | A network with other outdoor temperatures is one with other gains; then the induction of C93 |
| C95 | One year of a building with two sets of set-points (S_YearClimate, S_MonthlyClimate) | Induction over the hours with the mass temperatures ordered; the differences of the heat balances telescope over the stored heat |
| C96 | Two weather years that agree from some hour on (S_YearStable) on the trajectories of C04 | The controlled network damps a difference of mass temperatures at least as the envelope alone does; induction over the hours |
| C97 | Two weather years with outdoor temperatures at most d apart (S_YearStable) | The constant d bounds every temperature difference of the network from both sides (maximum principle of C91); clamping to the set-points does not enlarge it; induction over the hours |
| C98 | The loader as compiled for the unit tests, M_TestBuild, next to M_UserModel | The calls act on disjoint members, so the ten added ones commute with the rest; both directions by the success conditions of each call |
| C99 | A constant dark year (S_YearLoad: steady_loss, steady_mass) on the trajectories of C04 | The steady state solves the three balances and is a trajectory of its own; the difference to it fades as in C96 |
| C100 | Years with a coldest temperature, base set-point and greatest air flow (S_YearLoad: design_load) | Invariant: the mass never falls below its steady state at base and outdoor minimum (monotone network); the air balance of an hour that heats then bounds its need |
| C101 | Years with a warmest temperature, highest cooling set-point, greatest air flow and gains (S_YearLoad: gains_below, cooling_load) | Invariant: the mass never rises above its steady state at these extremes (monotone network); the air balance of an hour that cools then bounds its need |
| C102 | M_Monthly over Flocq doubles (S_DoubleMonthly) | Rounding is monotone, so the shares of the week stay within 0 and 1; signs of the columns follow operation by operation |
| C103 | Property map of M_Properties; dictionary order defined separately in S_Order.v. | Invariant of the map by induction over the history; a sorted map is determined by its lookups. |
| C104 | Both engines; year totals of columns defined in S_Engines.v. | Months of the calendar partition the year; totals of C65, C25 and C87 subtracted; refuted for the office. |
| C105 | The hourly engine over doubles; exact energies in S_DoubleTotals.v. | Each hour is off by at most two roundings; sum of n terms by (1+u)^n; n at most 744. |
| C106 | std::to_string(double) as digits of the nearest millionth (M_Decimal.v); the reader is any that rounds decimals correctly (S_Decimal.v). | The printed decimal is within half a millionth, and its nearest double is no further from it than the stored one; refuted by 2^-23. |
| C107 | The hourly engine on a building and on the same building with other window U values (S_Insulation.v). | The balances of the poorer building are those of the better one with less heat in the surfaces, as the surfaces stay no colder than outside; monotony of the network; induction over the hours; refuted by an hour at 19 degrees with a mass at 0. |
| C108 | The hourly engine on a building and on the same building with other recovery efficiency and preheating temperature (S_Recovery.v). | Warmer supply air is a gain of the air node; monotony of the network; induction over the hours; refuted by an hour of 30 degrees with a set-point of 31. |
| C109 | leakage enters the exfiltration, which grows with it; more outside air is a loss of the air node when the air is not colder than outside | monotone exfiltration, then the network comparison of C107 moved to the air node; induction over the hours |
| C110 | The OpenStudio branch of both engines' last step and totalEnergyUse (M_Report.v); OpenStudio's EndUses as a table by fuel and category. | The thirteen keys differ; sums over distinct keys as permutations; columns of the table; annual totals of C02. |
| C111 | U values of walls and roof enter the conductance from mass to outside, in series with the coupling of the mass, and the solar aperture | the series conductance grows with U; network comparison of C107 moved to the mass node; induction over the hours |
| C112 | the preheat temperature as the floor of the supply temperature; results of an hour as a list of uses | two heated hours hold the same set-point, so surface and mass agree and the air balances differ by the heat in the supplied air; the remaining fields by computation |
| C113 | infiltration rate and heat recovery of the monthly engine | flows are monotone in the leakage because the product term divides it out; temperatures and gains do not depend on it; then the monotonicity of the need in the losses as for C91/C92; a house without leakage refutes the case of rate 0 |
| C114 | absorption, transmission and radiation in the monthly engine | the solar gain is a sum of products monotone in each factor; temperatures and flows do not depend on it without a set-back; then the monotonicity of the need in the gains; a house radiating to the sky refutes the case of negative gains |
| C115 | the hourly engine in a sunnier year | the solar gain is a sum of products monotone in the sun on each surface when shading admits it; more gains in the same network warm air and mass and lower the plant's balance, by induction over the hours; two shops, one with dimmed lamps and one with dark shades, refute the rest |
| C116 | The monthly engine over doubles; exact energies in S_DoubleAppliances.v. | Whole-number hours and days are exact; the quotient by 168 and the rest are bounded by multiples of the unit roundoff; one more rounding adds two units. |
| C117 | totalEnergyUse over doubles (M_Report.v); exact sums in S_DoubleSum.v. | Zero entries are added exactly; at most 13 others per time step; sums by induction from the right with factor (1+u)^n; months by columns. |
| C118 | The monthly engine over doubles; exact energies in S_DoubleWater.v. | A calculus of doubles near a real up to k rounding factors with exponents far from the ends of the range: a product or quotient adds one factor; ten factors are below 10^-13. |
| C119 | The monthly engine over doubles; exact energies in S_DoubleLights.v. | Hours are whole numbers and exact; the near calculus of C118 with a rule for sums of non-negative numbers; the twelve month fractions are evaluated. |
| C120 | The monthly engine over doubles; exact energies in S_DoubleOutside.v. | The span is a whole number of hours; the relative error of one minus the rounded share is at most 23 units because the difference is zero or at least 1/24; the rest by the near calculus of C118. |
| C121 | The solar engine over doubles with a specified mathematical library (S_DoubleSun.v). | Counterexample: correct rounding of four sines and cosines from Taylor bounds evaluated in rationals, then evaluation of the double expression. Positive part: bounds on every intermediate value; the altitude stays off the zenith because latitude and declination differ; the cosine of incidence does not exceed one by monotone rounding and a case split on the altitude. |
| C122 | The hourly engine over doubles with any mathematical library (S_Broken.v). | A NaN temperature or irradiance makes the thermal-mass temperature NaN; once it is NaN every later step keeps it NaN, and the comparisons of max then select zero for both needs. Induction over the hours. The witness evaluates two hours of the office. |
| C123 | The monthly engine over doubles with any mathematical library (S_BrokenMonth.v). | NaN is followed from the month's weather through its needs into the yearly sums; every month is then divided by a distribution factor or a yearly sum that is NaN. The witness evaluates the whole table of the office twice. |

## 3. Trusted base

* The kernel of Coq 8.16.1, including its bytecode machine (a few concrete cases are computed with
  `vm_compute`). No plugins, no check switched off.
* The axioms of the standard library named below. Every property theorem is followed by
  `Print Assumptions` in its `T_*` file. No other library is used and nothing is assumed in the
  development itself.
* That the model says what the C++ code does (section 4). The mutation log in `seeded/LOG.jsonl`
  shows which theorems notice which edits of the model.
* Hypotheses of theorems are part of their statements; the `Example` beside each theorem shows a
  case that meets them.

What `Print Assumptions` lists, for all 351 property theorems:

**Closed under the global context (no axiom)** (110): `C74_calls`, `C74_one_value`, `C74_paired`, `C75_settings`, `C76_required_refuted`, `C76_required_partial`, `C76_unread`, `C76_optional`, `C01_calendar`, `C02_monthly_aggregation`, `C106_text`, `C36_columns`, `C36_file`, `C36_determined`, `C36_no_file`, `C37_missing_field`, `C37_short_file`, `C37_complete_partial`, `C38_block_partial`, `C38_unsafe`, `C38_large_refuted`, `C10_cells`, `C17_causal_raw`, `C17_causal_table`, `C18_hourly_shape`, `C16_repeatable`, `C80_hourly`, `C80_monthly`, `C80_hourly_one`, `C80_monthly_one`, `C81_hourly_refuted`, `C81_monthly_refuted`, `C48_one_file`, `C48_two_files`, `C48_rejected`, `C49_directions`, `C49_involution`, `C49_nine`, `C49_defined_partial`, `C49_short_vector_refuted`, `C55_words`, `C55_only`, `C84_hourly`, `C84_monthly`, `C84_indifferent`, `C69_reports`, `C69_files`, `C69_hourly`, `C69_monthly`, `C70_refuted`, `C71_default`, `C71_no_file`, `C72_digits`, `C73_refuted`, `C73_weather_refuted`, `C73_rejected`, `C18_monthly_shape`, `C18_monthly_defined`, `C18_monthly_else`, `C21_complement`, `C57_std_vector`, `C57_ublas_refused`, `C103_order`, `C103_answers`, `C103_exchange`, `C44_put_get`, `C44_history`, `C45_lines`, `C45_one_file`, `C45_two_files`, `C45_noise`, `C46_one_file`, `C46_two_files`, `C46_unreadable`, `C47_round_trip`, `C57_number_list`, `C57_overloads_agree`, `C77_accepts`, `C77_again`, `C77_required`, `C77_replaced_partial`, `C77_replaced_two_files_partial`, `C77_history`, `C110_entries`, `C110_others`, `C39_calculated`, `C39_counts`, `C40_same_site_partial`, `C98_one_file`, `C98_two_files`, `C98_required`, `C17_run`, `C17_temperatures`, `C43_text`, `C43_loaded`, `C50_directory_partial`, `C50_bare_refuted`, `C51_file`, `C51_new_block_partial`, `C51_cached`, `C52_blocks_partial`, `C52_file_overwrites`, `C53_load`, `C53_load_defaults`, `C53_create`, `C53_throw_refuted`, `C53_fresh_refuted`, `C56_recover`, `C56_rejoin`, `C56_drop`.

**`ClassicalDedekindReals.sig_forall_dec`, `FunctionalExtensionality.functional_extensionality_dep`** (7): `C04_step_unique`, `C14_losses_add`, `C66_floor`, `C114_more`, `C39_bounds`, `C39_hours`, `C87_hours`.

**`ClassicalDedekindReals.sig_forall_dec`, `ClassicalDedekindReals.sig_not_dec`, `FunctionalExtensionality.functional_extensionality_dep`** (1): `C42_bounds`.

**`ClassicalDedekindReals.sig_forall_dec`, `ClassicalDedekindReals.sig_not_dec`, `Classical_Prop.classic`, `FunctionalExtensionality.functional_extensionality_dep`** (233): `C75_vector_order_refuted`, `C109_hour_partial`, `C109_refuted`, `C109_year_partial`, `C122_fan_months`, `C122_fans`, `C122_months`, `C122_needs`, `C122_refuted`, `C122_table`, `C122_zenith`, `C123_refuted`, `C123_year`, `C123_zenith`, `C02_annual_totals`, `C90_defined`, `C90_light_refuted`, `C90_needs`, `C90_saving`, `C90_setpoints`, `C90_warmer`, `C106_close_partial`, `C106_refuted`, `C106_six_places_partial`, `C106_whole_partial`, `C02_rounded`, `C03_double`, `C09_double`, `C13_double`, `C14_double`, `C88_no_negative`, `C116_appliances`, `C54_double_lookup`, `C54_double_order`, `C119_lights`, `C102_no_negative`, `C39_rounded`, `C120_outside`, `C117_hourly`, `C117_monthly`, `C117_same`, `C117_total`, `C121_irradiance_partial`, `C121_month_lost`, `C121_months_partial`, `C121_refuted`, `C121_zenith`, `C105_rounded`, `C118_hot_water`, `C104_difference`, `C104_hourly`, `C104_monthly`, `C104_more`, `C104_refuted`, `C104_same_partial`, `C37_missing_field_refuted`, `C37_reload_refuted`, `C78_balance`, `C78_gains`, `C79_no_cooling`, `C79_no_heating`, `C03_step`, `C04_step`, `C05_crossed`, `C06_well_posed`, `C07_bounded`, `C07_unstable_refuted`, `C09_fan_minimum`, `C09_fan_monotone`, `C12_monotone`, `C19_bounds_monotone_continuous`, `C19_mass_area`, `C13_one_carrier`, `C13_zero_slots`, `C03_year`, `C04_year`, `C04_year_unique`, `C08_auxiliary`, `C12_bounds`, `C14_distribution`, `C15_finite_partial`, `C15_no_need_refuted`, `C16_setStructure_refuted`, `C81_gas_partial`, `C107_hour_partial`, `C107_refuted`, `C107_year_partial`, `C69_refuted`, `C72_refuted`, `C113_cooling_partial`, `C113_heating_partial`, `C113_refuted`, `C32_law`, `C32_mean_law`, `C62_solar`, `C63_internal`, `C64_air_partial`, `C65_appliances`, `C66_fans_partial`, `C67_refuted`, `C67_week_partial`, `C68_every_day`, `C68_refuted`, `C92_cooling`, `C92_heating`, `C91_cooling_partial`, `C91_heating_partial`, `C91_refuted`, `C66_not_a_number`, `C66_refuted`, `C66_supply_partial`, `C23_extreme`, `C23_gains_partial`, `C23_never_refuted`, `C23_refuted`, `C27_days`, `C27_fractions_partial`, `C27_refuted`, `C29_cooling_partial`, `C29_heating_partial`, `C32_cooling`, `C32_decay`, `C32_heating`, `C32_management`, `C32_management_cooling_partial`, `C32_management_refuted`, `C58_refuted`, `C58_setback`, `C29_refuted`, `C30_absorption`, `C30_carrier_partial`, `C30_refuted`, `C31_one_partial`, `C31_pumps_partial`, `C31_refuted`, `C35_refuted`, `C35_table_partial`, `C60_months_partial`, `C60_table_partial`, `C61_negative`, `C61_refuted`, `C114_cooling_partial`, `C114_heating_partial`, `C114_refuted`, `C24_hours_partial`, `C24_nonneg_partial`, `C24_refuted`, `C24_split`, `C25_conserved`, `C25_nonneg`, `C26_codes_partial`, `C26_refuted`, `C28_refuted`, `C28_span_partial`, `C11_counts`, `C11_refuted`, `C20_months`, `C20_sign`, `C20_week`, `C21_from7_partial`, `C21_other`, `C21_refuted`, `C22_all_week`, `C22_days_partial`, `C22_refuted`, `C33_factor`, `C33_refuted`, `C34_coefficient`, `C34_flows`, `C34_natural`, `C59_airtight`, `C112_fans`, `C112_free`, `C112_refuted`, `C108_hour_partial`, `C108_refuted`, `C108_year_partial`, `C77_replaced_refuted`, `C110_hourly`, `C110_monthly`, `C110_same`, `C110_total`, `C89_hourly`, `C89_monthly`, `C89_monthly_cooling`, `C89_monthly_heating`, `C89_monthly_pumps`, `C85_afternoon`, `C85_mirror`, `C85_morning`, `C86_defined`, `C86_hours`, `C86_months`, `C39_means`, `C40_site_refuted`, `C41_sun`, `C42_day_partial`, `C42_hourly`, `C42_night_refuted`, `C42_parts`, `C82_hourly`, `C82_monthly`, `C83_hourly`, `C83_monthly_defined`, `C83_monthly_partial`, `C83_monthly_refuted`, `C87_months`, `C87_year`, `C111_hour_partial`, `C111_refuted`, `C111_year_partial`, `C51_return_refuted`, `C51_same_place_refuted`, `C52_hourly_refuted`, `C53_block_refuted`, `C53_missing_refuted`, `C54_lookup`, `C54_nan_refuted`, `C54_order`, `C94_hours_partial`, `C94_refuted`, `C95_year`, `C93_hours_partial`, `C93_refuted`, `C93_year_partial`, `C100_design_load`, `C99_settles`, `C101_cooling_load`, `C96_forgets`, `C97_close`, `C115_hours_partial`, `C115_lamps_refuted`, `C115_shades_refuted`.

The axioms come with the standard library's classical real numbers (`Reals`); structural, text and
input/output theorems do not use the reals and need none.

## 4. What is modelled and what is not

All of `IsoModel/src` except the tests. Files not in the table only declare members or are empty.

| source | model | remarks |
|---|---|---|
| `TimeFrame.{hpp,cpp}` | `M_TimeFrame` | five arrays as one array of records |
| `HourlyModel.{hpp,cpp}` | `M_Hourly` | all functions; the member vectors that `push_back` grows are part of the state |
| `MonthlyModel.{hpp,cpp}` | `M_Monthly` | all stages of `simulate`; printing of debug text is dropped; tables of wrong size are undefined as a whole |
| `SolarRadiation.{hpp,cpp}` | `M_Solar` | all functions; sine, cosine, ... are operations of the number record |
| `EpwData.{hpp,cpp}` | `M_Epw`, `M_IsoText` | parser, block loader, `toISOData`; number syntax is a parameter |
| `WeatherData.{hpp,cpp}` | `M_Monthly.mweather`, `M_Weather` | the monthly tables |
| `UserModel.{hpp,cpp}` | `M_UserModel`, `M_TestBuild`, `M_Weather`, `M_Access`, `M_IsoText` | loading (also as compiled for the unit tests), weather and cache, accessors |
| `Properties.{hpp,cpp}` | `M_Properties`, `M_Text`, `M_Decimal` | characters above 127 are left unchanged by case conversion |
| `Structure.hpp`, `Heating.hpp`, `Cooling.hpp`, `Ventilation.hpp`, `Lighting.hpp`, `Building.hpp`, `Population.hpp`, `SimulationSettings.hpp`, `PhysicalQuantities.hpp`, `Location.hpp` | `M_Params` | members and defaults |
| `Simulation.{hpp,cpp}`, `EndUses.hpp` | `M_Main`, `M_Weather` | setters of the engines; a row of end uses |
| `standalone_main.cpp` | `M_Main` | from file contents and options to the printed text |
| `ISOResults.{hpp,cpp}` and the OpenStudio branches of both engines | `M_Report` | `totalEnergyUse` |

Not modelled:

* rounding, overflow and signed zeros of `double`, except in the files `T_Double*.v` and `T_Decimal.v` (Flocq binary64).
  Statements for any number record (structure,
  routing, which values are read) do not depend on this; statements over `xr` and `R` are about
  exact arithmetic with infinities and NaN.
* the syntax of the command line (`boost::program_options`), the file system, the wording of
  messages from the standard library.
* OpenStudio's own classes: `EndUses` of that build is modelled as a table by fuel and category (`M_Report`).
* memory layout and threads: the program is sequential; objects shared by pointer are modelled by an
  explicit store where sharing is observable (`M_Weather`).

## 5. Findings

Properties that the code does not have. Each has a `_refuted` theorem with a concrete witness and, where
possible, a theorem about the part that does hold.

| id | finding |
|---|---|
| C11 | The hourly engine counts closed hours, skips nothing between, and never opens a wrapping schedule; C11_counts says for every whole-number schedule when the two counts agree, and C11_refuted gives an office 8-17 Monday-Friday for which they do not. |
| C15 | C15_no_need_refuted shows NaN in the table for a year without heating and cooling need. C15_finite_partial proves finiteness for every other year. |
| C16 | Repeated simulation proved for every history with an unchanged structure. The setStructure half is false: C16_setStructure_refuted. |
| C21 | The mask always starts at hour 7. C21_complement holds; C21_from7_partial covers schedules starting at 7; C21_other shows that every other start has a wrong hour; C21_refuted is a witness. |
| C22 | A full week that does not start on day 0 counts as no day (C22_all_week, C22_refuted). C22_days_partial covers everything else. |
| C23 | With 24 opening hours (or none) the heating column of every month is not a number (C23_extreme, C23_refuted, C23_never_refuted). C23_gains_partial: internal gains are finite whenever the week has some unoccupied time. |
| C24 | C24_refuted has negative interior lighting in every month for opening hours after dark. The split by months holds for every building; hours and sign are proved for opening times that do not pass midnight and meet the daylight hours. |
| C26 | C26_refuted loads the example file of the repository, which holds the code 0, and the monthly engine then reads outside its table. C26_codes_partial says exactly which codes are defined. |
| C27 | Monday to Sunday counts as no day, and the share of week nights is negative (C27_days, C27_refuted). C27_fractions_partial covers working days of more than 0 and less than 24 hours: the shares cover the week; none is negative with 1 to 7 working days. |
| C28 | C28_refuted is a month without sun, where uninitialised hours are read. C28_span_partial covers all other tables. |
| C29 | When gains equal losses plus the smallest double the need is not a number (second part of each theorem; C29_refuted is a building for which the whole heating year is lost). All other positive ratios are covered; the bounds hold up to the smallest double, which the code adds to every divisor. Month data are those of any run of a sound building. |
| C30 | The gas of absorption chillers ignores their configured share (C30_absorption for all buildings, C30_refuted with share 0). The rest holds whenever needs are finite and the year has some need; for a year without any need the code divides by 0. |
| C31 | When one of the two rated pump powers is 0 and that side has no needs in the year, each month is charged at least DBL_MAX/100 (C31_refuted). With both powers non-zero it holds for all finite needs whose sum is not 0. |
| C32 | With few working hours and a cooling set-point outside them below the one in them, better management lowers the cooling temperature (C32_management_refuted), because the code starts the chain from the heating set-point. Everything else is proved in full; the cooling half of the management level is proved when the weekend is at most five times the working hours, when there is no set-back, or when the set-back is not below the set-point. |
| C33 | The hourly engine moves 12.96 times the air (C33_factor for every building, C33_refuted for the small office). |
| C35 | Without gains and warmer outside than the heating set-point the heating need, and so the gas, is negative (C35_refuted). Holds for every building and weather whose monthly needs are not negative. |
| C37 | C37_missing_field_refuted (missing fields repeat the last field) and C37_reload_refuted (rows of the previous file remain). C37_missing_field and C37_short_file say what happens for every file; C37_complete_partial is the part that holds. |
| C38 | C38_large_refuted (blocks over 8760 hours write past the columns; C38_unsafe: all of them). C38_block_partial covers the sizes up to 8760. |
| C40 | C40_site_refuted (latitude, longitude and meridian are captured in the constructor). C40_same_site_partial covers every history with weather of the same site. |
| C42 | C42_night_refuted (negative ground reflection when the sun is below the horizon and the file has beam irradiance). C42_day_partial covers every sun at or above the horizon; C42_hourly ties the stored value to the formula except with the sun exactly at zenith or nadir; C42_bounds and C42_parts cover the beam and sky factor bounds. |
| C49 | C49_short_vector_refuted (fewer than eight elements is undefined behaviour). C49_directions covers every vector that loads. |
| C50 | A building file named without a directory puts the first character of its name before the weather path (C50_bare_refuted). C50_directory_partial is the property for base paths with a directory. |
| C51 | A block for coordinates already in the cache is not read (C51_cached, C51_return_refuted, C51_same_place_refuted). Proved for weather files and for blocks at new coordinates after every history. |
| C52 | Hourly models share one EpwData object (C52_hourly_refuted) and a weather file overwrites the shared WeatherData (C52_file_overwrites). Proved for monthly models under later blocks. |
| C53 | For loads that throw, block loads, loadAndSetWeather and fresh objects (four refutations). Proved: a load that returns sets the flag exactly by the presence of its files; creation is defined exactly for valid objects. |
| C54 | Proved for coordinates that are numbers, in exact arithmetic with infinities (C54_order, C54_lookup) and in double precision, where the zeros of both signs are one key (C54_double_order, C54_double_lookup); C54_nan_refuted shows the order fails with NaN. |
| C58 | C58_setback shows for every sound building that a relaxed set-back has no effect; C58_refuted is the small office. |
| C59 | C59_airtight shows for every sound building that the flow is at least the largest double. |
| C60 | See C29_refuted and C23_extreme. Holds for all runs whose months have no zero divisor and whose yearly need is not 0; the exact list of divisors is the record clear_month. |
| C61 | The branch for ratios that are not positive uses 1/(ratio + DBL_MIN), so the need is slightly negative instead of the losses plus the deficit (C61_negative for every such month, C61_refuted for a house). |
| C64 | For infiltration rate 0, where the engine substitutes the largest double (C59); proved for every other rate. |
| C66 | A month whose heating need is not a number (C29) has no fan energy (C66_refuted, C66_not_a_number). Holds for every month with finite needs of every sound building whose supply air is warmer than the heated and colder than the cooled room (C66_supply_partial); C66_fans_partial asks only for non-zero divisors. |
| C67 | The engine takes the mean of the weekend day for the week nights (C67_refuted). C67_week_partial gives the exact temperatures of the code, which differ from the right ones only in that index; Newton's law for each period is C32_law and C32_mean_law. |
| C68 | With seven working days the weekend day has no hours, the quotient of its gains is replaced by the largest double and every building of moderate size stays at the set-point (C68_every_day, C68_refuted). |
| C69 | Proved for every file content, option and number format (C69_reports, C69_files, C69_hourly, C69_monthly). The last sentence of the property is false: the shipped example has shading code 0, for which the monthly simulation is undefined whatever the weather (C69_refuted). The command line syntax of boost::program_options is not modelled. |
| C70 | Months are numbered 0 to 11 in the comparison and 1 to 12 in the tables. C70_refuted has both halves: contents as stated with first month 0, and not with first month 1. |
| C72 | The monthly report leaves the output stream at 10 digits. C72_digits says exactly when the combined output is the concatenation of the single ones; C72_refuted is a run in which it is not. |
| C73 | Missing files lead to undefined behaviour (C73_refuted, C73_weather_refuted) instead of a message. What is proved of it: no report is printed in these cases (C69_files), and a rejected value ends the program with the exception (C73_rejected). |
| C75 | C75_settings proves it for every set of documented numbers, words, texts, flags and the integer. For the nine vectors the call takes the values in another order than the file, so it holds for the reordered vector; C75_vector_order_refuted shows that giving the list of the file to the setter changes the building. |
| C76 | Ten parameters documented as required are read only in the unit test build (C76_required_refuted: a file without them loads). C76_required_partial proves the others required, C76_unread that the ten have no effect, C76_optional the half about optional ones. |
| C77 | An optional parameter that the last file does not give keeps the value of an earlier file (C77_replaced_refuted: zone height). Proved without restriction: acceptance, idempotence, required parameters, exact value of each optional parameter after any history (C77_history), and full replacement when the last file gives all optional parameters. |
| C81 | The hourly engine ignores 50 parameters (people, infiltration rate, gas appliances, hot water, terrain, IPLV, ventilation type, BEM type ...) and the monthly engine 26; changing all of them together changes neither the outcome nor the table. C81_gas_partial shows that gas appliances, ignored hourly, change every month of the monthly engine. |
| C83 | For the monthly engine: C83_monthly_refuted is a house whose pump energy per floor area is smaller when the house is twice as large. Hourly: proved for the whole table and the state left behind. Monthly: definedness, lights, equipment and hot water proved; heating, cooling and fans are not exactly invariant in exact arithmetic because the code adds DBL_MIN to divisors. |
| C91 | C91_refuted is a house losing heat to the sky whose heating need is above 1000 MJ in every month with its appliances and below zero without them. C91_heating_partial and C91_cooling_partial prove both directions for months with non-negative (cooling: positive) net gains in the leaner building, positive losses and finite needs. |
| C93 | C93_refuted gives a very leaky building in which the air warmed by the appliances of one hour makes the building leak more in the next hour, which needs more heating. C93_hours_partial and C93_year_partial prove both sentences for weather in which the leakage does not depend on the indoor temperature within the set-point band (steady_leak; so when wind drives it). |
| C94 | C94_refuted gives a very leaky building that a warm hour leaves warm, so that it leaks more in the cold hour that follows. C94_hours_partial proves it for weather in which the leakage is the same in both years and does not depend on the indoor temperature within the set-point band (same_leak; so when wind drives it). |
| C104 | . Interior equipment agrees if its power does not depend on occupancy (C104_same_partial); otherwise the exact difference is C104_difference, and for opening hours in the usual order the hourly engine always reports more (C104_more, C104_refuted). The hourly engine leaves out hot water and gas appliances (C104_hourly), the monthly engine exterior equipment (C104_monthly). |
| C106 | Std::to_string keeps six decimals, so a number near 1e-7 is read back as zero (C106_refuted). Proved: the result is at most a millionth off (C106_close_partial), exact for whole numbers (C106_whole_partial) and for decimals of up to six places up to 1e9 (C106_six_places_partial); keys behave as for texts (C106_text). |
| C107 | In an hour warmer outside than the surfaces of a cooled-out building, poorer windows let heat in and save heating (C107_refuted). Proved for hours at most as warm outside as the mass and the heating set-point (C107_hour_partial), and for every hour of a year that never becomes warmer and whose air leakage is driven by the wind (C107_year_partial). |
| C108 | Recovery is reckoned against 20 degrees whatever the set-point, so air warmer than 20 degrees is cooled on its way into a warmer room (C108_refuted). Proved for hours of at most 20 degrees outside (C108_hour_partial), and for every hour of a year of such hours whose air leakage is driven by the wind (C108_year_partial; the leakage condition is needed as in C93). |
| C109 | In an hour warmer outside than the set-point of a cooled-out building the leakage brings in heat (C109_refuted). Proved for an hour colder outside than the mass and the set-point and at most 20 degrees (C109_hour_partial), and for each hour of a year that never becomes warmer, under the condition on the leakage of C93 (C109_year_partial). |
| C111 | In an hour warmer outside than a cooled-out building the poorer walls let in heat (C111_refuted), and sunlit dark walls collect in proportion to their U value. Proved for an hour colder outside than the mass and the set-point, at most 20 degrees, with no sun on absorbing walls (C111_hour_partial), and for each hour of a year of such hours that never becomes warmer, under the condition on the leakage of C93 (C111_year_partial). |
| C112 | Preheating is free. C112_refuted gives an office at 0 degrees whose heating need falls while every other use stays equal or falls. C112_free shows this is so for every pair of heated hours: the need falls by exactly the heat given to the supplied air, and temperatures and every other use but the fans are unchanged; C112_fans: the fans use no more. |
| C113 | C113_refuted gives a house with infiltration rate 0 that needs more than 1000000 MJ in every month, and at most 6000 MJ with rate 1 (the division by the rate is replaced by the largest double, see C59). Proved for every positive rate, in months with losses and without negative net gains (heating), and in months colder than the cooling set-point with gains (cooling). |
| C114 | C114_refuted gives a house whose white walls radiate more to the sky than they catch; its heating need is negative in every month, and more than 1000 MJ with black walls (the utilisation factor of negative net gains, see C91). C114_more is proved in full. The needs are proved for months with losses and without negative net gains (heating) or with gains (cooling), in buildings whose set-point is not set back at night (there the set-back temperature itself depends on the gains). |
| C115 | , in two ways: daylight turns off lamps whose heat is then missing (C115_lamps_refuted), and movable shading drawn in strong sun can let less in than the bare window lets in of weaker sun (C115_shades_refuted). Proved hour by hour over the whole year for buildings whose shading factor is not below the bare window's and whose lamps give the same heat in both years, in weather where the leakage does not depend on the indoor temperature (steady_leak, needed for the reason shown by C94_refuted). |
| C121 | C121_refuted and C121_zenith give a site in the tropics (latitude -23.05862926, longitude 0.72604224, time zone 0) at which the sine of the solar altitude rounds to 1 + 2^-52 at 12:00 on day 0, so asin and all eight irradiances of the hour are NaN, for every weather and tilt and every library that rounds sine and cosine correctly; C121_month_lost: the January means are NaN with it. C121_irradiance_partial: vertical surfaces at every site between 30 and 90 degrees of latitude, either hemisphere, get finite values of size at most 10^7 in all hours. C121_months_partial: the monthly means there are finite and close to the exact means. |
| C122 | C122_refuted gives two years that differ only in the first temperature; in one the second hour has a positive heating need, in the other no hour of the year has any need. C122_needs and C122_table prove the actual behaviour for every building, weather and library: from the first hour with a temperature or irradiance that is not a number to the end of the year the heating need, the cooling need and the pump figure are exactly zero, and the heating, cooling, pump and gas columns show zero or NaN. Such an hour arises from a weather file that contains nan, or from a site of C121 with the sun at the zenith. C122_zenith: at the site of C121 the loaded file itself produces such an hour at noon of 1 January, so the plant of every building is silent from then on, whatever the file says. C122_months: in the monthly table of this engine every month that begins at or after the unreadable hour shows zero or NaN for the plant. Hours before it keep their needs (C17_causal_raw). C122_fans: where heating or cooling is by air, the fan figure of every later hour is NaN. C122_fan_months: so are the fan figures of every month with such an hour. |
| C123 | C123_year proves that for every building, with its own plant or district energy, whose floor area and system efficiencies are positive, one month without a mean temperature or irradiance makes the heating, cooling and pump figures of all twelve months NaN, because the yearly sums enter the distribution factors of every month. C123_refuted compares two years that differ in the January temperature only. A month whose irradiance is NaN arises from the site of C121 (C121_month_lost). C123_zenith: at that site every such building gets NaN for heating, cooling and pumps in all months, whatever the file says, provided NaN survives the text written by the converter. |
