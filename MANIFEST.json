{
 "claims": [
  {
   "property": "C01",
   "status": "proved",
   "theorems": [
    "C01_calendar"
   ],
   "note": "Complete."
  },
  {
   "property": "C02",
   "status": "proved",
   "theorems": [
    "C02_monthly_aggregation",
    "C02_annual_totals",
    "C02_rounded"
   ],
   "note": "Aggregation generic in the number type; equality of annual totals in exact arithmetic."
  },
  {
   "property": "C03",
   "status": "proved",
   "theorems": [
    "C03_double",
    "C03_step",
    "C03_year"
   ],
   "note": "For one hour from any state, and for every hour of a simulated year."
  },
  {
   "property": "C04",
   "status": "proved",
   "theorems": [
    "C04_step",
    "C04_step_unique",
    "C04_year",
    "C04_year_unique"
   ],
   "note": "One hour and the whole year against independent heat balances (S_RC, S_Network, S_Year), with uniqueness of the trajectory."
  },
  {
   "property": "C05",
   "status": "proved",
   "theorems": [
    "C05_crossed"
   ],
   "note": "Complete."
  },
  {
   "property": "C06",
   "status": "proved",
   "theorems": [
    "C06_well_posed"
   ],
   "note": "The fan formula divides by (supply temperature - indoor temperature) plus DBL_MIN; fan_defined excludes the two indoor temperatures where that sum is exactly 0."
  },
  {
   "property": "C07",
   "status": "proved",
   "theorems": [
    "C07_bounded",
    "C07_unstable_refuted"
   ],
   "note": "Boundedness for every list of quiet hours, and the counterexample without the stability condition."
  },
  {
   "property": "C08",
   "status": "proved",
   "theorems": [
    "C08_auxiliary"
   ],
   "note": "Every hour of a simulated year."
  },
  {
   "property": "C09",
   "status": "proved",
   "theorems": [
    "C09_double",
    "C09_fan_minimum",
    "C09_fan_monotone"
   ],
   "note": "Complete under fan_defined, see C06."
  },
  {
   "property": "C10",
   "status": "proved",
   "theorems": [
    "C10_cells"
   ],
   "note": "Every number type."
  },
  {
   "property": "C11",
   "status": "partial",
   "theorems": [
    "C11_counts",
    "C11_refuted"
   ],
   "note": "False as stated: the hourly engine counts closed hours, skips nothing between, and never opens a wrapping schedule; C11_counts says for every whole-number schedule when the two counts agree, and C11_refuted gives an office 8-17 Monday-Friday for which they do not."
  },
  {
   "property": "C12",
   "status": "proved",
   "theorems": [
    "C12_monotone",
    "C12_bounds"
   ],
   "note": "Bounds for every hour of the year; monotonicity for one hour. In the source the shading never changes the daylight (nlams equals nla), so no restriction on shading is needed."
  },
  {
   "property": "C13",
   "status": "proved",
   "theorems": [
    "C13_double",
    "C13_one_carrier",
    "C13_zero_slots"
   ],
   "note": "Relational statement over both resolutions."
  },
  {
   "property": "C14",
   "status": "proved",
   "theorems": [
    "C14_double",
    "C14_distribution",
    "C14_losses_add"
   ],
   "note": "Efficiency and COP positive, losses not negative, some need in the year (otherwise see C15)."
  },
  {
   "property": "C15",
   "status": "partial",
   "theorems": [
    "C15_finite_partial",
    "C15_no_need_refuted"
   ],
   "note": "False as stated: C15_no_need_refuted shows NaN in the table for a year without heating and cooling need. C15_finite_partial proves finiteness for every other year."
  },
  {
   "property": "C16",
   "status": "partial",
   "theorems": [
    "C16_repeatable",
    "C16_setStructure_refuted"
   ],
   "note": "Repeated simulation proved for every history with an unchanged structure. The setStructure half is false: C16_setStructure_refuted."
  },
  {
   "property": "C17",
   "status": "proved",
   "theorems": [
    "C17_causal_raw",
    "C17_causal_table",
    "C17_run",
    "C17_temperatures"
   ],
   "note": "Heating/cooling energy in the table is scaled by a whole-year factor, so causality is stated for the raw needs and the other slots."
  },
  {
   "property": "C18",
   "status": "proved",
   "theorems": [
    "C18_hourly_shape",
    "C18_monthly_shape",
    "C18_monthly_defined",
    "C18_monthly_else"
   ],
   "note": "Both engines. The monthly engine returns a table exactly for complete inputs (C18_monthly_defined); otherwise the behaviour is undefined, never an exception."
  },
  {
   "property": "C19",
   "status": "proved",
   "theorems": [
    "C19_mass_area",
    "C19_bounds_monotone_continuous"
   ],
   "note": "Equality with the documented piecewise linear function; Lipschitz, hence continuous."
  },
  {
   "property": "C20",
   "status": "proved",
   "theorems": [
    "C20_week",
    "C20_months",
    "C20_sign"
   ],
   "note": "Sums hold for every finite schedule; the signs hold for every whole-number schedule except the one of C22."
  },
  {
   "property": "C21",
   "status": "partial",
   "theorems": [
    "C21_complement",
    "C21_from7_partial",
    "C21_other",
    "C21_refuted"
   ],
   "note": "False as stated: the mask always starts at hour 7. C21_complement holds; C21_from7_partial covers schedules starting at 7; C21_other shows that every other start has a wrong hour; C21_refuted is a witness."
  },
  {
   "property": "C22",
   "status": "partial",
   "theorems": [
    "C22_days_partial",
    "C22_all_week",
    "C22_refuted"
   ],
   "note": "False as stated: a full week that does not start on day 0 counts as no day (C22_all_week, C22_refuted). C22_days_partial covers everything else."
  },
  {
   "property": "C23",
   "status": "partial",
   "theorems": [
    "C23_gains_partial",
    "C23_extreme",
    "C23_refuted",
    "C23_never_refuted"
   ],
   "note": "False as stated: with 24 opening hours (or none) the heating column of every month is not a number (C23_extreme, C23_refuted, C23_never_refuted). C23_gains_partial: internal gains are finite whenever the week has some unoccupied time."
  },
  {
   "property": "C24",
   "status": "partial",
   "theorems": [
    "C24_split",
    "C24_hours_partial",
    "C24_nonneg_partial",
    "C24_refuted"
   ],
   "note": "False as stated: C24_refuted has negative interior lighting in every month for opening hours after dark. The split by months holds for every building; hours and sign are proved for opening times that do not pass midnight and meet the daylight hours."
  },
  {
   "property": "C25",
   "status": "proved",
   "theorems": [
    "C25_conserved",
    "C25_nonneg"
   ],
   "note": "For positive efficiencies. The solar contribution is the constant 0 in the code, so there is nothing to subtract."
  },
  {
   "property": "C26",
   "status": "partial",
   "theorems": [
    "C26_codes_partial",
    "C26_refuted"
   ],
   "note": "False as stated: C26_refuted loads the example file of the repository, which holds the code 0, and the monthly engine then reads outside its table. C26_codes_partial says exactly which codes are defined."
  },
  {
   "property": "C27",
   "status": "partial",
   "theorems": [
    "C27_fractions_partial",
    "C27_days",
    "C27_refuted"
   ],
   "note": "False as stated: Monday to Sunday counts as no day, and the share of week nights is negative (C27_days, C27_refuted). C27_fractions_partial covers working days of more than 0 and less than 24 hours: the shares cover the week; none is negative with 1 to 7 working days."
  },
  {
   "property": "C28",
   "status": "partial",
   "theorems": [
    "C28_span_partial",
    "C28_refuted"
   ],
   "note": "False as stated: C28_refuted is a month without sun, where uninitialised hours are read. C28_span_partial covers all other tables."
  },
  {
   "property": "C29",
   "status": "partial",
   "theorems": [
    "C29_heating_partial",
    "C29_cooling_partial",
    "C29_refuted"
   ],
   "note": "False as stated: when gains equal losses plus the smallest double the need is not a number (second part of each theorem; C29_refuted is a building for which the whole heating year is lost). All other positive ratios are covered; the bounds hold up to the smallest double, which the code adds to every divisor. Month data are those of any run of a sound building."
  },
  {
   "property": "C30",
   "status": "partial",
   "theorems": [
    "C30_carrier_partial",
    "C30_absorption",
    "C30_refuted"
   ],
   "note": "False as stated: the gas of absorption chillers ignores their configured share (C30_absorption for all buildings, C30_refuted with share 0). The rest holds whenever needs are finite and the year has some need; for a year without any need the code divides by 0."
  },
  {
   "property": "C31",
   "status": "partial",
   "theorems": [
    "C31_pumps_partial",
    "C31_one_partial",
    "C31_refuted"
   ],
   "note": "False as stated: when one of the two rated pump powers is 0 and that side has no needs in the year, each month is charged at least DBL_MAX/100 (C31_refuted). With both powers non-zero it holds for all finite needs whose sum is not 0."
  },
  {
   "property": "C32",
   "status": "partial",
   "theorems": [
    "C32_law",
    "C32_mean_law",
    "C32_decay",
    "C32_heating",
    "C32_cooling",
    "C32_management",
    "C32_management_cooling_partial",
    "C32_management_refuted"
   ],
   "note": "False as stated in its last part: with few working hours and a cooling set-point outside them below the one in them, better management lowers the cooling temperature (C32_management_refuted), because the code starts the chain from the heating set-point. Everything else is proved in full; the cooling half of the management level is proved when the weekend is at most five times the working hours, when there is no set-back, or when the set-back is not below the set-point."
  },
  {
   "property": "C33",
   "status": "partial",
   "theorems": [
    "C33_factor",
    "C33_refuted"
   ],
   "note": "False as stated: the hourly engine moves 12.96 times the air (C33_factor for every building, C33_refuted for the small office)."
  },
  {
   "property": "C34",
   "status": "proved",
   "theorems": [
    "C34_coefficient",
    "C34_flows",
    "C34_natural"
   ],
   "note": "For sound buildings (S_MonthlySound) with non-negative parameters, any finite weather."
  },
  {
   "property": "C35",
   "status": "partial",
   "theorems": [
    "C35_table_partial",
    "C35_refuted"
   ],
   "note": "False as stated: without gains and warmer outside than the heating set-point the heating need, and so the gas, is negative (C35_refuted). Holds for every building and weather whose monthly needs are not negative."
  },
  {
   "property": "C36",
   "status": "proved",
   "theorems": [
    "C36_columns",
    "C36_file",
    "C36_determined",
    "C36_no_file"
   ],
   "note": "Every file, every number reader and every number type."
  },
  {
   "property": "C37",
   "status": "partial",
   "theorems": [
    "C37_missing_field",
    "C37_missing_field_refuted",
    "C37_short_file",
    "C37_reload_refuted",
    "C37_complete_partial"
   ],
   "note": "False as stated: C37_missing_field_refuted (missing fields repeat the last field) and C37_reload_refuted (rows of the previous file remain). C37_missing_field and C37_short_file say what happens for every file; C37_complete_partial is the part that holds."
  },
  {
   "property": "C38",
   "status": "partial",
   "theorems": [
    "C38_block_partial",
    "C38_unsafe",
    "C38_large_refuted"
   ],
   "note": "False as stated: C38_large_refuted (blocks over 8760 hours write past the columns; C38_unsafe: all of them). C38_block_partial covers the sizes up to 8760."
  },
  {
   "property": "C39",
   "status": "proved",
   "theorems": [
    "C39_rounded",
    "C39_calculated",
    "C39_means",
    "C39_bounds",
    "C39_counts",
    "C39_hours"
   ],
   "note": "Complete: C39_calculated gives every average of every history as sum over count, for any number type; C39_means, C39_bounds, C39_counts and C39_hours give the arithmetic consequences on finite values; C39_rounded bounds the rounding of the averages in doubles."
  },
  {
   "property": "C40",
   "status": "partial",
   "theorems": [
    "C40_same_site_partial",
    "C40_site_refuted"
   ],
   "note": "False as stated: C40_site_refuted (latitude, longitude and meridian are captured in the constructor). C40_same_site_partial covers every history with weather of the same site."
  },
  {
   "property": "C41",
   "status": "proved",
   "theorems": [
    "C41_sun"
   ],
   "note": "Complete on real arithmetic; the source's pi is the 14-digit literal."
  },
  {
   "property": "C42",
   "status": "partial",
   "theorems": [
    "C42_hourly",
    "C42_bounds",
    "C42_parts",
    "C42_day_partial",
    "C42_night_refuted"
   ],
   "note": "False as stated: C42_night_refuted (negative ground reflection when the sun is below the horizon and the file has beam irradiance). C42_day_partial covers every sun at or above the horizon; C42_hourly ties the stored value to the formula except with the sun exactly at zenith or nadir; C42_bounds and C42_parts cover the beam and sky factor bounds."
  },
  {
   "property": "C43",
   "status": "proved",
   "theorems": [
    "C43_text",
    "C43_loaded"
   ],
   "note": "Stated with the writer fmt and the reader of numbers as parameters: what is read is atof of what was written. C43_loaded identifies the values with the means of the loaded year."
  },
  {
   "property": "C44",
   "status": "proved",
   "theorems": [
    "C44_put_get",
    "C44_history"
   ],
   "note": "Any history of puts after any constructor; closed under the global context."
  },
  {
   "property": "C45",
   "status": "proved",
   "theorems": [
    "C45_lines",
    "C45_one_file",
    "C45_two_files",
    "C45_noise"
   ],
   "note": "Every file text, one and two file constructors."
  },
  {
   "property": "C46",
   "status": "proved",
   "theorems": [
    "C46_one_file",
    "C46_two_files",
    "C46_unreadable"
   ],
   "note": "Every file text; unreadable files raise as documented."
  },
  {
   "property": "C47",
   "status": "proved",
   "theorems": [
    "C47_round_trip"
   ],
   "note": "Every list of clean key/value pairs with arbitrary blanks, comments and empty lines between."
  },
  {
   "property": "C48",
   "status": "proved",
   "theorems": [
    "C48_one_file",
    "C48_two_files",
    "C48_rejected"
   ],
   "note": "Exact characterisation of successful loads, every number reader."
  },
  {
   "property": "C49",
   "status": "partial",
   "theorems": [
    "C49_directions",
    "C49_involution",
    "C49_nine",
    "C49_defined_partial",
    "C49_short_vector_refuted"
   ],
   "note": "False as stated: C49_short_vector_refuted (fewer than eight elements is undefined behaviour). C49_directions covers every vector that loads."
  },
  {
   "property": "C50",
   "status": "partial",
   "theorems": [
    "C50_directory_partial",
    "C50_bare_refuted"
   ],
   "note": "False as stated: a building file named without a directory puts the first character of its name before the weather path (C50_bare_refuted). C50_directory_partial is the property for base paths with a directory."
  },
  {
   "property": "C51",
   "status": "partial",
   "theorems": [
    "C51_file",
    "C51_new_block_partial",
    "C51_cached",
    "C51_return_refuted",
    "C51_same_place_refuted"
   ],
   "note": "False as stated: a block for coordinates already in the cache is not read (C51_cached, C51_return_refuted, C51_same_place_refuted). Proved for weather files and for blocks at new coordinates after every history."
  },
  {
   "property": "C52",
   "status": "partial",
   "theorems": [
    "C52_blocks_partial",
    "C52_hourly_refuted",
    "C52_file_overwrites"
   ],
   "note": "False as stated: hourly models share one EpwData object (C52_hourly_refuted) and a weather file overwrites the shared WeatherData (C52_file_overwrites). Proved for monthly models under later blocks."
  },
  {
   "property": "C53",
   "status": "partial",
   "theorems": [
    "C53_load",
    "C53_load_defaults",
    "C53_create",
    "C53_throw_refuted",
    "C53_block_refuted",
    "C53_missing_refuted",
    "C53_fresh_refuted"
   ],
   "note": "False as stated for loads that throw, block loads, loadAndSetWeather and fresh objects (four refutations). Proved: a load that returns sets the flag exactly by the presence of its files; creation is defined exactly for valid objects."
  },
  {
   "property": "C54",
   "status": "partial",
   "theorems": [
    "C54_double_order",
    "C54_double_lookup",
    "C54_order",
    "C54_lookup",
    "C54_nan_refuted"
   ],
   "note": "Proved for coordinates that are numbers, in exact arithmetic with infinities (C54_order, C54_lookup) and in double precision, where the zeros of both signs are one key (C54_double_order, C54_double_lookup); C54_nan_refuted shows the order fails with NaN."
  },
  {
   "property": "C55",
   "status": "proved",
   "theorems": [
    "C55_words",
    "C55_only"
   ],
   "note": "Complete."
  },
  {
   "property": "C56",
   "status": "proved",
   "theorems": [
    "C56_recover",
    "C56_rejoin",
    "C56_drop"
   ],
   "note": ""
  },
  {
   "property": "C57",
   "status": "proved",
   "theorems": [
    "C57_std_vector",
    "C57_ublas_refused",
    "C57_number_list",
    "C57_overloads_agree"
   ],
   "note": "For every number syntax (the C library conversion is a parameter of the theorem)."
  },
  {
   "property": "C58",
   "status": "partial",
   "theorems": [
    "C58_setback",
    "C58_refuted"
   ],
   "note": "False as stated: C58_setback shows for every sound building that a relaxed set-back has no effect; C58_refuted is the small office."
  },
  {
   "property": "C59",
   "status": "partial",
   "theorems": [
    "C59_airtight"
   ],
   "note": "False as stated: C59_airtight shows for every sound building that the flow is at least the largest double."
  },
  {
   "property": "C60",
   "status": "partial",
   "theorems": [
    "C60_table_partial",
    "C60_months_partial"
   ],
   "note": "False as stated: see C29_refuted and C23_extreme. Holds for all runs whose months have no zero divisor and whose yearly need is not 0; the exact list of divisors is the record clear_month."
  },
  {
   "property": "C61",
   "status": "partial",
   "theorems": [
    "C61_negative",
    "C61_refuted"
   ],
   "note": "False as stated: the branch for ratios that are not positive uses 1/(ratio + DBL_MIN), so the need is slightly negative instead of the losses plus the deficit (C61_negative for every such month, C61_refuted for a house)."
  },
  {
   "property": "C62",
   "status": "proved",
   "theorems": [
    "C62_solar"
   ],
   "note": "For every building with sound parameters (nine surfaces, castable codes)."
  },
  {
   "property": "C63",
   "status": "proved",
   "theorems": [
    "C63_internal"
   ],
   "note": "The reported lighting column is light times the month share; the same light enters the gain."
  },
  {
   "property": "C64",
   "status": "partial",
   "theorems": [
    "C64_air_partial"
   ],
   "note": "False as stated for infiltration rate 0, where the engine substitutes the largest double (C59); proved for every other rate."
  },
  {
   "property": "C65",
   "status": "proved",
   "theorems": [
    "C65_appliances"
   ],
   "note": ""
  },
  {
   "property": "C66",
   "status": "partial",
   "theorems": [
    "C66_fans_partial",
    "C66_floor",
    "C66_supply_partial",
    "C66_not_a_number",
    "C66_refuted"
   ],
   "note": "False as stated: a month whose heating need is not a number (C29) has no fan energy (C66_refuted, C66_not_a_number). Holds for every month with finite needs of every sound building whose supply air is warmer than the heated and colder than the cooled room (C66_supply_partial); C66_fans_partial asks only for non-zero divisors."
  },
  {
   "property": "C67",
   "status": "partial",
   "theorems": [
    "C67_week_partial",
    "C67_refuted"
   ],
   "note": "False as stated: the engine takes the mean of the weekend day for the week nights (C67_refuted). C67_week_partial gives the exact temperatures of the code, which differ from the right ones only in that index; Newton's law for each period is C32_law and C32_mean_law."
  },
  {
   "property": "C68",
   "status": "partial",
   "theorems": [
    "C68_every_day",
    "C68_refuted"
   ],
   "note": "False as stated: with seven working days the weekend day has no hours, the quotient of its gains is replaced by the largest double and every building of moderate size stays at the set-point (C68_every_day, C68_refuted)."
  },
  {
   "property": "C69",
   "status": "partial",
   "theorems": [
    "C69_reports",
    "C69_files",
    "C69_hourly",
    "C69_monthly",
    "C69_refuted"
   ],
   "note": "Proved for every file content, option and number format (C69_reports, C69_files, C69_hourly, C69_monthly). The last sentence of the property is false: the shipped example has shading code 0, for which the monthly simulation is undefined whatever the weather (C69_refuted). The command line syntax of boost::program_options is not modelled."
  },
  {
   "property": "C70",
   "status": "partial",
   "theorems": [
    "C70_refuted"
   ],
   "note": "False as stated: months are numbered 0 to 11 in the comparison and 1 to 12 in the tables. C70_refuted has both halves: contents as stated with first month 0, and not with first month 1."
  },
  {
   "property": "C71",
   "status": "proved",
   "theorems": [
    "C71_default",
    "C71_no_file"
   ],
   "note": "Order and completeness of the reports are part of C69_reports (requests in S_Main)."
  },
  {
   "property": "C72",
   "status": "partial",
   "theorems": [
    "C72_digits",
    "C72_refuted"
   ],
   "note": "False as stated: the monthly report leaves the output stream at 10 digits. C72_digits says exactly when the combined output is the concatenation of the single ones; C72_refuted is a run in which it is not."
  },
  {
   "property": "C73",
   "status": "partial",
   "theorems": [
    "C73_refuted",
    "C73_weather_refuted",
    "C73_rejected"
   ],
   "note": "False as stated: missing files lead to undefined behaviour (C73_refuted, C73_weather_refuted) instead of a message. What is proved of it: no report is printed in these cases (C69_files), and a rejected value ends the program with the exception (C73_rejected)."
  },
  {
   "property": "C74",
   "status": "proved",
   "theorems": [
    "C74_calls",
    "C74_one_value",
    "C74_paired"
   ],
   "note": ""
  },
  {
   "property": "C75",
   "status": "partial",
   "theorems": [
    "C75_settings",
    "C75_vector_order_refuted"
   ],
   "note": "C75_settings proves it for every set of documented numbers, words, texts, flags and the integer. For the nine vectors the call takes the values in another order than the file, so it holds for the reordered vector; C75_vector_order_refuted shows that giving the list of the file to the setter changes the building."
  },
  {
   "property": "C76",
   "status": "partial",
   "theorems": [
    "C76_required_refuted",
    "C76_required_partial",
    "C76_unread",
    "C76_optional"
   ],
   "note": "False as stated: ten parameters documented as required are read only in the unit test build (C76_required_refuted: a file without them loads). C76_required_partial proves the others required, C76_unread that the ten have no effect, C76_optional the half about optional ones."
  },
  {
   "property": "C77",
   "status": "partial",
   "theorems": [
    "C77_accepts",
    "C77_again",
    "C77_required",
    "C77_replaced_partial",
    "C77_replaced_two_files_partial",
    "C77_history",
    "C77_replaced_refuted"
   ],
   "note": "False as stated: an optional parameter that the last file does not give keeps the value of an earlier file (C77_replaced_refuted: zone height). Proved without restriction: acceptance, idempotence, required parameters, exact value of each optional parameter after any history (C77_history), and full replacement when the last file gives all optional parameters."
  },
  {
   "property": "C78",
   "status": "proved",
   "theorems": [
    "C78_balance",
    "C78_gains"
   ],
   "note": ""
  },
  {
   "property": "C79",
   "status": "proved",
   "theorems": [
    "C79_no_cooling",
    "C79_no_heating"
   ],
   "note": "The bound b or a of the theorems may be any temperature between the set-points on the right side of 20 degrees; the conditions on recovery, preheating and the 20 degrees at which the year starts are in the quantifier, and are those without which the supplied air or the start would itself be warmer or colder than the bound."
  },
  {
   "property": "C80",
   "status": "proved",
   "theorems": [
    "C80_hourly",
    "C80_monthly",
    "C80_hourly_one",
    "C80_monthly_one"
   ],
   "note": "Lists in S_Inputs.v by file names; C80_hourly and C80_monthly for any number of differences, the _one forms for a single parameter. Both simulations are assumed to complete."
  },
  {
   "property": "C81",
   "status": "partial",
   "theorems": [
    "C81_hourly_refuted",
    "C81_monthly_refuted",
    "C81_gas_partial"
   ],
   "note": "False as stated: the hourly engine ignores 50 parameters (people, infiltration rate, gas appliances, hot water, terrain, IPLV, ventilation type, BEM type ...) and the monthly engine 26; changing all of them together changes neither the outcome nor the table. C81_gas_partial shows that gas appliances, ignored hourly, change every month of the monthly engine."
  },
  {
   "property": "C82",
   "status": "proved",
   "theorems": [
    "C82_hourly",
    "C82_monthly"
   ],
   "note": ""
  },
  {
   "property": "C83",
   "status": "partial",
   "theorems": [
    "C83_hourly",
    "C83_monthly_defined",
    "C83_monthly_partial",
    "C83_monthly_refuted"
   ],
   "note": "False as stated for the monthly engine: C83_monthly_refuted is a house whose pump energy per floor area is smaller when the house is twice as large. Hourly: proved for the whole table and the state left behind. Monthly: definedness, lights, equipment and hot water proved; heating, cooling and fans are not exactly invariant in exact arithmetic because the code adds DBL_MIN to divisors."
  },
  {
   "property": "C84",
   "status": "proved",
   "theorems": [
    "C84_hourly",
    "C84_monthly",
    "C84_indifferent"
   ],
   "note": ""
  },
  {
   "property": "C85",
   "status": "proved",
   "theorems": [
    "C85_morning",
    "C85_afternoon",
    "C85_mirror"
   ],
   "note": "Hours exactly at solar noon or midnight, and the zenith, are left to C42. The mirror statement leaves out the north wall: its azimuth is the source's 13-digit pi, whose mirror image is not exactly itself."
  },
  {
   "property": "C86",
   "status": "proved",
   "theorems": [
    "C86_hours",
    "C86_months",
    "C86_defined"
   ],
   "note": "For hours in which the sun is not exactly at the zenith or nadir (there the code computes 0/0); outside the tropics (29 to 90 degrees) that is every hour, which is proved."
  },
  {
   "property": "C87",
   "status": "proved",
   "theorems": [
    "C87_months",
    "C87_year",
    "C87_hours"
   ],
   "note": ""
  },
  {
   "property": "C88",
   "status": "proved",
   "theorems": [
    "C88_no_negative"
   ],
   "note": "Over Flocq's binary64 (Dbl.v). Entries may be +infinity or NaN; the same file gives double precision forms of C02, C03, C09, C13 and C14."
  },
  {
   "property": "C89",
   "status": "proved",
   "theorems": [
    "C89_hourly",
    "C89_monthly",
    "C89_monthly_pumps",
    "C89_monthly_heating",
    "C89_monthly_cooling"
   ],
   "note": "S_Scaling lists the pairs of end use and parameters. C89_hourly: the nine end uses the hourly engine computes. C89_monthly: lights, exterior lights, fans, equipment and hot water. C89_monthly_pumps, C89_monthly_heating and C89_monthly_cooling: the rest. Over exact arithmetic with infinities and NaN."
  },
  {
   "property": "C90",
   "status": "proved",
   "theorems": [
    "C90_defined",
    "C90_warmer",
    "C90_needs",
    "C90_saving",
    "C90_setpoints",
    "C90_light_refuted"
   ],
   "note": "C90_defined, C90_warmer, C90_needs, C90_saving and C90_setpoints are the five clauses; C90_light_refuted shows by a building without heat capacity that the stability condition is needed."
  },
  {
   "property": "C91",
   "status": "partial",
   "theorems": [
    "C91_heating_partial",
    "C91_cooling_partial",
    "C91_refuted"
   ],
   "note": "False as stated: C91_refuted is a house losing heat to the sky whose heating need is above 1000 MJ in every month with its appliances and below zero without them. C91_heating_partial and C91_cooling_partial prove both directions for months with non-negative (cooling: positive) net gains in the leaner building, positive losses and finite needs."
  },
  {
   "property": "C92",
   "status": "proved",
   "theorems": [
    "C92_heating",
    "C92_cooling"
   ],
   "note": "C92_heating and C92_cooling are the two clauses. A need that is not a number occurs only where the gain-loss ratio is exactly one (C29, C60)."
  },
  {
   "property": "C93",
   "status": "partial",
   "theorems": [
    "C93_hours_partial",
    "C93_year_partial",
    "C93_refuted"
   ],
   "note": "False as stated: C93_refuted gives a very leaky building in which the air warmed by the appliances of one hour makes the building leak more in the next hour, which needs more heating. C93_hours_partial and C93_year_partial prove both sentences for weather in which the leakage does not depend on the indoor temperature within the set-point band (steady_leak; so when wind drives it)."
  },
  {
   "property": "C94",
   "status": "partial",
   "theorems": [
    "C94_hours_partial",
    "C94_refuted"
   ],
   "note": "False as stated: C94_refuted gives a very leaky building that a warm hour leaves warm, so that it leaks more in the cold hour that follows. C94_hours_partial proves it for weather in which the leakage is the same in both years and does not depend on the indoor temperature within the set-point band (same_leak; so when wind drives it)."
  },
  {
   "property": "C95",
   "status": "proved",
   "theorems": [
    "C95_year"
   ],
   "note": "C95_year, for every year and building as stated; the condition on the leakage is steady_leak."
  },
  {
   "property": "C96",
   "status": "proved",
   "theorems": [
    "C96_forgets"
   ],
   "note": "C96_forgets; the factor is memory p, the multiple sp_is p."
  },
  {
   "property": "C97",
   "status": "proved",
   "theorems": [
    "C97_close"
   ],
   "note": "C97_close; the bound is twice stiffness, per hour."
  },
  {
   "property": "C98",
   "status": "proved",
   "theorems": [
    "C98_one_file",
    "C98_two_files",
    "C98_required"
   ],
   "note": "For every file and history; C98_short is a file that only the program accepts."
  },
  {
   "property": "C99",
   "status": "proved",
   "theorems": [
    "C99_settles"
   ],
   "note": "C99_settles; loss and mass temperature of the steady state are steady_loss and steady_mass, the factor is memory p."
  },
  {
   "property": "C100",
   "status": "proved",
   "theorems": [
    "C100_design_load"
   ],
   "note": "C100_design_load; without set-back (base = set-point) the middle term vanishes."
  },
  {
   "property": "C101",
   "status": "proved",
   "theorems": [
    "C101_cooling_load"
   ],
   "note": "C101_cooling_load; the counterpart of C100, with the gains added in full."
  },
  {
   "property": "C102",
   "status": "proved",
   "theorems": [
    "C102_no_negative"
   ],
   "note": "Over Flocq's binary64 (Dbl.v). Entries may be +infinity or NaN. Interior lighting and the plant columns are negative already in exact arithmetic (C24_refuted, C35_refuted)."
  },
  {
   "property": "C103",
   "status": "proved",
   "theorems": [
    "C103_order",
    "C103_answers",
    "C103_exchange"
   ],
   "note": "Objects made by any constructor, then any puts."
  },
  {
   "property": "C104",
   "status": "partial",
   "theorems": [
    "C104_same_partial",
    "C104_difference",
    "C104_more",
    "C104_hourly",
    "C104_monthly",
    "C104_refuted"
   ],
   "note": "False as stated. Interior equipment agrees if its power does not depend on occupancy (C104_same_partial); otherwise the exact difference is C104_difference, and for opening hours in the usual order the hourly engine always reports more (C104_more, C104_refuted). The hourly engine leaves out hot water and gas appliances (C104_hourly), the monthly engine exterior equipment (C104_monthly)."
  },
  {
   "property": "C105",
   "status": "proved",
   "theorems": [
    "C105_rounded"
   ],
   "note": "C105_rounded over doubles with rounding and overflow (Flocq binary64), any libm. The bound has an absolute part of 2000 half distances of the smallest doubles for underflow."
  },
  {
   "property": "C106",
   "status": "partial",
   "theorems": [
    "C106_text",
    "C106_close_partial",
    "C106_whole_partial",
    "C106_six_places_partial",
    "C106_refuted"
   ],
   "note": "False as stated: std::to_string keeps six decimals, so a number near 1e-7 is read back as zero (C106_refuted). Proved: the result is at most a millionth off (C106_close_partial), exact for whole numbers (C106_whole_partial) and for decimals of up to six places up to 1e9 (C106_six_places_partial); keys behave as for texts (C106_text)."
  },
  {
   "property": "C107",
   "status": "partial",
   "theorems": [
    "C107_hour_partial",
    "C107_year_partial",
    "C107_refuted"
   ],
   "note": "False as stated: in an hour warmer outside than the surfaces of a cooled-out building, poorer windows let heat in and save heating (C107_refuted). Proved for hours at most as warm outside as the mass and the heating set-point (C107_hour_partial), and for every hour of a year that never becomes warmer and whose air leakage is driven by the wind (C107_year_partial)."
  },
  {
   "property": "C108",
   "status": "partial",
   "theorems": [
    "C108_hour_partial",
    "C108_year_partial",
    "C108_refuted"
   ],
   "note": "False as stated: recovery is reckoned against 20 degrees whatever the set-point, so air warmer than 20 degrees is cooled on its way into a warmer room (C108_refuted). Proved for hours of at most 20 degrees outside (C108_hour_partial), and for every hour of a year of such hours whose air leakage is driven by the wind (C108_year_partial; the leakage condition is needed as in C93)."
  },
  {
   "property": "C109",
   "status": "partial",
   "theorems": [
    "C109_hour_partial",
    "C109_year_partial",
    "C109_refuted"
   ],
   "note": "False as stated: in an hour warmer outside than the set-point of a cooled-out building the leakage brings in heat (C109_refuted). Proved for an hour colder outside than the mass and the set-point and at most 20 degrees (C109_hour_partial), and for each hour of a year that never becomes warmer, under the condition on the leakage of C93 (C109_year_partial)."
  },
  {
   "property": "C110",
   "status": "proved",
   "theorems": [
    "C110_entries",
    "C110_others",
    "C110_total",
    "C110_hourly",
    "C110_monthly",
    "C110_same"
   ],
   "note": "In the build for OpenStudio. EndUses of OpenStudio is not in the repository and is modelled as a table by fuel and category. Entries for every number type, totals in exact arithmetic."
  },
  {
   "property": "C111",
   "status": "partial",
   "theorems": [
    "C111_hour_partial",
    "C111_year_partial",
    "C111_refuted"
   ],
   "note": "False as stated: in an hour warmer outside than a cooled-out building the poorer walls let in heat (C111_refuted), and sunlit dark walls collect in proportion to their U value. Proved for an hour colder outside than the mass and the set-point, at most 20 degrees, with no sun on absorbing walls (C111_hour_partial), and for each hour of a year of such hours that never becomes warmer, under the condition on the leakage of C93 (C111_year_partial)."
  },
  {
   "property": "C112",
   "status": "partial",
   "theorems": [
    "C112_refuted",
    "C112_free",
    "C112_fans"
   ],
   "note": "False as stated: preheating is free. C112_refuted gives an office at 0 degrees whose heating need falls while every other use stays equal or falls. C112_free shows this is so for every pair of heated hours: the need falls by exactly the heat given to the supplied air, and temperatures and every other use but the fans are unchanged; C112_fans: the fans use no more."
  },
  {
   "property": "C113",
   "status": "partial",
   "theorems": [
    "C113_heating_partial",
    "C113_cooling_partial",
    "C113_refuted"
   ],
   "note": "False as stated: C113_refuted gives a house with infiltration rate 0 that needs more than 1000000 MJ in every month, and at most 6000 MJ with rate 1 (the division by the rate is replaced by the largest double, see C59). Proved for every positive rate, in months with losses and without negative net gains (heating), and in months colder than the cooling set-point with gains (cooling)."
  },
  {
   "property": "C114",
   "status": "partial",
   "theorems": [
    "C114_more",
    "C114_heating_partial",
    "C114_cooling_partial",
    "C114_refuted"
   ],
   "note": "False as stated: C114_refuted gives a house whose white walls radiate more to the sky than they catch; its heating need is negative in every month, and more than 1000 MJ with black walls (the utilisation factor of negative net gains, see C91). C114_more is proved in full. The needs are proved for months with losses and without negative net gains (heating) or with gains (cooling), in buildings whose set-point is not set back at night (there the set-back temperature itself depends on the gains)."
  },
  {
   "property": "C115",
   "status": "partial",
   "theorems": [
    "C115_hours_partial",
    "C115_lamps_refuted",
    "C115_shades_refuted"
   ],
   "note": "False as stated, in two ways: daylight turns off lamps whose heat is then missing (C115_lamps_refuted), and movable shading drawn in strong sun can let less in than the bare window lets in of weaker sun (C115_shades_refuted). Proved hour by hour over the whole year for buildings whose shading factor is not below the bare window's and whose lamps give the same heat in both years, in weather where the leakage does not depend on the indoor temperature (steady_leak, needed for the reason shown by C94_refuted)."
  },
  {
   "property": "C116",
   "status": "proved",
   "theorems": [
    "C116_appliances"
   ],
   "note": "C116_appliances over doubles with rounding and overflow (Flocq binary64), any libm. Whole hours 0 to 24 and days 0 to 6. The bound has an absolute part of 2000 half distances of the smallest doubles for underflow."
  },
  {
   "property": "C117",
   "status": "proved",
   "theorems": [
    "C117_total",
    "C117_hourly",
    "C117_monthly",
    "C117_same"
   ],
   "note": "C117_total for every table; C117_hourly and C117_monthly for the tables of both engines when finite; C117_same compares the two reports of the hourly engine. Doubles with rounding and overflow (Flocq binary64), any libm."
  },
  {
   "property": "C118",
   "status": "proved",
   "theorems": [
    "C118_hot_water"
   ],
   "note": "C118_hot_water over doubles with rounding and overflow (Flocq binary64), any libm. The bound is purely relative. Inputs between 10^-9 and 10^9, demand and temperature rise may be zero; the kWh is the engine's own 3.6f."
  },
  {
   "property": "C119",
   "status": "proved",
   "theorems": [
    "C119_lights"
   ],
   "note": "C119_lights over doubles with rounding and overflow (Flocq binary64), any libm. Purely relative bound. Powers, dimming and control factors zero or between 10^-9 and 10^9. Timetables that pass midnight or miss the daylight are excluded: C24_refuted shows that the code then reports negative lighting."
  },
  {
   "property": "C120",
   "status": "proved",
   "theorems": [
    "C120_outside"
   ],
   "note": "C120_outside over doubles with rounding and overflow (Flocq binary64), any libm. Purely relative bound. A month without any sun is undefined behaviour (C28_refuted) and has no table."
  },
  {
   "property": "C121",
   "status": "partial",
   "theorems": [
    "C121_refuted",
    "C121_zenith",
    "C121_month_lost",
    "C121_irradiance_partial",
    "C121_months_partial"
   ],
   "note": "False as stated: C121_refuted and C121_zenith give a site in the tropics (latitude -23.05862926, longitude 0.72604224, time zone 0) at which the sine of the solar altitude rounds to 1 + 2^-52 at 12:00 on day 0, so asin and all eight irradiances of the hour are NaN, for every weather and tilt and every library that rounds sine and cosine correctly; C121_month_lost: the January means are NaN with it. C121_irradiance_partial: vertical surfaces at every site between 30 and 90 degrees of latitude, either hemisphere, get finite values of size at most 10^7 in all hours. C121_months_partial: the monthly means there are finite and close to the exact means."
  },
  {
   "property": "C122",
   "status": "partial",
   "theorems": [
    "C122_needs",
    "C122_table",
    "C122_refuted",
    "C122_zenith",
    "C122_months",
    "C122_fans",
    "C122_fan_months"
   ],
   "note": "False as stated: C122_refuted gives two years that differ only in the first temperature; in one the second hour has a positive heating need, in the other no hour of the year has any need. C122_needs and C122_table prove the actual behaviour for every building, weather and library: from the first hour with a temperature or irradiance that is not a number to the end of the year the heating need, the cooling need and the pump figure are exactly zero, and the heating, cooling, pump and gas columns show zero or NaN. Such an hour arises from a weather file that contains nan, or from a site of C121 with the sun at the zenith. C122_zenith: at the site of C121 the loaded file itself produces such an hour at noon of 1 January, so the plant of every building is silent from then on, whatever the file says. C122_months: in the monthly table of this engine every month that begins at or after the unreadable hour shows zero or NaN for the plant. Hours before it keep their needs (C17_causal_raw). C122_fans: where heating or cooling is by air, the fan figure of every later hour is NaN. C122_fan_months: so are the fan figures of every month with such an hour."
  },
  {
   "property": "C123",
   "status": "partial",
   "theorems": [
    "C123_year",
    "C123_refuted",
    "C123_zenith"
   ],
   "note": "False as stated: C123_year proves that for every building, with its own plant or district energy, whose floor area and system efficiencies are positive, one month without a mean temperature or irradiance makes the heating, cooling and pump figures of all twelve months NaN, because the yearly sums enter the distribution factors of every month. C123_refuted compares two years that differ in the January temperature only. A month whose irradiance is NaN arises from the site of C121 (C121_month_lost). C123_zenith: at that site every such building gets NaN for heating, cooling and pumps in all months, whatever the file says, provided NaN survives the text written by the converter."
  }
 ]
}