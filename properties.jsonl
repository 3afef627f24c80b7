{"id": "C01", "title": "Calendar arrays are a correct, complete 365-day calendar", "statement": "A default-constructed TimeFrame describes all 8760 hours of a non-leap year exactly once: hour i has clock hour i mod 24, ordinal day i div 24, weekday (i div 24) mod 7 starting at 0, and the month and day-of-month of a 365-day calendar; every array write stays inside the 8760-entry arrays.", "quantifier": "every hour index of the year", "why_tests_cant": "The unit test spot-checks a few hours; the claim is about every index and about all writes being in bounds.", "anchors": ["IsoModel/src/TimeFrame.cpp: TimeFrame::TimeFrame, monthLength", "IsoModel/src/TimeFrame.hpp: TIMESLICES"]}
{"id": "C02", "title": "Monthly aggregation of the hourly model partitions the year", "statement": "HourlyModel::simulate(true) returns 12 results whose every end use is the sum, in time order, of the end uses that simulate(false) reports for exactly the hours the calendar assigns to that month; no hour is dropped or counted twice, so annual totals agree.", "quantifier": "every building, weather file and end use; every 8760-entry series of numbers", "why_tests_cant": "It is a statement about all 8760-element series; the hard-coded month boundaries and the calendar live in two different places.", "anchors": ["IsoModel/src/HourlyModel.cpp: sumHoursByMonth, simulate", "IsoModel/src/TimeFrame.cpp"]}
{"id": "C03", "title": "Hourly heating and cooling demand are non-negative and never simultaneous", "statement": "In every simulated hour the heating need and the cooling need are both finite and >= 0 and at least one of them is 0, for a physically meaningful building.", "quantifier": "every building satisfying the stated physical preconditions, every weather hour, schedule hour and thermal state", "why_tests_cant": "A test samples some hours of one weather file; the claim ranges over all states.", "anchors": ["IsoModel/src/HourlyModel.cpp: calculateHour"]}
{"id": "C04", "title": "Thermostat correctness of the hourly step", "statement": "After each hour the stored indoor air temperature equals the free-floating temperature clamped into [heating set-point, cooling set-point]: energy is spent only when the free-floating temperature leaves the band, and then exactly the amount that puts the air temperature on the violated set-point.", "quantifier": "every building with physical conductances, every hour input with heating set-point <= cooling set-point, every prior state", "why_tests_cant": "Requires algebra over the whole RC-network solution; holds for all inputs or not at all.", "anchors": ["IsoModel/src/HourlyModel.cpp: calculateHour"]}
{"id": "C05", "title": "Crossed set-points are handled safely by the hourly step", "statement": "If the heating set-point is above the cooling set-point in some hour the hourly model still leaves the air temperature between the two set-points.", "quantifier": "every building and hour with heating set-point > cooling set-point", "why_tests_cant": "Needs a universally quantified statement or an exhibited counterexample.", "anchors": ["IsoModel/src/HourlyModel.cpp: calculateHour (phiActual)"]}
{"id": "C06", "title": "Hourly step is numerically well posed", "statement": "For a building with positive floor area, conductances, heat capacity, non-negative ventilation and the coupling condition below, one hourly step performs no division by zero and produces only finite numbers; the coupling condition is that the opaque envelope conductance is below the mass coupling conductance (otherwise the derived exterior-mass conductance is infinite or negative).", "quantifier": "every building and hour inputs meeting the preconditions", "why_tests_cant": "Division by zero depends on exact coincidences of real inputs which sampling will not hit.", "anchors": ["IsoModel/src/HourlyModel.cpp: calculateHour, initialize"]}
{"id": "C07", "title": "Thermal mass temperature stays bounded over any number of hours", "statement": "With the stability condition on the time step (Cm/3.6 >= half of the mass conductances), starting from an indoor state inside a temperature range, if outdoor/supply temperatures stay in the range and no gains or plant input occur the mass temperature stays in the range for every number of hours; without the stability condition it need not.", "quantifier": "every building, every weather sequence of any length", "why_tests_cant": "Induction over arbitrarily long runs.", "anchors": ["IsoModel/src/HourlyModel.cpp: calculateHour (TMT1 update)"]}
{"id": "C08", "title": "Hourly auxiliary end uses follow the plant state", "statement": "Pump energy in an hour is the cooling pump rating when cooling is needed, else the heating pump rating when heating is needed, else 0; exterior lights are off exactly when horizontal radiation is positive; interior equipment is the scheduled density; DHW is 0.", "quantifier": "every building, hour and state", "why_tests_cant": "All-branches statement over all reals.", "anchors": ["IsoModel/src/HourlyModel.cpp: calculateHour"]}
{"id": "C09", "title": "Hourly fan energy never drops below the ventilation requirement", "statement": "Fan energy each hour is at least the scheduled ventilation flow times specific fan power and is non-negative, equals it when the plant does not use forced air, and never decreases with a larger ventilation schedule.", "quantifier": "every building, hour and state", "why_tests_cant": "Universally quantified inequality over a formula with a guarded division.", "anchors": ["IsoModel/src/HourlyModel.cpp: calculateHour (Vair_tot, Qfan_tot)"]}
{"id": "C10", "title": "Occupancy schedules are the documented closed intervals", "statement": "The hourly model treats hour h of weekday d as occupied exactly when hoursStart <= h <= hoursEnd and daysStart <= d <= daysEnd (both ends included), each of the 7x24 schedule cells is written, and set-points, lighting, equipment and ventilation take the occupied/unoccupied value accordingly.", "quantifier": "every schedule and every (weekday, hour) cell", "why_tests_cant": "All integer combinations of four parameters times 168 cells.", "anchors": ["IsoModel/src/HourlyModel.cpp: populateSchedules", "IsoModel/src/Population.hpp"]}
{"id": "C11", "title": "Both simulation engines agree on how many hours are occupied", "statement": "For the same Population schedule the monthly model counts the same number of occupied hours per week as the hourly model's schedule has occupied cells.", "quantifier": "every schedule 0..23 x 0..6", "why_tests_cant": "Relates two engines; no existing test compares them.", "anchors": ["IsoModel/src/MonthlyModel.cpp: scheduleAndOccupancy", "IsoModel/src/HourlyModel.cpp: populateSchedules", "IsoModel/src/Population.hpp"]}
{"id": "C12", "title": "Interior lighting power is bounded and decreases with daylight (hourly)", "statement": "With a naturally lit area not exceeding the floor area the interior lighting power in each hour lies between 0 and the scheduled installed power and never increases when any surface receives more radiation (no shading).", "quantifier": "every building, schedule and radiation vector", "why_tests_cant": "Universally quantified bounds/monotonicity.", "anchors": ["IsoModel/src/HourlyModel.cpp: calculateHour (electricForNaturalLightArea), initialize"]}
{"id": "C13", "title": "Heating energy is charged to exactly one carrier (hourly)", "statement": "simulate charges all heating energy to electricity when the heating energy type is electric (1) and all of it to gas otherwise, never to both; gas cooling, gas equipment and both hot-water slots are 0 in every result.", "quantifier": "every building, weather file, and both result resolutions", "why_tests_cant": "All-building routing statement.", "anchors": ["IsoModel/src/HourlyModel.cpp: simulate"]}
{"id": "C14", "title": "Distribution losses only add energy", "statement": "The system energy charged for heating (cooling) in each hour is need*(1 + loss + waste/demand-fraction)/efficiency; with non-negative losses and efficiency <= 1 it is at least the need, is zero when the need is zero and is proportional to the need with one factor per year.", "quantifier": "every building and non-degenerate year of needs", "why_tests_cant": "Inequality over all reals.", "anchors": ["IsoModel/src/HourlyModel.cpp: simulate (f_dem_ht, eta_dist_ht)"]}
{"id": "C15", "title": "Hourly results are always finite numbers", "statement": "Every end use returned by HourlyModel::simulate is a finite number whenever the inputs are finite and physical.", "quantifier": "every building and weather file, including a year with neither heating nor cooling need", "why_tests_cant": "The failing region (a year with no demand) is not in the regression data.", "anchors": ["IsoModel/src/HourlyModel.cpp: simulate (f_dem_ht = Qht/(Qcl+Qht))"]}
{"id": "C16", "title": "Repeated hourly simulation is repeatable", "statement": "Calling simulate() again on the same HourlyModel gives the same results as the first call, and after changing the structure through setStructure it gives the results a freshly constructed model would give.", "quantifier": "every sequence of setStructure and simulate calls", "why_tests_cant": "A statement about call histories.", "anchors": ["IsoModel/src/HourlyModel.cpp: initialize (push_back), simulate", "IsoModel/src/HourlyModel.hpp"]}
{"id": "C17", "title": "Hourly simulation is causal", "statement": "The hourly needs, lighting, fan, pump and temperatures of hour i depend only on weather of hours 0..i; changing later weather cannot change earlier raw results.", "quantifier": "every pair of weather files agreeing on a prefix", "why_tests_cant": "Relational property over all pairs of inputs.", "anchors": ["IsoModel/src/HourlyModel.cpp: simulate, calculateHour"]}
{"id": "C18", "title": "Result tables have the documented shape", "statement": "simulate returns 12 (monthly) or 8760 (hourly) entries of 13 end uses in the documented order, in every case, for both engines.", "quantifier": "every building and weather", "why_tests_cant": "Holds for all inputs by construction of the assembly loops only.", "anchors": ["IsoModel/src/HourlyModel.cpp: simulate", "IsoModel/src/MonthlyModel.cpp: outputGeneration", "IsoModel/src/EndUses.hpp"]}
{"id": "C19", "title": "Effective mass area is a continuous monotone function of heat capacity", "statement": "The effective mass area used by the hourly model is between 2.5 and 3.5, non-decreasing and continuous in the effective heat capacity (no jump at the class boundaries).", "quantifier": "every heat capacity", "why_tests_cant": "Continuity and monotonicity over the reals.", "anchors": ["IsoModel/src/HourlyModel.cpp: initialize (Am)"]}
{"id": "C20", "title": "Monthly time partition", "statement": "In the monthly model the occupied, weekday-unoccupied and weekend fractions of the week sum to 1, and for every month the corresponding megasecond buckets sum to the length of the month.", "quantifier": "every schedule", "why_tests_cant": "Holds for all schedules.", "anchors": ["IsoModel/src/MonthlyModel.cpp: scheduleAndOccupancy"]}
{"id": "C21", "title": "Monthly model uses the configured occupied clock hours", "statement": "The clock hours treated as occupied by the monthly model are the configured hours (starting at hoursStart); occupied and unoccupied masks are complementary.", "quantifier": "every schedule", "why_tests_cant": "All schedules; shipped examples all start at 7 so tests cannot see it.", "anchors": ["IsoModel/src/MonthlyModel.cpp: scheduleAndOccupancy (clockHourOccupied)"]}
{"id": "C22", "title": "Week-long and wrapping schedules", "statement": "A schedule of d consecutive days starting on any weekday yields d occupied days per week in the monthly model, including all 7.", "quantifier": "every start day and number of days 1..7", "why_tests_cant": "Boundary combination not in the tests.", "anchors": ["IsoModel/src/MonthlyModel.cpp: scheduleAndOccupancy (daysOccupied)"]}
{"id": "C23", "title": "Monthly model with an empty occupancy schedule", "statement": "The monthly model yields finite internal gains for any schedule, including a building that is never or always occupied.", "quantifier": "every schedule", "why_tests_cant": "Degenerate denominators are not reached by test data.", "anchors": ["IsoModel/src/MonthlyModel.cpp: heatGainsAndLosses"]}
{"id": "C24", "title": "Monthly lighting energy", "statement": "Interior lighting energy is non-negative, its monthly values are the annual value split by month fractions that sum to one up to the documented rounding of the decimal constants, and occupancy/daylight/unoccupied lighting hours account for all 8760 hours.", "quantifier": "every building", "why_tests_cant": "Universally quantified conservation law.", "anchors": ["IsoModel/src/MonthlyModel.cpp: lightingEnergyUse"]}
{"id": "C25", "title": "Domestic hot water conservation", "statement": "Monthly hot-water demand is charged to exactly one carrier, is non-negative, sums over the year to the annual demand, is divided by the system efficiency exactly once and is lowered by solar contribution without going negative.", "quantifier": "every building", "why_tests_cant": "Conservation over all inputs.", "anchors": ["IsoModel/src/MonthlyModel.cpp: heatedWater"]}
{"id": "C26", "title": "Window shading parameter is safe", "statement": "Every window shading device value accepted by the property loader leads to a defined window solar gain (no out-of-range table access).", "quantifier": "every value of windowSDF", "why_tests_cant": "The table access is undefined behaviour that a test may silently survive.", "anchors": ["IsoModel/src/MonthlyModel.cpp: windowSolarGain (n_win_SDF_table)", "IsoModel/test_data: SmallOffice_v2.ism windowSDF"]}
{"id": "C27", "title": "Solar fractions cover the week", "statement": "The fractions of monthly solar energy attributed to occupied weekday, unoccupied weekday, weekend day and weekend night hours are non-negative and consistent: they are fractions of the same total and cover it.", "quantifier": "every monthly radiation table and schedule", "why_tests_cant": "All radiation tables.", "anchors": ["IsoModel/src/MonthlyModel.cpp: solarRadiationBreakdown"]}
{"id": "C28", "title": "Sun-up hours are always defined", "statement": "For every month the number of sun-up hours is between 0 and 24 and is computed from defined values, including months in which the sun never rises.", "quantifier": "every hourly radiation table", "why_tests_cant": "Polar-night input reads uninitialised memory; a test may pass by luck.", "anchors": ["IsoModel/src/MonthlyModel.cpp: solarRadiationBreakdown (sun up / sun down)"]}
{"id": "C29", "title": "Gain/loss utilisation", "statement": "The monthly gain utilisation factor is in (0,1] and the heating need lies between max(0, losses - gains) and losses (dually for cooling) for every positive gain/loss ratio including 1.", "quantifier": "every gain/loss ratio and time constant", "why_tests_cant": "The factor is 0/0 at exactly 1, unlikely to be sampled.", "anchors": ["IsoModel/src/MonthlyModel.cpp: heatingAndCooling"]}
{"id": "C30", "title": "Monthly HVAC energy balance and routing", "statement": "Delivered heating and cooling energy equals need plus distribution loss divided by plant efficiency, is charged to exactly one carrier per plant option, and with district cooling the absorption-chiller gas charge is proportional to the configured absorption fraction.", "quantifier": "every building and option combination", "why_tests_cant": "All combinations of flags and real parameters.", "anchors": ["IsoModel/src/MonthlyModel.cpp: hvac"]}
{"id": "C31", "title": "Monthly pump energy conservation", "statement": "The annual pump energy of the monthly model equals the rated heating and cooling pump energy (times operating fraction) distributed over the months, for any demand pattern including a year with no heating or no cooling.", "quantifier": "every vector of monthly needs", "why_tests_cant": "The degenerate case is not in the data.", "anchors": ["IsoModel/src/MonthlyModel.cpp: pump"]}
{"id": "C32", "title": "Monthly effective set-point temperatures", "statement": "The average indoor temperature used for heating never exceeds the occupied heating set-point after BEM adjustment, each period is cooled down towards (never below) the free-floating temperature, and a better building energy management level never raises heating set-points or lowers cooling set-points.", "quantifier": "every building, set-point pair and BEM level", "why_tests_cant": "Inequalities over all reals.", "anchors": ["IsoModel/src/MonthlyModel.cpp: interiorTemp"]}
{"id": "C33", "title": "Both engines use ventilation rates in the same unit", "statement": "A supply rate entered in the .ism file is converted to the same hourly air volume per floor area by the monthly and the hourly engine.", "quantifier": "every building", "why_tests_cant": "Relates two engines on all inputs.", "anchors": ["IsoModel/src/MonthlyModel.cpp: ventilationCalc", "IsoModel/src/HourlyModel.cpp: calculateHour/ventilationSchedule"]}
{"id": "C34", "title": "Monthly ventilation heat transfer is non-negative", "statement": "Infiltration and ventilation flows and the ventilation heat transfer coefficient are non-negative for non-negative parameters; natural ventilation ignores the mechanical supply rate.", "quantifier": "every building and month", "why_tests_cant": "Inequalities over all reals.", "anchors": ["IsoModel/src/MonthlyModel.cpp: ventilationCalc"]}
{"id": "C35", "title": "Monthly end uses are never negative", "statement": "Each of the 13 monthly end uses is >= 0 for every physical building and weather.", "quantifier": "every building and weather", "why_tests_cant": "The violating region (net negative gains) is outside the test data.", "anchors": ["IsoModel/src/MonthlyModel.cpp: heatingAndCooling, hvac, outputGeneration"]}
{"id": "C36", "title": "EPW record extraction", "statement": "Loading an EPW file puts fields 7,8,9,14,15,16 and 22 (1-based) of data line r+9 into row r of the dry bulb, dew point, humidity, global, beam, diffuse and wind speed columns; latitude, longitude and time zone come from header fields 7,8,9; extra lines beyond 8760 rows are ignored.", "quantifier": "every well-formed file of any length", "why_tests_cant": "All files; round trip with the CSV writer.", "anchors": ["IsoModel/src/EpwData.cpp: loadData, parseHeader, parseData"]}
{"id": "C37", "title": "Truncated EPW input is detected or leaves defined zeros", "statement": "A data line with missing trailing fields does not silently produce weather values, and re-loading a shorter file does not leave values of the previous file.", "quantifier": "every malformed file / every pair of files", "why_tests_cant": "History dependence and malformed input.", "anchors": ["IsoModel/src/EpwData.cpp: parseData, loadData"]}
{"id": "C38", "title": "Block weather loading", "statement": "Loading a raw block stores value c*blockSize+i+3 as hour i of column c and the first three values as latitude, longitude and time zone; blocks larger than 8760 hours are memory-safe.", "quantifier": "every block and block size", "why_tests_cant": "All sizes; out-of-bounds writes are undefined behaviour.", "anchors": ["IsoModel/src/EpwData.cpp: loadData(int,double*)"]}
{"id": "C39", "title": "Monthly weather averages are true means", "statement": "Each monthly average equals the arithmetic mean of the hourly values of that calendar month, each hour-of-day average equals the mean over the days of the month at that clock hour, hence they lie between the minimum and maximum, and the mean of the 24 hour-of-day averages equals the monthly average.", "quantifier": "every 8760-hour weather record", "why_tests_cant": "All weather records.", "anchors": ["IsoModel/src/SolarRadiation.cpp: calculateAverages, calculateMonthAvg, clearMonthlyAvg"]}
{"id": "C40", "title": "Averages are recomputed from scratch", "statement": "Calling Calculate() again after reloading weather gives exactly what a fresh SolarRadiation on the new data gives.", "quantifier": "every pair of weather records", "why_tests_cant": "History property.", "anchors": ["IsoModel/src/SolarRadiation.cpp: Calculate"]}
{"id": "C41", "title": "Sun position is geometrically consistent", "statement": "For every hour and latitude the arguments of asin/acos are within [-1,1], the altitude is within [-pi/2, pi/2], and the computed azimuth sine and cosine satisfy sin^2+cos^2=1 whenever the sun is not at the zenith.", "quantifier": "every latitude, day and hour", "why_tests_cant": "Trigonometric identity over the reals.", "anchors": ["IsoModel/src/SolarRadiation.hpp: calculateSolarAltitude, calculateSolarAzimuthSin/Cos, calculateAngleOfIncidence"]}
{"id": "C42", "title": "Surface irradiance is bounded and non-negative", "statement": "Direct irradiance on a surface lies between 0 and the beam irradiance, the diffuse factor is at least 0.45 and at most 1.3, and total irradiance is non-negative whenever beam and diffuse inputs are non-negative.", "quantifier": "every sun position, tilt in [0,pi], surface and irradiance", "why_tests_cant": "Inequalities over all angles; the night-time case needs a witness.", "anchors": ["IsoModel/src/SolarRadiation.hpp, SolarRadiation.cpp: calculateSurfaceSolarRadiation"]}
{"id": "C43", "title": "Weather summary text round trip", "statement": "The monthly and hour-of-day averages written to the ISO text form are read back into the same month/hour/surface positions for every weather record (values up to the six significant digits written).", "quantifier": "every table of values", "why_tests_cant": "Serialisation round trip for all tables.", "anchors": ["IsoModel/src/EpwData.cpp: toISOData", "IsoModel/src/UserModel.cpp: initializeSolar"]}
{"id": "C44", "title": "Property keys are case-insensitive and updates are local", "statement": "After putProperty(k,v), getProperty(k') returns v for every k' equal to k up to ASCII case and is unchanged for all other keys; contains agrees with getProperty; size grows by at most one.", "quantifier": "every sequence of puts and gets", "why_tests_cant": "All key strings and histories.", "anchors": ["IsoModel/src/Properties.cpp: putProperty, getProperty, contains"]}
{"id": "C45", "title": "Property file semantics", "statement": "Reading a property file yields, for each key, the trimmed value of the first non-comment line with that key; with two files the building file takes precedence over the defaults file for every key; blank and # lines have no effect.", "quantifier": "every file content", "why_tests_cant": "All texts; refinement to an association-list specification.", "anchors": ["IsoModel/src/Properties.cpp: readFile, Properties(building, defaults)"]}
{"id": "C46", "title": "Malformed property lines are always rejected", "statement": "A file containing a non-comment, non-blank line without '=', with an empty key or with an empty value is rejected, whatever else the file contains, and a file whose lines are all well formed is accepted.", "quantifier": "every file content", "why_tests_cant": "All texts.", "anchors": ["IsoModel/src/Properties.cpp: readFile"]}
{"id": "C47", "title": "Property file writing round trip", "statement": "Writing a map of clean keys and values as 'key = value' lines with arbitrary surrounding blanks, comments and CRLF endings and reading it back yields the same map.", "quantifier": "every map with clean keys/values and every layout", "why_tests_cant": "Round trip over all maps.", "anchors": ["IsoModel/src/Properties.cpp: readFile, str_trim"]}
{"id": "C48", "title": "Loading a building fails on any missing required parameter and keeps defaults for missing optional ones", "statement": "UserModel::load succeeds only if every required parameter is present with a parsable value; then each model field equals its parsed value; each optional parameter absent from the file keeps its default.", "quantifier": "every property map", "why_tests_cant": "Exponential number of missing-key combinations.", "anchors": ["IsoModel/src/UserModel.cpp: initializeParameters, initializeParameter"]}
{"id": "C49", "title": "Direction vectors are permuted correctly", "statement": "Vectors given in the file order N,NE,E,SE,S,SW,W,NW,Roof are stored so that the getter for each compass direction returns the file value for that direction; the reordering is an involution; vectors of the wrong length are rejected.", "quantifier": "every vector of every length", "why_tests_cant": "All vectors, including short ones that index out of range before the length check.", "anchors": ["IsoModel/src/UserModel.cpp: northToSouth, initializeParameter", "IsoModel/src/UserModel.hpp: direction getters"]}
{"id": "C50", "title": "Weather file path resolution", "statement": "The weather path is the directory of the building file joined with the weatherFilePath property, for every base path including one without a directory part.", "quantifier": "every pair of path strings", "why_tests_cant": "All strings; the bare-file-name case differs.", "anchors": ["IsoModel/src/UserModel.cpp: resolveFilename"]}
{"id": "C51", "title": "Weather loaded is weather used", "statement": "After loading weather into a UserModel, both the hourly and the monthly model created from it use the data of that load.", "quantifier": "every history of weather loads, cache hits and model creations", "why_tests_cant": "History property about shared objects and a cache keyed by coordinates.", "anchors": ["IsoModel/src/UserModel.cpp: loadWeather, loadAndSetWeather, toHourlyModel, toMonthlyModel", "IsoModel/src/UserModel.hpp: LatLon"]}
{"id": "C52", "title": "Models are isolated from later weather loads", "statement": "An HourlyModel or MonthlyModel already created keeps its results when the UserModel subsequently loads other weather.", "quantifier": "every history", "why_tests_cant": "Aliasing through a shared pointer is invisible to single-shot tests.", "anchors": ["IsoModel/src/UserModel.cpp: setCoreSimulationProperties, loadWeather"]}
{"id": "C53", "title": "Validity reporting", "statement": "valid() is true exactly when building parameters and weather were loaded successfully; model creation on an invalid UserModel has a defined outcome.", "quantifier": "every history of load calls", "why_tests_cant": "Depends on histories and an uninitialised member.", "anchors": ["IsoModel/src/UserModel.cpp: load, loadWeather, toHourlyModel, toMonthlyModel", "IsoModel/src/UserModel.hpp: _valid"]}
{"id": "C54", "title": "Cache key ordering", "statement": "The ordering on latitude/longitude pairs is a strict weak order whose equivalence is equality of both coordinates, so the weather cache finds an entry iff both coordinates match.", "quantifier": "every pair/triple of coordinates", "why_tests_cant": "Order axioms over all reals.", "anchors": ["IsoModel/src/UserModel.cpp: LatLon operator<"]}
{"id": "C55", "title": "Enumerated text parameters", "statement": "Fuel, ventilation type, hot water and BEM type texts are accepted case-insensitively exactly for the documented words, map to the documented codes, and any other text raises an error and changes nothing.", "quantifier": "every string", "why_tests_cant": "All strings.", "anchors": ["IsoModel/src/UserModel.hpp: setHeatingEnergyCarrier, setDhwEnergyCarrier, setVentilationType, setBemType"]}
{"id": "C56", "title": "CSV split round trip", "statement": "Splitting a comma separated line and re-joining it gives back the line, up to one trailing separator; every field list without embedded separators and without a trailing empty field is recovered.", "quantifier": "every string / field list", "why_tests_cant": "All strings.", "anchors": ["IsoModel/src/UserModel.cpp: stringSplit"]}
{"id": "C57", "title": "Number lists", "statement": "A comma separated list of numbers is read as exactly those numbers in that order, by both vector readers; an entry that is not a number is reported and never passed off as a shorter list; and an absent key is reported and leaves the caller's vector as it was.", "quantifier": "every property map, key and list of number texts", "why_tests_cant": "All lists of texts.", "anchors": ["IsoModel/src/Properties.cpp: getPropertyAsDoubleVector"]}
{"id": "C58", "title": "The cooling set-back matters in the monthly model", "statement": "A relaxed cooling set-point outside opening hours changes the indoor temperature, and so the cooling need, that the monthly model works with.", "quantifier": "every building, schedule, weather and pair of cooling set-points", "why_tests_cant": "Depends on the order of both set-points in every month.", "anchors": ["IsoModel/src/MonthlyModel.cpp: interiorTemp"]}
{"id": "C59", "title": "An airtight building exchanges no air by infiltration", "statement": "In the monthly model a building with infiltration rate 0 has only the mechanical ventilation flow, so its ventilation heat transfer coefficient is of the order of the supply rate.", "quantifier": "every building and weather", "why_tests_cant": "A zero parameter replaced by a huge quotient is not in the test data.", "anchors": ["IsoModel/src/MonthlyModel.cpp: ventilationCalc", "IsoModel/src/MonthlyModel.cpp: div"]}
{"id": "C60", "title": "Monthly results are numbers", "statement": "For every sound building and weather the monthly simulation returns 12 rows of finite numbers: no entry is infinite or not a number.", "quantifier": "every building with positive areas, efficiencies and densities, every weather", "why_tests_cant": "Exact cancellation of a divisor happens on inputs no test picks.", "anchors": ["IsoModel/src/MonthlyModel.cpp: simulate", "IsoModel/src/MonthlyModel.cpp: heatingAndCooling", "IsoModel/src/MonthlyModel.cpp: div"]}
{"id": "C61", "title": "Losses that gains do not offset must be heated", "statement": "In a month with heat losses and net gains that are not positive (thermal radiation to the sky exceeds sun and internal gains) the heating need is at least the losses.", "quantifier": "every building, weather and month", "why_tests_cant": "The sign branch of the utilisation factor is only reached by unusual net gains.", "anchors": ["IsoModel/src/MonthlyModel.cpp: heatingAndCooling"]}
{"id": "C62", "title": "Solar gains of the monthly model", "statement": "In the monthly model the solar gain of a month is, over the nine surfaces, window area times glazed share times transmittance times shading times the month's radiation on that surface, plus what the opaque part absorbs less what it radiates to a sky 11 K colder, times the length of the month.", "quantifier": "every building with nine surfaces, every weather, every month", "why_tests_cant": "A formula over nine surfaces and twelve months; tests fix a few numbers.", "anchors": ["IsoModel/src/MonthlyModel.cpp: solarHeatGain", "IsoModel/src/MonthlyModel.cpp: windowSolarGain"]}
{"id": "C63", "title": "Internal gains of the monthly model", "statement": "In the monthly model the internal gain is the floor area times the mean over the week of people and appliances, occupied and unoccupied, plus exactly the interior lighting energy that the result table reports.", "quantifier": "every building and weather", "why_tests_cant": "Relates two outputs for every schedule.", "anchors": ["IsoModel/src/MonthlyModel.cpp: heatGainsAndLosses", "IsoModel/src/MonthlyModel.cpp: internalHeatGain", "IsoModel/src/MonthlyModel.cpp: lightingEnergyUse"]}
{"id": "C64", "title": "Air exchange of the monthly model", "statement": "In the monthly model the ventilation heat transfer coefficient of a month follows from stack and wind leakage (the larger plus their weighted product, plus excess exhaust) and the mechanical supply in working hours reduced by recovery and recirculation, at the outdoor temperature, wind and room temperature of that month.", "quantifier": "every building, weather and month", "why_tests_cant": "Depends on powers of continuous inputs.", "anchors": ["IsoModel/src/MonthlyModel.cpp: ventilationCalc"]}
{"id": "C65", "title": "Appliance energy of the monthly model", "statement": "The equipment columns of the monthly result are, for each month, its hours times the mean of occupied and unoccupied appliance power weighted by the share of working hours in the week.", "quantifier": "every building, schedule and weather", "why_tests_cant": "Every schedule and month.", "anchors": ["IsoModel/src/MonthlyModel.cpp: energyUse", "IsoModel/src/MonthlyModel.cpp: simulate"]}
{"id": "C66", "title": "Fan energy of the monthly model", "statement": "The fan column of a month is the specific fan energy times the larger of the air that carries the month's heating and cooling at their supply temperatures and the ventilation air of the working hours.", "quantifier": "every building, weather and month", "why_tests_cant": "A maximum of two demands, for every input.", "anchors": ["IsoModel/src/MonthlyModel.cpp: hvac", "IsoModel/src/MonthlyModel.cpp: energyUse"]}
{"id": "C67", "title": "Room temperature of a week with set-back", "statement": "With set-back control the monthly model's room temperature is the mean over the week of the set-point in working hours and, outside them, of a room that cools towards its equilibrium but not below the set-back: the mean of week nights counts for week nights and the weekend's periods for the weekend.", "quantifier": "every building open two to six days a week, every weather and month", "why_tests_cant": "A chain of exponentials over five periods.", "anchors": ["IsoModel/src/MonthlyModel.cpp: interiorTemp"]}
{"id": "C68", "title": "The heating set-back matters every week", "statement": "A building that is colder outdoors than its heating set-back, without gains, has a lower mean room temperature with a set-back than without, also when it is open every day of the week.", "quantifier": "every building and weather", "why_tests_cant": "The seven-day week is a boundary of the schedule.", "anchors": ["IsoModel/src/MonthlyModel.cpp: interiorTemp", "IsoModel/src/MonthlyModel.cpp: div"]}
{"id": "C69", "title": "The program prints the simulation of its files", "statement": "The command line program reads the building file, an optional defaults file and the weather file the building names, and prints for the requests of the command line the results of the monthly and the hourly simulation of that building with that weather: a title, the names of the thirteen end uses and one numbered line per month or hour. The example building of the repository can be simulated both ways.", "quantifier": "every building, defaults and weather file, every combination of report options, every number format", "why_tests_cant": "Whole-program statement over all file contents and options.", "anchors": ["IsoModel/src/standalone_main.cpp: main", "IsoModel/src/standalone_main.cpp: runMonthlySimulation", "IsoModel/src/standalone_main.cpp: runHourlySimulation", "IsoModel/src/UserModel.cpp: load", "IsoModel/src/HourlyModel.cpp: simulate"]}
{"id": "C70", "title": "The comparison report", "statement": "With --compare the program prints for each of the thirteen end uses a table, as comma separated text or markdown, with the months numbered as in the other reports, the monthly result, the hourly result of that month and their difference.", "quantifier": "every building and weather, both formats", "why_tests_cant": "All months and end uses for arbitrary results.", "anchors": ["IsoModel/src/standalone_main.cpp: compare"]}
{"id": "C71", "title": "Choice of reports", "statement": "Without a report option the program prints the monthly table; several options are all served, in the order comparison, monthly, hourly by month, hourly by hour; without a building file it ends with code 1.", "quantifier": "every combination of options", "why_tests_cant": "All combinations, and every content of the reports.", "anchors": ["IsoModel/src/standalone_main.cpp: main"]}
{"id": "C72", "title": "Reports do not influence each other", "statement": "A report reads the same whether it is printed alone or after other reports.", "quantifier": "every building, weather and combination of options", "why_tests_cant": "State of the output stream across reports.", "anchors": ["IsoModel/src/standalone_main.cpp: main", "IsoModel/src/standalone_main.cpp: runMonthlySimulation"]}
{"id": "C73", "title": "Missing files are reported", "statement": "When the building file, the defaults file or the weather file is missing, or a building value is rejected, the program ends with an error and prints no report.", "quantifier": "every command line with a missing or rejected file", "why_tests_cant": "All combinations of missing files and options.", "anchors": ["IsoModel/src/standalone_main.cpp: main", "IsoModel/src/UserModel.cpp: load", "IsoModel/src/UserModel.cpp: loadWeather", "IsoModel/src/UserModel.cpp: toMonthlyModel"]}
{"id": "C74", "title": "Setters and getters form one consistent store", "statement": "After any sequence of calls of the setters of the building model, each getter returns the argument of the last call that concerns its parameter (by name: setFoo for foo, setWallArea for the nine wall areas in the order S, SE, E, NE, N, NW, W, SW, roof, a word for its code), or what it returned before if there was none. A rejected call (wrong vector length, unknown word) changes nothing, and no call is undefined.", "quantifier": "every sequence of setter calls with any arguments, every getter", "why_tests_cant": "About 200 getters times 200 setters times all histories.", "anchors": ["IsoModel/src/UserModel.hpp: setters and getters"]}
{"id": "C75", "title": "A setter and a file entry say the same", "statement": "Loading a building file and then calling setters gives the same building as loading the file with the corresponding entries changed, for every documented file property name; the changed file loads exactly when the calls succeed.", "quantifier": "every pair of files that differ in any set of documented entries, every previous state", "why_tests_cant": "All files and all sets of entries.", "anchors": ["IsoModel/src/UserModel.hpp: setters", "IsoModel/src/UserModel.cpp: initializeParameters", "IsoModel/src/UserModel.cpp: initializeStructure"]}
{"id": "C76", "title": "Required and optional parameters are as documented", "statement": "A building file that lacks a parameter documented as required does not load; a number that is documented otherwise may be left out, keeps its default and leaves the others unaffected.", "quantifier": "every file and every documented parameter", "why_tests_cant": "All files; all parameters.", "anchors": ["IsoModel/src/UserModel.hpp: Property is required", "IsoModel/src/UserModel.cpp: initializeParameters"]}
{"id": "C77", "title": "Loading a building replaces the previous one", "statement": "After loading several building files one after the other into the same object, the building is the one a fresh object gets from the last file alone; loading the same file again changes nothing, and whether a file loads does not depend on what was loaded before.", "quantifier": "every history of loads, every previous building", "why_tests_cant": "All histories of loads of arbitrary files.", "anchors": ["IsoModel/src/UserModel.cpp: load", "IsoModel/src/UserModel.cpp: initializeParameters", "IsoModel/src/UserModel.cpp: initializeParameter"]}
{"id": "C78", "title": "Hourly heat balance", "statement": "From the start of the simulated year to the end of any hour, heat supplied minus heat extracted plus gains minus losses equals the heat stored in the building mass; the supplied and extracted heat are the reported needs, the gains are the solar and internal gains less the share ISO 13790 lets leave directly through the windows.", "quantifier": "every building with ordered set-points, every weather, every number of hours", "why_tests_cant": "Sums over any prefix of 8760 coupled hours for arbitrary weather.", "anchors": ["IsoModel/src/HourlyModel.cpp: calculateHour", "IsoModel/src/HourlyModel.cpp: simulate"]}
{"id": "C79", "title": "No cooling in the cold, no heating in the warm", "statement": "In a building whose mass is heavy enough for the one-hour step to be stable: a year never warmer than the cooling set-points, without sun and internal sources, needs no cooling in any hour; a year never colder than the heating set-points needs no heating in any hour, whatever the sun and the internal sources.", "quantifier": "every building with ordered set-points, heat recovery between none and all, heating set-points at most and cooling set-points at least the 20 degrees at which the year starts, and air preheated to no more than the cooling set-points; every weather within the bound", "why_tests_cant": "All weather sequences; carry-over through the mass.", "anchors": ["IsoModel/src/HourlyModel.cpp: calculateHour", "IsoModel/src/HourlyModel.cpp: simulate"]}
{"id": "C80", "title": "Each end use depends only on its own parameters", "statement": "In either engine the value reported for an end use (heating, cooling, lights, fans, pumps, appliances, hot water, by fuel) is determined by a fixed list of building-file parameters for that end use: two buildings that agree on those parameters, and differ in anything else, get the same values for that end use in every row of the table.", "quantifier": "all pairs of building models, all weather, both engines, all thirteen end uses, any state of the model object, hourly and monthly output", "why_tests_cant": "It is a statement about all pairs of inputs (non-interference); tests vary a few parameters around one building.", "anchors": ["HourlyModel.cpp: simulate, initialize, calculateHour", "MonthlyModel.cpp: simulate, outputGeneration", "UserModel.hpp: accessor documentation"]}
{"id": "C81", "title": "Every parameter of the building file has an effect", "statement": "Changing the value of a parameter of the building file can change the results of each engine: no parameter is silently ignored.", "quantifier": "all parameters of the building file, both engines", "why_tests_cant": "That a parameter never matters is a statement about all buildings and all weather.", "anchors": ["HourlyModel.cpp: simulate", "MonthlyModel.cpp: simulate", "UserModel.cpp: initializeParameter"]}
{"id": "C82", "title": "Turning the building with its surroundings changes nothing", "statement": "If the eight walls of a building are listed in another order (areas, U-values, window data, together), and the radiation of the weather data on the eight directions is listed in the same order, both engines return exactly the same table; the roof keeps its place.", "quantifier": "every order of the eight walls, every building with nine surfaces (also with infinite or NaN values), every weather with nine (hourly) or eight (monthly) radiation entries", "why_tests_cant": "tests use one building in one orientation; a wall paired with the radiation of another direction is invisible when all walls are alike", "anchors": ["IsoModel/src/HourlyModel.cpp: HourlyModel::initialize, structureCalculations, calculateHour", "IsoModel/src/MonthlyModel.cpp: MonthlyModel::solarHeatGain, windowSolarGain"]}
{"id": "C83", "title": "Results per floor area do not depend on the size of the building", "statement": "If every quantity that grows with the building (floor, wall, window and daylit area, supplied air, ventilation conductance, exterior lights, external equipment, hot water demand) is multiplied by the same positive factor, the hourly table is exactly the same, and the monthly engine succeeds for the one exactly if it succeeds for the other, with the same table.", "quantifier": "every positive factor, every building with non-zero floor area and, for the hourly engine, a daylit area of at least 1e-4 m2 before and after (below that the code substitutes 1e-4), every weather", "why_tests_cant": "a missing or repeated division by the floor area is only visible by comparing simulations of different buildings", "anchors": ["IsoModel/src/HourlyModel.cpp: HourlyModel::initialize, calculateHour, simulate", "IsoModel/src/MonthlyModel.cpp: MonthlyModel::outputGeneration, lightingEnergyUse, heatedWater"]}
{"id": "C84", "title": "Each end use sees only the weather it should", "statement": "Hourly engine: the interior lights of an hour depend only on the radiation of that hour, the exterior lights only on its horizontal radiation, equipment and hot water on no weather. Monthly engine: lights, fans, equipment and hot water of a month depend only on the weather of that month, and interior lights, equipment and hot water on no weather.", "quantifier": "all pairs of weather years, all buildings, every hour or month, any state of the model object, any number type", "why_tests_cant": "it is a statement about all pairs of weather years (non-interference); tests run single years", "anchors": ["IsoModel/src/HourlyModel.cpp: simulate, calculateHour", "IsoModel/src/MonthlyModel.cpp: simulate"]}
{"id": "C85", "title": "The sun moves from east to west", "statement": "In every hour before solar noon the walls facing SE, E and NE get at least as much irradiance as the walls facing SW, W and NW (strictly more when there is beam radiation and the sun shines on the east wall); after solar noon it is the reverse; two hours of one day at the same distance from solar noon with the same radiation exchange the two sides and give the south wall the same.", "quantifier": "every site, tilt, year of non-negative radiation, hour of the year, history of the object", "why_tests_cant": "All sites, days and hours; a sign error in the hour angle, the longitude correction or the azimuths is invisible in totals.", "anchors": ["IsoModel/src/SolarRadiation.cpp: calculateSurfaceSolarRadiation, SurfaceAzimuths", "IsoModel/src/SolarRadiation.hpp: calculateSolarHourAngle, calculateApparentSolarTime"]}
{"id": "C86", "title": "Irradiance is linear in the radiation of the weather file", "statement": "If the beam and diffuse radiation of one year are a combination a*x + b*y of those of two other years, the irradiance of every wall in every hour, and the monthly means handed to the monthly engine, are the same combination (twice the radiation gives twice the irradiance).", "quantifier": "every pair of years, all factors, every site, wall, hour and month", "why_tests_cant": "All pairs of years; clamps and thresholds inside the formulas could break it anywhere.", "anchors": ["IsoModel/src/SolarRadiation.cpp: calculateSurfaceSolarRadiation, calculateAverages"]}
{"id": "C87", "title": "Monthly and annual energy of clock-driven end uses in the hourly engine is power times hours", "statement": "For a physical building and a weather year of 8760 hours, the monthly table of the hourly engine shows for interior equipment (occupied power times the occupied hours of the month plus unoccupied power times the other hours) / 1000, for exterior equipment its power times the hours of the month / floor area / 1000, and for exterior lights their power times the number of hours of the month without horizontal radiation / floor area / 1000. The hourly table adds up over the year to the same expressions for all 8760 hours. For a timetable of hours 0-23 and weekdays 0-6 the number of occupied hours of the year is (last hour - first hour + 1) times (52 times the number of open weekdays, plus one if weekday 0 is open), and 0 if the hours or the weekdays are given in reverse order.", "quantifier": "every physical building, every timetable, every weather year of 8760 hours and every month", "why_tests_cant": "The totals depend on the timetable, on the calendar of the year and on the weather; a test fixes one of each and compares with recorded numbers, so an off-by-one hour or day that was there when they were recorded is never noticed.", "anchors": ["IsoModel/src/HourlyModel.cpp: simulate, populateSchedules, calculateHour, sumHoursByMonth"]}
{"id": "C88", "title": "No end use becomes negative through rounding or overflow", "statement": "In IEEE double arithmetic, with rounding to nearest, overflow to infinity and any mathematical library, no entry of the hourly or monthly table of the hourly engine is below zero, for every building whose powers, efficiencies and loss factors carry no minus sign.", "quantifier": "all doubles for parameters and weather, all hours, both table forms, all implementations of the mathematical library", "why_tests_cant": "Rounding effects appear at particular operands; no set of test buildings covers the doubles.", "anchors": ["IsoModel/src/HourlyModel.cpp: HourlyModel::simulate, HourlyModel::processResults, HourlyModel::calculateHour"]}
{"id": "C89", "title": "End uses scale with powers, demands and efficiencies", "statement": "If the power, demand or efficiency that an end use is computed from is multiplied by a positive factor and the other parameters the end use depends on stay as they are, every hourly and monthly value of that end use is multiplied by the factor, or divided by it for an efficiency or coefficient of performance. In the monthly engine this needs a floor area, efficiencies of the hot water system and pump powers other than zero; for heating and cooling by the building's own plant the efficiency counts with the smallest positive normal double added.", "quantifier": "all buildings, all positive factors, all weather, both engines, every listed pair of end use and parameters", "why_tests_cant": "Only a few buildings and factors can be tried; the law must hold for every factor and at every hour.", "anchors": ["IsoModel/src/HourlyModel.cpp: HourlyModel::simulate, HourlyModel::processResults", "IsoModel/src/MonthlyModel.cpp: MonthlyModel::simulate, MonthlyModel::lightingEnergyUse, MonthlyModel::hvac, MonthlyModel::pump, MonthlyModel::heatedWater, MonthlyModel::outputGeneration"]}
{"id": "C90", "title": "One hour responds to heat, equipment and set-points in the right direction", "statement": "For a physical building whose thermal mass does not overshoot within an hour, compare two hours with the same weather, ventilation, lights and previous air temperature, the second with at least as warm a mass, at least as much equipment power and set-points at least as high: air and mass end no colder in the second. With equal set-points the second needs no more heating and no less cooling. With an equally warm mass, the heating saved and the cooling added are at most the added equipment power. If only the set-points differ, the second needs no less heating and no more cooling.", "quantifier": "Every physical building with a heat capacity that satisfies the stability condition, every pair of hours as described, from every thermal state.", "why_tests_cant": "The direction of change must hold for all buildings, weather values, states and sizes of change, including changes that move the hour between heating, floating and cooling.", "anchors": ["IsoModel/src/HourlyModel.cpp: calculateHour"]}
{"id": "C91", "title": "Monthly needs respond to appliances, windows and mass in the right direction", "statement": "In the monthly calculation, for a building without night or weekend set-back, taking away electric appliances, giving the windows higher U values or lowering the heat capacity of the interior never lowers the heating need of a month that is colder outside than the set-point. Taking away electric appliances or raising the heat capacity of the interior never raises the cooling need of a month.", "quantifier": "Every sound monthly building, every lower appliance power, every list of higher window U values, every change of heat capacity, every monthly weather and every month.", "why_tests_cant": "The needs go through an exponential utilisation curve whose exponent moves with the same inputs; the direction of change has to hold for all of them, not for sampled buildings.", "anchors": ["IsoModel/src/MonthlyModel.cpp: heatingAndCooling, heatGainsAndLosses, internalHeatGain, interiorTemp"]}
{"id": "C92", "title": "Monthly needs respond to set-points and outdoor temperature in the right direction", "statement": "In the monthly calculation, for a building without night or weekend set-back: a higher heating set-point or a colder month never lowers the heating need of a month with heat losses and without negative net gains. A higher cooling set-point or a colder month never raises the cooling need of a month with gains. Both hold although the air flow through leaks depends on the temperature difference.", "quantifier": "Every sound monthly building with non-negative ventilation data, every pair of set-points and of monthly temperatures, the same sun and wind, and every month in which both needs are numbers.", "why_tests_cant": "Losses, leak air flow and the utilisation curve all change with the temperature difference, including its sign; the direction has to hold for all of them.", "anchors": ["IsoModel/src/MonthlyModel.cpp: heatingAndCooling, ventilationCalc, interiorTemp"]}
{"id": "C93", "title": "More appliances never raise the heating or lower the cooling need of any hour of the year", "statement": "Simulating the same building and the same weather with appliances of higher power, every hour of the year needs at most as much heating and at least as much cooling as before. Over the year, the heating saved and the cooling added together do not exceed the electricity added.", "quantifier": "Every physical building with ordered set-points whose mass is slow against the hour, every pair of appliance powers, every weather list and every hour of the year.", "why_tests_cant": "Extra heat is stored in the mass and carried through thousands of hours, some of which heat and some of which cool; one wrong sign shows only for some building and some weather.", "anchors": ["IsoModel/src/HourlyModel.cpp: simulate, calculateHour"]}
{"id": "C94", "title": "Warmer weather never raises the heating or lowers the cooling need of any hour of the year", "statement": "Simulating the same building in two years with the same wind and sun, of which the second is at least as warm outdoors in every hour, every hour of the second year needs at most as much heating and at least as much cooling as in the first.", "quantifier": "Every physical building with ordered set-points whose mass is slow against the hour, every pair of weather lists so related, and every hour of the year.", "why_tests_cant": "The effect of one warm hour is carried by the mass into all later hours; the direction must hold for every building and every pair of years.", "anchors": ["IsoModel/src/HourlyModel.cpp: simulate, calculateHour"]}
{"id": "C95", "title": "Higher set-points need no less net heating over the year", "statement": "Simulating the same building and weather with heating and cooling set-points that are nowhere lower, the heating need of the year minus its cooling need does not fall, in weather in which the leakage of the building does not depend on its indoor temperature within the set-point band.", "quantifier": "Every physical building with ordered set-points whose mass is slow against the hour, every quadruple of higher set-points, and every weather list with such leakage.", "why_tests_cant": "Single hours may well need less heating with higher set-points, because of heat stored in hours before; only the sum over the year has a direction, and it must hold for every building.", "anchors": ["IsoModel/src/HourlyModel.cpp: simulate, calculateHour"]}
{"id": "C96", "title": "The weather of the past is forgotten geometrically", "statement": "Simulating the same building in two years whose weather is the same from some hour on, and before had the same wind and sun and outdoor temperatures at most d apart, the heating and cooling needs n hours after that hour differ by at most a fixed multiple of d times the n-th power of a factor below one that depends only on the building, in weather in which the leakage of the building does not depend on its indoor temperature within the set-point band.", "quantifier": "Every physical building with ordered set-points whose mass is slow against the hour and whose heat recovery lies between none and all, every difference d, every pair of weather lists so related and every later hour.", "why_tests_cant": "That starting values and old weather wash out is a statement about all histories; a test sees one pair of years and cannot tell slow decay from none.", "anchors": ["IsoModel/src/HourlyModel.cpp: simulate, calculateHour"]}
{"id": "C97", "title": "Small errors in the outdoor temperature have proportionally small effects", "statement": "Simulating the same building in two years with the same wind and sun, whose outdoor temperatures differ by at most d in every hour, the heating and cooling needs of every hour differ by at most d times twice the conductance of the fresh air and of the surfaces in that hour, however long the difference has lasted, in weather in which the leakage of the building does not depend on its indoor temperature within the set-point band.", "quantifier": "Every physical building with ordered set-points whose mass is slow against the hour and whose heat recovery lies between none and all, every difference d, every pair of weather lists so related and every hour of the year.", "why_tests_cant": "Errors could build up over 8760 steps; that they never do, for any building and any pattern of errors, is not visible in single runs.", "anchors": ["IsoModel/src/HourlyModel.cpp: simulate, calculateHour"]}
{"id": "C98", "title": "The unit tests load the same buildings as the program", "statement": "A building file (with or without a defaults file) loads in the unit test build exactly when it loads in the program and also gives the ten parameters that only that build reads; both then hold the same building, and the getters of the ten return the values of the file. In the unit test build every parameter documented as required is required.", "quantifier": "every pair of files, every state of the object before, every number reader", "why_tests_cant": "The tests run only one of the two builds, so no test can compare them.", "anchors": ["IsoModel/src/UserModel.cpp: initializeParameters, loadBuilding", "IsoModel/src/CMakeLists.txt: USE_NEW_BUILDING_PARAMS"]}
{"id": "C99", "title": "In steady weather the simulation settles at the steady-state heat loss", "statement": "For a building without internal sources, with the same heating set-point and air flow at all hours, simulated in constant dark weather, the heating need n hours after the start differs from the textbook steady-state loss (warming the fresh air up to the set-point, plus transmission through the air-to-surface conductance in series with windows and opaque walls) by at most a fixed amount, given by the start at 20 degrees, times the n-th power of a factor below one that depends only on the building; any cooling need fades in the same way. In weather in which the leakage does not depend on the indoor temperature within the set-point band.", "quantifier": "Every physical building with ordered set-points whose mass is slow against the hour, every constant dark weather in which it does not gain heat, every length of the run and every hour.", "why_tests_cant": "A test compares one late hour of one building with one number; that every building converges, how fast, and to the loss computed by hand from its description, is a statement about all of them.", "anchors": ["IsoModel/src/HourlyModel.cpp: initialize, simulate, calculateHour"]}
{"id": "C100", "title": "No hour needs more heating than the design load", "statement": "If it is never colder outside than some temperature, no heating set-point is below some base temperature of at most 20 degrees, and the fresh air never exceeds some flow, then the heating need of every hour is at most the design load: warming that flow from the outdoor minimum to the set-point of the hour, the air-to-surface conductance times the set-point above the base temperature, and transmission from base to outdoor minimum. Whatever the weather, the sun and the sources did before.", "quantifier": "Every physical building with ordered set-points whose mass is slow against the hour, whose sources are no sinks and whose heat recovery lies between none and all, every weather list no colder than the minimum and every hour of the year.", "why_tests_cant": "Plant is sized by such a bound; it must hold at the worst moment of every history, for instance when the set-point rises after a cold spell, which no set of test years is known to contain.", "anchors": ["IsoModel/src/HourlyModel.cpp: initialize, simulate, calculateHour"]}
{"id": "C101", "title": "No hour needs more cooling than the cooling load", "statement": "If it is never warmer outside than some temperature, no cooling set-point is above some top temperature between 20 degrees and that outdoor maximum, the fresh air never exceeds some flow, and the sun and the internal sources never give more than two bounds, then the cooling need of every hour is at most the cooling load: cooling that flow from the outdoor maximum to the set-point of the hour, the air-to-surface conductance times the top temperature above the set-point, transmission from outdoor maximum to top, and the two gains. Whatever the mass has stored before.", "quantifier": "Every physical building with ordered set-points whose mass is slow against the hour, whose sources are no sinks, whose heat recovery lies between none and all and that does not preheat above the outdoor maximum, every weather list within the bounds and every hour of the year.", "why_tests_cant": "Chillers are sized by such a bound; it must hold at the worst moment of every history, when the mass gives back what it stored in a hot and sunny week, which no set of test years is known to contain.", "anchors": ["IsoModel/src/HourlyModel.cpp: initialize, simulate, calculateHour"]}
{"id": "C102", "title": "Rounding never makes a clock-driven end use of the monthly engine negative", "statement": "In IEEE double arithmetic, with rounding to nearest, overflow to infinity and any mathematical library, no entry of the columns exterior lights, fans, electric and gas appliances, exterior equipment and hot water of the monthly table is below zero, for every building whose powers, areas and ventilation rate carry no minus sign, with opening hours within 0 to 24 and opening days within 0 to 6, also when they wrap, and for every weather, also when the heating and cooling needs are negative or no numbers.", "quantifier": "all doubles for the other parameters and for the weather tables, all implementations of the mathematical library", "why_tests_cant": "Rounding effects appear at particular operands; the shares of the week are differences of rounded quotients, and no set of test buildings covers the doubles.", "anchors": ["IsoModel/src/MonthlyModel.cpp: MonthlyModel::simulate, MonthlyModel::outputGeneration, MonthlyModel::scheduleAndOccupancy, MonthlyModel::heatedWater"]}
{"id": "C103", "title": "Keys of a property object are listed in alphabetical order", "statement": "Iterating over the keys of a property object gives each key once, in lower case and in ascending byte order, whatever the order of the puts or of the lines of the file; two objects that answer every query alike list the same keys; updates of different keys can be exchanged.", "quantifier": "every sequence of puts, every property file", "why_tests_cant": "All histories and all key strings.", "anchors": ["IsoModel/src/Properties.hpp: keys_begin, keys_end", "IsoModel/src/Properties.cpp: putProperty, getProperty, readFile"]}
{"id": "C104", "title": "Both engines report the same annual energy of end uses that do not depend on the room", "statement": "For the same building the monthly simulation and the hourly simulation report the same energy per year for interior equipment, exterior equipment, gas appliances and hot water.", "quantifier": "every building that both engines accept, every timetable and weather", "why_tests_cant": "Relates two engines over all buildings and calendars; no test compares them.", "anchors": ["IsoModel/src/HourlyModel.cpp: simulate, populateSchedules", "IsoModel/src/MonthlyModel.cpp: energyUse, heatedWater, scheduleAndOccupancy"]}
{"id": "C105", "title": "Monthly totals in double arithmetic are right to thirteen digits", "statement": "In IEEE double arithmetic the monthly table of an hourly simulation shows interior equipment, exterior equipment and exterior lights within one part in 10^13 of the exact power times the exact number of hours, for any finite powers below 10^300 and any floor area of at least one square metre; no total overflows and rounding of up to 744 terms does not add up to more.", "quantifier": "every building with finite powers, every whole-number timetable, every weather of 8760 hours, every mathematical library", "why_tests_cant": "Bounds accumulated rounding over all buildings and weather, tests compare with a tolerance for a few.", "anchors": ["IsoModel/src/HourlyModel.cpp: simulate, sumHoursByMonth, processResults", "IsoModel/src/HourlyModel.cpp: calculateHour"]}
{"id": "C106", "title": "A number stored in the property map is read back", "statement": "After putProperty(key, number) the call getPropertyAsDouble with any spelling of that key returns the same number; other keys keep their values.", "quantifier": "every property map, every key, every finite double, every C library that reads decimals correctly rounded", "why_tests_cant": "Quantifies over all doubles; tests store a few short decimals.", "anchors": ["IsoModel/src/Properties.cpp: putProperty, getPropertyAsDouble", "IsoModel/src/Properties.hpp: putProperty"]}
{"id": "C107", "title": "Better windows save heating in cold hours", "statement": "With lower window U values, an hour never needs more heating or less cooling, and the building ends it no colder.", "quantifier": "every physical building, every list of window U values not below its own, every hour and every year of the hourly engine", "why_tests_cant": "Quantifies over buildings, window vectors, weather and thermal state; tests run a few fixed buildings.", "anchors": ["IsoModel/src/HourlyModel.cpp: calculateHour, initialize, simulate", "IsoModel/src/Structure.hpp: windowUniform"]}
{"id": "C108", "title": "Heat recovery and preheating save heating", "statement": "With more efficient heat recovery or warmer preheating of the ventilation air, an hour never needs more heating or less cooling, and the building ends it no colder.", "quantifier": "every physical building, every higher recovery efficiency and preheating temperature, every hour and every year of the hourly engine", "why_tests_cant": "Quantifies over buildings, efficiencies, weather and thermal state; tests run a few fixed buildings.", "anchors": ["IsoModel/src/HourlyModel.cpp: calculateHour, simulate", "IsoModel/src/Ventilation.hpp: heatRecoveryEfficiency, ventPreheatDegC"]}
{"id": "C109", "title": "A tighter building needs no more heating", "statement": "In the hourly engine, reducing the air leakage of a building, all else equal, never increases the heating need and never lowers the room and mass temperatures of an hour, whatever the weather, wind and schedules.", "quantifier": "every physical building, leakage, weather, schedule and hour of the year", "why_tests_cant": "All buildings, leakages, weathers and histories.", "anchors": ["IsoModel/src/HourlyModel.cpp: calculateHour, initialize (q4Pa, exfiltration)"]}
{"id": "C110", "title": "The total energy use counts every end use once", "statement": "totalEnergyUse of a simulation's results is the sum of all end uses of all time steps, each counted exactly once whatever other fuels and categories exist; every end use is found under its own fuel and category; and the hourly engine's total is the same whether it reports by the hour or by the month.", "quantifier": "every result of both engines, every list of fuels and categories of the host application, every building and weather", "why_tests_cant": "Quantifies over result tables and over the host's enumerations; the function is not even compiled into the standalone tests.", "anchors": ["IsoModel/src/ISOResults.cpp: totalEnergyUse", "IsoModel/src/HourlyModel.cpp: simulate (OpenStudio branch)", "IsoModel/src/MonthlyModel.cpp: outputGeneration (OpenStudio branch)"]}
{"id": "C111", "title": "Better insulated walls need no more heating", "statement": "In the hourly engine, lowering the U values of walls and roof, all else equal, never increases the heating need and never lowers the room and mass temperatures of an hour, whatever the weather and schedules.", "quantifier": "every physical building, list of U values, weather, schedule and hour of the year", "why_tests_cant": "All buildings, insulations, weathers and histories.", "anchors": ["IsoModel/src/HourlyModel.cpp: calculateHour, initialize (hWall, hem)"]}
{"id": "C112", "title": "Preheating of ventilation air is paid for", "statement": "In the hourly engine the heat that preheating puts into the ventilation air is charged somewhere: when a higher preheat temperature lowers the heating need of an hour, some other use of the same hour (cooling, lights, fans, pumps, equipment, hot water) grows.", "quantifier": "every physical building, preheat temperature, schedule, weather and starting state of an hour", "why_tests_cant": "All buildings, preheat temperatures, weathers and states; a run of one input file shows a plausible lower heating need.", "anchors": ["IsoModel/src/HourlyModel.cpp: calculateHour", "IsoModel/src/Ventilation.hpp: ventPreheatDegC"]}
{"id": "C113", "title": "A more airtight building needs no more heating in the monthly engine", "statement": "In the monthly engine, a building that leaks less air or recovers more heat from its exhaust air, and is otherwise the same, needs in no month that loses heat more heating, and in no month colder than the cooling set-point less cooling, than the draughtier building in the same weather.", "quantifier": "every pair of sound buildings that differ in infiltration rate and heat recovery efficiency only, every weather and month", "why_tests_cant": "All pairs of buildings and weathers; a test compares a few runs, and no test uses infiltration rate 0.", "anchors": ["IsoModel/src/MonthlyModel.cpp: ventilationCalc", "IsoModel/src/MonthlyModel.cpp: heatingAndCooling", "IsoModel/src/Structure.hpp: infiltrationRate"]}
{"id": "C114", "title": "More sun never raises the heating need in the monthly engine", "statement": "In the monthly engine, walls that absorb more, panes that transmit more and skies that are brighter never lower the sun a building catches in a month, and so never raise the heating need of a month that loses heat nor lower the cooling need of any month, as long as the outdoor air and everything else stay the same.", "quantifier": "every pair of sound buildings that differ in wall absorption and window transmission only, every pair of weathers with the same air, every month", "why_tests_cant": "All pairs of buildings and weathers; a test compares a few runs, and none has negative net gains.", "anchors": ["IsoModel/src/MonthlyModel.cpp: windowSolarGain", "IsoModel/src/MonthlyModel.cpp: solarHeatGain", "IsoModel/src/MonthlyModel.cpp: heatingAndCooling"]}
{"id": "C115", "title": "More sun never raises the heating nor lowers the cooling need of an hour", "statement": "In the hourly engine, if in every hour of the weather every surface receives at least as much sun as before, and wind and temperature stay the same, then no hour of the simulated year needs more heating and none needs less cooling.", "quantifier": "every building description, every pair of weather years of which one is sunnier, every hour of the year", "why_tests_cant": "All buildings and pairs of weather years; a test compares one or two years, and the hours couple through the heat stored in the building.", "anchors": ["IsoModel/src/HourlyModel.cpp: calculateHour", "IsoModel/src/HourlyModel.cpp: qSolarHeatGain", "IsoModel/src/HourlyModel.cpp: electricForNaturalLightArea"]}
{"id": "C116", "title": "Appliances of the monthly model in double arithmetic are right to thirteen digits", "statement": "In IEEE double arithmetic the electric and gas equipment columns of the monthly simulation are within one part in 10^13 of the exact hours of the month times the exact weekly mean of occupied and unoccupied power, for any finite powers below 10^300 and any whole-number timetable; the share of unoccupied hours, a difference of two nearly equal numbers in a building that is almost always open, loses no more than that, and is exactly zero for a building that never closes.", "quantifier": "every building with finite appliance powers, every whole-number timetable, every monthly weather, every mathematical library", "why_tests_cant": "Cancellation and accumulated rounding over all timetables and powers, tests compare a few with a tolerance.", "anchors": ["IsoModel/src/MonthlyModel.cpp: scheduleAndOccupancy", "IsoModel/src/MonthlyModel.cpp: outputGeneration"]}
{"id": "C117", "title": "The total energy use in double arithmetic keeps ten digits", "statement": "In IEEE double arithmetic totalEnergyUse of up to a year of finite end uses is finite and within one part in 10^10 of the exact sum, relative to the sum of the sizes of the end uses, however many fuels and categories without entries the host adds in between; and the hourly engine's total by the month agrees with the one by the hour to one part in 10^9.", "quantifier": "every table of at most 8760 time steps of finite end uses that together stay below 10^300, every list of fuels and categories, every mathematical library", "why_tests_cant": "Bounds the accumulated rounding of more than a hundred thousand additions in every order the host's enumerations may impose.", "anchors": ["IsoModel/src/ISOResults.cpp: totalEnergyUse", "IsoModel/src/HourlyModel.cpp: simulate (OpenStudio branch)", "IsoModel/src/MonthlyModel.cpp: outputGeneration (OpenStudio branch)"]}
{"id": "C118", "title": "Hot water of the monthly model in double arithmetic is right to thirteen digits", "statement": "In IEEE double arithmetic the hot water energy of every month is within one part in 10^13 of the exact month's share of the yearly demand times the exact temperature rise, divided exactly once by the distribution and by the system efficiency, the kWh factor and the floor area; it is reported under the chosen carrier while the other carrier shows exactly zero; no overflow or underflow occurs for quantities between 10^-9 and 10^9, and no demand or no rise gives exactly zero.", "quantifier": "every building with moderate hot water inputs or none, every monthly weather, every mathematical library", "why_tests_cant": "Ten roundings, one of them a difference of temperatures, over all demands and efficiencies; tests compare a few with a tolerance.", "anchors": ["IsoModel/src/MonthlyModel.cpp: heatedWater", "IsoModel/src/MonthlyModel.cpp: outputGeneration"]}
{"id": "C119", "title": "Interior lights of the monthly model in double arithmetic are right to thirteen digits", "statement": "In IEEE double arithmetic the interior lighting of every month is within one part in 10^13 of the exact value: the month's days over 365 times the year's energy, made of the open hours in daylight with dimming, the open hours without daylight and the remaining hours of the 8760 at unoccupied power; the counts of hours are exact, the subtraction from 8760 never cancels to a wrong or negative number, and the stored month fractions are good to 4 units in the last place.", "quantifier": "every building with moderate or zero lamp powers, every whole-number timetable within a day that meets the daylight, every monthly weather, every mathematical library", "why_tests_cant": "Accumulated rounding and stored constants over all timetables and powers, tests compare a few with a tolerance.", "anchors": ["IsoModel/src/MonthlyModel.cpp: lightingEnergyUse", "IsoModel/src/MonthlyModel.cpp: outputGeneration"]}
{"id": "C120", "title": "Exterior lights of the monthly model in double arithmetic are right to thirteen digits", "statement": "In IEEE double arithmetic the exterior lighting of every month is within one part in 10^13 of the exact power times the hours of the month outside the span from the first to the last hour with radiation in its average day; the subtraction of the sunlit share from one costs less than that even on days with one dark hour, and gives exactly zero for a day that is lit throughout.", "quantifier": "every building with moderate or zero exterior power and moderate floor area, every monthly weather with sun in each month, every mathematical library", "why_tests_cant": "Cancellation over every length of day and every power; tests use one weather file.", "anchors": ["IsoModel/src/MonthlyModel.cpp: solarRadiationBreakdown", "IsoModel/src/MonthlyModel.cpp: lightingEnergyUse", "IsoModel/src/MonthlyModel.cpp: outputGeneration"]}
{"id": "C121", "title": "Surface irradiance computed in doubles is always a number", "statement": "For a loaded weather file with finite radiation values, the irradiance computed in IEEE double arithmetic for each of the eight orientations is a finite number in every hour of the year, however often the same object was used before: no rounding takes the argument of an inverse sine or cosine outside its domain.", "quantifier": "every site latitude, longitude and time zone, every year of weather with radiation below 10^6 W/m2, every history of earlier calculations, every mathematical library that is right to thirteen decimals", "why_tests_cant": "The failure needs the sun within about 10^-8 radians of the zenith at a full hour; no test site comes near it, and the absence of the failure elsewhere is a statement about all sites and hours.", "anchors": ["IsoModel/src/SolarRadiation.hpp: solarAltitude", "IsoModel/src/SolarRadiation.hpp: angleOfIncidence", "IsoModel/src/SolarRadiation.cpp: calculateSurfaceSolarRadiation"]}
{"id": "C122", "title": "One unreadable hour of weather does not silence the rest of the year", "statement": "In an hourly simulation computed in IEEE doubles, an hour whose outdoor temperature or whose irradiance on some surface is not a number spoils at most its own results: later hours with ordinary weather are heated and cooled according to their own need.", "quantifier": "every building, every year of weather, every position of the unreadable hour and every later hour, every mathematical library", "why_tests_cant": "The temperature carried from hour to hour is a hidden state over 8760 steps; a run with one bad reading ends normally and reports no heating and no cooling from then on, which a test cannot tell from a mild year.", "anchors": ["IsoModel/src/HourlyModel.cpp: HourlyModel::calculateHour", "IsoModel/src/HourlyModel.cpp: HourlyModel::simulate"]}
{"id": "C123", "title": "One unreadable month does not spoil the others in the monthly engine", "statement": "In a monthly simulation computed in IEEE doubles, a month whose mean temperature or mean irradiance is not a number spoils at most its own figures: the heating, cooling and pump energy of the other eleven months stay numbers.", "quantifier": "every building, every table of monthly weather, every broken month and every other month, every mathematical library", "why_tests_cant": "The contamination runs through yearly sums into distribution factors used for all months; tests use complete weather only, and no finite set of tests covers all buildings.", "anchors": ["IsoModel/src/MonthlyModel.cpp: MonthlyModel::hvac", "IsoModel/src/MonthlyModel.cpp: MonthlyModel::pump", "IsoModel/src/MonthlyModel.cpp: MonthlyModel::heatingAndCooling"]}
