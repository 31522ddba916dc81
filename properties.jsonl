{"id": "C01", "title": "Clamping utility returns the nearest in-range value", "statement": "bracket(value, min, max) with min <= max returns a number inside [min, max]; it returns value itself whenever value is already inside, no in-range number is closer to value than the result, the result is monotone in value, and clamping twice equals clamping once. With a bound left out the corresponding side is unconstrained.", "quantifier": "every value, every optional lower and upper bound with lower <= upper", "why_tests_cant": "ranges over all reals and all bound combinations including equal and missing bounds", "anchors": ["resdx/util.py: bracket"]}
{"id": "C02", "title": "Limit check accepts exactly the in-range values and never alters them", "statement": "limit_check(value, min, max) returns value unchanged if and only if value is not below min and not above max (for the bounds given); in every other case it raises an Exception.", "quantifier": "every value and every optional pair of bounds", "why_tests_cant": "an if-and-only-if over all values and bounds", "anchors": ["resdx/util.py: limit_check"]}
{"id": "C03", "title": "find_nearest returns the closest option, first one on ties", "statement": "For a non-empty list find_nearest(array, value) returns an element of the list whose distance to value is minimal, and among equally near elements the one that occurs first; for an empty list it raises IndexError.", "quantifier": "every finite list of numbers of any length and every value", "why_tests_cant": "needs induction over lists of arbitrary length", "anchors": ["resdx/util.py: find_nearest", "resdx/dx_unit.py: DXUnit.hspf"]}
{"id": "C04", "title": "PsychState accepts exactly one known humidity argument", "statement": "PsychState(drybulb, pressure, **kwargs) raises RuntimeError unless kwargs consists of exactly one of wetbulb, hum_rat, rel_hum, enthalpy; when it succeeds the wet bulb is available, and reading any of wb, get_wb_C() never raises 'Wetbulb not set'.", "quantifier": "every dry bulb, pressure, and every finite keyword-argument dictionary", "why_tests_cant": "ranges over all keyword dictionaries and all psychrometric library results, including failing ones", "anchors": ["resdx/psychrometrics.py: PsychState.__init__", "resdx/psychrometrics.py: PsychState.wb", "resdx/psychrometrics.py: PsychState.get_wb_C"]}
{"id": "C05", "title": "Lazy psychrometric properties are transparent", "statement": "On a constructed PsychState whose attributes are only read, every read of db, wb, hr, rh, h or rho returns the same answer no matter which reads (in any order, any number of times, including reads that raised) happened before it.", "quantifier": "every constructor argument, every psychrometric library, every finite history of property reads", "why_tests_cant": "must hold for every history of reads", "anchors": ["resdx/psychrometrics.py: PsychState"]}
{"id": "C06", "title": "Relative humidity read back from a state", "statement": "Intended: PsychState(...).rh is the relative humidity of the state. It is when the state was built from rel_hum. For states built from any other argument the code returns the humidity ratio instead (rh always equals hr of a wetbulb-built state), and assigning wb after hr was read leaves hr stale.", "quantifier": "every dry bulb, pressure, humidity argument and psychrometric library", "why_tests_cant": "the equality holds for every state, and the defect needs a statement about all libraries", "anchors": ["resdx/psychrometrics.py: PsychState.rh", "resdx/psychrometrics.py: PsychState.wb"]}
{"id": "C07", "title": "Airflow bookkeeping of operating conditions stays consistent", "statement": "After set_rated_volumetric_airflow followed by any sequence of set_volumetric_airflow, set_standard_volumetric_airflow, set_mass_airflow_ratio and set_new_fan_speed calls: mass airflow = volumetric airflow x indoor density = standard airflow x standard density, mass airflow ratio = mass airflow / rated mass airflow, standard airflow per capacity = standard airflow / rated capacity, and the external static pressure = rated static pressure x ratio squared. The standard density is that of dry air at 70 °F and one atmosphere.", "quantifier": "every indoor state with positive density, every rated flow and capacity, every finite sequence of setter calls with any arguments", "why_tests_cant": "must hold after every history of setter calls", "anchors": ["resdx/conditions.py: OperatingConditions"]}
{"id": "C08", "title": "Setting the mass airflow directly", "statement": "Intended: after set_mass_airflow(m) the state is consistent as in C07. The code stores the inverse ratio (rated/m) and computes the static pressure from the previous ratio, so the state is consistent exactly when m equals the rated mass airflow up to sign and, if a rated static pressure is given, that pressure is zero or the previous ratio is 1 or -1; called before a rated flow is known with a static pressure given, it raises AttributeError.", "quantifier": "every consistent state and every mass airflow", "why_tests_cant": "an if-and-only-if over all states and arguments", "anchors": ["resdx/conditions.py: OperatingConditions.set_mass_airflow", "resdx/dx_unit.py: DXUnit.generate_205_representation"]}
{"id": "C09", "title": "Defrost operating window", "statement": "Defrost.in_defrost(conditions) is true exactly when the strategy is not NONE, the outdoor dry bulb is strictly below the high temperature, and (if a low temperature is given) strictly above it.", "quantifier": "every defrost configuration and every outdoor temperature", "why_tests_cant": "if-and-only-if over all temperatures including the boundaries", "anchors": ["resdx/defrost.py: Defrost.in_defrost"]}
{"id": "C10", "title": "Demand defrost credit bounds", "statement": "demand_credit() is exactly 1.0 unless control is DEMAND; with DEMAND control, max_time > 90 min and period <= max_time it lies in [1.0, 1.03], equals 1.03 for any period up to 90 min, equals 1.0 when the period reaches the (capped) maximum, and never increases when the period grows. With max_time = 90 min it raises ZeroDivisionError; with max_time < 90 min it can exceed 1.03, and a period beyond the cap gives less than 1.", "quantifier": "every period and maximum time", "why_tests_cant": "bounds over all pairs of reals, plus exact boundary behaviour", "anchors": ["resdx/defrost.py: Defrost.demand_credit"]}
{"id": "C11", "title": "Fan speed tables stay parallel", "statement": "For every fan class, after construction and any sequence of add_speed / remove_speed calls that do not raise, all per-speed lists of the fan have exactly number_of_speeds entries, so every speed index below number_of_speeds can be looked up. Speeds of a ConstantEfficacyFan must be added with their efficacy: without it the new speed has no efficacy and looking it up raises IndexError.", "quantifier": "every fan class, every construction argument, every finite sequence of add/remove operations", "why_tests_cant": "must hold after every history of operations", "anchors": ["resdx/fan.py: Fan.add_speed", "resdx/fan.py: Fan.remove_speed", "resdx/fan.py: PSCFan", "resdx/fan.py: ECMFlowFan", "resdx/fan.py: EEREFan", "resdx/fan.py: ConstantEfficacyFan"]}
{"id": "C12", "title": "Probing the fan does not change it", "statement": "check_power(airflow) leaves every attribute of the fan as it was, for every fan class whose add_speed and remove_speed touch the same lists; hence find_rated_fan_speed, whatever and however many probes the root finder makes, changes the fan only by appending one speed at the end. For ConstantEfficacyFan the probe raises IndexError and leaves the trial speed behind.", "quantifier": "every fan state, every probe airflow, every adaptive sequence of probes by the root finder", "why_tests_cant": "ranges over all probing strategies and all fan states", "anchors": ["resdx/fan.py: Fan.check_power", "resdx/fan.py: Fan.find_rated_fan_speed", "resdx/fan.py: ConstantEfficacyFan.add_speed"]}
{"id": "C13", "title": "System curve is a bijection through the design point", "statement": "For positive design airflow and static pressure, system_flow(system_pressure(q)) = q and system_pressure(system_flow(p)) = p for all non-negative q and p, both are monotone, and the design airflow of speed 0 maps to the design static pressure.", "quantifier": "every fan with positive design point, every non-negative flow and pressure", "why_tests_cant": "inverse-function law over all reals", "anchors": ["resdx/fan.py: Fan.system_pressure", "resdx/fan.py: Fan.system_flow"]}
{"id": "C14", "title": "Operating pressure of constant-flow fans", "statement": "For fans whose airflow does not depend on pressure, any sound bracketing root finder makes operating_pressure(speed) return exactly the system-curve pressure of that speed's airflow, provided that airflow is below sqrt(3) times the design airflow; above it the bracket has no sign change and the call raises ValueError.", "quantifier": "every such fan, every speed, every sound root finder", "why_tests_cant": "ranges over all solver behaviours and all fans", "anchors": ["resdx/fan.py: Fan.operating_pressure", "resdx/fan.py: RESNETPSCFan", "resdx/fan.py: RESNETBPMFan", "resdx/fan.py: ConstantEfficacyFan"]}
{"id": "C15", "title": "PSC fan curve", "statement": "A PSCFan delivers exactly the requested airflow at the pressure a speed was added with, never delivers negative airflow, delivers no more when the pressure rises, and delivers exactly zero at every pressure at or above block_pressure(speed); speeds added later do not alter the curves of earlier ones.", "quantifier": "every fan, speed, and pressure", "why_tests_cant": "exponential curve over all reals; tests use one fan", "anchors": ["resdx/fan.py: PSCFan.airflow", "resdx/fan.py: PSCFan.add_speed", "resdx/fan.py: PSCFan.block_pressure"]}
{"id": "C16", "title": "ECM flow fan respects its power limit", "statement": "ECMFlowFan.power never exceeds the maximum power at any pressure, airflow never exceeds the requested airflow and equals it while the power limit is not reached, and a construction whose design point needs more than the maximum power raises RuntimeError.", "quantifier": "every fan, speed and external static pressure", "why_tests_cant": "bounds over all pressures and configurations", "anchors": ["resdx/fan.py: ECMFlowFan"]}
{"id": "C17", "title": "EERE fan size selection", "statement": "EEREFan picks two neighbouring table sizes for every positive nominal capacity, with the nominal capacity between them when it lies inside the table range, and the interpolated coefficients equal the tabulated ones at the table sizes. The one exception is a nominal capacity of exactly the smallest table size, for which no size is selected and construction fails with AttributeError.", "quantifier": "every design airflow", "why_tests_cant": "case split over all reals with an isolated failing point", "anchors": ["resdx/fan.py: EEREFan"]}
{"id": "C18", "title": "RESNET fan efficacy laws", "statement": "RESNET PSC and BPM fan efficacies equal the design efficacy at the first (full) speed; at the operating pressure they fall when the speed ratio falls, and BPM power is below PSC power at equal flow; BPM efficacy is affine in static pressure between the ductless and ducted laws and hits both end points.", "quantifier": "every speed ratio in (0,1] and every pressure between zero and the operating pressure", "why_tests_cant": "real-analytic inequality over an interval", "anchors": ["resdx/fan.py: RESNETPSCFan", "resdx/fan.py: RESNETBPMFan"]}
{"id": "C19", "title": "Speed order map sorts speeds by airflow", "statement": "get_speed_order_map returns a permutation of the speed indices under which airflow at zero pressure is non-decreasing.", "quantifier": "every fan with any number of speeds", "why_tests_cant": "arbitrary number of speeds and ties", "anchors": ["resdx/fan.py: Fan.get_speed_order_map"]}
{"id": "C20", "title": "Performance table cells: set/get laws", "statement": "After set(speed, temperature, v) get returns v for that cell and all other cells are unchanged; after set_by_ratio on a table of several speeds, get_ratio returns the ratio (on a single-speed table it returns 1); after set_by_maintenance, get_maintenance returns the maintenance ratio; absent temperatures and speeds above the last raise. Intended but false: every absent speed raises; speed 0 and negative speeds address the cells from the end.", "quantifier": "every table, speed, temperature, value", "why_tests_cant": "frame and round-trip laws over all tables", "anchors": ["resdx/models/tabular_data.py: TemperatureSpeedPerformanceTable"]}
{"id": "C21", "title": "Adding a temperature keeps the table well formed", "statement": "add_temperature keeps temperatures strictly increasing, keeps one row per temperature, keeps the row of every temperature already present, and raises RuntimeError for a temperature already present.", "quantifier": "every well-formed table with at least two temperatures, every new temperature", "why_tests_cant": "all table sizes and all insertion positions", "anchors": ["resdx/models/tabular_data.py: TemperatureSpeedPerformanceTable.add_temperature"]}
{"id": "C22", "title": "Adding an end temperature by extrapolation does not change the performance map", "statement": "After add_temperature(t) beyond either end of the table with extrapolation and no limit, the interpolated table value is unchanged at every (temperature, speed) pair, inside and outside the grid; with extrapolate=False the new row repeats the neighbouring row; with a limit the new entry is the linear extrapolation bounded by limit times the neighbouring entry.", "quantifier": "every table, every new end temperature, every query point", "why_tests_cant": "function equality over all query points", "anchors": ["resdx/models/tabular_data.py: TemperatureSpeedPerformanceTable.add_temperature", "resdx/models/tabular_data.py: TemperatureSpeedPerformanceTable.calculate"]}
{"id": "C23", "title": "Inserting an interior temperature", "statement": "Intended: add_temperature(t) strictly between two table temperatures interpolates linearly between the neighbouring rows. The code uses the second temperature of the table in place of the upper neighbour: inserted between the first two temperatures the new row repeats the upper row, inserted between the second and third it divides by zero, so the intended value is produced only when the two neighbouring rows are equal.", "quantifier": "every table and every interior temperature", "why_tests_cant": "exact characterisation for all tables", "anchors": ["resdx/models/tabular_data.py: TemperatureSpeedPerformanceTable.add_temperature", "resdx/models/tabular_data.py: make_single_speed_model_data"]}
{"id": "C24", "title": "Table interpolation", "statement": "calculate(speed, temperature) returns the stored value at grid points, lies between the smallest and largest of the surrounding stored values inside the grid, is continuous across grid lines, and is affine in temperature inside each temperature interval and beyond the ends.", "quantifier": "every table with strictly increasing temperatures, every query", "why_tests_cant": "all tables, all real query points", "anchors": ["resdx/models/tabular_data.py: TemperatureSpeedPerformanceTable.set_interpolator", "resdx/models/tabular_data.py: TemperatureSpeedPerformanceTable.calculate"]}
{"id": "C25", "title": "Net-to-gross table conversion", "statement": "At every temperature and every speed (including between speeds) the gross cooling capacity exceeds the net one by the interpolated fan power, and the gross cooling power, heating capacity and heating power fall below the net ones by it; if any resulting gross entry would not be positive make_gross raises AssertionError. A RESNET unit applies it to a copy: its net tables stay as they were.", "quantifier": "every table set, every fan power vector, every query point", "why_tests_cant": "holds at all query points by partition of unity, not only at nodes", "anchors": ["resdx/models/tabular_data.py: make_gross", "resdx/models/tabular_data.py: TemperatureSpeedPerformance", "resdx/models/tabular_data.py: apply_fan_power_correction"]}
{"id": "C26", "title": "Ratings-derived tables reproduce their inputs", "statement": "Performance data built by make_neep_statistical_model_data, make_single_speed_model_data and make_two_speed_model_data returns exactly the rated inputs it was built from: cooling capacity and efficiency at 95F full speed, heating capacity at 47F and 17F, and heating COP at 47F; for single-speed data (1 - Cd/2) times the 82F efficiency is exactly the input SEER.", "quantifier": "every admissible capacity, efficiency, ratio and cut-off temperature", "why_tests_cant": "round-trip over all inputs", "anchors": ["resdx/models/tabular_data.py: make_neep_statistical_model_data", "resdx/models/tabular_data.py: make_single_speed_model_data", "resdx/models/tabular_data.py: make_two_speed_model_data"]}
{"id": "C27", "title": "make_neep_model_data and its arguments", "statement": "Intended: make_neep_model_data is a function of its arguments' values and does not alter them. The code converts units and inserts rows in the caller's lists in place, so the caller's tables change and a second call with the same list objects does not return the same data.", "quantifier": "every input table", "why_tests_cant": "aliasing property over call histories", "anchors": ["resdx/models/tabular_data.py: make_neep_model_data"]}
{"id": "C28", "title": "Airflow correction curves are neutral at rated airflow", "statement": "All NREL airflow correction polynomials evaluate to exactly 1 at a mass airflow ratio of 1 (for every speed and staging), so gross capacity and power at rated airflow depend only on temperatures.", "quantifier": "every temperature, every speed", "why_tests_cant": "holds for all temperatures and coefficients choice", "anchors": ["resdx/models/nrel.py: NRELDXModel"]}
{"id": "C29", "title": "Wet bulb and outdoor temperature saturation of the cooling curves", "statement": "NREL cooling capacity and power use the indoor wet bulb clamped to [57F, 72F] and the outdoor dry bulb clamped below at 75F: two conditions that agree after clamping give identical results. Intended: capacity never decreases with wet bulb. This holds when the outdoor temperature is at most 81F, or for wet bulbs of at least 61F up to 135F outdoors; it fails at 95F outdoors, where capacity at 57.5F wet bulb is below that at 57F.", "quantifier": "every pair of conditions", "why_tests_cant": "two-run property over all conditions", "anchors": ["resdx/models/nrel.py: NRELDXModel.gross_total_cooling_capacity", "resdx/models/nrel.py: NRELDXModel.gross_cooling_power"]}
{"id": "C30", "title": "Refrigerant charge correction", "statement": "With zero charge deviation all four charge factors are exactly 1. At rated airflow every factor equals the charge-only factor and does not depend on the airflow model, for any deviation for which the airflow defect ratio is defined.", "quantifier": "every charge deviation, every outdoor temperature, every underlying airflow model", "why_tests_cant": "all deviations and models", "anchors": ["resdx/models/nrel.py: NRELDXModel charge factors"]}
{"id": "C31", "title": "EPRI defrost time fraction", "statement": "The EPRI defrost time fraction is strictly between 0 and 1 for every humidity difference, and integrated capacity never exceeds steady-state capacity during defrost; it is positive for resistive defrost when the coil-to-air humidity difference is at most 0.0084. Outside defrost integrated capacity and power equal steady state. With reverse-cycle defrost the integrated power always raises TypeError inside the defrost window (a method is called without its argument).", "quantifier": "every outdoor condition", "why_tests_cant": "all humidities", "anchors": ["resdx/models/nrel.py: NRELDXModel.epri_defrost_time_fraction", "resdx/models/nrel.py: NRELDXModel.coil_diff_outdoor_air_humidity"]}
{"id": "C32", "title": "Carrier defrost derate", "statement": "The Carrier defrost fraction lies between 0.075 and 0.11 for every outdoor temperature, is continuous, and the integrated capacity equals the steady-state capacity outside the defrost window and is reduced by 7.5 to 11 percent inside.", "quantifier": "every outdoor temperature", "why_tests_cant": "all reals", "anchors": ["resdx/models/carrier_defrost_model.py: CarrierDefrostModel"]}
{"id": "C33", "title": "Title 24 default rating curves", "statement": "Title-24 heating cycling degradation defaults stay within [0.05, 0.25] and never increase with HSPF; capacity at 17F, 35F and 47F reproduces the anchor values. The default EER as a function of SEER and the 17F capacity ratio as a function of HSPF are not monotone: they drop at SEER 16 and HSPF 7.5. Elsewhere both rise, and the drops are at most 0.01 and 0.0043.", "quantifier": "every SEER and HSPF", "why_tests_cant": "monotonicity over all reals", "anchors": ["resdx/models/title24.py: Title24DXModel"]}
{"id": "C34", "title": "RESNET defrost derate", "statement": "The RESNET model's integrated heating capacity equals steady-state capacity outside defrost and lies between 0.856 and 1 times it inside; integrated power lies between 0.976 and 1 times the model's steady-state power. Integrated power ignores the refrigerant charge factor that integrated capacity includes, so with a charge deviation net integrated and steady-state powers differ even outside defrost.", "quantifier": "every outdoor temperature and every steady-state performance", "why_tests_cant": "all temperatures and all underlying models", "anchors": ["resdx/models/unified_resnet.py: RESNETDXModel.gross_integrated_heating_capacity", "resdx/models/unified_resnet.py: RESNETDXModel.gross_integrated_heating_power"]}
{"id": "C35", "title": "RESNET table values are recovered at rated indoor conditions", "statement": "At rated indoor air and rated airflow the correction factors are exactly 1, so gross cooling and heating capacity and power equal the table value at that outdoor temperature and speed; at other indoor conditions the result is the table value times a factor independent of the table.", "quantifier": "every table, outdoor temperature, speed, indoor condition", "why_tests_cant": "all tables and conditions", "anchors": ["resdx/models/unified_resnet.py: RESNETDXModel"]}
{"id": "C36", "title": "Rated capacities are ordered and complete", "statement": "If a DXUnit is constructed without error, its rated net cooling and heating capacities have one entry per speed and never increase with the speed index (index 0 is the highest speed).", "quantifier": "every constructor input that does not raise", "why_tests_cant": "all inputs and list lengths", "anchors": ["resdx/dx_unit.py: DXUnit.check_array_lengths", "resdx/dx_unit.py: DXUnit.check_array_order"]}
{"id": "C37", "title": "Net equals gross minus or plus fan", "statement": "Whenever the calls succeed: net total cooling capacity = gross - fan heat, net sensible = gross sensible - fan heat, net cooling power = gross + fan power, net heating capacity = gross + fan heat, net heating power = gross + fan power, all gross cooling values are non-negative, COPs are the corresponding quotients, and gross SHR lies in [0, 1]. Gross heating values are not checked and can be negative.", "quantifier": "every model, fan, and operating condition", "why_tests_cant": "all conditions and models", "anchors": ["resdx/dx_unit.py: DXUnit"]}
{"id": "C38", "title": "Bypass factor calibration", "statement": "The coil bypass factor at the rated mass flow equals the factor it was calibrated from, lies strictly between 0 and 1, and grows with mass airflow.", "quantifier": "every rated bypass factor in (0,1) and every positive mass flow", "why_tests_cant": "exp/log identity over all reals", "anchors": ["resdx/dx_unit.py: DXUnit.bypass_factor", "resdx/dx_unit.py: DXUnit.normalized_ntu"]}
{"id": "C39", "title": "Rated external static pressure", "statement": "Rated external static pressure is zero for ductless units; for ducted units under AHRI 210/240-2017 it is 0.10, 0.15 or 0.20 in. H2O with thresholds at 29 000 and 43 000 Btu/h and never decreases with capacity, and under 2023 it is 0.5 in. H2O for every capacity; at partial flow it scales with the square of the flow ratio.", "quantifier": "every capacity and airflow", "why_tests_cant": "all capacities including the thresholds", "anchors": ["resdx/dx_unit.py: DXUnit.get_rated_full_flow_rated_pressure", "resdx/dx_unit.py: DXUnit.calculate_rated_pressure"]}
{"id": "C40", "title": "Switching rating standards is history-free", "statement": "After any sequence of set_rating_standard calls the rating conditions (and so SEER, EER and HSPF) depend only on the last standard set; in particular switching away and back restores every rating.", "quantifier": "every unit and every finite sequence of standards", "why_tests_cant": "all histories", "anchors": ["resdx/dx_unit.py: DXUnit.set_rating_standard", "resdx/dx_unit.py: DXUnit.set_rating_conditions"]}
{"id": "C41", "title": "reset_rated_flow_rates on two-stage units", "statement": "Intended: reset_rated_flow_rates succeeds for every staging type. For two-stage units it always raises, because the low speed is taken for the intermediate speed whose rating condition exists only for variable-speed units.", "quantifier": "every two-stage unit and every list of airflows that reaches the low speed", "why_tests_cant": "failure for every input, not one", "anchors": ["resdx/dx_unit.py: DXUnit.reset_rated_flow_rates"]}
{"id": "C42", "title": "Heating distribution normalisation", "statement": "A constructed HeatingDistribution has exactly 18 bins and its fractional hours sum to a value in [0.98, 1.02]; inputs already in that range are kept unchanged, others are scaled to sum to exactly 1; a different number of bins raises.", "quantifier": "every list of fractional hours", "why_tests_cant": "all lists", "anchors": ["resdx/dx_unit.py: HeatingDistribution"]}
{"id": "C43", "title": "Single-stage SEER formula and bounds", "statement": "For a single-stage unit seer() is (1 - 0.5 Cd) times the net COP at the B condition (in Btu/Wh), so it never exceeds that COP for Cd >= 0 and is independent of all other conditions.", "quantifier": "every unit", "why_tests_cant": "all units", "anchors": ["resdx/dx_unit.py: DXUnit.seer"]}
{"id": "C44", "title": "Bin-method SEER serves exactly the building load", "statement": "For two-stage and variable-speed units the cooling delivered in each temperature bin equals min(building load, full-speed capacity) times the bin hours, energy is positive, and SEER lies between the smallest degraded and the largest COP used in the bins.", "quantifier": "every unit performance with positive powers and positive capacities that do not fall from a lower to a higher speed", "why_tests_cant": "all performance maps; bounds of a ratio of sums", "anchors": ["resdx/dx_unit.py: DXUnit.seer"]}
{"id": "C45", "title": "SEER and HSPF do not depend on unit size", "statement": "Multiplying every net capacity and net power of a unit by the same positive factor leaves SEER unchanged for every staging type, and leaves HSPF unchanged under the 2023 standard. Under the 2017 standard HSPF can change, because the design heating requirement is snapped to a fixed list.", "quantifier": "every unit and every positive scale factor", "why_tests_cant": "two-run relation over all units", "anchors": ["resdx/dx_unit.py: DXUnit.seer", "resdx/dx_unit.py: DXUnit.hspf"]}
{"id": "C46", "title": "HSPF heat balance", "statement": "In every temperature bin of the HSPF calculation compressor heat plus resistance heat equals the building load, for every staging type; for single-stage and two-stage units the resistance heat is never negative. For variable-speed units it can be negative, but only where the load is at least the full-speed capacity and below the capacity on the line through the H4 and H3 tests.", "quantifier": "every unit performance, every bin", "why_tests_cant": "all performance maps", "anchors": ["resdx/dx_unit.py: DXUnit.hspf"]}
{"id": "C47", "title": "Low-temperature cut-out in HSPF", "statement": "For single-stage and variable-speed units a bin at or below the heating-off temperature (or with COP below 1) uses no compressor energy and all load is met by resistance heat. For two-stage units the code reuses the cut-out factor of an earlier bin, or raises UnboundLocalError when there is none, whenever the load lies between the capacities of the two stages.", "quantifier": "every unit performance, every cut-out temperature, every bin history", "why_tests_cant": "depends on the history of bins", "anchors": ["resdx/dx_unit.py: DXUnit.hspf"]}
{"id": "C48", "title": "User-supplied constructor inputs are honoured", "statement": "Intended: inputs given by the caller appear in the unit. A supplied heating_on_temperature is never stored, so HSPF raises AttributeError; a supplied net COP is overwritten by the default gross COP for every model that uses the base setters unless the gross COP is explicitly passed as None; a list of gross COPs is stored but nothing is derived from it, so that a net COP given besides stays although it contradicts the list, and without one the net COPs and rated powers stay unset.", "quantifier": "every supplied value", "why_tests_cant": "for every input value", "anchors": ["resdx/dx_unit.py: DXUnit.__init__"]}
{"id": "C49", "title": "Single-stage units reproduce their rated SEER and EER", "statement": "For every single-stage unit built by the RESNET model from SEER, EER, HSPF and capacities without error, seer() equals the input SEER and eer() equals the input EER exactly. With a BPM motor this needs a rated heating airflow that does not exceed the cooling airflow.", "quantifier": "every admissible rating input", "why_tests_cant": "end-to-end identity over all inputs", "anchors": ["resdx/dx_unit.py: DXUnit", "resdx/models/unified_resnet.py: RESNETDXModel", "resdx/models/tabular_data.py: make_single_speed_model_data"]}
{"id": "C50", "title": "make_rating_unit hits the requested ratings", "statement": "Given a root finder that returns exact roots, the unit returned by make_rating_unit has hspf() equal to the requested HSPF and seer() equal to the requested SEER, for every staging type; in particular the heating solve does not disturb the cooling solve.", "quantifier": "every rating request and every sound root finder", "why_tests_cant": "all inputs and solver behaviours", "anchors": ["resdx/rating_solver.py: make_rating_unit"]}
{"id": "C51", "title": "EnergyPlus text output parses back", "statement": "Reading back the text produced for any list of IDF objects yields exactly the same objects, fields and order, provided names and values contain no separators.", "quantifier": "every list of objects with any number of fields", "why_tests_cant": "round trip over all object lists", "anchors": ["resdx/idf.py: write_idf_objects"]}
{"id": "C52", "title": "EnergyPlus output has no dangling references", "statement": "Every curve, table, list and schedule name referenced by the generated coil and unitary objects is defined by exactly one generated object, for every number of speeds, system name and system type, and the object type written before a name is the type of that object. The availability schedule is always on and the fan mode schedule always cycling. (The schedule type limits named by the schedules are not part of the export.)", "quantifier": "every unit, name, system type, number of speeds", "why_tests_cant": "arbitrary numbers of speeds and names", "anchors": ["resdx/idf.py: write_idf"]}
{"id": "C53", "title": "EnergyPlus speed numbering", "statement": "EnergyPlus speed k (1-based, ascending capacity) corresponds to unit speed n - k, a bijection, and performance tables contain exactly the product of their axis lengths in row-major order.", "quantifier": "every number of speeds and axis lengths", "why_tests_cant": "all sizes", "anchors": ["resdx/idf.py"]}
{"id": "C54", "title": "ASHRAE 205 performance map layout", "statement": "In the generated 205 representation every lookup array has exactly as many entries as the product of the grid axis lengths, and the entry at each row-major position is the performance at the corresponding grid coordinates, with compressor sequence number s denoting unit speed n - s.", "quantifier": "every unit and every number of speeds", "why_tests_cant": "all sizes", "anchors": ["resdx/dx_unit.py: DXUnit.generate_205_representation", "resdx/fan.py: Fan.generate_205_representation"]}
{"id": "C55", "title": "Unknown model options are rejected", "statement": "A DXUnit construction with a keyword argument the chosen model does not list raises an Exception naming one such argument; with only listed ones the check passes.", "quantifier": "every keyword dictionary and every model", "why_tests_cant": "all keyword sets", "anchors": ["resdx/models/base_model.py: DXModel.set_system"]}
{"id": "C56", "title": "Net/gross rated COP conversion is invertible", "statement": "With scalar inputs, setting the rated net COP and then feeding the resulting gross COP back as gross input reproduces the net COP, power and capacity for every speed (and conversely).", "quantifier": "every capacity, fan power and COP for which no division by zero occurs", "why_tests_cant": "round trip over all inputs", "anchors": ["resdx/models/base_model.py: DXModel.set_rated_net_cooling_cop", "resdx/models/base_model.py: DXModel.set_rated_gross_cooling_cop"]}
{"id": "C57", "title": "Title 24 caching is unobservable", "statement": "The Title 24 model caches anchor capacities and efficiencies on first use; for a unit with one heating speed, the value any heating method returns does not depend on which heating methods were called before, at which conditions, or whether those calls failed.", "quantifier": "every sequence of earlier calls, every condition, every root finder", "why_tests_cant": "all call histories", "anchors": ["resdx/models/title24.py: Title24DXModel"]}
{"id": "C58", "title": "HSPF exists and is bounded", "statement": "For a unit with positive capacities and powers in every bin, a positive seasonal load and degradation coefficient below 1, hspf() returns a number between the smaller of 1 and the smallest degraded COP and the larger of 1 and the largest COP (in Btu/Wh), times the demand-defrost credit. Two-stage units must cycle between low and full and carry the first bin at low stage; for variable-speed units the capacity used in overloaded bins must not exceed the load.", "quantifier": "every unit performance, every climate region", "why_tests_cant": "bounds of a ratio of sums over all performance maps", "anchors": ["resdx/dx_unit.py: DXUnit.hspf"]}
{"id": "C59", "title": "Heating efficiency inputs do not affect cooling", "statement": "For a unit of the RESNET model, changing the heating COP (net or gross), the HSPF and the heating degradation coefficient given to the constructor changes no cooling result (seer, eer, net total and sensible capacity, net power, at every condition) and no heating capacity; the only effect on construction is whether it raises.", "quantifier": "every constructor argument set, every operating condition", "why_tests_cant": "noninterference between two constructions over all inputs", "anchors": ["resdx/dx_unit.py: DXUnit.__init__", "resdx/models/unified_resnet.py: RESNETDXModel"]}
{"id": "C60", "title": "Table axes of the EnergyPlus export increase", "statement": "In every export the values of each independent variable are strictly increasing, as EnergyPlus requires. This holds of the four fixed axes; it holds of the heating outdoor temperature axis exactly when the unit's heating_off_temperature is below 5 F, because that temperature is written as the first point in front of 5, 17, 47 and 60 F.", "quantifier": "all units, performance models, system names and types, and export options for which write_idf succeeds", "why_tests_cant": "Tests export a unit with the default cut-out temperature; the order of the axis depends on a continuous input.", "anchors": ["resdx/idf.py:44-60", "resdx/idf.py:405-494"]}
{"id": "C61", "title": "Normalised tables equal 1 at the rated airflow", "statement": "When write_idf normalises, every airflow table (capacity and energy input ratio, heating and cooling, every speed) contains exactly 1 at flow fraction 1, so the rated fields of the speed and its tables describe the same performance.", "quantifier": "all units, performance models and speeds for which a normalised export succeeds", "why_tests_cant": "It relies on changing the airflow of one shared condition object back to ratio 1 leading to exactly the rated condition, for every unit.", "anchors": ["resdx/idf.py:577-649", "resdx/idf.py:824-884", "resdx/conditions.py"]}
{"id": "C62", "title": "The exported air path is connected", "statement": "In every export the air nodes form one path: system inlet = cooling coil inlet, cooling coil outlet = heating coil inlet, heating coil outlet = fan inlet, fan outlet = system outlet (or supplemental coil inlet, whose outlet is the system outlet, for a packaged terminal unit); no node is used twice.", "quantifier": "all units, performance models, system names and both system types for which write_idf succeeds", "why_tests_cant": "Node names are assembled from the system name in seven places that must agree for every name; tests do not read the file back.", "anchors": ["resdx/idf.py:119-310", "resdx/idf.py:340-403", "resdx/idf.py:515-557", "resdx/idf.py:695-775"]}
{"id": "C63", "title": "ASHRAE 205 fan map", "statement": "In the generated fan representation speed number k (from 1) is the fan's k-th slowest speed at zero external pressure, every lookup array has one entry per speed number and pressure in row-major order and holds that speed's power, airflow and rotational speed, the nominal flow is the fastest speed's at the design pressure, and a higher speed number never moves less air at zero pressure.", "quantifier": "all fans of every class, in any order of their speeds, for which the export succeeds", "why_tests_cant": "The speeds are renumbered by sorting computed airflows; tests check one fan's first and last entries.", "anchors": ["resdx/fan.py:207-393"]}
{"id": "C64", "title": "ASHRAE 205 performance belongs to the grid's mass flow", "statement": "Every exported performance value is computed at a condition whose mass airflow is the one of the grid point, and equals the performance that condition has when the same mass airflow is set through its airflow ratio. The second part is false: the airflow ratio used is rated/actual instead of actual/rated.", "quantifier": "all units, performance models and grid points", "why_tests_cant": "Tests only compare file sizes or plots; the error disappears at the rated airflow.", "anchors": ["resdx/dx_unit.py:1444-1518", "resdx/conditions.py"]}
{"id": "C65", "title": "ASHRAE 205 grid axes", "statement": "The grid axes of the exported cooling map are evenly spaced between their documented bounds and strictly increasing, provided (for the airflow axis) that the lowest speed has less than 500/280 of the full-speed capacity.", "quantifier": "all units", "why_tests_cant": "The airflow bounds depend on the unit's capacities.", "anchors": ["resdx/dx_unit.py:1444-1480"]}
{"id": "C66", "title": "ASHRAE 205 standby power and compressor control", "statement": "The exported standby table, read at any outdoor temperature, gives the crankcase heater capacity at half a degree or more below its set point, zero at half a degree or more above, and something between otherwise. The cycling degradation coefficient is the unit's, and the control type is DISCRETE for at most two cooling speeds and CONTINUOUS otherwise, whatever the staging type.", "quantifier": "all units and outdoor temperatures", "why_tests_cant": "all temperatures and set points", "anchors": ["resdx/dx_unit.py:1532-1545", "resdx/dx_unit.py:1522-1526"]}
{"id": "C67", "title": "Coil outlet states close the energy balance", "statement": "The state returned by gross_cooling_outlet_state at given conditions has the inlet's pressure, an enthalpy lower than the inlet's by gross total capacity / mass airflow, and a dry bulb lower by gross sensible capacity (or the sensible capacity passed in) / (mass airflow x 1006 J/(kg K)). The state returned by gross_heating_output_state has the inlet's pressure and humidity ratio and a dry bulb higher by gross heating capacity / (mass airflow x 1006). Without conditions the methods use A_full and H1_full.", "quantifier": "for all units, performance models, conditions and psychrometric libraries for which the call returns", "why_tests_cant": "The balance has to hold at every condition and for every model; the tests never look at outlet states.", "anchors": ["resdx/dx_unit.py:759-770", "resdx/dx_unit.py:1070-1078", "resdx/psychrometrics.py:25-128"]}
{"id": "C68", "title": "The apparatus dew point is saturated and lies on the coil line", "statement": "When optimize.newton returns a root (up to a tolerance), adp_state(conditions) returns a state at the inlet pressure whose humidity ratio is saturated at its temperature (up to that tolerance), that is no warmer and no moister than the coil outlet, and such that the outlet's temperature and humidity ratio are one and the same mixture of inlet and apparatus dew point with a bypass share in [0, 1). No sensible cooling makes it raise. The default argument conditions=None is unusable: adp_state() always raises.", "quantifier": "for all units, models, conditions, psychrometric libraries and solvers that return only roots", "why_tests_cant": "A root of an iterative solver at all conditions; tests only build a few units and never call adp_state.", "anchors": ["resdx/dx_unit.py:772-790", "resdx/dx_unit.py:820-822"]}
{"id": "C69", "title": "R squared measures the fit", "statement": "calculate_r_squared(source, regression) for lists of equal length gives a number exactly when the source values are not all equal; it is 1 - sum of squared residuals / sum of squared distances from the mean, is at most 1, equals 1 exactly for a perfect fit, equals 0 when the regression is the mean, and does not change when both lists are converted to other units.", "quantifier": "for all lists of numbers", "why_tests_cant": "An inequality and an equivalence over all data sets of all lengths.", "anchors": ["resdx/util.py:102-107"]}
{"id": "C70", "title": "The stored rating conditions are those of the AHRI tests", "statement": "After construction, and after every set_rating_standard that does not raise, the unit holds for each test of its staging type (A, B, H1, H2, H3, H4 at full speed; A, E, H2 at intermediate speed for variable speed; A at boost speed where there is one; A, B, F, H0, H1, H2, H3 at low speed unless single stage) a condition with the test's outdoor and indoor dry and wet bulb at sea level, the compressor speed of that load, the fan speed, rated airflow and rated net capacity of that compressor speed, an airflow ratio of one, and an external static pressure equal to the standard's full-flow pressure times the squared ratio of the speed's rated airflow to that of the fastest speed.", "quantifier": "for all units of all library models that can be constructed, all rating standards, all tests", "why_tests_cant": "The sixteen conditions are never asserted; a wrong temperature or speed only moves a rating a little, and every rating test uses one unit.", "anchors": ["resdx/dx_unit.py:389-500", "resdx/dx_unit.py:621-677", "resdx/conditions.py"]}
{"id": "C71", "title": "The validation table lists what its headings say", "statement": "write_validation_tables on a variable-speed unit writes one header and one row of the same length; under every heading heatCapacity/powerConsumption/scfm + temperature + stage stands the net heating capacity in Btu/h, the net heating power in W (integrated at 35 F, steady state otherwise), or the rated airflow in cfm of the stored test at that temperature and stage, with two exceptions in the code: powerConsumption47full is the power of the 62 F low-speed test, and on single-stage and two-stage units the call raises UnboundLocalError after emptying the file. The cut-out temperatures, defrost cells, degradation coefficient and cooling cells are those of the unit. When a value cannot be computed, the file of a variable-speed unit is not touched.", "quantifier": "for all units, models, solvers and earlier file contents", "why_tests_cant": "No test calls the function; a heading above the wrong value is only visible by comparing every cell for every unit.", "anchors": ["resdx/dx_unit.py:1755-1902"]}
{"id": "C72", "title": "At rated airflow a RESNET unit returns its table", "statement": "For a unit with the unified RESNET model and nominal refrigerant charge, at the rated indoor state and airflow of a speed that stands for a table column and at any outdoor temperature, the net capacity and net power are the values of the net performance table at that column and temperature, up to the difference between the fan power at the condition's pressure and the rated fan power stored for the speed. The difference is zero for a unit without a fan of its own if the motor is a PSC motor or if the rated pressure stored for the speed is the pressure of the condition; the net COP is then the table's COP.", "quantifier": "for all staging types, tables (given or made from ratings), outdoor states, psychrometric libraries and solvers", "why_tests_cant": "The net values pass through the gross table, the fan model and the speed maps; tests compare a few units with stored numbers.", "anchors": ["resdx/models/unified_resnet.py:68-138", "resdx/models/unified_resnet.py:256-338", "resdx/models/unified_resnet.py:411-575", "resdx/models/tabular_data.py:219-283", "resdx/dx_unit.py:653-693", "resdx/dx_unit.py:721-757"]}
{"id": "C73", "title": "A RESNET unit of any staging meets the ratings it was made from", "statement": "A single-stage, two-stage or variable-speed unit made from rated capacities, EER and heating COP without a fan or table of its own returns those numbers: net_total_cooling_capacity() is the rated cooling capacity, eer() the EER, net_steady_state_heating_capacity() the rated heating capacity (or its regression from the cooling capacity) and net_steady_state_heating_cop() the heating COP, provided the fan runs at its rated pressure at that condition or has a PSC motor, and a variable-speed unit switches off below 5 F. With a BPM motor and another airflow at speed 0 than the larger of the two full-load airflows, it misses them on a definite side: less air at speed 0 gives a lower cooling capacity and EER, a higher heating capacity and a lower heating COP; more air the reverse.", "quantifier": "for all rated capacities and ratings, staging types, psychrometric libraries and solvers", "why_tests_cant": "The ratings go through table construction, the fan model, the gross table and the rating conditions; tests sample a handful of units.", "anchors": ["resdx/models/unified_resnet.py:156-338", "resdx/models/unified_resnet.py:370-575", "resdx/models/tabular_data.py:285-494", "resdx/models/tabular_data.py:592-856", "resdx/dx_unit.py:824-825", "resdx/dx_unit.py:389-500"]}
{"id": "C74", "title": "Printed summaries show the unit's own values", "statement": "print_cooling_info prints the SEER, then for each cooling speed, from the first, net power and net capacity in the units asked for, EER, gross COP and net sensible heat ratio of that speed at the rating condition, then a blank line; print_heating_info prints the HSPF of the region asked for, then for each heating speed the net power and capacity with frosting and the gross COP with frosting. Nothing else is printed and nothing printed before is changed. In the default units the printed EER is 12000 times the printed tons over the printed watts.", "quantifier": "for all units, models, unit names, regions, text printed before, psychrometric libraries and solvers", "why_tests_cant": "The tests call the methods but never read what is printed.", "anchors": ["resdx/dx_unit.py:1378-1408", "resdx/dx_unit.py:721-757", "resdx/dx_unit.py:820-825"]}
{"id": "C75", "title": "The plot shows what its legends say", "statement": "In the plot of a unit each of the 22 legend entries (net or gross; steady-state or integrated heating, total or sensible cooling; capacity, power or COP) has one curve per speed of its mode, and every curve has one of these entries. The values of a curve are the named quantity of that speed at rated airflow and indoor air and 40 % outdoor humidity for the outdoor temperatures on its axis, COPs being capacity over power; capacities are shown in kBtu/h, powers in kW, gross curves are hidden and integrated and sensible ones dotted. The axis runs from the heating-off temperature to the cooling-off temperature and increases exactly if heating stops below 5 F and cooling above 95 F. Speeds are named by their place: for a RESNET unit Rated; Rated, Min; Max, Rated, Int., Min. The curve of the rated speed of a RESNET unit with a PSC motor passes through its rated capacities at 95 F and 47 F.", "quantifier": "for all units, models, psychrometric libraries and solvers for which the plot is made; the last two for all RESNET units with default speed numbers", "why_tests_cant": "The tests only check that an HTML file is written; a curve under the wrong legend would pass.", "anchors": ["resdx/dx_unit.py:1577-1753", "resdx/models/unified_resnet.py:156-338", "resdx/models/unified_resnet.py:370-575"]}
{"id": "C76", "title": "Title 24 cooling follows its regression curves and the unit's own ratings", "statement": "For a unit with the Title 24 model and given conditions, gross total cooling capacity is the rated gross capacity times the Title 24 capacity curve of indoor wet bulb, outdoor and indoor dry bulb (F) and airflow per ton (PyException if negative); sensible capacity is the total times the Title 24 sensible heat ratio, never more than the total. Gross COP is the value derived from the SEER up to 82 F outdoors, the value derived from the rated COP from 95 F, the straight line between them in between, times the user's efficiency multiplier: the SEER has no influence from 95 F, the rated COP none up to 82 F. At 67 F wet bulb, 80 F dry bulb, 95 F outdoors and 400 cfm/ton the curves are exactly 1: capacity is the rated gross capacity, sensible heat ratio 0.7174748. Expected there but false: net COP is not the rated COP, since the fan power in watts is divided by 3.413.", "quantifier": "for all units, speeds, conditions with wet bulb and airflow per capacity set, and solvers", "why_tests_cant": "The tests check one SEER and one EER of one unit; the curves, the transition from 82 F to 95 F and the rating point are never compared.", "anchors": ["resdx/models/title24.py:20-267", "resdx/dx_unit.py:688-757"]}
{"id": "C77", "title": "Title 24 heating power makes the unit's HSPF come true", "statement": "For a unit with the Title 24 model, net heating input is linear in outdoor temperature through the rated capacity over rated COP at 47 F and the 17 F capacity over a 17 F COP for which the seasonal heating calculation of the model (15 temperature bins, cycling loss, resistance heat) gives the rated HSPF within the solver's tolerance; gross power is that input less the rated fan power. While defrosting, between 17 and 45 F, integrated power instead runs on the line from 17 F to the 35 F input, which is the 35 F capacity over the user's 35 F COP if given, else the interpolated input times 0.985 (1 without defrost). Expected but false for a general root finder: the default input at 35 F belongs to the last COP tried, not to the one found; the two agree if the root finder returns the last point it evaluated. The bins are those of region IV of the rating standard.", "quantifier": "for all units, heating speeds, conditions, and root finders that stop within tol of a root", "why_tests_cant": "The tests compare one HSPF value; the power curve and its dependence on the trial points of the root finder are not observed.", "anchors": ["resdx/models/title24.py:283-544", "resdx/dx_unit.py:990-1060"]}
{"id": "C78", "title": "A unit without a given fan gets the documented default fan and capacities", "statement": "A unit constructed without a fan with the base, constant or Carrier defrost model gets a fan with one speed per cooling and then per heating speed: speed i moves 375 cfm per ton of that speed's rated net capacity and draws 0.365 W/cfm at every pressure; the unit's rated airflow, rated fan power and fan speed maps agree with it. With the Title 24 model the unit has one speed per mode and both run at 350 cfm per ton of the cooling capacity and draw 500 W per 12000 W of it. The rated gross capacity is the net capacity plus (cooling) or minus (heating) the rated fan power. Without a heating capacity every heating speed gets the cooling capacity of speed 0. Expected but false: a fan can be given to these models; the constructor then always raises.", "quantifier": "for all constructor arguments, psychrometric functions and solvers, all speeds, all pressures", "why_tests_cant": "Tests construct a few units and never compare the fan object with the unit's own rated airflow and power arrays.", "anchors": ["resdx/models/base_model.py:103-172", "resdx/models/title24.py:546-621", "resdx/dx_unit.py:300-387"]}
{"id": "C79", "title": "The constant model performs at its ratings under all conditions", "statement": "A unit constructed with the constant model returns, at any condition that uses a compressor speed with its rated fan speed - whatever the temperatures, humidities, airflow and pressure - exactly its rated net capacity and net COP in cooling and in heating (integrated heating equals steady-state heating), a gross SHR of 0.7, gross capacity net plus or minus fan power, and gross power gross capacity over gross COP. Hence its EER is its rated net cooling COP at full speed in Btu/Wh, and the SEER of a single-stage unit is (1 - C_D/2) times that.", "quantifier": "for all constructor arguments that yield a unit, all speeds with positive capacity and COP, all conditions at the rated fan speed", "why_tests_cant": "A test sees a few conditions; that nothing but the compressor and fan speed matters is a claim about all conditions.", "anchors": ["resdx/models/constant_model.py:4-40", "resdx/dx_unit.py:600-830", "resdx/models/base_model.py:174-274"]}
{"id": "C80", "title": "The exported EnergyPlus fan is the unit's fan", "statement": "The one Fan:SystemModel an export contains describes the unit's fan: it has the fan's number of speeds, listed from the smallest to the largest free airflow; each speed's flow and electric power fraction is that speed's airflow and power over those of the fastest speed, all at their operating points; the design pressure rise is the operating pressure of the fastest speed; the total efficiency is airflow times pressure over electric power there, so that with TotalEfficiencyAndPressure sizing EnergyPlus finds the same power; design airflow and power are left to EnergyPlus or are those of the fastest speed; all motor heat goes into the air stream.", "quantifier": "for all units, models, solvers, names, system types and options for which the export succeeds, all fan speeds", "why_tests_cant": "Tests write files and do not read them; the order of speeds and the fractions depend on every fan class and operating point.", "anchors": ["resdx/idf.py:340-403", "resdx/fan.py:60-160"]}
{"id": "C81", "title": "Exported coil settings are the unit's settings", "statement": "Both exported coils carry the unit's crankcase heater capacity and setpoint in \u00b0C and refer to a part-load curve equal to 1 - C_D (1 - x) with that mode's degradation coefficient. Their size is left to EnergyPlus or is the gross capacity and rated airflow at A_full (H1_full); a unitary system's heating sizing ratio is the gross integrated heating capacity over the gross cooling capacity there. The heating coil carries the compressor cut-out and cut-in temperatures, the defrost strategy, control, highest temperature (-999 \u00b0C without defrost), timed fraction at H1_full and heater capacity, and a constant defrost energy input ratio: one over the gross cooling COP at full speed with 60 \u00b0F outdoors (or over the value cached by an earlier call).", "quantifier": "for all units, models, solvers, names, system types and options for which the export succeeds", "why_tests_cant": "Tests never read an exported file back; a swapped mode, unit or option shows only in some configurations.", "anchors": ["resdx/idf.py:510-570", "resdx/idf.py:691-816", "resdx/models/nrel.py:207-224"]}
{"id": "C82", "title": "A constructed unit keeps the settings it was given", "statement": "For every model of the library a constructed unit has exactly the cycling method, ducting, cooling cut-out, crankcase setpoint, rating standard, charge deviation, input SEER and HSPF, extra arguments and defrost it was given. Left out: defrost is reverse cycle, timed, 3.5 minutes per hour below 41 \u00b0F; C_D is 0.15 for the RESNET model and 0.25 otherwise; the heating cut-out is -20 \u00b0F for variable-speed staging and 0 \u00b0F otherwise; the heating cut-in is the heating cut-out (and a cut-in that is given is dropped); the crankcase heater takes 10 W per ton of rated net cooling capacity at full load; EER follows SEER by the two-piece line, and a higher SEER never gives a lower EER. With the base, constant, Carrier defrost and Title 24 models, the number of speeds and the full, intermediate, boost and low speed numbers of each mode are those asked for, and a missing staging type is decided by the number of heating speeds.", "quantifier": "for all arguments, psychrometric libraries, root finders and models for which the construction succeeds", "why_tests_cant": "There are over thirty arguments with interacting defaults, and later construction steps (model set-up, rating conditions, COP setters) could overwrite any of them on some path.", "anchors": ["resdx/dx_unit.py:141-387", "resdx/models/base_model.py", "resdx/models/unified_resnet.py:340-344"]}
{"id": "C83", "title": "Arguments no unit can be built from", "statement": "DXUnit construction with the NREL model raises for every argument list (the documented use of that model is refuted). With any model a net or gross COP must be given for cooling and for heating. A constructed unit has every speed its ratings use: a full-load speed in both modes, a low speed if it is not single stage, an intermediate speed if it is variable speed. A Title 24 unit has exactly one speed in each mode and was given neither a fan nor fan speeds. A RESNET unit passed tabular_data was passed a table of one to three cooling speeds, no more heating than cooling speeds, no list of heating capacities, and for three speeds a single cooling capacity; without a table its cooling and heating capacities are both lists or both not, and a list of one capacity is never accepted for a two-stage unit.", "quantifier": "for all arguments, psychrometric libraries and root finders", "why_tests_cant": "That no argument list is accepted, or that every accepted one satisfies a condition, is a statement about all of over thirty interacting arguments.", "anchors": ["resdx/dx_unit.py:141-387", "resdx/models/nrel.py", "resdx/models/unified_resnet.py:156-338", "resdx/models/tabular_data.py"]}
{"id": "C84", "title": "A RESNET unit passed its own table is the same unit", "statement": "If a RESNET unit was constructed from its ratings and derived a performance table, then constructing a unit from the same arguments with that table passed as tabular_data succeeds and gives a unit equal in every attribute except the remembered keyword arguments; and those have no influence on SEER, HSPF, EER or on net capacities and powers at any condition.", "quantifier": "for all arguments, psychrometric libraries and root finders for which the first construction succeeds", "why_tests_cant": "The table path adopts the staging type and the speed numbers from the table and skips the derivation; that both paths agree in every later step, for every staging type and every rating, cannot be enumerated.", "anchors": ["resdx/models/unified_resnet.py:51-65", "resdx/models/unified_resnet.py:156-338", "resdx/dx_unit.py:141-387"]}
{"id": "C85", "title": "With a supplied table, ratings and COPs decide nothing", "statement": "If a RESNET unit can be constructed with tabular_data, then it can be constructed with any other SEER, EER, HSPF, net and gross COPs in place of the given ones (as long as one COP is given per mode), and the unit is equal in every attribute except the ratings it remembers; those have no influence on SEER, HSPF, EER or on net capacities and powers at any condition.", "quantifier": "for all arguments, tables, psychrometric libraries and root finders, and all replacement ratings", "why_tests_cant": "The independence is over all values of seven arguments and every later computation.", "anchors": ["resdx/models/unified_resnet.py:156-368", "resdx/dx_unit.py:141-387"]}
{"id": "C86", "title": "A unit that is at least as efficient is rated at least as high", "statement": "Of two units of the same staging type with the same net capacities in the rating tests, the one that uses no more power at any speed in any temperature bin and has no larger degradation coefficient does not have the lower seer(); with a smaller degradation coefficient and a bin in which it cycles its seer() is higher. The one that moreover cuts out and in at no higher temperatures, and has a COP of at least 1 after cycling losses, does not have the lower hspf() in any region.", "quantifier": "for all pairs of units, performance models and test results, all staging types and regions", "why_tests_cant": "A test compares two particular units; monotonicity over every combination of load regions, speeds and bins is a statement about pairs of arbitrary units.", "anchors": ["resdx/dx_unit.py:827-976", "resdx/dx_unit.py:1080-1376"]}
{"id": "C87", "title": "Fan speeds are described relative to the first speed", "statement": "However speeds are added to a fan and removed again, as long as its first speed is kept the airflow ratio of every speed is its airflow over that of the first speed; a PSC fan's efficacy is 0.7 + 0.3 times the ratio of the airflows without static pressure, its speed runs from 1040 rpm times that ratio to 1100 rpm when blocked; an ECM fan's power follows the square of the airflow ratio and the pressure up to its power limit. When the first speed is removed the ratios still refer to the removed speed.", "quantifier": "for all fan classes, design airflows, pressures and efficacies, and all sequences of add_speed and remove_speed", "why_tests_cant": "The stored ratios depend on the history of changes; tests try a few sequences.", "anchors": ["resdx/fan.py:69-79", "resdx/fan.py:453-508", "resdx/fan.py:561-590"]}
{"id": "C88", "title": "205 representations are reproducible", "statement": "generate_205_representation() called twice on the same unit gives the same document up to the time stamps, and the second call changes no metadata. With uuid_seed set on the unit and on its fan the identifiers of the coil, fan and motor, all descriptions and all performance data are the same in every process; the identifier of the unitary document is not, since it comes from Python's salted hash of two strings. Version, source, description and notes are those the user set; an empty fan description is filled in at the first export and not refreshed when the fan changes.", "quantifier": "for all units, models, metadata, hash values and times", "why_tests_cant": "A test runs in one process with one hash salt, so it cannot see which identifiers change between processes.", "anchors": ["resdx/dx_unit.py:96-111", "resdx/dx_unit.py:1410-1435", "resdx/dx_unit.py:1547-1575", "resdx/fan.py:15-28", "resdx/fan.py:219-311"]}
{"id": "C89", "title": "Resetting rated airflows", "statement": "reset_rated_flow_rates(cooling, heating) changes only the fan and the stored rating conditions, whether it returns or raises. It adds one fan speed per cooling and then per heating speed, with airflow capacity times the given airflow per capacity, and points every rating test of those speeds except the boost test at its new fan speed and airflow, keeping air states and rated values. It succeeds on a constructed unit that performs all tests of the speeds being reset. The new conditions scale static pressure from the airflow the unit was built with, so they are not run at the pressure their fan speed was added for; and with the default constant-efficacy fan the pressure is taken for the efficacy, so fan power becomes airflow times pressure.", "quantifier": "for all units, models, airflows per capacity (numbers or lists) and psychrometric functions", "why_tests_cant": "The repository's tests call the method on one unit; which attributes must not change and which conditions must is a statement about every unit and every attribute.", "anchors": ["resdx/dx_unit.py:505-567", "resdx/dx_unit.py:660-672", "resdx/conditions.py:101-103", "resdx/fan.py:69-80", "resdx/fan.py:409-425"]}
{"id": "C90", "title": "Optional ratings decide what they name", "statement": "A RESNET unit made from its ratings has, at 17 F and full speed, the heating capacity given as rated_net_heating_capacity_17, or 0.626 (variable-speed: 0.689) of the rated heating capacity if none is given; at 82 F and the lowest speed the cooling COP given as rated_net_total_cooling_cop_82_min (staged units); and at 95 F and the lowest speed min_net_total_cooling_capacity_ratio_95 times the capacity of the highest speed (variable-speed).", "quantifier": "for all units of any staging made from one rated capacity, all other ratings, and all values of the options", "why_tests_cant": "Each option passes through a table and a net-gross-net round trip with fan powers; a test sees the result for the ratings it happens to use.", "anchors": ["resdx/models/unified_resnet.py:33-66", "resdx/models/unified_resnet.py:180-262", "resdx/models/tabular_data.py:290-300"]}
{"id": "C91", "title": "A rating unit has what was asked for", "statement": "A unit returned by make_rating_unit has the staging, standard, SEER, EER, HSPF, temperature limits and defrost temperature asked for; its net cooling capacity at the rating condition is q95, its EER the given one, its heating capacity at 47 F is q47 (by default the regression on q95), and at 17 F qm17 times q47, or times q95 when q47 is not given. So qm17 is the ratio of the capacities at 17 F and 47 F only if q47 is given.", "quantifier": "for all inputs of make_rating_unit and all root finders", "why_tests_cant": "The repository checks SEER and HSPF of a few units; that the other requested values survive the solver and the tables is a statement about all inputs.", "anchors": ["resdx/rating_solver.py:10-89"]}
{"id": "C92", "title": "Fan efficiency and blower speed", "statement": "The efficiency of a fan is airflow times pressure over power, so efficiency times efficacy is the pressure. An ECM fan below its power limit has an efficiency between 0 and 0.501; one held at its limit can exceed 1. Against a pressure other than zero the airflow and the blower speed of an ECM fan fall with the square root of the share of the wanted power that it may draw, from the design airflow and from 1100 rpm plus 463.5 rpm per inch of water above the design pressure times the airflow ratio. Fans other than PSC and ECM ones turn at 1100 rpm at the first speed and in proportion to airflow at others.", "quantifier": "for all fans, all design airflows, efficacies, power limits and pressures, after any sequence of added speeds", "why_tests_cant": "The tests plot these curves at a few pressures; a bound or a proportionality is a statement about all of them.", "anchors": ["resdx/fan.py:117-137", "resdx/fan.py:584-631"]}
{"id": "C93", "title": "Default ratings of the NREL model", "statement": "Given one capacity and no fan, the NREL model's setters give every speed a fan efficacy of 0.25 W/cfm up to SEER 14 falling linearly to 0.18 W/cfm at SEER 16, an airflow per ton by mode and number of speeds, the first cooling capacity as default heating capacity, and a low speed of two-speed units whose gross capacity (with its own fan power) is 72 % of that of the high speed. The setters never divide by zero for a two-speed unit.", "quantifier": "for all units, SEERs and capacities", "why_tests_cant": "No NREL unit can be constructed as the code stands (C83), so no test reaches these setters through a unit; the relation between gross capacities holds only after solving for the net one.", "anchors": ["resdx/models/nrel.py:428-520"]}
{"id": "C94", "title": "Performance maps between and beyond the rated temperatures", "statement": "At every speed, also between the tabulated ones, the heating capacity and power of single- and two-speed data are one straight line through their values at 17 and 47 \u00b0F for all temperatures up to 47 \u00b0F, and level above. Those of variable-speed and listed data are straight lines between the tabulated temperatures, the first extended downwards, and level above 47 \u00b0F. Cooling capacity and power are one straight line through their values at 82 and 95 \u00b0F from 82 \u00b0F up and another below, towards a value at 60 \u00b0F which at each tabulated speed continues the first line but is not less than half the value at 82 \u00b0F.", "quantifier": "for all ratings and listings for which the data can be made, all speeds and all outdoor temperatures", "why_tests_cant": "A test evaluates a map at a few points; that rows added at 5 \u00b0F, at the limits and at 60 \u00b0F do not bend it, at fractional speeds and beyond the limits, is a statement about all of them.", "anchors": ["resdx/models/tabular_data.py:81-146", "resdx/models/tabular_data.py:285-856"]}
{"id": "C95", "title": "The fan of a RESNET unit to which none was given", "statement": "A RESNET unit without a fan gets one with the motor type asked for (else PSC for single-stage units, BPM for others) whose highest speed delivers the larger of the two full-load airflows. At every speed of either mode the rated airflow is the rated net capacity times the airflow per capacity given for that speed (else 400 cfm/ton), the fan delivers it at the speeds used in operation and in ratings, and the rated fan power is what it draws there at the rated pressure, which except at full load is the pressure of the rating conditions at that speed; at full load it is that pressure exactly if the first speed of the mode moves the larger of the two full-load airflows.", "quantifier": "for all ratings, stagings, capacities, airflows per capacity and motor types for which a RESNET unit without a given fan can be constructed, both modes and all speeds", "why_tests_cant": "Tests build a few units with default airflows; that no speed is left without a matching blower speed, or gets the airflow or power of another speed, concerns every number of speeds and every order in which design speeds are added and deduplicated.", "anchors": ["resdx/models/unified_resnet.py:370-575", "resdx/fan.py:1-330", "resdx/dx_unit.py:500-640"]}
{"id": "C96", "title": "Curve functions", "statement": "linear, quadratic, cubic, quartic and calc_quad evaluate the polynomial whose coefficients are given from the constant upwards, and calc_biquad a quadratic in each of its inputs plus a product term; as many distinct points as there are coefficients determine the coefficients, so a curve fitted through them is the only one.", "quantifier": "for all coefficients and inputs", "why_tests_cant": "A misplaced coefficient or sign shows at most inputs but not at all, and that two sets of coefficients never give the same curve is a statement about every pair.", "anchors": ["resdx/util.py:32-44", "resdx/util.py:61-87"]}
{"id": "C97", "title": "Cycling method of two-stage units", "statement": "The cycling method given to DXUnit is stored and has no other influence on construction (base, constant, Carrier defrost and Title 24 models), on capacities, powers or EER, nor on the SEER and HSPF of units that are not two-stage. For a two-stage unit whose low stage has the better COP, cycling between low and full gives a SEER no lower than cycling between off and full, and a higher one if a bin lies between the stages and C_D is positive. In HSPF the method BETWEEN_OFF_FULL is wrong twice: its part-load factor falls from 1 to 1 - C_D as the load rises from the low-stage to the full-stage capacity (the losses are largest where the unit hardly cycles), and energy and resistance heat use the run fractions of different bins, so that below the cut-out a load between the stages can be met with neither.", "quantifier": "for all arguments, units, root finders, psychrometric libraries and climate regions", "why_tests_cant": "That an option has no influence elsewhere is a statement about every pair of units that differ in it only; no test of the repository uses BETWEEN_OFF_FULL, and the effect on HSPF depends on the history of bins.", "anchors": ["resdx/dx_unit.py:161", "resdx/dx_unit.py:912-938", "resdx/dx_unit.py:1250-1284"]}
{"id": "C98", "title": "Motors of the EERE fans", "statement": "A fan of one of the seven EERE classes moves its airflow at the pressure of the system, and its airflow, watts per cfm and power at any pressure are those of the source's table: linear in size between and beyond the sizes of 2 to 5 tons, quadratic in pressure. Efficacy is positive up to 20 tons and 25 inches of water. The improved PSC motor takes less power than the baseline motor only below 4000 cfm; the multi-stage motor always less than the single-stage one and the backward-curved impeller always less than the forward one. The levels are in order up to 0.8 inches of water. Watts per cfm rise with size except for multi-stage constant torque above 4 tons. Airflow falls with pressure only above a peak (0.04, 0.39, 0.48 inches of water; 0 for constant torque).", "quantifier": "for all seven classes, all lists of airflows, design pressures, speeds and pressures", "why_tests_cant": "Orderings and monotonicity over a continuum of sizes and pressures; the tests plot or sample single points of these fans.", "anchors": ["resdx/fan.py:634-794"]}
{"id": "C99", "title": "The exported motor covers the exported fan map", "statement": "The maximum motor power in a fan's ASHRAE 205 export is 1.2 times the power of a speed moving most air without back pressure (at 1.2 inches of water for an ECM fan without a limit; the limit itself for one with a limit), and no power in the exported map, which holds the powers of all speeds at all its pressures, is above it. This holds of constant-efficacy, PSC, ECM and RESNET PSC fans; every RESNET BPM fan exports a map with more power in it than its motor's maximum.", "quantifier": "for all lists of positive airflows, design pressures and efficacies", "why_tests_cant": "A comparison of one exported number with all numbers of a map over a continuum of fans; tests only write the files.", "anchors": ["resdx/fan.py:219-393"]}
{"id": "C100", "title": "Ratios of integrated to steady-state heating", "statement": "For every model the gross and net capacity and power ratios are those of integrated to steady-state heating: integrated COP times power ratio equals steady-state COP times capacity ratio, and the fan, running in both, draws a net ratio towards 1 but never past it. All four are 1 for the constant model always and for the NREL model outside defrost. For the RESNET model the gross capacity ratio is 1 - 1.8 f and, without charge deviation, the gross power ratio 1 - 0.3 f for the defrost fraction f, so defrost costs between 0 and 12.3 percent of the COP. For the Title 24 model the capacity lost to defrost is proportional to the distance from 17 F up to 45 F; with the default capacity at 35 F it is (t - 17)/180 of the capacity on the clear line at 35 F, so, expected but false, it is not largest around 35 F but at the warm end of the window.", "quantifier": "for all models, units and conditions", "why_tests_cant": "Orderings over all models, fan powers and temperatures; no test calls the ratio methods.", "anchors": ["resdx/dx_unit.py:985-1068", "resdx/models/title24.py:337-363", "resdx/models/unified_resnet.py:107-138"]}
{"id": "C101", "title": "Sensible capacity from the apparatus dew point", "statement": "With the NREL and RESNET models, the share 1 - bypass factor of the mass airflow goes from the indoor state to one saturated state at the indoor pressure, carrying the whole total capacity (to the root finder's tolerance). Total minus sensible capacity is exactly that air times the difference in humidity ratio times the enthalpy of vapour at the indoor temperature; the sensible capacity is that air times the temperature difference times the heat capacity of air of the saturated humidity. So the sensible capacity is at most the total and gross_shr returns their ratio while the saturated air is no moister than the room; otherwise, expected but false, the sensible capacity exceeds the total and gross_shr raises. With a total capacity of zero no sensible capacity is returned.", "quantifier": "for all units, conditions, root finders of any tolerance and psychrometric functions with ASHRAE's enthalpy", "why_tests_cant": "Needs the split for every airflow, bypass factor and humidity; tests compare the rated sensible heat ratio only, where the coil is wet.", "anchors": ["resdx/models/nrel.py:278-291", "resdx/dx_unit.py:697-710", "resdx/models/unified_resnet.py:90-91"]}
{"id": "C102", "title": "Units made without arguments", "statement": "With the base, constant, Carrier defrost and Title 24 models, a unit constructed with no further arguments is single stage with one speed per mode, 3 tons of rated net capacity in cooling and in heating and gross COPs of 3.72 and 3.82; it is ducted, rated to AHRI 210/240-2023, correctly charged, cuts out above 125 F (cooling) and below 0 F (heating), defrosts by default and has a 30 W crankcase heater set to 50 F; with the default fan its rated net COPs are 3.14 and 3.44. Expected but false: DXUnit() gives a unit; its default model is the RESNET model, for which, without a table, an EER or SEER, a SEER if it is single stage, and an HSPF or a single net heating COP must be given.", "quantifier": "for all models, psychrometric functions and root finders; the last part for all arguments", "why_tests_cant": "No test constructs a unit from the defaults; that no arguments without ratings are accepted is a statement about all arguments.", "anchors": ["resdx/dx_unit.py:141-387", "resdx/models/unified_resnet.py:187-253"]}
{"id": "C103", "title": "What the fan costs", "statement": "Whatever the model, a fan that draws power lowers the total and the sensible cooling COP, and lowers the sensible heat ratio unless that is 1 (while the fan draws less than the coil's capacity); in heating it moves the COP, steady-state or integrated, towards 1. Of two units with the same gross cooling the one with the larger fan power has the lower net COP. Expected but false: a fan that draws power never raises the heating COP; it raises a COP below 1, its heat counting as capacity.", "quantifier": "for all models, units, conditions and root finders", "why_tests_cant": "Tests compare single ratings; that a net COP never exceeds the gross one is a statement about all units, models and conditions.", "anchors": ["resdx/dx_unit.py:680-757", "resdx/dx_unit.py:978-1068"]}
{"id": "C104", "title": "Variable-speed ratings need speeds that differ", "statement": "Whatever the model, a variable-speed unit whose low and full speeds have the same net capacity, or the same net power, at 87 F has no SEER: seer() raises ZeroDivisionError. If at 35 F the low-speed line meets the full-speed frost test in capacity or power, it has no HSPF in any climate region. Expected but false: a unit that is rated as a single-stage unit is also rated when described as a variable-speed unit with the same capacity at each speed.", "quantifier": "for all models, units and climate regions; the last part by a concrete pair of units", "why_tests_cant": "Tests rate units whose speeds differ; the exception depends on an exact coincidence of interpolated values.", "anchors": ["resdx/dx_unit.py:839-883", "resdx/dx_unit.py:1107-1147"]}
{"id": "C105", "title": "What a wrong refrigerant charge does", "statement": "With the NREL or RESNET model, at rated airflow: a unit undercharged by up to a half, cooling with 25-30 C indoors and 18-50 C outdoors, has lower capacity, lower power and lower COP (gross and net) than the same unit with the right charge. Overcharged by 10-50 %, with 25-27 C indoors, it has higher capacity and power and a lower COP. Heating at 8-20 C outdoors, an undercharged unit (up to 40 %) has lower capacity, power and COP, an overcharged one (up to 50 %) higher power and lower COP. Expected but false: the right charge gives the best efficiency at every temperature. From -30 to -15 C outdoors every unit that has lost up to a tenth of its charge heats more, and more efficiently.", "quantifier": "for all units, conditions and charge deviations in the ranges named", "why_tests_cant": "The direction of the effect depends on the signs of quadratic forms in charge and temperature over a continuum; tests evaluate one deviation at rating conditions.", "anchors": ["resdx/models/nrel.py:302-405", "resdx/models/unified_resnet.py:140-154", "resdx/dx_unit.py:688-757"]}
{"id": "C106", "title": "Performance follows weather and airflow as physics suggests", "statement": "For a correctly charged unit with the NREL model, or the RESNET model without tables: the hotter it is outdoors, the lower its gross cooling capacity and COP, and up to 125 F the higher its power (all strictly above 75 F). More air over the coil, up to 1.5 times rated, gives more cooling and a higher gross COP. Heating at -40 to 65 F: warmer outdoors gives more heat and a higher COP, a warmer room less heat and a lower COP, more air up to 1.28 times rated more heat and a higher gross COP. Expected but false: more air always raises the gross heating COP; from 1.29 to 1.5 times rated it lowers it.", "quantifier": "for all units, speeds, psychrometric functions and pairs of conditions in the ranges named", "why_tests_cant": "Monotonicity over a continuum of temperatures and airflows of products of fitted quadratic polynomials with clamped arguments.", "anchors": ["resdx/models/nrel.py:64-169", "resdx/models/unified_resnet.py:68-127", "resdx/dx_unit.py:688-757"]}
{"id": "C107", "title": "An undercharged unit is rated lower", "statement": "Setting refrigerant_charge_deviation of a unit with the NREL or RESNET model to a value from -0.5 up to but not including 0 makes its eer() lower than with the correct charge, whatever the staging type, and the seer() of a single-stage unit lower, provided the gross capacity in the rating test is positive and fan power is not negative. The temperature and airflow ranges this needs hold in every cooling test of every unit that can be constructed.", "quantifier": "for all units, deviations in [-0.5, 0) and rating tests", "why_tests_cant": "Relates two ratings over a continuum of deviations and all units; tests rate correctly charged units.", "anchors": ["resdx/dx_unit.py:824-838", "resdx/models/nrel.py:302-405"]}
{"id": "C108", "title": "Title 24 heating capacity follows the outdoor temperature", "statement": "With the Title 24 model, gross_steady_state_heating_capacity() at any outdoor temperature lies on the straight line through the net capacities at 17 F and 47 F, less fan power. gross_integrated_heating_capacity() lies on the line through 17 F and 35 F when the unit defrosts and the temperature is strictly between 17 F and 45 F, and on the first line otherwise, again less fan power. Steady capacity therefore rises with outdoor temperature whenever capacity at 17 F is below that at 47 F. Integrated capacity rises too when cap17 and cap35 are not supplied, no lower defrost limit is set and HSPF is from 2.01 to 15.46. For higher HSPF it does not: with HSPF 16 a 10 kW unit gives less heat at 40 F than at 20 F.", "quantifier": "for all units, speeds and pairs of outdoor temperatures", "why_tests_cant": "Relates values at every pair of temperatures; tests look at a few points and default ratings.", "anchors": ["resdx/models/title24.py:269-363"]}
{"id": "C109", "title": "What the defrost control settings decide", "statement": "With every model but NREL's, changing a unit's defrost control from timed (or none) to demand multiplies hspf() by the AHRI 210/240 credit 1 + 0.03 (1 - (max(period, 90) - 90) / (min(longest, 720) - 90)), times in minutes, for every staging type, standard and region: between 0 and 3 percent more for sensible times. A longest time of 90 minutes makes hspf() raise ZeroDivisionError. Without demand control the two times have no effect, and no control setting affects seer(), eer() or cooling performance, with any model. Expected but false: demand control never gives less heat; with the NREL model and the same defrost time fraction it does in air whose humidity exceeds that at the coil by at most 0.0003.", "quantifier": "for all units, models, regions and control settings", "why_tests_cant": "Relates two ratings of arbitrary units; tests rate one unit at a time.", "anchors": ["resdx/defrost.py:23-71", "resdx/dx_unit.py:1080-1376", "resdx/models/nrel.py:171-205"]}
{"id": "C110", "title": "What the ratings depend on", "statement": "With every library model, seer(), eer() and the cooling performance methods of two units return the same if the units agree in charge deviation, staging, cycling method, cooling tables, coil data, fan, rated pressure, stored conditions and RESNET model data: changing heating settings, cut-out temperatures, defrost, crankcase heater, rating standard, ductedness or the recorded input ratings afterwards has no effect. Likewise hspf() and the heating methods for units agreeing in the corresponding heating attributes, standard, cut-out, cut-in and defrost; under the 2023 standard hspf() also depends on the net cooling capacity in the A test, under the 2017 standard on nothing about cooling. Only the Title 24 model reads the recorded SEER or HSPF and the keyword arguments.", "quantifier": "for all library models, pairs of units and conditions", "why_tests_cant": "Independence from an attribute is a statement about all pairs of its values.", "anchors": ["resdx/dx_unit.py:678-920", "resdx/dx_unit.py:978-1376", "resdx/models/title24.py"]}
{"id": "C111", "title": "Conditions whose rated airflow is not known yet", "statement": "On OperatingConditions to which set_rated_volumetric_airflow has not been applied, any sequence of the airflow setters completes: once a flow has been named the mass, volumetric and standard flows agree with the air densities, before that there are none; the mass airflow ratio is that of the last set_mass_airflow_ratio or absent; the flow per capacity stays absent; the static pressure is the rated one times the ratio squared, or absent. Without a ratio, no net capacity or net power can be computed at such conditions with any model. Giving the rated flow afterwards forgets all earlier airflow calls (rated static pressure given, same fan speed).", "quantifier": "for all psychrometric libraries, indoor states of non-zero density, sequences of setter calls, models and units", "why_tests_cant": "It ranges over all call sequences and all models; the tests only use conditions made by units, which have a rated flow.", "anchors": ["resdx/conditions.py:5-103", "resdx/dx_unit.py:680-686", "resdx/dx_unit.py:978-984"]}
{"id": "C112", "title": "The climates behind HSPF are those of the standard", "statement": "For regions 1 to 6 of AHRI 210/240, hspf() weighs the 18 bins from 62 \u00b0F down by the standard's hours: under the 2017 standard as tabulated (they add up to 1, and no slope factors or zero-load temperature are used), under the 2023 standard the same hours with the bins at or above the region's zero-load temperature left out and rescaled to 1, with the region's slope factors. Any other region raises KeyError.", "quantifier": "for all regions, bins and units", "why_tests_cant": "Tests exercise region 4 only, and through the final rating; a wrong figure for another region would go unnoticed.", "anchors": ["resdx/dx_unit.py:55-83", "resdx/dx_unit.py:112-133", "resdx/dx_unit.py:1080-1088"]}
{"id": "C113", "title": "A heat pump that never runs is rated as resistance heat", "statement": "If the heating cut-out temperature is at or above 62 \u00b0F, the warmest bin, hspf() of a unit of any staging type and model in any region with a positive seasonal load is 3.412 Btu/Wh times the demand-defrost credit. Intended: exactly 3.412 Btu/Wh; since the credit is applied to the whole season, a unit with demand defrost that never runs is rated up to 3 percent above resistance heat.", "quantifier": "for all units, models, staging types and regions", "why_tests_cant": "It ranges over all performance data: no figure of the unit may enter.", "anchors": ["resdx/dx_unit.py:1080-1376"]}
{"id": "C114", "title": "Title 24 cooling against weather and airflow", "statement": "With the Title 24 model: a moister or cooler room, cooler weather or less air never raise the sensible share of the gross capacity. While the coil stays wet, or stays dry, hotter weather gives less gross capacity, more air (up to 400 cfm/ton) more; more moisture gives more on a wet coil and makes no difference to a dry one. From 95 F gross COP falls as it gets hotter. Gross power is, up to 82 F, the power curve times the power implied by the SEER; from 95 F it is the power curve times the capacity curve times the power implied by the rated COP. Expected but false: hotter weather never gives more capacity (at 60 F wet bulb, 80 F and 400 cfm/ton it does where the coil falls dry, between 96 and 96.5 F); hotter weather never costs less power (with the indoor air of the rating test power falls from 106 F upwards, for every unit).", "quantifier": "for all units with the Title 24 model, speeds and conditions in the stated ranges", "why_tests_cant": "Tests evaluate the curves at single points; the claims are about all pairs of conditions and all units.", "anchors": ["resdx/models/title24.py:22-267"]}
{"id": "C115", "title": "RESNET heating including defrost against the weather", "statement": "With the RESNET model, when it gets warmer outdoors and the warmth does not start the defrost, the gross capacity including defrost grows whenever the steady-state capacity does, and never falls unless it does; likewise the COP of a correctly charged unit. Hence a correctly charged unit without tables whose defrost has no low temperature limit gives more gross capacity including defrost, at a higher COP, the warmer it is between -40 F and 65 F. Expected but false: this holds whatever the limits; with a low limit of 260 K the unit heats 13 % less at 260.5 K than at 260 K.", "quantifier": "for all units with the RESNET model and all pairs of conditions as stated", "why_tests_cant": "Tests evaluate single temperatures; the claim is about every pair of temperatures, every unit and every defrost window.", "anchors": ["resdx/models/unified_resnet.py:107-138", "resdx/defrost.py:48-60"]}
{"id": "C116", "title": "Title 24 heating COP against the outdoor temperature", "statement": "With the Title 24 model the steady-state heating powers of a speed at any three outdoor temperatures lie on a straight line. The steady-state COP moves one way only: if it is higher (equal, lower) at the warmer of two temperatures, it is so for every other pair of temperatures at which the unit draws power. The same holds for the COP including defrost while the unit defrosts between 17 F and 45 F. Expected but false: the COP never falls as it gets warmer; nothing keeps the 17 F COP that fits the rated HSPF below the rated COP at 47 F.", "quantifier": "for all units with the Title 24 model, speeds, root finders and temperatures at which the unit draws power", "why_tests_cant": "Tests evaluate single temperatures; the claim is about every pair of temperatures and every unit.", "anchors": ["resdx/models/title24.py:318-363", "resdx/models/title24.py:471-544"]}
{"id": "C117", "title": "NREL heating including defrost in moister weather", "statement": "With the NREL model the outdoor humidity does not change the steady-state heating capacity and power. The EPRI defrost time fraction never falls as the outdoor air gets moister and grows once the air is moister than saturated air at the coil. In defrost, if the defrost takes no shorter, moister air never gives more heat, and gives less if the defrost is timed or takes longer (for timed defrost, up to 0.0084 above the humidity ratio at the coil). With a timed resistive defrost of fixed length moister air lowers the power drawn too, but the COP still falls. With any other control humidity acts only through the defrost time.", "quantifier": "for all units with the NREL model, defrost time functions, pairs of conditions that differ in outdoor humidity only, and psychrometric functions", "why_tests_cant": "Tests evaluate single conditions; the claim is about every pair of humidities and every defrost configuration.", "anchors": ["resdx/models/nrel.py:171-276"]}
{"id": "C118", "title": "NREL heating including defrost in warmer weather", "statement": "With the NREL model, when it gets warmer outdoors, the warmth does not start the defrost, the air gets no moister compared to the coil and the defrost takes no longer, then the heating capacity including defrost follows the steady-state capacity: it falls only if that does. With resistive defrost the COP including defrost likewise follows capacity and COP of steady state. So a correctly charged unit from -40 F to 65 F heats more, and more efficiently, the warmer it is. The EPRI defrost time falls as the air gets drier compared to the coil. A resistive defrost that is not timed lowers the COP. Expected but false: no defrost raises the COP; a timed one does if the air is dry and the heater small, and the theorem says exactly when.", "quantifier": "for all units with the NREL model, defrost settings and time functions, psychrometric functions and pairs of conditions in the ranges named", "why_tests_cant": "Tests evaluate single conditions; the claim is about every pair of conditions and every defrost configuration.", "anchors": ["resdx/models/nrel.py:171-276", "resdx/defrost.py:48-60"]}
{"id": "C119", "title": "Operating point of a PSC fan in its duct system", "statement": "For a PSCFan with positive design airflow and pressure, whatever speeds were added and removed, operating_pressure(speed) is the only pressure at which the speed's fan curve meets the system curve, within the tolerance of any sound bracketing root finder. Every speed whose airflow at the design pressure is at most sqrt(3) times the design airflow has such a point. The first speed runs at the design point exactly. A speed of less (more) air runs at or below (above) the design pressure and moves at least (at most) its airflow at the design pressure. Of two speeds the one of more air moves more and at a higher pressure.", "quantifier": "for all PSC fans, sequences of added and removed speeds, speeds and sound root finders", "why_tests_cant": "Tests try single fans with one root finder; uniqueness and order of the operating points concern every fan and pressure.", "anchors": ["resdx/fan.py:84-94", "resdx/fan.py:139-151", "resdx/fan.py:431-520"]}
{"id": "C120", "title": "ECM fans against pressure and in their duct system", "statement": "For an ECMFlowFan whose efficacy without external pressure is not negative, a speed of positive airflow, against a higher pressure, draws no less power, moves no more air, and has a strictly higher efficacy (W per unit of air). While the power it wants is within maximum_power it moves the rated airflow and its power strictly rises; beyond the limit it draws the limit and, between two positive pressures, its airflow strictly falls. operating_pressure(speed) is the only pressure at which fan curve and system curve meet, within the tolerance of any sound bracketing root finder; it exists for speeds of up to sqrt(3) times the design airflow that are within the limit without pressure; it is design pressure times (airflow ratio)^2 for every speed within the limit there, and the design point for the first speed.", "quantifier": "for all ECM fans, sequences of added and removed speeds that keep the first speed, speeds, pressures and sound root finders", "why_tests_cant": "Tests try single fans at a few pressures; monotonicity and uniqueness concern every fan, every limit and every pressure.", "anchors": ["resdx/fan.py:84-94", "resdx/fan.py:139-151", "resdx/fan.py:526-632"]}
{"id": "C121", "title": "Operating point of the EERE fans", "statement": "For every EERE fan class, a fan of at least 925 cfm per inch of water of design pressure (at most 9 inches): operating_pressure of every speed of up to sqrt(3) times the design airflow returns, within the tolerance of any sound bracketing root finder, the design pressure times the squared airflow ratio, where the fan moves the airflow the speed was created with. Smaller fans may have none: one of 50 cfm at 0.39 inches with a controlled PSC motor raises ValueError.", "quantifier": "for all EERE motors, airflows, design pressures, speeds and sound root finders", "why_tests_cant": "The airflow of these fans is not monotone in the pressure; that the curves meet once concerns every fan and pressure in the bracket.", "anchors": ["resdx/fan.py:84-94", "resdx/fan.py:139-151", "resdx/fan.py:634-794"]}
{"id": "C122", "title": "PSC fans against pressure", "statement": "For a PSCFan of positive design airflow, pressure and efficacy, each speed with positive free airflow has a pressure that stops its flow. From there on airflow and power are 0 and efficiency raises ZeroDivisionError. Below it, against a higher pressure, the fan moves strictly less air, draws strictly less power and is strictly more efficient; its blower turns strictly faster if it turns slower than 1100 rpm without pressure, strictly slower if faster. In the duct system a speed of more air draws more power.", "quantifier": "for all PSC fans, sequences of added and removed speeds that keep the first speed, speeds, pairs of pressures and exact root finders", "why_tests_cant": "Tests try single fans at a few pressures; monotonicity concerns every fan and pair of pressures.", "anchors": ["resdx/fan.py:96-151", "resdx/fan.py:431-513"]}
{"id": "C123", "title": "ECM fans and the fan laws in their duct system", "statement": "For an ECMFlowFan with positive efficacy without external pressure, a speed of up to sqrt(3) times the design airflow whose power there is within maximum_power moves its own airflow at its operating point, with operating pressure and efficacy proportional to the square of the airflow ratio and power to its cube. The blower speed is not proportional to the airflow: it is lower than that below the design airflow and higher above.", "quantifier": "for all ECM fans, sequences of added and removed speeds that keep the first speed, speeds and exact root finders", "why_tests_cant": "Tests check single speeds against stored numbers; the laws concern every fan, ratio and duct system.", "anchors": ["resdx/fan.py:84-94", "resdx/fan.py:96-151", "resdx/fan.py:526-632"]}
