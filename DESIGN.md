# Formal model of bigladder/resdx in Rocq (Coq 8.16.1)

This directory contains a machine-checked model of the Python package in
`/repo/resdx` and proofs of the properties listed in `properties.jsonl`.
The code itself was only read; it was never built or run.

Contents: 1 conventions, 2 layout, 3 trusted base, 4 what is and is not modelled,
5 assumptions about external libraries, 6 plan and status per property,
7 defects found, 8 testing the model and the theorems, appendix: axioms per theorem.

## 1. Modelling conventions

* **Numbers.** Every model function is written once over a type class `Num T`
  (`Base/Num.v`: literals, `+ - * /`, negation, `<`, `<=`, `==`) and, where needed,
  `NumX T` (`exp`, `log`, `sqrt`, real power, pi). Theorems are about the
  instance `T = R` (Coq's real numbers); a few about text and references (C51-C53, C62)
  hold for every instance. Hence IEEE-754 rounding, overflow, infinities and NaN are
  *not* covered by the theorems. The same definitions are instantiated at Coq's
  primitive binary64 floats, which makes the model executable; this is used only to
  compare it with the numbers in `/repo/test` (a test, not a proof, see section 8).
* **Exceptions** are values: `res A = Ok a | Err e` with `e : exn` naming the
  Python exception class. Methods that mutate an object are
  `st S A = S -> S * res A`: as in Python, a raised exception does *not*
  roll the object back.
* **Division** by a non-literal is checked: `x /? y` is
  `Err ZeroDivisionError` when `y == 0`. For `numpy.float64` operands Python
  returns inf/nan with a warning instead; so "the call returns `Ok v`" always
  means no zero denominator occurred, and theorems that conclude an `Err` for a
  zero denominator are about plain Python floats.
* **None** is `option`; reading an attribute that was never assigned is
  `Err AttributeError`; reading an unassigned local is
  `Err UnboundLocalError`; list indexing out of range is `Err IndexError`,
  negative list indices wrap around as in Python where the code can produce
  them.
* **External libraries** (psychrolib, scipy root finders) are not
  modelled: psychrolib functions and root finders are *arguments* of the model
  functions (fields of a record that every theorem quantifies over); what is
  assumed of them, if anything, is a visible hypothesis of the theorem (section 5).
  koozie unit conversions are written out as their (affine) formulas in
  `Model/Units.v`. scipy's `RegularGridInterpolator` (linear, extrapolating)
  and `interp1d` are re-implemented in the model from their documentation.

## 2. Layout (`rocq/theories`)

* `Base/` number class, exceptions, Python lists, tactics.
* `Model/` one file per Python module, no proofs. Every definition cites the
  file and lines it models and says where it simplifies.
* `Spec/` small specifications used in theorem statements. They mention model
  objects (a unit, a fan, a condition) but none of the model's helpers that compute the
  quantity the property is about.
* `Proofs/` lemmas, and the concrete units used by the examples (`Toy*.v`).
* `Props/` the property theorems: each `Theorem` is closed by `exact lemma.`,
  followed by `Print Assumptions` and a non-vacuity `Example`.
* `Validate/` the model on floats against the values in `/repo/test`.

A theorem `Cnn_...` belongs to property `Cnn`. The suffix `_refuted` marks a theorem
which shows that the intended behaviour named in the property does *not* hold of the code
(section 7); the property's statement says both what is intended and what happens.

## 3. Trusted base

* Coq 8.16.1's kernel (with its `vm_compute`/primitive float machinery used only in
  `Validate/`, on which no property theorem depends) and the compiler that built it.
* The axioms listed by `Print Assumptions`, all from Coq's standard library:
  - `ClassicalDedekindReals.sig_forall_dec` and
    `FunctionalExtensionality.functional_extensionality_dep`: the construction of `R`;
  - `ClassicalDedekindReals.sig_not_dec`, `Classical_Prop.classic`: pulled in by real
    decision procedures and real analysis.
  The appendix lists the set for each theorem. `Example`s about solvers additionally use
  `ClassicalEpsilon.constructive_indefinite_description` to exhibit an ideal bracketing
  root finder (`Proofs/FanProofs4.v`); no property theorem depends on it.
  There are no axioms, parameters or section-less variables of our own, no functors or module types, no
  `Admitted`, and no kernel check is switched off.
* The transcription of the Python code into `Model/` (checked by reading, by the float
  runs of section 8, not by proof), including our understanding of Python, numpy and scipy
  semantics described in section 1 and of koozie's conversion factors.
* The reading of each English property as its theorem statement (`Props/`, `Spec/`).

## 4. What is modelled

| Python | lines | model |
|--------|-------|-------|
| `util.py` | 4-55, 61-62, 69-70, 77-78, 85-87, 102-107 | `Model/Util.v` |
| `psychrometrics.py` | all | `Model/Psychrometrics.v` |
| `conditions.py` | all | `Model/Conditions.v` |
| `defrost.py` | all | `Model/Defrost.v` |
| `enums.py` | all | `Model/Unit.v` |
| `fan.py` | all classes and methods | `Model/Fan.v`, `Model/Repr205.v`, `Model/Metadata205.v` |
| `models/nrel.py` | all | `Model/Curves.v`, `Model/NREL.v` |
| `models/base_model.py`, `constant_model.py`, `carrier_defrost_model.py` | all | `Model/BaseModel.v` |
| `models/title24.py` | all | `Model/Title24.v` |
| `models/tabular_data.py` | all | `Model/Tabular.v` |
| `models/unified_resnet.py` | all | `Model/Resnet.v` |
| `dx_unit.py` | 20-112 (enums, distributions), 113-1376 (class DXUnit) | `Model/Unit.v`, `Model/DXUnit.v` |
| `dx_unit.py` | 96-111, 1410-1575 (`generate_205_representation`) | `Model/Repr205.v`, `Model/Metadata205.v` |
| `dx_unit.py` | 1378-1408 (printing), 1577-1753 (`plot`, without the color of lines) | `Model/Report.v` |
| `dx_unit.py` | 1755-1902 (`write_validation_tables`) | `Model/Validation.v` |
| `rating_solver.py` | all | `Model/RatingSolver.v` |
| `idf.py` | all | `Model/Idf.v` |

**Not modelled**, with the reason:

* The dimes plotting library, which turns the figure of `plot` into HTML; rounding of printed numbers.
* `util.py:65-66, 73-74, 81-82, 90-99` (`*_string` helpers, `exponential`): never called by
  the package; number formatting.
* The entries of a 205 document that are the same in every document (schema version, disclaimer, fan position, ...).
* `tools/`, `test/`, packaging files.

**Simplifications** (each is repeated in the comment of the definition concerned):

* `IDFField` formats floats with Python's `format`; the model takes the formatting
  function as an argument (`fmt`) and theorems hold for every such function whose results contain no
  separators. Text is a list of characters, and a character is one column.
* The unit's model object is a record of functions (`dxmodel`) instead of a class; methods of the
  unit take it as an argument. Model data that a model caches on the unit is part of the unit.
* `PsychState` caches attributes on first read. `Model/Psychrometrics.v` has the stateful
  object; the rest of the model uses the value of a read and drops the cache update, which C05 shows to be
  unobservable.
* `Defrost.time_fraction` is a function of conditions (the default, a lambda, is modelled).
* `calculate_r_squared`: numpy's nan/inf results (constant or empty source) are errors.
* Python strings in kwargs dictionaries are looked up by name in an association list;
  values have the type the code expects of that option (`kwval`).

## 5. Assumptions about external libraries

All of these are hypotheses of the theorems that use them, visible in the statement;
everything else holds for arbitrary functions.

* `newton_finds_roots tol sol` (C50, C68): if `scipy.optimize.newton` returns `x`, then
  `|f x| <= tol`. scipy's secant method stops when successive iterates are close, so this is
  an idealisation; `tol` makes the dependence explicit.
* `brentq_sound`-style hypotheses (C14): `scipy.optimize.brentq` returns a point within
  its bracket and within tolerance of a root if there is a sign change, and raises
  ValueError if there is none.
* `outdoor_states_exist psy` (C49, C50 for single-stage units): psychrolib can make the
  outdoor states at 82 F and 95 F, 40 % relative humidity.
* In C07: the indoor and standard densities psychrolib returns are the same number on each
  read, and not zero.
* C12: the root finder is an arbitrary adaptive prober (`PAsk`/`PDone`/`PFail`), no
  assumption. An adaptive run is a well-founded tree: infinite probing is excluded (scipy
  stops after 50 iterations).
* psychrolib's results are otherwise unconstrained, in particular nothing is assumed about
  monotonicity or consistency between its functions.

## 6. Plan and status per property

For every property: what is modelled / how it is proved. All are proved in full; where the
intended behaviour is false of the code, the theorem characterises what happens instead
(see section 7). `MANIFEST.json` lists the theorems.

| id | modelled | proof idea |
|----|----------|-----------|
| C01-C03 | `util.py` functions | case analysis; induction over the list for `find_nearest` |
| C04-C06 | `PsychState` as a stateful object with cache flags | invariant linking caches to pure functions; induction over read histories |
| C07-C08 | `OperatingConditions` as a stateful object | invariant preserved by each setter, induction over the call sequence; exact characterisation of `set_mass_airflow` |
| C09-C10 | `Defrost` | case analysis, linear arithmetic |
| C11-C12 | all fan classes, `add_speed`/`remove_speed`/`check_power` | list-length invariant, induction over operations; root finder as an arbitrary adaptive prober |
| C13-C18 | fan curves | real analysis (`exp`, `ln`, `sqrt`, `Rpower`) |
| C19 | `get_speed_order_map` | sortedness/permutation of an argsort |
| C20-C25 | performance tables, bilinear interpolation | list induction, field arithmetic, partition of unity |
| C26 | table builders | symbolic evaluation of the builder |
| C27 | `make_neep_model_data` with the caller's lists as explicit state | evaluation, witness |
| C28-C31 | NREL curves, charge factors, EPRI defrost | arithmetic on the literal coefficients |
| C32-C33 | Carrier and Title-24 models | piecewise linear arithmetic |
| C34-C35 | RESNET model | arithmetic, interpolation lemmas |
| C36-C38 | `DXUnit` checks, net/gross, bypass factor | list induction, monadic inversion, exp/ln |
| C39-C41 | rating conditions | case analysis; the conditions are a function of the unit |
| C42-C47 | `HeatingDistribution`, SEER and HSPF for all staging types | induction over bins; per-bin energy balance; two-run scaling |
| C48-C50 | constructor, rating solver | evaluation of the constructor; the constructor as a state machine with a frame rule (`Proofs/Frame.v`); root finder hypothesis |
| C51-C53 | IDF writer | parser/printer round trip by induction; name sets |
| C54 | 205 generator | induction over nested loops |
| C55-C56 | model option check, rated COP setters | induction; field arithmetic |
| C57 | Title-24 anchor caches in the unit | invariant: a cache is empty or holds what would be computed again |
| C58 | HSPF for all staging types | totality of the bin loop, bounds on a ratio of sums |
| C59 | RESNET construction with other heating inputs | relational proof over two constructor runs (`Proofs/Patch*.v`) |
| C60-C62 | IDF axes, normalised tables, nodes | evaluation of the exporter, membership in the object list |
| C63-C66 | 205 fan map, mass flow, axes, standby | nested loops, `linspace`, interpolation |
| C67-C68 | outlet and apparatus dew point states | monadic inversion; field arithmetic; root finder hypothesis |
| C69 | `calculate_r_squared` | list induction, sums of squares |
| C70 | `set_rating_conditions`, `make_condition` | the constructed unit is a fixed point of setting its own standard; inversion of `make_condition` |
| C71 | `write_validation_tables`, with the file as state | evaluation of the entry list; every heading is looked up |
| C72 | the RESNET construction (`capacities_from_table`, `resnet_set_fan`, `setup_gross_table`), net capacity and power | invariants of the construction: rated fan power of each speed, speed map, gross table = net table shifted by interpolated fan powers (`Proofs/Rated*.v`) |
| C73 | the same, with the three table builders | C72 at the stored A and H1 conditions, with the table values of C26; missed ratings: C95's pressures and the monotonic power of a BPM fan |
| C74 | `print_cooling_info`, `print_heating_info`, with the text printed so far as state; a line holds its unrounded value | inversion of the printing loop |
| C75 | `plot` up to the figure handed to dimes: curves with legend, name, units, values | the list of display specifications is compared with the 22 curves of the specification; legends are distinct; speed numbers of RESNET units are an invariant of the construction (`Proofs/Layout.v`), rated points by C72 |
| C76 | the Title 24 cooling methods under `DXUnit`'s limit checks and net quantities | each curve equals its polynomial by ring arithmetic; inversion of the efficiency selection; evaluation at the rating point; `…_refuted` for the rated net COP |
| C77 | the Title 24 heating power methods with the cache and root finder (`prober`: the points asked are visible) | the stateful run of the root finder equals a pure run plus the 35 F entry of the last trial; inversion of the bin loop; refutation with a root finder that tries another point before it answers |
| C78 | `base_set_fan`, `t24_set_fan`, the constructor | invariant of the loops that fill the arrays; the constant-efficacy fan answers its own airflow and power; gross capacities from the loop after it; `C78_given_fan_refuted`: with a given fan the rated fan power stays `None` |
| C79 | `ConstantDXModel` on constructed units | C78 for the fan, the COP chain of C37 for the net COP; EER and SEER through the stored rating conditions (C70) |
| C80 | `fan_object` within `idf_objects` | class names are unique in the object list, so the field read by name is the one written; `argsort` gives the order |
| C81 | `cooling_objects`, `heating_objects`, `system_objects`, `get_cooling_cop60` | as C80; the part-load and defrost curves are reached through the names the coils refer to |
| C82 | `init_unit` and the rest of the constructor, for every model | the settings are an invariant of every later step (`Frame.v`, `Layout.v`), so they are those of `init_unit`; the crankcase heater by inversion of `finish_unit` |
| C83 | the whole constructor, for each model | inversion: each step of a successful construction is peeled off, and a step that cannot succeed is a contradiction (`Unbuildable.v`); the speeds from the rating conditions (C70) |
| C84 | the whole RESNET constructor, run on two units | every step commutes with changing the remembered arguments (`alike`), and the table path, run on the derived table, passes through the same states (`OwnTable.v`) |
| C85 | the whole RESNET constructor with a table | as C84, with the remembered ratings changed too; the table is already there, so no step reads them |
| C86 | seer, hspf (DXUnit.v) of two units | the formulas of C44 and C58 for both units, compared bin by bin: cycling, interpolation between speeds and the cut-out are monotone in power, degradation coefficient and cut-out temperature |
| C87 | add_speed, remove_speed, PSC and ECM efficacy, power and rotational speed (Fan.v) | invariant: every stored list is a function of the airflow list and the first airflow; kept by additions and by removals of later speeds |
| C88 | generate_205_representation, metadata part (Metadata205.v); uuid generator, hashes, clock and number formatting are arguments | the document is shown to be a pure function of unit, metadata and hashes; comparisons of two such values |
| C89 | reset_rated_flow_rates, on any fan class (ResetSpec.v says what speeds are added) | inversion of the two loops into a list of condition updates; frame lemma for the rest; the constructed conditions of C70 give the pressures |
| C90 | resnet process_kwargs, the table builders and the RESNET model at the H3, B-low, A-low and A-boost conditions | the table built has the option's value at that cell (TabBuild), and C72's table value = unit value |
| C91 | make_rating_unit | inversion of the solver to its last DXUnit call, then C82's settings, C73 and C90 |
| C92 | Fan efficiency and rotational_speed, ECMFlowFan power, airflow, rotational_speed | closed forms of the ECM fan in terms of its makers' arguments (C87's state invariant), then real arithmetic |
| C93 | NREL set_rated_fan_characteristics, set_rated_net_total_cooling_capacity, set_rated_net_heating_capacity | inversion of the setters; the quotient that defines the low speed is shown to solve the gross relation |
| C94 | the four builders of tabular data, add_temperature, set_interpolator, calculate | the values at grid temperatures are those of the rows; an extrapolated row keeps the map (C22), a repeated one makes it level, and segments are lines (C24) |
| C95 | RESNETDXModel.set_fan without a fan, Fan and RESNET fan classes, DXUnit construction, make_condition | invariant of the loops adding a blower speed per rated speed (every speed done so far is served by the fan so far; adding speeds keeps it), then a frame argument to the finished unit |
| C96 | `util.py` curve functions | ring; division by a root for uniqueness |
| C97 | `cycling_method` in the constructor, `seer` and `hspf` | two units that differ in the method only are alike in every step of the constructor and in every result; bin by bin comparison for SEER; inversion of the two-stage HSPF loop, and a toy unit for the refutation |
| C98 | EERE fan classes and their tables | the free airflow of each speed by induction over the added speeds; table interpolation by cases on the size; the orderings are linear and quadratic arithmetic |
| C99 | Fan export: motor power against the map | the map's powers characterised through the order map; per class the power law is monotone in speed and pressure; for BPM the power at 1.2 inches is compared with 1.2 times that at 0 |
| C100 | Integrated over steady-state heating | the ratio methods expanded for a general model; per model from its defrost derate; Title 24 from the anchor capacities |
| C101 | Sensible capacity from the apparatus dew point | algebra on the bypass-factor construction; psychrolib's enthalpy formula and the root finder's tolerance are hypotheses; dry room by a concrete unit |
| C102 | Units made without arguments | settings, fan and COP lemmas of C36, C48, C78, C82 applied to the default arguments; RESNET by inverting the table builders |
| C103 | What the fan costs | inversion of the quotients and elementary inequalities; the heating part by the lemma on diluted ratios of C100 |
| C104 | Variable-speed ratings need speeds that differ | evaluation of the slope of the intermediate line; inversion of HSPF |
| C105 | What a wrong refrigerant charge does | factor at rated airflow from C30, sign of the charge polynomials by nonlinear arithmetic; counterexample in the cold |
| C106 | Performance follows weather and airflow as physics suggests | sign of the divided differences of the curves by (non)linear arithmetic; counterexample at high airflow |
| C107 | An undercharged unit is rated lower | C105 at the rating conditions of C70, single-stage formula of C43 |
| C108 | Title 24 heating capacity follows the outdoor temperature | C33's anchors and the lines of C77, at every temperature |
| C109 | What the defrost control settings decide | hspf() with the credit as a parameter; the rest of it computes to the same on both units |
| C110 | What the ratings depend on | both sides compute to the same term once the listed attributes are identified |
| C111 | Conditions whose rated airflow is not known yet | induction over the calls with an invariant for unrated conditions; every net method needs the fan power and so the static pressure |
| C112 | The climates behind HSPF are those of the standard | computation for each region against a table indexed by region, the 2023 hours derived from the 2017 ones and the zero-load temperature |
| C113 | A heat pump that never runs is rated as resistance heat | every run fraction, also the one carried between bins, is 0; the season's ratio is 1 |
| C114 | Title 24 cooling against weather and airflow | differences of the curves of C76 factor into a temperature (airflow) difference times a term of known sign; the model run in full below 82 F and from 95 F |
| C115 | RESNET heating including defrost against the weather | the derates of C34 fall with the outdoor temperature; combined with C106 for units without tables |
| C116 | Title 24 heating COP against the outdoor temperature | capacity and power are the lines of C108 and C77, the same for all conditions of a speed; a ratio of two lines is monotone where the denominator is positive |
| C117 | NREL heating including defrost in moister weather | the derates of C31 as functions of the humidity difference; the steady-state values read no humidity; monotonicity of the resulting rational functions |
| C118 | NREL heating including defrost in warmer weather | the derates of C31 as functions of the gap between air and coil humidity; products and quotients of monotone factors; steady state from C106 |
| C119 | Operating point of a PSC fan in its duct system | the fan curve falls (exponential law) and the system curve rises, so they meet once; a bracketing root finder is assumed as in C14; the curve is continuous, with a sign change between 0 and three times the design pressure |
| C120 | ECM fans against pressure and in their duct system | wanted power is affine and rising in the pressure, the airflow is the rated one times the square root of drawn over wanted power; this falls and the system curve rises, so they meet once; continuity gives existence; a bracketing root finder is assumed as in C14 |
| C121 | Operating point of the EERE fans | at the pressure esp * t^2 the difference of the curves factors as (t - r) times a negative number, so they meet only at t = r; a bracketing root finder is assumed as in C14 |
| C122 | PSC fans against pressure | the airflow law falls strictly up to the blocking pressure, efficacy does not depend on the pressure, the blower speed is a straight line; operating points from C119 |
| C123 | ECM fans and the fan laws in their duct system | the operating point of C120 put into the laws of C87 and C92 |

## 7. Defects found

Theorems ending in `_refuted` (and the exact characterisations beside them):

* C06: `PsychState.rh` returns the humidity ratio for states not built from `rel_hum`;
  assigning `wb` leaves `hr` stale.
* C08, C64: `set_mass_airflow` stores rated/actual instead of actual/rated, and takes the
  pressure from the previous ratio. The 205 export uses it for every grid point.
* C10: `demand_credit` divides by zero at `max_time` = 90 min, exceeds 1.03 below it, and drops under 1 for
  periods beyond the cap.
* C11, C12: `ConstantEfficacyFan.add_speed` without an efficacy leaves its lists unparallel;
  `check_power` is not exception safe, and always fails for this class.
* C17: `EEREFan` fails with AttributeError at a nominal capacity of exactly 2 tons.
* C20: table speeds 0 and below address cells from the end; `set_by_ratio` on a single-speed table
  divides by the ratio.
* C23: inserting an interior temperature uses the wrong upper neighbour.
* C27: `make_neep_model_data` changes its caller's lists; the second call with them fails.
* C29: NREL cooling capacity is not monotone in wet bulb at 95 F outdoors.
* C31: NREL reverse-cycle integrated power always raises TypeError in the defrost window.
* C33: Title-24 default EER drops at SEER 16 (by at most 0.01), the 17 F capacity ratio drops at HSPF 7.5 (by at most 0.0043); both rise elsewhere.
* C34: RESNET integrated power ignores the charge factor.
* C37: gross heating values are not limit-checked: a RESNET unit at four times the rated airflow has
  a negative heating capacity.
* C41: `reset_rated_flow_rates` always raises AttributeError on two-stage units.
* C45: HSPF under AHRI 210/240-2017 depends on unit size.
* C46: variable-speed HSPF can book negative resistance heat (`t > 5 or t <= 17` is always
  true).
* C47: two-stage HSPF reuses the cut-out factor of an earlier bin, or raises UnboundLocalError.
* C48: `heating_on_temperature` given by the caller is never stored (and HSPF then raises);
  default gross COPs override net COPs given by the caller; from a *list* of gross COPs the base setters derive
  nothing, so one unit can have a gross COP of 3 and a net COP of 5 (`C48_gross_cop_list_refuted`).
* C60: the heating outdoor axis of the IDF tables is not increasing if the unit switches off at 5 F or above.
* C68: `adp_state()` without conditions always raises AttributeError.
* C71: `powerConsumption47full` is the power of the 62 F low-speed test; single-stage and two-stage units get an emptied
  file and UnboundLocalError.
* C76: Title 24 divides the fan power in watts by 3.413, so at the rating condition the net COP is below the rated one
  (`C76_rated_cop_refuted`; 3.69 instead of 4 for 300 W at 10 kW).
* C82: without a staging type only the heating speeds decide it, so two cooling capacities with one heating capacity make a
  single-stage unit with two cooling speeds (`C82_speeds`). The default heating cut-out is decided before the RESNET model
  reads the staging off a supplied table, so a unit that becomes variable speed that way keeps 0 °F (`C82_heating_cut_out`).
* C83: `DXUnit(model=NRELDXModel(), ...)` always raises (`C83_nrel_refuted`): without a fan the default
  fan multiplies a list of efficacies by a number (TypeError), and with one the rated fan powers stay None and the gross capacities cannot be computed. A RESNET unit needs COPs
  that its tables then ignore (`C83_efficiency_required`); tables of four or more speeds raise KeyError and tables passed
  with a list of heating capacities raise AttributeError (`C83_resnet_tables`); a two-stage unit given one capacity in
  each list always raises, since the gross capacities have one entry when `set_lower_speed_net_capacities` writes the
  second, so that function never does its work (`C83_two_stage_lists`).
* C80, C81: the export prints airflows (m³/s), flow and power fractions, part-load coefficients and fan efficiency with two
  decimals only (`VNum 2` in `C80_exported_fan`, `C81_part_load`), so a degradation coefficient of 0.125 is written as
  0.12 or 0.13. A unit without defrost is written with a resistive strategy and a highest temperature of -999 °C
  (`C81_defrost`). The COP behind the defrost curve is cached in the model and not recomputed when the unit changes
  (`C81_defrost_energy`).
* C78: the base, constant, Carrier defrost and Title 24 models cannot be given a fan: nothing then sets the rated fan
  power, and the gross capacities are computed from it (`TypeError`, `C78_given_fan_refuted`). The Title 24 model
  takes the heating airflow from the cooling capacity (`C78_title24_default_fan` with a different heating capacity), and
  builds units of one speed per mode only (its airflow list has one entry).
* C77: the Title 24 COP at 35 F is that of the root finder's last trial (`C77_power_at_35_refuted`). scipy's secant
  method returns a point it has not evaluated, within its tolerance of the last one, so there the deviation is small.
* C75: `plot` raises KeyError for a unit with more than four speeds, or four of which the first is rated; its axis is
  not increasing if the unit stops heating at 5 F or above.
* C72, C73: the pressure of a condition refers to the airflow of speed 0, the stored rated fan power of the full
  speed to the design airflow. For a variable-speed unit speed 0 is the boost speed, so with its default BPM motor
  the fan runs at a lower pressure than rated and the unit misses its EER by the difference in fan power. In general
  a unit with a BPM motor misses its ratings on the side given by `C73_ratings_missed` whenever speed 0 of a mode does
  not move the larger of the two full-load airflows (C49 therefore asks for a PSC motor or a heating airflow not above
  the cooling airflow). `Validate/MissedRuns.v` shows it on the two-stage and the variable-speed unit of the repo's tests.

* C87: `Fan.remove_speed(0)` leaves the ratios of the remaining speeds relative to the removed one
  (`C87_remove_first_refuted`).
* C88: the identifier of the unitary 205 document is seeded with `hash((str, str))`, which Python salts per process, so
  it changes between runs even with `uuid_seed` set (`C88_unitary_id_refuted`). A generated fan description is kept
  after the fan changes (`C88_fan_description_refuted`).
* C89: `reset_rated_flow_rates` passes the pressure positionally to `add_speed`, which `ConstantEfficacyFan` takes as
  the efficacy: with the default fan, 389 W of fan power becomes 62 W in the example
  (`C89_default_fan_refuted`). The rating conditions are not moved to the new rated airflow, so their pressure is not
  the rated one (`C89_pressure_refuted`), and the boost test keeps its old airflow (`C89_conditions`).
* C40: `set_rating_standard` does not update rated airflows, fan speeds and fan powers (`C40_changes_only`).
* C91: when `q47` is not given, `make_rating_unit` multiplies `qm17` with the cooling capacity, while the capacity at
  47 F comes from a regression on it, so the capacity ratio of 17 F to 47 F is not `qm17` (`C91_maintenance`).
* C92: an ECM fan held at its power limit keeps too much airflow: its efficiency exceeds 1 against a high pressure
  (`C92_ecm_efficiency_refuted`). Against zero pressure its airflow is the full one even when it is held at its limit,
  which is why `C92_ecm_speed` excludes that pressure.
* C94: the straight line below 17 F is not floored (the cooling one towards 60 F is): with three tenths of the capacity
  left at 17 F the heating capacity of single-speed data is negative at -10 F, above the minimum heating temperature
  (`C94_capacity_positive_above_minimum_temperature_refuted`).
* C95: at full load rated and tested pressure can differ. `set_fan` rates the fan at full load against a pressure scaled by
  the larger of the two full-load airflows, while the rating conditions scale by the airflow of speed 0 of the same mode:
  in the mode with less air the fan of a single- or two-stage unit is rated below the pressure of its own tests, and at
  the full (not boost) speed of a variable-speed unit above it (`C95_full_load_pressure`; `Validate/FanPressures.v` shows
  both on units of the repo's tests). Net ratings then are missed with a BPM motor (`C73_ratings_missed`).
* C97: HSPF of two-stage units that cycle between off and full (`dx_unit.py:1278-1281`) takes the
  heating load factor of the low stage in the part-load factor, so the cycling loss grows with the
  load, and books energy with the run fraction of the bin but resistance heat with that of an
  earlier bin; `C97_free_heat_refuted` has a unit that gets the heat of a bin for nothing.
* C98: the EERE airflow formulas rise with pressure before they fall (up to 0.39 inches of water
  with controls, 0.48 for constant airflow); the multi-stage constant-torque table falls from 4 to
  5 tons (0.17 to 0.16 W/cfm), against all other motors; extrapolated beyond 10 tons (4000 cfm) the
  improved PSC motor is the worse one.
* C99: except for ECM fans the exported `maximum_power` is 1.2 times the power at no pressure
  (fan.py:241-246). The power of a BPM motor rises with pressure, so every RESNET BPM fan exports a
  map (up to 1.2 inches of water) with powers above its own motor's maximum.
* C100: with the Title 24 model the capacity lost to defrost grows with temperature: the line from
  17 F to 35 F is used up to 45 F (title24.py:353-356), so a unit loses 10 % of its clear capacity
  at 35 F, 13 % of it at 41 F (the default end of the window), and nothing just above.
* C101: the NREL and RESNET sensible capacity has no dry-coil case (nrel.py:278-291).  In a dry room
  (26.85 C, about 20 % relative humidity, bypass factor 0.1) the saturated state is moister than the
  room air, so the sensible capacity exceeds the total; `gross_sensible_cooling_capacity` and
  `net_sensible_cooling_capacity` return it, `gross_shr` raises.
* C102: `DXUnit()` raises: the default model is `RESNETDXModel` (dx_unit.py:191), whose tables need
  ratings (SEER, EER, HSPF) that default to None, so the default capacity and COPs are of no use there.
* C103: the fan's heat counts as heating capacity, so it raises a heating COP that is below 1
  (dx_unit.py:1000-1068).
* C104: a variable-speed unit with equal low and full speeds has neither SEER nor HSPF: the
  intermediate line divides by the difference of the speeds (dx_unit.py:857, 880, 1122, 1141).
* C105: from -30 to -15 C outdoors undercharging by up to a tenth raises both heating capacity and
  COP: the polynomials of nrel.py:302-405 are not clamped to a temperature range.
* C106: beyond 1.28 times the rated airflow the gross heating COP of the NREL curves falls with
  airflow (nrel.py:124-169).
* C108: with default capacities the Title 24 model gives less heat at 40 F than at 20 F once
  HSPF exceeds about 15.46, because capacity at 35 F is 0.9 of the frost-free line and the ratio of
  17 F to 47 F capacity then exceeds 0.84375 (title24.py:269-363).
* C109: with the NREL model demand defrost gives less heat than timed defrost in dry air: its
  multiplier 0.875 (1 - t) is below 0.909 - 107.33 dw (nrel.py:171-205).
* C113: the demand-defrost credit multiplies the whole season's ratio, resistance heat included, so a
  unit that is locked out in every bin is rated 1.03 times 3.412 Btu/Wh.
* C114: from 95 F outdoors the Title 24 efficiency is derived from the rated gross capacity, not the one
  at the conditions (title24.py:248-254), so the power carries the capacity curve as a factor, which it does
  not below 82 F: at 115 F every unit draws less power than at 106 F
  (`C114_hotter_more_power_refuted`). The wet- and dry-coil curves do not meet
  (`C114_hotter_less_capacity_always_refuted`).
* C115: the RESNET derate depends on the outdoor temperature alone and is largest (14.4 %) below 18 F, so a
  defrost with a low temperature limit makes the capacity drop by that much as it gets warmer past the limit
  (`C115_warmer_more_heat_always_refuted`).
* C116: the Title 24 COP at 17 F is whatever fits the rated HSPF (title24.py:471-488), even if it exceeds the
  rated COP at 47 F; such a unit gets less efficient the warmer it is
  (`C116_warmer_more_efficient_refuted`).
* C117: with a timed resistive defrost the power drawn falls as the outdoor air gets moister, because the timed power
  derate falls with the humidity difference; the capacity falls faster, so the COP falls (`C117_timed_resistive`).
* C118: the timed derates of capacity and power are 0.909 and 0.9 in dry air (nrel.py:176-179, 231-233), so a timed
  resistive defrost with a small heater raises the COP above that without frost
  (`C118_defrost_never_raises_cop_refuted`).
* C121: the airflow of an EERE fan rises with the pressure at first, so a small fan may meet its duct system twice,
  with no change of sign between the ends of the bracket; `operating_pressure` then raises ValueError
  (`C121_every_fan_operates_refuted`).
* C122: `efficiency` of a PSC fan whose flow is stopped by the pressure divides zero by zero and raises
  ZeroDivisionError; the blower of a speed with more than 1.058 times the free airflow of the first one slows down
  as the pressure rises (`C122_against_pressure`).
* C123: the blower speed of an ECM fan is not proportional to the airflow in the duct system, unlike pressure and
  power, which follow the fan laws (`C123_blower_speed_refuted`).

Further observations made while modelling, true of the model but not listed above. Where a theorem
covers them it is named.

* `operating_pressure` raises for speeds above sqrt 3 times the design airflow
  (`C14_operating_pressure`).
* Passing a `fan` with any model other than RESNET leaves rated airflows and fan powers
  None (`C78_given_fan_refuted`, `C83_title24_own_fan`). The NREL heating airflow loop iterates over
  cooling capacities (also in Title-24); NREL units cannot be made at all (`C83_nrel_refuted`).
* Title-24: `get_cop17` returns None for speeds other than the first; units have one speed
  (`C83_title24_one_speed`).
* RESNET: lists of capacities (`C83_resnet_lists`, `C83_two_stage_lists`) and COP setters, which do
  nothing when tables are given (C85).
* SEER for variable-speed units also divides by zero when building load, intermediate and full
  capacity coincide in a bin (no theorem).
* The 205 export chooses control type DISCRETE for fewer than three speeds whatever the staging type
  (`C66_compressor_control`).
* IDF: the schedule type limits "Binary Control" and "Fan Mode Control" are referenced but not
  defined (`C52_schedule_type_limits_refuted`); defrost NONE is exported as resistive
  (`C81_defrost`); the COP at 60 F is cached in `model_data` and can be stale
  (`C81_defrost_energy` says which value is exported).

## 8. Testing the model and the theorems

* `Validate/TestValues.v` runs the model on binary64 floats with an implementation of
  psychrolib's formulas, Brent's and the secant method (`Validate/FloatLib.v`), and checks by computation
  eleven tests of `/repo/test` (single-speed, two-speed, variable-speed ratings, fans) against the
  values asserted there, to the tolerances asserted there.
* `seeded/LOG.jsonl` records seeded errors: the model is edited in a scratch copy as a
  realistic bug would, and the theorems that no longer prove are listed, with those that were tightened
  because an error had survived.  Entries written by `tools/logauto.py` come from random edits: the build
  stops at the first lemma that no longer proves, and the theorems listed are those that rest on it.
  A lemma that no longer proves shows that its proof used the edited text, not that the claim is false.
  Edits that survived are listed with empty `theorems_failed` and the reason.

## Appendix: axioms of each theorem

What `Print Assumptions` lists beneath each theorem of `rocq/theories/Props`.

**None** (closed under the global context):

`C51_empty_object_rejected`, `C51_export_reads_back`, `C51_text_reads_back`,
`C52_object_types`, `C52_references_resolve`, `C52_schedule_type_limits_refuted`,
`C52_schedules`, `C53_cooling_coil`, `C53_heating_coil`, `C53_speed_counts`,
`C55_known_options_pass`, `C62_air_path`

`ClassicalDedekindReals.sig_forall_dec`, `FunctionalExtensionality.functional_extensionality_dep`:

`C01_bracket_monotone`, `C01_bracket_nearest_in_range`, `C02_limit_check_accepts_exactly`,
`C02_limit_check_raises_exactly`, `C03_find_nearest_empty`, `C03_find_nearest_first_closest`,
`C04_ok_only_with_one_known_keyword`, `C04_other_keywords_raise`,
`C04_reads_back_constructor_argument`, `C04_wet_bulb_always_readable`,
`C05_reads_are_history_free`, `C06_rh_returns_humidity_ratio_refuted`,
`C06_wb_assignment_leaves_hr_stale_refuted`, `C07_consistent_after_any_calls`,
`C07_rated_flow_gives_unit_ratio`, `C07_standard_air`, `C08_set_mass_airflow_before_rating`,
`C08_set_mass_airflow_consistent_iff_refuted`, `C08_set_mass_airflow_exact_effect`,
`C09_in_defrost_exactly_in_window`, `C10_credit_bounds`,
`C10_credit_is_one_without_demand_control`, `C10_credit_never_increases_with_period`,
`C10_long_period_below_one_refuted`, `C10_max_time_90_minutes_raises`,
`C10_resistive_strategy_needs_power`, `C10_short_max_time_exceeds_bound_refuted`,
`C111_rated_flow_forgets`, `C111_unrated`, `C112_2017`, `C112_2023`,
`C117_moister_longer_defrost`, `C118_drier_shorter_defrost`, `C20_absent_speed_raises_refuted`,
`C20_absent_temperature_raises`, `C20_failed_set_changes_nothing`,
`C20_get_returns_what_was_set`, `C20_maintenance_round_trip`, `C20_only_one_cell_changes`,
`C20_ratio_at_last_speed`, `C20_ratio_round_trip`, `C20_ratio_round_trip_single_speed_refuted`,
`C20_set_accepts_every_cell`, `C20_speed_above_last_raises`, `C21_add_temperature_keeps_table`,
`C22_entry_above`, `C22_entry_below`, `C22_extrapolated_row_above_keeps_map`,
`C22_extrapolated_row_below_keeps_map`, `C23_interior_row_exactly`,
`C23_interior_row_interpolates_refuted`, `C23_other_intervals_succeed`,
`C23_second_interval_divides_by_zero`, `C24_affine_in_temperature`,
`C24_between_surrounding_values`, `C24_bilinear_in_each_cell`, `C24_continuous`,
`C24_defined_everywhere`, `C24_value_at_grid_points`, `C24_well_formed_tables_interpolate`,
`C25_gross_maps_shift_by_fan_power`, `C26_single_speed_data_exists`,
`C26_single_speed_data_reproduces_ratings`, `C26_two_speed_data_exists`,
`C26_two_speed_data_reproduces_ratings`, `C26_variable_speed_data_exists`,
`C26_variable_speed_data_reproduces_ratings`, `C27_arguments_unchanged_refuted`,
`C27_first_call_returns_entries`, `C27_second_call_with_same_lists_fails`,
`C28_cooling_capacity_separates_flow_and_temperature`, `C28_cooling_power_at_rated_airflow`,
`C28_flow_curves_are_one_at_rated_airflow`,
`C28_heating_capacity_separates_flow_and_temperature`, `C28_heating_power_at_rated_airflow`,
`C29_capacity_monotone_in_wet_bulb_mild`, `C29_capacity_monotone_in_wet_bulb_refuted`,
`C29_only_clamped_temperatures_matter`, `C30_no_deviation_no_correction`,
`C30_rated_airflow_charge_only`, `C30_resnet_factors_at_rated_airflow`,
`C31_integrated_capacity_at_most_steady`, `C31_integrated_capacity_positive`,
`C31_no_derate_outside_defrost`, `C31_reverse_cycle_power_always_raises_refuted`,
`C31_reverse_cycle_power_type_error`, `C31_time_fraction_between_0_and_1`,
`C32_carrier_fraction`, `C32_carrier_fraction_continuous`, `C32_integrated_capacity_reduction`,
`C33_capacity_ratio_drop`, `C33_capacity_ratio_monotone_refuted`,
`C33_capacity_ratio_rises_except_at_7_5`, `C33_default_eer_drop`,
`C33_default_eer_monotone_refuted`, `C33_default_eer_rises_except_at_16`,
`C33_heating_cd_bounds`, `C33_heating_cd_never_increases`, `C34_derate_bounds`,
`C35_cooling_capacity`, `C35_cooling_power`, `C35_heating_capacity`, `C35_heating_power`,
`C35_table_value_at_rated_conditions`, `C39_ductless_pressure`, `C39_part_flow_pressure`,
`C39_pressure_2017`, `C39_pressure_2017_never_decreases`, `C39_pressure_2017_no_capacity`,
`C39_pressure_2023`, `C39_rating_condition_pressure`, `C40_changes_only`,
`C40_last_standard_wins`, `C42_near_one_kept`, `C42_other_rescaled`, `C42_rejected`,
`C42_result_near_one`, `C42_tables`, `C56_gross_then_net`, `C56_gross_values`,
`C56_net_then_gross`, `C56_net_values`, `C56_nrel_gross_then_net`, `C56_nrel_net_then_gross`,
`C56_nrel_two_speed`, `C57_cache_is_unobservable`, `C64_grid_mass_flow`,
`C67_cooling_outlet_balance`, `C67_cooling_outlet_default`, `C67_heating_outlet_balance`,
`C67_heating_outlet_default`, `C68_apparatus_dew_point`, `C68_between_states`,
`C68_default_conditions_refuted`, `C69_at_most_one`, `C69_mean_scores_zero`,
`C69_single_number`, `C69_units`, `C69_value`, `C70_after_standard_change`,
`C77_bins_are_those_of_region_4`, `C93_cooling_capacity`, `C93_fan_characteristics`,
`C93_heating_capacity`, `C93_two_speed_defaults`,
`C94_capacity_positive_above_minimum_temperature_refuted`, `C94_listed_maps`,
`C94_single_speed_heating_capacity`, `C94_single_speed_maps`, `C94_two_speed_maps`,
`C94_variable_speed_maps`, `C96_biquadratic`, `C96_curves_are_polynomials`,
`C96_points_determine_coefficients`, `C96_quartic_determined`

`ClassicalDedekindReals.sig_forall_dec`, `ClassicalDedekindReals.sig_not_dec`, `Classical_Prop.classic`, `FunctionalExtensionality.functional_extensionality_dep`:

`C100_constant`, `C100_cop`, `C100_net`, `C100_nrel`, `C100_resnet`, `C100_title24`,
`C100_title24_warm_refuted`, `C101_at_most_total_refuted`, `C101_no_capacity`, `C101_ratio`,
`C101_split`, `C102_net_cops`, `C102_no_arguments_refuted`, `C102_ratings_required`,
`C102_settings`, `C102_unit`, `C103_cooling`, `C103_heating`, `C103_heating_lower_refuted`,
`C103_larger_fan`, `C103_sensible_heat_ratio`, `C104_hspf`, `C104_same_speeds_refuted`,
`C104_seer`, `C105_cold_undercharged`, `C105_overcharged_cooling`, `C105_overcharged_heating`,
`C105_right_charge_best_refuted`, `C105_undercharged_cooling`, `C105_undercharged_heating`,
`C106_hotter_cooling`, `C106_more_air_cooling`, `C106_more_air_heating`,
`C106_more_air_refuted`, `C106_warmer_heating`, `C106_warmer_room`, `C107_eer`, `C107_seer`,
`C107_tests`, `C108_integrated`, `C108_integrated_rises`, `C108_integrated_rises_refuted`,
`C108_steady`, `C108_steady_rises`, `C109_at_most_three_percent`, `C109_cooling`, `C109_hspf`,
`C109_nrel_demand_gives_more_refuted`, `C109_times`, `C110_cooling`, `C110_heating`,
`C111_no_net_performance`, `C112_other_regions`, `C113_locked_out`,
`C113_rated_as_resistance_refuted`, `C114_dry_coil`, `C114_hotter_less_capacity`,
`C114_hotter_less_capacity_always_refuted`, `C114_hotter_less_efficient`,
`C114_hotter_more_power_refuted`, `C114_moister_more_capacity`, `C114_more_air_more_capacity`,
`C114_power_hot`, `C114_power_mild`, `C114_sensible_share`, `C115_capacity_follows`,
`C115_cop_follows`, `C115_warmer_more_heat`, `C115_warmer_more_heat_always_refuted`,
`C116_cop_direction`, `C116_frost_cop_direction`, `C116_power_line`,
`C116_warmer_more_efficient_refuted`, `C117_moister_less_heat`, `C117_not_timed`,
`C117_steady_ignores_humidity`, `C117_timed_resistive`, `C118_capacity_follows`,
`C118_cop_follows`, `C118_defrost_and_cop`, `C118_defrost_never_raises_cop_refuted`,
`C118_warmer_more_heat`, `C119_around_the_design_point`, `C119_first_speed`,
`C119_more_air_higher_pressure`, `C119_operating_point`,
`C11_constant_fan_missing_efficacy_refuted`, `C11_every_speed_can_be_looked_up`,
`C11_lists_stay_parallel`, `C120_first_speed`, `C120_higher_pressure`, `C120_operating_point`,
`C120_operating_point_found`, `C120_within_the_limit`, `C121_every_fan_operates_refuted`,
`C121_operating_point`, `C122_against_pressure`, `C122_more_air_more_power`,
`C123_blower_speed_refuted`, `C123_fan_laws`, `C12_check_power_changes_nothing`,
`C12_constant_fan_probe_refuted`, `C12_earlier_speeds_unchanged`,
`C12_failing_probe_leaves_speed_refuted`, `C12_find_rated_fan_speed_appends_one`,
`C13_system_curve_inverse`, `C14_operating_pressure`, `C15_construction_succeeds`,
`C15_psc_curves`, `C16_design_point`, `C16_design_within_limit_accepted`,
`C16_overloaded_design_rejected`, `C16_power_and_airflow_limits`, `C17_efficacy_interpolates`,
`C17_fails_exactly_at_two_tons_refuted`, `C17_size_selection`, `C17_table_sizes_reproduced`,
`C18_bpm_efficacy`, `C18_bpm_power_below_psc`, `C18_laws_at_full_speed_and_monotone`,
`C18_psc_efficacy`, `C19_speed_order_map_exists`, `C19_speed_order_map_sorts`,
`C25_unit_gross_table`, `C30_nrel_factors_at_rated_airflow`, `C31_nrel_outside_defrost`,
`C31_nrel_resistive_defrost`, `C33_integrated_capacity_anchors`, `C33_steady_capacity_anchors`,
`C34_integrated_capacity`, `C34_integrated_power`, `C34_power_outside_defrost_refuted`,
`C36_capacities_complete_and_ordered`, `C36_given_capacities_stored`,
`C36_increasing_capacities_rejected`, `C37_cooling_values_consistent`,
`C37_cooling_values_determined`, `C37_heating_nonnegative_refuted`,
`C37_heating_values_consistent`, `C38_bypass_factor_after_calibration`, `C38_calibration`,
`C40_round_trip_restores_unit`, `C41_two_stage_reset_refuted`, `C43_single_stage_seer`,
`C43_single_stage_seer_bounds`, `C43_single_stage_seer_only`, `C44_two_stage_seer`,
`C44_two_stage_seer_bounds`, `C44_variable_speed_seer`, `C44_variable_speed_seer_bounds`,
`C45_hspf_2017_refuted`, `C45_hspf_scale`, `C45_seer_scale`, `C46_single_stage_heat_balance`,
`C46_two_stage_heat_balance`, `C46_variable_speed_heat_balance`,
`C46_variable_speed_negative_resistance_refuted`, `C47_single_stage_cut_out`,
`C47_two_stage_cut_out`, `C47_two_stage_cut_out_refuted`, `C47_two_stage_unbound`,
`C47_variable_speed_cut_out`, `C48_gross_cop_list_refuted`, `C48_heating_on_lost_refuted`,
`C48_net_cop_ignored_refuted`, `C48_net_cop_stored_without_gross`,
`C48_supplied_heating_on_breaks_hspf_refuted`, `C49_single_stage_ratings`,
`C50_rating_unit_meets_hspf`, `C50_rating_unit_meets_seer`, `C53_tables`,
`C54_cooling_map_layout`, `C55_unknown_option_rejected`, `C58_single_stage_hspf_bounds`,
`C58_two_stage_hspf_bounds`, `C58_variable_speed_hspf_bounds`,
`C59_heating_efficiency_leaves_cooling`, `C60_axes_increase`,
`C60_heating_axis_increases_refuted`, `C61_unit_at_rated_flow`, `C63_fan_map_layout`,
`C63_fan_map_ordered`, `C64_capacity_at_mass_flow_refuted`, `C65_axes_increase`,
`C65_grid_axes`, `C66_compressor_control`, `C66_standby_power`, `C70_rating_conditions`,
`C71_answers`, `C71_columns`, `C71_failure_keeps_file`, `C71_other_stagings_refuted`,
`C71_power_47full`, `C71_power_47full_refuted`, `C71_written`, `C72_net_cop_is_table_cop`,
`C72_net_values_are_table_values`, `C72_net_values_follow_table`, `C73_ratings_met`,
`C73_ratings_missed`, `C74_cooling_listing`, `C74_heating_listing`, `C74_printed_eer`,
`C75_axis`, `C75_curves`, `C75_every_curve_has_a_legend`, `C75_resnet_rated_point`,
`C75_resnet_speed_names`, `C75_speed_names`, `C76_cop_irrelevant_when_mild`, `C76_efficiency`,
`C76_net_power_at_rating`, `C76_rated_cop_refuted`, `C76_rating_point`,
`C76_seer_irrelevant_when_hot`, `C76_sensible_share`, `C76_total_capacity`,
`C77_integrated_power`, `C77_power_at_35`, `C77_power_at_35_if_last_trial`,
`C77_power_at_35_refuted`, `C77_steady_power`, `C78_default_fan`,
`C78_default_heating_capacity`, `C78_given_fan_refuted`, `C78_gross_capacity`,
`C78_title24_default_fan`, `C79_cooling`, `C79_cooling_cop`, `C79_eer_seer`, `C79_heating`,
`C79_heating_cop`, `C80_exported_fan`, `C81_compressor_limits`, `C81_crankcase`, `C81_defrost`,
`C81_defrost_energy`, `C81_heating_ratio`, `C81_part_load`, `C81_sizes`, `C82_crankcase`,
`C82_degradation`, `C82_eer`, `C82_eer_follows_seer`, `C82_heating_cut_in`,
`C82_heating_cut_out`, `C82_settings`, `C82_speeds`, `C83_efficiency_required`,
`C83_nrel_refuted`, `C83_resnet_lists`, `C83_resnet_tables`, `C83_speeds_exist`,
`C83_title24_one_speed`, `C83_title24_own_fan`, `C83_two_stage_lists`, `C84_own_table`,
`C84_same_results`, `C85_same_heating`, `C85_same_results`, `C85_table_overrides_ratings`,
`C86_single_stage_hspf`, `C86_single_stage_seer`, `C86_two_stage_hspf`, `C86_two_stage_seer`,
`C86_variable_speed_hspf`, `C86_variable_speed_seer`, `C87_ecm_speeds`, `C87_psc_speeds`,
`C87_ratios`, `C87_remove_first_refuted`, `C88_entries`, `C88_fan_description`,
`C88_fan_description_refuted`, `C88_same_again`, `C88_same_in_every_process`,
`C88_unitary_id_refuted`, `C89_conditions`, `C89_default_fan_refuted`, `C89_fan`,
`C89_only_fan_and_conditions`, `C89_pressure`, `C89_pressure_refuted`, `C89_succeeds`,
`C90_capacity_17`, `C90_low_speed_capacity`, `C90_low_speed_cop`, `C91_maintenance`,
`C91_settings`, `C91_values`, `C92_ecm_efficiency`, `C92_ecm_efficiency_refuted`,
`C92_ecm_speed`, `C92_efficiency`, `C92_other_speed`, `C95_every_speed_served`,
`C95_full_load_pressure`, `C95_motor_and_top_speed`, `C95_rated_at_the_rating_pressure`,
`C97_free_heat_refuted`, `C97_off_full_heating`, `C97_only_stored`, `C97_other_staging`,
`C97_same_results`, `C97_seer`, `C98_bpm`, `C98_design_airflow`, `C98_improved_refuted`,
`C98_numbers`, `C98_order`, `C98_positive`, `C98_pressure_refuted`, `C98_size_refuted`,
`C99_bpm_refuted`, `C99_constant`, `C99_ecm`, `C99_map_powers`, `C99_number`, `C99_psc`,
`C99_resnet_psc`
