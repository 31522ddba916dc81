(** C80, C81: the fan and coil settings of the EnergyPlus export. *)
From Coq Require Import ZArith QArith Reals Lra List String Bool Sorting.
From Verif.Base Require Import Num Res Tac.
From Verif.Model Require Import Units Util Psychrometrics Conditions Defrost Fan Tabular Unit
  DXUnit BaseModel Idf.
From Verif.Spec Require Import FanSpec IdfSpec IdfPerfSpec IdfSettingsSpec.
From Verif.Proofs Require Import IdfFields ToyBuild ToyIdf ToyIdfSettings.
Import ListNotations.
Local Open Scope string_scope.
Local Open Scope R_scope.

(** ** C80 *)

Theorem C80_exported_fan : forall psy sol M u name t autosize normalize cached objects,
  idf_objects psy sol M u name t autosize normalize cached = Ok objects ->
  let field := exported objects "Fan:SystemModel" (system_prefix name ++ "Supply Fan") in
  exists f order slower fastest A W p,
    u_fan u = Some f /\ slowest_to_fastest sol f order /\ order = (slower ++ [fastest])%list /\
    airflow sol f fastest None = Ok A /\ power sol f fastest None = Ok W /\
    operating_pressure sol f fastest = Ok p /\ A <> 0 /\ W <> 0 /\
    field "Design Maximum Air Flow Rate" (size_field autosize A) /\
    field "Design Electric Power Consumption" (size_field autosize W) /\
    field "Design Pressure Rise" (VNum 2 p) /\
    field "Fan Total Efficiency" (VNum 2 (A * p / W)) /\
    field "Motor Efficiency" (VNum 2 1) /\
    field "Motor In Air Stream Fraction" (VNum 2 1) /\
    field "Speed Control Method" (VText "Discrete") /\
    field "Design Power Sizing Method" (VText "TotalEfficiencyAndPressure") /\
    field "Number of Speeds" (VInt (Z.of_nat (f_n f))) /\
    (exists s a, nth_error order 0 = Some s /\ airflow sol f s None = Ok a /\
       field "Electric Power Minimum Flow Rate Fraction" (VNum 2 (a / A))) /\
    forall k, (1 <= k <= f_n f)%nat -> exists s a w, nth_error order (k - 1) = Some s /\
      airflow sol f s None = Ok a /\ power sol f s None = Ok w /\
      field ("Speed " ++ show k ++ " Flow Fraction") (VNum 2 (a / A)) /\
      field ("Speed " ++ show k ++ " Electric Power Fraction") (VNum 2 (w / W)).
Proof. exact exported_fan. Qed.
Print Assumptions C80_exported_fan.

(** A two-speed unit (for C80 and C81). *)
Example C80_C81_nonvacuous : exists objects,
  idf_objects lin_psy lin_sol ConstantDXModel (idf_unit 255) (Some "HP") UNITARY_SYSTEM false
    true None = Ok objects /\
  (let fan := exported objects "Fan:SystemModel" "HP Supply Fan" in
   fan "Number of Speeds" (VInt 2) /\ fan "Design Maximum Air Flow Rate" (VNum 2 1) /\
   fan "Design Electric Power Consumption" (VNum 2 300) /\
   fan "Speed 1 Flow Fraction" (VNum 2 0.5) /\
   fan "Speed 2 Flow Fraction" (VNum 2 1) /\
   fan "Speed 1 Electric Power Fraction" (VNum 2 0.5)) /\
  (let coil := exported objects "Coil:Heating:DX:VariableSpeed" "HP Heating Coil" in
   coil "Crankcase Heater Capacity" (VNum 2 20) /\
   coil "Gross Rated Heating Capacity at Selected Nominal Speed Level" (VNum 2 9700) /\
   coil "Defrost Strategy" (VText "ReverseCycle") /\
   coil "Defrost Control" (VText "OnDemand") /\
   coil "Outdoor Dry-Bulb Temperature to Turn On Compressor" (VNum 2 (255 - 273.15))).
Proof. exact toy_settings. Qed.

(** ** C81 *)

Theorem C81_crankcase : forall psy sol M u name t autosize normalize cached objects,
  idf_objects psy sol M u name t autosize normalize cached = Ok objects -> forall m,
  let coil := exported objects (coil_class m) (system_prefix name ++ mode_name m ++ " Coil") in
  exists crank, u_crank u = Some crank /\
    coil "Crankcase Heater Capacity" (VNum 2 crank) /\
    coil "Maximum Outdoor Dry-Bulb Temperature for Crankcase Heater Operation"
      (VNum 2 (u_crank_setpoint u - 273.15)).
Proof. exact exported_crankcase. Qed.
Print Assumptions C81_crankcase.

(** The part-load curve each coil refers to is 1 - C_D (1 - x). *)
Theorem C81_part_load : forall psy sol M u name t autosize normalize cached objects,
  idf_objects psy sol M u name t autosize normalize cached = Ok objects -> forall m,
  let coil := exported objects (coil_class m) (system_prefix name ++ mode_name m ++ " Coil") in
  exists s c1 c2,
    coil "Part Load Fraction Correlation Curve Name" (VText s) /\
    (let curve := exported objects "Curve:Linear" s in
     curve "Coefficient1 Constant" (VNum 2 c1) /\ curve "Coefficient2 x" (VNum 2 c2) /\
     curve "Minimum Value of x" (VNum 2 0) /\ curve "Maximum Value of x" (VNum 2 1)) /\
    forall x, c1 + c2 * x = 1 - sd_cd (side_of m u) * (1 - x).
Proof. exact exported_part_load. Qed.
Print Assumptions C81_part_load.

(** Coils are left to EnergyPlus to size, or sized at A_full (H1_full). *)
Theorem C81_sizes : forall psy sol M u name t autosize normalize cached objects,
  idf_objects psy sol M u name t autosize normalize cached = Ok objects -> forall m,
  let coil := exported objects (coil_class m) (system_prefix name ++ mode_name m ++ " Coil") in
  if autosize then
    coil (capacity_field m) (VText "Autosize") /\
    coil "Rated Air Flow Rate at Selected Nominal Speed Level" (VText "Autosize")
  else exists c q a, size_condition m u = Some c /\ coil_capacity M m u c = Ok q /\
    c_rated_volumetric_airflow c = Some a /\
    coil (capacity_field m) (VNum 2 q) /\
    coil "Rated Air Flow Rate at Selected Nominal Speed Level" (VNum 2 a).
Proof. exact exported_sizes. Qed.
Print Assumptions C81_sizes.

Theorem C81_heating_ratio : forall psy sol M u name t autosize normalize cached objects,
  idf_objects psy sol M u name t autosize normalize cached = Ok objects ->
  t = UNITARY_SYSTEM -> exists h c qh qc,
    size_condition Heating u = Some h /\ size_condition Cooling u = Some c /\
    gross_integrated_heating_capacity M u (Some h) = Ok qh /\
    gross_total_cooling_capacity M u (Some c) = Ok qc /\ qc <> 0 /\
    exported objects "AirLoopHVAC:UnitarySystem" (system_prefix name ++ "Unitary")
      "DX Heating Coil Sizing Ratio" (VNum 2 (qh / qc)).
Proof. exact exported_sizing_ratio. Qed.
Print Assumptions C81_heating_ratio.

Theorem C81_compressor_limits : forall psy sol M u name t autosize normalize cached objects,
  idf_objects psy sol M u name t autosize normalize cached = Ok objects ->
  let coil := exported objects (coil_class Heating) (system_prefix name ++ "Heating Coil") in
  exists on, u_heating_on u = Some on /\
    coil "Minimum Outdoor Dry-Bulb Temperature for Compressor Operation"
      (VNum 2 (u_heating_off u - 273.15)) /\
    coil "Outdoor Dry-Bulb Temperature to Turn On Compressor" (VNum 2 (on - 273.15)).
Proof. exact exported_cut_out. Qed.
Print Assumptions C81_compressor_limits.

(** A unit without defrost is written as one with a resistive defrost below -999 °C. *)
Theorem C81_defrost : forall psy sol M u name t autosize normalize cached objects,
  idf_objects psy sol M u name t autosize normalize cached = Ok objects ->
  let coil := exported objects (coil_class Heating) (system_prefix name ++ "Heating Coil") in
  let d := u_defrost u in
  coil "Maximum Outdoor Dry-Bulb Temperature for Defrost Operation"
    (VNum 2 (match df_strategy d with
             | DSNone => -999
             | _ => df_high_temperature d - 273.15
             end)) /\
  coil "Defrost Strategy"
    (VText (match df_strategy d with DSReverseCycle => "ReverseCycle" | _ => "Resistive" end)) /\
  coil "Resistive Defrost Heater Capacity"
    (match df_strategy d with DSResistive => VNum 2 (df_resistive_power d) | _ => VText "" end) /\
  coil "Defrost Control"
    (VText (match df_control d with DCTimed => "Timed" | _ => "OnDemand" end)) /\
  match df_control d with
  | DCTimed => exists c x, rc_H1_full (u_conds u) = Some c /\ df_time_fraction d c = Ok x /\
      coil "Defrost Time Period Fraction" (VNum 4 x)
  | _ => coil "Defrost Time Period Fraction" (VText "")
  end.
Proof. exact exported_defrost. Qed.
Print Assumptions C81_defrost.

(** The defrost curve is constant: one over the cooling COP at 60 °F outdoors, or over
    the value an earlier call cached. *)
Theorem C81_defrost_energy : forall psy sol M u name t autosize normalize cached objects,
  idf_objects psy sol M u name t autosize normalize cached = Ok objects ->
  let coil := exported objects (coil_class Heating) (system_prefix name ++ "Heating Coil") in
  exists s cop, cop <> 0 /\
    match cached with Some x => cop = x | None => cop_at_60 psy M u cop end /\
    coil "Defrost Energy Input Ratio Function of Temperature Curve Name" (VText s) /\
    let curve := exported objects "Curve:Biquadratic" s in
    curve "Coefficient1 Constant" (VNum 4 (1 / cop)) /\
    Forall (fun n => curve n (VNum 2 0)) ["Coefficient2 x"; "Coefficient3 x**2";
      "Coefficient4 y"; "Coefficient5 y**2"; "Coefficient6 x*y"].
Proof. exact exported_defrost_energy. Qed.
Print Assumptions C81_defrost_energy.
