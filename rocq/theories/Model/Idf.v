(** Model of /repo/resdx/idf.py.

    The objects handed to [write_idf_objects] are modelled with their numbers
    still numbers; [render] is the formatting done by [IDFField].  Text is a list
    of characters; a character is taken to be one printed column. *)
From Coq Require Import ZArith QArith List String Ascii Bool DecimalString.
From Verif.Base Require Import Num Res.
From Verif.Model Require Import Units Util Psychrometrics Conditions Defrost Fan Tabular
  Unit DXUnit.
Import ListNotations.
Local Open Scope nat_scope.
Local Open Scope string_scope.

(** What [IDFField] is given: text, a float with its precision, an integer. *)
Inductive idf_value (T : Type) :=
| VText (s : string)
| VNum (precision : nat) (x : T)
| VInt (z : Z).
Arguments VText {T}. Arguments VNum {T}. Arguments VInt {T}.

(** idf.py:17-23; the value before formatting. *)
Record idf_field (T : Type) := mkField { fd_value : idf_value T; fd_name : string }.
Arguments mkField {T}. Arguments fd_value {T}. Arguments fd_name {T}.

(** An object: class name and fields. *)
Definition idf_object (T : Type) : Type := (string * list (idf_field T))%type.

(** [f"{z}"] and [f"{n}"] *)
Definition show_Z (z : Z) : string := NilZero.string_of_int (Z.to_int z).
Definition show (n : nat) : string := show_Z (Z.of_nat n).

(** ** Text output *)

Fixpoint spaces (n : nat) : string :=
  match n with O => "" | S n' => String " " (spaces n') end.

(** [f"{s: <{w}}"] *)
Definition pad_right (s : string) (w : nat) : string := s ++ spaces (w - String.length s).

Definition newline : string := String (ascii_of_nat 10) "".

(** One printed field (idf.py:35 and 36-39), [f] being (value text, name). *)
Definition field_line (spacing : nat) (terminator : string) (f : string * string) : string :=
  "  " ++ pad_right (fst f ++ terminator) spacing ++ "!- " ++ snd f.

Fixpoint field_lines (spacing : nat) (fs : list (string * string)) : string :=
  match fs with
  | [] => ""
  | [f] => field_line spacing ";" f ++ newline ++ newline
  | f :: fs' => field_line spacing "," f ++ newline ++ field_lines spacing fs'
  end.

(** idf.py:33: [max(max([len(field.value) for field in obj[1]]) + 3, 28)] *)
Definition spacing_of (fs : list (string * string)) : nat :=
  Nat.max (fold_right Nat.max 0 (map (fun f => String.length (fst f)) fs) + 3) 28.

(** idf.py:31-39: one object, already rendered. *)
Definition object_text (o : string * list (string * string)) : res string :=
  match snd o with
  | [] => Err ValueError
  | fs => Ok (fst o ++ "," ++ newline ++ field_lines (spacing_of fs) fs)
  end.

(** idf.py:26-41: everything printed (opening and closing the file is not
    modelled). *)
Definition write_idf_objects (l : list (string * list (string * string))) : res string :=
  let! ts := rmapM object_text l in Ok (String.concat "" ts).

(** idf.py:98-100; [OTHER_SYSTEM] is any other value. *)
Inductive system_type := UNITARY_SYSTEM | ZONEHVAC_PTHP | OTHER_SYSTEM.

Section Idf.
  Context {T : Type} {NT : Num T} {NX : NumX T}.
  Variable psy : psychro T.
  Variable sol : solvers T.
  Variable M : dxmodel T.
  Local Open Scope num_scope.
  Local Open Scope string_scope.
  Notation U := (dxunit T).
  Notation C := (cond T).
  Notation object := (idf_object T).
  Notation field := (idf_field T).

  Definition txt (s name : string) : field := mkField (VText s) name.
  Definition num (p : nat) (x : T) (name : string) : field := mkField (VNum p x) name.
  Definition int (z : Z) (name : string) : field := mkField (VInt z) name.

  (** idf.py:17-23; [fmt p x] is [f"{x:.{p}f}"]. *)
  Definition render (fmt : nat -> T -> string) (v : idf_value T) : string :=
    match v with
    | VText s => s
    | VNum p x => fmt p x
    | VInt z => show_Z z
    end.
  Definition render_object (fmt : nat -> T -> string) (o : object)
      : string * list (string * string) :=
    (fst o, map (fun f => (render fmt (fd_value f), fd_name f)) (snd o)).

  (** [[IDFField(value, f"<label> {i + 1}", precision) for i, value in enumerate(values)]] *)
  Definition numbered (label : string) (p : nat) (values : list T) : list field :=
    map (fun iv => num p (snd iv) (label ++ " " ++ show (S (fst iv)))) (enumerate values).

  (** idf.py:44-60 *)
  Definition make_independent_variable (name unit_type : string) (rated : T)
      (values : list T) : object :=
    ("Table:IndependentVariable",
     ([txt name "Name";
     txt "Linear" "Interpolation Method";
     txt "Constant" "Extrapolation Method";
     txt "" "Minimum Value";
     txt "" "Maximum Value";
     num 2 rated "Normalization Reference Value";
     txt unit_type "Unit Type";
     txt "" "External File Name";
     txt "" "External File Column Number";
     txt "" "External File Starting Row Number"]
      ++ numbered "Value" 2 values)%list).

  (** idf.py:63-95 *)
  Definition make_lookup_table (name list_name unit_type : string) (values : list T)
      (precision : nat) (rated : option T) : res object :=
    let! outputs :=
      match rated with
      | None => Ok values
      | Some r => rmapM (fun v => v /? r) values
      end in
    let normalised := match rated with Some _ => true | None => false end in
    Ok ("Table:Lookup",
     ([txt name "Name";
     txt list_name "Independent Variable List Name";
     txt (if normalised then "None" else "AutomaticWithDivisor")
        "Normalization Method";
     num 2 (lit 1) "Normalization Divisor";
     txt "" "Minimum Output";
     txt "" "Maximum Output";
     txt unit_type "Output Unit Type";
     txt "" "External File Name";
     txt "" "External File Column Number";
     txt "" "External File Starting Row Number"]
      ++ numbered "Output Value" precision outputs)%list).

  (** ** System and fan *)

  (** idf.py:120-191: the packaged terminal heat pump and its supplemental coil. *)
  Definition pthp_objects (sys : string) : list object :=
    [("ZoneHVAC:PackagedTerminalHeatPump",
    [txt (sys ++ "Unitary") "Name";
     txt (sys ++ "Schedule") "Availability Schedule Name";
     txt (sys ++ "Unitary Inlet Node") "Air Inlet Node Name";
     txt (sys ++ "Unitary Outlet Node") "Air Outlet Node Name";
     txt "" "Outdoor Air Mixer Object Type";
     txt "" "Outdoor Air Mixer Name";
     txt "Autosize" "Cooling Supply Air Flow Rate {m3/s}";
     txt "Autosize" "Heating Supply Air Flow Rate {m3/s}";
     txt "Autosize" "No Load Supply Air Flow Rate {m3/s}";
     num 2 (lit 0) "Cooling Outdoor Air Flow Rate {m3/s}";
     num 2 (lit 0) "Heating Outdoor Air Flow Rate {m3/s}";
     num 2 (lit 0) "No Load Outdoor Air Flow Rate {m3/s}";
     txt "Fan:SystemModel" "Supply Fan Object Type";
     txt (sys ++ "Supply Fan") "Supply Fan Name";
     txt "Coil:Heating:DX:VariableSpeed" "Heating Coil Object Type";
     txt (sys ++ "Heating Coil") "Heating Coil Name";
     txt "" "Heating Convergence Tolerance";
     txt "Coil:Cooling:DX:VariableSpeed" "Cooling Coil Object Type";
     txt (sys ++ "Cooling Coil") "Cooling Coil Name";
     txt "" "Cooling Convergence Tolerance";
     txt "Coil:Heating:Electric" "Supplemental Heating Coil Object Type";
     txt (sys ++ "Supp Heating Coil") "Supplemental Heating Coil Name";
     txt "Autosize" "Maximum Supply Air Temperature from Supplemental Heater {C}";
     txt ""
        "Maximum Outdoor Dry-Bulb Temperature for Supplemental Heater Operation {C}";
     txt "DrawThrough" "Fan Placement";
     txt (sys ++ "Fan Mode Schedule") "Supply Air Fan Operating Mode Schedule Name"]);
     ("Coil:Heating:Electric",
    [txt (sys ++ "Supp Heating Coil") "Name";
     txt (sys ++ "Schedule") "Availability Schedule Name";
     num 2 (lit 1) "Efficiency";
     num 2 (lit 0) "Nominal Capacity";
     txt (sys ++ "Supply Fan Outlet Node") "Air Inlet Node Name";
     txt (sys ++ "Unitary Outlet Node") "Air Outlet Node Name"])].

  (** idf.py:192-308 *)
  Definition unitary_object (sys : string) (ratio : T) : object :=
    ("AirLoopHVAC:UnitarySystem",
    [txt (sys ++ "Unitary") "Name";
     txt "Load" "Control Type";
     txt "" "Controlling Zone or Thermostat Location";
     txt "" "Dehumidification Control Type";
     txt (sys ++ "Schedule") "Availability Schedule Name";
     txt (sys ++ "Unitary Inlet Node") "Air Inlet Node Name";
     txt (sys ++ "Unitary Outlet Node") "Air Outlet Node Name";
     txt "Fan:SystemModel" "Supply Fan Object Type";
     txt (sys ++ "Supply Fan") "Supply Fan Name";
     txt "DrawThrough" "Fan Placement";
     txt (sys ++ "Fan Mode Schedule") "Supply Air Fan Operating Mode Schedule Name";
     txt "Coil:Heating:DX:VariableSpeed" "Heating Coil Object Type";
     txt (sys ++ "Heating Coil") "Heating Coil Name";
     num 2 ratio "DX Heating Coil Sizing Ratio";
     txt "Coil:Cooling:DX:VariableSpeed" "Cooling Coil Object Type";
     txt (sys ++ "Cooling Coil") "Cooling Coil Name";
     txt "No" "Use DOAS DX Cooling Coil";
     txt "" "Minimum Supply Air Temperature {C}";
     txt "" "Latent Load Control";
     txt "" "Supplemental Heating Coil Object Type";
     txt "" "Supplemental Heating Coil Name";
     txt "SupplyAirFlowRate" "Cooling Supply Air Flow Rate Method";
     txt "Autosize" "Cooling Supply Air Flow Rate {m3/s}";
     txt "" "Cooling Supply Air Flow Rate Per Floor Area {m3/s-m2}";
     txt "" "Cooling Fraction of Autosized Cooling Supply Air Flow Rate";
     txt "" "Cooling Supply Air Flow Rate Per Unit of Capacity {m3/s-W}";
     txt "SupplyAirFlowRate" "Heating Supply Air Flow Rate Method";
     txt "Autosize" "Heating Supply Air Flow Rate {m3/s}";
     txt "" "Heating Supply Air Flow Rate Per Floor Area {m3/s-m2}";
     txt "" "Heating Fraction of Autosized Heating Supply Air Flow Rate";
     txt "" "Heating Supply Air Flow Rate Per Unit of Capacity {m3/s-W}";
     txt "SupplyAirFlowRate" "No Load Supply Air Flow Rate Method";
     txt "Autosize" "No Load Supply Air Flow Rate {m3/s}";
     txt "" "No Load Supply Air Flow Rate Per Floor Area {m3/s-m2}";
     txt "" "No Load Fraction of Autosized Cooling Supply Air Flow Rate";
     txt "" "No Load Fraction of Autosized Heating Supply Air Flow Rate";
     txt ""
        "No Load Supply Air Flow Rate Per Unit of Capacity During Cooling Operation {m3/s-W}";
     txt ""
        "No Load Supply Air Flow Rate Per Unit of Capacity During Heating Operation {m3/s-W}";
     txt "Autosize" "Maximum Supply Air Temperature {C}";
     txt ""
        "Maximum Outdoor Dry-Bulb Temperature for Supplemental Heater Operation {C}";
     txt "" "Outdoor Dry-Bulb Temperature Sensor Node Name";
     txt "" "Maximum Cycling Rate {cycles/hr}";
     txt "" "Heat Pump Time Constant {s}";
     txt "" "Fraction of On-Cycle Power Use";
     txt "" "Heat Pump Fan Delay Time {s}";
     txt "" "Ancilliary On-Cycle Electric Power {W}";
     txt "" "Ancilliary Off-Cycle Electric Power {W}";
     txt "" "Design Heat Recovery Water Flow Rate {m3/s}";
     txt "" "Maximum Temperature for Heat Recovery {C}";
     txt "" "Heat Recovery Water Inlet Node Name";
     txt "" "Heat Recovery Water Outlet Node Name";
     txt "" "Design Specification Multispeed Heat Pump Object Type";
     txt "" "Design Specification Multispeed Heat Pump Object Name"]).

  (** idf.py:119-310 *)
  Definition system_objects (u : U) (sys : string) (t : system_type) : res (list object) :=
    match t with
    | ZONEHVAC_PTHP => Ok (pthp_objects sys)
    | UNITARY_SYSTEM =>
        let! qh := gross_integrated_heating_capacity M u None in
        let! qc := gross_total_cooling_capacity M u None in
        let! ratio := qh /? qc in
        Ok [unitary_object sys ratio]
    | OTHER_SYSTEM => Err PyException
    end.

  (** idf.py:312-338 *)
  Definition schedule_objects (sys : string) : list object :=
    [("Schedule:Compact",
    [txt (sys ++ "Schedule") "Name";
     txt "Binary Control" "Schedule Type Limits Name";
     txt "Through: 12/31" "";
     txt "For: AllDays" "";
     txt "Until: 24:00" "";
     int 1 "Value"]);
     ("Schedule:Compact",
    [txt (sys ++ "Fan Mode Schedule") "Name";
     txt "Fan Mode Control" "Schedule Type Limits Name";
     txt "Through: 12/31" "";
     txt "For: AllDays" "";
     txt "Until: 24:00" "";
     int 0 "Value"])].

  (** ["Autosize" if autosize else value] *)
  Definition size (v : option T) (name : string) : field :=
    match v with None => txt "Autosize" name | Some x => num 2 x name end.
  Definition sized (autosize : bool) (x : res T) : res (option T) :=
    if autosize then Ok None else let! v := x in Ok (Some v).

  (** idf.py:346-387 *)
  Definition fan_fields (sys outlet : string) (a_max w_max : option T)
      (min_ratio p eff : T) (n : nat) : list field :=
    [txt (sys ++ "Supply Fan") "Name";
     txt (sys ++ "Schedule") "Availability Schedule Name";
     txt (sys ++ "Heating Coil Outlet Node") "Air Inlet Node Name";
     txt (sys ++ outlet) "Air Outlet Node Name";
     size a_max "Design Maximum Air Flow Rate";
     txt "Discrete" "Speed Control Method";
     num 2 min_ratio "Electric Power Minimum Flow Rate Fraction";
     num 2 p "Design Pressure Rise";
     num 2 (lit 1) "Motor Efficiency";
     num 2 (lit 1) "Motor In Air Stream Fraction";
     size w_max "Design Electric Power Consumption";
     txt "TotalEfficiencyAndPressure" "Design Power Sizing Method";
     txt "" "Electric Power Per Unit Flow Rate";
     txt "" "Electric Power Per Unit Flow Rate Per Unit Pressure";
     num 2 eff "Fan Total Efficiency";
     txt "" "Electric Power Function of Flow Fraction Curve Name";
     num 2 p "Night Ventilation Mode Pressure Rise";
     txt "" "Night Ventilation Mode Flow Fraction";
     txt "" "Motor Loss Zone Name";
     txt "" "Motor Loss Radiative Fraction";
     txt "ZN-MSHP Fans" "End-Use Subcategory";
     int (Z.of_nat n) "Number of Speeds"].
  (** idf.py:388-399 *)
  Definition fan_speed_fields (k : nat) (ra rw : T) : list field :=
    [num 2 ra ("Speed " ++ show k ++ " Flow Fraction");
     num 2 rw ("Speed " ++ show k ++ " Electric Power Fraction")].

  (** idf.py:340-403 *)
  Definition fan_object (u : U) (sys : string) (t : system_type) (autosize : bool)
      : res object :=
    let! f := need AttributeError (u_fan u) in
    let! order := get_speed_order_map sol f in
    let! mx := lasti order in
    let! mn := geti order 0 in
    let! p := operating_pressure sol f mx in
    let! a_max := sized autosize (airflow sol f mx None) in
    let! min_ratio := airflow_ratio sol f mn mx None in
    let! w_max := sized autosize (power sol f mx None) in
    let! eff := efficiency sol f mx None in
    let outlet := match t with
                  | UNITARY_SYSTEM => "Unitary Outlet Node"
                  | _ => "Supply Fan Outlet Node"
                  end in
    let! speeds := rmapM (fun ki =>
      let! ra := airflow_ratio sol f (snd ki) mx None in
      let! rw := power_ratio sol f (snd ki) mx None in
      Ok (fan_speed_fields (S (fst ki)) ra rw)) (enumerate order) in
    Ok ("Fan:SystemModel",
        (fan_fields sys outlet a_max w_max min_ratio p eff (f_n f) ++ List.concat speeds)%list).

  (** ** Independent variables (idf.py:405-494) *)

  (** [koozie.convert(x, "°F", "°C")] *)
  Definition F_to_C (x : T) : T := to_C (fr_F x).

  Definition cooling_outdoor_dry_bulbs : list T := [lit 55; lit 82; lit 95; lit 125].
  Definition cooling_indoor_wet_bulbs : list T := [lit 50; lit 67; lit 80].
  Definition heating_outdoor_dry_bulbs (u : U) : list T :=
    [to_F (u_heating_off u); lit 5; lit 17; lit 47; lit 60].
  Definition heating_indoor_dry_bulbs : list T := [lit 60; lit 70; lit 80].
  Definition flow_fractions : list T := [lit 0.75; lit 1; lit 1.25].

  Definition variable_list (name first : string) (others : list string) : object :=
    ("Table:IndependentVariableList",
     txt name "Name" :: txt first "Independent Variable 1 Name"
     :: map (fun ki => txt (snd ki) ("Independent Variable " ++ show (fst ki + 2) ++ " Name"))
          (enumerate others)).

  Definition variable_objects (u : U) (sys : string) : list object :=
    [make_independent_variable (sys ++ "Cooling Outdoor Drybulb") "Temperature"
       (F_to_C (lit 95)) (map F_to_C cooling_outdoor_dry_bulbs);
     make_independent_variable (sys ++ "Cooling Indoor Wetbulb") "Temperature"
       (F_to_C (lit 67)) (map F_to_C cooling_indoor_wet_bulbs);
     variable_list (sys ++ "Cooling fT List") (sys ++ "Cooling Indoor Wetbulb")
       [sys ++ "Cooling Outdoor Drybulb"];
     make_independent_variable (sys ++ "Coil Flow Fraction") "Dimensionless"
       (lit 1) flow_fractions;
     variable_list (sys ++ "fFF List") (sys ++ "Coil Flow Fraction") [];
     make_independent_variable (sys ++ "Heating Outdoor Drybulb") "Temperature"
       (F_to_C (lit 47)) (map F_to_C (heating_outdoor_dry_bulbs u));
     make_independent_variable (sys ++ "Heating Indoor Drybulb") "Temperature"
       (F_to_C (lit 70)) (map F_to_C heating_indoor_dry_bulbs);
     variable_list (sys ++ "Heating fT List") (sys ++ "Heating Indoor Drybulb")
       [sys ++ "Heating Outdoor Drybulb"]].

  (** ** Coils *)

  (** A speed's performance: (capacity, 1 / COP). *)
  Definition cooling_performance (u : U) (c : C) : res (T * T) :=
    let! q := gross_total_cooling_capacity M u (Some c) in
    let! cop := gross_total_cooling_cop M u (Some c) in
    let! eir := lit 1 /? cop in
    Ok (q, eir).
  Definition heating_performance (u : U) (c : C) : res (T * T) :=
    let! q := gross_steady_state_heating_capacity M u (Some c) in
    let! cop := gross_steady_state_heating_cop M u (Some c) in
    let! eir := lit 1 /? cop in
    Ok (q, eir).

  (** idf.py:622-627, 856-861: one condition object, its airflow changed in turn. *)
  Fixpoint flow_rows (perf : C -> res (T * T)) (c : C) (l : list T) : res (list (T * T)) :=
    match l with
    | [] => Ok []
    | ff :: l' =>
        let! c := ex (set_mass_airflow_ratio psy ff) c in
        let! r := perf c in
        let! rs := flow_rows perf c l' in
        Ok (r :: rs)
    end.

  (** The states of idf.py:657-662 and 892-893. *)
  Definition rel_hum_state (t : T) : res (psych_state T) :=
    PsychState psy (fr_F t) atm [("rel_hum"%string, lit 0.4)].
  Definition cooling_indoor_state (t_ewb : T) : res (psych_state T) :=
    PsychState psy (fr_F (lit 80)) atm [("wetbulb"%string, fr_F t_ewb)].

  (** idf.py:651-665, 886-896: the nested loops, outdoor temperature innermost. *)
  Definition temperature_rows (m : mode) (perf : C -> res (T * T))
      (indoor : T -> res (psych_state T)) (u : U) (speed : nat)
      (ts_i ts_o : list T) : res (list (T * T)) :=
    let! rows :=
      rmapM (fun t_i => rmapM (fun t_o =>
        let! i := indoor t_i in
        let! o := rel_hum_state t_o in
        let! c := make_condition psy m u speed (Some i) (Some o) in
        perf c) ts_o) ts_i in
    Ok (List.concat rows).

  (** idf.py:629-649, 667-687 and 863-884, 898-918: the four tables of a speed. *)
  Definition speed_tables (sys side t_list : string) (k : nat) (normalize : bool)
      (q cop : T) (flow temp : list (T * T)) : res (list object) :=
    let! eir := if normalize then let! e := lit 1 /? cop in Ok (Some e) else Ok None in
    let qr := if normalize then Some q else None in
    let name (s : string) := sys ++ side ++ s ++ show k in
    let! a := make_lookup_table (name " CapfFF ") (sys ++ "fFF List") "Dimensionless"
                (map fst flow) 2 qr in
    let! b := make_lookup_table (name " EIRfFF ") (sys ++ "fFF List") "Dimensionless"
                (map snd flow) 4 eir in
    let! c := make_lookup_table (name " CapfT ") (sys ++ t_list) "Dimensionless"
                (map fst temp) 2 qr in
    let! d := make_lookup_table (name " EIRfT ") (sys ++ t_list) "Dimensionless"
                (map snd temp) 4 eir in
    Ok [a; b; c; d].

  (** idf.py:577-619 *)
  Definition cooling_speed_fields (sys : string) (k : nat) (q shr cop air : T)
      : list field :=
    [num 1 q
        ("Speed " ++ show k ++ " Reference Unit Gross Rated Total Cooling Capacity");
     num 3 shr
        ("Speed " ++ show k ++ " Reference Unit Gross Rated Sensible Heat Ratio");
     num 3 cop ("Speed " ++ show k ++ " Reference Unit Gross Rated Cooling COP");
     num 4 air ("Speed " ++ show k ++ " Reference Unit Rated Air Flow Rate");
     txt "" ("Speed " ++ show k ++ " Reference Unit Rated Condenser Air Flow Rate");
     txt ""
        ("Speed " ++ show k ++ " Reference Unit Rated Pad Effectiveness of Evap Precooling");
     txt (sys ++ "Cooling CapfT " ++ show k)
        ("Speed " ++ show k ++ " Total Cooling Capacity Function of Temperature Curve Name");
     txt (sys ++ "Cooling CapfFF " ++ show k)
        ("Speed " ++ show k ++ " Total Cooling Capacity Function of Air Flow Fraction Curve Name");
     txt (sys ++ "Cooling EIRfT " ++ show k)
        ("Speed " ++ show k ++ " Energy Input Ratio Function of Temperature Curve Name");
     txt (sys ++ "Cooling EIRfFF " ++ show k)
        ("Speed " ++ show k ++ " Energy Input Ratio Function of Air Flow Fraction Curve Name")].

  (** idf.py:571-687: the fields and tables of one cooling speed. *)
  Definition cooling_speed (u : U) (sys : string) (normalize : bool) (speed : nat)
      : res (list field * list object) :=
    let k := (sd_n (u_c u) - speed)%nat in
    let! c := make_condition psy Cooling u speed None None in
    let! q := gross_total_cooling_capacity M u (Some c) in
    let! cop := gross_total_cooling_cop M u (Some c) in
    let! shr := gross_shr M u (Some c) in
    let! air := need AttributeError (c_rated_volumetric_airflow c) in
    let! flow := flow_rows (cooling_performance u) c flow_fractions in
    let! temp := temperature_rows Cooling (cooling_performance u) cooling_indoor_state u
                   speed cooling_indoor_wet_bulbs cooling_outdoor_dry_bulbs in
    let! tables := speed_tables sys "Cooling" "Cooling fT List" k normalize q cop flow temp in
    Ok (cooling_speed_fields sys k q shr cop air, tables).

  (** idf.py:824-853 *)
  Definition heating_speed_fields (sys : string) (k : nat) (q cop air : T) : list field :=
    [num 2 q ("Speed " ++ show k ++ " Reference Unit Gross Rated Heating Capacity");
     num 3 cop ("Speed " ++ show k ++ " Reference Unit Gross Rated Heating COP");
     num 2 air ("Speed " ++ show k ++ " Reference Unit Rated Air Flow Rate");
     txt (sys ++ "Heating CapfT " ++ show k)
        ("Speed " ++ show k ++ " Heating Capacity Function of Temperature Curve Name");
     txt (sys ++ "Heating CapfFF " ++ show k)
        ("Speed " ++ show k ++ " Heating Capacity Function of Air Flow Fraction Curve Name");
     txt (sys ++ "Heating EIRfT " ++ show k)
        ("Speed " ++ show k ++ " Energy Input Ratio Function of Temperature Curve Name");
     txt (sys ++ "Heating EIRfFF " ++ show k)
        ("Speed " ++ show k ++ " Energy Input Ratio Function of Air Flow Fraction Curve Name")].

  (** idf.py:818-918: the fields and tables of one heating speed. *)
  Definition heating_speed (u : U) (sys : string) (normalize : bool) (speed : nat)
      : res (list field * list object) :=
    let k := (sd_n (u_h u) - speed)%nat in
    let! c := make_condition psy Heating u speed None None in
    let! q := gross_steady_state_heating_capacity M u (Some c) in
    let! cop := gross_steady_state_heating_cop M u (Some c) in
    let! air := need AttributeError (c_rated_volumetric_airflow c) in
    let! flow := flow_rows (heating_performance u) c flow_fractions in
    let! temp := temperature_rows Heating (heating_performance u) rel_hum_state u
                   speed heating_indoor_dry_bulbs (heating_outdoor_dry_bulbs u) in
    let! tables := speed_tables sys "Heating" "Heating fT List" k normalize q cop flow temp in
    Ok (heating_speed_fields sys k q cop air, tables).

  (** idf.py:515-557 *)
  Definition cooling_coil_fields (u : U) (sys : string) (n full : nat)
      (q_size a_size : option T) (crank : T) : list field :=
    [txt (sys ++ "Cooling Coil") "Name";
     txt (sys ++ "Unitary Inlet Node") "Air Inlet Node Name";
     txt (sys ++ "Cooling Coil Outlet Node") "Air Outlet Node Name";
     int (Z.of_nat n) "Number of Speeds";
     int (Z.of_nat n - Z.of_nat full) "Nominal Speed Level";
     size q_size "Gross Rated Total Cooling Capacity at Selected Nominal Speed Level";
     size a_size "Rated Air Flow Rate at Selected Nominal Speed Level";
     txt "" "Nominal Time for Condensate Removal to Begin";
     txt ""
        "Ratio of Initial Moisture Evaporation Rate and Steady State Latent Capacity";
     txt (sys ++ "Cooling fPLR") "Part Load Fraction Correlation Curve Name";
     txt "" "Condenser Air Inlet Node Name";
     txt "" "Condenser Type";
     txt "" "Evaporative Condenser Pump Rated Power Consumption";
     num 2 crank "Crankcase Heater Capacity";
     num 2 (to_C (u_crank_setpoint u))
        "Maximum Outdoor Dry-Bulb Temperature for Crankcase Heater Operation";
     txt "" "Minimum Outdoor Dry-Bulb Temperature for Compressor Operation";
     txt "" "Supply Water Storage Tank Name";
     txt "" "Condensate Collection Water Storage Tank Name";
     txt "" "Basin Heater Capacity";
     txt "" "Basin Heater Setpoint Temperature";
     txt "" "Basin Heater Operating Schedule Name"].

  (** idf.py:559-570, 778-788 *)
  Definition part_load_curve (sys side : string) (cd : T) : object :=
    ("Curve:Linear",
    [txt (sys ++ side ++ " fPLR") "Name";
     num 2 (lit 1 - cd) "Coefficient1 Constant";
     num 2 cd "Coefficient2 x";
     num 2 (lit 0) "Minimum Value of x";
     num 2 (lit 1) "Maximum Value of x"]).

  (** idf.py:510-689: the objects added for cooling. *)
  Definition cooling_objects (u : U) (sys : string) (autosize normalize : bool)
      (objects : list object) : res (list object) :=
    let n := sd_n (u_c u) in
    let! q_size := sized autosize (gross_total_cooling_capacity M u None) in
    let! a_size := sized autosize
      (let! c := need AttributeError (rc_A_full (u_conds u)) in
       need AttributeError (c_rated_volumetric_airflow c)) in
    let! crank := need AttributeError (u_crank u) in
    let coil := cooling_coil_fields u sys n (sd_full (u_c u)) q_size a_size crank in
    let! speeds := rmapM (cooling_speed u sys normalize) (rev (seq 0 n)) in
    Ok (ins (objects ++ [part_load_curve sys "Cooling" (sd_cd (u_c u))]
             ++ List.concat (map snd speeds))%list (List.length objects)
          ("Coil:Cooling:DX:VariableSpeed", (coil ++ List.concat (map fst speeds))%list)).

  (** idf.py:695-775 *)
  Definition heating_coil_fields (u : U) (sys : string) (n full : nat)
      (q_size a_size : option T) (on defrost_max crank : T) (strategy control : string)
      (period heater : idf_value T) : list field :=
    [txt (sys ++ "Heating Coil") "Name";
     txt (sys ++ "Cooling Coil Outlet Node") "Air Inlet Node Name";
     txt (sys ++ "Heating Coil Outlet Node") "Air Outlet Node Name";
     int (Z.of_nat n) "Number of Speeds";
     int (Z.of_nat n - Z.of_nat full) "Nominal Speed Level";
     size q_size "Gross Rated Heating Capacity at Selected Nominal Speed Level";
     size a_size "Rated Air Flow Rate at Selected Nominal Speed Level";
     txt (sys ++ "Heating fPLR") "Part Load Fraction Correlation Curve Name";
     txt (sys ++ "Defrost EIR")
        "Defrost Energy Input Ratio Function of Temperature Curve Name";
     num 2 (to_C (u_heating_off u))
        "Minimum Outdoor Dry-Bulb Temperature for Compressor Operation";
     num 2 (to_C on) "Outdoor Dry-Bulb Temperature to Turn On Compressor";
     num 2 defrost_max "Maximum Outdoor Dry-Bulb Temperature for Defrost Operation";
     num 2 crank "Crankcase Heater Capacity";
     num 2 (to_C (u_crank_setpoint u))
        "Maximum Outdoor Dry-Bulb Temperature for Crankcase Heater Operation";
     txt strategy "Defrost Strategy";
     txt control "Defrost Control";
     mkField period "Defrost Time Period Fraction";
     mkField heater "Resistive Defrost Heater Capacity"].

  (** idf.py:790-816 *)
  Definition defrost_curve (u : U) (sys : string) (eir : T) : object :=
    ("Curve:Biquadratic",
    [txt (sys ++ "Defrost EIR") "Name";
     num 4 eir "Coefficient1 Constant";
     num 2 (lit 0) "Coefficient2 x";
     num 2 (lit 0) "Coefficient3 x**2";
     num 2 (lit 0) "Coefficient4 y";
     num 2 (lit 0) "Coefficient5 y**2";
     num 2 (lit 0) "Coefficient6 x*y";
     num 2 (F_to_C (lit 50)) "Minimum Value of x";
     num 2 (F_to_C (lit 80)) "Maximum Value of x";
     num 2 (to_C (u_heating_off u)) "Minimum Value of y";
     num 2 (to_C (df_high_temperature (u_defrost u))) "Maximum Value of y"]).

  (** nrel.py:207-224, called with the unit's own model; [cached] is the value an
      earlier call left in [model_data]. *)
  Definition get_cooling_cop60 (u : U) (cached : option T) : res T :=
    match cached with
    | Some x => Ok x
    | None =>
        let! c := make_condition psy Cooling u 0
          (Some (psych_wetbulb (fr_F (lit 70)) atm (fr_F (lit 60))))
          (Some (psych_wetbulb (fr_F (lit 60)) atm (fr_F (lit 48)))) in
        gross_total_cooling_cop M u (Some c)
    end.

  (** idf.py:691-920: the objects added for heating. *)
  Definition heating_objects (u : U) (sys : string) (autosize normalize : bool)
      (cached : option T) (objects : list object) : res (list object) :=
    let n := sd_n (u_h u) in
    let d := u_defrost u in
    let! q_size := sized autosize (gross_steady_state_heating_capacity M u None) in
    let! a_size := sized autosize
      (let! c := need AttributeError (rc_H1_full (u_conds u)) in
       need AttributeError (c_rated_volumetric_airflow c)) in
    let! on := need AttributeError (u_heating_on u) in
    let defrost_max := match df_strategy d with
                       | DSNone => lit (-999)
                       | _ => to_C (df_high_temperature d)
                       end in
    let! crank := need AttributeError (u_crank u) in
    let strategy := match df_strategy d with
                    | DSReverseCycle => "ReverseCycle"
                    | _ => "Resistive"
                    end in
    let control := match df_control d with DCTimed => "Timed" | _ => "OnDemand" end in
    let! period := match df_control d with
                   | DCTimed =>
                       let! c := need AttributeError (rc_H1_full (u_conds u)) in
                       let! x := df_time_fraction d c in Ok (VNum 4 x)
                   | _ => Ok (VText "")
                   end in
    let heater := match df_strategy d with
                  | DSResistive => VNum 2 (df_resistive_power d)
                  | _ => VText ""
                  end in
    let coil := heating_coil_fields u sys n (sd_full (u_h u)) q_size a_size on defrost_max
                  crank strategy control period heater in
    let! cop60 := get_cooling_cop60 u cached in
    let! eir := lit 1 /? cop60 in
    let! speeds := rmapM (heating_speed u sys normalize) (rev (seq 0 n)) in
    Ok (ins (objects ++ [part_load_curve sys "Heating" (sd_cd (u_h u)); defrost_curve u sys eir]
             ++ List.concat (map snd speeds))%list (List.length objects)
          ("Coil:Heating:DX:VariableSpeed", (coil ++ List.concat (map fst speeds))%list)).

  (** idf.py:111-114 *)
  Definition system_prefix (name : option string) : string :=
    match name with Some s => s ++ " " | None => "" end.

  (** idf.py:103-920 up to the final call of [write_idf_objects]: the objects. *)
  Definition idf_objects (u : U) (name : option string) (t : system_type)
      (autosize normalize : bool) (cached : option T) : res (list object) :=
    let sys := system_prefix name in
    let! system := system_objects u sys t in
    let! f := fan_object u sys t autosize in
    let objects := (system ++ schedule_objects sys ++ [f] ++ variable_objects u sys)%list in
    let! objects := cooling_objects u sys autosize normalize objects in
    heating_objects u sys autosize normalize cached objects.

  (** idf.py:103-920: the text written. *)
  Definition write_idf (fmt : nat -> T -> string) (u : U) (name : option string)
      (t : system_type) (autosize normalize : bool) (cached : option T) : res string :=
    let! objects := idf_objects u name t autosize normalize cached in
    write_idf_objects (map (render_object fmt) objects).
End Idf.
