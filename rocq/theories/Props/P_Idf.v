(** C51-C53, C60-C62: the EnergyPlus export. *)
From Coq Require Import ZArith QArith Reals Lra List String Bool Sorting.
From Verif.Base Require Import Num Res Tac.
From Verif.Model Require Import Units Util Psychrometrics Conditions Defrost Fan Tabular Unit
  DXUnit BaseModel Idf.
From Verif.Spec Require Import IdfSpec IdfTypeSpec IdfPerfSpec.
From Verif.Proofs Require Import IdfText IdfRead IdfFinal IdfFinal2 IdfTypes ToyBuild ToyIdf.
Import ListNotations.
Local Open Scope string_scope.
Local Open Scope R_scope.

(** ** C51 *)

(** Printed objects are read back exactly. *)
Theorem C51_text_reads_back : forall l, Forall readable l ->
  exists t, write_idf_objects l = Ok t /\ read_idf t = l.
Proof. exact write_reads_back. Qed.
Print Assumptions C51_text_reads_back.

Example C51_text_nonvacuous : Forall readable sample_objects /\
  exists t, write_idf_objects sample_objects = Ok t /\ read_idf t = sample_objects /\
    List.length (lines t) = 12%nat.
Proof. exact (conj sample_readable sample_printed). Qed.

(** Every export of a unit is read back exactly, whatever the number formatting, so
    long as it prints no separator and the system name contains none. *)
Theorem C51_export_reads_back : forall {T} {NT : Num T} {NX : NumX T} (psy : psychro T) sol M
    (fmt : nat -> T -> string) u name t autosize normalize cached objects,
  (forall p x, clean (fmt p x)) ->
  match name with Some s => clean s /\ s <> "" | None => True end ->
  idf_objects psy sol M u name t autosize normalize cached = Ok objects ->
  exists text, write_idf psy sol M fmt u name t autosize normalize cached = Ok text /\
    read_idf text = map (render_object fmt) objects.
Proof. intros T NT NX. exact idf_reads_back. Qed.
Print Assumptions C51_export_reads_back.

(** An object without fields cannot be printed. *)
Theorem C51_empty_object_rejected : forall a cls b, Forall readable a ->
  write_idf_objects (a ++ (cls, []) :: b) = Err ValueError.
Proof. exact write_empty_object. Qed.
Print Assumptions C51_empty_object_rejected.

(** ** C52 *)

Theorem C52_references_resolve : forall {T} {NT : Num T} {NX : NumX T} (psy : psychro T) sol M u
    name t autosize normalize cached objects,
  idf_objects psy sol M u name t autosize normalize cached = Ok objects ->
  no_dangling_references objects.
Proof. intros T NT NX. exact idf_references. Qed.
Print Assumptions C52_references_resolve.

(** An object type in one field and a name in the next are both blank, or there is one object
    of that type with that name. *)
Theorem C52_object_types : forall {T} {NT : Num T} {NX : NumX T} (psy : psychro T) sol M u
    name t autosize normalize cached objects,
  idf_objects psy sol M u name t autosize normalize cached = Ok objects ->
  forall o f g, In o objects -> next_in (snd o) f g -> ends_with "Object Type" (fd_name f) = true ->
  fd_value f = VText "" /\ fd_value g = VText ""
  \/ exists cl s, fd_value f = VText cl /\ fd_value g = VText s /\ defined_once objects [cl] s.
Proof. intros T NT NX. exact object_types. Qed.
Print Assumptions C52_object_types.

(** The availability schedule is always on and the fan mode schedule always 0 (cycling fan). *)
Theorem C52_schedules : forall {T} {NT : Num T} {NX : NumX T} (psy : psychro T) sol M u
    name t autosize normalize cached objects,
  idf_objects psy sol M u name t autosize normalize cached = Ok objects ->
  let schedule := exported objects "Schedule:Compact" in
  schedule (system_prefix name ++ "Schedule") "Value" (VInt 1)
  /\ schedule (system_prefix name ++ "Fan Mode Schedule") "Value" (VInt 0).
Proof. intros T NT NX. exact schedules. Qed.
Print Assumptions C52_schedules.

(** The type limits of the schedules are the one reference that does not resolve. *)
Theorem C52_schedule_type_limits_refuted : forall {T} {NT : Num T} {NX : NumX T} (psy : psychro T) sol M u
    name t autosize normalize cached objects,
  idf_objects psy sol M u name t autosize normalize cached = Ok objects ->
  (exists o s, In o objects /\ fst o = "Schedule:Compact"
     /\ field_of o "Schedule Type Limits Name" = Some (VText s) /\ s <> "")
  /\ forall o, In o objects -> fst o <> "ScheduleTypeLimits".
Proof. intros T NT NX. exact no_limits. Qed.
Print Assumptions C52_schedule_type_limits_refuted.

(** A two-speed unit in a unitary system (for C51-C53 and C60-C62). *)
Example C52_C53_C60_C61_C62_nonvacuous : exists objects,
  idf_objects lin_psy lin_sol ConstantDXModel (idf_unit 255) (Some "HP") UNITARY_SYSTEM false
    true None = Ok objects /\ clean "HP" /\ 255 < fr_F 5 /\
  (1 <= 2 <= sd_n (side_of Heating (idf_unit 255)))%nat.
Proof. exact toy_export. Qed.

(** ** C53 *)

(** The tables of EnergyPlus speed [k] hold the performance of unit speed [n - k]. *)
Theorem C53_tables : forall psy M sol u name t autosize normalize cached objects,
  idf_objects psy sol M u name t autosize normalize cached = Ok objects ->
  forall m k, (1 <= k <= sd_n (side_of m u))%nat ->
  let speed := (sd_n (side_of m u) - k)%nat in
  let table s := system_prefix name ++ mode_name m ++ s ++ show k in
  exists q0 cop0, performs_rated psy M m u speed q0 cop0 /\
    (normalize = true -> q0 <> 0 /\ cop0 <> 0) /\
    (grid_table objects (table " CapfT ") (indoor_axis m) (outdoor_axis m u)
      (fun t_i t_o v => exists q cop,
         performs_at_temperatures psy M m u speed t_i t_o q cop /\ v = written normalize q q0) /\
     grid_table objects (table " EIRfT ") (indoor_axis m) (outdoor_axis m u)
      (fun t_i t_o v => exists q cop,
         performs_at_temperatures psy M m u speed t_i t_o q cop /\
         v = written normalize (1 / cop) (1 / cop0))) /\
    line_table objects (table " CapfFF ") flow_axis
      (fun ff v => exists q cop,
         performs_at_flow psy M m u speed ff q cop /\ v = written normalize q q0) /\
    line_table objects (table " EIRfFF ") flow_axis
      (fun ff v => exists q cop,
         performs_at_flow psy M m u speed ff q cop /\
         v = written normalize (1 / cop) (1 / cop0)).
Proof. exact idf_tables. Qed.
Print Assumptions C53_tables.

(** So do the fields of the coils, which name those tables. *)
Theorem C53_cooling_coil : forall {T} {NT : Num T} {NX : NumX T} (psy : psychro T) sol M u name t
    autosize normalize cached objects,
  idf_objects psy sol M u name t autosize normalize cached = Ok objects ->
  forall k, (1 <= k <= sd_n (u_c u))%nat ->
  let field := fun s v => exported objects "Coil:Cooling:DX:VariableSpeed"
    (system_prefix name ++ "Cooling Coil") ("Speed " ++ show k ++ s) v in
  let table s := VText (system_prefix name ++ "Cooling " ++ s ++ show k) in
  exists c q shr cop air,
    make_condition psy Cooling u (sd_n (u_c u) - k) None None = Ok c /\
    gross_total_cooling_capacity M u (Some c) = Ok q /\
    gross_shr M u (Some c) = Ok shr /\
    gross_total_cooling_cop M u (Some c) = Ok cop /\
    c_rated_volumetric_airflow c = Some air /\
    field " Reference Unit Gross Rated Total Cooling Capacity" (VNum 1 q) /\
    field " Reference Unit Gross Rated Sensible Heat Ratio" (VNum 3 shr) /\
    field " Reference Unit Gross Rated Cooling COP" (VNum 3 cop) /\
    field " Reference Unit Rated Air Flow Rate" (VNum 4 air) /\
    field " Total Cooling Capacity Function of Temperature Curve Name" (table "CapfT ") /\
    field " Total Cooling Capacity Function of Air Flow Fraction Curve Name" (table "CapfFF ") /\
    field " Energy Input Ratio Function of Temperature Curve Name" (table "EIRfT ") /\
    field " Energy Input Ratio Function of Air Flow Fraction Curve Name" (table "EIRfFF ").
Proof. intros T NT NX. exact idf_cooling_speed. Qed.
Print Assumptions C53_cooling_coil.

Theorem C53_heating_coil : forall {T} {NT : Num T} {NX : NumX T} (psy : psychro T) sol M u name t
    autosize normalize cached objects,
  idf_objects psy sol M u name t autosize normalize cached = Ok objects ->
  forall k, (1 <= k <= sd_n (u_h u))%nat ->
  let field := fun s v => exported objects "Coil:Heating:DX:VariableSpeed"
    (system_prefix name ++ "Heating Coil") ("Speed " ++ show k ++ s) v in
  let table s := VText (system_prefix name ++ "Heating " ++ s ++ show k) in
  exists c q cop air,
    make_condition psy Heating u (sd_n (u_h u) - k) None None = Ok c /\
    gross_steady_state_heating_capacity M u (Some c) = Ok q /\
    gross_steady_state_heating_cop M u (Some c) = Ok cop /\
    c_rated_volumetric_airflow c = Some air /\
    field " Reference Unit Gross Rated Heating Capacity" (VNum 2 q) /\
    field " Reference Unit Gross Rated Heating COP" (VNum 3 cop) /\
    field " Reference Unit Rated Air Flow Rate" (VNum 2 air) /\
    field " Heating Capacity Function of Temperature Curve Name" (table "CapfT ") /\
    field " Heating Capacity Function of Air Flow Fraction Curve Name" (table "CapfFF ") /\
    field " Energy Input Ratio Function of Temperature Curve Name" (table "EIRfT ") /\
    field " Energy Input Ratio Function of Air Flow Fraction Curve Name" (table "EIRfFF ").
Proof. intros T NT NX. exact idf_heating_speed. Qed.
Print Assumptions C53_heating_coil.

Theorem C53_speed_counts : forall {T} {NT : Num T} {NX : NumX T} (psy : psychro T) sol M u name t
    autosize normalize cached objects,
  idf_objects psy sol M u name t autosize normalize cached = Ok objects ->
  let cooling := exported objects "Coil:Cooling:DX:VariableSpeed"
                   (system_prefix name ++ "Cooling Coil") in
  let heating := exported objects "Coil:Heating:DX:VariableSpeed"
                   (system_prefix name ++ "Heating Coil") in
  cooling "Number of Speeds" (VInt (Z.of_nat (sd_n (u_c u)))) /\
  cooling "Nominal Speed Level" (VInt (Z.of_nat (sd_n (u_c u)) - Z.of_nat (sd_full (u_c u)))) /\
  heating "Number of Speeds" (VInt (Z.of_nat (sd_n (u_h u)))) /\
  heating "Nominal Speed Level" (VInt (Z.of_nat (sd_n (u_h u)) - Z.of_nat (sd_full (u_h u)))).
Proof. intros T NT NX. exact idf_speed_counts. Qed.
Print Assumptions C53_speed_counts.

(** ** C60 *)

Theorem C60_axes_increase : forall psy sol M u name t autosize normalize cached objects,
  idf_objects psy sol M u name t autosize normalize cached = Ok objects ->
  (forall s, In s ["Cooling Indoor Wetbulb"; "Cooling Outdoor Drybulb";
                   "Heating Indoor Drybulb"; "Coil Flow Fraction"] ->
     exists l, axis objects (system_prefix name ++ s) = Some l /\ StronglySorted Rlt l) /\
  exists l, axis objects (system_prefix name ++ "Heating Outdoor Drybulb") = Some l /\
    (StronglySorted Rlt l <-> u_heating_off u < fr_F 5).
Proof. exact idf_axes_increasing. Qed.
Print Assumptions C60_axes_increase.

(** An export can succeed although the axis is not increasing (cut-out above 5 °F). *)
Theorem C60_heating_axis_increases_refuted : exists u objects l,
  idf_objects lin_psy lin_sol ConstantDXModel u (Some "HP") ZONEHVAC_PTHP true true None
    = Ok objects /\
  axis objects ("HP " ++ "Heating Outdoor Drybulb") = Some l /\ ~ StronglySorted Rlt l.
Proof. exact axis_can_decrease. Qed.
Print Assumptions C60_heating_axis_increases_refuted.

(** ** C61 *)

Theorem C61_unit_at_rated_flow : forall psy sol M u name t autosize cached objects,
  idf_objects psy sol M u name t autosize true cached = Ok objects ->
  forall m k s, (1 <= k <= sd_n (side_of m u))%nat -> In s [" CapfFF "; " EIRfFF "] ->
  table_entry objects (system_prefix name ++ mode_name m ++ s ++ show k) [1%nat]
  = Some ([1], 1).
Proof. exact idf_flow_normalised. Qed.
Print Assumptions C61_unit_at_rated_flow.

(** ** C62 *)

(** Air enters the system, passes the cooling coil, the heating coil, the fan and, in
    a packaged terminal unit, the supplemental coil, and leaves the system. *)
Theorem C62_air_path : forall {T} {NT : Num T} {NX : NumX T} (psy : psychro T) sol M u name t
    autosize normalize cached objects,
  idf_objects psy sol M u name t autosize normalize cached = Ok objects ->
  let sys := system_prefix name in
  let system_class := match t with
                      | UNITARY_SYSTEM => "AirLoopHVAC:UnitarySystem"
                      | _ => "ZoneHVAC:PackagedTerminalHeatPump"
                      end in
  exists n1 n2 n3 n4 n5,
    inlet objects system_class (sys ++ "Unitary") = Some n1 /\
    inlet objects "Coil:Cooling:DX:VariableSpeed" (sys ++ "Cooling Coil") = Some n1 /\
    outlet objects "Coil:Cooling:DX:VariableSpeed" (sys ++ "Cooling Coil") = Some n2 /\
    inlet objects "Coil:Heating:DX:VariableSpeed" (sys ++ "Heating Coil") = Some n2 /\
    outlet objects "Coil:Heating:DX:VariableSpeed" (sys ++ "Heating Coil") = Some n3 /\
    inlet objects "Fan:SystemModel" (sys ++ "Supply Fan") = Some n3 /\
    outlet objects "Fan:SystemModel" (sys ++ "Supply Fan") = Some n4 /\
    outlet objects system_class (sys ++ "Unitary") = Some n5 /\
    NoDup [n1; n2; n3; n5] /\
    match t with
    | UNITARY_SYSTEM => n4 = n5
    | _ => inlet objects "Coil:Heating:Electric" (sys ++ "Supp Heating Coil") = Some n4 /\
           outlet objects "Coil:Heating:Electric" (sys ++ "Supp Heating Coil") = Some n5 /\
           ~ In n4 [n1; n2; n3; n5]
    end.
Proof. intros T NT NX. exact idf_air_path. Qed.
Print Assumptions C62_air_path.
