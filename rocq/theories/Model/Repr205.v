(** Model of [generate_205_representation] of /repo/resdx/dx_unit.py and
    /repo/resdx/fan.py.

    Modelled here are the performance parts.  The metadata (identifiers, time stamps,
    descriptions, notes) is in Metadata205.v; the calls its description makes are kept
    because they can raise. *)
From Coq Require Import QArith List String.
From Verif.Base Require Import Num Res.
From Verif.Model Require Import Units Util Psychrometrics Conditions Defrost Fan Tabular
  Unit DXUnit.
Import ListNotations.
Local Open Scope nat_scope.

(** The cooling performance map (dx_unit.py:1473-1480 and 1522-1530). *)
Record cooling_map (T : Type) := mkCMap {
  g_outdoor : list T;     (* outdoor_coil_entering_dry_bulb_temperature *)
  g_humidity : list T;    (* indoor_coil_entering_relative_humidity *)
  g_indoor : list T;      (* indoor_coil_entering_dry_bulb_temperature *)
  g_flow : list T;        (* indoor_coil_air_mass_flow_rate *)
  g_sequence : list nat;  (* compressor_sequence_number *)
  g_pressure : list T;    (* ambient_absolute_air_pressure *)
  l_total : list T;       (* gross_total_capacity *)
  l_sensible : list T;    (* gross_sensible_capacity *)
  l_power : list T;       (* gross_power *)
  l_state : list string   (* operation_state *)
}.
Arguments mkCMap {T}.
Arguments g_outdoor {T}. Arguments g_humidity {T}. Arguments g_indoor {T}.
Arguments g_flow {T}. Arguments g_sequence {T}. Arguments g_pressure {T}.
Arguments l_total {T}. Arguments l_sensible {T}. Arguments l_power {T}.
Arguments l_state {T}.

(** The fan assembly (fan.py:316-389). *)
Record fan_repr (T : Type) := mkFanRepr {
  fr_speed_number : list nat;
  fr_pressure : list T;          (* static_pressure_difference *)
  fr_power : list T;             (* shaft_power *)
  fr_flow : list T;              (* standard_air_volumetric_flow_rate *)
  fr_rotation : list T;          (* impeller_rotational_speed *)
  fr_state : list string;
  fr_nominal : T;                (* nominal_standard_air_volumetric_flow_rate *)
  fr_max_power : T               (* maximum_power of the motor *)
}.
Arguments mkFanRepr {T}.
Arguments fr_speed_number {T}. Arguments fr_pressure {T}. Arguments fr_power {T}.
Arguments fr_flow {T}. Arguments fr_rotation {T}. Arguments fr_state {T}.
Arguments fr_nominal {T}. Arguments fr_max_power {T}.

Record unit_repr (T : Type) := mkRepr {
  r_control : string;            (* compressor_speed_control_type *)
  r_degradation : T;             (* cycling_degradation_coefficient *)
  r_cooling : cooling_map T;
  r_standby_outdoor : list T;    (* outdoor_coil_environment_dry_bulb_temperature *)
  r_standby_power : list T;
  r_fan : fan_repr T
}.
Arguments mkRepr {T}.
Arguments r_control {T}. Arguments r_degradation {T}. Arguments r_cooling {T}.
Arguments r_standby_outdoor {T}. Arguments r_standby_power {T}. Arguments r_fan {T}.

(** [for x in l: out.extend(f(x))] *)
Definition rloop {A B} (f : A -> res (list B)) (l : list A) : res (list B) :=
  let! rows := rmapM f l in Ok (List.concat rows).

Section Repr205.
  Context {T : Type} {NT : Num T} {NX : NumX T}.
  Variable psy : psychro T.
  Variable sol : solvers T.
  Variable M : dxmodel T.
  Local Open Scope num_scope.
  Notation U := (dxunit T).
  Notation F := (fan T).

  (** fan.py:227-246 *)
  Definition fan_max_power (f : F) (max_speed : nat) : res T :=
    match f_class f with
    | ECMFlowFan None =>
        let! w := power sol f max_speed (Some (fr_inH2O (lit 1.2))) in Ok (w * lit 1.2)
    | ECMFlowFan (Some w) => Ok w
    | _ => let! w := power sol f max_speed (Some (lit 0)) in Ok (w * lit 1.2)
    end.

  (** fan.py:219-393, without the metadata. *)
  Definition fan_205 (f : F) : res (fan_repr T) :=
    let! order := get_speed_order_map sol f in
    let! max_speed := lasti order in
    let! max_power := fan_max_power f max_speed in
    let! m := fan_205_map sol f in
    let! nominal := airflow sol f max_speed (Some (f_design_esp f)) in
    let rows := snd m in
    Ok (mkFanRepr (fst (fst m)) (snd (fst m)) (map (fun r => fst (fst r)) rows)
          (map (fun r => snd (fst r)) rows) (map snd rows)
          (map (fun _ => "NORMAL"%string) rows) nominal max_power).

  (** dx_unit.py:1498-1518: one grid point. *)
  Definition point_205 (u : U) (tdb_o rh tdb_i m_dot : T) (speed : nat) (p : T)
      : res (list (T * T * T)) :=
    let! o := PsychState psy tdb_o p [("rel_hum"%string, lit 0.4)] in
    let! i := PsychState psy tdb_i p [("rel_hum"%string, rh)] in
    let! c := make_condition psy Cooling u speed (Some i) (Some o) in
    let! c := ex (set_mass_airflow psy m_dot) c in
    let! q := gross_total_cooling_capacity M u (Some c) in
    let! s := gross_sensible_cooling_capacity M u (Some c) in
    let! w := gross_cooling_power M u (Some c) in
    Ok [(q, s, w)].

  (** dx_unit.py:1444-1530 *)
  Definition cooling_205 (u : U) : res (cooling_map T) :=
    let n := sd_n (u_c u) in
    let outdoor := linspace (fr_F (lit 55)) (fr_F (lit 125)) 4 in
    let humidity := linspace (lit 0) (lit 1) 4 in
    let indoor := linspace (fr_F (lit 65)) (fr_F (lit 90)) 4 in
    let! q_last := lasti (sd_net_cap (u_c u)) in
    let! rho := std_rho psy in
    let! q_first := geti (sd_net_cap (u_c u)) 0 in
    let flow := linspace (fr_cfm_per_ton (lit 280) * q_last * rho)
                  (fr_cfm_per_ton (lit 500) * q_first * rho) 4 in
    let sequence := seq 1 n in
    let pressure := linspace (lit 57226.508) (lit 106868.78) 4 in
    let! rows :=
      rloop (fun tdb_o => rloop (fun rh => rloop (fun tdb_i => rloop (fun m_dot =>
        rloop (fun speed => rloop (fun p =>
          point_205 u tdb_o rh tdb_i m_dot speed p) pressure)
        (map (fun k => n - k)%nat sequence)) flow) indoor) humidity) outdoor in
    Ok (mkCMap outdoor humidity indoor flow sequence pressure
          (map (fun r => fst (fst r)) rows) (map (fun r => snd (fst r)) rows) (map snd rows)
          (map (fun _ => "NORMAL"%string) rows)).

  (** dx_unit.py:1410-1575, without the metadata. *)
  Definition generate_205_representation (u : U) : res (unit_repr T) :=
    let! _ := gross_total_cooling_capacity M u None in
    let! _ := gross_total_cooling_cop M u None in
    let! _ := gross_shr M u None in
    let! cooling := cooling_205 u in
    let! crank := need AttributeError (u_crank u) in
    let! f := need AttributeError (u_fan u) in
    let! fan := fan_205 f in
    Ok (mkRepr (if (sd_n (u_c u) <? 3)%nat then "DISCRETE" else "CONTINUOUS")%string
          (sd_cd (u_c u)) cooling
          [u_crank_setpoint u + lit (-0.5); u_crank_setpoint u + lit 0.5]
          [crank; lit 0] fan).
End Repr205.
