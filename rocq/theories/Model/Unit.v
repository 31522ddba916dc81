(** The attributes of a DXUnit (/repo/resdx/dx_unit.py) and of its model object,
    and the methods every model uses. *)
From Coq Require Import QArith List String.
From Verif.Base Require Import Num Res.
From Verif.Model Require Import Units Util Psychrometrics Conditions Defrost Fan Tabular.
Import ListNotations.
Local Open Scope nat_scope.

(** enums.py:4-7 *)
Inductive staging_type := SINGLE_STAGE | TWO_STAGE | VARIABLE_SPEED.
(** dx_unit.py:43-45 *)
Inductive cycling_method := BETWEEN_LOW_FULL | BETWEEN_OFF_FULL.
(** dx_unit.py:48-50 *)
Inductive ahri_version := AHRI_210_240_2017 | AHRI_210_240_2023.
(** unified_resnet.py:23-25 *)
Inductive motor_type := MotorPSC | MotorBPM.

(** An argument that may be a number or a list of numbers. *)
Inductive num_or_list (T : Type) := Scalar (x : T) | Many (l : list T).
Arguments Scalar {T} x.
Arguments Many {T} l.

(** Values of extra keyword arguments. *)
Inductive kwval (T : Type) :=
| KNone | KNum (x : T) | KList (l : list T) | KTable (p : perf T) | KMotor (m : motor_type)
| KOther.
Arguments KNone {T}. Arguments KNum {T} x. Arguments KList {T} l.
Arguments KTable {T} p. Arguments KMotor {T} m. Arguments KOther {T}.

(** Attributes that exist once for cooling and once for heating
    (dx_unit.py:232-283, 303-325, 595-619).  An array entry that is still [None]
    raises TypeError when used in arithmetic. *)
Record side (T : Type) := mkSide {
  sd_n : nat; (* number_of_*_speeds *)
  sd_full : nat; (* *_full_load_speed *)
  sd_boost : option nat; (* *_boost_speed *)
  sd_int : nat; (* *_intermediate_speed *)
  sd_low : option nat; (* *_low_speed *)
  sd_net_cap : list T; (* rated_net_*_capacity *)
  sd_gross_cap : list (option T); (* rated_gross_*_capacity *)
  sd_fan_power : list (option T); (* rated_*_fan_power *)
  sd_net_cop : list (option T); (* rated_net_*_cop *)
  sd_net_power : list (option T); (* rated_net_*_power *)
  sd_gross_power : list (option T); (* rated_gross_*_power *)
  sd_gross_cop : list (option T); (* rated_gross_*_cop *)
  sd_airflow : list (option T); (* rated_*_airflow *)
  sd_esp : list (option T); (* rated_*_external_static_pressure *)
  sd_fan_speed : option (list (option nat)); (* *_fan_speed *)
  sd_rated_fan_speed : option (list (option nat)); (* rated_*_fan_speed *)
  sd_flow_per_cap : option (num_or_list T); (* rated_*_airflow_per_rated_net_capacity *)
  sd_fan_efficacy : list T; (* rated_*_fan_efficacy (NREL) *)
  sd_cd : T (* c_d_* *)
}.
Arguments mkSide {T}.
Arguments sd_n {T}. Arguments sd_full {T}. Arguments sd_boost {T}.
Arguments sd_int {T}. Arguments sd_low {T}. Arguments sd_net_cap {T}.
Arguments sd_gross_cap {T}. Arguments sd_fan_power {T}.
Arguments sd_net_cop {T}. Arguments sd_net_power {T}.
Arguments sd_gross_power {T}. Arguments sd_gross_cop {T}.
Arguments sd_airflow {T}. Arguments sd_esp {T}. Arguments sd_fan_speed {T}.
Arguments sd_rated_fan_speed {T}. Arguments sd_flow_per_cap {T}.
Arguments sd_fan_efficacy {T}. Arguments sd_cd {T}.

(** The rating conditions (dx_unit.py:389-479); [None] until assigned. *)
Record rconds (T : Type) := mkConds {
  rc_A_full : option (cond T);
  rc_B_full : option (cond T);
  rc_H1_full : option (cond T);
  rc_H2_full : option (cond T);
  rc_H3_full : option (cond T);
  rc_H4_full : option (cond T);
  rc_A_int : option (cond T);
  rc_E_int : option (cond T);
  rc_H2_int : option (cond T);
  rc_A_boost : option (cond T);
  rc_A_low : option (cond T);
  rc_B_low : option (cond T);
  rc_F_low : option (cond T);
  rc_H0_low : option (cond T);
  rc_H1_low : option (cond T);
  rc_H2_low : option (cond T);
  rc_H3_low : option (cond T)
}.
Arguments mkConds {T}.
Arguments rc_A_full {T}. Arguments rc_B_full {T}. Arguments rc_H1_full {T}.
Arguments rc_H2_full {T}. Arguments rc_H3_full {T}. Arguments rc_H4_full {T}.
Arguments rc_A_int {T}. Arguments rc_E_int {T}. Arguments rc_H2_int {T}.
Arguments rc_A_boost {T}. Arguments rc_A_low {T}. Arguments rc_B_low {T}.
Arguments rc_F_low {T}. Arguments rc_H0_low {T}. Arguments rc_H1_low {T}.
Arguments rc_H2_low {T}. Arguments rc_H3_low {T}.

(** Attributes of a [RESNETDXModel] (unified_resnet.py:30-49).  The cooling and
    the heating speed maps are the same object wherever they are assigned
    (unified_resnet.py:203, 227, 265); the inverse maps are derived. *)
Record resnet_data (T : Type) := mkRn {
  rn_net : option (perf T); (* net_tabular_data *)
  rn_gross : option (perf T); (* gross_tabular_data *)
  rn_motor : option motor_type; (* motor_type *)
  rn_cap17 : option T; (* rated_net_heating_capacity_17 *)
  rn_ratio95 : option T; (* min_net_total_cooling_capacity_ratio_95 *)
  rn_cop82 : option T; (* rated_net_total_cooling_cop_82_min *)
  rn_map : option (list T) (* tabular_*_speed_map: entry i is the table speed of compressor speed i *)
}.
Arguments mkRn {T}.
Arguments rn_net {T}. Arguments rn_gross {T}. Arguments rn_motor {T}.
Arguments rn_cap17 {T}. Arguments rn_ratio95 {T}. Arguments rn_cop82 {T}.
Arguments rn_map {T}.

(** Attributes of a [DXUnit] (dx_unit.py:186-387).  [u_heating_on] is [None] when
    the attribute does not exist (dx_unit.py:294-295).  The model object is not a
    field: every method takes it as an argument.  Metadata is not modelled. *)
Record dxunit (T : Type) := mkUnit {
  u_kwargs : list (string * kwval T); (* kwargs *)
  u_seer : option T; (* input_seer *)
  u_eer : option T; (* input_eer *)
  u_hspf : option T; (* input_hspf *)
  u_hcop : option (num_or_list T); (* input_rated_net_heating_cop *)
  u_cycling : cycling_method;
  u_ducted : bool; (* is_ducted *)
  u_cooling_off : T; (* cooling_off_temperature *)
  u_defrost : defrost T;
  u_crank_setpoint : T; (* crankcase_heater_setpoint_temperature *)
  u_standard : ahri_version; (* rating_standard *)
  u_charge : T; (* refrigerant_charge_deviation *)
  u_staging : staging_type;
  u_heating_off : T; (* heating_off_temperature *)
  u_heating_on : option T; (* heating_on_temperature *)
  u_c : side T; (* cooling attributes *)
  u_h : side T; (* heating attributes *)
  u_shr : list (option T); (* rated_gross_shr_cooling *)
  u_bf : list (option T); (* rated_bypass_factor *)
  u_ntu : list (option T); (* normalized_ntu *)
  u_full_esp : option T; (* rated_full_flow_external_static_pressure *)
  u_fan : option (fan T); (* fan *)
  u_crank : option T; (* crankcase_heater_capacity *)
  u_conds : rconds T; (* *_cond *)
  u_rn : resnet_data T (* attributes of a RESNETDXModel *)
}.
Arguments mkUnit {T}.
Arguments u_kwargs {T}. Arguments u_seer {T}. Arguments u_eer {T}.
Arguments u_hspf {T}. Arguments u_hcop {T}. Arguments u_cycling {T}.
Arguments u_ducted {T}. Arguments u_cooling_off {T}. Arguments u_defrost {T}.
Arguments u_crank_setpoint {T}. Arguments u_standard {T}.
Arguments u_charge {T}. Arguments u_staging {T}. Arguments u_heating_off {T}.
Arguments u_heating_on {T}. Arguments u_c {T}. Arguments u_h {T}.
Arguments u_shr {T}. Arguments u_bf {T}. Arguments u_ntu {T}.
Arguments u_full_esp {T}. Arguments u_fan {T}. Arguments u_crank {T}.
Arguments u_conds {T}. Arguments u_rn {T}.

Section Setters.
  Context {T : Type}.

  Definition ws_n (v : nat) (s : side T) : side T :=
    mkSide v (sd_full s) (sd_boost s) (sd_int s) (sd_low s) (sd_net_cap s)
      (sd_gross_cap s) (sd_fan_power s) (sd_net_cop s) (sd_net_power s)
      (sd_gross_power s) (sd_gross_cop s) (sd_airflow s) (sd_esp s)
      (sd_fan_speed s) (sd_rated_fan_speed s) (sd_flow_per_cap s)
      (sd_fan_efficacy s) (sd_cd s).
  Definition ws_full (v : nat) (s : side T) : side T :=
    mkSide (sd_n s) v (sd_boost s) (sd_int s) (sd_low s) (sd_net_cap s)
      (sd_gross_cap s) (sd_fan_power s) (sd_net_cop s) (sd_net_power s)
      (sd_gross_power s) (sd_gross_cop s) (sd_airflow s) (sd_esp s)
      (sd_fan_speed s) (sd_rated_fan_speed s) (sd_flow_per_cap s)
      (sd_fan_efficacy s) (sd_cd s).
  Definition ws_boost (v : option nat) (s : side T) : side T :=
    mkSide (sd_n s) (sd_full s) v (sd_int s) (sd_low s) (sd_net_cap s)
      (sd_gross_cap s) (sd_fan_power s) (sd_net_cop s) (sd_net_power s)
      (sd_gross_power s) (sd_gross_cop s) (sd_airflow s) (sd_esp s)
      (sd_fan_speed s) (sd_rated_fan_speed s) (sd_flow_per_cap s)
      (sd_fan_efficacy s) (sd_cd s).
  Definition ws_int (v : nat) (s : side T) : side T :=
    mkSide (sd_n s) (sd_full s) (sd_boost s) v (sd_low s) (sd_net_cap s)
      (sd_gross_cap s) (sd_fan_power s) (sd_net_cop s) (sd_net_power s)
      (sd_gross_power s) (sd_gross_cop s) (sd_airflow s) (sd_esp s)
      (sd_fan_speed s) (sd_rated_fan_speed s) (sd_flow_per_cap s)
      (sd_fan_efficacy s) (sd_cd s).
  Definition ws_low (v : option nat) (s : side T) : side T :=
    mkSide (sd_n s) (sd_full s) (sd_boost s) (sd_int s) v (sd_net_cap s)
      (sd_gross_cap s) (sd_fan_power s) (sd_net_cop s) (sd_net_power s)
      (sd_gross_power s) (sd_gross_cop s) (sd_airflow s) (sd_esp s)
      (sd_fan_speed s) (sd_rated_fan_speed s) (sd_flow_per_cap s)
      (sd_fan_efficacy s) (sd_cd s).
  Definition ws_net_cap (v : list T) (s : side T) : side T :=
    mkSide (sd_n s) (sd_full s) (sd_boost s) (sd_int s) (sd_low s) v
      (sd_gross_cap s) (sd_fan_power s) (sd_net_cop s) (sd_net_power s)
      (sd_gross_power s) (sd_gross_cop s) (sd_airflow s) (sd_esp s)
      (sd_fan_speed s) (sd_rated_fan_speed s) (sd_flow_per_cap s)
      (sd_fan_efficacy s) (sd_cd s).
  Definition ws_gross_cap (v : list (option T)) (s : side T) : side T :=
    mkSide (sd_n s) (sd_full s) (sd_boost s) (sd_int s) (sd_low s)
      (sd_net_cap s) v (sd_fan_power s) (sd_net_cop s) (sd_net_power s)
      (sd_gross_power s) (sd_gross_cop s) (sd_airflow s) (sd_esp s)
      (sd_fan_speed s) (sd_rated_fan_speed s) (sd_flow_per_cap s)
      (sd_fan_efficacy s) (sd_cd s).
  Definition ws_fan_power (v : list (option T)) (s : side T) : side T :=
    mkSide (sd_n s) (sd_full s) (sd_boost s) (sd_int s) (sd_low s)
      (sd_net_cap s) (sd_gross_cap s) v (sd_net_cop s) (sd_net_power s)
      (sd_gross_power s) (sd_gross_cop s) (sd_airflow s) (sd_esp s)
      (sd_fan_speed s) (sd_rated_fan_speed s) (sd_flow_per_cap s)
      (sd_fan_efficacy s) (sd_cd s).
  Definition ws_net_cop (v : list (option T)) (s : side T) : side T :=
    mkSide (sd_n s) (sd_full s) (sd_boost s) (sd_int s) (sd_low s)
      (sd_net_cap s) (sd_gross_cap s) (sd_fan_power s) v (sd_net_power s)
      (sd_gross_power s) (sd_gross_cop s) (sd_airflow s) (sd_esp s)
      (sd_fan_speed s) (sd_rated_fan_speed s) (sd_flow_per_cap s)
      (sd_fan_efficacy s) (sd_cd s).
  Definition ws_net_power (v : list (option T)) (s : side T) : side T :=
    mkSide (sd_n s) (sd_full s) (sd_boost s) (sd_int s) (sd_low s)
      (sd_net_cap s) (sd_gross_cap s) (sd_fan_power s) (sd_net_cop s) v
      (sd_gross_power s) (sd_gross_cop s) (sd_airflow s) (sd_esp s)
      (sd_fan_speed s) (sd_rated_fan_speed s) (sd_flow_per_cap s)
      (sd_fan_efficacy s) (sd_cd s).
  Definition ws_gross_power (v : list (option T)) (s : side T) : side T :=
    mkSide (sd_n s) (sd_full s) (sd_boost s) (sd_int s) (sd_low s)
      (sd_net_cap s) (sd_gross_cap s) (sd_fan_power s) (sd_net_cop s)
      (sd_net_power s) v (sd_gross_cop s) (sd_airflow s) (sd_esp s)
      (sd_fan_speed s) (sd_rated_fan_speed s) (sd_flow_per_cap s)
      (sd_fan_efficacy s) (sd_cd s).
  Definition ws_gross_cop (v : list (option T)) (s : side T) : side T :=
    mkSide (sd_n s) (sd_full s) (sd_boost s) (sd_int s) (sd_low s)
      (sd_net_cap s) (sd_gross_cap s) (sd_fan_power s) (sd_net_cop s)
      (sd_net_power s) (sd_gross_power s) v (sd_airflow s) (sd_esp s)
      (sd_fan_speed s) (sd_rated_fan_speed s) (sd_flow_per_cap s)
      (sd_fan_efficacy s) (sd_cd s).
  Definition ws_airflow (v : list (option T)) (s : side T) : side T :=
    mkSide (sd_n s) (sd_full s) (sd_boost s) (sd_int s) (sd_low s)
      (sd_net_cap s) (sd_gross_cap s) (sd_fan_power s) (sd_net_cop s)
      (sd_net_power s) (sd_gross_power s) (sd_gross_cop s) v (sd_esp s)
      (sd_fan_speed s) (sd_rated_fan_speed s) (sd_flow_per_cap s)
      (sd_fan_efficacy s) (sd_cd s).
  Definition ws_esp (v : list (option T)) (s : side T) : side T :=
    mkSide (sd_n s) (sd_full s) (sd_boost s) (sd_int s) (sd_low s)
      (sd_net_cap s) (sd_gross_cap s) (sd_fan_power s) (sd_net_cop s)
      (sd_net_power s) (sd_gross_power s) (sd_gross_cop s) (sd_airflow s) v
      (sd_fan_speed s) (sd_rated_fan_speed s) (sd_flow_per_cap s)
      (sd_fan_efficacy s) (sd_cd s).
  Definition ws_fan_speed (v : option (list (option nat))) (s : side T) : side T :=
    mkSide (sd_n s) (sd_full s) (sd_boost s) (sd_int s) (sd_low s)
      (sd_net_cap s) (sd_gross_cap s) (sd_fan_power s) (sd_net_cop s)
      (sd_net_power s) (sd_gross_power s) (sd_gross_cop s) (sd_airflow s)
      (sd_esp s) v (sd_rated_fan_speed s) (sd_flow_per_cap s)
      (sd_fan_efficacy s) (sd_cd s).
  Definition ws_rated_fan_speed (v : option (list (option nat))) (s : side T) : side T :=
    mkSide (sd_n s) (sd_full s) (sd_boost s) (sd_int s) (sd_low s)
      (sd_net_cap s) (sd_gross_cap s) (sd_fan_power s) (sd_net_cop s)
      (sd_net_power s) (sd_gross_power s) (sd_gross_cop s) (sd_airflow s)
      (sd_esp s) (sd_fan_speed s) v (sd_flow_per_cap s) (sd_fan_efficacy s)
      (sd_cd s).
  Definition ws_flow_per_cap (v : option (num_or_list T)) (s : side T) : side T :=
    mkSide (sd_n s) (sd_full s) (sd_boost s) (sd_int s) (sd_low s)
      (sd_net_cap s) (sd_gross_cap s) (sd_fan_power s) (sd_net_cop s)
      (sd_net_power s) (sd_gross_power s) (sd_gross_cop s) (sd_airflow s)
      (sd_esp s) (sd_fan_speed s) (sd_rated_fan_speed s) v (sd_fan_efficacy s)
      (sd_cd s).
  Definition ws_fan_efficacy (v : list T) (s : side T) : side T :=
    mkSide (sd_n s) (sd_full s) (sd_boost s) (sd_int s) (sd_low s)
      (sd_net_cap s) (sd_gross_cap s) (sd_fan_power s) (sd_net_cop s)
      (sd_net_power s) (sd_gross_power s) (sd_gross_cop s) (sd_airflow s)
      (sd_esp s) (sd_fan_speed s) (sd_rated_fan_speed s) (sd_flow_per_cap s) v
      (sd_cd s).
  Definition ws_cd (v : T) (s : side T) : side T :=
    mkSide (sd_n s) (sd_full s) (sd_boost s) (sd_int s) (sd_low s)
      (sd_net_cap s) (sd_gross_cap s) (sd_fan_power s) (sd_net_cop s)
      (sd_net_power s) (sd_gross_power s) (sd_gross_cop s) (sd_airflow s)
      (sd_esp s) (sd_fan_speed s) (sd_rated_fan_speed s) (sd_flow_per_cap s)
      (sd_fan_efficacy s) v.

  Definition wc_A_full (v : option (cond T)) (s : rconds T) : rconds T :=
    mkConds v (rc_B_full s) (rc_H1_full s) (rc_H2_full s) (rc_H3_full s)
      (rc_H4_full s) (rc_A_int s) (rc_E_int s) (rc_H2_int s) (rc_A_boost s)
      (rc_A_low s) (rc_B_low s) (rc_F_low s) (rc_H0_low s) (rc_H1_low s)
      (rc_H2_low s) (rc_H3_low s).
  Definition wc_B_full (v : option (cond T)) (s : rconds T) : rconds T :=
    mkConds (rc_A_full s) v (rc_H1_full s) (rc_H2_full s) (rc_H3_full s)
      (rc_H4_full s) (rc_A_int s) (rc_E_int s) (rc_H2_int s) (rc_A_boost s)
      (rc_A_low s) (rc_B_low s) (rc_F_low s) (rc_H0_low s) (rc_H1_low s)
      (rc_H2_low s) (rc_H3_low s).
  Definition wc_H1_full (v : option (cond T)) (s : rconds T) : rconds T :=
    mkConds (rc_A_full s) (rc_B_full s) v (rc_H2_full s) (rc_H3_full s)
      (rc_H4_full s) (rc_A_int s) (rc_E_int s) (rc_H2_int s) (rc_A_boost s)
      (rc_A_low s) (rc_B_low s) (rc_F_low s) (rc_H0_low s) (rc_H1_low s)
      (rc_H2_low s) (rc_H3_low s).
  Definition wc_H2_full (v : option (cond T)) (s : rconds T) : rconds T :=
    mkConds (rc_A_full s) (rc_B_full s) (rc_H1_full s) v (rc_H3_full s)
      (rc_H4_full s) (rc_A_int s) (rc_E_int s) (rc_H2_int s) (rc_A_boost s)
      (rc_A_low s) (rc_B_low s) (rc_F_low s) (rc_H0_low s) (rc_H1_low s)
      (rc_H2_low s) (rc_H3_low s).
  Definition wc_H3_full (v : option (cond T)) (s : rconds T) : rconds T :=
    mkConds (rc_A_full s) (rc_B_full s) (rc_H1_full s) (rc_H2_full s) v
      (rc_H4_full s) (rc_A_int s) (rc_E_int s) (rc_H2_int s) (rc_A_boost s)
      (rc_A_low s) (rc_B_low s) (rc_F_low s) (rc_H0_low s) (rc_H1_low s)
      (rc_H2_low s) (rc_H3_low s).
  Definition wc_H4_full (v : option (cond T)) (s : rconds T) : rconds T :=
    mkConds (rc_A_full s) (rc_B_full s) (rc_H1_full s) (rc_H2_full s)
      (rc_H3_full s) v (rc_A_int s) (rc_E_int s) (rc_H2_int s) (rc_A_boost s)
      (rc_A_low s) (rc_B_low s) (rc_F_low s) (rc_H0_low s) (rc_H1_low s)
      (rc_H2_low s) (rc_H3_low s).
  Definition wc_A_int (v : option (cond T)) (s : rconds T) : rconds T :=
    mkConds (rc_A_full s) (rc_B_full s) (rc_H1_full s) (rc_H2_full s)
      (rc_H3_full s) (rc_H4_full s) v (rc_E_int s) (rc_H2_int s) (rc_A_boost s)
      (rc_A_low s) (rc_B_low s) (rc_F_low s) (rc_H0_low s) (rc_H1_low s)
      (rc_H2_low s) (rc_H3_low s).
  Definition wc_E_int (v : option (cond T)) (s : rconds T) : rconds T :=
    mkConds (rc_A_full s) (rc_B_full s) (rc_H1_full s) (rc_H2_full s)
      (rc_H3_full s) (rc_H4_full s) (rc_A_int s) v (rc_H2_int s) (rc_A_boost s)
      (rc_A_low s) (rc_B_low s) (rc_F_low s) (rc_H0_low s) (rc_H1_low s)
      (rc_H2_low s) (rc_H3_low s).
  Definition wc_H2_int (v : option (cond T)) (s : rconds T) : rconds T :=
    mkConds (rc_A_full s) (rc_B_full s) (rc_H1_full s) (rc_H2_full s)
      (rc_H3_full s) (rc_H4_full s) (rc_A_int s) (rc_E_int s) v (rc_A_boost s)
      (rc_A_low s) (rc_B_low s) (rc_F_low s) (rc_H0_low s) (rc_H1_low s)
      (rc_H2_low s) (rc_H3_low s).
  Definition wc_A_boost (v : option (cond T)) (s : rconds T) : rconds T :=
    mkConds (rc_A_full s) (rc_B_full s) (rc_H1_full s) (rc_H2_full s)
      (rc_H3_full s) (rc_H4_full s) (rc_A_int s) (rc_E_int s) (rc_H2_int s) v
      (rc_A_low s) (rc_B_low s) (rc_F_low s) (rc_H0_low s) (rc_H1_low s)
      (rc_H2_low s) (rc_H3_low s).
  Definition wc_A_low (v : option (cond T)) (s : rconds T) : rconds T :=
    mkConds (rc_A_full s) (rc_B_full s) (rc_H1_full s) (rc_H2_full s)
      (rc_H3_full s) (rc_H4_full s) (rc_A_int s) (rc_E_int s) (rc_H2_int s)
      (rc_A_boost s) v (rc_B_low s) (rc_F_low s) (rc_H0_low s) (rc_H1_low s)
      (rc_H2_low s) (rc_H3_low s).
  Definition wc_B_low (v : option (cond T)) (s : rconds T) : rconds T :=
    mkConds (rc_A_full s) (rc_B_full s) (rc_H1_full s) (rc_H2_full s)
      (rc_H3_full s) (rc_H4_full s) (rc_A_int s) (rc_E_int s) (rc_H2_int s)
      (rc_A_boost s) (rc_A_low s) v (rc_F_low s) (rc_H0_low s) (rc_H1_low s)
      (rc_H2_low s) (rc_H3_low s).
  Definition wc_F_low (v : option (cond T)) (s : rconds T) : rconds T :=
    mkConds (rc_A_full s) (rc_B_full s) (rc_H1_full s) (rc_H2_full s)
      (rc_H3_full s) (rc_H4_full s) (rc_A_int s) (rc_E_int s) (rc_H2_int s)
      (rc_A_boost s) (rc_A_low s) (rc_B_low s) v (rc_H0_low s) (rc_H1_low s)
      (rc_H2_low s) (rc_H3_low s).
  Definition wc_H0_low (v : option (cond T)) (s : rconds T) : rconds T :=
    mkConds (rc_A_full s) (rc_B_full s) (rc_H1_full s) (rc_H2_full s)
      (rc_H3_full s) (rc_H4_full s) (rc_A_int s) (rc_E_int s) (rc_H2_int s)
      (rc_A_boost s) (rc_A_low s) (rc_B_low s) (rc_F_low s) v (rc_H1_low s)
      (rc_H2_low s) (rc_H3_low s).
  Definition wc_H1_low (v : option (cond T)) (s : rconds T) : rconds T :=
    mkConds (rc_A_full s) (rc_B_full s) (rc_H1_full s) (rc_H2_full s)
      (rc_H3_full s) (rc_H4_full s) (rc_A_int s) (rc_E_int s) (rc_H2_int s)
      (rc_A_boost s) (rc_A_low s) (rc_B_low s) (rc_F_low s) (rc_H0_low s) v
      (rc_H2_low s) (rc_H3_low s).
  Definition wc_H2_low (v : option (cond T)) (s : rconds T) : rconds T :=
    mkConds (rc_A_full s) (rc_B_full s) (rc_H1_full s) (rc_H2_full s)
      (rc_H3_full s) (rc_H4_full s) (rc_A_int s) (rc_E_int s) (rc_H2_int s)
      (rc_A_boost s) (rc_A_low s) (rc_B_low s) (rc_F_low s) (rc_H0_low s)
      (rc_H1_low s) v (rc_H3_low s).
  Definition wc_H3_low (v : option (cond T)) (s : rconds T) : rconds T :=
    mkConds (rc_A_full s) (rc_B_full s) (rc_H1_full s) (rc_H2_full s)
      (rc_H3_full s) (rc_H4_full s) (rc_A_int s) (rc_E_int s) (rc_H2_int s)
      (rc_A_boost s) (rc_A_low s) (rc_B_low s) (rc_F_low s) (rc_H0_low s)
      (rc_H1_low s) (rc_H2_low s) v.

  Definition wr_net (v : option (perf T)) (s : resnet_data T) : resnet_data T :=
    mkRn v (rn_gross s) (rn_motor s) (rn_cap17 s) (rn_ratio95 s) (rn_cop82 s)
      (rn_map s).
  Definition wr_gross (v : option (perf T)) (s : resnet_data T) : resnet_data T :=
    mkRn (rn_net s) v (rn_motor s) (rn_cap17 s) (rn_ratio95 s) (rn_cop82 s)
      (rn_map s).
  Definition wr_motor (v : option motor_type) (s : resnet_data T) : resnet_data T :=
    mkRn (rn_net s) (rn_gross s) v (rn_cap17 s) (rn_ratio95 s) (rn_cop82 s)
      (rn_map s).
  Definition wr_cap17 (v : option T) (s : resnet_data T) : resnet_data T :=
    mkRn (rn_net s) (rn_gross s) (rn_motor s) v (rn_ratio95 s) (rn_cop82 s)
      (rn_map s).
  Definition wr_ratio95 (v : option T) (s : resnet_data T) : resnet_data T :=
    mkRn (rn_net s) (rn_gross s) (rn_motor s) (rn_cap17 s) v (rn_cop82 s)
      (rn_map s).
  Definition wr_cop82 (v : option T) (s : resnet_data T) : resnet_data T :=
    mkRn (rn_net s) (rn_gross s) (rn_motor s) (rn_cap17 s) (rn_ratio95 s) v
      (rn_map s).
  Definition wr_map (v : option (list T)) (s : resnet_data T) : resnet_data T :=
    mkRn (rn_net s) (rn_gross s) (rn_motor s) (rn_cap17 s) (rn_ratio95 s)
      (rn_cop82 s) v.

  Definition wu_kwargs (v : list (string * kwval T)) (s : dxunit T) : dxunit T :=
    mkUnit v (u_seer s) (u_eer s) (u_hspf s) (u_hcop s) (u_cycling s)
      (u_ducted s) (u_cooling_off s) (u_defrost s) (u_crank_setpoint s)
      (u_standard s) (u_charge s) (u_staging s) (u_heating_off s)
      (u_heating_on s) (u_c s) (u_h s) (u_shr s) (u_bf s) (u_ntu s)
      (u_full_esp s) (u_fan s) (u_crank s) (u_conds s) (u_rn s).
  Definition wu_seer (v : option T) (s : dxunit T) : dxunit T :=
    mkUnit (u_kwargs s) v (u_eer s) (u_hspf s) (u_hcop s) (u_cycling s)
      (u_ducted s) (u_cooling_off s) (u_defrost s) (u_crank_setpoint s)
      (u_standard s) (u_charge s) (u_staging s) (u_heating_off s)
      (u_heating_on s) (u_c s) (u_h s) (u_shr s) (u_bf s) (u_ntu s)
      (u_full_esp s) (u_fan s) (u_crank s) (u_conds s) (u_rn s).
  Definition wu_eer (v : option T) (s : dxunit T) : dxunit T :=
    mkUnit (u_kwargs s) (u_seer s) v (u_hspf s) (u_hcop s) (u_cycling s)
      (u_ducted s) (u_cooling_off s) (u_defrost s) (u_crank_setpoint s)
      (u_standard s) (u_charge s) (u_staging s) (u_heating_off s)
      (u_heating_on s) (u_c s) (u_h s) (u_shr s) (u_bf s) (u_ntu s)
      (u_full_esp s) (u_fan s) (u_crank s) (u_conds s) (u_rn s).
  Definition wu_hspf (v : option T) (s : dxunit T) : dxunit T :=
    mkUnit (u_kwargs s) (u_seer s) (u_eer s) v (u_hcop s) (u_cycling s)
      (u_ducted s) (u_cooling_off s) (u_defrost s) (u_crank_setpoint s)
      (u_standard s) (u_charge s) (u_staging s) (u_heating_off s)
      (u_heating_on s) (u_c s) (u_h s) (u_shr s) (u_bf s) (u_ntu s)
      (u_full_esp s) (u_fan s) (u_crank s) (u_conds s) (u_rn s).
  Definition wu_hcop (v : option (num_or_list T)) (s : dxunit T) : dxunit T :=
    mkUnit (u_kwargs s) (u_seer s) (u_eer s) (u_hspf s) v (u_cycling s)
      (u_ducted s) (u_cooling_off s) (u_defrost s) (u_crank_setpoint s)
      (u_standard s) (u_charge s) (u_staging s) (u_heating_off s)
      (u_heating_on s) (u_c s) (u_h s) (u_shr s) (u_bf s) (u_ntu s)
      (u_full_esp s) (u_fan s) (u_crank s) (u_conds s) (u_rn s).
  Definition wu_cycling (v : cycling_method) (s : dxunit T) : dxunit T :=
    mkUnit (u_kwargs s) (u_seer s) (u_eer s) (u_hspf s) (u_hcop s) v
      (u_ducted s) (u_cooling_off s) (u_defrost s) (u_crank_setpoint s)
      (u_standard s) (u_charge s) (u_staging s) (u_heating_off s)
      (u_heating_on s) (u_c s) (u_h s) (u_shr s) (u_bf s) (u_ntu s)
      (u_full_esp s) (u_fan s) (u_crank s) (u_conds s) (u_rn s).
  Definition wu_ducted (v : bool) (s : dxunit T) : dxunit T :=
    mkUnit (u_kwargs s) (u_seer s) (u_eer s) (u_hspf s) (u_hcop s) (u_cycling s)
      v (u_cooling_off s) (u_defrost s) (u_crank_setpoint s) (u_standard s)
      (u_charge s) (u_staging s) (u_heating_off s) (u_heating_on s) (u_c s)
      (u_h s) (u_shr s) (u_bf s) (u_ntu s) (u_full_esp s) (u_fan s) (u_crank s)
      (u_conds s) (u_rn s).
  Definition wu_cooling_off (v : T) (s : dxunit T) : dxunit T :=
    mkUnit (u_kwargs s) (u_seer s) (u_eer s) (u_hspf s) (u_hcop s) (u_cycling s)
      (u_ducted s) v (u_defrost s) (u_crank_setpoint s) (u_standard s)
      (u_charge s) (u_staging s) (u_heating_off s) (u_heating_on s) (u_c s)
      (u_h s) (u_shr s) (u_bf s) (u_ntu s) (u_full_esp s) (u_fan s) (u_crank s)
      (u_conds s) (u_rn s).
  Definition wu_defrost (v : defrost T) (s : dxunit T) : dxunit T :=
    mkUnit (u_kwargs s) (u_seer s) (u_eer s) (u_hspf s) (u_hcop s) (u_cycling s)
      (u_ducted s) (u_cooling_off s) v (u_crank_setpoint s) (u_standard s)
      (u_charge s) (u_staging s) (u_heating_off s) (u_heating_on s) (u_c s)
      (u_h s) (u_shr s) (u_bf s) (u_ntu s) (u_full_esp s) (u_fan s) (u_crank s)
      (u_conds s) (u_rn s).
  Definition wu_crank_setpoint (v : T) (s : dxunit T) : dxunit T :=
    mkUnit (u_kwargs s) (u_seer s) (u_eer s) (u_hspf s) (u_hcop s) (u_cycling s)
      (u_ducted s) (u_cooling_off s) (u_defrost s) v (u_standard s) (u_charge s)
      (u_staging s) (u_heating_off s) (u_heating_on s) (u_c s) (u_h s) (u_shr s)
      (u_bf s) (u_ntu s) (u_full_esp s) (u_fan s) (u_crank s) (u_conds s)
      (u_rn s).
  Definition wu_standard (v : ahri_version) (s : dxunit T) : dxunit T :=
    mkUnit (u_kwargs s) (u_seer s) (u_eer s) (u_hspf s) (u_hcop s) (u_cycling s)
      (u_ducted s) (u_cooling_off s) (u_defrost s) (u_crank_setpoint s) v
      (u_charge s) (u_staging s) (u_heating_off s) (u_heating_on s) (u_c s)
      (u_h s) (u_shr s) (u_bf s) (u_ntu s) (u_full_esp s) (u_fan s) (u_crank s)
      (u_conds s) (u_rn s).
  Definition wu_charge (v : T) (s : dxunit T) : dxunit T :=
    mkUnit (u_kwargs s) (u_seer s) (u_eer s) (u_hspf s) (u_hcop s) (u_cycling s)
      (u_ducted s) (u_cooling_off s) (u_defrost s) (u_crank_setpoint s)
      (u_standard s) v (u_staging s) (u_heating_off s) (u_heating_on s) (u_c s)
      (u_h s) (u_shr s) (u_bf s) (u_ntu s) (u_full_esp s) (u_fan s) (u_crank s)
      (u_conds s) (u_rn s).
  Definition wu_staging (v : staging_type) (s : dxunit T) : dxunit T :=
    mkUnit (u_kwargs s) (u_seer s) (u_eer s) (u_hspf s) (u_hcop s) (u_cycling s)
      (u_ducted s) (u_cooling_off s) (u_defrost s) (u_crank_setpoint s)
      (u_standard s) (u_charge s) v (u_heating_off s) (u_heating_on s) (u_c s)
      (u_h s) (u_shr s) (u_bf s) (u_ntu s) (u_full_esp s) (u_fan s) (u_crank s)
      (u_conds s) (u_rn s).
  Definition wu_heating_off (v : T) (s : dxunit T) : dxunit T :=
    mkUnit (u_kwargs s) (u_seer s) (u_eer s) (u_hspf s) (u_hcop s) (u_cycling s)
      (u_ducted s) (u_cooling_off s) (u_defrost s) (u_crank_setpoint s)
      (u_standard s) (u_charge s) (u_staging s) v (u_heating_on s) (u_c s)
      (u_h s) (u_shr s) (u_bf s) (u_ntu s) (u_full_esp s) (u_fan s) (u_crank s)
      (u_conds s) (u_rn s).
  Definition wu_heating_on (v : option T) (s : dxunit T) : dxunit T :=
    mkUnit (u_kwargs s) (u_seer s) (u_eer s) (u_hspf s) (u_hcop s) (u_cycling s)
      (u_ducted s) (u_cooling_off s) (u_defrost s) (u_crank_setpoint s)
      (u_standard s) (u_charge s) (u_staging s) (u_heating_off s) v (u_c s)
      (u_h s) (u_shr s) (u_bf s) (u_ntu s) (u_full_esp s) (u_fan s) (u_crank s)
      (u_conds s) (u_rn s).
  Definition wu_c (v : side T) (s : dxunit T) : dxunit T :=
    mkUnit (u_kwargs s) (u_seer s) (u_eer s) (u_hspf s) (u_hcop s) (u_cycling s)
      (u_ducted s) (u_cooling_off s) (u_defrost s) (u_crank_setpoint s)
      (u_standard s) (u_charge s) (u_staging s) (u_heating_off s)
      (u_heating_on s) v (u_h s) (u_shr s) (u_bf s) (u_ntu s) (u_full_esp s)
      (u_fan s) (u_crank s) (u_conds s) (u_rn s).
  Definition wu_h (v : side T) (s : dxunit T) : dxunit T :=
    mkUnit (u_kwargs s) (u_seer s) (u_eer s) (u_hspf s) (u_hcop s) (u_cycling s)
      (u_ducted s) (u_cooling_off s) (u_defrost s) (u_crank_setpoint s)
      (u_standard s) (u_charge s) (u_staging s) (u_heating_off s)
      (u_heating_on s) (u_c s) v (u_shr s) (u_bf s) (u_ntu s) (u_full_esp s)
      (u_fan s) (u_crank s) (u_conds s) (u_rn s).
  Definition wu_shr (v : list (option T)) (s : dxunit T) : dxunit T :=
    mkUnit (u_kwargs s) (u_seer s) (u_eer s) (u_hspf s) (u_hcop s) (u_cycling s)
      (u_ducted s) (u_cooling_off s) (u_defrost s) (u_crank_setpoint s)
      (u_standard s) (u_charge s) (u_staging s) (u_heating_off s)
      (u_heating_on s) (u_c s) (u_h s) v (u_bf s) (u_ntu s) (u_full_esp s)
      (u_fan s) (u_crank s) (u_conds s) (u_rn s).
  Definition wu_bf (v : list (option T)) (s : dxunit T) : dxunit T :=
    mkUnit (u_kwargs s) (u_seer s) (u_eer s) (u_hspf s) (u_hcop s) (u_cycling s)
      (u_ducted s) (u_cooling_off s) (u_defrost s) (u_crank_setpoint s)
      (u_standard s) (u_charge s) (u_staging s) (u_heating_off s)
      (u_heating_on s) (u_c s) (u_h s) (u_shr s) v (u_ntu s) (u_full_esp s)
      (u_fan s) (u_crank s) (u_conds s) (u_rn s).
  Definition wu_ntu (v : list (option T)) (s : dxunit T) : dxunit T :=
    mkUnit (u_kwargs s) (u_seer s) (u_eer s) (u_hspf s) (u_hcop s) (u_cycling s)
      (u_ducted s) (u_cooling_off s) (u_defrost s) (u_crank_setpoint s)
      (u_standard s) (u_charge s) (u_staging s) (u_heating_off s)
      (u_heating_on s) (u_c s) (u_h s) (u_shr s) (u_bf s) v (u_full_esp s)
      (u_fan s) (u_crank s) (u_conds s) (u_rn s).
  Definition wu_full_esp (v : option T) (s : dxunit T) : dxunit T :=
    mkUnit (u_kwargs s) (u_seer s) (u_eer s) (u_hspf s) (u_hcop s) (u_cycling s)
      (u_ducted s) (u_cooling_off s) (u_defrost s) (u_crank_setpoint s)
      (u_standard s) (u_charge s) (u_staging s) (u_heating_off s)
      (u_heating_on s) (u_c s) (u_h s) (u_shr s) (u_bf s) (u_ntu s) v (u_fan s)
      (u_crank s) (u_conds s) (u_rn s).
  Definition wu_fan (v : option (fan T)) (s : dxunit T) : dxunit T :=
    mkUnit (u_kwargs s) (u_seer s) (u_eer s) (u_hspf s) (u_hcop s) (u_cycling s)
      (u_ducted s) (u_cooling_off s) (u_defrost s) (u_crank_setpoint s)
      (u_standard s) (u_charge s) (u_staging s) (u_heating_off s)
      (u_heating_on s) (u_c s) (u_h s) (u_shr s) (u_bf s) (u_ntu s)
      (u_full_esp s) v (u_crank s) (u_conds s) (u_rn s).
  Definition wu_crank (v : option T) (s : dxunit T) : dxunit T :=
    mkUnit (u_kwargs s) (u_seer s) (u_eer s) (u_hspf s) (u_hcop s) (u_cycling s)
      (u_ducted s) (u_cooling_off s) (u_defrost s) (u_crank_setpoint s)
      (u_standard s) (u_charge s) (u_staging s) (u_heating_off s)
      (u_heating_on s) (u_c s) (u_h s) (u_shr s) (u_bf s) (u_ntu s)
      (u_full_esp s) (u_fan s) v (u_conds s) (u_rn s).
  Definition wu_conds (v : rconds T) (s : dxunit T) : dxunit T :=
    mkUnit (u_kwargs s) (u_seer s) (u_eer s) (u_hspf s) (u_hcop s) (u_cycling s)
      (u_ducted s) (u_cooling_off s) (u_defrost s) (u_crank_setpoint s)
      (u_standard s) (u_charge s) (u_staging s) (u_heating_off s)
      (u_heating_on s) (u_c s) (u_h s) (u_shr s) (u_bf s) (u_ntu s)
      (u_full_esp s) (u_fan s) (u_crank s) v (u_rn s).
  Definition wu_rn (v : resnet_data T) (s : dxunit T) : dxunit T :=
    mkUnit (u_kwargs s) (u_seer s) (u_eer s) (u_hspf s) (u_hcop s) (u_cycling s)
      (u_ducted s) (u_cooling_off s) (u_defrost s) (u_crank_setpoint s)
      (u_standard s) (u_charge s) (u_staging s) (u_heating_off s)
      (u_heating_on s) (u_c s) (u_h s) (u_shr s) (u_bf s) (u_ntu s)
      (u_full_esp s) (u_fan s) (u_crank s) (u_conds s) v.
End Setters.

(** Which half of the unit a method works on. *)
Inductive mode := Cooling | Heating.

Section Common.
  Context {T : Type} {NT : Num T} {NX : NumX T}.
  Variable psy : psychro T.
  Variable sol : solvers T.
  Local Open Scope num_scope.
  Notation U := (dxunit T).

  Definition side_of (m : mode) (u : U) : side T :=
    match m with Cooling => u_c u | Heating => u_h u end.
  Definition wu_side (m : mode) (s : side T) (u : U) : U :=
    match m with Cooling => wu_c s u | Heating => wu_h s u end.
  Definition on_side (m : mode) (f : side T -> side T) : st U unit :=
    smod (fun u => wu_side m (f (side_of m u)) u).

  (** [array[i]] used in arithmetic. *)
  Definition arr (l : list (option T)) (i : nat) : res T :=
    let! o := geti l i in need TypeError o.

  (** [self.<array>[i] = v] *)
  Definition side_put (m : mode) (get : side T -> list (option T))
      (set : list (option T) -> side T -> side T) (i : nat) (v : T) : st U unit :=
    do u <- sget ;;
    do l <- slift (seti (get (side_of m u)) i (Some v)) ;;
    on_side m (set l).

  (** [[f(i) for i in range(n)]] *)
  Definition comp (n : nat) (f : nat -> res T) : res (list (option T)) :=
    let! l := rmapM f (seq 0 n) in Ok (map Some l).

  (** dx_unit.py:595-619; also called by unified_resnet.py:170. *)
  Definition set_placeholder_arrays : st U unit :=
    let reset (s : side T) :=
      let e := repeat (@None T) (sd_n s) in
      ws_fan_power e (ws_gross_cap e (ws_net_cop e (ws_net_power e
        (ws_gross_power e (ws_gross_cop e (ws_airflow e (ws_esp e s))))))) in
    smod (fun u =>
      let e := repeat (@None T) (sd_n (u_c u)) in
      wu_shr e (wu_bf e (wu_ntu e (wu_c (reset (u_c u)) (wu_h (reset (u_h u)) u))))).

  (** conditions.py:106-139: default indoor and outdoor states. *)
  Definition default_indoor (m : mode) : psych_state T :=
    match m with
    | Cooling => psych_wetbulb (fr_F (lit 80)) atm (fr_F (lit 67))
    | Heating => psych_wetbulb (fr_F (lit 70)) atm (fr_F (lit 60))
    end.
  Definition default_outdoor (m : mode) : psych_state T :=
    match m with
    | Cooling => psych_wetbulb (fr_F (lit 95)) atm (fr_F (lit 75))
    | Heating => psych_wetbulb (fr_F (lit 47)) atm (fr_F (lit 43))
    end.

  (** dx_unit.py:653-666 *)
  Definition get_rated_full_flow_rated_pressure (u : U) : res T :=
    if negb (u_ducted u) then Ok (lit 0)
    else
      match u_standard u with
      | AHRI_210_240_2017 =>
          let! q := geti (sd_net_cap (u_c u)) 0 in
          if q <=? fr_Btuh (lit 29000) then Ok (fr_inH2O (lit 0.1))
          else if q <=? fr_Btuh (lit 43000) then Ok (fr_inH2O (lit 0.15))
          else Ok (fr_inH2O (lit 0.2))
      | AHRI_210_240_2023 => Ok (fr_inH2O (lit 0.5))
      end.

  (** dx_unit.py:668-672 *)
  Definition calculate_rated_pressure (u : U) (airflow full_airflow : T) : res T :=
    let! p := need AttributeError (u_full_esp u) in
    let! r := airflow /? full_airflow in
    Ok (p * nsq r).

  (** dx_unit.py:621-651.  An unset fan map is [None], whose indexing raises
      TypeError. *)
  Definition make_condition (m : mode) (u : U) (speed : nat)
      (indoor outdoor : option (psych_state T)) : res (cond T) :=
    let i := match indoor with Some s => s | None => default_indoor m end in
    let o := match outdoor with Some s => s | None => default_outdoor m end in
    let s := side_of m u in
    let! q := geti (sd_net_cap s) speed in
    let! a := geti (sd_airflow s) speed in
    let! full := geti (sd_airflow s) 0 in
    let! map := need TypeError (sd_rated_fan_speed s) in
    let! f := geti map speed in
    let! a := need TypeError a in
    let! full := need TypeError full in
    let! p := calculate_rated_pressure u a full in
    ex (set_rated_volumetric_airflow psy a q)
      (OperatingConditions o i speed f (Some p)).

  (** dx_unit.py:680-683 and 978-981, for given conditions. *)
  Definition fan_power (u : U) (c : cond T) : res T :=
    let! f := need AttributeError (u_fan u) in
    let! p := need AttributeError (c_external_static_pressure c) in
    let! i := need TypeError (c_fan_speed c) in
    power sol f i (Some p).

  (** dx_unit.py:813-818, for given conditions. *)
  Definition bypass_factor (u : U) (c : cond T) : res T :=
    let! ntu := arr (u_ntu u) (c_speed c) in
    let! m := need AttributeError (c_mass_airflow c) in
    let! q := (lit 0 - ntu) /? m in
    Ok (nexp q).

  (** The unit's capacity or power with a charge factor: cooling (checked not
      negative, dx_unit.py:688-695, 712-719) and heating (dx_unit.py:986-998). *)
  Definition checked_product (raw charge : U -> cond T -> res T) (u : U) (c : cond T)
      : res T :=
    let! q := raw u c in
    let! f := charge u c in
    limit_check (q * f) (Some (lit 0)) None.
  Definition product (raw charge : U -> cond T -> res T) (u : U) (c : cond T) : res T :=
    let! q := raw u c in
    let! f := charge u c in
    Ok (q * f).

  (** Run a fan method on the unit's fan. *)
  Definition on_fan {A} (m : st (fan T) A) : st U A :=
    fun u => match u_fan u with
             | None => (u, Err AttributeError)
             | Some f => let (f', r) := m f in (wu_fan (Some f') u, r)
             end.
  (** [self.system.fan.number_of_speeds - 1] after a speed was added *)
  Definition last_fan_speed : st U nat :=
    sread (fun u => let! f := need AttributeError (u_fan u) in Ok (Nat.pred (f_n f))).
  (** [self.system.<map>[i] = k] *)
  Definition put_fan_speed (m : mode) (i k : nat) : st U unit :=
    do u <- sget ;;
    do l <- slift (need TypeError (sd_fan_speed (side_of m u))) ;;
    do l' <- slift (seti l i (Some k)) ;;
    on_side m (ws_fan_speed (Some l')).
  Definition put_rated_fan_speed (m : mode) (i k : nat) : st U unit :=
    do u <- sget ;;
    do l <- slift (need TypeError (sd_rated_fan_speed (side_of m u))) ;;
    do l' <- slift (seti l i (Some k)) ;;
    on_side m (ws_rated_fan_speed (Some l')).

  (** Keyword arguments: base_model.py:27-31. *)
  Definition get_kwarg_value (k : string) (kw : list (string * kwval T)) : kwval T :=
    match List.find (fun x => String.eqb k (fst x)) kw with
    | Some x => snd x
    | None => KNone
    end.
End Common.

(** What a subclass of DXModel provides (base_model.py).  The performance methods
    are functions of the unit and the conditions. *)
Record dxmodel (T : Type) := mkModel {
  md_allowed : list string;                                (* allowed_kwargs *)
  md_process : list (string * kwval T) -> res (resnet_data T);  (* process_kwargs *)
  md_gtc : dxunit T -> cond T -> res T;   (* gross_total_cooling_capacity *)
  md_gcp : dxunit T -> cond T -> res T;   (* gross_cooling_power *)
  md_gsc : dxunit T -> cond T -> res T;   (* gross_sensible_cooling_capacity *)
  md_shr : dxunit T -> cond T -> res T;   (* gross_shr *)
  md_ghc : dxunit T -> cond T -> res T;   (* gross_steady_state_heating_capacity *)
  md_ghp : dxunit T -> cond T -> res T;   (* gross_steady_state_heating_power *)
  md_gihc : dxunit T -> cond T -> res T;  (* gross_integrated_heating_capacity *)
  md_gihp : dxunit T -> cond T -> res T;  (* gross_integrated_heating_power *)
  md_f_gtc : dxunit T -> cond T -> res T; (* ..._charge_factor *)
  md_f_gcp : dxunit T -> cond T -> res T;
  md_f_ghc : dxunit T -> cond T -> res T;
  md_f_ghp : dxunit T -> cond T -> res T;
  md_cd_cooling : T;                      (* default of set_c_d_cooling *)
  md_cd_heating : T;
  md_set_net_capacities_and_fan :
    num_or_list T -> option (num_or_list T) -> option (fan T) -> st (dxunit T) unit;
  md_set_net_cop : mode -> num_or_list T -> st (dxunit T) unit;
                                          (* set_rated_net_cooling/heating_cop *)
  md_set_gross_cop : mode -> num_or_list T -> st (dxunit T) unit
}.
Arguments mkModel {T}.
Arguments md_allowed {T}. Arguments md_process {T}. Arguments md_gtc {T}.
Arguments md_gcp {T}. Arguments md_gsc {T}. Arguments md_shr {T}.
Arguments md_ghc {T}. Arguments md_ghp {T}. Arguments md_gihc {T}.
Arguments md_gihp {T}. Arguments md_f_gtc {T}. Arguments md_f_gcp {T}.
Arguments md_f_ghc {T}. Arguments md_f_ghp {T}. Arguments md_cd_cooling {T}.
Arguments md_cd_heating {T}. Arguments md_set_net_capacities_and_fan {T}.
Arguments md_set_net_cop {T}. Arguments md_set_gross_cop {T}.
