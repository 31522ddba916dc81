(** Properties C28-C31: NREL curves, refrigerant charge and EPRI defrost
    (nrel.py). *)
From Coq Require Import Reals Lra List.
From Verif.Base Require Import Num Res Tac.
From Verif.Model Require Import Units Psychrometrics Conditions Defrost Fan Tabular Unit
  NREL Resnet.
From Verif.Spec Require Import NrelSpec DefrostSpec.
From Verif.Proofs Require Import DefrostProofs NrelProofs NrelProofs2 ToyUnit CutIn.
From Verif.Props Require Import P_Psych.
Import ListNotations.
Local Open Scope R_scope.

(** * C28 *)
Theorem C28_flow_curves_are_one_at_rated_airflow :
  cool_cap_flow 1 = 1 /\ cool_eir_flow 1 = 1 /\ heat_cap_flow 1 = 1 /\ heat_eir_flow 1 = 1.
Proof. exact flow_one. Qed.
Print Assumptions C28_flow_curves_are_one_at_rated_airflow.

Theorem C28_cooling_capacity_separates_flow_and_temperature : forall u c w r q,
  ps_wb (c_indoor c) = Some w -> c_mass_airflow_ratio c = Some r ->
  entry (sd_gross_cap (u_c u)) (c_speed c) q ->
  nrel_gross_total_cooling_capacity u c
  = Ok (cool_cap_flow r * (cool_cap_T (curve_wb w) (curve_odb (ps_db (c_outdoor c))) * q)).
Proof. exact gtc_eq. Qed.
Print Assumptions C28_cooling_capacity_separates_flow_and_temperature.

Theorem C28_cooling_power_at_rated_airflow : forall u c w q cop,
  ps_wb (c_indoor c) = Some w -> c_mass_airflow_ratio c = Some 1 ->
  entry (sd_gross_cap (u_c u)) (c_speed c) q ->
  entry (sd_gross_cop (u_c u)) (c_speed c) cop -> cop <> 0 ->
  let p := cool_eir_T (curve_wb w) (curve_odb (ps_db (c_outdoor c)))
           * cool_cap_T (curve_wb w) (curve_odb (ps_db (c_outdoor c))) * (q / cop) in
  (0 <= p -> nrel_gross_cooling_power u c = Ok p)
  /\ (p < 0 -> nrel_gross_cooling_power u c = Err PyException).
Proof. exact gcp_rated. Qed.
Print Assumptions C28_cooling_power_at_rated_airflow.

Theorem C28_heating_capacity_separates_flow_and_temperature : forall u c r q,
  c_mass_airflow_ratio c = Some r ->
  entry (sd_gross_cap (u_h u)) (c_speed c) q ->
  nrel_gross_heating_capacity u c
  = Ok (heat_cap_flow r * (heat_cap_T (degF (ps_db (c_indoor c))) (degF (ps_db (c_outdoor c)))
                           * q)).
Proof. exact ghc_eq. Qed.
Print Assumptions C28_heating_capacity_separates_flow_and_temperature.

Theorem C28_heating_power_at_rated_airflow : forall u c q cop,
  c_mass_airflow_ratio c = Some 1 ->
  entry (sd_gross_cap (u_h u)) (c_speed c) q ->
  entry (sd_gross_cop (u_h u)) (c_speed c) cop -> cop <> 0 ->
  let idb := degF (ps_db (c_indoor c)) in
  let odb := degF (ps_db (c_outdoor c)) in
  nrel_gross_heating_power u c = Ok (heat_eir_T idb odb * heat_cap_T idb odb * (q / cop)).
Proof. exact ghp_rated. Qed.
Print Assumptions C28_heating_power_at_rated_airflow.

Example C28_nonvacuous :
  let u := toy_unit 0 (toy_defrost DCTimed DSReverseCycle) in
  let c := toy_cond 300 292 308 1 in
  ps_wb (c_indoor c) = Some 292 /\ c_mass_airflow_ratio c = Some 1
  /\ entry (sd_gross_cap (u_c u)) (c_speed c) 10300
  /\ entry (sd_gross_cop (u_c u)) (c_speed c) (103 / 22)
  /\ entry (sd_gross_cap (u_h u)) (c_speed c) 9700.
Proof. repeat split. Qed.

(** * C29 *)
Theorem C29_only_clamped_temperatures_matter : forall u c c' w w',
  ps_wb (c_indoor c) = Some w -> ps_wb (c_indoor c') = Some w' ->
  curve_wb w = curve_wb w' ->
  curve_odb (ps_db (c_outdoor c)) = curve_odb (ps_db (c_outdoor c')) ->
  c_speed c = c_speed c' -> c_mass_airflow_ratio c = c_mass_airflow_ratio c' ->
  nrel_gross_total_cooling_capacity u c = nrel_gross_total_cooling_capacity u c'
  /\ nrel_gross_cooling_power u c = nrel_gross_cooling_power u c'.
Proof. exact clamped_equal. Qed.
Print Assumptions C29_only_clamped_temperatures_matter.

Theorem C29_capacity_monotone_in_wet_bulb_mild : forall u c c' w w' r q v v',
  ps_wb (c_indoor c) = Some w -> ps_wb (c_indoor c') = Some w' ->
  c_mass_airflow_ratio c = Some r -> c_mass_airflow_ratio c' = Some r ->
  c_speed c = c_speed c' -> ps_db (c_outdoor c) = ps_db (c_outdoor c') ->
  entry (sd_gross_cap (u_c u)) (c_speed c) q -> 0 <= q -> 0 <= cool_cap_flow r ->
  (degF (ps_db (c_outdoor c)) <= 81
   \/ 61 <= degF w /\ degF (ps_db (c_outdoor c)) <= 135) ->
  w <= w' ->
  nrel_gross_total_cooling_capacity u c = Ok v ->
  nrel_gross_total_cooling_capacity u c' = Ok v' -> v <= v'.
Proof. exact gtc_mono_mild. Qed.
Print Assumptions C29_capacity_monotone_in_wet_bulb_mild.

(** At the rated outdoor temperature of 95 F a higher wet bulb can give a lower
    capacity, for every unit. *)
Theorem C29_capacity_monotone_in_wet_bulb_refuted : forall u c c' q,
  ps_wb (c_indoor c) = Some (fr_F 57) -> ps_wb (c_indoor c') = Some (fr_F 57.5) ->
  ps_db (c_outdoor c) = fr_F 95 -> ps_db (c_outdoor c') = fr_F 95 ->
  c_mass_airflow_ratio c = Some 1 -> c_mass_airflow_ratio c' = Some 1 ->
  c_speed c = c_speed c' ->
  entry (sd_gross_cap (u_c u)) (c_speed c) q -> 0 < q ->
  exists v v', nrel_gross_total_cooling_capacity u c = Ok v
    /\ nrel_gross_total_cooling_capacity u c' = Ok v' /\ v' < v.
Proof. exact gtc_not_mono. Qed.
Print Assumptions C29_capacity_monotone_in_wet_bulb_refuted.

Example C29_nonvacuous :
  let c := toy_cond 300 (fr_F 50) (fr_F 60) 1 in
  let c' := toy_cond 300 (fr_F 55) (fr_F 74) 1 in
  ps_wb (c_indoor c) <> ps_wb (c_indoor c')
  /\ curve_wb (fr_F 50) = curve_wb (fr_F 55)
  /\ curve_odb (ps_db (c_outdoor c)) = curve_odb (ps_db (c_outdoor c')).
Proof. exact clamp_example. Qed.

(** * C30 *)
Theorem C30_no_deviation_no_correction : forall psy u c,
  u_charge u = 0 ->
  resnet_f_gtc psy u c = Ok 1 /\ resnet_f_gcp psy u c = Ok 1
  /\ resnet_f_ghc psy u c = Ok 1 /\ resnet_f_ghp psy u c = Ok 1.
Proof. exact charge_factors_zero. Qed.
Print Assumptions C30_no_deviation_no_correction.

Theorem C30_rated_airflow_charge_only : forall psy m capacity fn u c v,
  c_mass_airflow_ratio c = Some 1 ->
  resnet_grading_model psy m capacity fn u c = Ok v ->
  v = charge_only m capacity (degC (ps_db (c_indoor c))) (degC (ps_db (c_outdoor c)))
        (u_charge u).
Proof. exact grading_rated. Qed.
Print Assumptions C30_rated_airflow_charge_only.

Theorem C30_resnet_factors_at_rated_airflow : forall psy u c v,
  c_mass_airflow_ratio c = Some 1 ->
  let ti := degC (ps_db (c_indoor c)) in
  let to := degC (ps_db (c_outdoor c)) in
  (resnet_f_gtc psy u c = Ok v -> v = charge_only Cooling true ti to (u_charge u))
  /\ (resnet_f_gcp psy u c = Ok v -> v = charge_only Cooling false ti to (u_charge u))
  /\ (resnet_f_ghc psy u c = Ok v -> v = charge_only Heating true ti to (u_charge u))
  /\ (resnet_f_ghp psy u c = Ok v -> v = charge_only Heating false ti to (u_charge u)).
Proof. exact resnet_factors_rated. Qed.
Print Assumptions C30_resnet_factors_at_rated_airflow.

Example C30_nonvacuous : exists v,
  resnet_f_gtc toy_psy (toy_unit (-0.25) (toy_defrost DCTimed DSReverseCycle))
    (toy_cond 300 292 308 1) = Ok v.
Proof. exact charge_example. Qed.

(** * C31 *)
Theorem C31_time_fraction_between_0_and_1 : forall psy c t,
  epri_defrost_time_fraction (T:=R) psy c = Ok t -> 0 < t < 1.
Proof. exact epri_bounds. Qed.
Print Assumptions C31_time_fraction_between_0_and_1.

Theorem C31_integrated_capacity_at_most_steady : forall psy steady u c t s v,
  in_defrost (u_defrost u) c = true ->
  df_time_fraction (u_defrost u) c = Ok t -> 0 <= t <= 1 ->
  steady u c = Ok s -> 0 <= s ->
  (df_strategy (u_defrost u) = DSReverseCycle ->
   degC (ps_db (c_outdoor c)) <= 7.222
   /\ forall q, entry (sd_gross_cap (u_h u)) (c_speed c) q -> 0 <= q) ->
  nrel_gross_integrated_heating_capacity psy steady u c = Ok v -> v <= s.
Proof. exact integrated_le. Qed.
Print Assumptions C31_integrated_capacity_at_most_steady.

Theorem C31_integrated_capacity_positive : forall psy steady u c t s v,
  in_defrost (u_defrost u) c = true ->
  df_time_fraction (u_defrost u) c = Ok t -> 0 <= t < 1 ->
  steady u c = Ok s -> 0 < s ->
  df_strategy (u_defrost u) <> DSReverseCycle ->
  (forall x, coil_diff_outdoor_air_humidity psy c = Ok x -> x <= 0.0084) ->
  nrel_gross_integrated_heating_capacity psy steady u c = Ok v -> 0 < v.
Proof. exact integrated_pos. Qed.
Print Assumptions C31_integrated_capacity_positive.

Theorem C31_no_derate_outside_defrost : forall psy steady u c,
  in_defrost (u_defrost u) c = false ->
  nrel_gross_integrated_heating_capacity (T:=R) psy steady u c = steady u c
  /\ nrel_gross_integrated_heating_power psy steady u c = steady u c.
Proof. exact integrated_outside. Qed.
Print Assumptions C31_no_derate_outside_defrost.

(** The call of [get_cooling_cop60] lacks its argument. *)
Theorem C31_reverse_cycle_power_always_raises_refuted : forall psy steady u c v,
  in_defrost (u_defrost u) c = true -> df_strategy (u_defrost u) = DSReverseCycle ->
  nrel_gross_integrated_heating_power (T:=R) psy steady u c <> Ok v.
Proof. exact integrated_power_raises. Qed.
Print Assumptions C31_reverse_cycle_power_always_raises_refuted.

(** It is a TypeError as soon as the preceding steps succeed, whatever the psychrometrics and the
    steady-state power. *)
Theorem C31_reverse_cycle_power_type_error : forall psy steady u c t,
  in_defrost (u_defrost u) c = true -> df_strategy (u_defrost u) = DSReverseCycle ->
  df_time_fraction (u_defrost u) c = Ok t ->
  (df_control (u_defrost u) = DCTimed -> exists x, coil_diff_outdoor_air_humidity psy c = Ok x) ->
  nrel_gross_integrated_heating_power (T:=R) psy steady u c = Err TypeError.
Proof. exact reverse_cycle_error. Qed.
Print Assumptions C31_reverse_cycle_power_type_error.

Example C31_nonvacuous :
  let u := toy_unit 0 (toy_defrost DCDemand DSResistive) in
  let c := toy_cond 294 289 270 1 in
  (exists t, epri_defrost_time_fraction toy_psy c = Ok t)
  /\ in_defrost (u_defrost u) c = true
  /\ exists v, nrel_gross_integrated_heating_capacity toy_psy (fun _ _ => Ok 9000) u c = Ok v.
Proof. exact epri_example. Qed.
