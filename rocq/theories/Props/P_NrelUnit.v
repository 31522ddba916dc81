(** Further theorems about the NREL model: charge factors (C30), defrost power (C31) and default
    ratings (C93) (nrel.py). *)
From Coq Require Import Reals Lra List.
From Verif.Base Require Import Num Res Tac.
From Verif.Model Require Import Units Psychrometrics Conditions Defrost Fan Tabular Unit NREL Resnet DXUnit.
From Verif.Spec Require Import NrelSpec DefaultSpec NrelUnitSpec.
From Verif.Props Require Import P_Psych.
From Verif.Proofs Require Import NrelProofs2 NrelDefaults ToyUnit.
Import ListNotations.
Local Open Scope R_scope.

(** * C30, C31 *)
Theorem C30_nrel_factors_at_rated_airflow : forall psy sol u c v,
  c_mass_airflow_ratio c = Some 1 ->
  let M := NRELDXModel (T:=R) psy sol in
  let ti := degC (ps_db (c_indoor c)) in
  let to := degC (ps_db (c_outdoor c)) in
  (md_f_gtc M u c = Ok v -> v = charge_only Cooling true ti to (u_charge u))
  /\ (md_f_gcp M u c = Ok v -> v = charge_only Cooling false ti to (u_charge u))
  /\ (md_f_ghc M u c = Ok v -> v = charge_only Heating true ti to (u_charge u))
  /\ (md_f_ghp M u c = Ok v -> v = charge_only Heating false ti to (u_charge u)).
Proof. exact nrel_factors_rated. Qed.
Print Assumptions C30_nrel_factors_at_rated_airflow.

Example C30_nrel_nonvacuous : forall sol, exists v,
  md_f_gtc (NRELDXModel toy_psy sol) (toy_unit (-0.25) (toy_defrost DCTimed DSReverseCycle))
    (toy_cond 300 292 308 1) = Ok v.
Proof. exact (fun _ => charge_example). Qed.

(** Outside defrost an NREL unit delivers and draws what it does in steady state; *)
Theorem C31_nrel_outside_defrost : forall psy sol (u : dxunit R) c,
  in_defrost (u_defrost u) c = false ->
  let M := NRELDXModel psy sol in
  gross_integrated_heating_capacity M u (Some c) = gross_steady_state_heating_capacity M u (Some c)
  /\ gross_integrated_heating_power M u (Some c) = gross_steady_state_heating_power M u (Some c).
Proof. exact nrel_outside. Qed.
Print Assumptions C31_nrel_outside_defrost.

(** in it, with a resistive defroster on demand, less of both plus the heater for its time. *)
Theorem C31_nrel_resistive_defrost : forall psy sol (u : dxunit R) c t s p q r,
  in_defrost (u_defrost u) c = true -> df_strategy (u_defrost u) = DSResistive ->
  df_control (u_defrost u) = DCDemand ->
  df_time_fraction (u_defrost u) c = Ok t -> 0 <= t <= 1 ->
  let M := NRELDXModel psy sol in
  gross_steady_state_heating_capacity M u (Some c) = Ok q ->
  gross_steady_state_heating_power M u (Some c) = Ok s -> 0 <= s ->
  gross_integrated_heating_capacity M u (Some c) = Ok r ->
  gross_integrated_heating_power M u (Some c) = Ok p ->
  r = 0.875 * (1 - t) ^ 2 * q
  /\ p = 0.954 * (1 - t) ^ 2 * s + t * df_resistive_power (u_defrost u)
  /\ p <= (1 - t) * s + t * df_resistive_power (u_defrost u).
Proof. exact nrel_inside. Qed.
Print Assumptions C31_nrel_resistive_defrost.

Example C31_nrel_nonvacuous : forall sol,
  let u := toy_unit 0 (toy_defrost DCDemand DSResistive) in
  let c := toy_cond 294 289 270 1 in
  let M := NRELDXModel toy_psy sol in
  in_defrost (u_defrost u) c = true
  /\ (exists t, df_time_fraction (u_defrost u) c = Ok t /\ 0 <= t <= 1)
  /\ exists q s r p, gross_steady_state_heating_capacity M u (Some c) = Ok q
  /\ gross_steady_state_heating_power M u (Some c) = Ok s /\ 0 <= s
  /\ gross_integrated_heating_capacity M u (Some c) = Ok r
  /\ gross_integrated_heating_power M u (Some c) = Ok p.
Proof. exact nrel_defrost_case. Qed.

(** * C93 *)
(** Fan efficacies and airflows per capacity when no fan is given. *)
Theorem C93_fan_characteristics : forall u u' : dxunit R,
  nrel_set_rated_fan_characteristics false u = (u', Ok tt) -> forall m,
  sd_fan_efficacy (side_of m u') = repeat (per_cfm (watts_per_cfm (u_seer u))) (sd_n (side_of m u))
  /\ sd_n (side_of m u') = sd_n (side_of m u)
  /\ sd_flow_per_cap (side_of m u')
     = match nrel_flows m (sd_n (side_of m u)) with
       | Some l => Some (Many l)
       | None => sd_flow_per_cap (side_of m u)
       end.
Proof. exact characteristics. Qed.
Print Assumptions C93_fan_characteristics.

(** One cooling capacity given: two-speed units get a low speed with 72 % of the gross capacity. *)
Theorem C93_cooling_capacity : forall (u u' : dxunit R) x,
  nrel_set_rated_net_total_cooling_capacity (Scalar x) u = (u', Ok tt) ->
  u_h u' = u_h u /\
  (sd_n (u_c u) = 1%nat /\ sd_net_cap (u_c u') = [x]
  \/ sd_n (u_c u) = 2%nat /\ exists y e0 a0 e1 a1, sd_net_cap (u_c u') = [x; y]
    /\ fan_share (u_c u) 0 e0 a0 /\ fan_share (u_c u) 1 e1 a1
    /\ gross_with Cooling y e1 a1 = 0.72 * gross_with Cooling x e0 a0).
Proof. exact cooling_capacity. Qed.
Print Assumptions C93_cooling_capacity.

(** The same for heating, where the first cooling capacity is the default; nothing is set for
    three and more speeds. *)
Theorem C93_heating_capacity : forall (u u' : dxunit R) o,
  nrel_set_rated_net_heating_capacity o u = (u', Ok tt) ->
  forall x, (match o with Some v => v = Scalar x | None => nth_error (sd_net_cap (u_c u)) 0 = Some x end) ->
  u_c u' = u_c u /\
  (sd_n (u_h u) = 1%nat /\ sd_net_cap (u_h u') = [x]
  \/ (sd_n (u_h u) = 2%nat /\ exists y e0 a0 e1 a1, sd_net_cap (u_h u') = [x; y]
    /\ fan_share (u_h u) 0 e0 a0 /\ fan_share (u_h u) 1 e1 a1
    /\ gross_with Heating y e1 a1 = 0.72 * gross_with Heating x e0 a0)
  \/ sd_n (u_h u) <> 1%nat /\ sd_n (u_h u) <> 2%nat /\ u' = u).
Proof. exact heating_capacity. Qed.
Print Assumptions C93_heating_capacity.

(** The three together always succeed for a two-speed unit given one capacity. *)
Theorem C93_two_speed_defaults : forall (u : dxunit R) x,
  sd_n (u_c u) = 2%nat -> sd_n (u_h u) = 2%nat ->
  let e := per_cfm (watts_per_cfm (u_seer u)) in
  let fc := per_ton 344.1 in
  let fh := per_ton 352.2 in
  exists u' yc yh,
    (nrel_set_rated_fan_characteristics false ;;;
     nrel_set_rated_net_total_cooling_capacity (Scalar x) ;;;
     nrel_set_rated_net_heating_capacity None) u = (u', Ok tt)
    /\ sd_net_cap (u_c u') = [x; yc] /\ sd_net_cap (u_h u') = [x; yh]
    /\ gross_with Cooling yc e (0.86 * fc) = 0.72 * gross_with Cooling x e fc
    /\ gross_with Heating yh e (0.8 * fh) = 0.72 * gross_with Heating x e fh.
Proof. exact two_speed_defaults. Qed.
Print Assumptions C93_two_speed_defaults.

(** A unit with two speeds each, of SEER 14. *)
Example C93_nonvacuous : exists u : dxunit R,
  sd_n (u_c u) = 2%nat /\ sd_n (u_h u) = 2%nat /\ watts_per_cfm (u_seer u) = 0.25.
Proof. exact two_speed_case. Qed.
