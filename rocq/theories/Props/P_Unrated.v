(** Property C111: operating conditions whose rated airflow is not known yet. *)
From Coq Require Import Reals Lra List.
From Verif.Base Require Import Num Res Tac.
From Verif.Model Require Import Units Psychrometrics Conditions Fan Unit DXUnit.
From Verif.Spec Require Import CondSpec UnratedSpec.
From Verif.Proofs Require Import CondProofs Unrated.
From Verif.Props Require Import P_Psych P_Cond.
Import ListNotations.
Local Open Scope R_scope.

(** Whatever setters are called, the flows agree with each other, the ratio is the one set
    last, and nothing that needs the rated flow is made up. *)
Theorem C111_unrated : forall psy rho srho,
  rho <> 0 -> srho <> 0 -> std_rho psy = Ok srho ->
  forall calls o i s f e, rho_of psy i = Ok rho ->
  exists c, sfold (do_call psy) calls (OperatingConditions o i s f e) = (c, Ok tt)
    /\ c_mass_airflow_ratio c = last_ratio calls
    /\ c_standard_volumetric_airflow_per_capacity c = None
    /\ c_external_static_pressure c
       = match e, last_ratio calls with Some p, Some r => Some (p * r ^ 2) | _, _ => None end
    /\ (if existsb names_flow calls then flows_agree rho srho c else no_flows c)
    /\ same_setup (OperatingConditions o i s f e) c
    /\ (forall k, last (map Some calls) None = Some k -> call_honoured k c).
Proof. exact unrated_after. Qed.
Print Assumptions C111_unrated.

(** Without a rated flow or a ratio no net performance can be computed, with any model. *)
Theorem C111_no_net_performance : forall psy rho srho,
  rho <> 0 -> srho <> 0 -> std_rho psy = Ok srho ->
  forall calls o i s f e, rho_of psy i = Ok rho -> last_ratio calls = None ->
  exists c, sfold (do_call psy) calls (OperatingConditions o i s f e) = (c, Ok tt)
    /\ forall sol M (u : dxunit R), no_net_performance sol M u c.
Proof. exact unrated_no_net. Qed.
Print Assumptions C111_no_net_performance.

(** Giving the rated flow wipes out every trace of the airflow calls made before. *)
Theorem C111_rated_flow_forgets : forall psy rho srho,
  rho <> 0 -> srho <> 0 -> std_rho psy = Ok srho ->
  forall c c' rated cap p,
  same_setup c c' -> c_fan_speed c' = c_fan_speed c -> c_rated_esp c = Some p ->
  rho_of psy (c_indoor c) = Ok rho -> rated <> 0 -> cap <> 0 ->
  exists k, set_rated_volumetric_airflow psy rated cap c = (k, Ok tt)
    /\ set_rated_volumetric_airflow psy rated cap c' = (k, Ok tt).
Proof. exact rated_forgets. Qed.
Print Assumptions C111_rated_flow_forgets.

Example C111_nonvacuous :
  std_rho toy_psy = Ok 1.2
  /\ rho_of toy_psy (c_indoor (cond0 (Some 50))) = Ok 1.2
  /\ last_ratio [CallVolumetric 1; CallRatio 0.5; CallStandard 2] = Some 0.5
  /\ last_ratio [CallVolumetric 1; CallFanSpeed 1 2] = None
  /\ existsb names_flow [CallVolumetric 1; CallFanSpeed 1 2] = true.
Proof. repeat split; reflexivity. Qed.
