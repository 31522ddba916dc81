(** Property C110: what the ratings depend on (dx_unit.py:678-920, 978-1376). *)
From Coq Require Import Reals List.
From Verif.Base Require Import Num Res.
From Verif.Model Require Import Units Psychrometrics Conditions Defrost Fan Unit NREL BaseModel Title24 Resnet DXUnit.
From Verif.Spec Require Import UnitModels AgreeSpec.
From Verif.Proofs Require Import ToyBuild ToySeason ToySeason2 Agree AgreeExample.
Import ListNotations.
Local Open Scope R_scope.

(** Cooling ratings and performance. *)
Theorem C110_cooling : forall psy sol M (u u' : dxunit R), library_model psy sol M -> cooling_alike u u' ->
  (M = Title24DXModel sol -> u_kwargs u' = u_kwargs u /\ u_seer u' = u_seer u) ->
  seer sol M u' = seer sol M u
  /\ forall oc,
     eer sol M u' oc = eer sol M u oc
     /\ gross_total_cooling_capacity M u' oc = gross_total_cooling_capacity M u oc
     /\ gross_cooling_power M u' oc = gross_cooling_power M u oc
     /\ gross_sensible_cooling_capacity M u' oc = gross_sensible_cooling_capacity M u oc
     /\ net_total_cooling_capacity sol M u' oc = net_total_cooling_capacity sol M u oc
     /\ net_cooling_power sol M u' oc = net_cooling_power sol M u oc.
Proof. exact cooling_depends. Qed.
Print Assumptions C110_cooling.

Example C110_cooling_case : exists u v,
  unit_of SINGLE_STAGE AHRI_210_240_2023 [10000] [9000] 4 4 u
  /\ seer lin_sol ConstantDXModel u = Ok v
  /\ forall x, cooling_alike u (resettled Cooling x u)
       /\ (x <> u_cooling_off u -> resettled Cooling x u <> u).
Proof. exact cooling_alike_case. Qed.

(** Heating ratings and performance.  Under AHRI 210/240-2023 hspf() also depends on the net
    cooling capacity, which decides the load. *)
Theorem C110_heating : forall psy sol M (u u' : dxunit R), library_model psy sol M -> heating_alike u u' ->
  (M = Title24DXModel sol -> u_kwargs u' = u_kwargs u /\ u_hspf u' = u_hspf u) ->
  (u_standard u = AHRI_210_240_2017
   \/ net_total_cooling_capacity sol M u' None = net_total_cooling_capacity sol M u None ->
   forall region, hspf sol M u' region = hspf sol M u region)
  /\ forall oc,
     gross_steady_state_heating_capacity M u' oc = gross_steady_state_heating_capacity M u oc
     /\ gross_steady_state_heating_power M u' oc = gross_steady_state_heating_power M u oc
     /\ gross_integrated_heating_capacity M u' oc = gross_integrated_heating_capacity M u oc
     /\ gross_integrated_heating_power M u' oc = gross_integrated_heating_power M u oc
     /\ net_steady_state_heating_capacity sol M u' oc = net_steady_state_heating_capacity sol M u oc
     /\ net_steady_state_heating_power sol M u' oc = net_steady_state_heating_power sol M u oc
     /\ net_integrated_heating_capacity sol M u' oc = net_integrated_heating_capacity sol M u oc
     /\ net_integrated_heating_power sol M u' oc = net_integrated_heating_power sol M u oc.
Proof. exact heating_depends. Qed.
Print Assumptions C110_heating.

Example C110_heating_case : exists u v,
  unit_of SINGLE_STAGE AHRI_210_240_2023 [10000] [9000] 4 4 u
  /\ hspf lin_sol ConstantDXModel u 4 = Ok v
  /\ forall x, heating_alike u (resettled Heating x u)
       /\ net_total_cooling_capacity lin_sol ConstantDXModel (resettled Heating x u) None
          = net_total_cooling_capacity lin_sol ConstantDXModel u None
       /\ (x <> sd_cd (u_c u) -> resettled Heating x u <> u).
Proof. exact heating_alike_case. Qed.
