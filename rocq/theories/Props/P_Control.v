(** Property C109: what the defrost control settings decide (defrost.py:23-71,
    dx_unit.py:1080-1376, nrel.py:171-205). *)
From Coq Require Import Reals List.
From Verif.Base Require Import Num Res.
From Verif.Model Require Import Units Psychrometrics Conditions Defrost Fan Unit NREL BaseModel Title24 Resnet DXUnit.
From Verif.Spec Require Import UnitModels ControlSpec.
From Verif.Props Require Import P_Psych.
From Verif.Proofs Require Import ToyUnit ToyBuild ToySeason ToySeason2 Control ControlExample.
Import ListNotations.
Local Open Scope R_scope.

(** Demand control multiplies the HSPF by the credit; with a longest time of 90 minutes it
    raises. *)
Theorem C109_hspf : forall psy sol M (u : dxunit R) region k p0 l0 p l v, not_nrel psy sol M ->
  k <> DCDemand -> hspf sol M (controlled k p0 l0 u) region = Ok v ->
  (l <> 5400 -> hspf sol M (controlled DCDemand p l u) region = Ok (v * credit_of (p / 60) (l / 60)))
  /\ (l = 5400 -> hspf sol M (controlled DCDemand p l u) region = Err ZeroDivisionError).
Proof. exact demand_hspf. Qed.
Print Assumptions C109_hspf.

(** So it raises the rating by up to 3 percent, by that if the period is at most 90 minutes. *)
Theorem C109_at_most_three_percent : forall psy sol M (u : dxunit R) region k p0 l0 p l v v',
  not_nrel psy sol M ->
  k <> DCDemand -> hspf sol M (controlled k p0 l0 u) region = Ok v -> 0 <= v ->
  hspf sol M (controlled DCDemand p l u) region = Ok v' ->
  5400 < l -> p <= l -> p <= 43200 -> v <= v' <= 1.03 * v /\ (p <= 5400 -> v' = 1.03 * v).
Proof. exact demand_hspf_range. Qed.
Print Assumptions C109_at_most_three_percent.

(** Without demand control the two times decide nothing. *)
Theorem C109_times : forall psy sol M (u : dxunit R) region k p l p' l', library_model psy sol M ->
  k <> DCDemand -> hspf sol M (controlled k p l u) region = hspf sol M (controlled k p' l' u) region.
Proof. exact periods_unused. Qed.
Print Assumptions C109_times.

(** Cooling knows nothing of them. *)
Theorem C109_cooling : forall psy sol M (u : dxunit R) k p l, library_model psy sol M ->
  seer sol M (controlled k p l u) = seer sol M u
  /\ (forall oc, eer sol M (controlled k p l u) oc = eer sol M u oc)
  /\ (forall oc, net_total_cooling_capacity sol M (controlled k p l u) oc
                 = net_total_cooling_capacity sol M u oc)
  /\ (forall oc, net_cooling_power sol M (controlled k p l u) oc = net_cooling_power sol M u oc).
Proof. exact cooling_unaffected. Qed.
Print Assumptions C109_cooling.

(** A 10 kW unit with the usual timed defrost has a rating, 3 percent more with demand control. *)
Example C109_case : exists u v,
  unit_of SINGLE_STAGE AHRI_210_240_2023 [10000] [9000] 4 4 u
  /\ not_nrel lin_psy lin_sol ConstantDXModel
  /\ u = controlled DCTimed 5400 43200 u
  /\ hspf lin_sol ConstantDXModel u 4 = Ok v /\ 0 < v
  /\ hspf lin_sol ConstantDXModel (controlled DCDemand 5400 43200 u) 4 = Ok (1.03 * v).
Proof. exact timed_case. Qed.

(** With the NREL model, in dry air, demand control gives less heat than timed control. *)
Theorem C109_nrel_demand_gives_more_refuted : forall psy sol (u : dxunit R) c t x s p l p' l' q q',
  let M := NRELDXModel psy sol in
  in_defrost (u_defrost u) c = true -> df_time_fraction (u_defrost u) c = Ok t -> 0 <= t < 1 ->
  coil_diff_outdoor_air_humidity psy c = Ok x -> x <= 0.0003 ->
  gross_steady_state_heating_capacity M u (Some c) = Ok s -> 0 < s ->
  gross_integrated_heating_capacity M (controlled DCDemand p l u) (Some c) = Ok q ->
  gross_integrated_heating_capacity M (controlled DCTimed p' l' u) (Some c) = Ok q' -> q < q'.
Proof. exact nrel_dry. Qed.
Print Assumptions C109_nrel_demand_gives_more_refuted.

Example C109_nrel_case : forall sol, let u := toy_unit 0 (toy_defrost DCDemand DSResistive) in
  let c := toy_cond 294 289 270 1 in let M := NRELDXModel toy_psy sol in
  in_defrost (u_defrost u) c = true
  /\ (exists t, df_time_fraction (u_defrost u) c = Ok t /\ 0 <= t < 1)
  /\ (exists x, coil_diff_outdoor_air_humidity toy_psy c = Ok x /\ x <= 0.0003)
  /\ (exists s, gross_steady_state_heating_capacity M u (Some c) = Ok s /\ 0 < s)
  /\ (exists q, gross_integrated_heating_capacity M (controlled DCDemand 5400 43200 u) (Some c) = Ok q)
  /\ exists q, gross_integrated_heating_capacity M (controlled DCTimed 5400 43200 u) (Some c) = Ok q.
Proof. exact nrel_dry_case. Qed.
