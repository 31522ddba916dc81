(** Property C105: what a wrong refrigerant charge does (nrel.py:302-405,
    unified_resnet.py:140-154), at rated airflow, for the NREL and RESNET models. *)
From Coq Require Import String Reals Lra List.
From Verif.Base Require Import Num Res Tac.
From Verif.Model Require Import Units Psychrometrics Conditions Defrost Fan Unit NREL BaseModel Resnet DXUnit.
From Verif.Spec Require Import ChargeSpec.
From Verif.Props Require Import P_Psych.
From Verif.Proofs Require Import ToyUnit Charge ChargeExample.
Import ListNotations.
Local Open Scope R_scope.

(** Undercharged, in cooling: less capacity, less power, lower COP, with the fan and
    without. *)
Theorem C105_undercharged_cooling : forall psy sol M f (u : dxunit R) c,
  M = NRELDXModel psy sol \/ M = RESNETDXModel psy sol ->
  weather c 25 30 18 50 -> -0.5 <= f < 0 ->
  (forall q q0, gross_total_cooling_capacity M (charged f u) (Some c) = Ok q ->
     gross_total_cooling_capacity M (charged 0 u) (Some c) = Ok q0 -> 0 < q0 -> 0 < q < q0)
  /\ (forall p p0, gross_cooling_power M (charged f u) (Some c) = Ok p ->
     gross_cooling_power M (charged 0 u) (Some c) = Ok p0 -> 0 < p0 -> 0 < p < p0)
  /\ (forall n n0, gross_total_cooling_cop M (charged f u) (Some c) = Ok n ->
     gross_total_cooling_cop M (charged 0 u) (Some c) = Ok n0 -> n0 <> 0 -> n < n0)
  /\ (forall w q0 n n0, cooling_fan_power sol u (Some c) = Ok w -> 0 <= w ->
     gross_total_cooling_capacity M (charged 0 u) (Some c) = Ok q0 -> 0 < q0 ->
     net_total_cooling_cop sol M (charged f u) (Some c) = Ok n ->
     net_total_cooling_cop sol M (charged 0 u) (Some c) = Ok n0 -> n < n0).
Proof. exact under_cooling_effect. Qed.
Print Assumptions C105_undercharged_cooling.

(** Overcharged by a tenth or more, in cooling: more capacity for more power, at a lower COP. *)
Theorem C105_overcharged_cooling : forall psy sol M f (u : dxunit R) c,
  M = NRELDXModel psy sol \/ M = RESNETDXModel psy sol ->
  weather c 25 27 18 50 -> 0.1 <= f <= 0.5 ->
  (forall q q0, gross_total_cooling_capacity M (charged f u) (Some c) = Ok q ->
     gross_total_cooling_capacity M (charged 0 u) (Some c) = Ok q0 -> 0 < q0 -> q0 < q)
  /\ (forall p p0, gross_cooling_power M (charged f u) (Some c) = Ok p ->
     gross_cooling_power M (charged 0 u) (Some c) = Ok p0 -> 0 < p0 -> p0 < p)
  /\ (forall n n0, gross_total_cooling_cop M (charged f u) (Some c) = Ok n ->
     gross_total_cooling_cop M (charged 0 u) (Some c) = Ok n0 -> n0 <> 0 -> n < n0).
Proof. exact over_cooling_effect. Qed.
Print Assumptions C105_overcharged_cooling.

(** Undercharged, in heating at 8 to 20 C outdoors. *)
Theorem C105_undercharged_heating : forall psy sol M f (u : dxunit R) c,
  M = NRELDXModel psy sol \/ M = RESNETDXModel psy sol -> forall q0 p0,
  c_mass_airflow_ratio c = Some 1 -> 8 <= ps_db (c_outdoor c) - 273.15 <= 20 -> -0.4 <= f < 0 ->
  gross_steady_state_heating_capacity M (charged 0 u) (Some c) = Ok q0 -> 0 < q0 ->
  gross_steady_state_heating_power M (charged 0 u) (Some c) = Ok p0 -> 0 < p0 ->
  (forall q, gross_steady_state_heating_capacity M (charged f u) (Some c) = Ok q -> 0 < q < q0)
  /\ (forall p, gross_steady_state_heating_power M (charged f u) (Some c) = Ok p -> 0 < p < p0)
  /\ (forall n n0, gross_steady_state_heating_cop M (charged f u) (Some c) = Ok n ->
     gross_steady_state_heating_cop M (charged 0 u) (Some c) = Ok n0 -> n < n0)
  /\ (forall w n n0, heating_fan_power sol u (Some c) = Ok w -> 0 <= w -> p0 <= q0 ->
     net_steady_state_heating_cop sol M (charged f u) (Some c) = Ok n ->
     net_steady_state_heating_cop sol M (charged 0 u) (Some c) = Ok n0 -> n < n0).
Proof. exact under_heating_effect. Qed.
Print Assumptions C105_undercharged_heating.

(** Overcharged, in heating at 8 to 20 C outdoors. *)
Theorem C105_overcharged_heating : forall psy sol M f (u : dxunit R) c,
  M = NRELDXModel psy sol \/ M = RESNETDXModel psy sol -> forall q0 p0,
  c_mass_airflow_ratio c = Some 1 -> 8 <= ps_db (c_outdoor c) - 273.15 <= 20 -> 0 < f <= 0.5 ->
  gross_steady_state_heating_capacity M (charged 0 u) (Some c) = Ok q0 -> 0 < q0 ->
  gross_steady_state_heating_power M (charged 0 u) (Some c) = Ok p0 -> 0 < p0 ->
  (forall p, gross_steady_state_heating_power M (charged f u) (Some c) = Ok p -> p0 < p)
  /\ (forall n n0, gross_steady_state_heating_cop M (charged f u) (Some c) = Ok n ->
     gross_steady_state_heating_cop M (charged 0 u) (Some c) = Ok n0 -> n < n0).
Proof. exact over_heating_effect. Qed.
Print Assumptions C105_overcharged_heating.

(** Expected but false in severe cold: that the right charge is best. From -30 to -15 C
    every unit gains capacity and efficiency by losing up to a tenth of its charge. *)
Theorem C105_cold_undercharged : forall psy sol M f (u : dxunit R) c,
  M = NRELDXModel psy sol \/ M = RESNETDXModel psy sol -> forall q0 p0,
  c_mass_airflow_ratio c = Some 1 -> -30 <= ps_db (c_outdoor c) - 273.15 <= -15 -> -0.1 <= f < 0 ->
  gross_steady_state_heating_capacity M (charged 0 u) (Some c) = Ok q0 -> 0 < q0 ->
  gross_steady_state_heating_power M (charged 0 u) (Some c) = Ok p0 -> 0 < p0 ->
  (forall q, gross_steady_state_heating_capacity M (charged f u) (Some c) = Ok q -> q0 < q)
  /\ (forall n n0, gross_steady_state_heating_cop M (charged f u) (Some c) = Ok n ->
     gross_steady_state_heating_cop M (charged 0 u) (Some c) = Ok n0 -> n0 < n).
Proof. exact cold_heating_effect. Qed.
Print Assumptions C105_cold_undercharged.

Theorem C105_right_charge_best_refuted : ~ (forall psy sol f (u : dxunit R) c n n0,
  c_mass_airflow_ratio c = Some 1 ->
  gross_steady_state_heating_cop (RESNETDXModel psy sol) (charged f u) (Some c) = Ok n ->
  gross_steady_state_heating_cop (RESNETDXModel psy sol) (charged 0 u) (Some c) = Ok n0 -> n <= n0).
Proof. exact right_charge_best_false. Qed.
Print Assumptions C105_right_charge_best_refuted.

(** The values compared exist: a 10 kW unit with up to a quarter too much or too little
    charge, in cooling, and in heating on mild and on cold days. *)
Example C105_cooling_case : forall sol f, -0.25 <= f <= 0.25 ->
  let c := toy_cond 300 292 308 1 in
  let M := RESNETDXModel toy_psy sol in
  let u := charged f plain_unit in
  weather c 25 27 18 50
  /\ cooling_fan_power sol u (Some c) = Ok 300
  /\ exists q p, gross_total_cooling_capacity M u (Some c) = Ok q /\ 300 < q
     /\ gross_cooling_power M u (Some c) = Ok p /\ 0 < p.
Proof. exact cooling_example. Qed.
Example C105_heating_case : forall sol t f, -0.25 <= f <= 0.25 -> 255 <= t <= 290 ->
  let c := toy_cond 294 289 t 1 in
  let M := RESNETDXModel toy_psy sol in
  let u := charged f plain_unit in
  c_mass_airflow_ratio c = Some 1 /\ ps_db (c_outdoor c) = t
  /\ heating_fan_power sol u (Some c) = Ok 300
  /\ exists q p, gross_steady_state_heating_capacity M u (Some c) = Ok q
     /\ gross_steady_state_heating_power M u (Some c) = Ok p /\ 0 < p <= q.
Proof. exact heating_example. Qed.
