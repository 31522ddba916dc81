(** Property C103: what the fan does to efficiency (dx_unit.py:680-757,
    978-1068), for every model. *)
From Coq Require Import String Reals Lra List.
From Verif.Base Require Import Num Res Tac.
From Verif.Model Require Import Units Psychrometrics Conditions Defrost Fan Unit BaseModel DXUnit.
From Verif.Proofs Require Import ToyUnit FanCost.
Import ListNotations.
Local Open Scope R_scope.

(** In cooling the fan lowers both COPs. *)
Theorem C103_cooling : forall sol M (u : dxunit R) k w,
  cooling_fan_power sol u k = Ok w -> 0 <= w ->
  (forall g n, gross_total_cooling_cop M u k = Ok g -> net_total_cooling_cop sol M u k = Ok n ->
     n <= g /\ (0 < w -> n < g))
  /\ (forall g n, gross_sensible_cooling_cop M u k = Ok g -> net_sensible_cooling_cop sol M u k = Ok n ->
     n <= g /\ (0 < w -> n < g)).
Proof. exact cooling_cost. Qed.
Print Assumptions C103_cooling.

(** It also lowers the sensible heat ratio, which leaves the coil at most 1. *)
Theorem C103_sensible_heat_ratio : forall sol M (u : dxunit R) k w q r x,
  cooling_fan_power sol u k = Ok w -> 0 <= w -> gross_total_cooling_capacity M u k = Ok q -> w < q ->
  gross_shr M u k = Ok r -> net_shr sol M u k = Ok x ->
  x <= r <= 1 /\ (0 < w -> r < 1 -> x < r) /\ (r = 1 -> x = 1).
Proof. exact shr_cost. Qed.
Print Assumptions C103_sensible_heat_ratio.

(** In heating it moves the COP towards 1, with frost and without. *)
Theorem C103_heating : forall sol M (u : dxunit R) k w,
  heating_fan_power sol u k = Ok w -> 0 <= w ->
  (forall p g n, gross_steady_state_heating_power M u k = Ok p -> 0 < p ->
     gross_steady_state_heating_cop M u k = Ok g -> net_steady_state_heating_cop sol M u k = Ok n ->
     Rmin g 1 <= n <= Rmax g 1 /\ (0 < w -> g <> 1 -> n <> g))
  /\ (forall p g n, gross_integrated_heating_power M u k = Ok p -> 0 < p ->
     gross_integrated_heating_cop M u k = Ok g -> net_integrated_heating_cop sol M u k = Ok n ->
     Rmin g 1 <= n <= Rmax g 1 /\ (0 < w -> g <> 1 -> n <> g)).
Proof. exact heating_cost. Qed.
Print Assumptions C103_heating.

(** So the fan need not lower the heating COP. *)
Theorem C103_heating_lower_refuted : ~ (forall sol M (u : dxunit R) k w g n,
  heating_fan_power sol u k = Ok w -> 0 < w ->
  gross_steady_state_heating_cop M u k = Ok g -> net_steady_state_heating_cop sol M u k = Ok n -> n <= g).
Proof. exact heating_lower_false. Qed.
Print Assumptions C103_heating_lower_refuted.

(** Of two units alike but for the fan, the one with the larger fan power has
    the lower net cooling COP. *)
Theorem C103_larger_fan : forall sol M (u u' : dxunit R) k k' w w' n n',
  cooling_fan_power sol u k = Ok w -> cooling_fan_power sol u' k' = Ok w' -> 0 <= w -> w < w' ->
  gross_total_cooling_capacity M u' k' = gross_total_cooling_capacity M u k ->
  gross_cooling_power M u' k' = gross_cooling_power M u k ->
  (forall p, gross_cooling_power M u k = Ok p -> 0 < p) ->
  net_total_cooling_cop sol M u k = Ok n -> net_total_cooling_cop sol M u' k' = Ok n' -> n' < n.
Proof. exact larger_fan. Qed.
Print Assumptions C103_larger_fan.

(** The hypotheses hold: 10.3 kW of cooling for 2.2 kW, a fan of 300 W and one
    of 600 W. *)
Example C103_powers : forall sol,
  let u := toy_unit 0 (toy_defrost DCTimed DSReverseCycle) in
  let k := Some (toy_cond 300 292 308 1) in
  let M := ConstantDXModel in
  cooling_fan_power sol u k = Ok 300 /\ heating_fan_power sol u k = Ok 300
  /\ cooling_fan_power sol hungry_unit k = Ok 600
  /\ gross_total_cooling_capacity M u k = Ok 10300 /\ gross_cooling_power M u k = Ok 2200
  /\ gross_total_cooling_capacity M hungry_unit k = Ok 10300 /\ gross_cooling_power M hungry_unit k = Ok 2200
  /\ gross_sensible_cooling_capacity M u k = Ok 7210
  /\ gross_steady_state_heating_capacity M u k = Ok 9700 /\ gross_steady_state_heating_power M u k = Ok 2200.
Proof. exact toy_fan_cost. Qed.

Example C103_cops : forall sol,
  let u := toy_unit 0 (toy_defrost DCTimed DSReverseCycle) in
  let k := Some (toy_cond 300 292 308 1) in
  let M := ConstantDXModel in
  gross_total_cooling_cop M u k = Ok (103 / 22) /\ net_total_cooling_cop sol M u k = Ok 4
  /\ net_total_cooling_cop sol M hungry_unit k = Ok (97 / 28)
  /\ gross_shr M u k = Ok 0.7 /\ net_shr sol M u k = Ok 0.691
  /\ gross_steady_state_heating_cop M u k = Ok (97 / 22) /\ net_steady_state_heating_cop sol M u k = Ok 4.
Proof. exact toy_fan_cops. Qed.

(** A heat pump drawing 2 kW for 1 kW of heat, with a fan of 300 W. *)
Example C103_poor_heating : forall sol,
  let k := Some (toy_cond 294 289 270 1) in
  heating_fan_power sol poor_unit k = Ok 300
  /\ gross_steady_state_heating_cop ConstantDXModel poor_unit k = Ok (1 / 2)
  /\ net_steady_state_heating_cop sol ConstantDXModel poor_unit k = Ok (13 / 23).
Proof. exact poor_heating. Qed.
