(** Property C100: the ratios of integrated to steady-state heating
    (dx_unit.py:1050-1068). *)
From Coq Require Import String Reals Lra List.
From Verif.Base Require Import Num Res Tac.
From Verif.Model Require Import Units Psychrometrics Conditions Defrost Fan Unit BaseModel Title24 Resnet DXUnit.
From Verif.Spec Require Import NrelSpec ModelSpec HeatRatioSpec.
From Verif.Proofs Require Import DefrostProofs ToyUnit HeatRatio HeatRatio2.
From Verif.Props Require Import P_Psych P_Models.
Import ListNotations.
Local Open Scope R_scope.

(** For every model, integrated COP times power ratio is steady COP times
    capacity ratio, with and without the fan. *)
Theorem C100_cop : forall sol M (u : dxunit R) k a b x y,
  (gross_heating_capacity_ratio M u k = Ok a -> gross_heating_power_ratio M u k = Ok b ->
   gross_integrated_heating_cop M u k = Ok x -> gross_steady_state_heating_cop M u k = Ok y -> x * b = y * a)
  /\ (net_heating_capacity_ratio sol M u k = Ok a -> net_heating_power_ratio sol M u k = Ok b ->
   net_integrated_heating_cop sol M u k = Ok x -> net_steady_state_heating_cop sol M u k = Ok y -> x * b = y * a).
Proof. exact cop_ratios. Qed.
Print Assumptions C100_cop.

(** The fan, which runs in both, draws a ratio towards 1 and never past it. *)
Theorem C100_net : forall sol M (u : dxunit R) k s p w a b,
  heating_fan_power sol u k = Ok w -> 0 <= w ->
  (gross_steady_state_heating_capacity M u k = Ok s -> 0 < s ->
   gross_heating_capacity_ratio M u k = Ok a -> net_heating_capacity_ratio sol M u k = Ok b ->
   Rmin a 1 <= b <= Rmax a 1 /\ (0 < w -> a <> 1 -> b <> a))
  /\ (gross_steady_state_heating_power M u k = Ok p -> 0 < p ->
   gross_heating_power_ratio M u k = Ok a -> net_heating_power_ratio sol M u k = Ok b ->
   Rmin a 1 <= b <= Rmax a 1 /\ (0 < w -> a <> 1 -> b <> a)).
Proof. exact net_ratios. Qed.
Print Assumptions C100_net.

(** The constant model never defrosts, the NREL model only in its window. *)
Theorem C100_constant : forall sol (u : dxunit R) k, all_ratios_one sol ConstantDXModel u k.
Proof. exact constant_ratios. Qed.
Print Assumptions C100_constant.

Theorem C100_nrel : forall psy sol (u : dxunit R) c,
  in_defrost (u_defrost u) c = false -> all_ratios_one sol (NRELDXModel psy sol) u (Some c).
Proof. exact nrel_ratios. Qed.
Print Assumptions C100_nrel.

Example C100_one_nonvacuous : exists r r' : R,
  gross_heating_capacity_ratio ConstantDXModel (toy_unit 0 (toy_defrost DCTimed DSReverseCycle))
    (Some (toy_cond 294 289 270 1)) = Ok r
  /\ in_defrost (toy_defrost DCTimed DSReverseCycle) (toy_cond 294 289 290 1) = false
  /\ forall sol, gross_heating_capacity_ratio (NRELDXModel toy_psy sol)
       (toy_unit 0 (toy_defrost DCTimed DSReverseCycle)) (Some (toy_cond 294 289 290 1)) = Ok r'.
Proof. exact one_case. Qed.

(** RESNET: capacity falls by 1.8 and power by 0.3 times the defrost fraction,
    so that defrost never improves the COP and costs at most 12.3 % of it. *)
Theorem C100_resnet : forall psy sol (u : dxunit R) c,
  let M := RESNETDXModel psy sol in
  let f := if in_defrost (u_defrost u) c then resnet_fraction (degF (ps_db (c_outdoor c))) else 0 in
  (forall a, gross_heating_capacity_ratio M u (Some c) = Ok a -> a = 1 - 1.8 * f)
  /\ (forall b, u_charge u = 0 -> gross_heating_power_ratio M u (Some c) = Ok b -> b = 1 - 0.3 * f)
  /\ (forall x y, u_charge u = 0 -> gross_integrated_heating_cop M u (Some c) = Ok x ->
      gross_steady_state_heating_cop M u (Some c) = Ok y -> 0 <= y ->
      0.877 * y <= x <= y /\ (f = 0 -> x = y) /\ (0 < f -> 0 < y -> x < y)).
Proof. exact resnet_ratios. Qed.
Print Assumptions C100_resnet.

Example C100_resnet_nonvacuous : forall sol,
  let u := toy_unit 0 (toy_defrost DCTimed DSReverseCycle) in
  let c := toy_cond 294 289 270 1 in
  let M := RESNETDXModel toy_psy sol in
  in_defrost (u_defrost u) c = true /\ u_charge u = 0
  /\ resnet_fraction (degF (ps_db (c_outdoor c))) = 0.05501
  /\ exists s p, gross_steady_state_heating_capacity M u (Some c) = Ok s /\ 0 < s
     /\ gross_steady_state_heating_power M u (Some c) = Ok p /\ 0 < p
     /\ heating_fan_power sol u (Some c) = Ok 300
     /\ (exists a, gross_heating_capacity_ratio M u (Some c) = Ok a)
     /\ (exists a, net_heating_capacity_ratio sol M u (Some c) = Ok a)
     /\ (exists a, gross_heating_power_ratio M u (Some c) = Ok a)
     /\ (exists a, net_heating_power_ratio sol M u (Some c) = Ok a)
     /\ (exists a, gross_integrated_heating_cop M u (Some c) = Ok a)
     /\ (exists a, gross_steady_state_heating_cop M u (Some c) = Ok a /\ 0 < a).
Proof. exact resnet_ratio_case. Qed.

(** Title 24: what defrost takes is proportional to the distance from 17 F up to 45 F. *)
Theorem C100_title24 : forall sol (u : dxunit R) c s v q17 q35 q47,
  let M := Title24DXModel sol in
  let t := degF (ps_db (c_outdoor c)) in
  gross_steady_state_heating_capacity M u (Some c) = Ok s ->
  gross_integrated_heating_capacity M u (Some c) = Ok v ->
  anchor17 u (c_speed c) q17 -> anchor35 u (c_speed c) q35 -> anchor47 u (c_speed c) q47 ->
  (in_defrost (u_defrost u) c = false \/ t <= 17 \/ 45 <= t -> v = s)
  /\ (in_defrost (u_defrost u) c = true -> 17 < t < 45 ->
      s - v = (t - 17) / (35 - 17) * (clear35 q17 q47 - q35)).
Proof. exact t24_loss. Qed.
Print Assumptions C100_title24.

(** Expected but false: it is largest in the frosting range around 35 F. With
    the default capacity at 35 F it grows with the temperature to the end of the
    window. *)
Theorem C100_title24_warm_refuted : forall sol (u : dxunit R) c c' s s' v v' q17 q47,
  let M := Title24DXModel sol in
  let t := degF (ps_db (c_outdoor c)) in
  let t' := degF (ps_db (c_outdoor c')) in
  not_supplied u "cap35" -> c_speed c' = c_speed c ->
  anchor17 u (c_speed c) q17 -> anchor47 u (c_speed c) q47 -> 0 < clear35 q17 q47 ->
  gross_steady_state_heating_capacity M u (Some c) = Ok s ->
  gross_integrated_heating_capacity M u (Some c) = Ok v ->
  gross_steady_state_heating_capacity M u (Some c') = Ok s' ->
  gross_integrated_heating_capacity M u (Some c') = Ok v' ->
  in_defrost (u_defrost u) c = true -> in_defrost (u_defrost u) c' = true ->
  17 < t -> t < t' -> t' < 45 ->
  s - v = (t - 17) / 180 * clear35 q17 q47 /\ s - v < s' - v'.
Proof. exact t24_warm_loss. Qed.
Print Assumptions C100_title24_warm_refuted.

(** A unit at 35 F and at 40 F. *)
Example C100_title24_nonvacuous : forall sol,
  let u := t24_unit [] in let M := Title24DXModel sol in
  let c := toy_cond 294 289 (fr_F 35) 1 in let c' := toy_cond 294 289 (fr_F 40) 1 in
  not_supplied u "cap35" /\ c_speed c' = c_speed c
  /\ anchor47 u (c_speed c) 10000
  /\ anchor17 u (c_speed c) (t24_ratio 8 * 10000) /\ 0 < clear35 (t24_ratio 8 * 10000) 10000
  /\ (exists s, gross_steady_state_heating_capacity M u (Some c) = Ok s)
  /\ (exists s, gross_integrated_heating_capacity M u (Some c) = Ok s)
  /\ (exists s, gross_steady_state_heating_capacity M u (Some c') = Ok s)
  /\ (exists s, gross_integrated_heating_capacity M u (Some c') = Ok s)
  /\ in_defrost (u_defrost u) c = true /\ in_defrost (u_defrost u) c' = true
  /\ degF (ps_db (c_outdoor c)) = 35 /\ degF (ps_db (c_outdoor c')) = 40.
Proof. exact t24_warm_case. Qed.
