(** Property C108: Title 24 heating capacity follows the outdoor temperature
    (title24.py:318-363). *)
From Coq Require Import String Reals List.
From Verif.Base Require Import Num Res.
From Verif.Model Require Import Units Psychrometrics Conditions Defrost Fan Unit NREL BaseModel Title24 DXUnit.
From Verif.Spec Require Import NrelSpec ModelSpec Title24Spec.
From Verif.Proofs Require Import ToyUnit T24Lines.
Local Open Scope R_scope.

(** Without frost: one straight line through the capacities at 17 and 47 F. *)
Theorem C108_steady : forall sol (u : dxunit R) c v q17 q47 w,
  gross_steady_state_heating_capacity (Title24DXModel sol) u (Some c) = Ok v ->
  anchor17 u (c_speed c) q17 -> anchor47 u (c_speed c) q47 ->
  entry (sd_fan_power (u_h u)) (c_speed c) w ->
  v = clear_line q17 q47 (degF (ps_db (c_outdoor c))) - w.
Proof. exact t24_steady_line. Qed.
Print Assumptions C108_steady.

(** With frost: the line through 17 and 35 F from 17 to 45 F, the other one elsewhere. *)
Theorem C108_integrated : forall sol (u : dxunit R) c v q17 q35 q47 w,
  gross_integrated_heating_capacity (Title24DXModel sol) u (Some c) = Ok v ->
  anchor17 u (c_speed c) q17 -> anchor35 u (c_speed c) q35 -> anchor47 u (c_speed c) q47 ->
  entry (sd_fan_power (u_h u)) (c_speed c) w ->
  v = (if in_defrost (u_defrost u) c
       then frosted_line q17 q35 q47 (degF (ps_db (c_outdoor c)))
       else clear_line q17 q47 (degF (ps_db (c_outdoor c)))) - w.
Proof. exact t24_integrated_line. Qed.
Print Assumptions C108_integrated.

(** Warmer outdoors, more heat without frost. *)
Theorem C108_steady_rises : forall sol (u : dxunit R) c c' v v' q17 q47 w,
  gross_steady_state_heating_capacity (Title24DXModel sol) u (Some c) = Ok v ->
  gross_steady_state_heating_capacity (Title24DXModel sol) u (Some c') = Ok v' ->
  c_speed c' = c_speed c ->
  anchor17 u (c_speed c) q17 -> anchor47 u (c_speed c) q47 -> q17 < q47 ->
  entry (sd_fan_power (u_h u)) (c_speed c) w ->
  ps_db (c_outdoor c) < ps_db (c_outdoor c') -> v < v'.
Proof. exact t24_steady_rises. Qed.
Print Assumptions C108_steady_rises.

(** Warmer outdoors, more heat with frost too, for default capacities and ordinary HSPF. *)
Theorem C108_integrated_rises : forall sol (u : dxunit R) c c' v v' h q47 w,
  let M := Title24DXModel sol in
  gross_integrated_heating_capacity M u (Some c) = Ok v ->
  gross_integrated_heating_capacity M u (Some c') = Ok v' ->
  c_speed c' = c_speed c -> not_supplied u "cap17" -> not_supplied u "cap35" ->
  u_hspf u = Some h -> 2.01 <= h <= 15.46 ->
  anchor47 u (c_speed c) q47 -> 0 < q47 -> entry (sd_fan_power (u_h u)) (c_speed c) w ->
  df_low_temperature (u_defrost u) = None ->
  ps_db (c_outdoor c) < ps_db (c_outdoor c') -> v < v'.
Proof. exact t24_integrated_rises. Qed.
Print Assumptions C108_integrated_rises.

(** A 10 kW unit of any HSPF at 20 and 40 F: both methods answer, in defrost. *)
Example C108_case : forall sol h, let u := t24_rated h in let M := Title24DXModel sol in
  let c := toy_cond 294 289 (fr_F 20) 1 in let c' := toy_cond 294 289 (fr_F 40) 1 in
  (forall t, (exists s, gross_steady_state_heating_capacity M u (Some (toy_cond 294 289 t 1)) = Ok s)
     /\ exists s, gross_integrated_heating_capacity M u (Some (toy_cond 294 289 t 1)) = Ok s)
  /\ c_speed c' = c_speed c /\ not_supplied u "cap17" /\ not_supplied u "cap35"
  /\ u_hspf u = Some h /\ anchor47 u (c_speed c) 10000
  /\ anchor17 u (c_speed c) (t24_ratio h * 10000)
  /\ anchor35 u (c_speed c) (0.36 * (t24_ratio h * 10000) + 0.54 * 10000)
  /\ entry (sd_fan_power (u_h u)) (c_speed c) 300
  /\ df_low_temperature (u_defrost u) = None
  /\ degF (ps_db (c_outdoor c)) = 20 /\ degF (ps_db (c_outdoor c')) = 40
  /\ ps_db (c_outdoor c) < ps_db (c_outdoor c')
  /\ in_defrost (u_defrost u) c = true /\ in_defrost (u_defrost u) c' = true.
Proof. intros sol h u M c c'. split; [exact (t24_rated_total sol h)|exact (t24_rated_case h)]. Qed.

(** Not so for a unit of HSPF 16: less heat at 40 F than at 20 F. *)
Theorem C108_integrated_rises_refuted : forall sol,
  let u := t24_rated 16 in let M := Title24DXModel sol in
  let c := toy_cond 294 289 (fr_F 20) 1 in let c' := toy_cond 294 289 (fr_F 40) 1 in
  exists v v', gross_integrated_heating_capacity M u (Some c) = Ok v
  /\ gross_integrated_heating_capacity M u (Some c') = Ok v' /\ v' < v.
Proof. exact t24_falls. Qed.
Print Assumptions C108_integrated_rises_refuted.
