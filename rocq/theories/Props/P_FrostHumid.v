(** Property C117: the NREL model's heating including defrost in moister weather
    (nrel.py:171-276). *)
From Coq Require Import String Reals Lra List.
From Verif.Base Require Import Num Res Tac.
From Verif.Model Require Import Units Psychrometrics Conditions Defrost Fan Unit NREL BaseModel Resnet DXUnit.
From Verif.Spec Require Import NrelSpec FrostHumidSpec.
From Verif.Proofs Require Import FrostHumid FrostHumidExample.
Import ListNotations.
Local Open Scope R_scope.

(** Without frost the outdoor humidity makes no difference. *)
Theorem C117_steady_ignores_humidity : forall psy sol (u : dxunit R) c c' h h',
  let M := NRELDXModel psy sol in moister psy c c' h h' ->
  gross_steady_state_heating_capacity M u (Some c') = gross_steady_state_heating_capacity M u (Some c)
  /\ gross_steady_state_heating_power M u (Some c') = gross_steady_state_heating_power M u (Some c).
Proof. exact (fun psy sol u c c' h h' H => conj (cap_same psy sol u c c' h h' H) (pow_same psy sol u c c' h h' H)). Qed.
Print Assumptions C117_steady_ignores_humidity.

(** The EPRI defrost time grows with the humidity, once air is moister than at the coil. *)
Theorem C117_moister_longer_defrost : forall psy c c' h h' w t t',
  moister psy c c' h h' -> coil_saturation psy c w ->
  epri_defrost_time_fraction psy c = Ok t -> epri_defrost_time_fraction psy c' = Ok t' ->
  t <= t' /\ (w + 0.000001 < h' -> t < t').
Proof. exact longer_defrost. Qed.
Print Assumptions C117_moister_longer_defrost.

(** In defrost, if the defrost is no shorter, moister air never gives more heat; it gives
    less if the defrost is timed or takes longer. *)
Theorem C117_moister_less_heat : forall psy sol (u : dxunit R) c c' h h' w t t' s q q',
  let M := NRELDXModel psy sol in moister psy c c' h h' -> coil_saturation psy c w ->
  in_defrost (u_defrost u) c = true ->
  df_time_fraction (u_defrost u) c = Ok t -> df_time_fraction (u_defrost u) c' = Ok t' -> 0 <= t <= t' -> t' < 1 ->
  gross_steady_state_heating_capacity M u (Some c) = Ok s -> 0 < s ->
  (df_control (u_defrost u) = DCTimed -> h' <= w + 0.0084) ->
  (df_strategy (u_defrost u) = DSReverseCycle -> degC (ps_db (c_outdoor c)) <= 7.222
     /\ forall g, entry (sd_gross_cap (u_h u)) (c_speed c) g -> 0 <= g) ->
  gross_integrated_heating_capacity M u (Some c) = Ok q ->
  gross_integrated_heating_capacity M u (Some c') = Ok q' ->
  q' <= q /\ (df_control (u_defrost u) = DCTimed /\ w + 0.000001 < h' \/ t < t' -> q' < q).
Proof. exact less_heat. Qed.
Print Assumptions C117_moister_less_heat.

(** A timed resistive defrost of the same length: moister air costs less power, but the COP
    falls. *)
Theorem C117_timed_resistive : forall psy sol (u : dxunit R) c c' h h' w t s p,
  let M := NRELDXModel psy sol in moister psy c c' h h' -> coil_saturation psy c w ->
  in_defrost (u_defrost u) c = true -> df_control (u_defrost u) = DCTimed -> df_strategy (u_defrost u) = DSResistive ->
  df_time_fraction (u_defrost u) c = Ok t -> df_time_fraction (u_defrost u) c' = Ok t -> 0 <= t < 1 ->
  gross_steady_state_heating_capacity M u (Some c) = Ok s -> 0 < s ->
  gross_steady_state_heating_power M u (Some c) = Ok p -> 0 < p -> 0 <= df_resistive_power (u_defrost u) ->
  w + 0.000001 < h' <= w + 0.0084 ->
  (forall e e', gross_integrated_heating_power M u (Some c) = Ok e ->
     gross_integrated_heating_power M u (Some c') = Ok e' -> 0 < e' < e)
  /\ (forall n n', gross_integrated_heating_cop M u (Some c) = Ok n ->
     gross_integrated_heating_cop M u (Some c') = Ok n' -> n' < n).
Proof. exact timed_resistive. Qed.
Print Assumptions C117_timed_resistive.

(** With any other control the humidity matters only through the defrost time. *)
Theorem C117_not_timed : forall psy sol (u : dxunit R) c c' h h',
  let M := NRELDXModel psy sol in moister psy c c' h h' -> df_control (u_defrost u) <> DCTimed ->
  df_time_fraction (u_defrost u) c' = df_time_fraction (u_defrost u) c ->
  gross_integrated_heating_capacity M u (Some c') = gross_integrated_heating_capacity M u (Some c)
  /\ gross_integrated_heating_power M u (Some c') = gross_integrated_heating_power M u (Some c).
Proof. exact demand_same. Qed.
Print Assumptions C117_not_timed.

(** Air of humidity ratio 0.003 and 0.0035 at a coil at which 0.002 is saturated; the
    defrost time fixed or that of EPRI, with any control. *)
Example C117_air : moister frost_psy (humid_cond 0.003) (humid_cond 0.0035) 0.003 0.0035
  /\ coil_saturation frost_psy (humid_cond 0.003) 0.002 /\ 0.002 + 0.000001 < 0.0035 <= 0.002 + 0.0084.
Proof. destruct (humid_moister 0.003 0.0035 ltac:(lra)). split; [assumption|]. split; [assumption|lra]. Qed.
Example C117_times : forall h,
  (exists t, epri_defrost_time_fraction frost_psy (humid_cond h) = Ok t /\ 0 <= t < 1)
  /\ default_time_fraction (T:=R) (humid_cond h) = Ok (3.5 / 60).
Proof. intros h. split; [exact (humid_epri h)|exact (humid_fixed h)]. Qed.
Example C117_values : forall sol f ctl h t, f (humid_cond h) = Ok t -> 0 <= t < 1 -> h <= 0.01 ->
  let u := humid_unit f ctl in let M := NRELDXModel frost_psy sol in let c := humid_cond h in
  in_defrost (u_defrost u) c = true /\ df_time_fraction (u_defrost u) c = Ok t
  /\ exists s p q e n, gross_steady_state_heating_capacity M u (Some c) = Ok s /\ 0 < s
    /\ gross_steady_state_heating_power M u (Some c) = Ok p /\ 0 < p
    /\ gross_integrated_heating_capacity M u (Some c) = Ok q
    /\ gross_integrated_heating_power M u (Some c) = Ok e
    /\ gross_integrated_heating_cop M u (Some c) = Ok n.
Proof. exact humid_case. Qed.
