(** Property C118: the NREL model's heating including defrost in warmer weather
    (nrel.py:171-276, defrost.py:48-60). *)
From Coq Require Import String Reals Lra List.
From Verif.Base Require Import Num Res Tac.
From Verif.Model Require Import Units Psychrometrics Conditions Defrost Fan Unit NREL BaseModel Resnet DXUnit.
From Verif.Spec Require Import NrelSpec WeatherSpec FrostHumidSpec FrostWeatherSpec FrostWarmSpec.
From Verif.Proofs Require Import FrostWarm FrostWarmExample.
Import ListNotations.
Local Open Scope R_scope.

(** The EPRI defrost takes no longer where the air is no moister compared to the coil. *)
Theorem C118_drier_shorter_defrost : forall psy c c' g g' t t',
  coil_gap psy c g -> coil_gap psy c' g' -> g' <= g ->
  epri_defrost_time_fraction psy c = Ok t -> epri_defrost_time_fraction psy c' = Ok t' ->
  t' <= t /\ (0.000001 < g -> g' < g -> t' < t).
Proof. exact shorter_defrost. Qed.
Print Assumptions C118_drier_shorter_defrost.

(** If the steady-state capacity is no less (more) in the milder condition, neither (so)
    is the capacity including defrost. *)
Theorem C118_capacity_follows : forall psy sol (u : dxunit R) c c' g g' t t' s s' q q',
  let M := NRELDXModel psy sol in milder_frost psy u c c' g g' t t' -> proper_frost u c g ->
  gross_steady_state_heating_capacity M u (Some c) = Ok s ->
  gross_steady_state_heating_capacity M u (Some c') = Ok s' ->
  gross_integrated_heating_capacity M u (Some c) = Ok q ->
  gross_integrated_heating_capacity M u (Some c') = Ok q' ->
  0 <= s -> (s <= s' -> q <= q') /\ (s < s' -> q < q').
Proof. exact capacity_follows. Qed.
Print Assumptions C118_capacity_follows.

(** With resistive defrost in both conditions, if steady-state capacity and COP are no less
    in the milder one, neither is the COP including defrost. *)
Theorem C118_cop_follows : forall psy sol (u : dxunit R) c c' g g' t t' s s' y y' n n',
  let M := NRELDXModel psy sol in milder_frost psy u c c' g g' t t' ->
  in_defrost (u_defrost u) c' = true ->
  df_strategy (u_defrost u) = DSResistive -> 0 <= df_resistive_power (u_defrost u) ->
  (df_control (u_defrost u) = DCTimed -> g <= 0.0084) ->
  gross_steady_state_heating_capacity M u (Some c) = Ok s ->
  gross_steady_state_heating_capacity M u (Some c') = Ok s' -> 0 < s <= s' ->
  gross_steady_state_heating_cop M u (Some c) = Ok y ->
  gross_steady_state_heating_cop M u (Some c') = Ok y' -> 0 < y <= y' ->
  gross_integrated_heating_cop M u (Some c) = Ok n ->
  gross_integrated_heating_cop M u (Some c') = Ok n' -> n <= n' /\ (y < y' -> n < n').
Proof. exact cop_follows. Qed.
Print Assumptions C118_cop_follows.

(** From −40 F to 65 F, a correctly charged unit heats more, and with resistive defrost at
    a higher COP, the warmer it is outdoors. *)
Theorem C118_warmer_more_heat : forall psy sol (u : dxunit R) c c' r q0 cop g g' t t',
  let M := NRELDXModel psy sol in u_charge u = 0 ->
  same_heating c c' r -> 0 <= r <= 1.5 -> rated_at (u_h u) (c_speed c) q0 cop ->
  60 <= in_F c <= 80 -> -40 <= out_F c < out_F c' -> out_F c' <= 65 ->
  milder_frost psy u c c' g g' t t' -> proper_frost u c g ->
  (forall q q', gross_integrated_heating_capacity M u (Some c) = Ok q ->
     gross_integrated_heating_capacity M u (Some c') = Ok q' -> q < q')
  /\ (in_defrost (u_defrost u) c' = true -> df_strategy (u_defrost u) = DSResistive ->
      0 <= df_resistive_power (u_defrost u) ->
      forall y y' n n', gross_steady_state_heating_cop M u (Some c) = Ok y ->
      gross_steady_state_heating_cop M u (Some c') = Ok y' ->
      gross_integrated_heating_cop M u (Some c) = Ok n ->
      gross_integrated_heating_cop M u (Some c') = Ok n' -> n < n').
Proof. exact warmer_frost_nrel. Qed.
Print Assumptions C118_warmer_more_heat.

(** Resistive defrost lowers the COP unless it is timed; a timed defrost raises it exactly
    if the air is dry and the heater small. *)
Theorem C118_defrost_and_cop : forall psy sol (u : dxunit R) c g t s p y n,
  let M := NRELDXModel psy sol in in_defrost (u_defrost u) c = true -> coil_gap psy c g ->
  df_time_fraction (u_defrost u) c = Ok t -> 0 <= t < 1 -> df_strategy (u_defrost u) = DSResistive ->
  0 <= df_resistive_power (u_defrost u) ->
  gross_steady_state_heating_capacity M u (Some c) = Ok s -> 0 < s ->
  gross_steady_state_heating_power M u (Some c) = Ok p ->
  gross_steady_state_heating_cop M u (Some c) = Ok y -> 0 < y ->
  gross_integrated_heating_cop M u (Some c) = Ok n ->
  (df_control (u_defrost u) <> DCTimed -> n < y)
  /\ (df_control (u_defrost u) = DCTimed -> g <= 0.0084 ->
      (y < n <-> df_resistive_power (u_defrost u) * t < p * (1 - t) * (0.009 - 70.88 * Rmax 0.000001 g))).
Proof. exact timed_cop. Qed.
Print Assumptions C118_defrost_and_cop.

(** Expected, but false: a defrost never raises the COP. *)
Theorem C118_defrost_never_raises_cop_refuted : forall sol, exists psy u c y n,
  let M := NRELDXModel psy sol in
  in_defrost (u_defrost u) c = true /\ df_control (u_defrost u) = DCTimed
  /\ df_strategy (u_defrost u) = DSResistive /\ 0 < df_resistive_power (u_defrost u)
  /\ df_time_fraction (u_defrost u) c = Ok (3.5 / 60)
  /\ gross_steady_state_heating_cop M u (Some c) = Ok y
  /\ gross_integrated_heating_cop M u (Some c) = Ok n /\ y < n.
Proof. exact dry_raises. Qed.
Print Assumptions C118_defrost_never_raises_cop_refuted.

(** 265 K and 270 K outdoors at a humidity ratio of 0.003, whatever the defrost settings;
    the defrost time fixed or that of EPRI. *)
Example C118_cases : forall f pw ctl st t t', st <> DSNone ->
  f (warm_cond 265 0.003) = Ok t -> f (warm_cond 270 0.003) = Ok t' -> 0 <= t' <= t -> t < 1 ->
  let u := warm_unit f pw ctl st in let c := warm_cond 265 0.003 in let c' := warm_cond 270 0.003 in
  milder_frost warm_psy u c c' (warm_gap 265 0.003) (warm_gap 270 0.003) t t' /\ proper_frost u c (warm_gap 265 0.003)
  /\ in_defrost (u_defrost u) c' = true
  /\ u_charge u = 0 /\ same_heating c c' 1 /\ rated_at (u_h u) (c_speed c) 9700 (97 / 22)
  /\ 60 <= in_F c <= 80 /\ -40 <= out_F c < out_F c' /\ out_F c' <= 65.
Proof. exact warm_milder. Qed.
Example C118_times : forall o h,
  (exists t, epri_defrost_time_fraction warm_psy (warm_cond o h) = Ok t /\ 0 <= t < 1)
  /\ default_time_fraction (T:=R) (warm_cond o h) = Ok (3.5 / 60).
Proof. intros o h. split; [exact (warm_epri o h)|exact (warm_fixed o h)]. Qed.
Example C118_values : forall sol f pw ctl o h t, o = 265 \/ o = 270 -> f (warm_cond o h) = Ok t -> 0 <= t < 1 ->
  h <= 0.01 -> 0 <= pw ->
  let u := warm_unit f pw ctl DSResistive in let M := NRELDXModel warm_psy sol in let c := warm_cond o h in
  in_defrost (u_defrost u) c = true
  /\ exists s p y q n, gross_steady_state_heating_capacity M u (Some c) = Ok s /\ 0 < s
    /\ gross_steady_state_heating_power M u (Some c) = Ok p /\ 1500 < p
    /\ gross_steady_state_heating_cop M u (Some c) = Ok y /\ 0 < y
    /\ gross_integrated_heating_capacity M u (Some c) = Ok q
    /\ gross_integrated_heating_cop M u (Some c) = Ok n.
Proof. exact warm_case. Qed.
