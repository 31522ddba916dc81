(** Property C115: the RESNET model's heating including defrost in warmer weather
    (unified_resnet.py:107-116, 129-138, defrost.py:48-60). *)
From Coq Require Import String Reals Lra List.
From Verif.Base Require Import Num Res Tac.
From Verif.Model Require Import Units Psychrometrics Conditions Defrost Fan Unit NREL BaseModel Resnet DXUnit.
From Verif.Spec Require Import WeatherSpec FrostWeatherSpec.
From Verif.Props Require Import P_Psych.
From Verif.Proofs Require Import ToyUnit WeatherExample FrostWeather FrostWeatherExample.
Import ListNotations.
Local Open Scope R_scope.

(** Whatever unit: if the steady-state capacity is no less (more) in the milder
    condition, neither (so) is the capacity including defrost. *)
Theorem C115_capacity_follows : forall psy sol (u : dxunit R) c c' s s' q q',
  let M := RESNETDXModel psy sol in milder u c c' ->
  gross_steady_state_heating_capacity M u (Some c) = Ok s ->
  gross_steady_state_heating_capacity M u (Some c') = Ok s' ->
  gross_integrated_heating_capacity M u (Some c) = Ok q ->
  gross_integrated_heating_capacity M u (Some c') = Ok q' ->
  0 <= s -> (s <= s' -> q <= q') /\ (s < s' -> q < q').
Proof. exact warmer_cap. Qed.
Print Assumptions C115_capacity_follows.

(** Likewise the COP of a correctly charged unit. *)
Theorem C115_cop_follows : forall psy sol (u : dxunit R) c c' y y' x x',
  let M := RESNETDXModel psy sol in u_charge u = 0 -> milder u c c' ->
  gross_steady_state_heating_cop M u (Some c) = Ok y ->
  gross_steady_state_heating_cop M u (Some c') = Ok y' ->
  gross_integrated_heating_cop M u (Some c) = Ok x ->
  gross_integrated_heating_cop M u (Some c') = Ok x' ->
  0 <= y -> (y <= y' -> x <= x') /\ (y < y' -> x < x').
Proof. exact warmer_cop. Qed.
Print Assumptions C115_cop_follows.

(** From −40 F to 65 F, a correctly charged unit without tables, and without a lower
    limit of the temperatures at which it defrosts, heats more and with a higher COP the
    warmer it is outdoors. *)
Theorem C115_warmer_more_heat : forall psy sol (u : dxunit R) c c' r q0 cop,
  let M := RESNETDXModel psy sol in by_curves psy sol M u -> df_low_temperature (u_defrost u) = None ->
  same_heating c c' r -> 0 <= r <= 1.5 -> rated_at (u_h u) (c_speed c) q0 cop ->
  60 <= in_F c <= 80 -> -40 <= out_F c < out_F c' -> out_F c' <= 65 ->
  (forall q q', gross_integrated_heating_capacity M u (Some c) = Ok q ->
     gross_integrated_heating_capacity M u (Some c') = Ok q' -> 0 < q < q')
  /\ (forall n n', gross_integrated_heating_cop M u (Some c) = Ok n ->
     gross_integrated_heating_cop M u (Some c') = Ok n' -> 0 < n < n').
Proof. exact warmer_frost. Qed.
Print Assumptions C115_warmer_more_heat.

Example C115_cases : forall psy sol, let M := RESNETDXModel psy sol in
  let c := toy_cond 294 289 270 1 in let c' := toy_cond 294 289 280 1 in
  by_curves psy sol M correct_unit /\ df_low_temperature (u_defrost correct_unit) = None
  /\ milder correct_unit c c' /\ in_defrost (u_defrost correct_unit) c = true
  /\ same_heating c c' 1 /\ rated_at (u_h correct_unit) (c_speed c) 9700 (97 / 22)
  /\ 60 <= in_F c <= 80 /\ -40 <= out_F c < out_F c' /\ out_F c' <= 65
  /\ (exists s y q n, gross_steady_state_heating_capacity M correct_unit (Some c) = Ok s
    /\ gross_steady_state_heating_cop M correct_unit (Some c) = Ok y
    /\ gross_integrated_heating_capacity M correct_unit (Some c) = Ok q
    /\ gross_integrated_heating_cop M correct_unit (Some c) = Ok n)
  /\ (exists s y q n, gross_steady_state_heating_capacity M correct_unit (Some c') = Ok s
    /\ gross_steady_state_heating_cop M correct_unit (Some c') = Ok y
    /\ gross_integrated_heating_capacity M correct_unit (Some c') = Ok q
    /\ gross_integrated_heating_cop M correct_unit (Some c') = Ok n).
Proof.
  intros psy sol M c c'. split; [exact (proj1 (correct_by_curves psy sol))|]. split; [reflexivity|].
  assert (O : ps_db (c_outdoor c) = 270 /\ ps_db (c_outdoor c') = 280 /\ ps_db (c_indoor c) = 294) by (repeat split).
  destruct O as (O & O' & I).
  split; [apply no_low_milder; [reflexivity|rewrite O, O'; lra]|].
  split; [apply Rltb_true; rewrite O; cbn [correct_unit toy_unit u_defrost toy_defrost df_high_temperature]; lra|].
  split; [repeat split|]. split; [repeat split; lra|].
  unfold in_F, out_F, F_of. rewrite O, O', I. split; [lra|]. split; [lra|]. split; [lra|].
  split; [apply frosty; lra|apply frosty; lra].
Qed.

(** With a lower limit it need not: the loss begins just above the limit, and there the
    unit heats less than at the limit. *)
Theorem C115_warmer_more_heat_always_refuted : ~ (forall psy sol (u : dxunit R),
  by_curves psy sol (RESNETDXModel psy sol) u ->
  forall c c' r q0 cop, same_heating c c' r -> 0 <= r <= 1.5 -> rated_at (u_h u) (c_speed c) q0 cop ->
  60 <= in_F c <= 80 -> -40 <= out_F c < out_F c' -> out_F c' <= 65 -> forall q q',
  gross_integrated_heating_capacity (RESNETDXModel psy sol) u (Some c) = Ok q ->
  gross_integrated_heating_capacity (RESNETDXModel psy sol) u (Some c') = Ok q' -> q <= q').
Proof. exact warmer_always_false. Qed.
Print Assumptions C115_warmer_more_heat_always_refuted.

(** Half a kelvin above the limit it heats 13 % less. *)
Example C115_low_limit : forall psy sol, let M := RESNETDXModel psy sol in
  let c := toy_cond 294 289 260 1 in let c' := toy_cond 294 289 260.5 1 in
  exists q q', gross_integrated_heating_capacity M low_unit (Some c) = Ok q
    /\ gross_integrated_heating_capacity M low_unit (Some c') = Ok q' /\ q' < 0.87 * q.
Proof. exact low_limit. Qed.
