(** Property C106: performance under other weather and airflow (nrel.py:64-169,
    unified_resnet.py:68-127), for correctly charged units with the NREL model, or with
    the RESNET model and no tables. *)
From Coq Require Import String Reals Lra List.
From Verif.Base Require Import Num Res Tac.
From Verif.Model Require Import Units Psychrometrics Conditions Defrost Fan Unit NREL BaseModel Resnet DXUnit.
From Verif.Spec Require Import WeatherSpec.
From Verif.Props Require Import P_Psych.
From Verif.Proofs Require Import ToyUnit Weather WeatherExample.
Import ListNotations.
Local Open Scope R_scope.

(** The hotter it is outdoors, the less cooling, the lower the COP, and up to 125 F the
    more power; strictly so above 75 F. *)
Theorem C106_hotter_cooling : forall psy sol M (u : dxunit R), by_curves psy sol M u ->
  forall c c' r q0 cop, same_indoors c c' r r -> 0 <= r <= 1.5 -> rated_at (u_c u) (c_speed c) q0 cop ->
  ps_db (c_outdoor c) < ps_db (c_outdoor c') ->
  (forall q q', gross_total_cooling_capacity M u (Some c) = Ok q -> gross_total_cooling_capacity M u (Some c') = Ok q' ->
     q' <= q /\ (75 < out_F c' -> q' < q))
  /\ (forall n n', gross_total_cooling_cop M u (Some c) = Ok n -> gross_total_cooling_cop M u (Some c') = Ok n' ->
     n' <= n /\ (75 < out_F c' -> n' < n))
  /\ (forall p p', out_F c' <= 125 -> gross_cooling_power M u (Some c) = Ok p -> gross_cooling_power M u (Some c') = Ok p' ->
     p <= p' /\ (75 < out_F c' -> p < p')).
Proof. exact hotter_cooling. Qed.
Print Assumptions C106_hotter_cooling.

(** More air over the coil, up to 1.5 times the rated airflow: more cooling, higher gross COP. *)
Theorem C106_more_air_cooling : forall psy sol M (u : dxunit R), by_curves psy sol M u ->
  forall c c' r r' q0 cop, same_indoors c c' r r' -> ps_db (c_outdoor c) = ps_db (c_outdoor c') ->
  0 <= r < r' -> r' <= 1.5 -> rated_at (u_c u) (c_speed c) q0 cop ->
  (forall q q', gross_total_cooling_capacity M u (Some c) = Ok q -> gross_total_cooling_capacity M u (Some c') = Ok q' ->
     0 < q -> q < q')
  /\ (forall n n', gross_total_cooling_cop M u (Some c) = Ok n -> gross_total_cooling_cop M u (Some c') = Ok n' -> n < n').
Proof. exact airier_cooling. Qed.
Print Assumptions C106_more_air_cooling.

(** The warmer it is outdoors (-40 to 65 F), the more heat and the higher the COP. *)
Theorem C106_warmer_heating : forall psy sol M (u : dxunit R), by_curves psy sol M u ->
  forall c c' r q0 cop, c_speed c = c_speed c' -> ps_db (c_indoor c) = ps_db (c_indoor c') ->
  c_mass_airflow_ratio c = Some r -> c_mass_airflow_ratio c' = Some r -> 0 <= r <= 1.5 ->
  rated_at (u_h u) (c_speed c) q0 cop -> 60 <= in_F c <= 80 -> -40 <= out_F c < out_F c' -> out_F c' <= 65 ->
  (forall q q', gross_steady_state_heating_capacity M u (Some c) = Ok q ->
     gross_steady_state_heating_capacity M u (Some c') = Ok q' -> 0 < q < q')
  /\ (forall n n', gross_steady_state_heating_cop M u (Some c) = Ok n ->
     gross_steady_state_heating_cop M u (Some c') = Ok n' -> 0 < n < n').
Proof. exact warmer_heating. Qed.
Print Assumptions C106_warmer_heating.

(** The warmer the room (50 to 80 F), the less heat and the lower the COP. *)
Theorem C106_warmer_room : forall psy sol M (u : dxunit R), by_curves psy sol M u ->
  forall c c' r q0 cop, c_speed c = c_speed c' -> ps_db (c_outdoor c) = ps_db (c_outdoor c') ->
  c_mass_airflow_ratio c = Some r -> c_mass_airflow_ratio c' = Some r -> 0 <= r <= 1.5 ->
  rated_at (u_h u) (c_speed c) q0 cop -> 50 <= in_F c < in_F c' -> in_F c' <= 80 -> -40 <= out_F c <= 65 ->
  (forall q q', gross_steady_state_heating_capacity M u (Some c) = Ok q ->
     gross_steady_state_heating_capacity M u (Some c') = Ok q' -> 0 < q' < q)
  /\ (forall n n', gross_steady_state_heating_cop M u (Some c) = Ok n ->
     gross_steady_state_heating_cop M u (Some c') = Ok n' -> 0 < n' < n).
Proof. exact warmer_room. Qed.
Print Assumptions C106_warmer_room.

(** More air in heating: more heat and a higher gross COP up to 1.28 times the rated
    airflow; a lower COP from 1.29 to 1.5 times. *)
Theorem C106_more_air_heating : forall psy sol M (u : dxunit R), by_curves psy sol M u ->
  forall c c' r r' q0 cop, c_speed c = c_speed c' ->
  ps_db (c_indoor c) = ps_db (c_indoor c') -> ps_db (c_outdoor c) = ps_db (c_outdoor c') ->
  c_mass_airflow_ratio c = Some r -> c_mass_airflow_ratio c' = Some r' ->
  rated_at (u_h u) (c_speed c) q0 cop -> 50 <= in_F c <= 80 -> -40 <= out_F c <= 65 ->
  (0 <= r < r' -> r' <= 1.28 ->
    (forall q q', gross_steady_state_heating_capacity M u (Some c) = Ok q ->
       gross_steady_state_heating_capacity M u (Some c') = Ok q' -> 0 < q < q')
    /\ (forall n n', gross_steady_state_heating_cop M u (Some c) = Ok n ->
       gross_steady_state_heating_cop M u (Some c') = Ok n' -> 0 < n < n'))
  /\ (1.29 <= r < r' -> r' <= 1.5 ->
    forall n n', gross_steady_state_heating_cop M u (Some c) = Ok n ->
       gross_steady_state_heating_cop M u (Some c') = Ok n' -> 0 < n' < n).
Proof. exact airier_heating. Qed.
Print Assumptions C106_more_air_heating.

Theorem C106_more_air_refuted : ~ (forall psy sol M (u : dxunit R) c c' r r' q0 cop n n',
  by_curves psy sol M u -> c_speed c = c_speed c' ->
  ps_db (c_indoor c) = ps_db (c_indoor c') -> ps_db (c_outdoor c) = ps_db (c_outdoor c') ->
  c_mass_airflow_ratio c = Some r -> c_mass_airflow_ratio c' = Some r' -> 0 <= r < r' -> r' <= 1.5 ->
  rated_at (u_h u) (c_speed c) q0 cop ->
  gross_steady_state_heating_cop M u (Some c) = Ok n ->
  gross_steady_state_heating_cop M u (Some c') = Ok n' -> n <= n').
Proof. exact more_air_false. Qed.
Print Assumptions C106_more_air_refuted.

(** A unit with a gross capacity of 10.3 kW, and all the values compared. *)
Example C106_unit : forall psy sol, by_curves psy sol (RESNETDXModel psy sol) correct_unit
  /\ by_curves psy sol (NRELDXModel psy sol) correct_unit.
Proof. exact correct_by_curves. Qed.
Example C106_cooling_case : forall psy sol t r, 300 <= t <= 320 -> 0.5 <= r <= 1.5 ->
  let c := toy_cond 300 292 t r in
  let M := RESNETDXModel psy sol in
  same_indoors c c r r /\ rated_at (u_c correct_unit) (c_speed c) 10300 (103 / 22)
  /\ ps_db (c_outdoor c) = t
  /\ exists q p n, gross_total_cooling_capacity M correct_unit (Some c) = Ok q /\ 0 < q
     /\ gross_cooling_power M correct_unit (Some c) = Ok p /\ 0 < p
     /\ gross_total_cooling_cop M correct_unit (Some c) = Ok n.
Proof. exact cooling_weather. Qed.
Example C106_heating_case : forall psy sol i t r, 290 <= i <= 299 -> 250 <= t <= 290 -> 0 <= r <= 1.5 ->
  let c := toy_cond i 289 t r in
  let M := RESNETDXModel psy sol in
  c_mass_airflow_ratio c = Some r /\ rated_at (u_h correct_unit) (c_speed c) 9700 (97 / 22)
  /\ 60 <= in_F c <= 80 /\ -40 <= out_F c <= 65 /\ ps_db (c_indoor c) = i /\ ps_db (c_outdoor c) = t
  /\ exists q p n, gross_steady_state_heating_capacity M correct_unit (Some c) = Ok q
     /\ gross_steady_state_heating_power M correct_unit (Some c) = Ok p
     /\ gross_steady_state_heating_cop M correct_unit (Some c) = Ok n.
Proof. exact heating_weather. Qed.
