(** Properties C07-C08: airflow bookkeeping (conditions.py). *)
From Coq Require Import Reals Lra List.
From Verif.Base Require Import Num Res Tac.
From Verif.Model Require Import Units Psychrometrics Conditions.
From Verif.Spec Require Import CondSpec.
From Verif.Proofs Require Import CondProofs StdAir.
From Verif.Props Require Import P_Psych.
Import ListNotations.
Local Open Scope R_scope.

Theorem C07_consistent_after_any_calls : forall psy rho srho,
  rho <> 0 -> srho <> 0 -> std_rho psy = Ok srho ->
  forall c rated cap calls,
  rho_of psy (c_indoor c) = Ok rho -> rated <> 0 -> cap <> 0 ->
  exists c',
    (set_rated_volumetric_airflow psy rated cap ;;; sfold (do_call psy) calls) c
      = (c', Ok tt)
    /\ airflow_consistent rho srho (rated * srho) cap c'
    /\ same_setup c c'
    /\ (forall k, last (map Some calls) None = Some k -> call_honoured k c').
Proof. exact rated_then_calls. Qed.
Print Assumptions C07_consistent_after_any_calls.

Theorem C07_rated_flow_gives_unit_ratio : forall psy rho srho,
  rho <> 0 -> srho <> 0 -> std_rho psy = Ok srho ->
  forall c rated cap,
  rho_of psy (c_indoor c) = Ok rho -> rated <> 0 -> cap <> 0 ->
  exists c', set_rated_volumetric_airflow psy rated cap c = (c', Ok tt)
    /\ airflow_consistent rho srho (rated * srho) cap c' /\ same_setup c c'
    /\ c_mass_airflow_ratio c' = Some 1
    /\ c_standard_volumetric_airflow c' = Some rated
    /\ c_fan_speed c' = c_fan_speed c.
Proof. exact set_rated_ok. Qed.
Print Assumptions C07_rated_flow_gives_unit_ratio.

Definition cond0 (esp : option R) : cond R :=
  OperatingConditions (psych_wetbulb 308 101325 297) (psych_wetbulb 299 101325 292)
    0 (Some 0%nat) esp.

Example C07_nonvacuous : std_rho toy_psy = Ok 1.2
  /\ rho_of toy_psy (c_indoor (cond0 (Some 125))) = Ok 1.2.
Proof. split; reflexivity. Qed.

(** The standard density is that of dry air at 70 °F and 101325 Pa. *)
Theorem C07_standard_air : forall psy w rho,
  GetTWetBulbFromHumRatio psy ((70 - 32) * 5 / 9) 0 101325 = Ok w ->
  GetMoistAirDensity psy ((70 - 32) * 5 / 9) 0 101325 = Ok rho ->
  std_rho psy = Ok rho.
Proof. exact std_air. Qed.
Print Assumptions C07_standard_air.

Example C07_standard_air_nonvacuous : exists w,
  GetTWetBulbFromHumRatio toy_psy ((70 - 32) * 5 / 9) 0 101325 = Ok w
  /\ GetMoistAirDensity toy_psy ((70 - 32) * 5 / 9) 0 101325 = Ok 1.2.
Proof. eexists. split; reflexivity. Qed.

Theorem C08_set_mass_airflow_consistent_iff_refuted : forall psy rho srho,
  rho <> 0 -> srho <> 0 -> std_rho psy = Ok srho ->
  forall c rm cap r0 m,
  rho_of psy (c_indoor c) = Ok rho ->
  airflow_consistent rho srho rm cap c ->
  rm <> 0 -> cap <> 0 -> m <> 0 ->
  c_mass_airflow_ratio c = Some r0 ->
  exists c', set_mass_airflow psy m c = (c', Ok tt) /\
    (airflow_consistent rho srho rm cap c' <->
     (m = rm \/ m = - rm) /\
     (forall p, c_rated_esp c = Some p -> p = 0 \/ r0 = 1 \/ r0 = -1)).
Proof. exact set_mass_consistent_iff. Qed.
Print Assumptions C08_set_mass_airflow_consistent_iff_refuted.

Theorem C08_set_mass_airflow_exact_effect : forall psy rho srho,
  rho <> 0 -> srho <> 0 -> std_rho psy = Ok srho ->
  forall c rm cap r0 m,
  rho_of psy (c_indoor c) = Ok rho ->
  airflow_consistent rho srho rm cap c ->
  rm <> 0 -> cap <> 0 -> m <> 0 ->
  c_mass_airflow_ratio c = Some r0 ->
  exists c', set_mass_airflow psy m c = (c', Ok tt)
    /\ same_setup c c'
    /\ c_rated_airflow_set c' = true
    /\ c_rated_mass_airflow c' = Some rm
    /\ c_rated_net_capacity c' = Some cap
    /\ c_mass_airflow c' = Some m
    /\ c_volumetric_airflow c' = Some (m / rho)
    /\ c_standard_volumetric_airflow c' = Some (m / srho)
    /\ c_mass_airflow_ratio c' = Some (rm / m)
    /\ c_standard_volumetric_airflow_per_capacity c' = Some (m / srho / cap)
    /\ (forall p, c_rated_esp c = Some p ->
          c_external_static_pressure c' = Some (p * r0 ^ 2)).
Proof. exact set_mass_effect. Qed.
Print Assumptions C08_set_mass_airflow_exact_effect.

Theorem C08_set_mass_airflow_before_rating : forall psy c m p,
  c_rated_esp c = Some p -> c_mass_airflow_ratio c = None ->
  snd (set_mass_airflow (T:=R) psy m c) = Err AttributeError.
Proof. exact set_mass_unrated. Qed.
Print Assumptions C08_set_mass_airflow_before_rating.

Example C08_nonvacuous : exists c,
  set_rated_volumetric_airflow toy_psy 0.5 10000 (cond0 (Some 125)) = (c, Ok tt)
  /\ airflow_consistent 1.2 1.2 (0.5 * 1.2) 10000 c
  /\ c_mass_airflow_ratio c = Some 1.
Proof.
  destruct (set_rated_ok toy_psy 1.2 1.2 ltac:(lra) ltac:(lra) eq_refl
              (cond0 (Some 125)) 0.5 10000 eq_refl ltac:(lra) ltac:(lra))
    as (c & H1 & H2 & _ & H3 & _).
  exists c. auto.
Qed.
