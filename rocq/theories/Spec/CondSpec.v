(** Specifications for operating conditions (C07, C08). *)
From Coq Require Import Reals List.
From Verif.Base Require Import Num Res.
From Verif.Model Require Import Psychrometrics Conditions.
Import ListNotations.
Local Open Scope R_scope.

(** The airflow attributes agree with each other, for indoor air density [rho],
    standard air density [srho], rated mass flow [rm] and rated capacity [cap]. *)
Definition airflow_consistent (rho srho rm cap : R) (c : cond R) : Prop :=
  c_rated_airflow_set c = true
  /\ c_rated_mass_airflow c = Some rm
  /\ c_rated_net_capacity c = Some cap
  /\ exists m v sv r,
       c_mass_airflow c = Some m
       /\ c_volumetric_airflow c = Some v
       /\ c_standard_volumetric_airflow c = Some sv
       /\ c_mass_airflow_ratio c = Some r
       /\ m = v * rho
       /\ m = sv * srho
       /\ r = m / rm
       /\ c_standard_volumetric_airflow_per_capacity c = Some (sv / cap)
       /\ (forall p, c_rated_esp c = Some p ->
             c_external_static_pressure c = Some (p * r ^ 2)).

(** What the setters must not touch. *)
Definition same_setup (c c' : cond R) : Prop :=
  c_outdoor c' = c_outdoor c /\ c_indoor c' = c_indoor c
  /\ c_speed c' = c_speed c /\ c_rated_esp c' = c_rated_esp c.

(** The airflow setters (all but [set_mass_airflow]). *)
Inductive airflow_call :=
| CallVolumetric (v : R)
| CallStandard (sv : R)
| CallRatio (r : R)
| CallFanSpeed (f : nat) (sv : R).

Definition do_call (psy : psychro R) (k : airflow_call) : st (cond R) unit :=
  match k with
  | CallVolumetric v => set_volumetric_airflow psy v
  | CallStandard sv => set_standard_volumetric_airflow psy sv
  | CallRatio r => set_mass_airflow_ratio psy r
  | CallFanSpeed f sv => set_new_fan_speed psy f sv
  end.

(** The value a call asked for is what the state shows afterwards. *)
Definition call_honoured (k : airflow_call) (c : cond R) : Prop :=
  match k with
  | CallVolumetric v => c_volumetric_airflow c = Some v
  | CallStandard sv => c_standard_volumetric_airflow c = Some sv
  | CallRatio r => c_mass_airflow_ratio c = Some r
  | CallFanSpeed f sv =>
      c_fan_speed c = Some f /\ c_standard_volumetric_airflow c = Some sv
  end.
