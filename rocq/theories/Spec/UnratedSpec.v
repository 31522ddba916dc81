(** Vocabulary of C111: operating conditions whose rated airflow is not known yet. *)
From Coq Require Import Reals List.
From Verif.Base Require Import Num Res.
From Verif.Model Require Import Psychrometrics Conditions Fan Unit DXUnit.
From Verif.Spec Require Import CondSpec.
Import ListNotations.
Local Open Scope R_scope.

(** The calls that name a flow rather than a ratio. *)
Definition names_flow (k : airflow_call) : bool :=
  match k with CallRatio _ => false | _ => true end.

(** The ratio of the last [set_mass_airflow_ratio], if there was one. *)
Fixpoint last_ratio (ks : list airflow_call) : option R :=
  match ks with
  | [] => None
  | k :: ks' =>
      match last_ratio ks', k with
      | Some r, _ => Some r
      | None, CallRatio r => Some r
      | None, _ => None
      end
  end.

(** Mass, volumetric and standard flow say the same. *)
Definition flows_agree (rho srho : R) (c : cond R) : Prop :=
  exists m v sv, c_mass_airflow c = Some m /\ c_volumetric_airflow c = Some v
    /\ c_standard_volumetric_airflow c = Some sv /\ m = v * rho /\ m = sv * srho.
Definition no_flows (c : cond R) : Prop :=
  c_mass_airflow c = None /\ c_volumetric_airflow c = None
  /\ c_standard_volumetric_airflow c = None.

(** No net performance can be computed at these conditions. *)
Definition no_net_performance sol M (u : dxunit R) (c : cond R) : Prop := forall x,
  net_total_cooling_capacity sol M u (Some c) <> Ok x
  /\ net_sensible_cooling_capacity sol M u (Some c) <> Ok x
  /\ net_cooling_power sol M u (Some c) <> Ok x
  /\ net_steady_state_heating_capacity sol M u (Some c) <> Ok x
  /\ net_steady_state_heating_power sol M u (Some c) <> Ok x
  /\ net_integrated_heating_capacity sol M u (Some c) <> Ok x
  /\ net_integrated_heating_power sol M u (Some c) <> Ok x.
