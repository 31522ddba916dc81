(** Model of /repo/resdx/conditions.py *)
From Coq Require Import QArith List.
From Verif.Base Require Import Num Res.
From Verif.Model Require Import Units Psychrometrics.
Import ListNotations.

(** Attributes of an [OperatingConditions] object; those assigned only by the
    airflow setters are [None] until then. *)
Record cond (T : Type) := mkCond {
  c_outdoor : psych_state T;
  c_indoor : psych_state T;
  c_speed : nat;                         (* compressor_speed *)
  c_rated_airflow_set : bool;
  c_rated_esp : option T;                (* rated_flow_external_static_pressure *)
  c_fan_speed : option nat;
  c_rated_net_capacity : option T;
  c_rated_standard_volumetric_airflow : option T;
  c_rated_volumetric_airflow : option T;
  c_rated_mass_airflow : option T;
  c_volumetric_airflow : option T;
  c_mass_airflow : option T;
  c_standard_volumetric_airflow : option T;
  c_mass_airflow_ratio : option T;
  c_standard_volumetric_airflow_per_capacity : option T;
  c_external_static_pressure : option T
}.
Arguments mkCond {T}.
Arguments c_outdoor {T}. Arguments c_indoor {T}. Arguments c_speed {T}.
Arguments c_rated_airflow_set {T}. Arguments c_rated_esp {T}.
Arguments c_fan_speed {T}. Arguments c_rated_net_capacity {T}.
Arguments c_rated_standard_volumetric_airflow {T}.
Arguments c_rated_volumetric_airflow {T}. Arguments c_rated_mass_airflow {T}.
Arguments c_volumetric_airflow {T}. Arguments c_mass_airflow {T}.
Arguments c_standard_volumetric_airflow {T}. Arguments c_mass_airflow_ratio {T}.
Arguments c_standard_volumetric_airflow_per_capacity {T}.
Arguments c_external_static_pressure {T}.

Section Conditions.
  Context {T : Type} {NT : Num T}.
  Variable psy : psychro T.
  Local Open Scope num_scope.
  Notation C := (cond T).

  (** [STANDARD_CONDITIONS.rho] (psychrometrics.py:130). *)
  Definition std_rho : res T :=
    let! s := STANDARD_CONDITIONS psy in rho_of psy s.

  (** Attribute assignments. *)
  Definition w_rated (cap sv v m : T) (c : C) : C :=
    mkCond (c_outdoor c) (c_indoor c) (c_speed c) true (c_rated_esp c)
      (c_fan_speed c) (Some cap) (Some sv) (Some v) (Some m)
      (c_volumetric_airflow c) (c_mass_airflow c)
      (c_standard_volumetric_airflow c) (c_mass_airflow_ratio c)
      (c_standard_volumetric_airflow_per_capacity c)
      (c_external_static_pressure c).
  Definition w_flows (v m sv : option T) (c : C) : C :=
    mkCond (c_outdoor c) (c_indoor c) (c_speed c) (c_rated_airflow_set c)
      (c_rated_esp c) (c_fan_speed c) (c_rated_net_capacity c)
      (c_rated_standard_volumetric_airflow c) (c_rated_volumetric_airflow c)
      (c_rated_mass_airflow c) v m sv (c_mass_airflow_ratio c)
      (c_standard_volumetric_airflow_per_capacity c)
      (c_external_static_pressure c).
  Definition w_ratio (r : T) (c : C) : C :=
    mkCond (c_outdoor c) (c_indoor c) (c_speed c) (c_rated_airflow_set c)
      (c_rated_esp c) (c_fan_speed c) (c_rated_net_capacity c)
      (c_rated_standard_volumetric_airflow c) (c_rated_volumetric_airflow c)
      (c_rated_mass_airflow c) (c_volumetric_airflow c) (c_mass_airflow c)
      (c_standard_volumetric_airflow c) (Some r)
      (c_standard_volumetric_airflow_per_capacity c)
      (c_external_static_pressure c).
  Definition w_per_capacity (x : T) (c : C) : C :=
    mkCond (c_outdoor c) (c_indoor c) (c_speed c) (c_rated_airflow_set c)
      (c_rated_esp c) (c_fan_speed c) (c_rated_net_capacity c)
      (c_rated_standard_volumetric_airflow c) (c_rated_volumetric_airflow c)
      (c_rated_mass_airflow c) (c_volumetric_airflow c) (c_mass_airflow c)
      (c_standard_volumetric_airflow c) (c_mass_airflow_ratio c) (Some x)
      (c_external_static_pressure c).
  Definition w_esp (x : T) (c : C) : C :=
    mkCond (c_outdoor c) (c_indoor c) (c_speed c) (c_rated_airflow_set c)
      (c_rated_esp c) (c_fan_speed c) (c_rated_net_capacity c)
      (c_rated_standard_volumetric_airflow c) (c_rated_volumetric_airflow c)
      (c_rated_mass_airflow c) (c_volumetric_airflow c) (c_mass_airflow c)
      (c_standard_volumetric_airflow c) (c_mass_airflow_ratio c)
      (c_standard_volumetric_airflow_per_capacity c) (Some x).
  Definition w_fan_speed (f : nat) (c : C) : C :=
    mkCond (c_outdoor c) (c_indoor c) (c_speed c) (c_rated_airflow_set c)
      (c_rated_esp c) (Some f) (c_rated_net_capacity c)
      (c_rated_standard_volumetric_airflow c) (c_rated_volumetric_airflow c)
      (c_rated_mass_airflow c) (c_volumetric_airflow c) (c_mass_airflow c)
      (c_standard_volumetric_airflow c) (c_mass_airflow_ratio c)
      (c_standard_volumetric_airflow_per_capacity c)
      (c_external_static_pressure c).

  (** conditions.py:5-19 (also 106-139: the subclasses only change default
      arguments). *)
  Definition OperatingConditions (outdoor indoor : psych_state T) (speed : nat)
      (fan_speed : option nat) (rated_esp : option T) : C :=
    mkCond outdoor indoor speed false rated_esp fan_speed
      None None None None None None None None None None.

  Definition attr {A} (f : C -> option A) : st C A :=
    sread (fun c => need AttributeError (f c)).

  (** The common tail of conditions.py:44-48, 61-65, 69-73 and 86-90. *)
  Definition update_esp : st C unit :=
    do c <- sget ;;
    match c_rated_esp c with
    | None => sret tt
    | Some p => do r <- attr c_mass_airflow_ratio ;; smod (w_esp (p * nsq r))
    end.

  (** conditions.py:41-43, 58-60, 80-82, 97-99 *)
  Definition update_per_capacity : st C unit :=
    do sv <- attr c_standard_volumetric_airflow ;;
    do q <- attr c_rated_net_capacity ;;
    do x <- slift (pydiv sv q) ;;
    smod (w_per_capacity x).

  (** conditions.py:39-48, 56-65: the block run when a rated flow is known. *)
  Definition update_from_mass : st C unit :=
    do c <- sget ;;
    if c_rated_airflow_set c then
      do m <- attr c_mass_airflow ;;
      do rm <- attr c_rated_mass_airflow ;;
      do r <- slift (pydiv m rm) ;;
      smod (w_ratio r) ;;;
      update_per_capacity ;;;
      update_esp
    else sret tt.

  (** conditions.py:35-48 *)
  Definition set_volumetric_airflow (v : T) : st C unit :=
    do c <- sget ;;
    smod (w_flows (Some v) (c_mass_airflow c) (c_standard_volumetric_airflow c)) ;;;
    do rho <- slift (rho_of psy (c_indoor c)) ;;
    let m := v * rho in
    smod (w_flows (Some v) (Some m) (c_standard_volumetric_airflow c)) ;;;
    do srho <- slift std_rho ;;
    do sv <- slift (pydiv m srho) ;;
    smod (w_flows (Some v) (Some m) (Some sv)) ;;;
    update_from_mass.

  (** conditions.py:21-33.  Simplification: the rated attributes are assigned
      together, so if the density lookup raises, the ones Python would already
      have assigned are not. *)
  Definition set_rated_volumetric_airflow (rated_v cap : T) : st C unit :=
    do c <- sget ;;
    do srho <- slift std_rho ;;
    do rho <- slift (rho_of psy (c_indoor c)) ;;
    do v <- slift (pydiv (rated_v * srho) rho) ;;
    smod (w_rated cap rated_v v (v * rho)) ;;;
    set_volumetric_airflow v.

  (** conditions.py:50-65 *)
  Definition set_standard_volumetric_airflow (sv : T) : st C unit :=
    do c <- sget ;;
    smod (w_flows (c_volumetric_airflow c) (c_mass_airflow c) (Some sv)) ;;;
    do srho <- slift std_rho ;;
    do rho <- slift (rho_of psy (c_indoor c)) ;;
    do v <- slift (pydiv (sv * srho) rho) ;;
    smod (w_flows (Some v) (Some (v * rho)) (Some sv)) ;;;
    update_from_mass.

  (** conditions.py:76-79, 93-96 *)
  Definition update_flows_from_mass (m : T) : st C unit :=
    do c <- sget ;;
    do rho <- slift (rho_of psy (c_indoor c)) ;;
    do v <- slift (pydiv m rho) ;;
    smod (w_flows (Some v) (Some m) (c_standard_volumetric_airflow c)) ;;;
    do srho <- slift std_rho ;;
    do sv <- slift (pydiv m srho) ;;
    smod (w_flows (Some v) (Some m) (Some sv)) ;;;
    update_per_capacity.

  (** conditions.py:67-82 *)
  Definition set_mass_airflow (m : T) : st C unit :=
    do c <- sget ;;
    smod (w_flows (c_volumetric_airflow c) (Some m)
            (c_standard_volumetric_airflow c)) ;;;
    update_esp ;;;
    if c_rated_airflow_set c then
      do rm <- attr c_rated_mass_airflow ;;
      do r <- slift (pydiv rm m) ;;
      smod (w_ratio r) ;;;
      update_flows_from_mass m
    else sret tt.

  (** conditions.py:84-99.  (Python assigns [mass_airflow] before the density
      lookup, the model with it.) *)
  Definition set_mass_airflow_ratio (r : T) : st C unit :=
    do c <- sget ;;
    smod (w_ratio r) ;;;
    update_esp ;;;
    if c_rated_airflow_set c then
      do rm <- attr c_rated_mass_airflow ;;
      update_flows_from_mass (r * rm)
    else sret tt.

  (** conditions.py:101-103 *)
  Definition set_new_fan_speed (f : nat) (airflow : T) : st C unit :=
    smod (w_fan_speed f) ;;;
    set_standard_volumetric_airflow airflow.
End Conditions.
