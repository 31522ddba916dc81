(** Specifications for resetting the rated airflow of a unit (C89). *)
From Coq Require Import Reals List.
From Verif.Base Require Import Num Res.
From Verif.Model Require Import Units Conditions Fan Tabular Unit.
From Verif.Spec Require Import CondSpec TestSpec.
Import ListNotations.
Local Open Scope R_scope.

(** The airflows per capacity of each speed: a single number stands for all speeds. *)
Definition flow_list (x : num_or_list R) (n : nat) : list R :=
  match x with Many l => l | Scalar v => repeat v n end.

(** What is passed for each mode. *)
Definition flow_of (m : mode) (fc fh : num_or_list R) : num_or_list R :=
  match m with Cooling => fc | Heating => fh end.
Definition flows (m : mode) (u : dxunit R) (fc fh : num_or_list R) : list R :=
  flow_list (flow_of m fc fh) (sd_n (side_of m u)).

(** New airflow of each speed: rated capacity times airflow per capacity. *)
Definition new_airflows (m : mode) (u : dxunit R) (fc fh : num_or_list R) : list R :=
  map (fun qx => fst qx * snd qx) (combine (sd_net_cap (side_of m u)) (flows m u fc fh)).

(** ... and the pressure it is rated at: [e] at the airflow of the first speed, changing
    with the square of the airflow. *)
Definition new_speeds (m : mode) (u : dxunit R) (fc fh : num_or_list R) (e : R) : list (R * R) :=
  let l := new_airflows m u fc fh in
  map (fun a => (a, e * (a / hd 0 l) ^ 2)) l.

(** [f'] is [f] after [add_speed(airflow, pressure)] for each pair of the list. *)
Inductive with_speeds : fan R -> list (R * R) -> fan R -> Prop :=
| with_none f : with_speeds f [] f
| with_one f f1 f' a p l :
    add_speed a (Some p) f = (f1, Ok tt) -> with_speeds f1 l f' -> with_speeds f ((a, p) :: l) f'.

(** Number of the fan speed added for compressor speed [i]: after the [n] there were,
    those for cooling come first. *)
Definition new_fan_speed (m : mode) (u : dxunit R) (fc fh : num_or_list R) (n i : nat) : nat :=
  match m with
  | Cooling => n + i
  | Heating => n + List.length (flows Cooling u fc fh) + i
  end.

(** The condition now uses fan speed [k] and standard airflow [a]; the air, the compressor
    speed and all rated values are as before. *)
Definition moved (k : nat) (a : R) (c c' : cond R) : Prop :=
  same_setup c c'
  /\ c_fan_speed c' = Some k
  /\ c_standard_volumetric_airflow c' = Some a
  /\ c_rated_net_capacity c' = c_rated_net_capacity c
  /\ c_rated_standard_volumetric_airflow c' = c_rated_standard_volumetric_airflow c
  /\ c_rated_mass_airflow c' = c_rated_mass_airflow c.
