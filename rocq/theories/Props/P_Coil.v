(** C67, C68 (the coil), C69 (fit quality), and the two-speed part of C56. *)
From Coq Require Import Reals QArith Lra List Bool.
From Verif.Base Require Import Num Res Tac.
From Verif.Model Require Import Units Util Psychrometrics Conditions Defrost Fan Tabular Unit
  NREL BaseModel DXUnit.
From Verif.Spec Require Import NrelSpec UnitModels UnitSpec RatingSpec CopSpec CoilSpec
  FitSpec.
From Verif.Proofs Require Import CopProofs CopProofs2 CoilProofs ToyUnit ToyBuild ToyIdf
  ToyCoil FitProofs.
Import ListNotations.
Local Open Scope R_scope.

(** ** C56, two speeds *)

(** One net COP fixes every rated value of a two-speed unit, and the gross COP it leads to
    leads back to the same unit. *)
Theorem C56_nrel_two_speed : forall m x (u u1 : dxunit R),
  sd_n (side_of m u) = 2%nat ->
  two (sd_net_cop (side_of m u)) -> two (sd_net_power (side_of m u)) ->
  two (sd_gross_power (side_of m u)) -> two (sd_gross_cop (side_of m u)) ->
  nrel_set_net_cop m (Scalar x) u = (u1, Ok tt) ->
  two_speed_values m (side_of m u1) x /\
  exists c0, entry (sd_gross_cop (side_of m u1)) 0 c0 /\
    (caps_nonzero (side_of m u) -> nrel_set_gross_cop m (Scalar c0) u = (u1, Ok tt)).
Proof. exact nrel_net_two. Qed.
Print Assumptions C56_nrel_two_speed.

Example C56_nrel_two_speed_nonvacuous : exists (u u1 : dxunit R),
  sd_n (side_of Cooling u) = 2%nat /\ two (sd_net_cop (side_of Cooling u)) /\
  two (sd_net_power (side_of Cooling u)) /\ two (sd_gross_power (side_of Cooling u)) /\
  two (sd_gross_cop (side_of Cooling u)) /\ caps_nonzero (side_of Cooling u) /\
  nrel_set_net_cop Cooling (Scalar 4) u = (u1, Ok tt).
Proof. exact two_speed_example. Qed.

(** ** C67 *)

(** The outlet state of the cooling coil closes the energy balance with the gross
    capacities at the same conditions (or with the sensible capacity given). *)
Theorem C67_cooling_outlet_balance : forall psy M (u : dxunit R) c over o,
  gross_cooling_outlet_state psy M u (Some c) over = Ok o ->
  exists m q qs,
    c_mass_airflow c = Some m /\ m <> 0
    /\ gross_total_cooling_capacity M u (Some c) = Ok q
    /\ match over with
       | Some x => qs = x
       | None => gross_sensible_cooling_capacity M u (Some c) = Ok qs
       end
    /\ cooled psy m q qs (c_indoor c) o.
Proof. exact outlet_balance. Qed.
Print Assumptions C67_cooling_outlet_balance.

Theorem C67_heating_outlet_balance : forall psy M (u : dxunit R) c o,
  gross_heating_output_state psy M u (Some c) = Ok o ->
  exists m q,
    c_mass_airflow c = Some m /\ m <> 0
    /\ gross_steady_state_heating_capacity M u (Some c) = Ok q
    /\ heated psy m q (c_indoor c) o.
Proof. exact heat_balance. Qed.
Print Assumptions C67_heating_outlet_balance.

(** Without conditions: the rating conditions A and H1. *)
Theorem C67_cooling_outlet_default : forall psy M (u : dxunit R) c over,
  rc_A_full (u_conds u) = Some c ->
  gross_cooling_outlet_state psy M u None over
  = gross_cooling_outlet_state psy M u (Some c) over.
Proof. exact outlet_default. Qed.
Print Assumptions C67_cooling_outlet_default.

Theorem C67_heating_outlet_default : forall psy M (u : dxunit R) c,
  rc_H1_full (u_conds u) = Some c ->
  gross_heating_output_state psy M u None = gross_heating_output_state psy M u (Some c).
Proof. exact heat_default. Qed.
Print Assumptions C67_heating_outlet_default.

Example C67_cooling_nonvacuous : exists (u : dxunit R) c o,
  gross_cooling_outlet_state sat_psy ConstantDXModel u (Some c) None = Ok o
  /\ ps_db o < ps_db (c_indoor c).
Proof. exact outlet_example. Qed.
Example C67_heating_nonvacuous : exists (u : dxunit R) c o,
  gross_heating_output_state sat_psy ConstantDXModel u (Some c) = Ok o
  /\ ps_db (c_indoor c) < ps_db o.
Proof. exact heating_example. Qed.

(** ** C68 *)

(** With a Newton iteration that returns roots, [adp_state] returns an apparatus dew point
    of the coil whose outlet closes the energy balance; it raises if there is no sensible
    cooling. *)
Theorem C68_apparatus_dew_point : forall psy sol M tol (u : dxunit R) c a,
  newton_finds_roots tol sol ->
  adp_state psy sol M u (Some c) = Ok a ->
  exists m q qs o,
    c_mass_airflow c = Some m
    /\ gross_total_cooling_capacity M u (Some c) = Ok q
    /\ gross_sensible_cooling_capacity M u (Some c) = Ok qs
    /\ cooled psy m q qs (c_indoor c) o
    /\ qs <> 0
    /\ (0 < qs * m ->
        exists k, 0 <= k < 1 /\ apparatus_dew_point psy tol (c_indoor c) o a k).
Proof. exact adp_state_ok. Qed.
Print Assumptions C68_apparatus_dew_point.

Theorem C68_between_states : forall psy sol tol i o a,
  newton_finds_roots tol sol ->
  calculate_adp_state psy sol i o = Ok a ->
  ps_db i <> ps_db o
  /\ (ps_db o < ps_db i -> exists k, 0 <= k < 1 /\ apparatus_dew_point psy tol i o a k).
Proof. exact adp_ok. Qed.
Print Assumptions C68_between_states.

(** Unlike its siblings, [adp_state] has no default conditions although its signature says
    so: [adp_state()] always raises. *)
Theorem C68_default_conditions_refuted : forall psy sol M (u : dxunit R),
  (exists e, adp_state psy sol M u None = Err e)
  /\ forall o, gross_cooling_outlet_state psy M u None None = Ok o ->
     adp_state psy sol M u None = Err AttributeError.
Proof. exact adp_state_no_default. Qed.
Print Assumptions C68_default_conditions_refuted.

Example C68_nonvacuous : exists (u : dxunit R) c a q,
  newton_finds_roots 0 ask_sol
  /\ adp_state sat_psy ask_sol ConstantDXModel u (Some c) = Ok a
  /\ c_mass_airflow c = Some (1 * 1.2)
  /\ gross_sensible_cooling_capacity ConstantDXModel u (Some c) = Ok q /\ 0 < q.
Proof. exact adp_example. Qed.

(** ** C69 *)

(** The coefficient of determination exists exactly when the source data vary. *)
Theorem C69_value : forall (s r : list R) v,
  length r = length s ->
  calculate_r_squared s r = Ok v <->
  varies s /\ v = 1 - distance2 s r / distance2 s (flat (average s) s).
Proof. exact r2_defined. Qed.
Print Assumptions C69_value.

Theorem C69_at_most_one : forall (s r : list R) v,
  length r = length s -> calculate_r_squared s r = Ok v -> v <= 1 /\ (v = 1 <-> r = s).
Proof. exact r2_at_most_one. Qed.
Print Assumptions C69_at_most_one.

Theorem C69_mean_scores_zero : forall s,
  varies s -> calculate_r_squared s (flat (average s) s) = Ok 0.
Proof. exact r2_mean. Qed.
Print Assumptions C69_mean_scores_zero.

(** A change of units (or of the zero point) of both lists does not change it. *)
Theorem C69_units : forall k b s r,
  k <> 0 -> varies s -> length r = length s ->
  calculate_r_squared (map (fun x => k * x + b) s) (map (fun x => k * x + b) r)
  = calculate_r_squared s r.
Proof. exact r2_units. Qed.
Print Assumptions C69_units.

(** One number stands for a constant fit. *)
Theorem C69_single_number : forall s y,
  varies s -> calculate_r_squared s [y] = calculate_r_squared s (flat y s).
Proof. exact r2_one. Qed.
Print Assumptions C69_single_number.

Example C69_nonvacuous : varies [1; 2; 4] /\ calculate_r_squared [1; 3] [2; 3] = Ok 0.5.
Proof.
  split; [exists 1, 2; simpl; repeat split; auto; lra|].
  apply C69_value; [reflexivity|]. split; [exists 1, 3; simpl; repeat split; auto; lra|].
  unfold average, flat. cbn. lra.
Qed.
