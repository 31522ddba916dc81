(** Reading the properties about the performance tables of a RESNET unit. *)
From Coq Require Import Reals List String.
From Verif.Base Require Import Num Res.
From Verif.Model Require Import Units Util Psychrometrics Conditions Fan Tabular Unit NREL BaseModel Title24 Resnet DXUnit.
From Verif.Spec Require Import NrelSpec TabularSpec.
Import ListNotations.
Local Open Scope R_scope.

(** Unit speeds (0 is the highest) and the table speeds (1 is the lowest) they stand for.
    The intermediate speed 2 of a variable-speed unit lies between two table speeds. *)
Definition table_columns (s : staging_type) : list (nat * nat) :=
  match s with
  | SINGLE_STAGE => [(0, 1)]
  | TWO_STAGE => [(0, 2); (1, 1)]
  | VARIABLE_SPEED => [(0, 3); (1, 2); (3, 1)]
  end%nat.

(** The interpolators of the four tables were made from their current data. *)
Definition interpolators_set (p : perf R) : Prop :=
  up_to_date (p_cc p) /\ up_to_date (p_cp p) /\ up_to_date (p_hc p) /\ up_to_date (p_hp p).

(** The tables and the unit's net values of one mode. *)
Definition table_speeds (m : mode) (p : perf R) : nat :=
  match m with Cooling => p_nc p | Heating => p_nh p end.
Definition table_capacity (m : mode) : perf R -> R -> R -> res R :=
  match m with Cooling => cooling_capacity | Heating => heating_capacity end.
Definition table_power (m : mode) : perf R -> R -> R -> res R :=
  match m with Cooling => cooling_power | Heating => heating_power end.
Definition net_capacity (sol : solvers R) (M : dxmodel R) (m : mode) :=
  match m with
  | Cooling => net_total_cooling_capacity sol M
  | Heating => net_steady_state_heating_capacity sol M
  end.
Definition net_power (sol : solvers R) (M : dxmodel R) (m : mode) :=
  match m with
  | Cooling => net_cooling_power sol M
  | Heating => net_steady_state_heating_power sol M
  end.
(** A fan adds its heat to the air: less cooling, more heating. *)
Definition fan_heat (m : mode) (w : R) : R :=
  match m with Cooling => - w | Heating => w end.
Definition table_cop (m : mode) : perf R -> R -> R -> res R :=
  match m with Cooling => cooling_cop | Heating => heating_cop end.
Definition net_cop (sol : solvers R) (M : dxmodel R) (m : mode) :=
  match m with
  | Cooling => net_total_cooling_cop sol M
  | Heating => net_steady_state_heating_cop sol M
  end.

(** The inputs of a unit whose tables are made from its ratings: one rated cooling
    capacity [q], no list of heating capacities, no fan or performance tables of its own,
    nominal refrigerant charge.  The rated heating capacity [h] is given or follows from
    [q] by the regression of the staging type. *)
Definition rated_unit (a : dxargs R) (st : staging_type) (q h : R) : Prop :=
  a_ccap a = Scalar q /\ q <> 0 /\ h <> 0
  /\ match a_hcap a with
     | Some (Scalar x) => h = x
     | Some (Many _) => False
     | None => match st with
               | VARIABLE_SPEED => h = 1.022 * q + fr_Btuh 607
               | _ => h = 0.98 * q + fr_Btuh 180
               end
     end
  /\ a_fan a = None /\ a_charge a = 0
  /\ get_kwarg_value "tabular_data" (a_kwargs a) = KNone.

(** The pressure at which the rated fan power of speed [i] was computed is the pressure of
    the condition, or does not matter because the motor is a PSC motor. *)
Definition fan_at_rated_pressure (u : dxunit R) (m : mode) (c : cond R) : Prop :=
  rn_motor (u_rn u) = Some MotorPSC
  \/ exists e, entry (sd_esp (side_of m u)) (c_speed c) e /\ c_external_static_pressure c = Some e.
