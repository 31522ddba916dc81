(** Specifications for default fans (C78) and constant units (C79). *)
From Coq Require Import Reals List.
From Verif.Base Require Import Num Res.
From Verif.Model Require Import Units Psychrometrics Conditions Defrost Fan Tabular Unit
  BaseModel Title24 DXUnit.
From Verif.Spec Require Import NrelSpec UnitModels.
Import ListNotations.
Local Open Scope R_scope.

(** Models that take over the fan defaults of the base class. *)
Definition base_fan_model (M : dxmodel R) : Prop :=
  In M [BaseDXModel; ConstantDXModel; CarrierDefrostModel].

(** Cubic feet per minute and ton, in m3/s per W; watts per cubic foot per minute, in
    W/(m3/s). *)
Definition per_ton (cfm : R) : R := cfm * (0.028316846592 / 60) / (12000 * (1055.056 / 3600)).
Definition per_cfm (w : R) : R := w / (0.028316846592 / 60).

(** Speed [i] of a mode runs at fan speed [k]: the unit's rated airflow is [v] and its rated
    fan power [w], and the fan delivers this airflow and draws this power there, whatever
    the pressure. *)
Definition served (sol : solvers R) (u : dxunit R) (m : mode) (i k : nat) (v w : R) : Prop :=
  entry (sd_airflow (side_of m u)) i v
  /\ entry (sd_fan_power (side_of m u)) i w
  /\ (exists l, sd_fan_speed (side_of m u) = Some l /\ nth_error l i = Some (Some k))
  /\ (exists l, sd_rated_fan_speed (side_of m u) = Some l /\ nth_error l i = Some (Some k))
  /\ exists f, u_fan u = Some f
     /\ forall p, airflow sol f k p = Ok v /\ power sol f k p = Ok w.

(** Gross from net capacity: the fan adds its heat when heating, takes it away when cooling. *)
Definition gross_of_net (m : mode) (q w : R) : R :=
  match m with Cooling => q + w | Heating => q - w end.

(** [c] runs the compressor at speed [i] and the fan at the rated fan speed of [i]; air,
    airflow and pressure are arbitrary. *)
Definition runs (u : dxunit R) (m : mode) (i : nat) (c : cond R) : Prop :=
  c_speed c = i
  /\ (exists p, c_external_static_pressure c = Some p)
  /\ exists l, sd_rated_fan_speed (side_of m u) = Some l /\ nth_error l i = Some (c_fan_speed c).

(** The COPs of mode [m] are given, by a gross COP for all speeds or by net COPs. *)
Definition cop_given (m : mode) (a : dxargs R) : Prop :=
  (exists x, gross_input m a = Some (Scalar x))
  \/ gross_input m a = None /\ net_input m a <> None.
