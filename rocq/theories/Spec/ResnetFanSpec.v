(** Reading property C95: the fan of a RESNET unit to which none was given. *)
From Coq Require Import Reals List String.
From Verif.Base Require Import Num Res.
From Verif.Model Require Import Units Fan Tabular Unit DXUnit.
From Verif.Spec Require Import NrelSpec DefaultSpec.
Import ListNotations.
Local Open Scope R_scope.

(** The airflow per capacity wanted at speed [i]: the number or the list entry given, else
    400 cubic feet per minute and ton. *)
Definition flow_given (m : mode) (a : dxargs R) : option (num_or_list R) :=
  match m with Cooling => a_cflow a | Heating => a_hflow a end.
Definition wanted_flow (m : mode) (a : dxargs R) (i : nat) (x : R) : Prop :=
  match flow_given m a with
  | None => x = per_ton 400
  | Some (Scalar y) => x = y
  | Some (Many l) => nth_error l i = Some x
  end.

(** The fan a motor type stands for; without one single-stage units get a PSC motor. *)
Definition motor_fan (k : motor_type) : fan_class R :=
  match k with MotorPSC => RESNETPSCFan | MotorBPM => RESNETBPMFan end.
Definition motor_for (a : dxargs R) (u : dxunit R) (k : motor_type) : Prop :=
  match get_kwarg_value "motor_type" (a_kwargs a) with
  | KMotor k' => k = k'
  | _ => k = match u_staging u with SINGLE_STAGE => MotorPSC | _ => MotorBPM end
  end.

(** Speed [i] has rated airflow [v], rated pressure [p] and rated fan power [w]; the fan
    delivers [v] at the speed used in operation and at the one used in ratings, and draws
    [w] at the latter against [p]. *)
Definition fan_serves (sol : solvers R) (f : fan R) (s : side R) (i : nat) (v p w : R) : Prop :=
  entry (sd_airflow s) i v /\ entry (sd_esp s) i p /\ entry (sd_fan_power s) i w
  /\ (exists l k, sd_fan_speed s = Some l /\ nth_error l i = Some (Some k)
        /\ forall p', airflow sol f k p' = Ok v)
  /\ (exists l k, sd_rated_fan_speed s = Some l /\ nth_error l i = Some (Some k)
        /\ (forall p', airflow sol f k p' = Ok v) /\ power sol f k (Some p) = Ok w).
