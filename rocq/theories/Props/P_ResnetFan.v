(** Property C95: the fan of a RESNET unit to which none was given. *)
From Coq Require Import Reals Lra List Bool String.
From Verif.Base Require Import Num Res Tac.
From Verif.Model Require Import Units Util Psychrometrics Conditions Fan Tabular Unit Resnet DXUnit RatingSolver.
From Verif.Spec Require Import NrelSpec DefaultSpec ResnetFanSpec.
From Verif.Proofs Require Import UnitsR ToyBuild ToyResnetTable ToyResnet Secant ResnetFan3.
Import ListNotations.
Local Open Scope R_scope.

(** The motor is the one asked for, else PSC for single-stage and BPM for other units, and the
    highest blower speed delivers the larger of the two full-load airflows. *)
Theorem C95_motor_and_top_speed : forall psy sol a (u : dxunit R),
  DXUnit psy sol (RESNETDXModel psy sol) a = Ok u -> a_fan a = None ->
  exists f k ac ah, u_fan u = Some f /\ motor_for a u k /\ f_class f = motor_fan k
    /\ entry (sd_airflow (u_c u)) (sd_full (u_c u)) ac /\ entry (sd_airflow (u_h u)) (sd_full (u_h u)) ah
    /\ forall p, airflow sol f 0 p = Ok (Rmax ac ah).
Proof. exact fan_motor. Qed.
Print Assumptions C95_motor_and_top_speed.

(** At every speed the rated airflow is the rated net capacity times the airflow per capacity
    wanted, the fan delivers it in operation and in ratings, and the rated fan power is what it
    draws there against the rated pressure. *)
Theorem C95_every_speed_served : forall psy sol a (u : dxunit R),
  DXUnit psy sol (RESNETDXModel psy sol) a = Ok u -> a_fan a = None ->
  forall m i q, nth_error (sd_net_cap (side_of m u)) i = Some q ->
  exists f x p w, u_fan u = Some f /\ wanted_flow m a i x /\ fan_serves sol f (side_of m u) i (q * x) p w.
Proof. exact fan_speeds. Qed.
Print Assumptions C95_every_speed_served.

(** Except at full load, that pressure is the one of the rating conditions at the speed. *)
Theorem C95_rated_at_the_rating_pressure : forall psy sol a (u : dxunit R),
  DXUnit psy sol (RESNETDXModel psy sol) a = Ok u -> a_fan a = None ->
  forall m i q p c o r, nth_error (sd_net_cap (side_of m u)) i = Some q ->
  entry (sd_esp (side_of m u)) i p -> make_condition psy m u i o r = Ok c ->
  i <> sd_full (side_of m u) -> c_external_static_pressure c = Some p.
Proof. exact pressures. Qed.
Print Assumptions C95_rated_at_the_rating_pressure.

(** At full load it is the one of the rating conditions only if the airflow of speed 0 is the
    larger of the full-load airflows: below it where the other mode moves more air at full
    load, above it where a boost speed moves more than both. *)
Theorem C95_full_load_pressure : forall psy sol a (u : dxunit R),
  DXUnit psy sol (RESNETDXModel psy sol) a = Ok u -> a_fan a = None ->
  forall m m' v v' v0 p c o r P, m <> m' ->
  let full := sd_full (side_of m u) in
  entry (sd_airflow (side_of m u)) full v -> entry (sd_airflow (side_of m u)) 0 v0 ->
  entry (sd_airflow (side_of m' u)) (sd_full (side_of m' u)) v' ->
  entry (sd_esp (side_of m u)) full p -> make_condition psy m u full o r = Ok c ->
  get_rated_full_flow_rated_pressure u = Ok P -> 0 < P -> 0 < v -> 0 < v0 ->
  exists p', c_external_static_pressure c = Some p' /\ p' = P * ((v / v0) * (v / v0))
    /\ (v0 = Rmax v v' -> p = p') /\ (v0 < Rmax v v' -> p < p') /\ (Rmax v v' < v0 -> p' < p).
Proof. exact full_pressure. Qed.
Print Assumptions C95_full_load_pressure.

(** A single-stage unit of 10 kW. *)
Example C95_nonvacuous : exists u : dxunit R,
  DXUnit lin_psy rt_sol (RESNETDXModel lin_psy rt_sol) (toy_args 8 3.5) = Ok u
  /\ a_fan (toy_args 8 3.5) = None /\ u_staging u = SINGLE_STAGE
  /\ motor_for (toy_args 8 3.5) u MotorPSC
  /\ nth_error (sd_net_cap (u_c u)) 0 = Some 10000 /\ wanted_flow Cooling (toy_args 8 3.5) 0 (per_ton 400)
  /\ exists c, rc_A_full (u_conds u) = Some c.
Proof.
  destruct (toy_table 3.5 8) as (net & N & _ & Cl); [lra|].
  destruct (toy_built 8 3.5 net) as (g & P & s & b & n & E & _ & B & W & _); [lra|exact N|exact Cl|].
  eexists. split; [exact E|].
  repeat split. eexists. reflexivity.
Qed.
