(** Property C92: efficiency and blower speed of fans (fan.py). *)
From Coq Require Import Reals QArith Lra Lia List.
From Verif.Base Require Import Num Res Tac.
From Verif.Model Require Import Units Fan.
From Verif.Spec Require Import FanSpec FanRatioSpec FanSpeedSpec.
From Verif.Proofs Require Import UnitsR FanProofs FanProofs2 FanProofs3 FanProofs4 FanRatio FanSpeed.
Import ListNotations.
Local Open Scope R_scope.

(** For every fan the efficiency is airflow times pressure over power, so that efficiency
    times efficacy is the pressure. *)
Theorem C92_efficiency : forall sol (f : fan R) i esp e,
  efficiency sol f i esp = Ok e ->
  exists p a w, at_pressure sol f i esp p /\ airflow sol f i esp = Ok a /\ power sol f i esp = Ok w
    /\ w <> 0 /\ e = a * p / w
    /\ forall x, efficacy sol f i esp = Ok x -> e * x = p.
Proof. exact efficiency_is. Qed.
Print Assumptions C92_efficiency.

(** An ECM fan within its power limit converts at most half of its power into air power, *)
Theorem C92_ecm_efficiency : forall sol airflows esp eff mx (f f' : fan R) ops a0 a p i,
  make_ecm_fan airflows esp eff mx = Ok f -> geti airflows 0 = Ok a0 ->
  Forall keeps_first ops -> sfold run_op ops f = (f', Ok tt) -> geti (f_airflow f') i = Ok a ->
  forall e, 0 < p -> 0 < a -> fr_W_per_cfm_inH2O 0.235 * esp <= eff ->
  (forall m, mx = Some m -> ecm_wanted eff esp a a0 p <= m) ->
  efficiency sol f' i (Some p) = Ok e -> 0 < e < 0.501.
Proof. exact ecm_efficiency_below. Qed.
Print Assumptions C92_ecm_efficiency.

Example C92_ecm_efficiency_nonvacuous : forall sol, exists (f : fan R) e,
  make_ecm_fan [0.5] 125 700 (Some 400) = Ok f /\ sfold run_op [] f = (f, Ok tt)
  /\ geti (f_airflow f) 0 = Ok 0.5 /\ fr_W_per_cfm_inH2O 0.235 * 125 <= 700
  /\ ecm_wanted 700 125 0.5 0.5 150 <= 400
  /\ efficiency sol f 0 (Some 150) = Ok e.
Proof. exact ecm_efficiency_case. Qed.

(** but one at its limit, against a high enough pressure, delivers more than it draws. *)
Theorem C92_ecm_efficiency_refuted : forall sol, exists (f : fan R) e,
  make_ecm_fan [0.5] 125 700 (Some 400) = Ok f /\ efficiency sol f 0 (Some 5000) = Ok e /\ 1 < e.
Proof. exact ecm_efficiency_above_one. Qed.
Print Assumptions C92_ecm_efficiency_refuted.

(** The airflow of an ECM fan and its blower speed fall with the square root of the share of
    the wanted power that it may draw; up to that the blower turns at 1100 rpm at the design
    pressure, 463.5 rpm per inch of water faster above it, and with the airflow ratio. *)
Theorem C92_ecm_speed : forall sol airflows esp eff mx (f f' : fan R) ops a0 a p i,
  make_ecm_fan airflows esp eff mx = Ok f -> geti airflows 0 = Ok a0 ->
  Forall keeps_first ops -> sfold run_op ops f = (f', Ok tt) -> geti (f_airflow f') i = Ok a ->
  let share := ecm_drawn eff esp a a0 p mx / ecm_wanted eff esp a a0 p in
  p <> 0 -> 0 < a -> 0 < ecm_wanted eff esp a a0 p -> 0 < ecm_drawn eff esp a a0 p mx ->
  airflow sol f' i (Some p) = Ok (a * sqrt share)
  /\ rotational_speed sol f' i (Some p)
     = Ok ((rpm 1100 - rpm 463.5 / inH2O * (esp - p)) * (a / a0) * sqrt share).
Proof. exact ecm_speed. Qed.
Print Assumptions C92_ecm_speed.

Example C92_ecm_speed_nonvacuous : exists f : fan R,
  make_ecm_fan [0.5] 125 700 (Some 400) = Ok f /\ sfold run_op [] f = (f, Ok tt)
  /\ geti (f_airflow f) 0 = Ok 0.5
  /\ 400 < ecm_wanted 700 125 0.5 0.5 5000 /\ ecm_drawn 700 125 0.5 0.5 5000 (Some 400) = 400.
Proof. exact ecm_limited_case. Qed.

(** Fans other than PSC and ECM ones: 1100 rpm at the first speed, the others by airflow. *)
Theorem C92_other_speed : forall sol (f : fan R) i esp x,
  match f_class f with PSCFan | ECMFlowFan _ => False | _ => True end ->
  rotational_speed sol f i esp = Ok x ->
  exists a a0, airflow sol f i esp = Ok a /\ airflow sol f 0 esp = Ok a0 /\ a0 <> 0 /\ x = rpm 1100 * (a / a0).
Proof. exact plain_rotation. Qed.
Print Assumptions C92_other_speed.

Example C92_other_speed_nonvacuous : forall sol, exists (f : fan R) x,
  match f_class f with PSCFan | ECMFlowFan _ => False | _ => True end
  /\ rotational_speed sol f 1 (Some 100) = Ok x /\ x = rpm 1100 * 0.6.
Proof. exact other_speed_case. Qed.
