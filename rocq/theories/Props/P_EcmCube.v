(** Property C123: ECM fans and the fan laws in their duct system (fan.py:84-94, 96-151, 526-632). *)
From Coq Require Import Reals Lra List.
From Verif.Base Require Import Num Res Tac.
From Verif.Model Require Import Units Fan.
From Verif.Spec Require Import FanSpec FanRatioSpec FanSpeedSpec.
From Verif.Proofs Require Import UnitsR FanProofs4 FanSpeed EcmCube.
From Verif.Props Require P_Fan.
Import ListNotations.
Local Open Scope R_scope.

(** At its operating point a speed within the power limit moves its airflow; pressure and
    efficacy follow the square of the airflow ratio and power its cube. *)
Theorem C123_fan_laws : forall sol airflows esp eff mx (f f' : fan R) ops a0,
  make_ecm_fan airflows esp eff mx = Ok f -> geti airflows 0 = Ok a0 ->
  Forall keeps_first ops -> sfold run_op ops f = (f', Ok tt) ->
  fr_W_per_cfm_inH2O 0.235 * esp < eff -> 0 < a0 -> 0 < esp ->
  forall i a, sound_brentq 0 sol -> geti (f_airflow f') i = Ok a -> 0 < a <= sqrt 3 * a0 ->
  (forall m, mx = Some m -> a0 * eff * (a / a0) ^ 3 <= m) ->
  operating_pressure sol f' i = Ok (esp * (a / a0) ^ 2)
  /\ airflow sol f' i None = Ok a
  /\ power sol f' i None = Ok (a0 * eff * (a / a0) ^ 3)
  /\ efficacy sol f' i None = Ok (eff * (a / a0) ^ 2).
Proof. exact cube. Qed.
Print Assumptions C123_fan_laws.

(** The blower speed follows the airflow ratio: only for the design airflow.  It is lower
    for less air and higher for more. *)
Theorem C123_blower_speed_refuted : forall sol airflows esp eff mx (f f' : fan R) ops a0,
  make_ecm_fan airflows esp eff mx = Ok f -> geti airflows 0 = Ok a0 ->
  Forall keeps_first ops -> sfold run_op ops f = (f', Ok tt) ->
  fr_W_per_cfm_inH2O 0.235 * esp < eff -> 0 < a0 -> 0 < esp ->
  forall i a, sound_brentq 0 sol -> geti (f_airflow f') i = Ok a -> 0 < a <= sqrt 3 * a0 ->
  (forall m, mx = Some m -> a0 * eff * (a / a0) ^ 3 <= m) ->
  exists n, rotational_speed sol f' i None = Ok n
    /\ (a < a0 -> n < rpm 1100 * (a / a0)) /\ (a = a0 -> n = rpm 1100) /\ (a0 < a -> rpm 1100 * (a / a0) < n).
Proof. exact blower. Qed.
Print Assumptions C123_blower_speed_refuted.

(** A fan of two speeds with a limit of 400 W that neither reaches. *)
Example C123_case : sound_brentq 0 ideal_solvers
  /\ exists f : fan R, make_ecm_fan [0.5; 0.3] 125 700 (Some 400) = Ok f
    /\ Forall keeps_first [] /\ sfold run_op [] f = (f, Ok tt) /\ geti (f_airflow f) 1 = Ok 0.3
    /\ fr_W_per_cfm_inH2O 0.235 * 125 < 700 /\ 0.3 <= sqrt 3 * 0.5
    /\ 0.5 * 700 * (0.3 / 0.5) ^ 3 <= 400.
Proof.
  split; [apply ideal_sound; lra|]. destruct P_Fan.C16_nonvacuous as (f & F). exists f. split; [exact F|].
  split; [constructor|]. split; [reflexivity|].
  assert (T : 1 <= sqrt 3) by (rewrite <- sqrt_1; apply sqrt_le_1_alt; lra).
  split; [|split; [unfold fr_W_per_cfm_inH2O, cfm, inH2O; rnum; lra|split; lra]].
  unfold make_ecm_fan in F. cbn [geti rbind] in F. inv_ok.
  match goal with H : init_fan _ _ _ _ _ _ = Ok _ |- _ =>
    apply FanProofs2.init_fan_facts in H as (a1 & _ & _ & _ & A4 & _) end.
  rewrite A4. reflexivity.
Qed.
