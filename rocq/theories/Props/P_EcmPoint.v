(** Property C120: ECM fans against pressure and in their duct system
    (fan.py:84-94, 139-151, 526-632). *)
From Coq Require Import Reals Lra List.
From Verif.Base Require Import Num Res Tac.
From Verif.Model Require Import Units Fan.
From Verif.Spec Require Import FanSpec FanRatioSpec FanSpeedSpec FanPointSpec.
From Verif.Proofs Require Import UnitsR FanProofs4 FanSpeed EcmPoint.
Import ListNotations.
Local Open Scope R_scope.

(** Against a higher pressure an ECM fan draws no less power, moves no more air and needs
    strictly more power for each unit of air.  While the power it wants is within the limit
    the airflow is the rated one and the power strictly rises; beyond the limit it draws the
    limit and the airflow strictly falls. *)
Theorem C120_higher_pressure : forall sol airflows esp eff mx (f f' : fan R) ops a0,
  make_ecm_fan airflows esp eff mx = Ok f -> geti airflows 0 = Ok a0 ->
  Forall keeps_first ops -> sfold run_op ops f = (f', Ok tt) ->
  fr_W_per_cfm_inH2O 0.235 * esp <= eff -> (forall m, mx = Some m -> 0 < m) ->
  forall i a p p' w w' q q', geti (f_airflow f') i = Ok a -> 0 < a -> 0 <= p < p' ->
  power sol f' i (Some p) = Ok w -> power sol f' i (Some p') = Ok w' ->
  airflow sol f' i (Some p) = Ok q -> airflow sol f' i (Some p') = Ok q' ->
  w <= w' /\ q' <= q
  /\ ((forall m, mx = Some m -> ecm_wanted eff esp a a0 p' <= m) -> w < w' /\ q' = a /\ q = a)
  /\ (forall m, mx = Some m -> m < ecm_wanted eff esp a a0 p' -> w' = m /\ (0 < p -> q' < q))
  /\ forall x x', efficacy sol f' i (Some p) = Ok x -> efficacy sol f' i (Some p') = Ok x' -> x < x'.
Proof. exact harder. Qed.
Print Assumptions C120_higher_pressure.

(** The pressure found is, within the root finder's tolerance, the only one at which fan
    curve and system curve meet. *)
Theorem C120_operating_point : forall sol airflows esp eff mx (f f' : fan R) ops a0,
  make_ecm_fan airflows esp eff mx = Ok f -> geti airflows 0 = Ok a0 ->
  Forall keeps_first ops -> sfold run_op ops f = (f', Ok tt) ->
  fr_W_per_cfm_inH2O 0.235 * esp <= eff -> (forall m, mx = Some m -> 0 < m) -> 0 < a0 -> 0 < esp ->
  forall tol i a x, sound_brentq tol sol -> geti (f_airflow f') i = Ok a -> 0 < a ->
  operating_pressure sol f' i = Ok x ->
  exists p q, meets sol f' i p q /\ Rabs (x - p) <= tol
    /\ forall p' q', meets sol f' i p' q' -> p' = p /\ q' = q.
Proof. exact ecm_point. Qed.
Print Assumptions C120_operating_point.

(** A speed of up to sqrt 3 times the design airflow, within the power limit against no
    pressure, has an operating point. *)
Theorem C120_operating_point_found : forall sol airflows esp eff mx (f f' : fan R) ops a0,
  make_ecm_fan airflows esp eff mx = Ok f -> geti airflows 0 = Ok a0 ->
  Forall keeps_first ops -> sfold run_op ops f = (f', Ok tt) ->
  fr_W_per_cfm_inH2O 0.235 * esp <= eff -> (forall m, mx = Some m -> 0 < m) -> 0 < a0 -> 0 < esp ->
  forall tol i a, sound_brentq tol sol -> geti (f_airflow f') i = Ok a -> 0 < a <= sqrt 3 * a0 ->
  fr_W_per_cfm_inH2O 0.235 * esp < eff -> (forall m, mx = Some m -> ecm_wanted eff esp a a0 0 <= m) ->
  exists x, operating_pressure sol f' i = Ok x.
Proof. exact ecm_found. Qed.
Print Assumptions C120_operating_point_found.

(** A speed whose airflow [a] is within the power limit at the pressure the ducts then
    oppose, esp * (a / a0)^2, runs at that pressure. *)
Theorem C120_within_the_limit : forall sol airflows esp eff mx (f f' : fan R) ops a0,
  make_ecm_fan airflows esp eff mx = Ok f -> geti airflows 0 = Ok a0 ->
  Forall keeps_first ops -> sfold run_op ops f = (f', Ok tt) ->
  fr_W_per_cfm_inH2O 0.235 * esp <= eff -> (forall m, mx = Some m -> 0 < m) -> 0 < a0 -> 0 < esp ->
  forall tol i a x, sound_brentq tol sol -> geti (f_airflow f') i = Ok a -> 0 < a ->
  (forall m, mx = Some m -> ecm_wanted eff esp a a0 (esp * (a / a0) ^ 2) <= m) ->
  operating_pressure sol f' i = Ok x -> Rabs (x - esp * (a / a0) ^ 2) <= tol.
Proof. exact ecm_unlimited_point. Qed.
Print Assumptions C120_within_the_limit.

(** The first speed runs at the design point. *)
Theorem C120_first_speed : forall sol airflows esp eff mx a0 (f : fan R), sound_brentq 0 sol ->
  make_ecm_fan airflows esp eff mx = Ok f -> geti airflows 0 = Ok a0 -> 0 < a0 -> 0 < esp ->
  fr_W_per_cfm_inH2O 0.235 * esp < eff ->
  operating_pressure sol f 0 = Ok esp /\ airflow sol f 0 None = Ok a0 /\ power sol f 0 None = Ok (a0 * eff).
Proof. exact ecm_as_designed. Qed.
Print Assumptions C120_first_speed.

(** A root finder as assumed and a fan with a limit that binds against 5000 Pa, not 125 Pa. *)
Example C120_case : sound_brentq 0 ideal_solvers
  /\ exists f : fan R, make_ecm_fan [0.5] 125 700 (Some 400) = Ok f
    /\ Forall keeps_first [] /\ sfold run_op [] f = (f, Ok tt) /\ geti (f_airflow f) 0 = Ok 0.5
    /\ fr_W_per_cfm_inH2O 0.235 * 125 < 700
    /\ 0.5 <= sqrt 3 * 0.5
    /\ ecm_wanted 700 125 0.5 0.5 0 <= 400
    /\ ecm_wanted 700 125 0.5 0.5 125 <= 400 < ecm_wanted 700 125 0.5 0.5 5000
    /\ exists w w' q q', power ideal_solvers f 0 (Some 125) = Ok w /\ power ideal_solvers f 0 (Some 5000) = Ok w'
       /\ airflow ideal_solvers f 0 (Some 125) = Ok q /\ airflow ideal_solvers f 0 (Some 5000) = Ok q'.
Proof.
  split; [apply ideal_sound; lra|].
  destruct ecm_limited_case as (f & F & O & A & L & _). exists f.
  assert (S : fr_W_per_cfm_inH2O 0.235 * 125 < 700) by (unfold fr_W_per_cfm_inH2O, cfm, inH2O; rnum; lra).
  assert (T : 1 <= sqrt 3) by (rewrite <- sqrt_1; apply sqrt_le_1_alt; lra).
  assert (M : forall m, Some 400 = Some m -> 0 < m) by (intros m E; injection E as <-; lra).
  split; [exact F|]. split; [constructor|]. split; [exact O|]. split; [exact A|]. split; [exact S|]. split; [lra|].
  split; [|split; [split; [|exact L]|]].
  1,2: unfold ecm_wanted, ecm_law; replace (0.5 / 0.5) with 1 by lra; unfold fr_W_per_cfm_inH2O, cfm, inH2O; rnum; lra.
  destruct (moved_is ideal_solvers [0.5] 125 700 (Some 400) f f [] 0.5 F eq_refl (Forall_nil _) O ltac:(lra) M 0 0.5 125 A ltac:(lra) ltac:(lra)) as (_ & Q & W).
  destruct (moved_is ideal_solvers [0.5] 125 700 (Some 400) f f [] 0.5 F eq_refl (Forall_nil _) O ltac:(lra) M 0 0.5 5000 A ltac:(lra) ltac:(lra)) as (_ & Q' & W').
  do 4 eexists. split; [exact W|]. split; [exact W'|]. split; [exact Q|exact Q'].
Qed.
