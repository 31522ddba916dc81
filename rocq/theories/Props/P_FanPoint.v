(** Property C119: where a PSC fan operates in its duct system
    (fan.py:84-94, 139-151, 431-520). *)
From Coq Require Import Reals Lra List.
From Verif.Base Require Import Num Res.
From Verif.Model Require Import Units Fan.
From Verif.Spec Require Import FanSpec FanPointSpec.
From Verif.Proofs Require Import FanProofs4 FanPoint FanPoint2.
From Verif.Props Require Import P_Fan.
Import ListNotations.
Local Open Scope R_scope.

(** Whatever speeds were added and removed, the pressure found is, within the root finder's
    tolerance, the only one at which fan curve and system curve meet. *)
Theorem C119_operating_point : forall tol sol, sound_brentq tol sol ->
  forall airflows esp eff a0 (f f' : fan R) ops,
  make_psc_fan airflows esp eff = Ok f -> geti airflows 0 = Ok a0 -> 0 < a0 -> 0 < esp ->
  sfold run_op ops f = (f', Ok tt) ->
  forall i a x, geti (f_airflow f') i = Ok a -> operating_pressure sol f' i = Ok x ->
  exists p q, meets sol f' i p q /\ Rabs (x - p) <= tol
    /\ forall p' q', meets sol f' i p' q' -> p' = p /\ q' = q.
Proof. exact point. Qed.
Print Assumptions C119_operating_point.

(** A speed asked to move up to sqrt 3 times the design airflow has an operating point.  A
    speed below the design airflow runs below the design pressure and moves at least what
    was asked for; one above it runs above that pressure and moves at most that. *)
Theorem C119_around_the_design_point : forall sol, sound_brentq 0 sol ->
  forall airflows esp eff a0 (f f' : fan R) ops,
  make_psc_fan airflows esp eff = Ok f -> geti airflows 0 = Ok a0 -> 0 < a0 -> 0 < esp ->
  sfold run_op ops f = (f', Ok tt) ->
  forall i a, geti (f_airflow f') i = Ok a -> 0 <= a <= sqrt 3 * a0 ->
  exists x q, operating_pressure sol f' i = Ok x /\ airflow sol f' i None = Ok q /\ system_flow f' x = Ok q
    /\ (a <= a0 -> x <= esp /\ a <= q <= a0) /\ (a0 <= a -> esp <= x /\ a0 <= q <= a).
Proof. exact runs. Qed.
Print Assumptions C119_around_the_design_point.

(** The first speed runs at the design point. *)
Theorem C119_first_speed : forall sol airflows esp eff a0 (f : fan R), sound_brentq 0 sol ->
  make_psc_fan airflows esp eff = Ok f -> geti airflows 0 = Ok a0 -> 0 < a0 -> 0 < esp ->
  operating_pressure sol f 0 = Ok esp /\ airflow sol f 0 None = Ok a0.
Proof. exact runs_as_designed. Qed.
Print Assumptions C119_first_speed.

(** Of two speeds the one asked for more air moves more, at a higher pressure. *)
Theorem C119_more_air_higher_pressure : forall sol, sound_brentq 0 sol ->
  forall airflows esp eff a0 (f f' : fan R) ops,
  make_psc_fan airflows esp eff = Ok f -> geti airflows 0 = Ok a0 -> 0 < a0 -> 0 < esp ->
  sfold run_op ops f = (f', Ok tt) ->
  forall i j a b x x' q q', geti (f_airflow f') i = Ok a -> geti (f_airflow f') j = Ok b -> 0 <= a < b ->
  operating_pressure sol f' i = Ok x -> operating_pressure sol f' j = Ok x' ->
  airflow sol f' i None = Ok q -> airflow sol f' j None = Ok q' -> x < x' /\ q < q'.
Proof. exact runs_higher. Qed.
Print Assumptions C119_more_air_higher_pressure.

(** A root finder as assumed, and a fan of three speeds with their operating points. *)
Example C119_case : sound_brentq 0 ideal_solvers
  /\ exists f : fan R, make_psc_fan [0.5; 0.3; 0.2] 125 700 = Ok f
    /\ sfold run_op [] f = (f, Ok tt)
    /\ geti (f_airflow f) 0 = Ok 0.5 /\ geti (f_airflow f) 1 = Ok 0.3
    /\ exists x x' q q', operating_pressure ideal_solvers f 0 = Ok x /\ operating_pressure ideal_solvers f 1 = Ok x'
       /\ airflow ideal_solvers f 0 None = Ok q /\ airflow ideal_solvers f 1 None = Ok q'.
Proof.
  assert (S : sound_brentq 0 ideal_solvers) by (apply ideal_sound; lra). split; [exact S|].
  destruct C15_nonvacuous as (f & F). exists f. split; [exact F|]. split; [reflexivity|].
  assert (A : geti (f_airflow f) 0 = Ok 0.5 /\ geti (f_airflow f) 1 = Ok 0.3).
  { unfold make_psc_fan in F. apply FanProofs2.init_fan_facts in F as (a1 & _ & _ & _ & A4 & _).
    rewrite A4. split; reflexivity. }
  destruct A as (A0 & A1). split; [exact A0|]. split; [exact A1|].
  assert (T : 1 <= sqrt 3) by (rewrite <- sqrt_1; apply sqrt_le_1_alt; lra).
  destruct (runs ideal_solvers S _ _ _ _ f f [] F eq_refl ltac:(lra) ltac:(lra) eq_refl 0 _ A0 ltac:(lra)) as (x & q & X & Q & _).
  destruct (runs ideal_solvers S _ _ _ _ f f [] F eq_refl ltac:(lra) ltac:(lra) eq_refl 1 _ A1 ltac:(lra)) as (x' & q' & X' & Q' & _).
  exists x, x', q, q'. repeat split; assumption.
Qed.
