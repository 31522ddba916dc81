(** Property C121: where an EERE fan operates in its duct system (fan.py:84-94, 139-151, 634-794). *)
From Coq Require Import Reals Lra List.
From Verif.Base Require Import Num Res Tac.
From Verif.Model Require Import Units Fan.
From Verif.Spec Require Import FanSpec EereSpec.
From Verif.Proofs Require Import FanProofs4 Eere2 EereDuct.
Import ListNotations.
Local Open Scope R_scope.

(** A fan of at least 925 cfm per inch of design pressure: every speed of up to sqrt 3 times
    the design airflow has an operating point, at the pressure the ducts oppose to its airflow. *)
Theorem C121_operating_point : forall m flows a0 esp (f : fan R),
  fan_of m flows a0 esp f -> 0 < a0 -> 0 < esp ->
  forall tol sol i a, sound_brentq tol sol -> esp <= 9 -> 925 * esp <= a0 ->
  geti flows i = Ok a -> 0 <= a <= sqrt 3 * a0 ->
  exists x, operating_pressure sol f i = Ok x /\ Rabs (x - fr_inH2O (esp * (a / a0) ^ 2)) <= tol.
Proof. exact eere_point. Qed.
Print Assumptions C121_operating_point.

(** Every EERE fan operates at its design point: not a fan of 50 cfm at 0.39 inches with a
    controlled PSC motor, for which the root finder raises ValueError.  Its airflow rises
    with the pressure faster than what the ducts let through. *)
Theorem C121_every_fan_operates_refuted : forall tol sol (f : fan R),
  sound_brentq tol sol -> fan_of PSCWithControls [50] 50 0.39 f ->
  operating_pressure sol f 0 = Err ValueError.
Proof. exact small_fan. Qed.
Print Assumptions C121_every_fan_operates_refuted.

(** A root finder as assumed, a 3-ton fan of every motor, and the fan of 50 cfm. *)
Example C121_case : sound_brentq 0 ideal_solvers
  /\ (forall m, exists f, fan_of m [1200; 900] 1200 0.5 f) /\ 0.5 <= 9 /\ 925 * 0.5 <= 1200
  /\ geti [1200; 900] 1 = Ok 900 /\ 0 <= 900 <= sqrt 3 * 1200
  /\ exists f, fan_of PSCWithControls [50] 50 0.39 f.
Proof.
  assert (1 <= sqrt 3) by (rewrite <- sqrt_1; apply sqrt_le_1_alt; lra).
  split; [apply ideal_sound; lra|]. split; [intros m; apply fan_exists; try reflexivity; lra|].
  split; [lra|]. split; [lra|]. split; [reflexivity|]. split; [lra|].
  apply fan_exists; try reflexivity; lra.
Qed.
