(** The unit of the examples beside C84 and C85. *)
From Coq Require Import Reals Lra List String.
From Verif.Base Require Import Num Res Tac.
From Verif.Model Require Import Units Util Psychrometrics Conditions Fan Tabular Unit Resnet DXUnit RatingSolver.
From Verif.Spec Require Import RatingSpec.
From Verif.Proofs Require Import RatingProofs SingleRating2 ToyBuild ToyResnetTable Secant ToyResnet
  ToyResnet2 RatedEer.
Import ListNotations.
Local Open Scope R_scope.

Lemma toy_seer : exists u net,
  DXUnit lin_psy rt_sol (RESNETDXModel lin_psy rt_sol) (toy_args 8 3.5) = Ok u
  /\ rn_net (u_rn u) = Some net /\ p_nc net = 1%nat
  /\ seer rt_sol (RESNETDXModel lin_psy rt_sol) u = Ok 14.
Proof.
  destruct (toy_table 3.5 8) as (net & N & _ & Cl); [lra|].
  destruct (toy_built 8 3.5 net) as (g & P & s & b & n & E & _); [lra|exact N|exact Cl|].
  assert (O : outdoor_states_exist lin_psy) by (intros t _; eexists; reflexivity).
  assert (A : rated_single_stage (toy_args 8 3.5)).
  { repeat split; [left; reflexivity|eexists; reflexivity|right; eexists; reflexivity|apply lit0_R]. }
  assert (M : get_kwarg_value "motor_type" (a_kwargs (toy_args 8 3.5)) <> KMotor MotorBPM) by discriminate.
  eexists. exists net. split; [exact E|]. split; [reflexivity|].
  split; [apply RatedEer.single_n in N; exact (proj1 N)|].
  exact (proj1 (single_reproduces_ratings _ _ _ _ O A E (or_introl M)) 14 eq_refl).
Qed.
