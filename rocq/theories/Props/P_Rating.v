(** Properties C49, C50 and C59: the ratings of constructed RESNET units. *)
From Coq Require Import Reals Lra List String.
From Verif.Base Require Import Num Res Tac.
From Verif.Model Require Import Units Util Psychrometrics Conditions Fan Tabular Unit Resnet DXUnit RatingSolver.
From Verif.Spec Require Import RatingSpec.
From Verif.Proofs Require Import RatingProofs SingleRating2 ToyBuild ToyResnetTable Secant ToyResnet
  ToyResnet2.
Import ListNotations.
Local Open Scope R_scope.

(** C49: a single-stage unit made from its ratings has exactly the SEER and EER it was
    given.  With a BPM motor the rated heating airflow must not exceed the cooling one: see
    DESIGN.md. *)
Theorem C49_single_stage_ratings : forall psy sol a u,
  outdoor_states_exist psy ->
  rated_single_stage a ->
  DXUnit psy sol (RESNETDXModel psy sol) a = Ok u ->
  get_kwarg_value "motor_type" (a_kwargs a) <> KMotor MotorBPM \/ heating_flow_within_cooling u ->
  (forall s, a_seer a = Some s -> seer sol (RESNETDXModel psy sol) u = Ok s) /\
  (forall e, a_eer a = Some e -> eer sol (RESNETDXModel psy sol) u None = Ok e).
Proof. exact single_reproduces_ratings. Qed.
Print Assumptions C49_single_stage_ratings.

(** A 10 kW unit of SEER 14 and EER 12 with the default motor. *)
Example C49_nonvacuous : exists u,
  outdoor_states_exist lin_psy /\ rated_single_stage (toy_args 8 3.5)
  /\ DXUnit lin_psy rt_sol (RESNETDXModel lin_psy rt_sol) (toy_args 8 3.5) = Ok u
  /\ get_kwarg_value "motor_type" (a_kwargs (toy_args 8 3.5)) <> KMotor MotorBPM
  /\ a_seer (toy_args 8 3.5) = Some 14 /\ a_eer (toy_args 8 3.5) = Some 12.
Proof.
  destruct (toy_table 3.5 8) as (net & N & _ & Cl); [lra|].
  destruct (toy_built 8 3.5 net) as (g & P & s & b & n & E & _); [lra|exact N|exact Cl|].
  eexists. split; [intros t _; eexists; reflexivity|].
  split; [repeat split; [left; reflexivity|eexists; reflexivity|right; eexists; reflexivity|apply lit0_R]|].
  split; [exact E|]. split; [discriminate|]. split; reflexivity.
Qed.

(** C50: with a root finder accurate to [tol] (exact for [tol = 0]), the unit has the
    HSPF asked for, *)
Theorem C50_rating_unit_meets_hspf : forall psy sol tol (r : solver_inputs) u,
  newton_finds_roots tol sol ->
  make_rating_unit psy sol r = Ok u ->
  exists v, hspf sol (RESNETDXModel psy sol) u 4 = Ok v /\ Rabs (v - ri_hspf r) <= tol.
Proof. exact rating_meets_hspf. Qed.
Print Assumptions C50_rating_unit_meets_hspf.

(** An exact root finder, and an HSPF for which it makes the solver find a unit (of SEER 14). *)
Example C50_nonvacuous : exists hs u,
  newton_finds_roots 0 rt_sol /\ outdoor_states_exist lin_psy
  /\ make_rating_unit lin_psy rt_sol (toy_inputs hs) = Ok u
  /\ ri_hspf (toy_inputs hs) = hs /\ ri_seer (toy_inputs hs) = 14.
Proof.
  destruct toy_rating_unit as (hs & u & E). exists hs, u.
  split; [exact rt_sol_sound|]. split; [intros t _; eexists; reflexivity|].
  split; [exact E|]. split; reflexivity.
Qed.

(** and the SEER asked for, for every staging type. *)
Theorem C50_rating_unit_meets_seer : forall psy sol tol (r : solver_inputs) u,
  newton_finds_roots tol sol ->
  (ri_staging r = SINGLE_STAGE -> outdoor_states_exist psy) ->
  make_rating_unit psy sol r = Ok u ->
  exists v, seer sol (RESNETDXModel psy sol) u = Ok v /\ Rabs (v - ri_seer r) <= tol.
Proof. exact rating_meets_seer_any. Qed.
Print Assumptions C50_rating_unit_meets_seer.

(** C59: other heating efficiency inputs change no cooling result and no heating
    capacity of a RESNET unit. *)
Theorem C59_heating_efficiency_leaves_cooling : forall psy sol g n c h a u u',
  DXUnit psy sol (RESNETDXModel psy sol) a = Ok u ->
  DXUnit psy sol (RESNETDXModel psy sol) (with_heating_efficiency g n c h a) = Ok u' ->
  same_cooling sol (RESNETDXModel psy sol) u u' /\
  same_heating_capacity sol (RESNETDXModel psy sol) u u'.
Proof. exact heating_efficiency_cooling. Qed.
Print Assumptions C59_heating_efficiency_leaves_cooling.

(** Two units that differ in HSPF and heating COP. *)
Example C59_nonvacuous : exists u u',
  DXUnit lin_psy rt_sol (RESNETDXModel lin_psy rt_sol) (toy_args 8 3.5) = Ok u
  /\ DXUnit lin_psy rt_sol (RESNETDXModel lin_psy rt_sol)
       (with_heating_efficiency (a_gross_hcop (toy_args 8 3.5)) (Some (Scalar 4))
          (a_cd_h (toy_args 8 3.5)) (Some 9) (toy_args 8 3.5)) = Ok u'
  /\ u <> u'.
Proof.
  destruct (toy_table 3.5 8) as (net & N & _ & Cl); [lra|].
  destruct (toy_built 8 3.5 net) as (g & P & s & b & n & E & _); [lra|exact N|exact Cl|].
  destruct (toy_table 4 9) as (net' & N' & _ & Cl'); [lra|].
  destruct (toy_built 9 4 net') as (g' & P' & s' & b' & n' & E' & _); [lra|exact N'|exact Cl'|].
  eexists. eexists. split; [exact E|]. split; [exact E'|].
  intros H. apply (f_equal u_hspf) in H. cbn [u_hspf toy_unit u_full tunit] in H. injection H. lra.
Qed.
