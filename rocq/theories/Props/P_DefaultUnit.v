(** Property C102: units made without arguments (dx_unit.py:141-387). *)
From Coq Require Import String Reals Lra List.
From Verif.Base Require Import Num Res Tac.
From Verif.Model Require Import Units Psychrometrics Conditions Defrost Fan Tabular Unit BaseModel Resnet DXUnit.
From Verif.Spec Require Import NrelSpec UnitModels UnitSpec SettingsSpec DefaultSpec DefaultUnitSpec.
From Verif.Proofs Require Import Secant ToyBuild ToyResnet DefaultUnit DefaultUnit2.
Import ListNotations.
Local Open Scope R_scope.

Theorem C102_unit : forall psy sol M u, plain_model sol M ->
  DXUnit psy sol M default_args = Ok u -> single_speed_3_tons u.
Proof. exact default_single. Qed.
Print Assumptions C102_unit.

Theorem C102_settings : forall psy sol M u, plain_model sol M ->
  DXUnit psy sol M default_args = Ok u -> usual_settings u.
Proof. exact default_settings. Qed.
Print Assumptions C102_settings.

(** With the default fan the rated net COPs are 3.14 (EER 10.7) and 3.44. *)
Theorem C102_net_cops : forall psy sol M u, plain_model sol M ->
  DXUnit psy sol M default_args = Ok u -> base_fan_model M -> exists c h,
  entry (sd_net_cop (u_c u)) 0 c /\ 3.142 < c < 3.143
  /\ entry (sd_net_cop (u_h u)) 0 h /\ 3.442 < h < 3.443.
Proof. exact default_net. Qed.
Print Assumptions C102_net_cops.

Example C102_nonvacuous : exists u, DXUnit lin_psy lin_sol ConstantDXModel default_args = Ok u.
Proof. exact constant_default. Qed.

(** Expected of [DXUnit()]: a unit.  But its model is the RESNET model, which
    makes a table from ratings that have no defaults. *)
Theorem C102_no_arguments_refuted : forall psy sol u,
  DXUnit psy sol (RESNETDXModel psy sol) default_args <> Ok u.
Proof. exact no_default_model. Qed.
Print Assumptions C102_no_arguments_refuted.

Theorem C102_ratings_required : forall psy sol a (u : dxunit R),
  get_kwarg_value "tabular_data" (a_kwargs a) = KNone -> (forall l, a_hcap a <> Some (Many l)) ->
  DXUnit psy sol (RESNETDXModel psy sol) a = Ok u -> rated_well_enough a (u_staging u).
Proof. exact ratings_required. Qed.
Print Assumptions C102_ratings_required.

Example C102_ratings_nonvacuous : exists u,
  DXUnit lin_psy rt_sol (RESNETDXModel lin_psy rt_sol) (toy_args 8 3.5) = Ok u
  /\ get_kwarg_value "tabular_data" (a_kwargs (toy_args 8 3.5)) = KNone
  /\ (forall l, a_hcap (toy_args 8 3.5) <> Some (Many l)).
Proof. exact rated_default. Qed.
