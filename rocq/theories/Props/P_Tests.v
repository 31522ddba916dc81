(** C70: the AHRI 210/240 rating conditions stored in a unit. *)
From Coq Require Import Reals QArith List.
From Verif.Base Require Import Num Res.
From Verif.Model Require Import Units Psychrometrics Conditions Defrost Fan Tabular Unit
  NREL BaseModel DXUnit.
From Verif.Spec Require Import NrelSpec UnitModels UnitSpec TestSpec.
From Verif.Proofs Require Import ToyUnit ToyBuild TestProofs ToyTests.
Import ListNotations.
Local Open Scope R_scope.

(** ** C70 *)

(** Each test of the standard that applies to the unit's staging has its condition. *)
Theorem C70_rating_conditions : forall psy sol M a (u : dxunit R) t,
  library_model psy sol M -> DXUnit psy sol M a = Ok u -> In t (tests u) ->
  exists c, stored t (u_conds u) = Some c /\ condition_of t u c.
Proof. exact constructed_conditions. Qed.
Print Assumptions C70_rating_conditions.

(** The same after any change of the rating standard that does not raise. *)
Theorem C70_after_standard_change : forall psy s (u u' : dxunit R),
  set_rating_standard psy s u = (u', Ok tt) ->
  tests u' = tests u /\
  forall t, In t (tests u) ->
  exists c, stored t (u_conds u') = Some c /\ condition_of t u' c.
Proof. exact set_conditions. Qed.
Print Assumptions C70_after_standard_change.

Example C70_nonvacuous : exists (u : dxunit R) c,
  DXUnit lin_psy lin_sol ConstantDXModel
    (args TWO_STAGE AHRI_210_240_2023 [10000; 7000] [9000; 6000] (Some 4) None (Some 3) None
       None) = Ok u
  /\ List.length (tests u) = 13%nat /\ In F_low (tests u)
  /\ stored F_low (u_conds u) = Some c /\ c_speed c = 1%nat
  /\ ps_db (c_outdoor c) = deg_F 67 /\ c_rated_net_capacity c = Some 7000.
Proof. exact tests_example. Qed.
