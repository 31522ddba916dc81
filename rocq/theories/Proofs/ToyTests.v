(** A two-stage unit and its thirteen rating conditions (C70). *)
From Coq Require Import Reals QArith Lra List Bool.
From Verif.Base Require Import Num Res Tac.
From Verif.Model Require Import Units Psychrometrics Conditions Defrost Fan Tabular Unit
  NREL BaseModel Title24 Resnet DXUnit.
From Verif.Spec Require Import NrelSpec UnitModels UnitSpec TestSpec.
From Verif.Proofs Require Import UnitsR ToyUnit ToyBuild ToyBuild2 UnitProofs2 TestProofs.
Import ListNotations.
Local Open Scope R_scope.

Lemma tests_example : exists (u : dxunit R) c,
  DXUnit lin_psy lin_sol ConstantDXModel
    (args TWO_STAGE AHRI_210_240_2023 [10000; 7000] [9000; 6000] (Some 4) None (Some 3) None
       None) = Ok u
  /\ List.length (tests u) = 13%nat /\ In F_low (tests u)
  /\ stored F_low (u_conds u) = Some c /\ c_speed c = 1%nat
  /\ ps_db (c_outdoor c) = deg_F 67 /\ c_rated_net_capacity c = Some 7000.
Proof.
  destruct (built_2 AHRI_210_240_2023 (Some 4) None (Some 3) None None
     ltac:(apply good_gross; lra) ltac:(apply good_gross; lra) 10000 7000 9000 6000
     ltac:(lra) ltac:(lra)) as (f & p & cr & s & b & t & B & _).
  set (u := built _ _ _ _ _ _ _ _ _ _ _ _ _ _ _) in B.
  assert (LM : library_model lin_psy lin_sol ConstantDXModel)
    by (apply plain_library; right; left; reflexivity).
  assert (I : In F_low (tests u)) by (cbv; tauto).
  destruct (constructed_conditions lin_psy lin_sol ConstantDXModel _ u F_low LM B I)
    as (c & St & v & q & a & full & p' & f' & V & Cv & (O & _) & _ & Q & Cq & _).
  exists u, c. split; [exact B|]. split; [reflexivity|]. split; [exact I|].
  split; [exact St|].
  assert (V1 : v = 1%nat) by (change (Some 1%nat = Some v) in V; congruence). rewrite V1 in *.
  split; [exact Cv|]. split; [exact O|]. rewrite Cq.
  change (Some 7000 = Some q) in Q. congruence.
Qed.
