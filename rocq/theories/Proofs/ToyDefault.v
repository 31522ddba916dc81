(** Units for the examples of C78 and C79. *)
From Coq Require Import Reals QArith Lra Lia List Bool String.
From Verif.Base Require Import Num Res Tac.
From Verif.Model Require Import Units Util Psychrometrics Conditions Defrost Fan Curves
  Tabular Unit NREL BaseModel Title24 Resnet DXUnit.
From Verif.Spec Require Import NrelSpec UnitModels TestSpec DefaultSpec.
From Verif.Proofs Require Import T24Cache CopProofs ToyBuild ToyBuild2 ConstantUnit.
Import ListNotations.
Local Open Scope R_scope.

Definition two_args : dxargs R :=
  args TWO_STAGE AHRI_210_240_2023 [10000; 7000] [9000; 6000] (Some 4) None (Some 3) None None.
Definition one_args : dxargs R :=
  args SINGLE_STAGE AHRI_210_240_2023 [10000] [9000] (Some 4) None (Some 3) None None.

(** No heating capacity given. *)
Definition no_heating (q : R) : dxargs R :=
  mkArgs (Some SINGLE_STAGE) (Many [q]) (Some (Scalar 4)) None None None
      (fr_F (lit 125)) None (Some (Scalar 3)) None None None None None None
      None None None None None None (fr_F (lit 50)) (lit 0) BETWEEN_LOW_FULL
      0 None 0 None true AHRI_210_240_2023 None None None [].

(** The low speed of a two-stage unit runs at its rating conditions. *)
Lemma two_runs : exists u c d, DXUnit lin_psy lin_sol ConstantDXModel two_args = Ok u
  /\ nth_error (sd_net_cap (u_c u)) 1 = Some 7000 /\ entry (sd_gross_cop (u_c u)) 1 4
  /\ nth_error (sd_net_cap (u_h u)) 1 = Some 6000 /\ entry (sd_gross_cop (u_h u)) 1 3
  /\ runs u Cooling 1 c /\ runs u Heating 1 d
  /\ (exists n, entry (sd_net_cop (u_c u)) 1 n) /\ exists n, entry (sd_net_cop (u_h u)) 1 n.
Proof.
  destruct (built_2 AHRI_210_240_2023 (Some 4) None (Some 3) None None
     ltac:(apply good_gross; lra) ltac:(apply good_gross; lra) 10000 7000 9000 6000
     ltac:(lra) ltac:(lra)) as (f & p & cr & s & b & t & B & _).
  set (u := built _ _ _ _ _ _ _ _ _ _ _ _ _ _ _) in B.
  assert (I1 : In F_low (tests u)) by (cbv; tauto).
  assert (I2 : In H1_low (tests u)) by (cbv; tauto).
  destruct (rating_runs lin_psy lin_sol _ u F_low B I1) as (c & i & q & _ & T1 & _ & R1).
  destruct (rating_runs lin_psy lin_sol _ u H1_low B I2) as (d & j & r & _ & T2 & _ & R2).
  change (Some 1%nat = Some i) in T1. change (Some 1%nat = Some j) in T2.
  injection T1 as <-. injection T2 as <-.
  exists u, c, d. split; [exact B|]. repeat (split; [reflexivity|]).
  split; [exact R1|]. split; [exact R2|]. split; eexists; reflexivity.
Qed.

(** The same arguments with a fan. *)
Definition with_fan (f : fan R) (a : dxargs R) : dxargs R :=
  mkArgs (a_staging a) (a_ccap a) (a_gross_ccop a) (a_net_ccop a) (a_cflow a) (a_cd_c a)
    (a_cooling_off a) (a_hcap a) (a_gross_hcop a) (a_net_hcop a) (a_hflow a) (a_cd_h a)
    (a_heating_off a) (a_heating_on a) (a_defrost a) (Some f) (a_hfan_speed a) (a_cfan_speed
    a) (a_rated_hfan_speed a) (a_rated_cfan_speed a) (a_crank a) (a_crank_setpoint a)
    (a_charge a) (a_cycling a) (a_cfull a) (a_cint a) (a_hfull a) (a_hint a) (a_ducted a)
    (a_standard a) (a_seer a) (a_eer a) (a_hspf a) (a_kwargs a).

Lemma two_speeds u : DXUnit lin_psy lin_sol ConstantDXModel two_args = Ok u ->
  sd_n (u_c u) = 2%nat.
Proof.
  intros B. destruct (built_2 AHRI_210_240_2023 (Some 4) None (Some 3) None None
     ltac:(apply good_gross; lra) ltac:(apply good_gross; lra) 10000 7000 9000 6000
     ltac:(lra) ltac:(lra)) as (f & p & cr & s & b & t & B' & _).
  unfold two_args in B. rewrite B' in B. apply Ok_inj in B. rewrite <- B. reflexivity.
Qed.

Lemma one_rated : exists u n, DXUnit lin_psy lin_sol ConstantDXModel one_args = Ok u
  /\ nth_error (sd_net_cap (u_c u)) (sd_full (u_c u)) = Some 10000
  /\ entry (sd_gross_cop (u_c u)) (sd_full (u_c u)) 4
  /\ entry (sd_net_cop (u_c u)) (sd_full (u_c u)) n /\ u_staging u = SINGLE_STAGE.
Proof.
  destruct (built_1 AHRI_210_240_2023 (Some 4) None (Some 3) None None
     ltac:(apply good_gross; lra) ltac:(apply good_gross; lra) 10000 9000
     ltac:(lra) ltac:(lra)) as (f & p & cr & s & b & t & B & _).
  eexists. eexists. split; [exact B|]. repeat (split; [reflexivity|]). reflexivity.
Qed.

(** The heating capacity defaults to the cooling capacity. *)
Lemma same_build psy sol (M : dxmodel R) (a a' : dxargs R) u0 :
  init_unit M a = Ok u0 -> init_unit M a' = Ok u0 -> a_crank a = a_crank a' ->
  a_net_ccop a = a_net_ccop a' -> a_gross_ccop a = a_gross_ccop a' ->
  a_net_hcop a = a_net_hcop a' -> a_gross_hcop a = a_gross_hcop a' ->
  (forall u1, set_placeholder_arrays u0 = (u1, Ok tt) ->
     md_set_net_capacities_and_fan M (a_ccap a) (a_hcap a) (a_fan a) u1
     = md_set_net_capacities_and_fan M (a_ccap a') (a_hcap a') (a_fan a') u1) ->
  DXUnit psy sol M a = DXUnit psy sol M a'.
Proof.
  intros I I' E1 E2 E3 E4 E5 F. unfold DXUnit. rewrite I, I'. cbn [rbind]. unfold ex, finish_unit.
  rewrite E1, E2, E3, E4, E5.
  rewrite !(sbind_eq set_placeholder_arrays).
  destruct (set_placeholder_arrays u0) as [u1 [[]|e]] eqn:P; [|reflexivity].
  rewrite !(sbind_eq (md_set_net_capacities_and_fan _ _ _ _)). rewrite (F u1 eq_refl). reflexivity.
Qed.

Lemma same_heating (u1 : dxunit R) q f : sd_n (u_h u1) = 1%nat ->
  base_set_net_capacities_and_fan (Many [q]) None f u1
  = base_set_net_capacities_and_fan (Many [q]) (Some (Many [q])) f u1.
Proof.
  intros N1. unfold base_set_net_capacities_and_fan.
  rewrite !(sbind_eq (base_set_net_cooling_capacity _)).
  cbn [base_set_net_cooling_capacity on_side smod].
  rewrite !(sbind_eq (base_set_net_heating_capacity _)).
  match goal with |- (let (_, _) := ?x in _) = (let (_, _) := ?y in _) =>
    enough (X : x = y) by (rewrite X; reflexivity) end.
  unfold base_set_net_heating_capacity, sbind, sget, slift, on_side, smod. cbn [wu_side side_of].
  cbn [sd_net_cap u_c u_h wu_c wu_h ws_net_cap geti nth_error sd_n]. rewrite N1. reflexivity.
Qed.

Lemma same_n (u0 u1 : dxunit R) : set_placeholder_arrays u0 = (u1, Ok tt) ->
  sd_n (u_h u1) = sd_n (u_h u0).
Proof.
  intros P. unfold set_placeholder_arrays, smod, sret in P.
  apply pair_ok_inj in P. destruct P as [<- _]. reflexivity.
Qed.

Lemma no_heating_builds q : 0 < q ->
  exists u, DXUnit lin_psy lin_sol ConstantDXModel (no_heating q) = Ok u.
Proof.
  intros Q.
  destruct (built_1 AHRI_210_240_2023 (Some 4) None (Some 3) None None
     ltac:(apply good_gross; lra) ltac:(apply good_gross; lra) q q Q Q)
    as (f & p & cr & s & b & t & B & _).
  eexists. rewrite <- B. clear B.
  assert (I : exists u0, init_unit ConstantDXModel (no_heating q) = Ok u0 /\ sd_n (u_h u0) = 1%nat)
    by (eexists; split; reflexivity).
  destruct I as (u0 & I & N).
  apply (same_build lin_psy lin_sol ConstantDXModel _ _ u0); try reflexivity; try exact I.
  intros u1 P. apply same_heating. rewrite (same_n u0 u1 P). exact N.
Qed.
