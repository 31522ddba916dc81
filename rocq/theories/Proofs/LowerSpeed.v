(** A two-stage RESNET unit is never built from lists of one capacity. *)
From Coq Require Import Reals QArith Lra Lia List Bool String.
From Verif.Base Require Import Num Res Tac.
From Verif.Model Require Import Units Util Psychrometrics Conditions Fan Tabular Unit NREL BaseModel Title24 Resnet DXUnit.
From Verif.Spec Require Import NrelSpec DefaultSpec RatedSpec BuildSpec ResnetFanSpec.
From Verif.Proofs Require Import UnitsR FanProofs Frame SingleFan SingleUnit UnitProofs RatedFan RatedTable Unbuildable
  ResnetFan ResnetFan2.
Import ListNotations.
Local Open Scope R_scope.

Section Lower.
  Variable psy : psychro R.
  Variable sol : solvers R.
  Notation U := (dxunit R).
  Notation M := (RESNETDXModel psy sol).

  Lemma two_stage_lists a (u : U) :
    (forall p, get_kwarg_value "tabular_data" (a_kwargs a) <> KTable p) ->
    DXUnit psy sol M a = Ok u -> u_staging u = TWO_STAGE -> forall x, a_ccap a <> Many [x].
  Proof.
    intros NT D St x Hc. pose proof (resnet_lists psy sol a u NT D) as RL. rewrite Hc in RL.
    destruct (a_hcap a) as [[y|lh]|] eqn:Hh; cbn in RL; try discriminate.
    pose proof D as D0. unfold DXUnit in D. apply rbind_ok in D. destruct D as (u0 & I & D).
    unfold ex in D. destruct (finish_unit psy sol M a u0) as [u1 [b|e]] eqn:E; [|discriminate].
    apply Ok_inj in D. subst u1. unfold finish_unit in E.
    apply sbind_ok in E. destruct E as (z1 & [] & E1 & E).
    apply sbind_ok in E. destruct E as (z2 & x2 & E2 & E).
    pose proof (tview_tail psy sol a z2 u b E) as T. clear E.
    cbn [md_set_net_capacities_and_fan RESNETDXModel] in E2.
    unfold resnet_set_net_capacities_and_fan in E2. rewrite Hc, Hh in E2. rename E2 into H.
    apply sbind_ok in H. destruct H as (s1 & [] & G1 & H).
    apply sbind_ok in H. destruct H as (s2 & [] & G2 & H).
    apply sbind_ok in H. destruct H as (s3 & [] & G3 & H).
    apply sbind_ok in H. destruct H as (s4 & [] & G4 & H).
    apply sbind_ok in G2. destruct G2 as (z & [] & Z & G2).
    apply on_side_inv in Z. apply on_side_inv in G2.
    assert (C2 : capc s2 = [x]) by (subst s2 z; reflexivity).
    assert (V2 : gview s2 = gview s1) by (subst s2 z; reflexivity).
    pose proof (keeps_ok capc _ _ _ _ (capc_set_fan sol (a_fan a)) G3) as C3.
    pose proof (keeps_ok tview _ _ _ _ tview_gross G4) as T4.
    assert (Q : sd_net_cap (u_c s4) = [x]) by (unfold tview, fside in T4; unfold capc in *; congruence).
    unfold set_lower_speed_net_capacities in H.
    apply sbind_ok in H. destruct H as (z0 & y & Ez & H). unfold sget in Ez. apply pair_ok_inj in Ez. destruct Ez as [<- <-].
    rewrite Q in H. cbn [List.length Nat.eqb] in H.
    assert (S4 : u_staging z2 = TWO_STAGE) by (unfold tview in T; congruence).
    destruct (u_staging s4) eqn:S; try (unfold sret in H; apply pair_ok_inj in H; destruct H as [<- _]; congruence).
    exact (lower_dead psy sol a u0 z1 s1 s2 s3 s4 z2 u x2 x lh (a_fan a) D0 I E1 G1 V2 G3 G4 Hc Hh H).
  Qed.
End Lower.
