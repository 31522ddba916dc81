(** Property C82: the settings of a constructed unit (dx_unit.py:141-387). *)
From Coq Require Import Reals Lra List String.
From Verif.Base Require Import Num Res Tac.
From Verif.Model Require Import Units Psychrometrics Conditions Defrost Fan Tabular Unit
  NREL BaseModel Title24 Resnet DXUnit.
From Verif.Spec Require Import UnitSpec UnitModels SettingsSpec.
From Verif.Proofs Require Import UnitProofs2 ToyBuild ToyDefault SettingsProofs CutIn.
Import ListNotations.
Local Open Scope R_scope.

Theorem C82_settings : forall psy sol M a u, library_model psy sol M ->
  DXUnit psy sol M a = Ok u ->
  u_kwargs u = a_kwargs a /\ u_seer u = a_seer a /\ u_hspf u = a_hspf a
  /\ u_hcop u = a_net_hcop a /\ u_cycling u = a_cycling a /\ u_ducted u = a_ducted a
  /\ u_cooling_off u = a_cooling_off a /\ u_crank_setpoint u = a_crank_setpoint a
  /\ u_standard u = a_standard a /\ u_charge u = a_charge a
  /\ match a_defrost a with Some d => u_defrost u = d | None => usual_defrost (u_defrost u) end.
Proof. exact kept_settings. Qed.
Print Assumptions C82_settings.

Theorem C82_degradation : forall psy sol M a u, DXUnit psy sol M a = Ok u ->
  (M = RESNETDXModel psy sol ->
     sd_cd (u_c u) = given_or (a_cd_c a) 0.15 /\ sd_cd (u_h u) = given_or (a_cd_h a) 0.15)
  /\ (In M [BaseDXModel; ConstantDXModel; CarrierDefrostModel; Title24DXModel sol;
            NRELDXModel psy sol] ->
     sd_cd (u_c u) = given_or (a_cd_c a) 0.25 /\ sd_cd (u_h u) = given_or (a_cd_h a) 0.25).
Proof. exact default_degradation. Qed.
Print Assumptions C82_degradation.

Theorem C82_heating_cut_out : forall psy sol M a u, library_model psy sol M ->
  DXUnit psy sol M a = Ok u ->
  u_heating_off u = given_or (a_heating_off a)
    (match staging_asked a with VARIABLE_SPEED => deg_F (-20) | _ => deg_F 0 end).
Proof. exact kept_heating_off. Qed.
Print Assumptions C82_heating_cut_out.

(** The cut-in temperature is set, to the cut-out temperature, only if none was given; a given
    one is dropped. *)
Theorem C82_heating_cut_in : forall psy sol M a u, library_model psy sol M ->
  DXUnit psy sol M a = Ok u ->
  u_heating_on u = match a_heating_on a with None => Some (u_heating_off u) | Some _ => None end.
Proof. exact kept_heating_on. Qed.
Print Assumptions C82_heating_cut_in.

Theorem C82_eer : forall psy sol M a u, library_model psy sol M -> DXUnit psy sol M a = Ok u ->
  u_eer u = match a_eer a, a_seer a with
            | Some e, _ => Some e
            | None, Some s => Some (eer_of_seer s)
            | None, None => None
            end.
Proof. exact kept_eer. Qed.
Print Assumptions C82_eer.

(** A better SEER never gets a worse default EER. *)
Theorem C82_eer_follows_seer : forall psy sol M a a' u u' s s' e e',
  library_model psy sol M -> DXUnit psy sol M a = Ok u -> DXUnit psy sol M a' = Ok u' ->
  a_eer a = None -> a_eer a' = None -> a_seer a = Some s -> a_seer a' = Some s' ->
  u_eer u = Some e -> u_eer u' = Some e' -> s < s' -> e < e'.
Proof. exact default_eer_increases. Qed.
Print Assumptions C82_eer_follows_seer.

Theorem C82_crankcase : forall psy sol M a u, library_model psy sol M ->
  DXUnit psy sol M a = Ok u ->
  match a_crank a with
  | Some w => u_crank u = Some w
  | None => exists q, nth_error (sd_net_cap (u_c u)) (sd_full (u_c u)) = Some q
      /\ u_crank u = Some (10 * (q / (12000 * (1055.056 / 3600))))
  end.
Proof. exact default_crankcase. Qed.
Print Assumptions C82_crankcase.

Theorem C82_speeds : forall psy sol M a u, plain_model sol M -> DXUnit psy sol M a = Ok u ->
  u_staging u = staging_asked a
  /\ numbered (speeds_asked (Some (a_ccap a)) (a_staging a)) (a_cfull a) (a_cint a) (u_c u)
  /\ numbered (speeds_asked (a_hcap a) (a_staging a)) (a_hfull a) (a_hint a) (u_h u).
Proof. exact plain_numbers. Qed.
Print Assumptions C82_speeds.

(** A two-stage 10 kW unit. *)
Example C82_nonvacuous : exists u,
  library_model lin_psy lin_sol ConstantDXModel /\ plain_model lin_sol ConstantDXModel
  /\ DXUnit lin_psy lin_sol ConstantDXModel two_args = Ok u
  /\ usual_defrost (u_defrost u) /\ u_cooling_off u = deg_F 125
  /\ sd_cd (u_h u) = 0.25 /\ u_heating_off u = deg_F 0
  /\ u_crank u = Some (10 * (10000 / (12000 * (1055.056 / 3600))))
  /\ u_staging u = TWO_STAGE /\ sd_n (u_h u) = 2%nat /\ sd_low (u_h u) = Some 1%nat
  /\ eer_of_seer 14 = 11.87.
Proof.
  destruct two_runs as (u & _ & _ & B & _).
  destruct two_full as (u' & B' & Q). rewrite B in B'. apply Ok_inj in B'. subst u'.
  assert (LM : library_model lin_psy lin_sol ConstantDXModel) by (unfold library_model; simpl; tauto).
  assert (PM : plain_model lin_sol ConstantDXModel) by (unfold plain_model; simpl; tauto).
  destruct (C82_settings _ _ _ _ _ LM B) as (_ & _ & _ & _ & _ & _ & S1 & _ & _ & _ & S2).
  destruct (C82_degradation _ _ _ _ _ B) as [_ D].
  destruct (D ltac:(simpl; tauto)) as [_ D1].
  destruct (C82_speeds _ _ _ _ _ PM B) as (N1 & _ & N2).
  destruct (C82_crankcase _ _ _ _ _ LM B) as (q & Q1 & Q2).
  rewrite Q in Q1. injection Q1 as <-.
  exists u. split; [exact LM|]. split; [exact PM|]. split; [exact B|]. split; [exact S2|].
  split; [rewrite S1; apply cut_out_125|]. split; [exact D1|].
  split; [exact (C82_heating_cut_out _ _ _ _ _ LM B)|]. split; [exact Q2|]. split; [exact N1|].
  destruct N2 as (N3 & _ & _ & _ & N4). split; [exact N3|]. split; [exact N4|].
  unfold eer_of_seer. destruct (Rlt_dec 14 13); lra.
Qed.
