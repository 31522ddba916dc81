(** C82: heating cut-in temperature of a constructed unit; C31: the reverse-cycle branch. *)
From Coq Require Import Reals List Bool String.
From Verif.Base Require Import Num Res Tac.
From Verif.Model Require Import Units Util Psychrometrics Conditions Defrost Fan Curves Tabular Unit NREL BaseModel
  Title24 Resnet DXUnit.
From Verif.Spec Require Import UnitSpec UnitModels SettingsSpec BuildSpec.
From Verif.Proofs Require Import Frame UnitProofs UnitProofs2 UnitProofs4 SettingsProofs.
Import ListNotations.
Local Open Scope R_scope.

Lemma kept_heating_on psy sol M a (u : dxunit R) : library_model psy sol M -> DXUnit psy sol M a = Ok u ->
  u_heating_on u = match a_heating_on a with None => Some (u_heating_off u) | Some _ => None end.
Proof.
  intros LM D. destruct (constructed_config psy sol M LM a u D) as (u0 & I & K). unfold config in K.
  assert (I0 : u_heating_on u0 = match a_heating_on a with None => Some (u_heating_off u0) | Some _ => None end).
  { unfold init_unit in I. apply rbind_ok in I. destruct I as (rn & _ & I).
    cbv zeta in I. apply rbind_ok in I. destruct I as (stg & _ & I). apply Ok_inj in I. subst u0.
    cbn [u_heating_on u_heating_off]. destruct (a_heating_on a); reflexivity. }
  assert (K1 : u_heating_on u = u_heating_on u0) by congruence.
  assert (K2 : u_heating_off u = u_heating_off u0) by congruence.
  rewrite K1, K2. exact I0.
Qed.

Lemma reverse_cycle_error psy steady (u : dxunit R) c t :
  in_defrost (u_defrost u) c = true -> df_strategy (u_defrost u) = DSReverseCycle ->
  df_time_fraction (u_defrost u) c = Ok t ->
  (df_control (u_defrost u) = DCTimed -> exists x, coil_diff_outdoor_air_humidity psy c = Ok x) ->
  nrel_gross_integrated_heating_power psy steady u c = Err TypeError.
Proof.
  intros D S Tf Ch. unfold nrel_gross_integrated_heating_power. rewrite D, Tf, S. cbn [rbind].
  destruct (df_control (u_defrost u)); [reflexivity| |reflexivity].
  destruct (Ch eq_refl) as (x & E). rewrite E. reflexivity.
Qed.

Lemma same_heating psy sol kw s e h c (u : dxunit R) : let M := RESNETDXModel psy sol in forall k,
  net_steady_state_heating_capacity sol M (remembering kw u) k = net_steady_state_heating_capacity sol M u k
  /\ net_steady_state_heating_power sol M (remembering kw u) k = net_steady_state_heating_power sol M u k
  /\ net_steady_state_heating_capacity sol M (rated_as s e h c u) k = net_steady_state_heating_capacity sol M u k
  /\ net_steady_state_heating_power sol M (rated_as s e h c u) k = net_steady_state_heating_power sol M u k.
Proof. intros M k. repeat split; reflexivity. Qed.
