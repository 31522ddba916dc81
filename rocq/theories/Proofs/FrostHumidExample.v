(** Concrete cases for C117. *)
From Coq Require Import String Reals QArith Lra Psatz List.
From Verif.Base Require Import Num Res Tac.
From Verif.Model Require Import Units Util Psychrometrics Conditions Defrost Fan Unit NREL BaseModel Resnet DXUnit.
From Verif.Spec Require Import NrelSpec ModelSpec FrostHumidSpec.
From Verif.Proofs Require Import UnitsR NrelProofs ToyUnit NrelProofs2 NrelDefaults HeatRatio Weather FrostHumid.
From Verif.Props Require Import P_Psych.
Import ListNotations.
Local Open Scope R_scope.

(** Saturated air at the outdoor coil has humidity ratio 0.002. *)
Definition frost_psy : psychro R := {|
  GetHumRatioFromTWetBulb := fun _ _ _ => Ok 0.003;
  GetTWetBulbFromHumRatio := fun _ _ _ => Ok 15;
  GetTWetBulbFromRelHum := fun _ _ _ => Ok 16;
  GetMoistAirEnthalpy := fun _ _ => Ok 50000;
  GetHumRatioFromEnthalpyAndTDryBulb := fun _ _ => Ok 0.012;
  GetMoistAirDensity := fun _ _ _ => Ok 1.2;
  GetSatHumRatio := fun _ _ => Ok 0.002;
  GetSatAirEnthalpy := fun _ _ => Ok 60000;
  GetTDryBulbFromEnthalpyAndHumRatio := fun _ _ => Ok 20;
  GetRelHumFromTWetBulb := fun _ _ _ => Ok 0.5;
  GetHumRatioFromRelHum := fun _ _ _ => Ok 0.01
|}.

(** 294 K indoors, 270 K and humidity ratio [h] outdoors. *)
Definition humid_cond (h : R) : cond R :=
  let c := toy_cond 294 289 270 1 in
  mkCond (put_hr (c_outdoor c) h) (c_indoor c) (c_speed c) (c_rated_airflow_set c)
    (Some 125) (Some 0%nat) (Some 10000) (Some 1) (Some 1) (Some 1.2) (Some 1) (Some 1.2)
    (Some 1) (Some 1) (Some (1 / 10000)) (Some 125).

Definition humid_unit (f : cond R -> res R) (ctl : defrost_control) : dxunit R :=
  toy_unit 0 (mkDefrost f 500 ctl DSResistive 278 None 5400 43200).

Lemma humid_moister h h' : h < h' -> moister frost_psy (humid_cond h) (humid_cond h') h h'
  /\ coil_saturation frost_psy (humid_cond h) 0.002.
Proof. intros L. repeat split. exact L. Qed.

Lemma humid_epri h : exists t, epri_defrost_time_fraction frost_psy (humid_cond h) = Ok t /\ 0 <= t < 1.
Proof.
  destruct (humid_moister h (h + 1) ltac:(lra)) as (_ & S).
  assert (B : 0 < Rmax 0.000001 (h - 0.002)) by (eapply Rlt_le_trans; [|apply Rmax_l]; lra).
  pose proof (gap frost_psy (humid_cond h) 0.002 h S eq_refl) as G.
  exists (Rmax 0.000001 (h - 0.002) / (Rmax 0.000001 (h - 0.002) + 0.01446)).
  split; [apply (epri_eq frost_psy _ _ G B)|]. set (d := Rmax _ _) in *. clearbody d.
  assert (E : d / (d + 0.01446) * (d + 0.01446) = d) by (field; lra). set (z := d / (d + 0.01446)) in *. clearbody z. nra.
Qed.
Lemma humid_fixed h : default_time_fraction (T:=R) (humid_cond h) = Ok (3.5 / 60).
Proof. unfold default_time_fraction. f_equal. unfold fr_min. rnum. lra. Qed.

Lemma humid_case sol f ctl h t : f (humid_cond h) = Ok t -> 0 <= t < 1 -> h <= 0.01 ->
  let u := humid_unit f ctl in let M := NRELDXModel frost_psy sol in let c := humid_cond h in
  in_defrost (u_defrost u) c = true /\ df_time_fraction (u_defrost u) c = Ok t
  /\ exists s p q e n, gross_steady_state_heating_capacity M u (Some c) = Ok s /\ 0 < s
    /\ gross_steady_state_heating_power M u (Some c) = Ok p /\ 0 < p
    /\ gross_integrated_heating_capacity M u (Some c) = Ok q
    /\ gross_integrated_heating_power M u (Some c) = Ok e
    /\ gross_integrated_heating_cop M u (Some c) = Ok n.
Proof.
  intros T Ht Hh u M c.
  assert (D : in_defrost (u_defrost u) c = true) by (apply Rltb_true; cbn; lra).
  split; [exact D|]. assert (T' : df_time_fraction (u_defrost u) c = Ok t) by exact T. split; [exact T'|].
  assert (F : forall m b fn, resnet_grading_model frost_psy m b fn u c = Ok 1).
  { intros m b fn. unfold resnet_grading_model. change (u_charge u) with 0.
    rewrite lit0_R, lit1_R. cbn [neqb RNum]. destruct (Reqb_spec 0 0); [reflexivity|lra]. }
  assert (Q : nrel_gross_heating_capacity u c
    = Ok (heat_cap_flow 1 * (heat_cap_T (degF 294) (degF 270) * 9700))) by (apply ghc_eq; reflexivity).
  assert (P : nrel_gross_heating_power u c
    = Ok (heat_eir_T (degF 294) (degF 270) * heat_cap_T (degF 294) (degF 270) * (9700 / (97 / 22)))).
  { apply ghp_rated; try reflexivity. lra. }
  set (q := heat_cap_flow 1 * (heat_cap_T (degF 294) (degF 270) * 9700)) in *.
  set (s := heat_eir_T (degF 294) (degF 270) * heat_cap_T (degF 294) (degF 270) * (9700 / (97 / 22))) in *.
  assert (Pq : 0 < q) by (unfold q, heat_cap_flow, heat_cap_T, degF; lra).
  assert (Pp : 0 < s) by (unfold s, heat_eir_T, heat_cap_T, degF; lra).
  assert (E1 : gross_steady_state_heating_capacity M u (Some c) = Ok (q * 1)).
  { unfold gross_steady_state_heating_capacity, product. cbn [heating_conditions rbind M NRELDXModel md_ghc md_f_ghc].
    rewrite Q. cbn [rbind]. rewrite F. reflexivity. }
  assert (E2 : gross_steady_state_heating_power M u (Some c) = Ok (s * 1)).
  { unfold gross_steady_state_heating_power, product. cbn [heating_conditions rbind M NRELDXModel md_ghp md_f_ghp].
    rewrite P. cbn [rbind]. rewrite F. reflexivity. }
  rewrite Rmult_1_r in E1, E2. clearbody q s.
  destruct (humid_moister h (h + 1) ltac:(lra)) as (_ & S).
  pose proof (gap frost_psy c 0.002 h S eq_refl) as G. set (d := Rmax 0.000001 (h - 0.002)) in *.
  assert (B : 0 < d <= 0.008) by (unfold d, Rmax; destruct Rle_dec; lra). clearbody d.
  assert (I1 : exists v, gross_integrated_heating_capacity M u (Some c) = Ok v).
  { unfold gross_integrated_heating_capacity. cbn [heating_conditions rbind M NRELDXModel md_gihc].
    unfold nrel_gross_integrated_heating_capacity. rewrite D, T', G. cbn [rbind].
    unfold gross_steady_state_heating_capacity in E1. cbn [heating_conditions rbind M NRELDXModel md_ghc md_f_ghc] in E1.
    rewrite E1. unfold u at 1 2, humid_unit, toy_unit. cbn [u_defrost df_control df_strategy].
    destruct ctl; cbn [rbind]; eexists; reflexivity. }
  assert (I2 : exists v, gross_integrated_heating_power M u (Some c) = Ok v /\ 0 < v).
  { unfold gross_integrated_heating_power. cbn [heating_conditions rbind M NRELDXModel md_gihp].
    unfold nrel_gross_integrated_heating_power. rewrite D, T', G. cbn [rbind].
    unfold gross_steady_state_heating_power in E2. cbn [heating_conditions rbind M NRELDXModel md_ghp md_f_ghp] in E2.
    rewrite E2. change (df_resistive_power (u_defrost u)) with 500. change (df_control (u_defrost u)) with ctl.
    change (df_strategy (u_defrost u)) with DSResistive.
    assert (L : 0 < s * (1 - t)) by nra.
    assert (X : forall m, 0 < m -> 0 < s * m * (1 - t) + 500 * t).
    { intros m Pm. assert (0 < s * (1 - t) * m) by (apply Rmult_lt_0_compat; lra). lra. }
    assert (X1 : 0 < 0.954 * (1 - t)) by lra. apply X in X1.
    assert (X2 : 0 < 0.9 - 36.45 * d) by lra. apply X in X2.
    destruct ctl; cbn [rbind]; (eexists; split; [reflexivity|]); rnum; lra. }
  destruct I1 as (v & I1), I2 as (e & I2 & Pe).
  exists q, s, v, e, (v / e). repeat (split; [assumption|]).
  unfold gross_integrated_heating_cop, both. rewrite I1, I2. cbn [rbind]. apply pydiv_ok. lra.
Qed.
