(** Concrete cases for C115. *)
From Coq Require Import String Reals QArith Lra Psatz List.
From Verif.Base Require Import Num Res Tac.
From Verif.Model Require Import Units Psychrometrics Conditions Defrost Fan Unit NREL BaseModel Resnet DXUnit.
From Verif.Spec Require Import NrelSpec ModelSpec WeatherSpec FrostWeatherSpec.
From Verif.Proofs Require Import UnitsR NrelProofs ToyUnit NrelProofs2 ResnetProofs HeatRatio FanCost ToyBuild Weather WeatherExample FrostWeather.
From Verif.Props Require Import P_Psych.
Import ListNotations.
Local Open Scope R_scope.

(** The toy unit defrosts below 278 K; integrated values exist. *)
Lemma frosty psy sol t : 250 <= t <= 290 ->
  let c := toy_cond 294 289 t 1 in
  let M := RESNETDXModel psy sol in
  exists s y q n, gross_steady_state_heating_capacity M correct_unit (Some c) = Ok s
    /\ gross_steady_state_heating_cop M correct_unit (Some c) = Ok y
    /\ gross_integrated_heating_capacity M correct_unit (Some c) = Ok q
    /\ gross_integrated_heating_cop M correct_unit (Some c) = Ok n.
Proof.
  intros Ht c M. destruct (heating_weather psy sol 294 t 1 ltac:(lra) Ht ltac:(lra)) as (R1 & K & Bi & Bo & _ & _ & q & p & n & Q & P & N).
  change (toy_cond 294 289 t 1) with c in R1, K, Bi, Bo, Q, P, N. change (RESNETDXModel psy sol) with M in Q, P, N.
  exists q, n, (q * (1 - 1.8 * frost correct_unit c)), (q * (1 - 1.8 * frost correct_unit c) / (p * (1 - 0.3 * frost correct_unit c))).
  split; [exact Q|]. split; [exact N|]. pose proof (cap_frost psy sol _ _ _ Q) as I. split; [exact I|].
  pose proof (frost_bounds correct_unit c) as B.
  apply ratio_inv in N as (q1 & p1 & Q1 & P1 & N & _). rewrite P in P1. apply Ok_inj in P1. subst p1.
  assert (T : md_ghp M correct_unit c = Ok p).
  { unfold gross_steady_state_heating_power in P. cbn [heating_conditions rbind] in P.
    unfold product in P. apply rbind_ok in P. destruct P as (p1 & P1 & P). cbn [M md_f_ghp RESNETDXModel] in P.
    unfold resnet_f_ghp, resnet_grading_model in P. change (u_charge correct_unit) with 0 in P.
    rewrite lit0_R in P. cbn [neqb RNum] in P. destruct (Reqb_spec 0 0); [|lra]. rewrite lit1_R in P.
    cbn [rbind nmul RNum] in P. apply Ok_inj in P. rewrite P1. f_equal. lra. }
  pose proof (resnet_power_derate psy sol correct_unit c p T) as J.
  replace (p * (if in_defrost (u_defrost correct_unit) c then 1 - 0.3 * resnet_fraction (degF (ps_db (c_outdoor c))) else 1))
    with (p * (1 - 0.3 * frost correct_unit c)) in J
    by (unfold frost; destruct (in_defrost (u_defrost correct_unit) c); lra).
  unfold gross_integrated_heating_cop, both. unfold M. rewrite I, J. cbn [rbind]. apply pydiv_ok.
  apply Rmult_integral_contrapositive. split; [exact N|lra].
Qed.

(** The same unit defrosting only above 260 K. *)
Definition low_unit : dxunit R :=
  toy_unit 0 (mkDefrost default_time_fraction 500 DCTimed DSReverseCycle 278 (Some 260) 5400 43200).

Lemma low_limit psy sol :
  let M := RESNETDXModel psy sol in
  let c := toy_cond 294 289 260 1 in let c' := toy_cond 294 289 260.5 1 in
  exists q q', gross_integrated_heating_capacity M low_unit (Some c) = Ok q
    /\ gross_integrated_heating_capacity M low_unit (Some c') = Ok q' /\ q' < 0.87 * q.
Proof.
  intros M c c'.
  destruct (heating_weather psy sol 294 260 1 ltac:(lra) ltac:(lra) ltac:(lra)) as (R1 & K & _ & _ & _ & _ & s & _ & _ & S & _).
  destruct (heating_weather psy sol 294 260.5 1 ltac:(lra) ltac:(lra) ltac:(lra)) as (R2 & K' & _ & _ & _ & _ & s' & _ & _ & S' & _).
  change (toy_cond 294 289 260 1) with c in R1, K, S. change (toy_cond 294 289 260.5 1) with c' in R2, K', S'.
  pose proof (hcap_value psy sol _ correct_unit (proj1 (correct_by_curves psy sol)) c 1 _ _ _ R1 K S) as V.
  pose proof (hcap_value psy sol _ correct_unit (proj1 (correct_by_curves psy sol)) c' 1 _ _ _ R2 K' S') as V'.
  change (gross_steady_state_heating_capacity (RESNETDXModel psy sol) low_unit (Some c) = Ok s) in S.
  change (gross_steady_state_heating_capacity (RESNETDXModel psy sol) low_unit (Some c') = Ok s') in S'.
  exists (s * (1 - 1.8 * frost low_unit c)), (s' * (1 - 1.8 * frost low_unit c')).
  split; [apply (cap_frost psy sol _ _ _ S)|]. split; [apply (cap_frost psy sol _ _ _ S')|].
  assert (F : frost low_unit c = 0).
  { unfold frost, in_defrost, in_defrost_at.
    cbn [low_unit toy_unit u_defrost df_strategy df_low_temperature df_high_temperature c toy_cond c_outdoor psych_wetbulb put_wb blank ps_db].
    cbn [nltb RNum]. destruct (Rltb_spec 260 260); [lra|]. reflexivity. }
  assert (F' : frost low_unit c' = 0.08).
  { unfold frost, in_defrost, in_defrost_at.
    cbn [low_unit toy_unit u_defrost df_strategy df_low_temperature df_high_temperature c' toy_cond c_outdoor psych_wetbulb put_wb blank ps_db].
    cbn [nltb RNum]. destruct (Rltb_spec 260 260.5); [|lra]. destruct (Rltb_spec 260.5 278); [|lra].
    cbn [andb]. unfold resnet_fraction, degF, Rmax, Rmin. destruct Rle_dec; destruct Rle_dec; lra. }
  rewrite F, F', V, V'.
  unfold heat_cap_flow, heat_cap_T, in_F, out_F, F_of.
  cbn [c c' toy_cond c_outdoor c_indoor psych_wetbulb put_wb blank ps_db]. lra.
Qed.

Lemma warmer_always_false : ~ (forall psy sol (u : dxunit R), by_curves psy sol (RESNETDXModel psy sol) u ->
  forall c c' r q0 cop, same_heating c c' r -> 0 <= r <= 1.5 -> rated_at (u_h u) (c_speed c) q0 cop ->
  60 <= in_F c <= 80 -> -40 <= out_F c < out_F c' -> out_F c' <= 65 -> forall q q',
  gross_integrated_heating_capacity (RESNETDXModel psy sol) u (Some c) = Ok q ->
  gross_integrated_heating_capacity (RESNETDXModel psy sol) u (Some c') = Ok q' -> q <= q').
Proof.
  intros H.
  assert (G : by_curves toy_psy lin_sol (RESNETDXModel toy_psy lin_sol) low_unit) by (split; [reflexivity|right; auto]).
  destruct (heating_weather toy_psy lin_sol 294 260 1 ltac:(lra) ltac:(lra) ltac:(lra)) as (R1 & K & Bi & Bo & _).
  destruct (heating_weather toy_psy lin_sol 294 260.5 1 ltac:(lra) ltac:(lra) ltac:(lra)) as (R2 & _ & _ & Bo' & _).
  cbv zeta in *. destruct (low_limit toy_psy lin_sol) as (q & q' & Q & Q' & L). cbv zeta in *.
  set (c := toy_cond 294 289 260 1) in *. set (c' := toy_cond 294 289 260.5 1) in *.
  assert (S : same_heating c c' 1) by (repeat split).
  assert (O : out_F c < out_F c').
  { unfold out_F, F_of. cbn [c c' toy_cond c_outdoor psych_wetbulb put_wb blank ps_db]. lra. }
  pose proof (H _ _ _ G c c' 1 9700 (97 / 22) S ltac:(lra) K Bi ltac:(lra) ltac:(lra) q q' Q Q') as X.
  destruct (cap_steady _ _ _ _ _ Q) as (s & T). pose proof (cap_frost _ _ _ _ _ T) as E. rewrite Q in E. apply Ok_inj in E.
  pose proof (frost_bounds low_unit c).
  pose proof (hcap_value toy_psy lin_sol _ low_unit G c 1 _ _ _ R1 K T) as V.
  destruct (heat_pos (in_F c) (out_F c) ltac:(lra) Bo) as (P & _). destruct (heat_flow_pos 1 ltac:(lra)) as (P1 & _).
  assert (0 < s) by (rewrite V; repeat apply Rmult_lt_0_compat; lra). nra.
Qed.
