(** Concrete cases for C106. *)
From Coq Require Import String Reals QArith Lra Psatz List.
From Verif.Base Require Import Num Res Tac.
From Verif.Model Require Import Units Util Psychrometrics Conditions Defrost Fan Unit NREL BaseModel Resnet DXUnit.
From Verif.Spec Require Import NrelSpec WeatherSpec.
From Verif.Proofs Require Import UnitsR NrelProofs ToyUnit NrelProofs2 HeatRatio FanCost ToyBuild Weather.
From Verif.Props Require Import P_Psych.
Import ListNotations.
Local Open Scope R_scope.

Definition correct_unit : dxunit R := toy_unit 0 (toy_defrost DCTimed DSReverseCycle).

Lemma correct_by_curves psy sol : by_curves psy sol (RESNETDXModel psy sol) correct_unit
  /\ by_curves psy sol (NRELDXModel psy sol) correct_unit.
Proof. split; (split; [reflexivity|]); [right|left]; auto. Qed.

Lemma cooling_weather psy sol t r : 300 <= t <= 320 -> 0.5 <= r <= 1.5 ->
  let c := toy_cond 300 292 t r in
  let M := RESNETDXModel psy sol in
  same_indoors c c r r /\ rated_at (u_c correct_unit) (c_speed c) 10300 (103 / 22)
  /\ ps_db (c_outdoor c) = t
  /\ exists q p n, gross_total_cooling_capacity M correct_unit (Some c) = Ok q /\ 0 < q
     /\ gross_cooling_power M correct_unit (Some c) = Ok p /\ 0 < p
     /\ gross_total_cooling_cop M correct_unit (Some c) = Ok n.
Proof.
  intros Ht Hr c M. split; [repeat split; discriminate|]. split; [repeat split; lra|]. split; [reflexivity|].
  destruct (curve_values psy sol M correct_unit (proj1 (correct_by_curves psy sol)) c) as (V1 & V2 & _ & _ & F1 & F2 & _).
  destruct (cool_flow_pos r ltac:(lra)) as (P1 & P2).
  set (w := curve_wb 292). set (o := curve_odb t).
  pose proof (wb_range 292) as Hw. fold w in Hw.
  assert (Ho : 75 <= o <= 125) by (unfold o, curve_odb, degF, Rmax; destruct Rle_dec; lra).
  pose proof (cap_low w o Hw Ho) as C. pose proof (eir_high w o Hw Ho) as (E & _).
  set (q := cool_cap_flow r * (cool_cap_T w o * 10300)).
  set (p := cool_eir_flow r * cool_cap_flow r * (cool_eir_T w o * cool_cap_T w o * (10300 / (103 / 22)))).
  assert (Q : gross_total_cooling_capacity M correct_unit (Some c) = Ok q /\ 0 < q).
  { assert (0 < q) by (unfold q; repeat apply Rmult_lt_0_compat; lra). split; [|assumption].
    unfold gross_total_cooling_capacity, checked_product. cbn [cooling_conditions rbind].
    rewrite V1, F1, (gtc_eq correct_unit c 292 r 10300) by reflexivity. cbn [rbind nmul RNum].
    rewrite Rmult_1_r. apply limit_check_pos. change (0 <= q). lra. }
  assert (P : gross_cooling_power M correct_unit (Some c) = Ok p /\ 0 < p).
  { assert (0 < p) by (unfold p; replace (10300 / (103 / 22)) with 2200 by lra; repeat apply Rmult_lt_0_compat; lra).
    split; [|assumption].
    unfold gross_cooling_power, checked_product. cbn [cooling_conditions rbind].
    rewrite V2, F2, (gcp_eq correct_unit c 292 r 10300 (103 / 22)) by (reflexivity || lra). cbv zeta.
    change (ps_db (c_outdoor c)) with t. fold w o p. rewrite limit_check_pos by lra. cbn [rbind nmul RNum].
    rewrite Rmult_1_r. apply limit_check_pos. lra. }
  exists q, p, (q / p). destruct Q as (Q & Q0), P as (P & P0). repeat (split; [assumption|]).
  unfold gross_total_cooling_cop, both. rewrite Q, P. cbn [rbind]. apply pydiv_ok. lra.
Qed.

Lemma heating_weather psy sol i t r : 290 <= i <= 299 -> 250 <= t <= 290 -> 0 <= r <= 1.5 ->
  let c := toy_cond i 289 t r in
  let M := RESNETDXModel psy sol in
  c_mass_airflow_ratio c = Some r /\ rated_at (u_h correct_unit) (c_speed c) 9700 (97 / 22)
  /\ 60 <= in_F c <= 80 /\ -40 <= out_F c <= 65 /\ ps_db (c_indoor c) = i /\ ps_db (c_outdoor c) = t
  /\ exists q p n, gross_steady_state_heating_capacity M correct_unit (Some c) = Ok q
     /\ gross_steady_state_heating_power M correct_unit (Some c) = Ok p
     /\ gross_steady_state_heating_cop M correct_unit (Some c) = Ok n.
Proof.
  intros Hi Ht Hr c M. split; [reflexivity|]. split; [repeat split; lra|].
  assert (Bi : 60 <= in_F c <= 80) by (unfold in_F, F_of; cbn [c toy_cond c_indoor ps_db psych_wetbulb put_wb blank]; lra).
  assert (Bo : -40 <= out_F c <= 65) by (unfold out_F, F_of; cbn [c toy_cond c_outdoor ps_db psych_wetbulb put_wb blank]; lra).
  split; [exact Bi|]. split; [exact Bo|]. split; [reflexivity|]. split; [reflexivity|].
  destruct (curve_values psy sol M correct_unit (proj1 (correct_by_curves psy sol)) c) as (_ & _ & V1 & V2 & _ & _ & F1 & F2).
  destruct (heat_flow_pos r Hr) as (P1 & P2).
  destruct (heat_pos (in_F c) (out_F c) ltac:(lra) Bo) as (C & E).
  set (q := heat_cap_flow r * (heat_cap_T (in_F c) (out_F c) * 9700)).
  set (p := heat_eir_flow r * heat_cap_flow r * (heat_eir_T (in_F c) (out_F c) * heat_cap_T (in_F c) (out_F c) * (9700 / (97 / 22)))).
  assert (Q : gross_steady_state_heating_capacity M correct_unit (Some c) = Ok q).
  { unfold gross_steady_state_heating_capacity, product. cbn [heating_conditions rbind].
    rewrite V1, F1, (ghc_eq correct_unit c r 9700) by reflexivity. cbn [rbind nmul RNum].
    rewrite Rmult_1_r. unfold q, in_F, out_F. rewrite !F_of_degF. reflexivity. }
  assert (P : gross_steady_state_heating_power M correct_unit (Some c) = Ok p).
  { unfold gross_steady_state_heating_power, product. cbn [heating_conditions rbind].
    rewrite V2, F2, (ghp_eq correct_unit c r 9700 (97 / 22)) by (reflexivity || lra). cbn [rbind nmul RNum].
    rewrite Rmult_1_r. unfold p, in_F, out_F. rewrite !F_of_degF. reflexivity. }
  assert (0 < p) by (unfold p; replace (9700 / (97 / 22)) with 2200 by lra; repeat apply Rmult_lt_0_compat; lra).
  exists q, p, (q / p). repeat (split; [assumption|]).
  unfold gross_steady_state_heating_cop, both. rewrite Q, P. cbn [rbind]. apply pydiv_ok. lra.
Qed.

(** More air need not help. *)
Lemma more_air_false : ~ (forall psy sol M (u : dxunit R) c c' r r' q0 cop n n',
  by_curves psy sol M u -> c_speed c = c_speed c' ->
  ps_db (c_indoor c) = ps_db (c_indoor c') -> ps_db (c_outdoor c) = ps_db (c_outdoor c') ->
  c_mass_airflow_ratio c = Some r -> c_mass_airflow_ratio c' = Some r' -> 0 <= r < r' -> r' <= 1.5 ->
  rated_at (u_h u) (c_speed c) q0 cop ->
  gross_steady_state_heating_cop M u (Some c) = Ok n ->
  gross_steady_state_heating_cop M u (Some c') = Ok n' -> n <= n').
Proof.
  intros H.
  destruct (heating_weather toy_psy lin_sol 294 280 1.3 ltac:(lra) ltac:(lra) ltac:(lra)) as (R1 & K & Bi & Bo & _ & _ & q & p & n & _ & _ & N).
  destruct (heating_weather toy_psy lin_sol 294 280 1.5 ltac:(lra) ltac:(lra) ltac:(lra)) as (R2 & _ & _ & _ & _ & _ & q' & p' & n' & _ & _ & N').
  cbv zeta in *. set (c := toy_cond 294 289 280 1.3) in *. set (c' := toy_cond 294 289 280 1.5) in *.
  pose proof (proj1 (correct_by_curves toy_psy lin_sol)) as G.
  pose proof (H _ _ _ _ c c' 1.3 1.5 9700 (97 / 22) n n' G eq_refl eq_refl eq_refl R1 R2 ltac:(lra) ltac:(lra) K N N') as L.
  destruct (airier_heating _ _ _ _ G c c' 1.3 1.5 9700 (97 / 22) eq_refl eq_refl eq_refl R1 R2 K ltac:(lra) Bo) as (_ & X).
  specialize (X ltac:(lra) ltac:(lra) n n' N N'). lra.
Qed.
