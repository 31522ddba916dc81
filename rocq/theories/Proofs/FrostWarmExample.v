(** Concrete cases for C118. *)
From Coq Require Import String Reals QArith Lra Psatz List.
From Verif.Base Require Import Num Res Tac.
From Verif.Model Require Import Units Util Psychrometrics Conditions Defrost Fan Unit NREL BaseModel Resnet DXUnit.
From Verif.Spec Require Import NrelSpec ModelSpec WeatherSpec FrostHumidSpec FrostWeatherSpec FrostWarmSpec.
From Verif.Proofs Require Import UnitsR NrelProofs ToyUnit NrelProofs2 NrelDefaults HeatRatio Weather FrostHumid FrostWarm.
From Verif.Props Require Import P_Psych.
Import ListNotations.
Local Open Scope R_scope.

(** The warmer the coil, the moister is saturated air. *)
Definition warm_psy : psychro R := {|
  GetHumRatioFromTWetBulb := fun _ _ _ => Ok 0.003;
  GetTWetBulbFromHumRatio := fun _ _ _ => Ok 15;
  GetTWetBulbFromRelHum := fun _ _ _ => Ok 16;
  GetMoistAirEnthalpy := fun _ _ => Ok 50000;
  GetHumRatioFromEnthalpyAndTDryBulb := fun _ _ => Ok 0.012;
  GetMoistAirDensity := fun _ _ _ => Ok 1.2;
  GetSatHumRatio := fun t _ => Ok (0.0035 + 0.0001 * t);
  GetSatAirEnthalpy := fun _ _ => Ok 60000;
  GetTDryBulbFromEnthalpyAndHumRatio := fun _ _ => Ok 20;
  GetRelHumFromTWetBulb := fun _ _ _ => Ok 0.5;
  GetHumRatioFromRelHum := fun _ _ _ => Ok 0.01
|}.

(** 294 K indoors, [o] K and humidity ratio [h] outdoors. *)
Definition warm_cond (o h : R) : cond R :=
  let c := toy_cond 294 289 o 1 in
  mkCond (put_hr (c_outdoor c) h) (c_indoor c) (c_speed c) (c_rated_airflow_set c)
    (Some 125) (Some 0%nat) (Some 10000) (Some 1) (Some 1) (Some 1.2) (Some 1) (Some 1.2)
    (Some 1) (Some 1) (Some (1 / 10000)) (Some 125).

Definition warm_unit (f : cond R -> res R) (pw : R) (ctl : defrost_control) (st : defrost_strategy) : dxunit R :=
  toy_unit 0 (mkDefrost f pw ctl st 278 None 5400 43200).

Definition warm_gap (o h : R) : R := h - (0.0035 + 0.0001 * (0.82 * (o - 273.15) - 8.589)).

Lemma warm_has_gap o h : coil_gap warm_psy (warm_cond o h) (warm_gap o h).
Proof.
  exists h, (0.0035 + 0.0001 * (0.82 * (o - 273.15) - 8.589)). split; [reflexivity|]. split; [|reflexivity].
  unfold coil_saturation. cbn [warm_psy GetSatHumRatio]. f_equal.
Qed.

Lemma warm_epri o h : exists t, epri_defrost_time_fraction warm_psy (warm_cond o h) = Ok t /\ 0 <= t < 1.
Proof.
  destruct (warm_has_gap o h) as (h0 & w & H & S & E).
  assert (B : 0 < Rmax 0.000001 (h0 - w)) by (eapply Rlt_le_trans; [|apply Rmax_l]; lra).
  pose proof (gap warm_psy _ w h0 S H) as G.
  exists (Rmax 0.000001 (h0 - w) / (Rmax 0.000001 (h0 - w) + 0.01446)).
  split; [apply (epri_eq warm_psy _ _ G B)|]. set (d := Rmax _ _) in *. clearbody d.
  assert (Z : d / (d + 0.01446) * (d + 0.01446) = d) by (field; lra). set (z := d / (d + 0.01446)) in *. clearbody z. nra.
Qed.
Lemma warm_fixed o h : default_time_fraction (T:=R) (warm_cond o h) = Ok (3.5 / 60).
Proof. unfold default_time_fraction. f_equal. unfold fr_min. rnum. lra. Qed.

(** 265 K and 270 K outdoors, humidity ratio 0.003. *)
Lemma warm_milder f pw ctl st t t' : st <> DSNone -> f (warm_cond 265 0.003) = Ok t -> f (warm_cond 270 0.003) = Ok t' ->
  0 <= t' <= t -> t < 1 ->
  let u := warm_unit f pw ctl st in let c := warm_cond 265 0.003 in let c' := warm_cond 270 0.003 in
  milder_frost warm_psy u c c' (warm_gap 265 0.003) (warm_gap 270 0.003) t t' /\ proper_frost u c (warm_gap 265 0.003)
  /\ in_defrost (u_defrost u) c' = true
  /\ u_charge u = 0 /\ same_heating c c' 1 /\ rated_at (u_h u) (c_speed c) 9700 (97 / 22)
  /\ 60 <= in_F c <= 80 /\ -40 <= out_F c < out_F c' /\ out_F c' <= 65.
Proof.
  intros St T T' Ht Ht1 u c c'.
  assert (D : forall o, o < 278 -> in_defrost (u_defrost u) (warm_cond o 0.003) = true).
  { intros o Ho. unfold u, warm_unit, in_defrost, toy_unit. destruct st; [congruence| |];
      apply Rltb_true; cbn; exact Ho. }
  split.
  { split; [split; [cbn; lra|intros _; apply D; lra]|]. split; [reflexivity|].
    split; [apply warm_has_gap|]. split; [apply warm_has_gap|]. split; [unfold warm_gap; lra|].
    split; [exact T|]. split; [exact T'|]. split; assumption. }
  split.
  { split; [intros _; unfold warm_gap; lra|]. intros _.
    change (ps_db (c_outdoor c)) with 265. unfold degC. split; [lra|]. intros x X. cbn in X. inversion X. lra. }
  split; [apply D; lra|]. split; [reflexivity|]. split; [repeat split|].
  split; [repeat split; lra|].
  unfold in_F, out_F, F_of, c, c'. cbn [warm_cond c_indoor c_outdoor ps_db put_hr toy_cond]. cbn. lra.
Qed.

(** The values exist, whatever the control. *)
Lemma warm_case sol f pw ctl o h t : o = 265 \/ o = 270 -> f (warm_cond o h) = Ok t -> 0 <= t < 1 -> h <= 0.01 -> 0 <= pw ->
  let u := warm_unit f pw ctl DSResistive in let M := NRELDXModel warm_psy sol in let c := warm_cond o h in
  in_defrost (u_defrost u) c = true
  /\ exists s p y q n, gross_steady_state_heating_capacity M u (Some c) = Ok s /\ 0 < s
    /\ gross_steady_state_heating_power M u (Some c) = Ok p /\ 1500 < p
    /\ gross_steady_state_heating_cop M u (Some c) = Ok y /\ 0 < y
    /\ gross_integrated_heating_capacity M u (Some c) = Ok q
    /\ gross_integrated_heating_cop M u (Some c) = Ok n.
Proof.
  intros Ho T Ht Hh Hp u M c.
  assert (D : in_defrost (u_defrost u) c = true) by (apply Rltb_true; cbn; destruct Ho; lra).
  split; [exact D|]. assert (T' : df_time_fraction (u_defrost u) c = Ok t) by exact T.
  assert (F : forall m b fn, resnet_grading_model warm_psy m b fn u c = Ok 1).
  { intros m b fn. unfold resnet_grading_model. change (u_charge u) with 0.
    rewrite lit0_R, lit1_R. cbn [neqb RNum]. destruct (Reqb_spec 0 0); [reflexivity|lra]. }
  assert (Q : nrel_gross_heating_capacity u c
    = Ok (heat_cap_flow 1 * (heat_cap_T (degF 294) (degF o) * 9700))) by (apply ghc_eq; reflexivity).
  assert (P : nrel_gross_heating_power u c
    = Ok (heat_eir_T (degF 294) (degF o) * heat_cap_T (degF 294) (degF o) * (9700 / (97 / 22)))).
  { apply ghp_rated; try reflexivity. lra. }
  set (q := heat_cap_flow 1 * (heat_cap_T (degF 294) (degF o) * 9700)) in *.
  set (s := heat_eir_T (degF 294) (degF o) * heat_cap_T (degF 294) (degF o) * (9700 / (97 / 22))) in *.
  assert (Pq : 0 < q) by (unfold q, heat_cap_flow, heat_cap_T, degF; destruct Ho; subst o; lra).
  assert (Pp : 1500 < s) by (unfold s, heat_eir_T, heat_cap_T, degF; destruct Ho; subst o; lra).
  assert (E1 : gross_steady_state_heating_capacity M u (Some c) = Ok (q * 1)).
  { unfold gross_steady_state_heating_capacity, product. cbn [heating_conditions rbind M NRELDXModel md_ghc md_f_ghc].
    rewrite Q. cbn [rbind]. rewrite F. reflexivity. }
  assert (E2 : gross_steady_state_heating_power M u (Some c) = Ok (s * 1)).
  { unfold gross_steady_state_heating_power, product. cbn [heating_conditions rbind M NRELDXModel md_ghp md_f_ghp].
    rewrite P. cbn [rbind]. rewrite F. reflexivity. }
  rewrite Rmult_1_r in E1, E2. clearbody q s.
  destruct (warm_has_gap o h) as (h0 & w & H & S & Eg).
  pose proof (gap warm_psy c w h0 S H) as G. rewrite <- Eg in G. set (d := Rmax 0.000001 (warm_gap o h)) in *.
  assert (B : 0 < d <= 0.0084) by (unfold d, Rmax, warm_gap; destruct Rle_dec, Ho; subst o; lra). clearbody d.
  assert (I1 : exists v, gross_integrated_heating_capacity M u (Some c) = Ok v).
  { unfold gross_integrated_heating_capacity. cbn [heating_conditions rbind M NRELDXModel md_gihc].
    unfold nrel_gross_integrated_heating_capacity. rewrite D, T', G. cbn [rbind].
    unfold gross_steady_state_heating_capacity in E1. cbn [heating_conditions rbind M NRELDXModel md_ghc md_f_ghc] in E1.
    rewrite E1. unfold u at 1 2, warm_unit, toy_unit. cbn [u_defrost df_control df_strategy].
    destruct ctl; cbn [rbind]; eexists; reflexivity. }
  assert (I2 : exists v, gross_integrated_heating_power M u (Some c) = Ok v /\ 0 < v).
  { unfold gross_integrated_heating_power. cbn [heating_conditions rbind M NRELDXModel md_gihp].
    unfold nrel_gross_integrated_heating_power. rewrite D, T', G. cbn [rbind].
    unfold gross_steady_state_heating_power in E2. cbn [heating_conditions rbind M NRELDXModel md_ghp md_f_ghp] in E2.
    rewrite E2. change (df_resistive_power (u_defrost u)) with pw. change (df_control (u_defrost u)) with ctl.
    change (df_strategy (u_defrost u)) with DSResistive.
    assert (L : 0 < s * (1 - t)) by nra. assert (L2 : 0 <= pw * t) by nra.
    assert (X : forall m, 0 < m -> 0 < s * m * (1 - t) + pw * t).
    { intros m Pm. assert (0 < s * (1 - t) * m) by (apply Rmult_lt_0_compat; lra). lra. }
    assert (X1 : 0 < 0.954 * (1 - t)) by lra. apply X in X1.
    assert (X2 : 0 < 0.9 - 36.45 * d) by lra. apply X in X2.
    destruct ctl; cbn [rbind]; (eexists; split; [reflexivity|]); rnum; lra. }
  destruct I1 as (v & I1), I2 as (e & I2 & Pe).
  exists q, s, (q / s), v, (v / e). repeat (split; [assumption|]).
  split; [unfold gross_steady_state_heating_cop, both; rewrite E1, E2; cbn [rbind]; apply pydiv_ok; lra|].
  split; [apply Rdiv_lt_0_compat; lra|]. split; [exact I1|].
  unfold gross_integrated_heating_cop, both. rewrite I1, I2. cbn [rbind]. apply pydiv_ok. lra.
Qed.

(** Dry air and a 100 W heater. *)
Lemma dry_raises : forall sol, exists psy u c y n, let M := NRELDXModel psy sol in
  in_defrost (u_defrost u) c = true /\ df_control (u_defrost u) = DCTimed
  /\ df_strategy (u_defrost u) = DSResistive /\ 0 < df_resistive_power (u_defrost u)
  /\ df_time_fraction (u_defrost u) c = Ok (3.5 / 60)
  /\ gross_steady_state_heating_cop M u (Some c) = Ok y
  /\ gross_integrated_heating_cop M u (Some c) = Ok n /\ y < n.
Proof.
  intros sol. pose (u := warm_unit default_time_fraction 100 DCTimed DSResistive). pose (c := warm_cond 270 0.002).
  destruct (warm_case sol default_time_fraction 100 DCTimed 270 0.002 (3.5 / 60)) as (D & s & p & y & q & n & S & Ps & P & Pp & Y & Py & I & N);
    [right; reflexivity|apply warm_fixed|lra|lra|lra|].
  exists warm_psy, u, c, y, n. cbv zeta. split; [exact D|]. split; [reflexivity|]. split; [reflexivity|].
  split; [cbn; lra|]. split; [apply warm_fixed|]. split; [exact Y|]. split; [exact N|].
  destruct (timed_cop warm_psy sol u c (warm_gap 270 0.002) (3.5 / 60) s p y n D (warm_has_gap 270 0.002) (warm_fixed 270 0.002)
    ltac:(lra) eq_refl ltac:(cbn; lra) S Ps P Y Py N) as (_ & X).
  apply X; [reflexivity|unfold warm_gap; lra|]. change (df_resistive_power (u_defrost u)) with 100.
  assert (E : Rmax 0.000001 (warm_gap 270 0.002) = 0.000001) by (unfold Rmax, warm_gap; destruct Rle_dec; lra).
  rewrite E. lra.
Qed.
