(** Consequences and examples for C28-C31. *)
From Coq Require Import Reals QArith Lra Psatz Lia List Bool.
From Verif.Base Require Import Num Res Tac.
From Verif.Model Require Import Units Util Psychrometrics Conditions Defrost Fan Curves
  Tabular Unit NREL Resnet.
From Verif.Spec Require Import NrelSpec DefrostSpec.
From Verif.Proofs Require Import UnitsR DefrostProofs MakeCond NrelProofs ToyUnit.
From Verif.Props Require Import P_Psych.
Import ListNotations.
Local Open Scope R_scope.

Lemma gcp_rated u c w q cop :
  ps_wb (c_indoor c) = Some w -> c_mass_airflow_ratio c = Some 1 ->
  entry (sd_gross_cap (u_c u)) (c_speed c) q ->
  entry (sd_gross_cop (u_c u)) (c_speed c) cop -> cop <> 0 ->
  let p := cool_eir_T (curve_wb w) (curve_odb (ps_db (c_outdoor c)))
           * cool_cap_T (curve_wb w) (curve_odb (ps_db (c_outdoor c))) * (q / cop) in
  (0 <= p -> nrel_gross_cooling_power u c = Ok p)
  /\ (p < 0 -> nrel_gross_cooling_power u c = Err PyException).
Proof.
  intros Hw Hr Hq Hc Hn p.
  rewrite (gcp_eq u c w 1 q cop Hw Hr Hq Hc Hn). cbv zeta.
  destruct flow_one as (E1 & E2 & _). rewrite E1, E2, !Rmult_1_l. fold p.
  split; intros H; [apply limit_check_pos|apply limit_check_neg]; auto.
Qed.

Lemma ghp_rated u c q cop :
  c_mass_airflow_ratio c = Some 1 ->
  entry (sd_gross_cap (u_h u)) (c_speed c) q ->
  entry (sd_gross_cop (u_h u)) (c_speed c) cop -> cop <> 0 ->
  let idb := degF (ps_db (c_indoor c)) in
  let odb := degF (ps_db (c_outdoor c)) in
  nrel_gross_heating_power u c = Ok (heat_eir_T idb odb * heat_cap_T idb odb * (q / cop)).
Proof.
  intros Hr Hq Hc Hn. rewrite (ghp_eq u c 1 q cop Hr Hq Hc Hn). cbv zeta.
  destruct flow_one as (_ & _ & E1 & E2). rewrite E1, E2, !Rmult_1_l. reflexivity.
Qed.

Lemma degF_fr_F (x : R) : degF (fr_F x) = x.
Proof. rewrite <- to_F_degF. apply to_fr_F. Qed.

Ltac maxmin :=
  unfold curve_wb, curve_odb, clamp; rewrite ?degF_fr_F; unfold Rmax, Rmin;
  repeat (match goal with |- context [Rle_dec ?a ?b] =>
            lazymatch a with context [Rle_dec] => fail | _ =>
            lazymatch b with context [Rle_dec] => fail | _ =>
            destruct (Rle_dec a b) end end end; try lra).

Lemma gtc_not_mono u c c' q :
  ps_wb (c_indoor c) = Some (fr_F 57) -> ps_wb (c_indoor c') = Some (fr_F 57.5) ->
  ps_db (c_outdoor c) = fr_F 95 -> ps_db (c_outdoor c') = fr_F 95 ->
  c_mass_airflow_ratio c = Some 1 -> c_mass_airflow_ratio c' = Some 1 ->
  c_speed c = c_speed c' ->
  entry (sd_gross_cap (u_c u)) (c_speed c) q -> 0 < q ->
  exists v v', nrel_gross_total_cooling_capacity u c = Ok v
    /\ nrel_gross_total_cooling_capacity u c' = Ok v' /\ v' < v.
Proof.
  intros Hw Hw' Ho Ho' Hr Hr' Es Hq Hp.
  eexists _, _. split; [exact (gtc_eq u c _ _ q Hw Hr Hq)|].
  rewrite Es in Hq.
  split; [exact (gtc_eq u c' _ _ q Hw' Hr' Hq)|].
  rewrite Ho, Ho'.
  assert (E1 : curve_wb (fr_F 57) = 57) by maxmin.
  assert (E2 : curve_wb (fr_F 57.5) = 57.5) by maxmin.
  assert (E3 : curve_odb (fr_F 95) = 95) by maxmin.
  rewrite E1, E2, E3. pose proof cool_cap_T_drops.
  destruct flow_one as (E & _). rewrite E.
  rewrite 2 Rmult_1_l. apply Rmult_lt_compat_r; assumption.
Qed.

Lemma clamp_example :
  let c := toy_cond 300 (fr_F 50) (fr_F 60) 1 in
  let c' := toy_cond 300 (fr_F 55) (fr_F 74) 1 in
  ps_wb (c_indoor c) <> ps_wb (c_indoor c')
  /\ curve_wb (fr_F 50) = curve_wb (fr_F 55)
  /\ curve_odb (ps_db (c_outdoor c)) = curve_odb (ps_db (c_outdoor c')).
Proof.
  cbv zeta. toy. split; [|split].
  - intros H. assert (E : Some (fr_F 50) = Some (fr_F 55)) by exact H.
    assert (E' : fr_F 50 = fr_F 55) by congruence.
    apply (proj1 (fr_F_inj 50 55)) in E'. lra.
  - maxmin.
  - change (curve_odb (fr_F 60) = curve_odb (fr_F 74)). maxmin.
Qed.

Lemma charge_factors_zero psy u c :
  u_charge u = 0 ->
  resnet_f_gtc psy u c = Ok 1 /\ resnet_f_gcp psy u c = Ok 1
  /\ resnet_f_ghc psy u c = Ok 1 /\ resnet_f_ghp psy u c = Ok 1.
Proof.
  intros H. unfold resnet_f_gtc, resnet_f_gcp, resnet_f_ghc, resnet_f_ghp.
  rewrite !grading_zero by auto. auto.
Qed.

Lemma resnet_factors_rated psy u c v :
  c_mass_airflow_ratio c = Some 1 ->
  let ti := degC (ps_db (c_indoor c)) in
  let to := degC (ps_db (c_outdoor c)) in
  (resnet_f_gtc psy u c = Ok v -> v = charge_only Cooling true ti to (u_charge u))
  /\ (resnet_f_gcp psy u c = Ok v -> v = charge_only Cooling false ti to (u_charge u))
  /\ (resnet_f_ghc psy u c = Ok v -> v = charge_only Heating true ti to (u_charge u))
  /\ (resnet_f_ghp psy u c = Ok v -> v = charge_only Heating false ti to (u_charge u)).
Proof.
  intros H. cbv zeta. repeat split; apply grading_rated; auto.
Qed.


(** The factor is defined at rated airflow as soon as the rated value and the
    value at the charge-corrected flow are defined and not zero. *)
Lemma grading_rated_ok psy m capacity fn u c rc rated v' :
  c_mass_airflow_ratio c = Some 1 -> u_charge u <> 0 ->
  make_condition psy m u (c_speed c) None None = Ok rc ->
  fn u rc = Ok rated -> rated <> 0 ->
  let k := charge_only m true (degC (ps_db (c_indoor rc))) (degC (ps_db (c_outdoor rc)))
             (u_charge u) in
  k <> 0 ->
  (let! c' := ex (set_mass_airflow_ratio psy (1 / k)) rc in fn u c') = Ok v' -> v' <> 0 ->
  exists v, resnet_grading_model psy m capacity fn u c = Ok v.
Proof.
  intros Hr H0 Hrc Hv Hn k Hk Hv' Hn'. unfold resnet_grading_model.
  rewrite lit0_R. cbn [neqb RNum].
  destruct (Reqb_spec (u_charge u) 0); [contradiction|].
  rewrite Hrc. cbn [rbind]. rewrite Hv. cbn [rbind].
  rewrite !domanski_eq. unfold db_C.
  rewrite (to_C_degC (ps_db (c_indoor rc))), (to_C_degC (ps_db (c_outdoor rc))).
  fold k. rewrite lit1_R. rewrite (pydiv_ok 1 k) by auto. cbn [rbind].
  rewrite Hr. cbn [rbind need].
  change (1 * (1 / k))%num with (1 * (1 / k)).
  rewrite Rmult_1_l.
  apply rbind_ok in Hv'. destruct Hv' as (c' & E1 & E2).
  rewrite E1. cbn [rbind]. rewrite E2. cbn [rbind].
  rewrite (pydiv_ok v' rated) by auto. cbn [rbind].
  rewrite (make_condition_ratio1 psy m u _ _ _ _ Hrc). cbn [rbind].
  rewrite Hv. cbn [rbind]. rewrite (pydiv_ok rated rated) by auto. cbn [rbind].
  assert (Hq : v' / rated <> 0).
  { unfold Rdiv. apply Rmult_integral_contrapositive_currified; auto.
    apply Rinv_neq_0_compat; auto. }
  rewrite (pydiv_ok _ (v' / rated)) by auto. cbn [rbind].
  assert (Hq1 : rated / rated <> 0).
  { replace (rated / rated) with 1 by (field; auto). lra. }
  eexists. apply pydiv_ok. auto.
Qed.

Lemma charge_example : exists v,
  resnet_f_gtc toy_psy (toy_unit (-0.25) (toy_defrost DCTimed DSReverseCycle))
    (toy_cond 300 292 308 1) = Ok v.
Proof.
  unfold resnet_f_gtc.
  set (u := toy_unit _ _). set (c := toy_cond _ _ _ _).
  assert (Hc : make_condition toy_psy Cooling u (c_speed c) None None
               = Ok (flow_cond (default_outdoor Cooling) (default_indoor Cooling) 0 (Some 0%nat)
                       (Some (125 * ((1 / 1) * (1 / 1)))) 1.2 1.2 1 10000 1 None)).
  { apply make_condition_ok with (mp := [Some 0%nat]); try reflexivity; lra. }
  assert (Ew : curve_wb (fr_F (lit 67)) = 67).
  { replace (lit 67) with 67 by (rnum; lra). maxmin. }
  assert (Eo : curve_odb (fr_F (lit 95)) = 95).
  { replace (lit 95) with 95 by (rnum; lra). maxmin. }
  assert (Ed : degC (fr_F (lit 80)) = 80 / 3 /\ degC (fr_F (lit 95)) = 35).
  { unfold degC, fr_F. rnum. lra. }
  set (k := 1 + (-0.946 + 0.0493 * (80 / 3) + -0.00118 * 35 + -1.15 * -0.25) * -0.25).
  assert (Ek : charge_only Cooling true (degC (fr_F (lit 80))) (degC (fr_F (lit 95)))
                 (u_charge u) = k).
  { destruct Ed as [-> ->]. unfold charge_only, charge_poly, k. unfold u, toy_unit.
    cbn [u_charge]. destruct (Rlt_dec (-0.25) 0); lra. }
  assert (Hk : 0.8 < k < 0.9) by (unfold k; lra).
  assert (Hi : 1 < 1 / k < 1.3).
  { assert (E : 1 / k * k = 1) by (field; lra). set (z := 1 / k) in *. clearbody z. nra. }
  eapply (grading_rated_ok toy_psy Cooling true _ u c _); [reflexivity| |exact Hc| | | | |].
  - unfold u, toy_unit. cbn [u_charge]. lra.
  - apply (gtc_eq u _ (fr_F (lit 67)) 1 10300); reflexivity.
  - cbn [flow_cond c_outdoor default_outdoor ps_db psych_wetbulb put_wb blank].
    rewrite Ew, Eo. destruct flow_one as [-> _]. unfold cool_cap_T. lra.
  - cbn [flow_cond c_outdoor c_indoor default_outdoor default_indoor ps_db psych_wetbulb put_wb blank].
    rewrite Ek. lra.
  - cbn [flow_cond c_outdoor c_indoor default_outdoor default_indoor ps_db psych_wetbulb put_wb blank].
    rewrite Ek. fold (flow_cond (default_outdoor Cooling) (default_indoor Cooling) 0 (Some 0%nat)
                       (Some (125 * ((1 / 1) * (1 / 1)))) 1.2 1.2 1 10000 1 None).
    rewrite set_ratio_flow_cond by (reflexivity || lra). cbn [rbind].
    apply (gtc_eq u _ (fr_F (lit 67)) (1 / k) 10300); reflexivity.
  - cbn [flow_cond c_outdoor default_outdoor ps_db psych_wetbulb put_wb blank].
    rewrite Ew, Eo. set (r := 1 / k) in *. clearbody r.
    assert (0 < cool_cap_flow r) by (unfold cool_cap_flow; nra).
    assert (0 < cool_cap_T 67 95) by (unfold cool_cap_T; lra).
    apply Rgt_not_eq. apply Rmult_lt_0_compat; [auto|nra].
Qed.

Lemma epri_example :
  let u := toy_unit 0 (toy_defrost DCDemand DSResistive) in
  let c := toy_cond 294 289 270 1 in
  (exists t, epri_defrost_time_fraction toy_psy c = Ok t)
  /\ in_defrost (u_defrost u) c = true
  /\ exists v, nrel_gross_integrated_heating_capacity toy_psy (fun _ _ => Ok 9000) u c = Ok v.
Proof.
  cbv zeta. split; [|split].
  - unfold epri_defrost_time_fraction, coil_diff_outdoor_air_humidity.
    cbn [rbind toy_psy GetSatHumRatio].
    change (hr_of toy_psy (c_outdoor (toy_cond 294 289 270 1))) with (@Ok R 0.01).
    cbn [rbind].
    assert (E : pymax (lit 0.000001) (0.01 - 0.02)%num = 1 / 1000000).
    { rnum. rcases. }
    rewrite E. rewrite (pydiv_ok _ (1 / 1000000)) by lra. cbn [rbind].
    eexists. apply pydiv_ok. rnum. lra.
  - unfold in_defrost, in_defrost_at, toy_unit, toy_defrost.
    cbn [u_defrost df_strategy df_low_temperature df_high_temperature toy_cond c_outdoor
         ps_db psych_wetbulb put_wb blank nltb RNum]. rcases; reflexivity.
  - unfold nrel_gross_integrated_heating_capacity.
    destruct (in_defrost _ _); [|eauto].
    unfold toy_unit, toy_defrost.
    cbn [u_defrost df_strategy df_control df_time_fraction default_time_fraction rbind].
    eauto.
Qed.
