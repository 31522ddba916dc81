(** Concrete cases for C105: a unit with wrong charge has all the values compared. *)
From Coq Require Import String Reals QArith Lra Psatz List.
From Verif.Base Require Import Num Res Tac.
From Verif.Model Require Import Units Util Psychrometrics Conditions Defrost Fan Unit NREL BaseModel Resnet DXUnit.
From Verif.Spec Require Import NrelSpec ChargeSpec.
From Verif.Proofs Require Import UnitsR PsychProofs MakeCond NrelProofs ToyUnit NrelProofs2 ResnetProofs HeatRatio FanCost ToyBuild Charge.
From Verif.Props Require Import P_Psych.
Import ListNotations.
Local Open Scope R_scope.

Definition plain_unit : dxunit R := toy_unit 0 (toy_defrost DCTimed DSReverseCycle).
Definition rated_air (m : mode) : cond R :=
  flow_cond (default_outdoor m) (default_indoor m) 0 (Some 0%nat)
    (Some (125 * ((1 / 1) * (1 / 1)))) 1.2 1.2 1 10000 1 None.

Lemma plain_rated m f : make_condition toy_psy m (charged f plain_unit) 0 None None = Ok (rated_air m).
Proof. destruct m; apply make_condition_ok with (mp := [Some 0%nat]); try reflexivity; lra. Qed.

Lemma inv_bounds k : 0.75 < k < 1.1 -> 0.9 < 1 / k < 1.34.
Proof. intros H. assert (E : 1 / k * k = 1) by (field; lra). set (z := 1 / k) in *. clearbody z. nra. Qed.

(** The change of airflow that stands for the charge at rating conditions is moderate. *)
Lemma rated_factor m f : -0.25 <= f <= 0.25 ->
  0.75 < charge_only m true (degC (ps_db (c_indoor (rated_air m)))) (degC (ps_db (c_outdoor (rated_air m)))) f < 1.1.
Proof.
  intros F. destruct m; cbn [rated_air flow_cond c_indoor c_outdoor default_indoor default_outdoor ps_db psych_wetbulb put_wb blank].
  - assert (Ed : degC (fr_F (lit 80)) = 80 / 3 /\ degC (fr_F (lit 95)) = 35) by (unfold degC, fr_F; rnum; lra).
    destruct Ed as [-> ->]. destruct (Rlt_dec f 0).
    + rewrite charge_neg by lra. unfold charge_poly. nra.
    + rewrite charge_pos by lra. unfold charge_poly. nra.
  - assert (Ed : degC (fr_F (lit 47)) = 25 / 3) by (unfold degC, fr_F; rnum; lra). rewrite Ed.
    destruct (Rlt_dec f 0).
    + rewrite charge_neg by lra. unfold charge_poly. nra.
    + rewrite charge_pos by lra. unfold charge_poly. nra.
Qed.

Section Factors.
  Variables (f : R) (c : cond R).
  Hypothesis F : -0.25 <= f <= 0.25.
  Hypothesis R1 : c_mass_airflow_ratio c = Some 1.
  Hypothesis S0 : c_speed c = 0%nat.
  Let u := charged f plain_unit.

  Lemma factor_of m b (fn : dxunit R -> cond R -> res R) :
    (forall r, 0.9 < r < 1.34 -> exists v, v <> 0 /\
       fn u (flow_cond (default_outdoor m) (default_indoor m) 0 (Some 0%nat)
          (Some (125 * ((1 / 1) * (1 / 1)))) 1.2 1.2 1 10000 r None) = Ok v) ->
    (exists v, v <> 0 /\ fn u (rated_air m) = Ok v) ->
    exists v, resnet_grading_model toy_psy m b fn u c = Ok v.
  Proof.
    intros H (v & N & V). destruct (Req_dec f 0) as [Z|Z].
    - exists 1. apply grading_zero. exact Z.
    - pose proof (rated_factor m f F) as K. pose proof (inv_bounds _ K) as I.
      set (k := charge_only m true _ _ f) in *.
      destruct (H (1 / k) I) as (v' & N' & V').
      eapply (grading_rated_ok toy_psy m b fn u c (rated_air m) v v'); auto.
      + rewrite S0. apply plain_rated.
      + change (k <> 0). lra.
      + change (charge_only m true _ _ (u_charge u)) with k.
        unfold rated_air. rewrite set_ratio_flow_cond by (destruct m; reflexivity || lra). cbn [rbind]. exact V'.
  Qed.

  Lemma flows_pos r : 0.9 < r < 1.34 ->
    0 < cool_cap_flow r /\ 0 < cool_eir_flow r /\ 0 < heat_cap_flow r /\ 0 < heat_eir_flow r.
  Proof. intros H. unfold cool_cap_flow, cool_eir_flow, heat_cap_flow, heat_eir_flow. repeat split; nra. Qed.

  Lemma factors_exist :
    (exists v, resnet_f_gtc toy_psy u c = Ok v) /\ (exists v, resnet_f_gcp toy_psy u c = Ok v)
    /\ (exists v, resnet_f_ghc toy_psy u c = Ok v) /\ (exists v, resnet_f_ghp toy_psy u c = Ok v).
  Proof.
    assert (Ew : curve_wb (fr_F (lit 67)) = 67) by (replace (lit 67) with 67 by (rnum; lra); maxmin).
    assert (Eo : curve_odb (fr_F (lit 95)) = 95) by (replace (lit 95) with 95 by (rnum; lra); maxmin).
    assert (E4 : degF (fr_F (lit 47)) = 47) by (unfold degF, fr_F; rnum; lra).
    assert (one : 0.9 < 1 < 1.34) by lra.
    assert (P1 : 0 < cool_cap_T 67 95) by (unfold cool_cap_T; lra).
    assert (P2 : 0 < cool_eir_T 67 95) by (unfold cool_eir_T; lra).
    assert (P3 : 0 < heat_cap_T 70 47) by (unfold heat_cap_T; lra).
    assert (P4 : 0 < heat_eir_T 70 47) by (unfold heat_eir_T; lra).
    assert (G1 : forall r, 0.9 < r < 1.34 -> exists v, v <> 0 /\
       resnet_gross_total_cooling_capacity toy_psy u (flow_cond (default_outdoor Cooling) (default_indoor Cooling) 0 (Some 0%nat)
          (Some (125 * ((1 / 1) * (1 / 1)))) 1.2 1.2 1 10000 r None) = Ok v).
    { intros r H. destruct (flows_pos r H) as (A & B & _). eexists. split.
      2: { unfold resnet_gross_total_cooling_capacity, resnet_value. cbn [u charged plain_unit u_rn toy_unit toy_rn rn_net].
           apply (gtc_eq _ _ (fr_F (lit 67)) r 10300); reflexivity. }
      cbn [flow_cond c_outdoor default_outdoor ps_db psych_wetbulb put_wb blank]. rewrite Ew, Eo.
      apply Rgt_not_eq. repeat apply Rmult_lt_0_compat; lra. }
    assert (G2 : forall r, 0.9 < r < 1.34 -> exists v, v <> 0 /\
       resnet_gross_cooling_power toy_psy u (flow_cond (default_outdoor Cooling) (default_indoor Cooling) 0 (Some 0%nat)
          (Some (125 * ((1 / 1) * (1 / 1)))) 1.2 1.2 1 10000 r None) = Ok v).
    { intros r H. destruct (flows_pos r H) as (A & B & _).
      exists (cool_eir_flow r * cool_cap_flow r * (cool_eir_T 67 95 * cool_cap_T 67 95 * (10300 / (103 / 22)))).
      assert (0 < cool_eir_flow r * cool_cap_flow r * (cool_eir_T 67 95 * cool_cap_T 67 95 * (10300 / (103 / 22))))
        by (repeat apply Rmult_lt_0_compat; lra).
      split; [lra|]. unfold resnet_gross_cooling_power, resnet_value. cbn [u charged plain_unit u_rn toy_unit toy_rn rn_net].
      rewrite (gcp_eq _ _ (fr_F (lit 67)) r 10300 (103 / 22)) by (reflexivity || lra).
      cbv zeta. cbn [flow_cond c_outdoor default_outdoor ps_db psych_wetbulb put_wb blank]. rewrite Ew, Eo.
      apply limit_check_pos. lra. }
    assert (G3 : forall r, 0.9 < r < 1.34 -> exists v, v <> 0 /\
       resnet_gross_heating_capacity toy_psy u (flow_cond (default_outdoor Heating) (default_indoor Heating) 0 (Some 0%nat)
          (Some (125 * ((1 / 1) * (1 / 1)))) 1.2 1.2 1 10000 r None) = Ok v).
    { intros r H. destruct (flows_pos r H) as (_ & _ & A & B). eexists. split.
      2: { unfold resnet_gross_heating_capacity, resnet_value. cbn [u charged plain_unit u_rn toy_unit toy_rn rn_net].
           apply (ghc_eq _ _ r 9700); reflexivity. }
      cbn [flow_cond c_outdoor c_indoor]. rewrite default_idb.
      change (degF (ps_db (default_outdoor Heating))) with (degF (fr_F (T:=R) (lit 47))). rewrite E4.
      apply Rgt_not_eq. repeat apply Rmult_lt_0_compat; lra. }
    assert (G4 : forall r, 0.9 < r < 1.34 -> exists v, v <> 0 /\
       resnet_gross_heating_power toy_psy u (flow_cond (default_outdoor Heating) (default_indoor Heating) 0 (Some 0%nat)
          (Some (125 * ((1 / 1) * (1 / 1)))) 1.2 1.2 1 10000 r None) = Ok v).
    { intros r H. destruct (flows_pos r H) as (_ & _ & A & B). eexists. split.
      2: { unfold resnet_gross_heating_power, resnet_value. cbn [u charged plain_unit u_rn toy_unit toy_rn rn_net].
           apply (ghp_eq _ _ r 9700 (97 / 22)); reflexivity || lra. }
      cbv zeta. cbn [flow_cond c_outdoor c_indoor]. rewrite default_idb.
      change (degF (ps_db (default_outdoor Heating))) with (degF (fr_F (T:=R) (lit 47))). rewrite E4.
      apply Rgt_not_eq. repeat apply Rmult_lt_0_compat; lra. }
    split; [|split; [|split]]; eapply factor_of; eauto.
  Qed.
End Factors.

Lemma cooling_example sol f : -0.25 <= f <= 0.25 ->
  let c := toy_cond 300 292 308 1 in
  let M := RESNETDXModel toy_psy sol in
  let u := charged f plain_unit in
  weather c 25 27 18 50
  /\ cooling_fan_power sol u (Some c) = Ok 300
  /\ exists q p, gross_total_cooling_capacity M u (Some c) = Ok q /\ 300 < q
     /\ gross_cooling_power M u (Some c) = Ok p /\ 0 < p.
Proof.
  intros F c M u. split; [|split].
  - unfold weather, c. cbn [toy_cond c_mass_airflow_ratio c_indoor c_outdoor ps_db psych_wetbulb put_wb blank].
    repeat split; lra.
  - exact (proj1 (toy_fan_cost sol)).
  - destruct (factors_exist f c F eq_refl eq_refl) as ((v & V) & (w & W) & _).
    pose proof (proj1 (resnet_factors_rated toy_psy u c v eq_refl) V) as Ev.
    pose proof (proj1 (proj2 (resnet_factors_rated toy_psy u c w eq_refl)) W) as Ew.
    assert (Ti : degC (ps_db (c_indoor c)) = 26.85 /\ degC (ps_db (c_outdoor c)) = 34.85)
      by (unfold degC; cbn [c toy_cond c_indoor c_outdoor ps_db psych_wetbulb put_wb blank]; lra).
    destruct Ti as [Ti To]. rewrite Ti, To in Ev, Ew. cbn [u charged u_charge] in Ev, Ew.
    assert (Bv : 0.7 < v < 1.2).
    { rewrite Ev. destruct (Rlt_dec f 0); [rewrite charge_neg by lra|rewrite charge_pos by lra]; unfold charge_poly; nra. }
    assert (Bw : 0.7 < w < 1.2).
    { rewrite Ew. destruct (Rlt_dec f 0); [rewrite charge_neg by lra|rewrite charge_pos by lra]; unfold charge_poly; nra. }
    clear Ev Ew.
    assert (Wb : curve_wb 292 = degF 292) by (unfold degF; unfold curve_wb, clamp, degF; maxmin).
    assert (Ob : curve_odb 308 = degF 308) by (unfold degF; unfold curve_odb, degF; maxmin).
    set (q := cool_cap_T (degF 292) (degF 308) * 10300).
    set (p := cool_eir_T (degF 292) (degF 308) * cool_cap_T (degF 292) (degF 308) * (10300 / (103 / 22))).
    assert (Bq : 1000 < q) by (unfold q, cool_cap_T, degF; lra).
    assert (Bp : 0 < p) by (unfold p, cool_eir_T, cool_cap_T, degF; lra).
    assert (Q : md_gtc M u c = Ok q).
    { cbn [M md_gtc RESNETDXModel]. unfold resnet_gross_total_cooling_capacity, resnet_value.
      cbn [u charged plain_unit u_rn toy_unit toy_rn rn_net].
      rewrite (gtc_eq _ _ 292 1 10300) by reflexivity. destruct flow_one as [-> _].
      change (ps_db (c_outdoor c)) with 308. rewrite Wb, Ob, Rmult_1_l. reflexivity. }
    assert (P : md_gcp M u c = Ok p).
    { cbn [M md_gcp RESNETDXModel]. unfold resnet_gross_cooling_power, resnet_value.
      cbn [u charged plain_unit u_rn toy_unit toy_rn rn_net].
      rewrite (gcp_eq _ _ 292 1 10300 (103 / 22)) by (reflexivity || lra). cbv zeta.
      destruct flow_one as (-> & -> & _).
      change (ps_db (c_outdoor c)) with 308. rewrite Wb, Ob.
      replace (1 * 1 * _) with p by (unfold p; ring). apply limit_check_pos. lra. }
    clearbody q p. exists (q * v), (p * w).
    unfold gross_total_cooling_capacity, gross_cooling_power, checked_product. cbn [cooling_conditions rbind].
    rewrite Q, P. cbn [rbind].
    change (md_f_gtc M u c) with (resnet_f_gtc toy_psy u c). change (md_f_gcp M u c) with (resnet_f_gcp toy_psy u c).
    fold u in V, W. rewrite V, W. cbn [rbind nmul RNum].
    rewrite !limit_check_pos by (apply Rmult_le_pos; lra). repeat split; [nra|apply Rmult_lt_0_compat; lra].
Qed.

Lemma heating_example sol t f : -0.25 <= f <= 0.25 -> 255 <= t <= 290 ->
  let c := toy_cond 294 289 t 1 in
  let M := RESNETDXModel toy_psy sol in
  let u := charged f plain_unit in
  c_mass_airflow_ratio c = Some 1 /\ ps_db (c_outdoor c) = t
  /\ heating_fan_power sol u (Some c) = Ok 300
  /\ exists q p, gross_steady_state_heating_capacity M u (Some c) = Ok q
     /\ gross_steady_state_heating_power M u (Some c) = Ok p /\ 0 < p <= q.
Proof.
  intros F Ht c M u. split; [reflexivity|]. split; [reflexivity|]. split.
  - exact (proj1 (proj2 (toy_fan_cost sol))).
  - destruct (factors_exist f c F eq_refl eq_refl) as (_ & _ & (v & V) & (w & W)).
    pose proof (proj1 (proj2 (proj2 (resnet_factors_rated toy_psy u c v eq_refl))) V) as Ev.
    pose proof (proj2 (proj2 (proj2 (resnet_factors_rated toy_psy u c w eq_refl))) W) as Ew.
    assert (To : -18.15 <= degC (ps_db (c_outdoor c)) <= 16.85)
      by (unfold degC; cbn [c toy_cond c_indoor c_outdoor ps_db psych_wetbulb put_wb blank]; lra).
    cbn [u charged u_charge] in Ev, Ew. set (to := degC (ps_db (c_outdoor c))) in *. clearbody to.
    assert (Bv : 0.7 < v < 1.2).
    { rewrite Ev. destruct (Rlt_dec f 0); [rewrite charge_neg by lra|rewrite charge_pos by lra]; unfold charge_poly; nra. }
    assert (Bw : 0.7 < w < 1.3).
    { rewrite Ew. destruct (Rlt_dec f 0); [rewrite charge_neg by lra|rewrite charge_pos by lra]; unfold charge_poly; nra. }
    clear Ev Ew.
    set (C := heat_cap_T (degF 294) (degF t)). set (E := heat_eir_T (degF 294) (degF t)).
    assert (BC : 0.4 < C < 1.5) by (unfold C, heat_cap_T, degF; nra).
    assert (BE : 0.5 < E < 2) by (unfold E, heat_eir_T, degF; nra).
    assert (Q : md_ghc M u c = Ok (C * 9700)).
    { cbn [M md_ghc RESNETDXModel]. unfold resnet_gross_heating_capacity, resnet_value.
      cbn [u charged plain_unit u_rn toy_unit toy_rn rn_net].
      rewrite (ghc_eq _ _ 1 9700) by reflexivity. destruct flow_one as (_ & _ & -> & _).
      rewrite Rmult_1_l. reflexivity. }
    assert (P : md_ghp M u c = Ok (E * C * (9700 / (97 / 22)))).
    { cbn [M md_ghp RESNETDXModel]. unfold resnet_gross_heating_power, resnet_value.
      cbn [u charged plain_unit u_rn toy_unit toy_rn rn_net].
      rewrite (ghp_rated _ _ 9700 (97 / 22)) by (reflexivity || lra). reflexivity. }
    clearbody C E. exists (C * 9700 * v), (E * C * (9700 / (97 / 22)) * w).
    unfold gross_steady_state_heating_capacity, gross_steady_state_heating_power, product. cbn [heating_conditions rbind].
    rewrite Q, P. cbn [rbind].
    change (md_f_ghc M u c) with (resnet_f_ghc toy_psy u c). change (md_f_ghp M u c) with (resnet_f_ghp toy_psy u c).
    fold u in V, W. rewrite V, W. cbn [rbind nmul RNum]. split; [reflexivity|]. split; [reflexivity|].
    replace (9700 / (97 / 22)) with 2200 by lra. split.
    + repeat apply Rmult_lt_0_compat; lra.
    + assert (0 < E * w < 2 * 1.3) by nra.
      replace (E * C * 2200 * w) with (C * (2200 * (E * w))) by ring.
      replace (C * 9700 * v) with (C * (9700 * v)) by ring. apply Rmult_le_compat_l; lra.
Qed.

Lemma right_charge_best_false : ~ (forall psy sol f (u : dxunit R) c n n0,
  c_mass_airflow_ratio c = Some 1 ->
  gross_steady_state_heating_cop (RESNETDXModel psy sol) (charged f u) (Some c) = Ok n ->
  gross_steady_state_heating_cop (RESNETDXModel psy sol) (charged 0 u) (Some c) = Ok n0 -> n <= n0).
Proof.
  intros H. pose proof (fun f F => heating_example lin_sol 255 f F ltac:(lra)) as X. cbv zeta in X.
  destruct (X (-0.1) ltac:(lra)) as (R1 & T & _ & q & p & Q & P & B).
  destruct (X 0 ltac:(lra)) as (_ & _ & _ & q0 & p0 & Q0 & P0 & B0). clear X.
  set (c := toy_cond 294 289 255 1) in *.
  assert (N : gross_steady_state_heating_cop (RESNETDXModel toy_psy lin_sol) (charged (-0.1) plain_unit) (Some c) = Ok (q / p)).
  { unfold gross_steady_state_heating_cop, both. rewrite Q, P. cbn [rbind]. apply pydiv_ok. lra. }
  assert (N0 : gross_steady_state_heating_cop (RESNETDXModel toy_psy lin_sol) (charged 0 plain_unit) (Some c) = Ok (q0 / p0)).
  { unfold gross_steady_state_heating_cop, both. rewrite Q0, P0. cbn [rbind]. apply pydiv_ok. lra. }
  pose proof (H toy_psy lin_sol (-0.1) plain_unit c _ _ R1 N N0) as L.
  destruct (cold_heating_effect toy_psy lin_sol (RESNETDXModel toy_psy lin_sol) (-0.1) plain_unit c (or_intror eq_refl)
              q0 p0 R1 ltac:(rewrite T; lra) ltac:(lra) Q0 ltac:(lra) P0 ltac:(lra)) as (_ & C).
  specialize (C _ _ N N0). lra.
Qed.
