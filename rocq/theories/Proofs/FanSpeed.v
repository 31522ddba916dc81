(** Efficiency and blower speed of fans (C92). *)
From Coq Require Import Reals QArith Lra Lia List Bool.
From Verif.Base Require Import Num Res Tac.
From Verif.Model Require Import Units Util Fan.
From Verif.Spec Require Import FanSpec FanRatioSpec FanSpeedSpec.
From Verif.Proofs Require Import UnitsR FanProofs FanProofs2 FanProofs3 FanProofs4 FanRatio.
Import ListNotations.
Local Open Scope R_scope.

Lemma esp_or_inv sol (f : Fn) i esp p : esp_or_operating sol f i esp = Ok p <-> at_pressure sol f i esp p.
Proof.
  unfold esp_or_operating, at_pressure. destruct esp; [|tauto]. split; intros H; [apply Ok_inj in H; auto|congruence].
Qed.

Lemma airflow_is sol (f : Fn) i esp p a : at_pressure sol f i esp p -> airflow sol f i esp = Ok a ->
  airflow_at f i p = Ok a.
Proof.
  unfold airflow, airflow_at, at_pressure. intros Hp H. destruct (f_class f); destruct esp; subst; auto.
  - rewrite Hp in H. exact H.
  - rewrite Hp in H. exact H.
  - apply rbind_ok in H. destruct H as (x & _ & H). discriminate.
Qed.

(** Efficiency times efficacy is pressure. *)
Lemma efficiency_is sol (f : Fn) i esp e :
  efficiency sol f i esp = Ok e ->
  exists p a w, at_pressure sol f i esp p /\ airflow sol f i esp = Ok a /\ power sol f i esp = Ok w
    /\ w <> 0 /\ e = a * p / w
    /\ forall x, efficacy sol f i esp = Ok x -> e * x = p.
Proof.
  unfold efficiency, fluid_power. intros H.
  apply rbind_ok in H. destruct H as (y & Y & H). apply rbind_ok in Y. destruct Y as (a & A & Y).
  apply rbind_ok in Y. destruct Y as (p & P & Y). apply Ok_inj in Y. subst y.
  apply rbind_ok in H. destruct H as (w & W & H). apply pydiv_inv in H. destruct H as (N & ->).
  pose proof (proj1 (esp_or_inv _ _ _ _ _) P) as P'.
  exists p, a, w. split; [exact P'|]. split; [exact A|]. split; [exact W|]. split; [exact N|].
  split; [reflexivity|]. cbn [nmul RNum]. intros x X.
  destruct (f_class f) eqn:K.
  3: { unfold power in W. unfold efficacy in X. rewrite K in W, X. rewrite P in W, X. cbn [rbind] in W, X.
       rewrite W in X. cbn [rbind] in X. rewrite (airflow_is _ _ _ _ _ _ P' A) in X. cbn [rbind] in X.
       apply pydiv_inv in X. destruct X as (Na & ->). cbn [ndiv RNum]. field. auto. }
  all: unfold power in W; rewrite K in W; rewrite A, X in W; cbn [rbind] in W; apply Ok_inj in W; subst w;
    cbn [nmul ndiv RNum] in *; assert (a <> 0) by (intros Q; apply N; rewrite Q; ring);
    assert (x <> 0) by (intros Q; apply N; rewrite Q; ring); field; auto.
Qed.

Lemma rpm_is x : fr_rpm (T:=R) x = rpm x.
Proof. unfold fr_rpm, rpm. rnum. lra. Qed.

Lemma plain_rotation sol (f : Fn) i esp x :
  match f_class f with PSCFan | ECMFlowFan _ => False | _ => True end ->
  rotational_speed sol f i esp = Ok x ->
  exists a a0, airflow sol f i esp = Ok a /\ airflow sol f 0 esp = Ok a0 /\ a0 <> 0 /\ x = rpm 1100 * (a / a0).
Proof.
  intros K H. unfold rotational_speed in H.
  assert (H' : (let! r := airflow_ratio sol f i 0 esp in Ok (nmul (fr_rpm (lit 1100)) r)) = Ok x)
    by (destruct (f_class f); auto; contradiction).
  clear H. apply rbind_ok in H'. destruct H' as (r & E & H). apply Ok_inj in H.
  unfold airflow_ratio in E. apply rbind_ok in E. destruct E as (a & A & E).
  apply rbind_ok in E. destruct E as (b & B & E). apply pydiv_inv in E. destruct E as (N & ->).
  exists a, b. repeat split; auto. rewrite <- H. rewrite <- rpm_is.
  replace (lit (T:=R) 1100) with 1100 by (rnum; lra). reflexivity.
Qed.

Section Ecm.
  Variables (sol : solvers R) (airflows : list R) (esp eff : R) (mx : option R) (f f' : Fn) (ops : list fan_op)
    (a0 a p : R) (i : nat).
  Hypothesis Mk : make_ecm_fan airflows esp eff mx = Ok f.
  Hypothesis G0 : geti airflows 0 = Ok a0.
  Hypothesis F : Forall keeps_first ops.
  Hypothesis O : sfold run_op ops f = (f', Ok tt).
  Hypothesis G : geti (f_airflow f') i = Ok a.

  Lemma ecm_state : f_class f' = ECMFlowFan mx /\ f_design_esp f' = esp
    /\ geti (f_ratio f') i = Ok (a / a0)
    /\ unconstrained_power f' i p = Ok (ecm_wanted eff esp a a0 p)
    /\ unconstrained_efficacy f' i p
       = Ok ((eff - fr_W_per_cfm_inH2O 0.235 * esp) * (a / a0) ^ 2 + fr_W_per_cfm_inH2O 0.235 * p)
    /\ ecm_power_at mx f' i p = Ok (ecm_drawn eff esp a a0 p mx).
  Proof.
    pose proof Mk as H. unfold make_ecm_fan in H. inv_ok.
    apply (rel_init _ _ _ _ _ _ _ 0) in H as (a1 & G1 & Z & J & Ne); [|discriminate].
    rewrite G0 in G1. injection G1 as <-.
    destruct (rel_ops _ _ _ _ _ _ _ _ _ _ J Ne F O) as ((K & D & Rd & E0' & Hh & Hr & Hk) & Ne').
    assert (A : lit (T:=R) 0.235 = 0.235) by (rnum; lra).
    assert (X : unconstrained_efficacy f' i p
       = Ok ((eff - fr_W_per_cfm_inH2O 0.235 * esp) * (a / a0) ^ 2 + fr_W_per_cfm_inH2O 0.235 * p)).
    { unfold unconstrained_efficacy. rewrite Hk, (geti_map _ _ _ _ G). cbn [rbind]. f_equal.
      unfold EFFICACY_SLOPE_ESP. rewrite A. cbn [nmul nadd nsub RNum].
      generalize (fr_W_per_cfm_inH2O (T:=R) 0.235). intros. ring. }
    assert (Y : unconstrained_power f' i p = Ok (ecm_wanted eff esp a a0 p)).
    { unfold unconstrained_power. rewrite G, X. reflexivity. }
    split; [exact K|]. split; [exact D|]. split; [rewrite Hr; exact (geti_map _ _ _ _ G)|].
    split; [exact Y|]. split; [exact X|].
    unfold ecm_power_at. rewrite Y. cbn [rbind]. unfold ecm_drawn. destruct mx as [m|]; auto. f_equal.
    unfold pymin. cbn [nltb RNum].
    match goal with |- context [Rltb ?u ?v] => destruct (Rltb_spec u v) end;
      unfold Rmin; destruct (Rle_dec _ _); lra.
  Qed.

  Let U := ecm_wanted eff esp a a0 p.
  Let W := ecm_drawn eff esp a a0 p mx.

  Lemma ecm_flow : p <> 0 -> 0 < U -> 0 <= W ->
    airflow sol f' i (Some p) = Ok (a * sqrt (W / U)).
  Proof.
    intros Np HU HW. destruct ecm_state as (K & _ & _ & Y & _ & Z). fold U in Y. fold W in Z.
    unfold airflow, airflow_at. rewrite K. unfold ecm_airflow_at. rewrite lit0_R.
    cbn [neqb RNum]. destruct (Reqb_spec p 0); [contradiction|].
    rewrite G, Z, Y. cbn [rbind]. rewrite pydiv_ok by lra. cbn [rbind ndiv RNum].
    rewrite pysqrt_ok by (apply Rmult_le_pos; [exact HW|left; apply Rinv_0_lt_compat, HU]). cbn [rbind].
    rewrite pydiv_ok by exact Np. cbn [nmul RNum]. f_equal. field. exact Np.
  Qed.

  Lemma ecm_rotation : p <> 0 -> 0 < a -> 0 < U -> 0 < W -> rotational_speed sol f' i (Some p)
    = Ok ((rpm 1100 - rpm 463.5 / inH2O * (esp - p)) * (a / a0) * sqrt (W / U)).
  Proof.
    intros Np Ha HU HW. destruct ecm_state as (K & D & Rt & Y & V & Z). fold U in Y. fold W in Z.
    pose proof (ecm_flow Np HU (Rlt_le _ _ HW)) as Fl. unfold airflow in Fl. rewrite K in Fl.
    unfold rotational_speed. rewrite K . unfold esp_or_operating at 1 . cbn [rbind] .
    unfold unconstrained_rotational_speed . rewrite Rt . cbn [rbind] .
    unfold efficacy . rewrite K . unfold esp_or_operating . cbn [rbind] .
    rewrite Z . cbn [rbind] . rewrite Fl . cbn [rbind] .
    assert (Sq : 0 < sqrt (W / U)) by (apply sqrt_lt_R0, Rdiv_lt_0_compat; assumption).
    assert (Na : a * sqrt (W / U) <> 0) by nra.
    rewrite pydiv_ok by exact Na. cbn [rbind] . rewrite V . cbn [rbind] .
    set (v := (eff - fr_W_per_cfm_inH2O 0.235 * esp) * (a / a0) ^ 2 + fr_W_per_cfm_inH2O 0.235 * p) in *.
    assert (EU : U = a * v) by reflexivity.
    assert (Nv : v <> 0) by (intros Q; rewrite Q in EU; lra).
    rewrite pydiv_ok by exact Nv. cbn [rbind]. f_equal. rewrite D.
    assert (Sw : sqrt (W / U) * sqrt (W / U) = W / U)
      by (apply sqrt_sqrt; left; apply Rdiv_lt_0_compat; assumption).
    assert (EW : W = U * (sqrt (W / U) * sqrt (W / U))) by (rewrite Sw; field; lra).
    assert (Q : W / (a * sqrt (W / U)) / v = sqrt (W / U)).
    { rewrite EW at 1. set (s := sqrt (W / U)) in *. rewrite EU. field. repeat split; lra. }
    cbn [ndiv nmul nsub RNum] in *. unfold SPEED_SLOPE_ESP.
    replace (lit (T:=R) 463.5) with 463.5 by (rnum; lra). replace (lit (T:=R) 1100) with 1100 by (rnum; lra).
    rewrite Q, rpm_is.
    replace (fr_rpm_per_inH2O (T:=R) 463.5) with (rpm 463.5 / inH2O).
    2: { rewrite <- rpm_is. reflexivity. }
    reflexivity.
  Qed.

  Lemma ecm_speed : let share := W / U in p <> 0 -> 0 < a -> 0 < U -> 0 < W ->
    airflow sol f' i (Some p) = Ok (a * sqrt share)
    /\ rotational_speed sol f' i (Some p)
       = Ok ((rpm 1100 - rpm 463.5 / inH2O * (esp - p)) * (a / a0) * sqrt share).
  Proof.
    intros share Np Ha HU HW. split; [apply ecm_flow; lra|apply ecm_rotation; assumption].
  Qed.

  (** Below the limit, and with it. *)
  Lemma ecm_efficiency e : 0 < p -> 0 < a -> 0 < U -> 0 < W -> efficiency sol f' i (Some p) = Ok e ->
    e = a * sqrt (W / U) * p / W.
  Proof.
    intros Hp Ha HU HW H. destruct (efficiency_is _ _ _ _ _ H) as (p' & q & w & Ep & A & P & N & E & _).
    cbn [at_pressure] in Ep. subst p'. rewrite ecm_flow in A by lra. apply Ok_inj in A. subst q.
    destruct ecm_state as (K & _ & _ & _ & _ & Z). fold W in Z.
    unfold power in P. rewrite K in P. cbn [esp_or_operating rbind] in P. rewrite Z in P. apply Ok_inj in P. subst w.
    exact E.
  Qed.

  Lemma ecm_efficiency_below e : 0 < p -> 0 < a -> fr_W_per_cfm_inH2O 0.235 * esp <= eff ->
    (forall m, mx = Some m -> U <= m) -> efficiency sol f' i (Some p) = Ok e -> 0 < e < 0.501.
  Proof.
    intros Hp Ha Hf Lim H.
    set (s := fr_W_per_cfm_inH2O (T:=R) 0.235) in *.
    assert (Hs : 0 < s) by (unfold s, fr_W_per_cfm_inH2O, cfm, inH2O; rnum; lra).
    assert (Hs2 : 1 / s < 0.501) by (unfold s, fr_W_per_cfm_inH2O, cfm, inH2O; rnum; lra).
    assert (Hv : U = a * ((eff - s * esp) * (a / a0) ^ 2 + s * p)) by reflexivity.
    assert (Hv1 : 0 <= (eff - s * esp) * (a / a0) ^ 2) by (apply Rmult_le_pos; [lra|apply pow2_ge_0]).
    set (z := (eff - s * esp) * (a / a0) ^ 2) in *.
    assert (Hsp : 0 < s * p) by nra.
    assert (HU : 0 < U) by (rewrite Hv; apply Rmult_lt_0_compat; lra).
    assert (EW : W = U).
    { unfold W, ecm_drawn. fold U. destruct mx as [m|]; [|reflexivity]. specialize (Lim m eq_refl).
      unfold Rmin. destruct (Rle_dec U m); lra. }
    assert (HW : 0 < W) by lra.
    rewrite (ecm_efficiency e Hp Ha HU HW H). rewrite EW.
    replace (U / U) with 1 by (field; lra). rewrite sqrt_1, Hv.
    replace (a * 1 * p / (a * (z + s * p))) with (p / (z + s * p)) by (field; lra).
    split; [apply Rdiv_lt_0_compat; lra|].
    apply Rle_lt_trans with (1 / s); [|exact Hs2].
    apply Rmult_le_reg_r with (s * (z + s * p)); [apply Rmult_lt_0_compat; lra|].
    replace (p / (z + s * p) * (s * (z + s * p))) with (p * s) by (field; lra).
    replace (1 / s * (s * (z + s * p))) with (z + s * p) by (field; lra). lra.
  Qed.
End Ecm.

(** Beyond the limit: a fan of 0.5 m3/s and 400 W against 5000 Pa. *)
Lemma ecm_efficiency_above_one sol : exists f e : _,
  make_ecm_fan [0.5] 125 700 (Some 400) = Ok f /\ efficiency sol f 0 (Some 5000) = Ok e /\ 1 < e.
Proof.
  destruct (ecm_total [0.5] 125 700 (Some 400) 0.5) as (f & E); try reflexivity; try lra.
  { intros m H. injection H as <-. lra. }
  assert (Fa : geti (f_airflow f) 0 = Ok 0.5).
  { pose proof E as E'. unfold make_ecm_fan in E'. inv_ok.
    apply init_fan_facts in E' as (b & _ & _ & _ & A & _). rewrite A. reflexivity. }
  set (U := ecm_wanted 700 125 0.5 0.5 5000).
  assert (HU : 400 < U < 10000).
  { unfold U, ecm_wanted, ecm_law. replace (0.5 / 0.5) with 1 by lra.
    unfold fr_W_per_cfm_inH2O, cfm, inH2O. rnum. lra. }
  assert (EW : ecm_drawn 700 125 0.5 0.5 5000 (Some 400) = 400).
  { unfold ecm_drawn. fold U. unfold Rmin. destruct (Rle_dec U 400); lra. }
  pose proof (ecm_flow sol [0.5] 125 700 (Some 400) f f [] 0.5 0.5 5000 0 E eq_refl (Forall_nil _) eq_refl Fa) as Fl.
  rewrite EW in Fl. fold U in Fl. specialize (Fl ltac:(lra) ltac:(lra) ltac:(lra)).
  destruct (ecm_state [0.5] 125 700 (Some 400) f f [] 0.5 0.5 5000 0 E eq_refl (Forall_nil _) eq_refl Fa)
    as (K & _ & _ & _ & _ & Z). rewrite EW in Z.
  exists f. eexists. split; [exact E|].
  assert (P : power sol f 0 (Some 5000) = Ok 400).
  { unfold power. rewrite K. cbn [esp_or_operating rbind]. exact Z. }
  unfold efficiency, fluid_power. rewrite Fl. cbn [esp_or_operating rbind]. rewrite P. cbn [rbind].
  rewrite pydiv_ok by lra. split; [reflexivity|]. cbn [nmul ndiv RNum].
  assert (S : 0.2 <= sqrt (400 / U)).
  { rewrite <- (sqrt_pow2 0.2) by lra. apply sqrt_le_1_alt.
    apply Rmult_le_reg_r with U; [lra|]. replace (400 / U * U) with 400 by (field; lra). lra. }
  lra.
Qed.

(** For the examples. *)
Lemma half_fan : exists f, make_ecm_fan (T:=R) [0.5] 125 700 (Some 400) = Ok f /\ geti (f_airflow f) 0 = Ok 0.5.
Proof.
  destruct (ecm_total [0.5] 125 700 (Some 400) 0.5) as (f & E); try reflexivity; try lra.
  { intros m H. injection H as <-. lra. }
  exists f. split; [exact E|]. unfold make_ecm_fan in E. inv_ok.
  apply init_fan_facts in E as (b & _ & _ & _ & A & _). rewrite A. reflexivity.
Qed.
Lemma ecm_limited_case : exists f : Fn,
  make_ecm_fan [0.5] 125 700 (Some 400) = Ok f /\ sfold run_op [] f = (f, Ok tt)
  /\ geti (f_airflow f) 0 = Ok 0.5
  /\ 400 < ecm_wanted 700 125 0.5 0.5 5000 /\ ecm_drawn 700 125 0.5 0.5 5000 (Some 400) = 400.
Proof.
  destruct half_fan as (f & E & A). exists f. split; [exact E|]. split; [reflexivity|]. split; [exact A|].
  assert (HU : 400 < ecm_wanted 700 125 0.5 0.5 5000).
  { unfold ecm_wanted, ecm_law. replace (0.5 / 0.5) with 1 by lra.
    unfold fr_W_per_cfm_inH2O, cfm, inH2O. rnum. lra. }
  split; [exact HU|]. unfold ecm_drawn, Rmin. destruct (Rle_dec _ 400); lra.
Qed.
Lemma ecm_efficiency_case sol : exists (f : Fn) e,
  make_ecm_fan [0.5] 125 700 (Some 400) = Ok f /\ sfold run_op [] f = (f, Ok tt)
  /\ geti (f_airflow f) 0 = Ok 0.5 /\ fr_W_per_cfm_inH2O 0.235 * 125 <= 700
  /\ ecm_wanted 700 125 0.5 0.5 150 <= 400
  /\ efficiency sol f 0 (Some 150) = Ok e.
Proof.
  destruct half_fan as (f & E & A). exists f.
  assert (HU : 300 < ecm_wanted 700 125 0.5 0.5 150 <= 400).
  { unfold ecm_wanted, ecm_law. replace (0.5 / 0.5) with 1 by lra.
    unfold fr_W_per_cfm_inH2O, cfm, inH2O. rnum. lra. }
  assert (EW : ecm_drawn 700 125 0.5 0.5 150 (Some 400) = ecm_wanted 700 125 0.5 0.5 150).
  { unfold ecm_drawn, Rmin. destruct (Rle_dec _ 400); lra. }
  pose proof (ecm_flow sol [0.5] 125 700 (Some 400) f f [] 0.5 0.5 150 0 E eq_refl (Forall_nil _) eq_refl A) as Fl.
  rewrite EW in Fl. specialize (Fl ltac:(lra) ltac:(lra) ltac:(lra)).
  destruct (ecm_state [0.5] 125 700 (Some 400) f f [] 0.5 0.5 150 0 E eq_refl (Forall_nil _) eq_refl A)
    as (K & _ & _ & _ & _ & Z). rewrite EW in Z.
  eexists. split; [exact E|]. split; [reflexivity|]. split; [exact A|].
  split; [unfold fr_W_per_cfm_inH2O, cfm, inH2O; rnum; lra|]. split; [lra|].
  unfold efficiency, fluid_power. rewrite Fl. cbn [esp_or_operating rbind].
  unfold power. rewrite K. cbn [esp_or_operating rbind]. rewrite Z. cbn [rbind].
  apply pydiv_ok. lra.
Qed.
Lemma other_speed_case sol : exists (f : Fn) x,
  match f_class f with PSCFan | ECMFlowFan _ => False | _ => True end
  /\ rotational_speed sol f 1 (Some 100) = Ok x /\ x = rpm 1100 * 0.6.
Proof.
  destruct (simple_init_total RESNETPSCFan [0.5; 0.3] (fr_inH2O (lit 0.5))
     (EffNum (fr_W_per_cfm (lit 0.414))) (lit 0) (lit 0) 0.5) as (f & F);
    try reflexivity; auto; try lra.
  { left. apply half_inH2O_pos. }
  pose proof (init_fan_facts _ _ _ _ _ _ _ F) as (a0 & _ & _ & _ & A & C & _).
  exists f. eexists. rewrite C. split; [exact I|]. split.
  - unfold rotational_speed. rewrite C. unfold airflow_ratio, airflow. rewrite C, A.
    change (geti [0.5; 0.3] 1) with (Ok (A:=R) 0.3). change (geti [0.5; 0.3] 0) with (Ok (A:=R) 0.5). cbn [rbind].
    rewrite pydiv_ok by lra. cbn [rbind]. reflexivity.
  - rewrite rpm_is. replace (lit (T:=R) 1100) with 1100 by (rnum; lra). rnum. lra.
Qed.
