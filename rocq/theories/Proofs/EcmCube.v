(** Lemmas for C123: the fan laws of ECM fans in their duct system. *)
From Coq Require Import Reals QArith Lra Lia List Psatz.
From Verif.Base Require Import Num Res Tac.
From Verif.Model Require Import Units Util Fan.
From Verif.Spec Require Import FanSpec FanRatioSpec FanSpeedSpec FanPointSpec.
From Verif.Proofs Require Import UnitsR FanProofs FanProofs2 FanProofs3 FanRatio FanSpeed EcmPoint.
Import ListNotations.
Local Open Scope R_scope.

Lemma wanted_in_ducts eff esp a a0 : 0 < a0 ->
  ecm_wanted eff esp a a0 (esp * (a / a0) ^ 2) = a0 * eff * (a / a0) ^ 3.
Proof.
  intros H. unfold ecm_wanted, ecm_law. set (s := fr_W_per_cfm_inH2O 0.235). clearbody s.
  replace a with (a0 * (a / a0)) at 1 by (field; lra). ring.
Qed.

Section Ecm.
  Variables (sol : solvers R) (airflows : list R) (esp eff : R) (mx : option R) (f f' : fan R) (ops : list fan_op)
    (a0 : R).
  Hypothesis Mk : make_ecm_fan airflows esp eff mx = Ok f.
  Hypothesis G0 : geti airflows 0 = Ok a0.
  Hypothesis F : Forall keeps_first ops.
  Hypothesis O : sfold run_op ops f = (f', Ok tt).
  Hypothesis Pe : fr_W_per_cfm_inH2O 0.235 * esp < eff.
  Hypothesis Pa : 0 < a0.
  Hypothesis Pp : 0 < esp.

  Lemma ecm_limit m : mx = Some m -> a0 * eff <= m.
  Proof.
    intros E. pose proof Mk as H. unfold make_ecm_fan in H. rewrite G0, E in H. cbn [rbind nltb nmul RNum] in H.
    destruct (Rltb_spec m (a0 * eff)); [discriminate|lra].
  Qed.

  Lemma cube i a : sound_brentq 0 sol -> geti (f_airflow f') i = Ok a -> 0 < a <= sqrt 3 * a0 ->
    (forall m, mx = Some m -> a0 * eff * (a / a0) ^ 3 <= m) ->
    operating_pressure sol f' i = Ok (esp * (a / a0) ^ 2)
    /\ airflow sol f' i None = Ok a
    /\ power sol f' i None = Ok (a0 * eff * (a / a0) ^ 3)
    /\ efficacy sol f' i None = Ok (eff * (a / a0) ^ 2).
  Proof.
    intros S G La Lim. destruct La as (Ha & La).
    assert (Ps : 0 < fr_W_per_cfm_inH2O (T:=R) 0.235 * esp) by (apply Rmult_lt_0_compat; [apply slope_pos|exact Pp]).
    assert (Pm : forall m, mx = Some m -> 0 < m) by (intros m E; pose proof (ecm_limit m E); nra).
    assert (Rr : 0 < a / a0) by (apply Rdiv_lt_0_compat; assumption).
    set (y := esp * (a / a0) ^ 2).
    assert (Hy : 0 < y) by (unfold y; apply Rmult_lt_0_compat; [exact Pp|apply pow_lt; exact Rr]).
    pose proof (wanted_in_ducts eff esp a a0 Pa) as Wd. fold y in Wd.
    assert (Lim' : forall m, mx = Some m -> ecm_wanted eff esp a a0 y <= m) by (intros m E; rewrite Wd; apply Lim; exact E).
    destruct (ecm_found sol airflows esp eff mx f f' ops a0 Mk G0 F O ltac:(lra) Pm Pa Pp 0 i a S G ltac:(lra) Pe) as (x & X).
    { intros m E. specialize (Lim' m E). pose proof (wanted_rises esp eff a0 a 0 y Ha Hy). lra. }
    pose proof (ecm_unlimited_point sol airflows esp eff mx f f' ops a0 Mk G0 F O ltac:(lra) Pm Pa Pp 0 i a x S G Ha Lim' X) as T.
    fold y in T. assert (x = y) by (revert T; unfold Rabs; destruct Rcase_abs; lra). subst x.
    split; [exact X|].
    destruct (moved_is sol airflows esp eff mx f f' ops a0 Mk G0 F O ltac:(lra) Pm i a y G Ha ltac:(lra)) as (M1 & M2 & M3).
    assert (Dr : ecm_drawn eff esp a a0 y mx = a0 * eff * (a / a0) ^ 3).
    { unfold ecm_drawn. rewrite Wd. destruct mx as [m|]; [|reflexivity]. apply Rmin_left. apply Lim. reflexivity. }
    rewrite moved_full in M1 by (try assumption; try lra; rewrite Dr, Wd; reflexivity).
    rewrite Dr in M3.
    assert (K : f_class f' = ECMFlowFan mx) by apply (ecm_state airflows esp eff mx f f' ops a0 a y i Mk G0 F O G).
    unfold airflow, power, efficacy, esp_or_operating in *. rewrite K in *. cbn [rbind] in *. rewrite X. cbn [rbind].
    split; [exact M1|]. split; [exact M3|]. rewrite M1, M3. cbn [rbind].
    rewrite pydiv_ok by lra. f_equal. cbn [ndiv RNum]. field. lra.
  Qed.

  (** The blower does not follow the airflow. *)
  Lemma blower i a : sound_brentq 0 sol -> geti (f_airflow f') i = Ok a -> 0 < a <= sqrt 3 * a0 ->
    (forall m, mx = Some m -> a0 * eff * (a / a0) ^ 3 <= m) ->
    exists n, rotational_speed sol f' i None = Ok n
      /\ (a < a0 -> n < rpm 1100 * (a / a0)) /\ (a = a0 -> n = rpm 1100) /\ (a0 < a -> rpm 1100 * (a / a0) < n).
  Proof.
    intros S G La Lim. destruct (cube i a S G La Lim) as (X & _).
    assert (Rr : 0 < a / a0) by (apply Rdiv_lt_0_compat; lra).
    set (r := a / a0) in *. set (y := esp * r ^ 2) in *.
    assert (Hy : 0 < y) by (unfold y; apply Rmult_lt_0_compat; [exact Pp|apply pow_lt; exact Rr]).
    assert (Ps : 0 < fr_W_per_cfm_inH2O (T:=R) 0.235 * esp) by (apply Rmult_lt_0_compat; [apply slope_pos|exact Pp]).
    pose proof (wanted_in_ducts eff esp a a0 Pa) as Wd. fold r in Wd. fold y in Wd.
    assert (Dr : ecm_drawn eff esp a a0 y mx = a0 * eff * r ^ 3).
    { unfold ecm_drawn. rewrite Wd. destruct mx as [m|]; [|reflexivity]. apply Rmin_left. apply Lim. reflexivity. }
    assert (P3 : 0 < a0 * eff * r ^ 3) by (apply Rmult_lt_0_compat; [nra|apply pow_lt; exact Rr]).
    destruct (ecm_speed sol airflows esp eff mx f f' ops a0 a y i Mk G0 F O G ltac:(lra) ltac:(lra)
      ltac:(rewrite Wd; exact P3) ltac:(rewrite Dr; exact P3)) as (_ & N).
    rewrite Dr, Wd in N. replace (a0 * eff * r ^ 3 / (a0 * eff * r ^ 3)) with 1 in N by (field; lra). rewrite sqrt_1 in N.
    fold r in N.
    assert (K : f_class f' = ECMFlowFan mx) by apply (ecm_state airflows esp eff mx f f' ops a0 a y i Mk G0 F O G).
    exists ((rpm 1100 - rpm 463.5 / inH2O * (esp - y)) * r * 1). split.
    { unfold rotational_speed, esp_or_operating in *. rewrite K in *. cbn [rbind] in *. rewrite X. cbn [rbind]. exact N. }
    assert (C : 0 < rpm 463.5 / inH2O).
    { apply Rdiv_lt_0_compat; [|apply inH2O_pos]. unfold rpm. pose proof PI_RGT_0. lra. }
    set (c := rpm 463.5 / inH2O) in *. clearbody c.
    assert (Rc : a = a0 * r) by (unfold r; field; lra). clearbody r.
    assert (Y : esp - y = esp * (1 - r ^ 2)) by (unfold y; ring). rewrite Y.
    assert (E : (rpm 1100 - c * (esp * (1 - r ^ 2))) * r * 1 - rpm 1100 * r = (c * esp * r) * ((r - 1) * (r + 1))) by ring.
    assert (Q : 0 < c * esp * r) by (repeat apply Rmult_lt_0_compat; lra).
    set (q := c * esp * r) in *. clearbody q.
    split; [|split]; intros H.
    - assert (r < 1) by nra. assert ((r - 1) * (r + 1) < 0) by nra. nra.
    - assert (r = 1) by nra. subst r. lra.
    - assert (1 < r) by nra. assert (0 < (r - 1) * (r + 1)) by nra. nra.
  Qed.
End Ecm.
