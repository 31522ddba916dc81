(** Fans whose ASHRAE 205 export exists, for the cases of C99. *)
From Coq Require Import QArith Reals Lra Psatz Lia List.
From Verif.Base Require Import Num Res Tac.
From Verif.Model Require Import Units Util Fan Repr205.
From Verif.Spec Require Import FanSpec FanRatioSpec.
From Verif.Proofs Require Import UnitsR FanProofs FanProofs2 FanProofs3 FanProofs4 FanRatio MotorPower.
Import ListNotations.
Local Open Scope R_scope.

Lemma psc_exports : forall sol airflows esp eff,
  airflows <> [] -> Forall (fun a => 0 < a) airflows -> 0 <= esp ->
  exists (f : fan R) r, make_psc_fan airflows esp eff = Ok f /\ fan_205 sol f = Ok r.
Proof.
  intros sol airflows esp eff Ne F P. destruct (psc_total airflows esp eff Ne F P) as (f & M).
  exists f. pose proof M as M'. unfold make_psc_fan in M'.
  pose proof (init_fan_facts _ _ _ _ _ _ _ M') as (a0 & E0 & _ & Z0 & A & C & Ed & _).
  pose proof (init_fan_par0 _ _ _ _ _ _ _ M') as (_ & _ & N).
  pose proof (airflow_reduction_nonneg esp P) as Rn.
  pose proof (geti_forall _ _ _ _ F E0) as PA0. cbv beta in PA0.
  apply (rel_init _ _ _ _ _ _ _ eff) in M' as (a1 & G1 & _ & J & _); [|auto].
  rewrite E0 in G1. apply Ok_inj in G1. subst a1.
  destruct J as (_ & _ & _ & _ & _ & _ & _ & Hf & Hs & Hb & Hv). rewrite A in Hf, Hs, Hb, Hv.
  set (red := airflow_reduction esp) in *.
  assert (C1 : 0 < AIRFLOW_COEFFICIENT (T:=R)).
  { unfold AIRFLOW_COEFFICIENT, fr_cfm. pose proof cfm_pos. cbn [nmul RNum].
    assert (L : lit (T:=R) 10 = 10) by (rnum; lra). rewrite L. nra. }
  assert (C2 : 0 < AIRFLOW_EXP_COEFFICIENT (T:=R)).
  { unfold AIRFLOW_EXP_COEFFICIENT, fr_per_inH2O. pose proof inH2O_pos. cbn [nmul ndiv RNum].
    assert (L : lit (T:=R) 5.35 = 5.35) by (rnum; lra). rewrite L. apply Rdiv_lt_0_compat; lra. }
  assert (B : forall i, (i < f_n f)%nat -> exists b, geti (f_block_pressure f) i = Ok b /\ 0 < b).
  { intros i Hi. destruct (geti_lt airflows i) as (a & Ea); [lia|].
    pose proof (geti_forall _ _ _ _ F Ea) as PA. cbv beta in PA.
    eexists. split; [rewrite Hb; apply geti_map; exact Ea|].
    apply Rdiv_lt_0_compat; [|exact C2]. rewrite <- ln_1. apply ln_increasing; [lra|].
    assert (0 < (a + red) / AIRFLOW_COEFFICIENT) by (apply Rdiv_lt_0_compat; lra). lra. }
  destruct (fan_205_total sol f) as (r & Hr).
  - rewrite N. destruct airflows; [congruence|cbn; lia].
  - intros _ i Hi. destruct (B i Hi) as (b & Eb & Pb). exists b. split; [exact Eb|lra].
  - intros i p Hi Pp. destruct (geti_lt airflows i) as (a & Ea); [lia|].
    destruct (B i Hi) as (b & Eb & Pb).
    unfold power, airflow, airflow_at, efficacy, rotational_speed, esp_or_operating.
    rewrite C, Hf, Hs, Hv, Eb. rewrite !(geti_map _ _ _ _ Ea). cbn [rbind].
    match goal with |- context[if ?c then _ else _] => destruct c end;
      [do 3 eexists; repeat split|]. rewrite pydiv_ok by lra. cbn [rbind]. do 3 eexists. repeat split.
  - rewrite Ed. exact P.
  - exists r. split; [exact M|exact Hr].
Qed.

Lemma ecm_exports : forall sol airflows esp eff,
  airflows <> [] -> Forall (fun a => 0 < a) airflows -> 0 <= esp ->
  fr_W_per_cfm_inH2O 0.235 * esp < eff ->
  exists (f : fan R) r, make_ecm_fan airflows esp eff None = Ok f /\ fan_205 sol f = Ok r.
Proof.
  intros sol airflows esp eff Ne F P S. pose proof slope_pos as SP.
  destruct airflows as [|a0 l]; [congruence|]. set (airflows := a0 :: l) in *.
  assert (PA0 : 0 < a0) by (inversion F; auto).
  destruct (ecm_total airflows esp eff None a0) as (f & M); [reflexivity|lra|exact P|discriminate|].
  exists f. pose proof M as M'. unfold make_ecm_fan in M'. apply rbind_ok in M' as (a1 & E0 & M').
  apply rbind_ok in M' as (? & _ & M').
  pose proof (init_fan_facts _ _ _ _ _ _ _ M') as (a2 & _ & _ & Z0 & A & C & Ed & _).
  pose proof (init_fan_par0 _ _ _ _ _ _ _ M') as (_ & _ & N).
  apply (rel_init _ _ _ _ _ _ _ 0) in M' as (a3 & G1 & _ & J & _); [|discriminate].
  injection E0 as <-. injection G1 as <-.
  destruct J as (_ & _ & _ & _ & _ & Hr & Hf). rewrite A in Hf, Hr.
  assert (A2 : lit (T:=R) 0.235 = 0.235) by (rnum; lra).
  destruct (fan_205_total sol f) as (r & Er).
  - rewrite N. cbn. lia.
  - rewrite C. discriminate.
  - intros i p Hi Pp. destruct (geti_lt airflows i) as (a & Ea); [lia|].
    pose proof (geti_forall _ _ _ _ F Ea) as PA. cbv beta in PA.
    set (u := (eff - fr_W_per_cfm_inH2O 0.235 * esp) * (a / a0) * (a / a0) + fr_W_per_cfm_inH2O 0.235 * p).
    assert (Pu : 0 < u).
    { assert (0 < a / a0) by (apply Rdiv_lt_0_compat; lra). unfold u.
      apply Rplus_lt_le_0_compat; [|nra]. apply Rmult_lt_0_compat; [|lra]. apply Rmult_lt_0_compat; lra. }
    assert (U : unconstrained_efficacy f i p = Ok u).
    { unfold unconstrained_efficacy. rewrite Hf, (geti_map _ _ _ _ Ea). cbn [rbind].
      unfold EFFICACY_SLOPE_ESP, u. rewrite A2. reflexivity. }
    assert (W : power sol f i (Some p) = Ok (a * u)).
    { unfold power. rewrite C. unfold esp_or_operating. cbn [rbind].
      unfold ecm_power_at, unconstrained_power. rewrite A, Ea, U. reflexivity. }
    assert (Q : airflow sol f i (Some p) = Ok a).
    { unfold airflow, airflow_at. rewrite C. unfold ecm_airflow_at. rewrite A, Ea.
      rewrite lit0_R. cbn [neqb RNum]. destruct (Reqb_spec p 0) as [|N0]; [reflexivity|].
      cbn [rbind]. unfold ecm_power_at, unconstrained_power. rewrite A, Ea, U. cbn [rbind].
      rewrite pydiv_ok by (cbn [nmul RNum]; nra). cbn [rbind nmul RNum].
      replace (a * u / (a * u)) with 1 by (field; split; lra).
      rewrite pysqrt_ok by lra. cbn [rbind]. rewrite pydiv_ok by exact N0. f_equal. rewrite sqrt_1. field. exact N0. }
    do 3 eexists. split; [exact W|]. split; [exact Q|].
    unfold rotational_speed. rewrite C. unfold esp_or_operating. cbn [rbind].
    unfold unconstrained_rotational_speed. rewrite Hr, (geti_map _ _ _ _ Ea). cbn [rbind].
    assert (Ef : efficacy sol f i (Some p) = Ok (a * u / a)).
    { unfold efficacy. unfold power in W. unfold airflow in Q. rewrite C in W, Q |- *.
      unfold esp_or_operating in W |- *. cbn [rbind] in W |- *. rewrite W. cbn [rbind]. rewrite Q. cbn [rbind].
      apply pydiv_ok. lra. }
    rewrite Ef, U. cbn [rbind]. rewrite pydiv_ok by lra. reflexivity.
  - rewrite Ed. exact P.
  - exists r. split; [exact M|exact Er].
Qed.

Lemma constant_exports : forall sol airflows esp eff,
  airflows <> [] -> Forall (fun a => 0 < a) airflows -> 0 <= esp ->
  exists (f : fan R) r, make_constant_efficacy_fan airflows esp (EffNum eff) = Ok f /\ fan_205 sol f = Ok r.
Proof.
  intros sol airflows esp eff Ne F P.
  destruct airflows as [|a0 l]; [congruence|]. set (airflows := a0 :: l) in *.
  assert (PA0 : 0 < a0) by (inversion F; auto).
  destruct (const_total airflows esp (EffNum eff) a0) as (f & M); [reflexivity|lra|exact P|].
  exists f. destruct (constant_power sol _ _ _ _ M) as (C & A & N & Ed & Pw).
  destruct (fan_205_total sol f) as (r & Er).
  - rewrite N. cbn. lia.
  - rewrite C. discriminate.
  - intros i p Hi Pp. destruct (geti_lt airflows i) as (a & Ea); [lia|].
    do 3 eexists. split; [apply Pw; eassumption|]. unfold rotational_speed, airflow_ratio, airflow. rewrite C, A, Ea.
    split; [reflexivity|]. cbn [rbind]. change (geti airflows 0) with (Ok a0). cbn [rbind].
    rewrite pydiv_ok by lra. reflexivity.
  - rewrite Ed. exact P.
  - exists r. split; [exact M|exact Er].
Qed.

Lemma resnet_psc_exports : forall sol airflows,
  airflows <> [] -> Forall (fun a => 0 < a) airflows ->
  exists (f : fan R) r, make_resnet_psc_fan airflows = Ok f /\ fan_205 sol f = Ok r.
Proof.
  intros sol airflows Ne F. pose proof inH2O_pos as IP.
  destruct airflows as [|a0 l]; [congruence|]. set (airflows := a0 :: l) in *.
  assert (PA0 : 0 < a0) by (inversion F; auto).
  assert (P5 : 0 <= fr_inH2O (lit (T:=R) 0.5)).
  { unfold fr_inH2O. replace (lit (T:=R) 0.5) with 0.5 by (rnum; lra). cbn [nmul RNum]. nra. }
  destruct (simple_init_total RESNETPSCFan airflows (fr_inH2O (lit 0.5)) (EffNum (fr_W_per_cfm (lit 0.414)))
     (lit 0) (lit 0) a0) as (f & M'); [auto|reflexivity|lra|exact P5|].
  assert (M : make_resnet_psc_fan airflows = Ok f) by exact M'.
  exists f. pose proof (init_fan_facts _ _ _ _ _ _ _ M') as (a2 & _ & _ & Z0 & A & C & Ed & _).
  pose proof (init_fan_par0 _ _ _ _ _ _ _ M') as (_ & _ & N).
  destruct (fan_205_total sol f) as (r & Er).
  - rewrite N. cbn. lia.
  - rewrite C. discriminate.
  - intros i p Hi Pp. destruct (geti_lt airflows i) as (a & Ea); [lia|].
    do 3 eexists. split; [apply (power_times sol f i (Some p) a (psc_law (a / a0))); auto;
      [rewrite A; exact Ea|eapply resnet_psc_efficacy_eq; [exact M|exact Ea|reflexivity]]|].
    unfold rotational_speed, airflow_ratio, airflow. rewrite C, A, Ea.
    split; [reflexivity|]. cbn [rbind]. change (geti airflows 0) with (Ok a0). cbn [rbind].
    rewrite pydiv_ok by lra. reflexivity.
  - rewrite Ed. exact P5.
  - exists r. split; [exact M|exact Er].
Qed.

Lemma map_powers_all : forall sol (f : fan R) r, fan_205 sol f = Ok r ->
  forall w, In w (fr_power r) <->
    exists i p, (i < f_n f)%nat /\ In p (fr_pressure r) /\ power sol f i (Some p) = Ok w.
Proof. intros sol f r E. destruct (map_powers sol f r E) as (top & _ & _ & H). exact H. Qed.
