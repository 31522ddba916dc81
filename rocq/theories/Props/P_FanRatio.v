(** Property C87: airflow ratios of fan speeds (fan.py). *)
From Coq Require Import Reals QArith Lra Lia List.
From Verif.Base Require Import Num Res Tac.
From Verif.Model Require Import Units Fan.
From Verif.Spec Require Import FanSpec FanRatioSpec.
From Verif.Proofs Require Import UnitsR FanProofs FanProofs2 FanProofs3 FanProofs4 FanRatio.
Import ListNotations.
Local Open Scope R_scope.

Theorem C87_ratios : forall (f f' : fan R) ops,
  made f -> Forall keeps_first ops -> sfold run_op ops f = (f', Ok tt) ->
  exists a0, a0 <> 0 /\ geti (f_airflow f) 0 = Ok a0 /\ geti (f_airflow f') 0 = Ok a0
    /\ length (f_ratio f') = length (f_airflow f')
    /\ forall i a, geti (f_airflow f') i = Ok a -> geti (f_ratio f') i = Ok (a / a0).
Proof. exact ratios_right. Qed.
Print Assumptions C87_ratios.

(** Two speeds, a third one added, the second one removed. *)
Example C87_ratios_nonvacuous : exists f f' : fan R,
  made f /\ Forall keeps_first [AddSpeed 0.4 None; RemoveSpeed 1]
  /\ sfold run_op [AddSpeed 0.4 None; RemoveSpeed 1] f = (f', Ok tt)
  /\ f_airflow f' = [0.5; 0.4].
Proof.
  destruct (simple_init_total RESNETPSCFan [0.5; 0.3] (fr_inH2O (lit 0.5))
     (EffNum (fr_W_per_cfm (lit 0.414))) (lit 0) (lit 0) 0.5) as (f & F);
    try reflexivity; auto; try lra.
  { left. apply half_inH2O_pos. }
  assert (Md : made f) by (apply made_resnet_psc with [0.5; 0.3]; auto).
  pose proof (made_parallel f Md) as P.
  pose proof (init_fan_facts _ _ _ _ _ _ _ F) as (a0 & _ & _ & _ & A & C & _).
  assert (N : f_n f = 2%nat).
  { pose proof (parallel_par0 _ P) as (L & _). rewrite A in L. auto. }
  assert (L : length (f_ratio f) = 2%nat).
  { pose proof (parallel_par0 _ P) as (_ & L & _). congruence. }
  exists f. eexists. split; [auto|]. split; [repeat constructor|].
  cbn [sfold run_op]. unfold add_speed. unfold sbind at 1. unfold sbind at 1, sget at 1. rewrite C.
  rewrite (base_add_total f 0.4 0.5) by (rewrite ?A; try reflexivity; lra).
  rewrite N, A. unfold remove_speed. unfold sbind at 1. unfold sbind at 1, sget at 1.
  cbn [f_class w_base]. rewrite C.
  match goal with |- context [base_remove_speed 1 ?g] =>
    assert (Rm : base_remove_speed 1 g
       = (w_base (Nat.pred (f_n g)) (del (f_airflow g) 1) (del (f_ratio g) 1) g, Ok tt)) end.
  { apply base_remove_ok. cbn [f_airflow f_ratio w_base]. repeat split; auto.
    - simpl. lia.
    - rewrite app_length, L. simpl. lia. }
  rewrite Rm. split; reflexivity.
Qed.

(** Efficacies and rotational speeds of a PSC fan follow the ratio of the
    airflows without static pressure. *)
Theorem C87_psc_speeds : forall sol airflows esp eff (f f' : fan R) ops a0 i a,
  make_psc_fan airflows esp eff = Ok f -> geti airflows 0 = Ok a0 ->
  Forall keeps_first ops -> sfold run_op ops f = (f', Ok tt) ->
  geti (f_airflow f') i = Ok a ->
  let r := (a + psc_loss esp) / (a0 + psc_loss esp) in
  (forall p, efficacy sol f' i p = Ok (eff * (0.7 + 0.3 * r)))
  /\ (0 < a + psc_loss esp ->
      rotational_speed sol f' i (Some 0) = Ok (fr_rpm 1040 * r)
      /\ exists bp, 0 < bp /\ psc_loss bp = a + psc_loss esp
         /\ forall p, bp <= p -> rotational_speed sol f' i (Some p) = Ok (fr_rpm 1100)).
Proof. exact psc_speeds. Qed.
Print Assumptions C87_psc_speeds.

Example C87_psc_speeds_nonvacuous : exists f : fan R,
  make_psc_fan [0.5; 0.3; 0.2] 125 700 = Ok f /\ sfold run_op [] f = (f, Ok tt)
  /\ geti (f_airflow f) 1 = Ok 0.3 /\ 0 < 0.3 + psc_loss 125.
Proof.
  destruct (psc_total [0.5; 0.3; 0.2] 125 700) as (f & F).
  - discriminate.
  - repeat constructor; lra.
  - lra.
  - exists f. split; [auto|]. split; [reflexivity|].
    apply init_fan_facts in F as (a0 & _ & _ & _ & A & _). rewrite A. split; [reflexivity|].
    unfold psc_loss. pose proof cfm_pos. pose proof inH2O_pos.
    assert (0 < fr_cfm (T:=R) 10) by (unfold fr_cfm; cbn [nmul RNum]; nra).
    assert (0 < 125 * fr_per_inH2O (T:=R) 5.35).
    { apply Rmult_lt_0_compat; [lra|]. unfold fr_per_inH2O. cbn [nmul ndiv RNum].
      apply Rdiv_lt_0_compat; lra. }
    assert (1 < exp (125 * fr_per_inH2O 5.35)) by (rewrite <- exp_0 at 1; apply exp_increasing; auto).
    nra.
Qed.

(** The power of an ECM fan, up to its limit, follows the square of the airflow
    ratio and the pressure. *)
Theorem C87_ecm_speeds : forall sol airflows esp eff mx (f f' : fan R) ops a0 i a p,
  make_ecm_fan airflows esp eff mx = Ok f -> geti airflows 0 = Ok a0 ->
  Forall keeps_first ops -> sfold run_op ops f = (f', Ok tt) ->
  geti (f_airflow f') i = Ok a ->
  power sol f' i (Some p)
    = Ok (match mx with
          | Some m => Rmin (ecm_law eff esp a (a / a0) p) m
          | None => ecm_law eff esp a (a / a0) p
          end).
Proof. exact ecm_speeds. Qed.
Print Assumptions C87_ecm_speeds.

Example C87_ecm_speeds_nonvacuous : exists f : fan R,
  make_ecm_fan [0.5; 0.3] 125 700 (Some 400) = Ok f /\ sfold run_op [] f = (f, Ok tt)
  /\ geti (f_airflow f) 1 = Ok 0.3.
Proof.
  destruct (ecm_total [0.5; 0.3] 125 700 (Some 400) 0.5) as (f & F); try reflexivity; try lra.
  - intros m H. injection H as <-. lra.
  - exists f. split; [auto|]. split; [reflexivity|].
    unfold make_ecm_fan in F. inv_ok.
    apply init_fan_facts in F as (b & _ & _ & _ & A & _). rewrite A. reflexivity.
Qed.

(** Removing the first speed leaves the other ratios as they were: the speed
    that is now the first has a ratio other than 1. *)
Theorem C87_remove_first_refuted : forall (f f' : fan R) a0 a1,
  made f -> geti (f_airflow f) 0 = Ok a0 -> geti (f_airflow f) 1 = Ok a1 -> a1 <> a0 ->
  remove_speed 0 f = (f', Ok tt) ->
  geti (f_airflow f') 0 = Ok a1
  /\ exists r, geti (f_ratio f') 0 = Ok r /\ r = a1 / a0 /\ r <> 1.
Proof. exact remove_first. Qed.
Print Assumptions C87_remove_first_refuted.

Example C87_remove_first_nonvacuous : exists f f' : fan R,
  made f /\ geti (f_airflow f) 0 = Ok 0.5 /\ geti (f_airflow f) 1 = Ok 0.3
  /\ remove_speed 0 f = (f', Ok tt).
Proof.
  destruct (simple_init_total RESNETPSCFan [0.5; 0.3] (fr_inH2O (lit 0.5))
     (EffNum (fr_W_per_cfm (lit 0.414))) (lit 0) (lit 0) 0.5) as (f & F);
    try reflexivity; auto; try lra.
  { left. apply half_inH2O_pos. }
  assert (Md : made f) by (apply made_resnet_psc with [0.5; 0.3]; auto).
  pose proof (made_parallel f Md) as P.
  pose proof (init_fan_facts _ _ _ _ _ _ _ F) as (a0 & _ & _ & _ & A & C & _).
  pose proof (parallel_par0 _ P) as (L1 & L2 & _).
  exists f. eexists. split; [auto|]. rewrite A. split; [reflexivity|]. split; [reflexivity|].
  unfold remove_speed. unfold sbind at 1, sget at 1. rewrite C.
  apply base_remove_ok. rewrite L2, <- L1, A. repeat split; simpl; lia.
Qed.
