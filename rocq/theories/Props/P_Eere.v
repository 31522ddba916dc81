(** Property C98: the motors of the EERE fans (fan.py:634-794). *)
From Coq Require Import Reals Lra List.
From Verif.Base Require Import Num Res Tac.
From Verif.Model Require Import Units Fan.
From Verif.Spec Require Import EereSpec.
From Verif.Proofs Require Import Eere Eere2.
Import ListNotations.
Local Open Scope R_scope.

(** Airflow, efficacy and power of every motor at every size, speed and pressure. *)
Theorem C98_numbers : forall sol m flows esp (f : fan R) a0 i a p,
  fan_of m flows a0 esp f -> geti flows i = Ok a ->
  airflow sol f i (Some (fr_inH2O p)) = Ok (fr_cfm (flow_at m a a0 esp p))
  /\ efficacy sol f i (Some (fr_inH2O p)) = Ok (fr_W_per_cfm (watts_per_cfm m (a0 / 400) p))
  /\ power sol f i (Some (fr_inH2O p)) = Ok (flow_at m a a0 esp p * watts_per_cfm m (a0 / 400) p).
Proof. exact fan_numbers. Qed.
Print Assumptions C98_numbers.

(** Every speed moves its airflow at the pressure of the system. *)
Theorem C98_design_airflow : forall sol m flows esp (f : fan R) a0 i a,
  fan_of m flows a0 esp f -> geti flows i = Ok a ->
  airflow sol f i (Some (fr_inH2O (esp * (a / a0) ^ 2))) = Ok (fr_cfm a).
Proof. exact design_airflow. Qed.
Print Assumptions C98_design_airflow.

Theorem C98_positive : forall sol m flows esp (f : fan R) a0 i p,
  fan_of m flows a0 esp f -> 0 < a0 <= 8000 -> 0 <= p <= 25 ->
  exists e, efficacy sol f i (Some (fr_inH2O p)) = Ok e /\ 0 < e.
Proof. exact fan_positive. Qed.
Print Assumptions C98_positive.

(** The improved motor moves the same air with less power, but only below 4000 cfm. *)
Theorem C98_improved_refuted : forall sol flows esp (f f' : fan R) a0 i a p q,
  fan_of BaselinePSC flows a0 esp f -> fan_of ImprovedPSC flows a0 esp f' -> geti flows i = Ok a ->
  airflow sol f i (Some (fr_inH2O p)) = Ok q -> 0 < q ->
  airflow sol f' i (Some (fr_inH2O p)) = Ok q
  /\ exists w w', power sol f i (Some (fr_inH2O p)) = Ok w /\ power sol f' i (Some (fr_inH2O p)) = Ok w'
      /\ (w' < w <-> a0 < 4000).
Proof. exact improved_power. Qed.
Print Assumptions C98_improved_refuted.

Theorem C98_bpm : forall sol flows esp (f f' : fan R) a0 i a p q m m',
  (m, m') = (SingleStageTorque, MultiStageTorque) \/ (m, m') = (ConstantAirflow, BackwardCurved) ->
  fan_of m flows a0 esp f -> fan_of m' flows a0 esp f' -> geti flows i = Ok a ->
  airflow sol f i (Some (fr_inH2O p)) = Ok q -> 0 < q ->
  airflow sol f' i (Some (fr_inH2O p)) = Ok q
  /\ exists w w', power sol f i (Some (fr_inH2O p)) = Ok w /\ power sol f' i (Some (fr_inH2O p)) = Ok w'
      /\ w' < w.
Proof. exact bpm_power. Qed.
Print Assumptions C98_bpm.

(** Up to 0.8 inches of water and between 800 and 4000 cfm each efficiency level takes fewer watts
    per cfm than the one before. *)
Theorem C98_order : forall sol flows esp a0 i p (fans : motor -> fan R),
  (forall m, fan_of m flows a0 esp (fans m)) -> 800 <= a0 < 4000 -> 0 <= p <= 0.8 ->
  exists e, (forall m, efficacy sol (fans m) i (Some (fr_inH2O p)) = Ok (e m))
    /\ e ImprovedPSC < e BaselinePSC /\ e PSCWithControls < e ImprovedPSC
    /\ e SingleStageTorque < e PSCWithControls /\ e MultiStageTorque < e SingleStageTorque.
Proof. exact fan_order. Qed.
Print Assumptions C98_order.

(** A larger fan takes more watts per cfm, whatever the pressure: not with the multi-stage
    constant-torque motor above 4 tons, where it takes fewer. *)
Theorem C98_size_refuted : forall sol m flows flows' esp esp' (f f' : fan R) a0 a0' i i' p,
  fan_of m flows a0 esp f -> fan_of m flows' a0' esp' f' -> a0 < a0' ->
  exists e e', efficacy sol f i (Some (fr_inH2O p)) = Ok e
    /\ efficacy sol f' i' (Some (fr_inH2O p)) = Ok e'
    /\ (m <> MultiStageTorque -> e < e') /\ (m = MultiStageTorque -> 1600 <= a0 -> e' < e).
Proof. exact fan_size. Qed.
Print Assumptions C98_size_refuted.

(** More pressure means less air only above the peak of the motor: 0.04 inches of water for the
    PSC motors, 0.39 with controls, 0.48 for constant airflow. *)
Theorem C98_pressure_refuted : forall sol m flows esp (f : fan R) a0 i a p p',
  fan_of m flows a0 esp f -> geti flows i = Ok a -> 0 <= p < p' ->
  exists q q', airflow sol f i (Some (fr_inH2O p)) = Ok q /\ airflow sol f i (Some (fr_inH2O p')) = Ok q'
    /\ (p' <= peak m -> q < q') /\ (peak m <= p -> p' <= 28 -> q' < q).
Proof. exact airflow_peak. Qed.
Print Assumptions C98_pressure_refuted.

(** A 3-ton fan of every motor; more airflow at 0.3 than at 0.2 inches with a controlled PSC
    motor; a fan of 4400 cfm with an improved motor that takes no less power. *)
Example C98_nonvacuous :
  (forall m, exists f, fan_of m [1200; 900] 1200 0.5 f)
  /\ flow_at PSCWithControls 1200 1200 0.5 0.2 < flow_at PSCWithControls 1200 1200 0.5 0.3
  /\ 0.3 <= peak PSCWithControls
  /\ (forall m, exists f, fan_of m [4400] 4400 0.5 f)
  /\ 0 < flow_at BaselinePSC 4400 4400 0.5 0.5
  /\ watts_per_cfm BaselinePSC 3 0.5 = 0.4675.
Proof.
  split; [intros m; apply fan_exists; try reflexivity; lra|].
  split; [unfold flow_at, flow_added; lra|]. split; [unfold peak; lra|].
  split; [intros m; apply fan_exists; try reflexivity; lra|].
  split; [unfold flow_at, flow_added; lra|].
  unfold watts_per_cfm, by_size, free_watts, watts_added. destruct (Rle_dec 3 3); lra.
Qed.

(** Beyond 0.8 inches the order of the levels fails. *)
Example C98_order_ends :
  watts_per_cfm ImprovedPSC 3 1 < watts_per_cfm PSCWithControls 3 1
  /\ watts_per_cfm MultiStageTorque 3 0.5 < watts_per_cfm ConstantAirflow 3 0.5.
Proof.
  unfold watts_per_cfm, by_size, free_watts, watts_added. destruct (Rle_dec 3 3); lra.
Qed.
