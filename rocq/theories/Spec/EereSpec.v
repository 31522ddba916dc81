(** The motors of the EERE fans in the units of their source: W/cfm, cfm and inches of water. *)
From Coq Require Import Reals List.
From Verif.Base Require Import Num Res.
From Verif.Model Require Import Units Fan.
Local Open Scope R_scope.

(** The seven concrete EERE fan classes (fan.py:719-794). *)
Inductive motor :=
| BaselinePSC | ImprovedPSC | PSCWithControls | SingleStageTorque | MultiStageTorque
| ConstantAirflow | BackwardCurved.

Definition class_of (m : motor) : eere_class R :=
  match m with
  | BaselinePSC => EEREBaselinePSC
  | ImprovedPSC => EEREImprovedPSC
  | PSCWithControls => EEREPSCWithControls
  | SingleStageTorque => EEREBPMSingleStageConstantTorque
  | MultiStageTorque => EEREBPMMultiStageConstantTorque
  | ConstantAirflow => EEREBPMMultiStageConstantAirflow
  | BackwardCurved => EEREBPMMultiStageBackwardCurved
  end.

(** W/cfm without pressure, for 2, 3, 4 and 5 tons. *)
Definition free_watts (m : motor) : R * R * R * R :=
  match m with
  | BaselinePSC => (0.49, 0.52, 0.55, 0.57)
  | ImprovedPSC => (0.44, 0.47, 0.49, 0.52)
  | PSCWithControls => (0.25, 0.27, 0.29, 0.31)
  | SingleStageTorque => (0.18, 0.19, 0.21, 0.23)
  | MultiStageTorque => (0.14, 0.15, 0.17, 0.16)
  | ConstantAirflow => (0.11, 0.12, 0.13, 0.15)
  | BackwardCurved => (0.09, 0.10, 0.11, 0.12)
  end.

(** Straight lines through the four sizes, prolonged at both ends. *)
Definition by_size (b : R * R * R * R) (tons : R) : R :=
  let '(b2, b3, b4, b5) := b in
  if Rle_dec tons 3 then b2 + (b3 - b2) * (tons - 2)
  else if Rle_dec tons 4 then b3 + (b4 - b3) * (tons - 3)
  else b4 + (b5 - b4) * (tons - 4).

(** W/cfm added by [p] inches of water. *)
Definition watts_added (m : motor) (p : R) : R :=
  match m with
  | BaselinePSC | ImprovedPSC => - 0.2 * p + 0.19 * p ^ 2
  | PSCWithControls => 0.14 * p + 0.06 * p ^ 2
  | SingleStageTorque | MultiStageTorque => 0.12 * p + 0.07 * p ^ 2
  | ConstantAirflow | BackwardCurved => 0.25 * p - 0.01 * p ^ 2
  end.

Definition watts_per_cfm (m : motor) (tons p : R) : R :=
  by_size (free_watts m) tons + watts_added m p.

(** Cfm added by [p] inches of water. *)
Definition flow_added (m : motor) (p : R) : R :=
  match m with
  | BaselinePSC | ImprovedPSC => 49 * p - 570 * p ^ 2
  | PSCWithControls => 267 * p - 338 * p ^ 2
  | SingleStageTorque | MultiStageTorque => - 456 * p + 8 * p ^ 2
  | ConstantAirflow | BackwardCurved => 99 * p - 103 * p ^ 2
  end.

(** Cfm of a speed of [a] cfm in a fan of [a0] cfm at [esp], under [p] inches of water. *)
Definition flow_at (m : motor) (a a0 esp p : R) : R :=
  a + flow_added m p - flow_added m (esp * (a / a0) ^ 2).

(** Inches of water at which the airflow is largest. *)
Definition peak (m : motor) : R :=
  match m with
  | BaselinePSC | ImprovedPSC => 49 / 1140
  | PSCWithControls => 267 / 676
  | SingleStageTorque | MultiStageTorque => 0
  | ConstantAirflow | BackwardCurved => 99 / 206
  end.

(** [f] is the fan of motor [m] with these airflows (cfm), the first [a0], at [esp] inches. *)
Definition fan_of (m : motor) (flows : list R) (a0 esp : R) (f : fan R) : Prop :=
  make_eere_fan (class_of m) (map fr_cfm flows) (fr_inH2O esp) = Ok f /\ geti flows 0 = Ok a0.
