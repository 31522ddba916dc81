(** Property C99: the maximum power of the motor in the ASHRAE 205 export and
    the powers in the fan map beside it (fan.py:219-393). *)
From Coq Require Import Reals Lra List.
From Verif.Base Require Import Num Res Tac.
From Verif.Model Require Import Units Fan Repr205.
From Verif.Spec Require Import FanSpec.
From Verif.Proofs Require Import UnitsR FanProofs4 MotorPower MotorPower2.
Import ListNotations.
Local Open Scope R_scope.

(** The number exported is 1.2 times the power of a speed that moves most air
    without back pressure: at 1.2 inches of water for an ECM fan without a
    limit, at none for other fans. An ECM fan with a limit exports the limit. *)
Theorem C99_number : forall sol (f : fan R) r, fan_205 sol f = Ok r ->
  exists i q, (i < f_n f)%nat
    /\ (forall j, (j < f_n f)%nat -> airflow sol f j (Some 0) = Ok (q j) /\ q j <= q i)
    /\ match f_class f with
       | ECMFlowFan (Some w) => fr_max_power r = w
       | ECMFlowFan None => exists w, power sol f i (Some (fr_inH2O 1.2)) = Ok w /\ fr_max_power r = 1.2 * w
       | _ => exists w, power sol f i (Some 0) = Ok w /\ fr_max_power r = 1.2 * w
       end.
Proof. exact motor_number. Qed.
Print Assumptions C99_number.

(** The powers in the map are those of all speeds at all pressures of its grid. *)
Theorem C99_map_powers : forall sol (f : fan R) r, fan_205 sol f = Ok r ->
  forall w, In w (fr_power r) <->
    exists i p, (i < f_n f)%nat /\ In p (fr_pressure r) /\ power sol f i (Some p) = Ok w.
Proof. exact map_powers_all. Qed.
Print Assumptions C99_map_powers.

(** Fans with these motors export a maximum that covers the map. *)
Theorem C99_constant : forall sol airflows esp eff (f : fan R) r,
  make_constant_efficacy_fan airflows esp (EffNum eff) = Ok f -> fan_205 sol f = Ok r ->
  Forall (fun a => 0 < a) airflows -> 0 <= eff ->
  forall w, In w (fr_power r) -> w <= fr_max_power r.
Proof. exact constant_covers. Qed.
Print Assumptions C99_constant.

Example C99_constant_nonvacuous : exists (f : fan R) r,
  make_constant_efficacy_fan [0.5; 0.3] 125 (EffNum 700) = Ok f /\ fan_205 ideal_solvers f = Ok r.
Proof. apply constant_exports; [discriminate|repeat constructor; lra|lra]. Qed.

Theorem C99_psc : forall sol airflows esp eff (f : fan R) r,
  make_psc_fan airflows esp eff = Ok f -> fan_205 sol f = Ok r ->
  Forall (fun a => 0 < a) airflows -> 0 <= eff ->
  forall w, In w (fr_power r) -> w <= fr_max_power r.
Proof. exact psc_covers. Qed.
Print Assumptions C99_psc.

Example C99_psc_nonvacuous : exists (f : fan R) r,
  make_psc_fan [0.5; 0.3] 125 700 = Ok f /\ fan_205 ideal_solvers f = Ok r.
Proof. apply psc_exports; [discriminate|repeat constructor; lra|lra]. Qed.

Theorem C99_resnet_psc : forall sol airflows (f : fan R) r,
  make_resnet_psc_fan airflows = Ok f -> fan_205 sol f = Ok r ->
  Forall (fun a => 0 < a) airflows ->
  forall w, In w (fr_power r) -> w <= fr_max_power r.
Proof. exact resnet_psc_covers. Qed.
Print Assumptions C99_resnet_psc.

Example C99_resnet_psc_nonvacuous : exists (f : fan R) r,
  make_resnet_psc_fan [0.5; 0.3] = Ok f /\ fan_205 ideal_solvers f = Ok r.
Proof. apply resnet_psc_exports; [discriminate|repeat constructor; lra]. Qed.

(** So does an ECM fan, with or without a limit, unless its efficacy is below
    what its pressure alone costs. *)
Theorem C99_ecm : forall sol airflows esp eff mx (f : fan R) r,
  make_ecm_fan airflows esp eff mx = Ok f -> fan_205 sol f = Ok r ->
  Forall (fun a => 0 < a) airflows -> fr_W_per_cfm_inH2O 0.235 * esp <= eff ->
  forall w, In w (fr_power r) -> w <= fr_max_power r.
Proof. exact ecm_covers. Qed.
Print Assumptions C99_ecm.

Example C99_ecm_nonvacuous : exists (f : fan R) r,
  make_ecm_fan [0.5; 0.3] 0 700 None = Ok f /\ fan_205 ideal_solvers f = Ok r.
Proof. apply ecm_exports; [discriminate|repeat constructor; lra|lra|lra]. Qed.

(** A RESNET unit's BPM fan exports a map with more power in it than the
    maximum of its motor, whatever its airflows. *)
Theorem C99_bpm_refuted : forall sol airflows (f : fan R) r a0,
  sound_brentq 0 sol -> make_resnet_bpm_fan airflows = Ok f -> fan_205 sol f = Ok r ->
  geti airflows 0 = Ok a0 -> 0 < a0 ->
  exists w, In w (fr_power r) /\ fr_max_power r < w.
Proof. exact resnet_bpm_exceeds. Qed.
Print Assumptions C99_bpm_refuted.

Example C99_bpm_nonvacuous : sound_brentq 0 ideal_solvers /\ exists (f : fan R) r,
  make_resnet_bpm_fan [0.5; 0.3] = Ok f /\ fan_205 ideal_solvers f = Ok r.
Proof. split; [apply ideal_sound; lra|apply bpm_export_exists, ideal_sound; lra]. Qed.
