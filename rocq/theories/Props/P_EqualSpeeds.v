(** Property C104: seasonal ratings of a variable-speed unit whose speeds agree
    (dx_unit.py:839-883, 1107-1147). *)
From Coq Require Import Reals List.
From Verif.Base Require Import Num Res Tac.
From Verif.Model Require Import Units Psychrometrics Conditions Defrost Fan Unit BaseModel DXUnit.
From Verif.Spec Require Import UnitSpec SeasonSpec.
From Verif.Proofs Require Import ToyBuild ToySeason ToySeason2 EqualSpeeds.
Import ListNotations.
Local Open Scope R_scope.

(** Low and full speed with the same capacity at 87 F, or the same power: no SEER. *)
Theorem C104_seer : forall sol M (u : dxunit R) A B Bl Fl E,
  u_staging u = VARIABLE_SPEED ->
  cooling_test sol M u (rc_A_full (u_conds u)) A -> cooling_test sol M u (rc_B_full (u_conds u)) B ->
  cooling_test sol M u (rc_B_low (u_conds u)) Bl -> cooling_test sol M u (rc_F_low (u_conds u)) Fl ->
  cooling_test sol M u (rc_E_int (u_conds u)) E ->
  q_at B A (deg_F 87) = q_at Fl Bl (deg_F 87) \/ p_at B A (deg_F 87) = p_at Fl Bl (deg_F 87) ->
  seer sol M u = Err ZeroDivisionError.
Proof. exact seer_equal. Qed.
Print Assumptions C104_seer.

(** The low-speed line at 35 F meeting the full-speed frost test in capacity or
    power: no HSPF in any climate. *)
Theorem C104_hspf : forall sol M (u : dxunit R) region H0l H1l H2,
  u_staging u = VARIABLE_SPEED ->
  heating_test sol M u (rc_H0_low (u_conds u)) H0l -> heating_test sol M u (rc_H1_low (u_conds u)) H1l ->
  frost_test sol M u (rc_H2_full (u_conds u)) H2 ->
  q_at H0l H1l (deg_F 35) = pt_q H2 \/ p_at H0l H1l (deg_F 35) = pt_p H2 ->
  forall v, hspf sol M u region <> Ok v.
Proof. exact hspf_equal. Qed.
Print Assumptions C104_hspf.

(** So a unit that has a SEER as a single-stage unit has none as a
    variable-speed unit with the same capacity at each speed. *)
Theorem C104_same_speeds_refuted : exists single variable v,
  unit_of SINGLE_STAGE AHRI_210_240_2023 [10000] [9000] 4 4 single
  /\ unit_of VARIABLE_SPEED AHRI_210_240_2023 [10000; 10000; 10000] [9000; 9000; 9000] 4 4 variable
  /\ seer lin_sol ConstantDXModel single = Ok v
  /\ seer lin_sol ConstantDXModel variable = Err ZeroDivisionError
  /\ (forall region w, hspf lin_sol ConstantDXModel variable region <> Ok w).
Proof. exact staging_refuted. Qed.
Print Assumptions C104_same_speeds_refuted.

(** Such a unit can be made, and its tests succeed. *)
Example C104_case : exists u A B Bl Fl E H0l H1l H2,
  unit_of VARIABLE_SPEED AHRI_210_240_2023 [10000; 10000; 10000] [9000; 9000; 9000] 4 4 u
  /\ u_staging u = VARIABLE_SPEED
  /\ cooling_test lin_sol ConstantDXModel u (rc_A_full (u_conds u)) A
  /\ cooling_test lin_sol ConstantDXModel u (rc_B_full (u_conds u)) B
  /\ cooling_test lin_sol ConstantDXModel u (rc_B_low (u_conds u)) Bl
  /\ cooling_test lin_sol ConstantDXModel u (rc_F_low (u_conds u)) Fl
  /\ cooling_test lin_sol ConstantDXModel u (rc_E_int (u_conds u)) E
  /\ q_at B A (deg_F 87) = q_at Fl Bl (deg_F 87)
  /\ heating_test lin_sol ConstantDXModel u (rc_H0_low (u_conds u)) H0l
  /\ heating_test lin_sol ConstantDXModel u (rc_H1_low (u_conds u)) H1l
  /\ frost_test lin_sol ConstantDXModel u (rc_H2_full (u_conds u)) H2 /\ q_at H0l H1l (deg_F 35) = pt_q H2.
Proof. exact toy_equal. Qed.
