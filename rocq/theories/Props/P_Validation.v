(** C71: the input table for the AHRI rating calculator. *)
From Coq Require Import Reals QArith List String.
From Verif.Base Require Import Num Res.
From Verif.Model Require Import Units Psychrometrics Conditions Defrost Fan Tabular Unit
  NREL BaseModel DXUnit Validation.
From Verif.Spec Require Import NrelSpec UnitModels UnitSpec TestSpec ValidationSpec.
From Verif.Proofs Require Import ToyUnit ToyBuild ToySeason ValidationProofs ToyValidation.
Import ListNotations.
Local Open Scope string_scope.
Local Open Scope R_scope.

(** ** C71 *)

(** The file holds one row; under each heading stands the quantity and test that the heading
    names, except the power at 47 F and full load. *)
Theorem C71_columns : forall sol M eere (u : dxunit R) f0 f,
  write_validation_tables sol M eere u f0 = (f, Ok tt) ->
  u_staging u = VARIABLE_SPEED /\
  exists header row, f = Table header [row] /\ NoDup header
    /\ List.length row = List.length header
    /\ (forall q l t, In (l, t) heat_points -> (q, l) <> (Power, "47full") ->
        exists v, under header row (column q l) (CNum v) /\ measured sol M q t u v)
    /\ unit_cells sol M u header row.
Proof. exact table_columns. Qed.
Print Assumptions C71_columns.

(** The remaining columns: questions about the unit, and the blower. *)
Theorem C71_answers : forall sol M eere (u : dxunit R) f0 header row,
  write_validation_tables sol M eere u f0 = (Table header [row], Ok tt) ->
  (forall name b, In (name, b) answers -> under header row name (CBool b))
  /\ under header row "compressorDesignStage" (CText "Variable Speed")
  /\ exists fn x, u_fan u = Some fn /\ has_blower fn x /\ under header row "indoorBlowerType" x.
Proof. exact table_answers. Qed.
Print Assumptions C71_answers.

(** It is written whenever the quantities of a variable-speed unit can be computed. *)
Theorem C71_written : forall sol M eere (u : dxunit R) fn on credit cA qA aA f0,
  u_staging u = VARIABLE_SPEED -> u_fan u = Some fn -> u_heating_on u = Some on ->
  demand_credit (u_defrost u) = Ok credit ->
  (forall q l t, In (l, t) heat_points -> exists v, measured sol M q t u v) ->
  stored A_full (u_conds u) = Some cA ->
  net_total_cooling_capacity sol M u (Some cA) = Ok qA ->
  c_rated_standard_volumetric_airflow cA = Some aA ->
  exists f, write_validation_tables sol M eere u f0 = (f, Ok tt).
Proof. exact table_written. Qed.
Print Assumptions C71_written.

(** The power at 47 F and full load is that of the 62 F test at low speed. *)
Theorem C71_power_47full : forall sol M eere (u : dxunit R) f0 header row v,
  write_validation_tables sol M eere u f0 = (Table header [row], Ok tt) ->
  under header row (column Power "47full") (CNum v) -> measured sol M Power H0_low u v.
Proof. exact power_47full. Qed.
Print Assumptions C71_power_47full.

Theorem C71_power_47full_refuted : exists (u : dxunit R) header row v w,
  DXUnit lin_psy lin_sol ConstantDXModel
    (toy_args VARIABLE_SPEED AHRI_210_240_2023 [10000; 7000; 4000] [9000; 6000; 3000] 4 4) = Ok u
  /\ write_validation_tables lin_sol ConstantDXModel None u NotOpened
     = (Table header [row], Ok tt)
  /\ under header row (column Power "47full") (CNum v)
  /\ measured lin_sol ConstantDXModel Power H1_full u w /\ v <> w.
Proof. exact table_example. Qed.
Print Assumptions C71_power_47full_refuted.

(** Single-stage and two-stage units get an empty file and an exception. *)
Theorem C71_other_stagings_refuted : forall sol M eere (u : dxunit R) fn f0,
  u_fan u = Some fn -> u_staging u <> VARIABLE_SPEED ->
  write_validation_tables sol M eere u f0 = (Empty, Err UnboundLocalError).
Proof. exact other_stagings. Qed.
Print Assumptions C71_other_stagings_refuted.

(** For a variable-speed unit a failure leaves the file as it was. *)
Theorem C71_failure_keeps_file : forall sol M eere (u : dxunit R) f0 f e,
  write_validation_tables sol M eere u f0 = (f, Err e) -> u_staging u = VARIABLE_SPEED ->
  f = f0.
Proof. exact file_kept. Qed.
Print Assumptions C71_failure_keeps_file.

Example C71_nonvacuous : exists (u v w : dxunit R) f fn,
  u_staging u = VARIABLE_SPEED
  /\ write_validation_tables lin_sol ConstantDXModel None u NotOpened = (f, Ok tt)
  /\ u_staging v = TWO_STAGE /\ u_fan v = Some fn
  /\ u_staging w = VARIABLE_SPEED
  /\ write_validation_tables lin_sol ConstantDXModel None w NotOpened
     = (NotOpened, Err AttributeError).
Proof. exact validation_example. Qed.
