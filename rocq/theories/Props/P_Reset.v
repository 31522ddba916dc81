(** Property C89: resetting the rated airflows of a unit (dx_unit.py). *)
From Coq Require Import Reals Lra Lia List.
From Verif.Base Require Import Num Res.
From Verif.Model Require Import Units Conditions Fan Tabular Unit BaseModel DXUnit.
From Verif.Spec Require Import CondSpec UnitModels DefaultSpec TestSpec ResetSpec.
From Verif.Proofs Require Import UnitProofs2 ResetProofs ResetProofs2 ResetProofs3 ToyBuild ToyReset.
Import ListNotations.
Local Open Scope R_scope.

(** Whether it returns or raises, only the fan and the stored rating conditions change. *)
Theorem C89_only_fan_and_conditions : forall psy fc fh (u : dxunit R),
  let u' := fst (reset_rated_flow_rates psy fc fh u) in
  u' = wu_fan (u_fan u') (wu_conds (u_conds u') u).
Proof. exact only_fan_and_conditions. Qed.
Print Assumptions C89_only_fan_and_conditions.

(** One fan speed per compressor speed is added, none is removed. *)
Theorem C89_fan : forall psy fc fh (u u' : dxunit R),
  ex (reset_rated_flow_rates psy fc fh) u = Ok u' ->
  exists f f' e, u_fan u = Some f /\ u_fan u' = Some f' /\ u_full_esp u = Some e
    /\ with_speeds f (new_speeds Cooling u fc fh e ++ new_speeds Heating u fc fh e) f'
    /\ f_n f' = (f_n f + length (flows Cooling u fc fh) + length (flows Heating u fc fh))%nat.
Proof. exact reset_fan. Qed.
Print Assumptions C89_fan.

(** Every rating test run at a speed that is reset uses the new fan speed and
    airflow; the boost test and the tests at other speeds keep their conditions. *)
Theorem C89_conditions : forall psy fc fh (u u' : dxunit R) f t,
  ex (reset_rated_flow_rates psy fc fh) u = Ok u' -> u_fan u = Some f ->
  (forall i a, t <> A_boost -> test_speed t u = Some i ->
    nth_error (new_airflows (test_mode t) u fc fh) i = Some a ->
    exists c c', stored t (u_conds u) = Some c /\ stored t (u_conds u') = Some c'
      /\ moved (new_fan_speed (test_mode t) u fc fh (f_n f) i) a c c')
  /\ ((t = A_boost \/ forall i, test_speed t u = Some i -> (length (flows (test_mode t) u fc fh) <= i)%nat) ->
      stored t (u_conds u') = stored t (u_conds u)).
Proof. exact reset_conditions. Qed.
Print Assumptions C89_conditions.

(** It succeeds on a unit that performs every test of the speeds that are reset. *)
Theorem C89_succeeds : forall psy sol M a fc fh (u : dxunit R) f f' e,
  library_model psy sol M -> DXUnit psy sol M a = Ok u ->
  u_fan u = Some f -> u_full_esp u = Some e ->
  (forall m, hd 0 (new_airflows m u fc fh) <> 0
             /\ length (new_airflows m u fc fh) = length (flows m u fc fh)) ->
  with_speeds f (new_speeds Cooling u fc fh e ++ new_speeds Heating u fc fh e) f' ->
  (forall t i, t <> A_boost -> test_speed t u = Some i ->
     (i < length (flows (test_mode t) u fc fh))%nat -> In t (tests u)) ->
  exists u', ex (reset_rated_flow_rates psy fc fh) u = Ok u'.
Proof. exact reset_succeeds. Qed.
Print Assumptions C89_succeeds.

(** A single-stage unit given a new airflow for cooling and for heating. *)
Example C89_nonvacuous : exists (u : dxunit R) (f f' : fan R) (u' : dxunit R) (e : R) (c : cond R),
  DXUnit lin_psy lin_sol ConstantDXModel one_stage = Ok u
  /\ u_fan u = Some f /\ u_full_esp u = Some e /\ 0 < e
  /\ (forall m, hd 0 (new_airflows m u flow_c flow_h) <> 0
        /\ length (new_airflows m u flow_c flow_h) = length (flows m u flow_c flow_h))
  /\ with_speeds f (new_speeds Cooling u flow_c flow_h e ++ new_speeds Heating u flow_c flow_h e) f'
  /\ (forall t i, t <> A_boost -> test_speed t u = Some i ->
        (i < length (flows (test_mode t) u flow_c flow_h))%nat -> In t (tests u))
  /\ ex (reset_rated_flow_rates lin_psy flow_c flow_h) u = Ok u'
  /\ f_n f = 2%nat
  /\ In A_full (tests u) /\ test_speed A_full u = Some 0%nat
  /\ new_airflows Cooling u flow_c flow_h = [10000 * 0.00005]
  /\ new_airflows Heating u flow_c flow_h = [9000 * 0.00004]
  /\ stored A_full (u_conds u) = Some c
  /\ c_rated_standard_volumetric_airflow c = Some (10000 * fl)
  /\ 0 < 10000 * fl /\ 10000 * 0.00005 <> 10000 * fl
  /\ fan_power lin_sol u c = Ok (10000 * fl * ef)
  /\ e < ef.
Proof. exact reset_example. Qed.

(** The new conditions scale the static pressure from the airflow the unit was built with ... *)
Theorem C89_pressure : forall psy sol M a fc fh (u u' : dxunit R) t i air c p a0,
  library_model psy sol M -> DXUnit psy sol M a = Ok u ->
  ex (reset_rated_flow_rates psy fc fh) u = Ok u' ->
  In t (tests u) -> t <> A_boost -> test_speed t u = Some i ->
  nth_error (new_airflows (test_mode t) u fc fh) i = Some air ->
  stored t (u_conds u) = Some c ->
  c_external_static_pressure c = Some p -> c_rated_standard_volumetric_airflow c = Some a0 ->
  exists c', stored t (u_conds u') = Some c' /\ c_external_static_pressure c' = Some (p * (air / a0) ^ 2).
Proof. exact reset_pressure. Qed.
Print Assumptions C89_pressure.

(** ... so a full-speed test is not run at the rated pressure its fan speed was added for. *)
Theorem C89_pressure_refuted : forall psy sol M a fc fh (u u' : dxunit R) t e air c a0,
  library_model psy sol M -> DXUnit psy sol M a = Ok u ->
  ex (reset_rated_flow_rates psy fc fh) u = Ok u' ->
  In t (tests u) -> t <> A_boost -> test_speed t u = Some 0%nat -> u_full_esp u = Some e ->
  nth_error (new_airflows (test_mode t) u fc fh) 0 = Some air ->
  stored t (u_conds u) = Some c -> c_rated_standard_volumetric_airflow c = Some a0 ->
  0 < e -> 0 < a0 -> 0 < air -> air <> a0 ->
  nth_error (new_speeds (test_mode t) u fc fh e) 0 = Some (air, e)
  /\ exists c' p, stored t (u_conds u') = Some c' /\ c_external_static_pressure c' = Some p /\ p <> e.
Proof. exact reset_pressure_differs. Qed.
Print Assumptions C89_pressure_refuted.

(** With the default fan the rated pressure is taken for the efficacy of the new
    speed: the fan power of a test becomes airflow times pressure. *)
Theorem C89_default_fan_refuted : forall psy sol M a fc fh (u u' : dxunit R) t i e air p c',
  base_fan_model M -> DXUnit psy sol M a = Ok u ->
  ex (reset_rated_flow_rates psy fc fh) u = Ok u' ->
  In t (tests u) -> t <> A_boost -> test_speed t u = Some i -> u_full_esp u = Some e ->
  nth_error (new_speeds (test_mode t) u fc fh e) i = Some (air, p) ->
  stored t (u_conds u') = Some c' ->
  fan_power sol u' c' = Ok (air * p).
Proof. exact reset_default_power. Qed.
Print Assumptions C89_default_fan_refuted.

(** In the example above 389 W of fan power becomes 62 W. *)
Example C89_default_fan_nonvacuous : exists (u u' : dxunit R) e c c',
  DXUnit lin_psy lin_sol ConstantDXModel one_stage = Ok u
  /\ ex (reset_rated_flow_rates lin_psy flow_c flow_h) u = Ok u'
  /\ In A_full (tests u) /\ test_speed A_full u = Some 0%nat /\ u_full_esp u = Some e
  /\ nth_error (new_speeds Cooling u flow_c flow_h e) 0 = Some (10000 * 0.00005, e)
  /\ stored A_full (u_conds u) = Some c /\ fan_power lin_sol u c = Ok (10000 * fl * ef)
  /\ stored A_full (u_conds u') = Some c' /\ fan_power lin_sol u' c' = Ok (10000 * 0.00005 * e)
  /\ 389 < 10000 * fl * ef < 390 /\ 62 < 10000 * 0.00005 * e < 63.
Proof. exact reset_power_example. Qed.
