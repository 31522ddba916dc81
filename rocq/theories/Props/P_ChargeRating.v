(** Property C107: an undercharged unit is rated lower (dx_unit.py:824-838, nrel.py:302-405). *)
From Coq Require Import String Reals Lra List.
From Verif.Base Require Import Num Res Tac.
From Verif.Model Require Import Units Psychrometrics Conditions Defrost Fan Unit NREL BaseModel Resnet DXUnit.
From Verif.Spec Require Import UnitModels TestSpec ChargeSpec.
From Verif.Props Require Import P_Psych.
From Verif.Proofs Require Import ToyUnit ChargeExample ChargeRating.
Import ListNotations.
Local Open Scope R_scope.

(** The seer() of a single-stage unit. *)
Theorem C107_seer : forall psy sol M f (u : dxunit R) c w q0 v v0,
  M = NRELDXModel psy sol \/ M = RESNETDXModel psy sol ->
  u_staging u = SINGLE_STAGE -> rc_B_full (u_conds u) = Some c -> weather c 25 30 18 50 ->
  -0.5 <= f < 0 -> cooling_fan_power sol u (Some c) = Ok w -> 0 <= w ->
  gross_total_cooling_capacity M (charged 0 u) (Some c) = Ok q0 -> 0 < q0 -> sd_cd (u_c u) < 2 ->
  seer sol M (charged f u) = Ok v -> seer sol M (charged 0 u) = Ok v0 -> v < v0.
Proof. exact undercharged_seer. Qed.
Print Assumptions C107_seer.

(** The eer() of a unit of any staging. *)
Theorem C107_eer : forall psy sol M f (u : dxunit R) c w q0 v v0,
  M = NRELDXModel psy sol \/ M = RESNETDXModel psy sol ->
  rc_A_full (u_conds u) = Some c -> weather c 25 30 18 50 ->
  -0.5 <= f < 0 -> cooling_fan_power sol u (Some c) = Ok w -> 0 <= w ->
  gross_total_cooling_capacity M (charged 0 u) (Some c) = Ok q0 -> 0 < q0 ->
  eer sol M (charged f u) None = Ok v -> eer sol M (charged 0 u) None = Ok v0 -> v < v0.
Proof. exact undercharged_eer. Qed.
Print Assumptions C107_eer.

(** The weather is that of every cooling test of every unit that can be made. *)
Theorem C107_tests : forall psy sol M a (u : dxunit R) t,
  library_model psy sol M -> DXUnit psy sol M a = Ok u -> In t (tests u) -> test_mode t = Cooling ->
  exists c, stored t (u_conds u) = Some c /\ weather c 25 30 18 50.
Proof. exact cooling_test_weather. Qed.
Print Assumptions C107_tests.

(** A 10 kW unit, right charge or a quarter too little, has both ratings. *)
Example C107_case : forall sol f, -0.25 <= f <= 0.25 ->
  let M := RESNETDXModel toy_psy sol in
  let u := tested_unit in
  let c := toy_cond 300 292 308 1 in
  u_staging u = SINGLE_STAGE /\ rc_A_full (u_conds u) = Some c /\ rc_B_full (u_conds u) = Some c
  /\ weather c 25 30 18 50 /\ cooling_fan_power sol u (Some c) = Ok 300 /\ sd_cd (u_c u) = 0.25
  /\ (exists q, gross_total_cooling_capacity M (charged f u) (Some c) = Ok q /\ 0 < q)
  /\ (exists v, seer sol M (charged f u) = Ok v) /\ (exists v, eer sol M (charged f u) None = Ok v).
Proof. exact tested_ratings. Qed.
