(** Property C113: what HSPF says of a heat pump that never runs. *)
From Coq Require Import Reals Lra List.
From Verif.Base Require Import Num Res Tac.
From Verif.Model Require Import Units Defrost Fan Unit BaseModel DXUnit.
From Verif.Spec Require Import UnitSpec SeasonSpec UnitModels ControlSpec.
From Verif.Proofs Require Import ToyBuild ToySeason ToySeason2 Locked LockedExample.
Import ListNotations.
Local Open Scope R_scope.

(** Locked out in every bin (the warmest is 62 F), a unit of any staging type and model is
    rated as resistance heat, 3.412 Btu/Wh, times its demand defrost credit. *)
Theorem C113_locked_out : forall sol M (u : dxunit R) region on v d L,
  u_heating_on u = Some on -> hspf sol M u region = Ok v ->
  deg_F 62 <= u_heating_off u ->
  climate u region = Ok d -> heat_load sol M u d L ->
  0 < over 18 (fun i => hours_of d i * L (heat_t i)) ->
  exists credit, demand_credit (u_defrost u) = Ok credit /\ v = Btu_Wh credit.
Proof. exact locked_out. Qed.
Print Assumptions C113_locked_out.

Example C113_nonvacuous : forall k, exists u on d L v,
  unit_of SINGLE_STAGE AHRI_210_240_2023 [10000] [9000] 4 4 u
  /\ u_heating_on (locked k u) = Some on
  /\ hspf lin_sol ConstantDXModel (locked k u) 4 = Ok v
  /\ deg_F 62 <= u_heating_off (locked k u)
  /\ climate (locked k u) 4 = Ok d /\ heat_load lin_sol ConstantDXModel (locked k u) d L
  /\ 0 < over 18 (fun i => hours_of d i * L (heat_t i)).
Proof. exact locked_case. Qed.

(** So with demand defrost a unit that never runs is rated above resistance heat. *)
Theorem C113_rated_as_resistance_refuted : exists u v,
  unit_of SINGLE_STAGE AHRI_210_240_2023 [10000] [9000] 4 4 u
  /\ let u' := locked DCDemand u in
     deg_F 62 <= u_heating_off u' /\ hspf lin_sol ConstantDXModel u' 4 = Ok v
     /\ v = Btu_Wh 1.03.
Proof. exact locked_above. Qed.
Print Assumptions C113_rated_as_resistance_refuted.
