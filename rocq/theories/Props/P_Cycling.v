(** Property C97: the cycling method of two-stage units (dx_unit.py:161, 912-938, 1250-1284). *)
From Coq Require Import Reals List.
From Verif.Base Require Import Num Res.
From Verif.Model Require Import Units Psychrometrics Conditions Defrost Fan Unit BaseModel DXUnit.
From Verif.Spec Require Import UtilSpec UnitSpec UnitModels SeasonSpec CompareSpec CyclingSpec.
From Verif.Proofs Require Import ToyBuild ToySeason Cycling Cycling2 Cycling3.
Import ListNotations.
Local Open Scope R_scope.

(** Construction stores the method and is otherwise the same, also in the exception it raises. *)
Theorem C97_only_stored : forall c psy sol M a, plain_model sol M ->
  DXUnit psy sol M (with_cycling c a)
  = match DXUnit psy sol M a with Ok u => Ok (cycled c u) | Err e => Err e end.
Proof. exact cycling_kept. Qed.
Print Assumptions C97_only_stored.

(** It has no influence on capacities, powers and EER, *)
Theorem C97_same_results : forall c sol M (u : dxunit R), plain_model sol M -> forall k,
  eer sol M (cycled c u) k = eer sol M u k
  /\ net_total_cooling_capacity sol M (cycled c u) k = net_total_cooling_capacity sol M u k
  /\ net_sensible_cooling_capacity sol M (cycled c u) k = net_sensible_cooling_capacity sol M u k
  /\ net_cooling_power sol M (cycled c u) k = net_cooling_power sol M u k
  /\ net_steady_state_heating_capacity sol M (cycled c u) k = net_steady_state_heating_capacity sol M u k
  /\ net_steady_state_heating_power sol M (cycled c u) k = net_steady_state_heating_power sol M u k
  /\ net_integrated_heating_capacity sol M (cycled c u) k = net_integrated_heating_capacity sol M u k
  /\ net_integrated_heating_power sol M (cycled c u) k = net_integrated_heating_power sol M u k.
Proof. exact cycling_results. Qed.
Print Assumptions C97_same_results.

(** nor on SEER and HSPF of units of another staging type. *)
Theorem C97_other_staging : forall c sol M (u : dxunit R), plain_model sol M -> u_staging u <> TWO_STAGE ->
  seer sol M (cycled c u) = seer sol M u
  /\ forall region, hspf sol M (cycled c u) region = hspf sol M u region.
Proof. exact cycling_ratings. Qed.
Print Assumptions C97_other_staging.

(** If in no bin the full stage has the better COP, SEER is not lower when cycling between the
    stages than when cycling between off and full; it is higher if some bin lies between the
    stages and cycling costs anything. *)
Theorem C97_seer : forall sol M (u : dxunit R) A B Bl Fl, plain_model sol M ->
  u_staging u = TWO_STAGE -> cooling_tests sol M u A B Bl Fl ->
  pt_t Bl <> pt_t Fl -> pt_t A <> pt_t B -> 0 < pt_q A -> 0 <= sd_cd (u_c u) < 1 ->
  (forall i, (i < 8)%nat ->
     let t := cool_t i in
     0 < q_at Fl Bl t <= q_at B A t /\ 0 < p_at Fl Bl t /\ 0 < p_at B A t
     /\ q_at B A t / p_at B A t <= q_at Fl Bl t / p_at Fl Bl t) ->
  exists v v', seer sol M (cycled BETWEEN_OFF_FULL u) = Ok v
    /\ seer sol M (cycled BETWEEN_LOW_FULL u) = Ok v' /\ v <= v'
    /\ (0 < sd_cd (u_c u) ->
        (exists i, (i < 8)%nat
           /\ q_at Fl Bl (cool_t i) < cool_load (pt_q A) (cool_t i) < q_at B A (cool_t i)) ->
        v < v').
Proof. exact low_full_higher. Qed.
Print Assumptions C97_seer.

Example C97_seer_nonvacuous : exists u A B Bl Fl,
  DXUnit lin_psy lin_sol ConstantDXModel
    (toy_args TWO_STAGE AHRI_210_240_2023 [10000; 7000] [9000; 6000] 4 4) = Ok u
  /\ plain_model lin_sol ConstantDXModel /\ u_staging u = TWO_STAGE
  /\ cooling_tests lin_sol ConstantDXModel u A B Bl Fl
  /\ pt_t Bl <> pt_t Fl /\ pt_t A <> pt_t B /\ 0 < pt_q A /\ 0 < sd_cd (u_c u) < 1
  /\ (forall i, (i < 8)%nat ->
       let t := cool_t i in
       0 < q_at Fl Bl t <= q_at B A t /\ 0 < p_at Fl Bl t /\ 0 < p_at B A t
       /\ q_at B A t / p_at B A t <= q_at Fl Bl t / p_at Fl Bl t)
  /\ q_at Fl Bl (cool_t 5) < cool_load (pt_q A) (cool_t 5) < q_at B A (cool_t 5).
Proof. exact toy_low_full. Qed.

(** HSPF, cycling between off and full, in the bins whose load lies between the stages.  The
    resistance heat follows the run fraction of an earlier bin.  At or below the cut-out
    temperature no energy is counted.  Above it the COP is that of the full stage times a factor
    that falls from 1 to 1 - C_D as the load rises from the low-stage to the full-stage capacity:
    the losses are largest where the unit hardly cycles. *)
Theorem C97_off_full_heating : forall sol M (u : dxunit R) region on v,
  u_staging u = TWO_STAGE -> u_cycling u = BETWEEN_OFF_FULL -> u_heating_on u = Some on ->
  0 <= sd_cd (u_h u) < 1 -> hspf sol M u region = Ok v ->
  exists d s L credit,
    climate u region = Ok d /\ two_stage_tests sol M u s /\ heat_load sol M u d L
    /\ demand_credit (u_defrost u) = Ok credit
    /\ let bin := two_stage_bin BETWEEN_OFF_FULL (u_heating_off u) on (sd_cd (u_h u)) L s in
       v = seasonal_heating (hours_of d) (fun i => L (heat_t i))
             (fun i => fst (bin i)) (fun i => snd (bin i)) credit
    /\ forall i, (i < 18)%nat -> low_of q_at s i < L (heat_t i) < full_of q_at s i ->
       exists x, carried (u_heating_off u) on L s i = Some x
         /\ snd (bin i) = (1 - x) * L (heat_t i)
         /\ (heat_t i <= u_heating_off u -> fst (bin i) = 0)
         /\ (u_heating_off u < heat_t i -> on < heat_t i ->
             1 <= full_of q_at s i / full_of p_at s i ->
             fst (bin i) = L (heat_t i) / (full_of q_at s i / full_of p_at s i)
               / (1 - sd_cd (u_h u) * between (low_of q_at s i) (full_of q_at s i) (L (heat_t i)))
             /\ 0 < between (low_of q_at s i) (full_of q_at s i) (L (heat_t i)) < 1).
Proof. exact off_full_heat. Qed.
Print Assumptions C97_off_full_heating.

(** So a load below the cut-out temperature can be met by nothing: in the -3 F bin of this unit
    neither compressor energy nor resistance heat is counted.  Its 12 F bin is one of those above
    the cut-out. *)
Theorem C97_free_heat_refuted : exists u on d s L credit v,
  DXUnit lin_psy lin_sol ConstantDXModel off_full_args = Ok u
  /\ u_staging u = TWO_STAGE /\ u_cycling u = BETWEEN_OFF_FULL /\ u_heating_on u = Some on
  /\ 0 <= sd_cd (u_h u) < 1
  /\ climate u 4 = Ok d /\ two_stage_tests lin_sol ConstantDXModel u s
  /\ heat_load lin_sol ConstantDXModel u d L
  /\ demand_credit (u_defrost u) = Ok credit
  /\ hspf lin_sol ConstantDXModel u 4 = Ok v
  /\ let bin := two_stage_bin BETWEEN_OFF_FULL (u_heating_off u) on (sd_cd (u_h u)) L s in
     v = seasonal_heating (hours_of d) (fun i => L (heat_t i))
           (fun i => fst (bin i)) (fun i => snd (bin i)) credit
     /\ low_of q_at s 13 < L (heat_t 13) < full_of q_at s 13
     /\ 0 < hours_of d 13 /\ 0 < L (heat_t 13)
     /\ bin 13%nat = (0, 0)
     /\ low_of q_at s 10 < L (heat_t 10) < full_of q_at s 10
     /\ u_heating_off u < heat_t 10 /\ on < heat_t 10
     /\ 1 <= full_of q_at s 10 / full_of p_at s 10.
Proof. exact toy_off_full. Qed.
Print Assumptions C97_free_heat_refuted.
