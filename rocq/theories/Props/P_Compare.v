(** Property C86: a unit that is at least as efficient as another of the same capacity is rated
    at least as high (dx_unit.py). *)
From Coq Require Import Reals List String.
From Verif.Base Require Import Num Res.
From Verif.Model Require Import Units Psychrometrics Conditions Defrost Fan Unit BaseModel DXUnit.
From Verif.Spec Require Import UtilSpec UnitSpec SeasonSpec CompareSpec.
From Verif.Proofs Require Import SeerProofs HspfProofs HspfProofs2 Dominance ToyBuild ToySeason
  ToySeason2 ToyCompare.
Import ListNotations.
Local Open Scope R_scope.

(** Primed: the second unit.  It has the capacities of the first in every test, uses no more
    power at any speed in any temperature bin and loses no more to cycling.  Both units have a
    rating and the second rating is not lower; with a smaller degradation coefficient, and a bin
    in which the unit cycles, it is higher.

    In the examples [unit_of] is as in P_Season.v; [with_cd x u] is [u] after the assignment
    [u.c_d_cooling = x]. *)

(** * SEER *)

Theorem C86_single_stage_seer :
  forall (sol sol' : solvers R) (M M' : dxmodel R) (u u' : dxunit R) B B',
  u_staging u = SINGLE_STAGE -> u_staging u' = SINGLE_STAGE ->
  cooling_test sol M u (rc_B_full (u_conds u)) B ->
  cooling_test sol' M' u' (rc_B_full (u_conds u')) B' ->
  same_capacity B B' -> 0 < pt_q B -> 0 < pt_p B' <= pt_p B ->
  0 <= sd_cd (u_c u') <= sd_cd (u_c u) -> sd_cd (u_c u) < 1 ->
  exists v v', seer sol M u = Ok v /\ seer sol' M' u' = Ok v' /\ v <= v'
    /\ (sd_cd (u_c u') < sd_cd (u_c u) -> v < v').
Proof. exact dominates_single. Qed.
Print Assumptions C86_single_stage_seer.

Example C86_single_stage_seer_nonvacuous : exists u w B B',
  unit_of SINGLE_STAGE AHRI_210_240_2023 [10000] [9000] 4 4 u
  /\ unit_of SINGLE_STAGE AHRI_210_240_2023 [10000] [9000] 5 5 w
  /\ let u' := with_cd (1 / 8) w in
     u_staging u = SINGLE_STAGE /\ u_staging u' = SINGLE_STAGE
     /\ cooling_test lin_sol ConstantDXModel u (rc_B_full (u_conds u)) B
     /\ cooling_test lin_sol ConstantDXModel u' (rc_B_full (u_conds u')) B'
     /\ same_capacity B B' /\ 0 < pt_q B /\ 0 < pt_p B' < pt_p B
     /\ 0 <= sd_cd (u_c u') < sd_cd (u_c u) /\ sd_cd (u_c u) < 1.
Proof. exact pair_seer_single. Qed.

Theorem C86_two_stage_seer :
  forall (sol sol' : solvers R) (M M' : dxmodel R) (u u' : dxunit R) A B Bl Fl A' B' Bl'
    Fl',
  u_staging u = TWO_STAGE -> u_staging u' = TWO_STAGE -> u_cycling u' = u_cycling u ->
  cooling_tests sol M u A B Bl Fl -> cooling_tests sol' M' u' A' B' Bl' Fl' ->
  same_capacity A A' -> same_capacity B B' -> same_capacity Bl Bl' -> same_capacity Fl Fl' ->
  pt_t Bl <> pt_t Fl -> pt_t A <> pt_t B -> 0 < pt_q A ->
  0 <= sd_cd (u_c u') <= sd_cd (u_c u) -> sd_cd (u_c u) < 1 ->
  (forall i, (i < 8)%nat ->
     let t := cool_t i in
     0 < q_at Fl Bl t <= q_at B A t
     /\ 0 < p_at Fl' Bl' t <= p_at Fl Bl t /\ 0 < p_at B' A' t <= p_at B A t) ->
  exists v v', seer sol M u = Ok v /\ seer sol' M' u' = Ok v' /\ v <= v'
    /\ (sd_cd (u_c u') < sd_cd (u_c u) ->
        (exists i, (i < 8)%nat /\ cool_load (pt_q A) (cool_t i) < q_at Fl Bl (cool_t i)) ->
        v < v').
Proof. exact dominates_two. Qed.
Print Assumptions C86_two_stage_seer.

Example C86_two_stage_seer_nonvacuous : exists u w A B Bl Fl A' B' Bl' Fl',
  unit_of TWO_STAGE AHRI_210_240_2023 [10000; 7000] [9000; 6000] 4 4 u
  /\ unit_of TWO_STAGE AHRI_210_240_2023 [10000; 7000] [9000; 6000] 5 5 w
  /\ let u' := with_cd (1 / 8) w in
     u_staging u = TWO_STAGE /\ u_staging u' = TWO_STAGE /\ u_cycling u' = u_cycling u
     /\ cooling_tests lin_sol ConstantDXModel u A B Bl Fl /\ cooling_tests lin_sol ConstantDXModel u' A' B' Bl' Fl'
     /\ same_capacity A A' /\ same_capacity B B' /\ same_capacity Bl Bl' /\ same_capacity Fl Fl'
     /\ pt_t Bl <> pt_t Fl /\ pt_t A <> pt_t B /\ 0 < pt_q A
     /\ 0 <= sd_cd (u_c u') < sd_cd (u_c u) /\ sd_cd (u_c u) < 1
     /\ (forall i, (i < 8)%nat ->
          let t := cool_t i in
          0 < q_at Fl Bl t <= q_at B A t
          /\ 0 < p_at Fl' Bl' t < p_at Fl Bl t /\ 0 < p_at B' A' t < p_at B A t)
     /\ cool_load (pt_q A) (cool_t 0) < q_at Fl Bl (cool_t 0).
Proof. exact pair_seer_two. Qed.

Theorem C86_variable_speed_seer :
  forall (sol sol' : solvers R) (M M' : dxmodel R) (u u' : dxunit R) A B Bl Fl E A' B' Bl'
    Fl' E',
  u_staging u = VARIABLE_SPEED -> u_staging u' = VARIABLE_SPEED ->
  cooling_tests sol M u A B Bl Fl -> cooling_tests sol' M' u' A' B' Bl' Fl' ->
  cooling_test sol M u (rc_E_int (u_conds u)) E ->
  cooling_test sol' M' u' (rc_E_int (u_conds u')) E' ->
  same_capacity A A' -> same_capacity B B' -> same_capacity Bl Bl' -> same_capacity Fl Fl' ->
  same_capacity E E' ->
  pt_t Bl <> pt_t Fl -> pt_t A <> pt_t B -> 0 < pt_q A ->
  p_at B A (deg_F 87) <> p_at Fl Bl (deg_F 87) ->
  p_at B' A' (deg_F 87) <> p_at Fl' Bl' (deg_F 87) ->
  0 <= sd_cd (u_c u') <= sd_cd (u_c u) -> sd_cd (u_c u) < 1 ->
  (forall i, (i < 8)%nat ->
     let t := cool_t i in
     0 < q_at Fl Bl t <= q_int_cool A B Bl Fl E t
     /\ q_int_cool A B Bl Fl E t < q_at B A t
     /\ 0 < p_at Fl' Bl' t <= p_at Fl Bl t
     /\ 0 < p_int_cool A' B' Bl' Fl' E' t <= p_int_cool A B Bl Fl E t
     /\ 0 < p_at B' A' t <= p_at B A t) ->
  exists v v', seer sol M u = Ok v /\ seer sol' M' u' = Ok v' /\ v <= v'
    /\ (sd_cd (u_c u') < sd_cd (u_c u) ->
        (exists i, (i < 8)%nat /\ cool_load (pt_q A) (cool_t i) < q_at Fl Bl (cool_t i)) ->
        v < v').
Proof. exact dominates_variable. Qed.
Print Assumptions C86_variable_speed_seer.

Example C86_variable_speed_seer_nonvacuous : exists u w A B Bl Fl E A' B' Bl' Fl' E',
  unit_of VARIABLE_SPEED AHRI_210_240_2023 [10000; 7000; 4000] [9000; 6000; 3000] 4 4 u
  /\ unit_of VARIABLE_SPEED AHRI_210_240_2023 [10000; 7000; 4000] [9000; 6000; 3000] 5 5 w
  /\ let u' := with_cd (1 / 8) w in
     u_staging u = VARIABLE_SPEED /\ u_staging u' = VARIABLE_SPEED
     /\ cooling_tests lin_sol ConstantDXModel u A B Bl Fl /\ cooling_tests lin_sol ConstantDXModel u' A' B' Bl' Fl'
     /\ cooling_test lin_sol ConstantDXModel u (rc_E_int (u_conds u)) E
     /\ cooling_test lin_sol ConstantDXModel u' (rc_E_int (u_conds u')) E'
     /\ same_capacity A A' /\ same_capacity B B' /\ same_capacity Bl Bl' /\ same_capacity Fl Fl'
     /\ same_capacity E E'
     /\ pt_t Bl <> pt_t Fl /\ pt_t A <> pt_t B /\ 0 < pt_q A
     /\ p_at B A (deg_F 87) <> p_at Fl Bl (deg_F 87)
     /\ p_at B' A' (deg_F 87) <> p_at Fl' Bl' (deg_F 87)
     /\ 0 <= sd_cd (u_c u') < sd_cd (u_c u) /\ sd_cd (u_c u) < 1
     /\ (forall i, (i < 8)%nat ->
          let t := cool_t i in
          0 < q_at Fl Bl t <= q_int_cool A B Bl Fl E t
          /\ q_int_cool A B Bl Fl E t < q_at B A t
          /\ 0 < p_at Fl' Bl' t < p_at Fl Bl t
          /\ 0 < p_int_cool A' B' Bl' Fl' E' t < p_int_cool A B Bl Fl E t
          /\ 0 < p_at B' A' t < p_at B A t)
     /\ cool_load (pt_q A) (cool_t 0) < q_at Fl Bl (cool_t 0).
Proof. exact pair_seer_variable. Qed.

(** * HSPF *)

(** The second unit also cuts out and in at temperatures not above those of the first.  Its COP,
    degraded by cycling, is at least 1 in every bin: otherwise running the unit would cost more
    than resistance heat.  Building, climate and defrost credit are the same. *)
Theorem C86_single_stage_hspf :
  forall (sol sol' : solvers R) (M M' : dxmodel R) (u u' : dxunit R) region on on' d L
    credit H1 H2 H3 H1' H2' H3' lo hi lo' hi',
  u_staging u = SINGLE_STAGE -> u_staging u' = SINGLE_STAGE ->
  runs_as_often u u' on on' ->
  rated_in sol M u region d L credit -> rated_in sol' M' u' region d L credit ->
  0 < over 18 (fun i => hours_of d i * L (heat_t i)) -> 0 < credit ->
  single_tests sol M u H1 H2 H3 -> single_tests sol' M' u' H1' H2' H3' ->
  same_capacity H1 H1' -> same_capacity H2 H2' -> same_capacity H3 H3' ->
  pt_t H1 <> pt_t H3 -> pt_t H2 <> pt_t H3 ->
  0 < lo -> 1 <= (1 - sd_cd (u_h u')) * lo' ->
  (forall i, (i < 18)%nat ->
     let q := full_line q_at H1 H2 H3 (heat_t i) in
     let p := full_line p_at H1 H2 H3 (heat_t i) in
     let p' := full_line p_at H1' H2' H3' (heat_t i) in
     0 < q /\ 0 < p' <= p /\ lo <= q / p <= hi /\ lo' <= q / p' <= hi') ->
  exists v v', hspf sol M u region = Ok v /\ hspf sol' M' u' region = Ok v' /\ v <= v'.
Proof. exact dominates_hspf_single. Qed.
Print Assumptions C86_single_stage_hspf.

Example C86_single_stage_hspf_nonvacuous : exists u u' on on' d L credit H1 H2 H3 H1' H2' H3' lo hi lo' hi',
  unit_of SINGLE_STAGE AHRI_210_240_2023 [10000] [9000] 4 4 u
  /\ unit_of SINGLE_STAGE AHRI_210_240_2023 [10000] [9000] 4 5 u'
  /\ u_staging u = SINGLE_STAGE /\ u_staging u' = SINGLE_STAGE
  /\ runs_as_often u u' on on'
  /\ rated_in lin_sol ConstantDXModel u 4 d L credit /\ rated_in lin_sol ConstantDXModel u' 4 d L credit
  /\ 0 < over 18 (fun i => hours_of d i * L (heat_t i)) /\ 0 < credit
  /\ single_tests lin_sol ConstantDXModel u H1 H2 H3 /\ single_tests lin_sol ConstantDXModel u' H1' H2' H3'
  /\ same_capacity H1 H1' /\ same_capacity H2 H2' /\ same_capacity H3 H3'
  /\ pt_t H1 <> pt_t H3 /\ pt_t H2 <> pt_t H3
  /\ 0 < lo /\ 1 <= (1 - sd_cd (u_h u')) * lo'
  /\ (forall i, (i < 18)%nat ->
       let q := full_line q_at H1 H2 H3 (heat_t i) in
       let p := full_line p_at H1 H2 H3 (heat_t i) in
       let p' := full_line p_at H1' H2' H3' (heat_t i) in
       0 < q /\ 0 < p' < p /\ lo <= q / p <= hi /\ lo' <= q / p' <= hi').
Proof. exact pair_hspf_single. Qed.

(** Two stages, cycling between low and full, with the first bin within the low stage. *)
Theorem C86_two_stage_hspf :
  forall (sol sol' : solvers R) (M M' : dxmodel R) (u u' : dxunit R) region on on' d L
    credit s s' lo hi lo' hi',
  u_staging u = TWO_STAGE -> u_staging u' = TWO_STAGE ->
  u_cycling u = BETWEEN_LOW_FULL -> u_cycling u' = BETWEEN_LOW_FULL ->
  runs_as_often u u' on on' ->
  rated_in sol M u region d L credit -> rated_in sol' M' u' region d L credit ->
  0 < over 18 (fun i => hours_of d i * L (heat_t i)) -> 0 < credit ->
  two_stage_tests sol M u s -> two_stage_tests sol' M' u' s' -> same_stages s s' ->
  L (heat_t 0) <= low_of q_at s 0 ->
  0 < lo -> 1 <= (1 - sd_cd (u_h u')) * lo' -> stages_ok lo hi s -> stages_ok lo' hi' s' ->
  (forall i, (i < 18)%nat ->
     low_of p_at s' i <= low_of p_at s i /\ full_of p_at s' i <= full_of p_at s i) ->
  exists v v', hspf sol M u region = Ok v /\ hspf sol' M' u' region = Ok v' /\ v <= v'.
Proof. exact dominates_hspf_two. Qed.
Print Assumptions C86_two_stage_hspf.

Example C86_two_stage_hspf_nonvacuous : exists u u' on on' d L credit s s' lo hi lo' hi',
  unit_of TWO_STAGE AHRI_210_240_2023 [5000; 3500] [9000; 4000] 4 4 u
  /\ unit_of TWO_STAGE AHRI_210_240_2023 [5000; 3500] [9000; 4000] 4 5 u'
  /\ u_staging u = TWO_STAGE /\ u_staging u' = TWO_STAGE
  /\ u_cycling u = BETWEEN_LOW_FULL /\ u_cycling u' = BETWEEN_LOW_FULL
  /\ runs_as_often u u' on on'
  /\ rated_in lin_sol ConstantDXModel u 4 d L credit /\ rated_in lin_sol ConstantDXModel u' 4 d L credit
  /\ 0 < over 18 (fun i => hours_of d i * L (heat_t i)) /\ 0 < credit
  /\ two_stage_tests lin_sol ConstantDXModel u s /\ two_stage_tests lin_sol ConstantDXModel u' s' /\ same_stages s s'
  /\ L (heat_t 0) <= low_of q_at s 0
  /\ 0 < lo /\ 1 <= (1 - sd_cd (u_h u')) * lo' /\ stages_ok lo hi s /\ stages_ok lo' hi' s'
  /\ (forall i, (i < 18)%nat ->
       low_of p_at s' i < low_of p_at s i /\ full_of p_at s' i < full_of p_at s i).
Proof. exact pair_hspf_two. Qed.

(** Variable speed, when the capacity the code uses in overloaded bins is at most the load. *)
Theorem C86_variable_speed_hspf :
  forall (sol sol' : solvers R) (M M' : dxmodel R) (u u' : dxunit R) region on on' d L
    credit H0l H1l H2i H1 H2 H3 H4 H0l' H1l' H2i' H1' H2' H3' H4' lo hi lo' hi',
  u_staging u = VARIABLE_SPEED -> u_staging u' = VARIABLE_SPEED ->
  runs_as_often u u' on on' ->
  rated_in sol M u region d L credit -> rated_in sol' M' u' region d L credit ->
  0 < over 18 (fun i => hours_of d i * L (heat_t i)) -> 0 < credit ->
  variable_tests sol M u H0l H1l H2i H1 H2 H3 H4 ->
  variable_tests sol' M' u' H0l' H1l' H2i' H1' H2' H3' H4' ->
  same_capacity H0l H0l' -> same_capacity H1l H1l' -> same_capacity H2i H2i' ->
  same_capacity H1 H1' -> same_capacity H2 H2' -> same_capacity H3 H3' ->
  same_capacity H4 H4' ->
  0 < lo -> 1 <= (1 - sd_cd (u_h u')) * lo' ->
  speeds_ok lo hi H0l H1l H2i H1 H2 H3 H4 ->
  speeds_ok lo' hi' H0l' H1l' H2i' H1' H2' H3' H4' ->
  (forall i, (i < 18)%nat ->
     let t := heat_t i in
     p_at H0l' H1l' t <= p_at H0l H1l t
     /\ p_int_heat H0l' H1l' H2i' H2' H3' t <= p_int_heat H0l H1l H2i H2 H3 t
     /\ full_line p_at H1' H2' H3' t <= full_line p_at H1 H2 H3 t
     /\ (full_line q_at H1 H2 H3 t <= L t ->
         0 < p_at H4' H3' t <= p_at H4 H3 t /\ q_at H4 H3 t <= L t
         /\ lo <= q_at H4 H3 t / p_at H4 H3 t <= hi
         /\ lo' <= q_at H4 H3 t / p_at H4' H3' t <= hi')) ->
  exists v v', hspf sol M u region = Ok v /\ hspf sol' M' u' region = Ok v' /\ v <= v'.
Proof. exact dominates_hspf_variable. Qed.
Print Assumptions C86_variable_speed_hspf.

Example C86_variable_speed_hspf_nonvacuous : exists u u' on on' d L credit
    H0l H1l H2i H1 H2 H3 H4 H0l' H1l' H2i' H1' H2' H3' H4' lo hi lo' hi',
  unit_of VARIABLE_SPEED AHRI_210_240_2023 [10000; 7000; 4000] [9000; 6000; 3000] 4 4 u
  /\ unit_of VARIABLE_SPEED AHRI_210_240_2023 [10000; 7000; 4000] [9000; 6000; 3000] 4 5 u'
  /\ u_staging u = VARIABLE_SPEED /\ u_staging u' = VARIABLE_SPEED
  /\ runs_as_often u u' on on'
  /\ rated_in lin_sol ConstantDXModel u 4 d L credit /\ rated_in lin_sol ConstantDXModel u' 4 d L credit
  /\ 0 < over 18 (fun i => hours_of d i * L (heat_t i)) /\ 0 < credit
  /\ variable_tests lin_sol ConstantDXModel u H0l H1l H2i H1 H2 H3 H4
  /\ variable_tests lin_sol ConstantDXModel u' H0l' H1l' H2i' H1' H2' H3' H4'
  /\ same_capacity H0l H0l' /\ same_capacity H1l H1l' /\ same_capacity H2i H2i'
  /\ same_capacity H1 H1' /\ same_capacity H2 H2' /\ same_capacity H3 H3'
  /\ same_capacity H4 H4'
  /\ 0 < lo /\ 1 <= (1 - sd_cd (u_h u')) * lo'
  /\ speeds_ok lo hi H0l H1l H2i H1 H2 H3 H4
  /\ speeds_ok lo' hi' H0l' H1l' H2i' H1' H2' H3' H4'
  /\ (forall i, (i < 18)%nat ->
       let t := heat_t i in
       p_at H0l' H1l' t < p_at H0l H1l t
       /\ p_int_heat H0l' H1l' H2i' H2' H3' t < p_int_heat H0l H1l H2i H2 H3 t
       /\ full_line p_at H1' H2' H3' t < full_line p_at H1 H2 H3 t
       /\ (full_line q_at H1 H2 H3 t <= L t ->
           0 < p_at H4' H3' t < p_at H4 H3 t /\ q_at H4 H3 t <= L t
           /\ lo <= q_at H4 H3 t / p_at H4 H3 t <= hi
           /\ lo' <= q_at H4 H3 t / p_at H4' H3' t <= hi')).
Proof. exact pair_hspf_variable. Qed.
