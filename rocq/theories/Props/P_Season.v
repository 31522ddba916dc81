(** Properties C43-C47 and C58: the seasonal ratings SEER and HSPF (dx_unit.py). *)
From Coq Require Import Reals List String.
From Verif.Base Require Import Num Res.
From Verif.Model Require Import Units Psychrometrics Conditions Defrost Fan Unit BaseModel DXUnit.
From Verif.Spec Require Import UtilSpec UnitSpec SeasonSpec CompareSpec CyclingSpec.
From Verif.Proofs Require Import SeerProofs ScaleProofs HspfProofs HspfProofs2 HspfProofs3
  ToyBuild ToyBuild2 ToySeason ToySeason2 ToySeason3 Resistance.
Import ListNotations.
Local Open Scope R_scope.

(** In the examples [unit_of st std qc qh gc gh u] says that the constructor returns [u] for
    the staging type, the standard, the net capacities in cooling and heating and the gross
    COPs in cooling and heating. *)

(** * C43 *)

(** SEER is (1 - Cd/2) times the net COP at the B condition. *)
Theorem C43_single_stage_seer :
  forall (sol : solvers R) (M : dxmodel R) (u : dxunit R) c cop,
  u_staging u = SINGLE_STAGE -> rc_B_full (u_conds u) = Some c ->
  net_total_cooling_cop sol M u (Some c) = Ok cop ->
  seer sol M u = Ok (Btu_Wh ((1 - sd_cd (u_c u) / 2) * cop)).
Proof. exact seer_single. Qed.
Print Assumptions C43_single_stage_seer.

(** Nothing else enters: whenever seer() returns, this is what it returns. *)
Theorem C43_single_stage_seer_only :
  forall (sol : solvers R) (M : dxmodel R) (u : dxunit R) v,
  u_staging u = SINGLE_STAGE -> seer sol M u = Ok v ->
  exists c cop, rc_B_full (u_conds u) = Some c
    /\ net_total_cooling_cop sol M u (Some c) = Ok cop
    /\ v = Btu_Wh ((1 - sd_cd (u_c u) / 2) * cop).
Proof. exact seer_single_inv. Qed.
Print Assumptions C43_single_stage_seer_only.

(** So it is at most the COP and at least half of it. *)
Theorem C43_single_stage_seer_bounds :
  forall (sol : solvers R) (M : dxmodel R) (u : dxunit R) c cop v,
  u_staging u = SINGLE_STAGE -> rc_B_full (u_conds u) = Some c ->
  net_total_cooling_cop sol M u (Some c) = Ok cop ->
  0 <= cop -> 0 <= sd_cd (u_c u) <= 1 -> seer sol M u = Ok v ->
  Btu_Wh (cop / 2) <= v <= Btu_Wh cop.
Proof. exact seer_single_bounds. Qed.
Print Assumptions C43_single_stage_seer_bounds.

Example C43_nonvacuous : exists u c cop v,
  unit_of SINGLE_STAGE AHRI_210_240_2023 [10000] [9000] 4 4 u
  /\ u_staging u = SINGLE_STAGE /\ rc_B_full (u_conds u) = Some c
  /\ net_total_cooling_cop lin_sol ConstantDXModel u (Some c) = Ok cop /\ 0 < cop
  /\ 0 < sd_cd (u_c u) <= 1 /\ seer lin_sol ConstantDXModel u = Ok v.
Proof. exact toy_seer_single. Qed.

(** * C44 *)

(** What seer() returns: cooling served over energy used in the eight bins, from the four
    rating tests. *)
Theorem C44_two_stage_seer :
  forall (sol : solvers R) (M : dxmodel R) (u : dxunit R) v,
  u_staging u = TWO_STAGE -> seer sol M u = Ok v ->
  exists A B Bl Fl,
    cooling_test sol M u (rc_A_full (u_conds u)) A
    /\ cooling_test sol M u (rc_B_full (u_conds u)) B
    /\ cooling_test sol M u (rc_B_low (u_conds u)) Bl
    /\ cooling_test sol M u (rc_F_low (u_conds u)) Fl
    /\ v = Btu_Wh (over 8 (fun i => cool_hours i * two_served A B Bl Fl i)
                   / over 8 (fun i => cool_hours i
                               * two_energy (u_cycling u) (sd_cd (u_c u)) A B Bl Fl i)).
Proof. exact seer_two. Qed.
Print Assumptions C44_two_stage_seer.

(** For a sensible unit seer() succeeds, serves min(load, full capacity) in every bin, uses
    energy in every bin, and lies between the smallest degraded and the largest COP. *)
Theorem C44_two_stage_seer_bounds :
  forall (sol : solvers R) (M : dxmodel R) (u : dxunit R) A B Bl Fl lo hi,
  u_staging u = TWO_STAGE ->
  cooling_test sol M u (rc_A_full (u_conds u)) A ->
  cooling_test sol M u (rc_B_full (u_conds u)) B ->
  cooling_test sol M u (rc_B_low (u_conds u)) Bl ->
  cooling_test sol M u (rc_F_low (u_conds u)) Fl ->
  pt_t Bl <> pt_t Fl -> pt_t A <> pt_t B ->
  0 <= sd_cd (u_c u) < 1 -> 0 < pt_q A -> 0 < lo ->
  (forall i, (i < 8)%nat ->
     let t := cool_t i in
     0 < q_at Fl Bl t <= q_at B A t /\ 0 < p_at Fl Bl t /\ 0 < p_at B A t
     /\ lo <= q_at Fl Bl t / p_at Fl Bl t <= hi
     /\ lo <= q_at B A t / p_at B A t <= hi) ->
  let E := two_energy (u_cycling u) (sd_cd (u_c u)) A B Bl Fl in
  exists v,
    seer sol M u = Ok v
    /\ (forall i, (i < 8)%nat -> 0 < E i)
    /\ v = Btu_Wh (over 8 (fun i => cool_hours i
                              * Rmin (cool_load (pt_q A) (cool_t i)) (q_at B A (cool_t i)))
                   / over 8 (fun i => cool_hours i * E i))
    /\ Btu_Wh ((1 - sd_cd (u_c u)) * lo) <= v <= Btu_Wh hi.
Proof. exact seer_two_bounds. Qed.
Print Assumptions C44_two_stage_seer_bounds.

Example C44_two_stage_nonvacuous : exists u A B Bl Fl lo hi,
  unit_of TWO_STAGE AHRI_210_240_2023 [10000; 7000] [9000; 6000] 4 4 u
  /\ u_staging u = TWO_STAGE
  /\ cooling_test lin_sol ConstantDXModel u (rc_A_full (u_conds u)) A
  /\ cooling_test lin_sol ConstantDXModel u (rc_B_full (u_conds u)) B
  /\ cooling_test lin_sol ConstantDXModel u (rc_B_low (u_conds u)) Bl
  /\ cooling_test lin_sol ConstantDXModel u (rc_F_low (u_conds u)) Fl
  /\ pt_t Bl <> pt_t Fl /\ pt_t A <> pt_t B
  /\ 0 <= sd_cd (u_c u) < 1 /\ 0 < pt_q A /\ 0 < lo
  /\ (forall i, (i < 8)%nat ->
       let t := cool_t i in
       0 < q_at Fl Bl t <= q_at B A t /\ 0 < p_at Fl Bl t /\ 0 < p_at B A t
       /\ lo <= q_at Fl Bl t / p_at Fl Bl t <= hi
       /\ lo <= q_at B A t / p_at B A t <= hi).
Proof. exact toy_seer_two. Qed.

(** The same for variable speed. *)
Theorem C44_variable_speed_seer :
  forall (sol : solvers R) (M : dxmodel R) (u : dxunit R) v,
  u_staging u = VARIABLE_SPEED -> seer sol M u = Ok v ->
  exists A B Bl Fl E,
    cooling_test sol M u (rc_A_full (u_conds u)) A
    /\ cooling_test sol M u (rc_B_full (u_conds u)) B
    /\ cooling_test sol M u (rc_B_low (u_conds u)) Bl
    /\ cooling_test sol M u (rc_F_low (u_conds u)) Fl
    /\ cooling_test sol M u (rc_E_int (u_conds u)) E
    /\ v = Btu_Wh (over 8 (fun i => cool_hours i * var_served A B Bl Fl E i)
                   / over 8 (fun i => cool_hours i
                               * var_energy (sd_cd (u_c u)) A B Bl Fl E i)).
Proof. exact seer_variable. Qed.
Print Assumptions C44_variable_speed_seer.

(** The ordering low <= intermediate < full of the capacities is assumed. *)
Theorem C44_variable_speed_seer_bounds :
  forall (sol : solvers R) (M : dxmodel R) (u : dxunit R) A B Bl Fl E lo hi,
  u_staging u = VARIABLE_SPEED ->
  cooling_test sol M u (rc_A_full (u_conds u)) A ->
  cooling_test sol M u (rc_B_full (u_conds u)) B ->
  cooling_test sol M u (rc_B_low (u_conds u)) Bl ->
  cooling_test sol M u (rc_F_low (u_conds u)) Fl ->
  cooling_test sol M u (rc_E_int (u_conds u)) E ->
  pt_t Bl <> pt_t Fl -> pt_t A <> pt_t B ->
  p_at B A (deg_F 87) <> p_at Fl Bl (deg_F 87) ->
  0 <= sd_cd (u_c u) < 1 -> 0 < pt_q A -> 0 < lo ->
  (forall i, (i < 8)%nat ->
     let t := cool_t i in
     let ql := q_at Fl Bl t in let pl := p_at Fl Bl t in
     let qi := q_int_cool A B Bl Fl E t in let pi := p_int_cool A B Bl Fl E t in
     let qf := q_at B A t in let pf := p_at B A t in
     0 < ql <= qi /\ qi < qf /\ 0 < pl /\ 0 < pi /\ 0 < pf
     /\ lo <= ql / pl <= hi /\ lo <= qi / pi <= hi /\ lo <= qf / pf <= hi) ->
  let En := var_energy (sd_cd (u_c u)) A B Bl Fl E in
  exists v,
    seer sol M u = Ok v
    /\ (forall i, (i < 8)%nat -> 0 < En i)
    /\ v = Btu_Wh (over 8 (fun i => cool_hours i
                              * Rmin (cool_load (pt_q A) (cool_t i)) (q_at B A (cool_t i)))
                   / over 8 (fun i => cool_hours i * En i))
    /\ Btu_Wh ((1 - sd_cd (u_c u)) * lo) <= v <= Btu_Wh hi.
Proof. exact seer_variable_bounds. Qed.
Print Assumptions C44_variable_speed_seer_bounds.

Example C44_variable_speed_nonvacuous : exists u A B Bl Fl E lo hi,
  unit_of VARIABLE_SPEED AHRI_210_240_2023 [10000; 7000; 4000] [9000; 6000; 3000] 4 4 u
  /\ u_staging u = VARIABLE_SPEED
  /\ cooling_test lin_sol ConstantDXModel u (rc_A_full (u_conds u)) A
  /\ cooling_test lin_sol ConstantDXModel u (rc_B_full (u_conds u)) B
  /\ cooling_test lin_sol ConstantDXModel u (rc_B_low (u_conds u)) Bl
  /\ cooling_test lin_sol ConstantDXModel u (rc_F_low (u_conds u)) Fl
  /\ cooling_test lin_sol ConstantDXModel u (rc_E_int (u_conds u)) E
  /\ pt_t Bl <> pt_t Fl /\ pt_t A <> pt_t B
  /\ p_at B A (deg_F 87) <> p_at Fl Bl (deg_F 87)
  /\ 0 <= sd_cd (u_c u) < 1 /\ 0 < pt_q A /\ 0 < lo
  /\ (forall i, (i < 8)%nat ->
       let t := cool_t i in
       let ql := q_at Fl Bl t in let pl := p_at Fl Bl t in
       let qi := q_int_cool A B Bl Fl E t in let pi := p_int_cool A B Bl Fl E t in
       let qf := q_at B A t in let pf := p_at B A t in
       0 < ql <= qi /\ qi < qf /\ 0 < pl /\ 0 < pi /\ 0 < pf
       /\ lo <= ql / pl <= hi /\ lo <= qi / pi <= hi /\ lo <= qf / pf <= hi).
Proof. exact toy_seer_variable. Qed.

(** * C45 *)

(** Same SEER (or the same exception) for a unit with [k] times every capacity and power. *)
Theorem C45_seer_scale : forall k (sol sol' : solvers R) (M M' : dxmodel R) (u u' : dxunit R),
  0 < k ->
  u_staging u' = u_staging u -> u_cycling u' = u_cycling u ->
  sd_cd (u_c u') = sd_cd (u_c u) ->
  scaled_cooling k sol M u sol' M' u' ->
  seer sol' M' u' = seer sol M u.
Proof. exact seer_scale. Qed.
Print Assumptions C45_seer_scale.

(** Under the 2023 standard, the same HSPF in every region. *)
Theorem C45_hspf_scale : forall k (sol sol' : solvers R) (M M' : dxmodel R) (u u' : dxunit R),
  0 < k ->
  u_staging u' = u_staging u -> u_cycling u' = u_cycling u ->
  sd_cd (u_h u') = sd_cd (u_h u) ->
  u_heating_off u' = u_heating_off u -> u_heating_on u' = u_heating_on u ->
  forall region,
  u_standard u = AHRI_210_240_2023 -> u_standard u' = AHRI_210_240_2023 ->
  demand_credit (u_defrost u') = demand_credit (u_defrost u) ->
  scaled_test k (net_total_cooling_capacity sol M) (net_cooling_power sol M)
    (net_total_cooling_capacity sol' M') (net_cooling_power sol' M') u u' rc_A_full ->
  scaled_heating k sol M u sol' M' u' ->
  hspf sol' M' u' region = hspf sol M u region.
Proof. exact hspf_scale. Qed.
Print Assumptions C45_hspf_scale.

Example C45_nonvacuous : exists u u',
  unit_of VARIABLE_SPEED AHRI_210_240_2023 [10000; 7000; 4000] [9000; 6000; 3000] 4 4 u
  /\ unit_of VARIABLE_SPEED AHRI_210_240_2023 [5000; 3500; 2000] [4500; 3000; 1500] 4 4 u'
  /\ u_staging u' = u_staging u /\ u_cycling u' = u_cycling u
  /\ sd_cd (u_c u') = sd_cd (u_c u) /\ sd_cd (u_h u') = sd_cd (u_h u)
  /\ u_heating_off u' = u_heating_off u /\ u_heating_on u' = u_heating_on u
  /\ u_standard u = AHRI_210_240_2023 /\ u_standard u' = AHRI_210_240_2023
  /\ demand_credit (u_defrost u') = demand_credit (u_defrost u)
  /\ scaled_test (1 / 2) (net_total_cooling_capacity lin_sol ConstantDXModel)
      (net_cooling_power lin_sol ConstantDXModel)
      (net_total_cooling_capacity lin_sol ConstantDXModel)
      (net_cooling_power lin_sol ConstantDXModel) u u' rc_A_full
  /\ scaled_cooling (1 / 2) lin_sol ConstantDXModel u lin_sol ConstantDXModel u'
  /\ scaled_heating (1 / 2) lin_sol ConstantDXModel u lin_sol ConstantDXModel u'.
Proof. exact toy_scale. Qed.

(** Not so under the 2017 standard: a unit of 10 W and one of 1 W. *)
Theorem C45_hspf_2017_refuted :
  exists u u' v v',
  unit_of SINGLE_STAGE AHRI_210_240_2017 [10] [10] 4 4 u
  /\ unit_of SINGLE_STAGE AHRI_210_240_2017 [1] [1] 4 4 u'
  /\ u_standard u = AHRI_210_240_2017 /\ u_standard u' = AHRI_210_240_2017
  /\ u_staging u' = u_staging u /\ u_cycling u' = u_cycling u
  /\ sd_cd (u_h u') = sd_cd (u_h u)
  /\ u_heating_off u' = u_heating_off u /\ u_heating_on u' = u_heating_on u
  /\ demand_credit (u_defrost u') = demand_credit (u_defrost u)
  /\ scaled_cooling (1 / 10) lin_sol ConstantDXModel u lin_sol ConstantDXModel u'
  /\ scaled_heating (1 / 10) lin_sol ConstantDXModel u lin_sol ConstantDXModel u'
  /\ hspf lin_sol ConstantDXModel u 4 = Ok v /\ hspf lin_sol ConstantDXModel u' 4 = Ok v' /\ v <> v'.
Proof. exact toy_2017_differ. Qed.
Print Assumptions C45_hspf_2017_refuted.

(** * C46 *)

(** Compressor heat and resistance heat make up the load in every bin; resistance heat is
    not negative. *)
Theorem C46_single_stage_heat_balance :
  forall (sol : solvers R) (M : dxmodel R) (u : dxunit R) region on v,
  u_staging u = SINGLE_STAGE -> u_heating_on u = Some on -> hspf sol M u region = Ok v ->
  exists d H1 H2 H3 L credit,
    climate u region = Ok d
    /\ heating_test sol M u (rc_H1_full (u_conds u)) H1
    /\ frost_test sol M u (rc_H2_full (u_conds u)) H2
    /\ heating_test sol M u (rc_H3_full (u_conds u)) H3
    /\ heat_load sol M u d L
    /\ demand_credit (u_defrost u) = Ok credit
    /\ v = seasonal_heating (hours_of d) (fun i => L (heat_t i))
             (single_energy (u_heating_off u) on (sd_cd (u_h u)) L H1 H2 H3)
             (single_resistance (u_heating_off u) on L H1 H2 H3) credit
    /\ forall i, (i < 18)%nat ->
         single_heat (u_heating_off u) on L H1 H2 H3 i
           + single_resistance (u_heating_off u) on L H1 H2 H3 i = L (heat_t i)
         /\ 0 <= single_resistance (u_heating_off u) on L H1 H2 H3 i.
Proof. exact single_balance. Qed.
Print Assumptions C46_single_stage_heat_balance.

Example C46_nonvacuous : exists u on v,
  unit_of SINGLE_STAGE AHRI_210_240_2023 [10000] [9000] 4 4 u
  /\ u_staging u = SINGLE_STAGE /\ u_heating_on u = Some on
  /\ hspf lin_sol ConstantDXModel u 4 = Ok v /\ heat_t 14 <= u_heating_off u.
Proof. exact toy_single_runs. Qed.

(** For variable speed the resistance heat can be negative: a unit that loses a fifth of its
    capacity to frost, in the 22 F bin. *)
Theorem C46_variable_speed_negative_resistance_refuted :
  exists u on d H0l H1l H2i H1 H2 H3 H4 L credit v,
    DXUnit lin_psy lin_sol FrostModel
      (toy_args VARIABLE_SPEED AHRI_210_240_2023 [10000; 7000; 4000] [7300; 6000; 3000] 4 4) = Ok u
    /\ u_staging u = VARIABLE_SPEED /\ u_heating_on u = Some on
    /\ climate u 4 = Ok d
    /\ heating_test lin_sol FrostModel u (rc_H0_low (u_conds u)) H0l
    /\ heating_test lin_sol FrostModel u (rc_H1_low (u_conds u)) H1l
    /\ frost_test lin_sol FrostModel u (rc_H2_int (u_conds u)) H2i
    /\ heating_test lin_sol FrostModel u (rc_H1_full (u_conds u)) H1
    /\ frost_test lin_sol FrostModel u (rc_H2_full (u_conds u)) H2
    /\ heating_test lin_sol FrostModel u (rc_H3_full (u_conds u)) H3
    /\ heating_test lin_sol FrostModel u (rc_H4_full (u_conds u)) H4
    /\ heat_load lin_sol FrostModel u d L
    /\ demand_credit (u_defrost u) = Ok credit
    /\ hspf lin_sol FrostModel u 4 = Ok v
    /\ let bin := variable_bin (u_heating_off u) on (sd_cd (u_h u)) L
                    H0l H1l H2i H1 H2 H3 H4 in
       v = seasonal_heating (hours_of d) (fun i => L (heat_t i))
             (fun i => fst (bin i)) (fun i => snd (bin i)) credit
       /\ 0 < hours_of d 8 /\ snd (bin 8%nat) < 0.
Proof. exact negative_resistance. Qed.
Print Assumptions C46_variable_speed_negative_resistance_refuted.

(** Two stages: what the compressor does not deliver comes from the resistance heater, in every
    bin and never negative. *)
Theorem C46_two_stage_heat_balance :
  forall (sol : solvers R) (M : dxmodel R) (u : dxunit R) region on v,
  u_staging u = TWO_STAGE -> u_heating_on u = Some on -> hspf sol M u region = Ok v ->
  exists d s L credit,
    climate u region = Ok d /\ two_stage_tests sol M u s /\ heat_load sol M u d L
    /\ demand_credit (u_defrost u) = Ok credit
    /\ let bin := two_stage_bin (u_cycling u) (u_heating_off u) on (sd_cd (u_h u)) L s in
       v = seasonal_heating (hours_of d) (fun i => L (heat_t i))
             (fun i => fst (bin i)) (fun i => snd (bin i)) credit
    /\ forall i, (i < 18)%nat ->
         two_stage_delivered (u_heating_off u) on L s i + snd (bin i) = L (heat_t i)
         /\ 0 <= snd (bin i).
Proof. exact two_balance. Qed.
Print Assumptions C46_two_stage_heat_balance.

(** Variable speed: likewise, but negative only where the load is at least the full-speed
    capacity and below the line through the H4 and H3 tests. *)
Theorem C46_variable_speed_heat_balance :
  forall (sol : solvers R) (M : dxmodel R) (u : dxunit R) region on v,
  u_staging u = VARIABLE_SPEED -> u_heating_on u = Some on -> hspf sol M u region = Ok v ->
  exists d H0l H1l H2i H1 H2 H3 H4 L credit,
    climate u region = Ok d /\ variable_tests sol M u H0l H1l H2i H1 H2 H3 H4
    /\ heat_load sol M u d L /\ demand_credit (u_defrost u) = Ok credit
    /\ let bin := variable_bin (u_heating_off u) on (sd_cd (u_h u)) L H0l H1l H2i H1 H2 H3 H4 in
       v = seasonal_heating (hours_of d) (fun i => L (heat_t i))
             (fun i => fst (bin i)) (fun i => snd (bin i)) credit
    /\ forall i, (i < 18)%nat ->
         variable_delivered (u_heating_off u) on L H0l H1l H2i H1 H2 H3 H4 i + snd (bin i)
           = L (heat_t i)
         /\ (snd (bin i) < 0 ->
             full_line q_at H1 H2 H3 (heat_t i) <= L (heat_t i) < q_at H4 H3 (heat_t i)).
Proof. exact variable_balance. Qed.
Print Assumptions C46_variable_speed_heat_balance.

Example C46_variable_speed_nonvacuous : exists u on v,
  unit_of VARIABLE_SPEED AHRI_210_240_2023 [10000; 7000; 4000] [9000; 6000; 3000] 4 4 u
  /\ u_staging u = VARIABLE_SPEED /\ u_heating_on u = Some on
  /\ hspf lin_sol ConstantDXModel u 4 = Ok v /\ heat_t 17 <= u_heating_off u.
Proof. exact toy_variable_runs. Qed.
Example C46_two_stage_nonvacuous : exists u on v,
  unit_of TWO_STAGE AHRI_210_240_2023 [5000; 3500] [9000; 4000] 4 4 u
  /\ u_staging u = TWO_STAGE /\ u_heating_on u = Some on
  /\ hspf lin_sol ConstantDXModel u 4 = Ok v /\ heat_t 13 <= u_heating_off u.
Proof.
  destruct two_stage_runs_below_cut_out as (u & on & d & s & L & cr & v & H).
  exists u, on, v. cbv zeta in H. tauto.
Qed.

(** * C47 *)

(** Below the cut-out temperature, or with a COP below 1, no energy and only resistance heat. *)
Theorem C47_single_stage_cut_out :
  forall (sol : solvers R) (M : dxmodel R) (u : dxunit R) region on v,
  u_staging u = SINGLE_STAGE -> u_heating_on u = Some on -> hspf sol M u region = Ok v ->
  exists d H1 H2 H3 L credit,
    climate u region = Ok d
    /\ heating_test sol M u (rc_H1_full (u_conds u)) H1
    /\ frost_test sol M u (rc_H2_full (u_conds u)) H2
    /\ heating_test sol M u (rc_H3_full (u_conds u)) H3
    /\ heat_load sol M u d L
    /\ demand_credit (u_defrost u) = Ok credit
    /\ let E := single_energy (u_heating_off u) on (sd_cd (u_h u)) L H1 H2 H3 in
       let RH := single_resistance (u_heating_off u) on L H1 H2 H3 in
       v = seasonal_heating (hours_of d) (fun i => L (heat_t i)) E RH credit
    /\ forall i, (i < 18)%nat ->
         heat_t i <= u_heating_off u
         \/ full_line q_at H1 H2 H3 (heat_t i) / full_line p_at H1 H2 H3 (heat_t i) < 1 ->
         E i = 0 /\ RH i = L (heat_t i).
Proof. exact single_cut. Qed.
Print Assumptions C47_single_stage_cut_out.

Example C47_single_stage_nonvacuous : exists u on v,
  unit_of SINGLE_STAGE AHRI_210_240_2023 [10000] [9000] 4 4 u
  /\ u_staging u = SINGLE_STAGE /\ u_heating_on u = Some on
  /\ hspf lin_sol ConstantDXModel u 4 = Ok v /\ heat_t 14 <= u_heating_off u.
Proof. exact toy_single_runs. Qed.

(** The same for variable speed. *)
Theorem C47_variable_speed_cut_out :
  forall (sol : solvers R) (M : dxmodel R) (u : dxunit R) region on v,
  u_staging u = VARIABLE_SPEED -> u_heating_on u = Some on ->
  hspf sol M u region = Ok v ->
  exists d H0l H1l H2i H1 H2 H3 H4 L credit,
    climate u region = Ok d
    /\ heating_test sol M u (rc_H0_low (u_conds u)) H0l
    /\ heating_test sol M u (rc_H1_low (u_conds u)) H1l
    /\ frost_test sol M u (rc_H2_int (u_conds u)) H2i
    /\ heating_test sol M u (rc_H1_full (u_conds u)) H1
    /\ frost_test sol M u (rc_H2_full (u_conds u)) H2
    /\ heating_test sol M u (rc_H3_full (u_conds u)) H3
    /\ heating_test sol M u (rc_H4_full (u_conds u)) H4
    /\ heat_load sol M u d L
    /\ demand_credit (u_defrost u) = Ok credit
    /\ let bin := variable_bin (u_heating_off u) on (sd_cd (u_h u)) L
                    H0l H1l H2i H1 H2 H3 H4 in
       v = seasonal_heating (hours_of d) (fun i => L (heat_t i))
             (fun i => fst (bin i)) (fun i => snd (bin i)) credit
    /\ forall i, (i < 18)%nat ->
         heat_t i <= u_heating_off u \/ variable_cop L H0l H1l H2i H1 H2 H3 i < 1 ->
         bin i = (0, L (heat_t i)).
Proof. exact variable_cuts. Qed.
Print Assumptions C47_variable_speed_cut_out.

Example C47_variable_speed_nonvacuous : exists u on v,
  unit_of VARIABLE_SPEED AHRI_210_240_2023 [10000; 7000; 4000] [9000; 6000; 3000] 4 4 u
  /\ u_staging u = VARIABLE_SPEED /\ u_heating_on u = Some on
  /\ hspf lin_sol ConstantDXModel u 4 = Ok v /\ heat_t 17 <= u_heating_off u.
Proof. exact toy_variable_runs. Qed.

(** A two-stage unit obeys the cut-out in the bins whose load the low stage can carry or the
    full stage cannot.  In the other bins the factor of an earlier bin is used. *)
Theorem C47_two_stage_cut_out :
  forall (sol : solvers R) (M : dxmodel R) (u : dxunit R) region on v,
  u_staging u = TWO_STAGE -> u_heating_on u = Some on ->
  hspf sol M u region = Ok v ->
  exists d s L credit,
    climate u region = Ok d
    /\ heating_test sol M u (rc_H0_low (u_conds u)) (s_H0l s)
    /\ heating_test sol M u (rc_H1_low (u_conds u)) (s_H1l s)
    /\ frost_test sol M u (rc_H2_low (u_conds u)) (s_H2l s)
    /\ heating_test sol M u (rc_H3_low (u_conds u)) (s_H3l s)
    /\ heating_test sol M u (rc_H1_full (u_conds u)) (s_H1 s)
    /\ frost_test sol M u (rc_H2_full (u_conds u)) (s_H2 s)
    /\ heating_test sol M u (rc_H3_full (u_conds u)) (s_H3 s)
    /\ heat_load sol M u d L
    /\ demand_credit (u_defrost u) = Ok credit
    /\ let bin := two_stage_bin (u_cycling u) (u_heating_off u) on (sd_cd (u_h u)) L s in
       v = seasonal_heating (hours_of d) (fun i => L (heat_t i))
             (fun i => fst (bin i)) (fun i => snd (bin i)) credit
    /\ (forall i, (i < 18)%nat -> heat_t i <= u_heating_off u ->
          L (heat_t i) <= low_of q_at s i \/ full_of q_at s i <= L (heat_t i) ->
          bin i = (0, L (heat_t i)))
    /\ forall i, (i < 18)%nat ->
         low_of q_at s i < L (heat_t i) < full_of q_at s i ->
         carried (u_heating_off u) on L s i <> None.
Proof. exact two_cuts. Qed.
Print Assumptions C47_two_stage_cut_out.

(** In those other bins the compressor can run below the cut-out temperature. *)
Theorem C47_two_stage_cut_out_refuted :
  exists u on d s L credit v,
    unit_of TWO_STAGE AHRI_210_240_2023 [5000; 3500] [9000; 4000] 4 4 u
    /\ u_staging u = TWO_STAGE /\ u_heating_on u = Some on
    /\ climate u 4 = Ok d
    /\ heating_test lin_sol ConstantDXModel u (rc_H0_low (u_conds u)) (s_H0l s)
    /\ heating_test lin_sol ConstantDXModel u (rc_H1_low (u_conds u)) (s_H1l s)
    /\ frost_test lin_sol ConstantDXModel u (rc_H2_low (u_conds u)) (s_H2l s)
    /\ heating_test lin_sol ConstantDXModel u (rc_H3_low (u_conds u)) (s_H3l s)
    /\ heating_test lin_sol ConstantDXModel u (rc_H1_full (u_conds u)) (s_H1 s)
    /\ frost_test lin_sol ConstantDXModel u (rc_H2_full (u_conds u)) (s_H2 s)
    /\ heating_test lin_sol ConstantDXModel u (rc_H3_full (u_conds u)) (s_H3 s)
    /\ heat_load lin_sol ConstantDXModel u d L
    /\ demand_credit (u_defrost u) = Ok credit
    /\ hspf lin_sol ConstantDXModel u 4 = Ok v
    /\ let bin := two_stage_bin (u_cycling u) (u_heating_off u) on (sd_cd (u_h u)) L s in
       v = seasonal_heating (hours_of d) (fun i => L (heat_t i))
             (fun i => fst (bin i)) (fun i => snd (bin i)) credit
       /\ heat_t 13 <= u_heating_off u /\ 0 < hours_of d 13
       /\ 0 < fst (bin 13%nat) /\ snd (bin 13%nat) = 0.
Proof. exact two_stage_runs_below_cut_out. Qed.
Print Assumptions C47_two_stage_cut_out_refuted.

(** If no earlier bin could be carried by the low stage, hspf() raises UnboundLocalError. *)
Theorem C47_two_stage_unbound :
  forall (sol : solvers R) (M : dxmodel R) (u : dxunit R) region on d s L lo hi i,
  u_staging u = TWO_STAGE -> u_heating_on u = Some on ->
  climate u region = Ok d ->
  heating_test sol M u (rc_H0_low (u_conds u)) (s_H0l s) ->
  heating_test sol M u (rc_H1_low (u_conds u)) (s_H1l s) ->
  frost_test sol M u (rc_H2_low (u_conds u)) (s_H2l s) ->
  heating_test sol M u (rc_H3_low (u_conds u)) (s_H3l s) ->
  heating_test sol M u (rc_H1_full (u_conds u)) (s_H1 s) ->
  frost_test sol M u (rc_H2_full (u_conds u)) (s_H2 s) ->
  heating_test sol M u (rc_H3_full (u_conds u)) (s_H3 s) ->
  heat_load sol M u d L -> 0 <= sd_cd (u_h u) < 1 -> stages_ok lo hi s ->
  (i < 18)%nat -> low_of q_at s i < L (heat_t i) < full_of q_at s i ->
  carried (u_heating_off u) on L s i = None ->
  hspf sol M u region = Err UnboundLocalError.
Proof. exact hspf_two_unbound. Qed.
Print Assumptions C47_two_stage_unbound.

Example C47_two_stage_unbound_nonvacuous : exists u on d s L lo hi,
  unit_of TWO_STAGE AHRI_210_240_2017 [200; 100] [200; 100] 4 4 u
  /\ u_staging u = TWO_STAGE /\ u_heating_on u = Some on
  /\ climate u 1 = Ok d
  /\ heating_test lin_sol ConstantDXModel u (rc_H0_low (u_conds u)) (s_H0l s)
  /\ heating_test lin_sol ConstantDXModel u (rc_H1_low (u_conds u)) (s_H1l s)
  /\ frost_test lin_sol ConstantDXModel u (rc_H2_low (u_conds u)) (s_H2l s)
  /\ heating_test lin_sol ConstantDXModel u (rc_H3_low (u_conds u)) (s_H3l s)
  /\ heating_test lin_sol ConstantDXModel u (rc_H1_full (u_conds u)) (s_H1 s)
  /\ frost_test lin_sol ConstantDXModel u (rc_H2_full (u_conds u)) (s_H2 s)
  /\ heating_test lin_sol ConstantDXModel u (rc_H3_full (u_conds u)) (s_H3 s)
  /\ heat_load lin_sol ConstantDXModel u d L
  /\ 0 <= sd_cd (u_h u) < 1 /\ stages_ok lo hi s
  /\ low_of q_at s 0 < L (heat_t 0) < full_of q_at s 0
  /\ carried (u_heating_off u) on L s 0 = None.
Proof. exact toy_unbound. Qed.

(** * C58 *)

(** For a sensible unit hspf() succeeds and lies between the smallest degraded COP (or 1, for
    resistance heat) and the largest COP (or 1), times the demand defrost credit. *)
Theorem C58_single_stage_hspf_bounds :
  forall (sol : solvers R) (M : dxmodel R) (u : dxunit R) region on d H1 H2 H3 L credit lo hi,
  u_staging u = SINGLE_STAGE -> u_heating_on u = Some on ->
  climate u region = Ok d ->
  heating_test sol M u (rc_H1_full (u_conds u)) H1 ->
  frost_test sol M u (rc_H2_full (u_conds u)) H2 ->
  heating_test sol M u (rc_H3_full (u_conds u)) H3 ->
  pt_t H1 <> pt_t H3 -> pt_t H2 <> pt_t H3 ->
  heat_load sol M u d L -> 0 < over 18 (fun i => hours_of d i * L (heat_t i)) ->
  demand_credit (u_defrost u) = Ok credit -> 0 <= credit ->
  0 <= sd_cd (u_h u) < 1 -> 0 < lo ->
  (forall i, (i < 18)%nat ->
     let q := full_line q_at H1 H2 H3 (heat_t i) in
     let p := full_line p_at H1 H2 H3 (heat_t i) in
     0 < q /\ 0 < p /\ lo <= q / p <= hi) ->
  exists v, hspf sol M u region = Ok v
    /\ v = seasonal_heating (hours_of d) (fun i => L (heat_t i))
             (single_energy (u_heating_off u) on (sd_cd (u_h u)) L H1 H2 H3)
             (single_resistance (u_heating_off u) on L H1 H2 H3) credit
    /\ Btu_Wh (Rmin ((1 - sd_cd (u_h u)) * lo) 1 * credit) <= v
       <= Btu_Wh (Rmax hi 1 * credit).
Proof. exact hspf_single_total. Qed.
Print Assumptions C58_single_stage_hspf_bounds.

Example C58_single_stage_nonvacuous : exists u on d H1 H2 H3 L credit lo hi,
  unit_of SINGLE_STAGE AHRI_210_240_2023 [10000] [9000] 4 4 u
  /\ u_staging u = SINGLE_STAGE /\ u_heating_on u = Some on
  /\ climate u 4 = Ok d
  /\ heating_test lin_sol ConstantDXModel u (rc_H1_full (u_conds u)) H1
  /\ frost_test lin_sol ConstantDXModel u (rc_H2_full (u_conds u)) H2
  /\ heating_test lin_sol ConstantDXModel u (rc_H3_full (u_conds u)) H3
  /\ pt_t H1 <> pt_t H3 /\ pt_t H2 <> pt_t H3
  /\ heat_load lin_sol ConstantDXModel u d L /\ 0 < over 18 (fun i => hours_of d i * L (heat_t i))
  /\ demand_credit (u_defrost u) = Ok credit /\ 0 < credit
  /\ 0 <= sd_cd (u_h u) < 1 /\ 1 < lo
  /\ (forall i, (i < 18)%nat ->
       let q := full_line q_at H1 H2 H3 (heat_t i) in
       let p := full_line p_at H1 H2 H3 (heat_t i) in
       0 < q /\ 0 < p /\ lo <= q / p <= hi)
  /\ heat_t 14 <= u_heating_off u /\ 0 < hours_of d 14.
Proof. exact toy_hspf_single. Qed.

(** Two stages, cycling between low and full, with the first bin within the low stage. *)
Theorem C58_two_stage_hspf_bounds :
  forall (sol : solvers R) (M : dxmodel R) (u : dxunit R) region on d s L credit lo hi,
  u_staging u = TWO_STAGE -> u_cycling u = BETWEEN_LOW_FULL -> u_heating_on u = Some on ->
  climate u region = Ok d ->
  heating_test sol M u (rc_H0_low (u_conds u)) (s_H0l s) ->
  heating_test sol M u (rc_H1_low (u_conds u)) (s_H1l s) ->
  frost_test sol M u (rc_H2_low (u_conds u)) (s_H2l s) ->
  heating_test sol M u (rc_H3_low (u_conds u)) (s_H3l s) ->
  heating_test sol M u (rc_H1_full (u_conds u)) (s_H1 s) ->
  frost_test sol M u (rc_H2_full (u_conds u)) (s_H2 s) ->
  heating_test sol M u (rc_H3_full (u_conds u)) (s_H3 s) ->
  heat_load sol M u d L -> 0 < over 18 (fun i => hours_of d i * L (heat_t i)) ->
  L (heat_t 0) <= low_of q_at s 0 ->
  demand_credit (u_defrost u) = Ok credit -> 0 <= credit ->
  0 <= sd_cd (u_h u) < 1 -> 0 < lo -> stages_ok lo hi s ->
  let bin := two_stage_bin (u_cycling u) (u_heating_off u) on (sd_cd (u_h u)) L s in
  exists v, hspf sol M u region = Ok v
    /\ v = seasonal_heating (hours_of d) (fun i => L (heat_t i))
             (fun i => fst (bin i)) (fun i => snd (bin i)) credit
    /\ Btu_Wh (Rmin ((1 - sd_cd (u_h u)) * lo) 1 * credit) <= v
       <= Btu_Wh (Rmax hi 1 * credit).
Proof. exact hspf_two_total. Qed.
Print Assumptions C58_two_stage_hspf_bounds.

Example C58_two_stage_nonvacuous : exists u on d s L credit lo hi,
  unit_of TWO_STAGE AHRI_210_240_2023 [5000; 3500] [9000; 4000] 4 4 u
  /\ u_staging u = TWO_STAGE /\ u_cycling u = BETWEEN_LOW_FULL /\ u_heating_on u = Some on
  /\ climate u 4 = Ok d
  /\ heating_test lin_sol ConstantDXModel u (rc_H0_low (u_conds u)) (s_H0l s)
  /\ heating_test lin_sol ConstantDXModel u (rc_H1_low (u_conds u)) (s_H1l s)
  /\ frost_test lin_sol ConstantDXModel u (rc_H2_low (u_conds u)) (s_H2l s)
  /\ heating_test lin_sol ConstantDXModel u (rc_H3_low (u_conds u)) (s_H3l s)
  /\ heating_test lin_sol ConstantDXModel u (rc_H1_full (u_conds u)) (s_H1 s)
  /\ frost_test lin_sol ConstantDXModel u (rc_H2_full (u_conds u)) (s_H2 s)
  /\ heating_test lin_sol ConstantDXModel u (rc_H3_full (u_conds u)) (s_H3 s)
  /\ heat_load lin_sol ConstantDXModel u d L /\ 0 < over 18 (fun i => hours_of d i * L (heat_t i))
  /\ L (heat_t 0) <= low_of q_at s 0
  /\ demand_credit (u_defrost u) = Ok credit /\ 0 < credit
  /\ 0 <= sd_cd (u_h u) < 1 /\ 1 < lo /\ stages_ok lo hi s
  /\ heat_t 13 <= u_heating_off u /\ 0 < hours_of d 13
  /\ low_of q_at s 13 < L (heat_t 13) < full_of q_at s 13
  /\ let bin := two_stage_bin (u_cycling u) (u_heating_off u) on (sd_cd (u_h u)) L s in
     0 < fst (bin 13%nat) /\ snd (bin 13%nat) = 0.
Proof. exact toy_hspf_two. Qed.

(** Variable speed, when the capacity the code uses in overloaded bins is at most the load. *)
Theorem C58_variable_speed_hspf_bounds :
  forall (sol : solvers R) (M : dxmodel R) (u : dxunit R) region on d
    H0l H1l H2i H1 H2 H3 H4 L credit lo hi,
  u_staging u = VARIABLE_SPEED -> u_heating_on u = Some on ->
  climate u region = Ok d ->
  heating_test sol M u (rc_H0_low (u_conds u)) H0l ->
  heating_test sol M u (rc_H1_low (u_conds u)) H1l ->
  frost_test sol M u (rc_H2_int (u_conds u)) H2i ->
  heating_test sol M u (rc_H1_full (u_conds u)) H1 ->
  frost_test sol M u (rc_H2_full (u_conds u)) H2 ->
  heating_test sol M u (rc_H3_full (u_conds u)) H3 ->
  heating_test sol M u (rc_H4_full (u_conds u)) H4 ->
  heat_load sol M u d L -> 0 < over 18 (fun i => hours_of d i * L (heat_t i)) ->
  demand_credit (u_defrost u) = Ok credit -> 0 <= credit ->
  0 <= sd_cd (u_h u) < 1 -> 0 < lo -> speeds_ok lo hi H0l H1l H2i H1 H2 H3 H4 ->
  (forall i, (i < 18)%nat -> let t := heat_t i in full_line q_at H1 H2 H3 t <= L t ->
     0 < p_at H4 H3 t /\ lo <= q_at H4 H3 t / p_at H4 H3 t <= hi /\ q_at H4 H3 t <= L t) ->
  let bin := variable_bin (u_heating_off u) on (sd_cd (u_h u)) L H0l H1l H2i H1 H2 H3 H4 in
  exists v, hspf sol M u region = Ok v
    /\ v = seasonal_heating (hours_of d) (fun i => L (heat_t i))
             (fun i => fst (bin i)) (fun i => snd (bin i)) credit
    /\ Btu_Wh (Rmin ((1 - sd_cd (u_h u)) * lo) 1 * credit) <= v
       <= Btu_Wh (Rmax hi 1 * credit).
Proof. exact hspf_variable_total. Qed.
Print Assumptions C58_variable_speed_hspf_bounds.

Example C58_variable_speed_nonvacuous : exists u on d H0l H1l H2i H1 H2 H3 H4 L credit lo hi,
  unit_of VARIABLE_SPEED AHRI_210_240_2023 [10000; 7000; 4000] [9000; 6000; 3000] 4 4 u
  /\ u_staging u = VARIABLE_SPEED /\ u_heating_on u = Some on
  /\ climate u 4 = Ok d
  /\ heating_test lin_sol ConstantDXModel u (rc_H0_low (u_conds u)) H0l
  /\ heating_test lin_sol ConstantDXModel u (rc_H1_low (u_conds u)) H1l
  /\ frost_test lin_sol ConstantDXModel u (rc_H2_int (u_conds u)) H2i
  /\ heating_test lin_sol ConstantDXModel u (rc_H1_full (u_conds u)) H1
  /\ frost_test lin_sol ConstantDXModel u (rc_H2_full (u_conds u)) H2
  /\ heating_test lin_sol ConstantDXModel u (rc_H3_full (u_conds u)) H3
  /\ heating_test lin_sol ConstantDXModel u (rc_H4_full (u_conds u)) H4
  /\ heat_load lin_sol ConstantDXModel u d L /\ 0 < over 18 (fun i => hours_of d i * L (heat_t i))
  /\ demand_credit (u_defrost u) = Ok credit /\ 0 < credit
  /\ 0 <= sd_cd (u_h u) < 1 /\ 1 < lo /\ speeds_ok lo hi H0l H1l H2i H1 H2 H3 H4
  /\ (forall i, (i < 18)%nat -> let t := heat_t i in full_line q_at H1 H2 H3 t <= L t ->
       0 < p_at H4 H3 t /\ lo <= q_at H4 H3 t / p_at H4 H3 t <= hi /\ q_at H4 H3 t <= L t)
  /\ heat_t 17 <= u_heating_off u.
Proof. exact toy_hspf_variable. Qed.
