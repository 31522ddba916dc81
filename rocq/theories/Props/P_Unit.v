(** Properties C36-C42, C48, C55, C56: construction of a DXUnit and its performance
    methods (dx_unit.py, base_model.py). *)
From Coq Require Import Reals Lra List String.
From Verif.Base Require Import Num Res Tac.
From Verif.Model Require Import Units Psychrometrics Conditions Defrost Fan Tabular Unit
  NREL BaseModel Title24 Resnet DXUnit.
From Verif.Spec Require Import NrelSpec UnitModels UnitSpec.
From Verif.Proofs Require Import StandardProofs StandardProofs2 UnitProofs UnitProofs2 UnitProofs3 CopProofs
  UnitProofs4 ToyUnit ToyBuild ToyBuild2.
Import ListNotations.
Local Open Scope R_scope.

(** * C36 *)
(** Whatever the model, a unit that is built has one capacity per speed and never a
    larger one at a lower speed (speed 0 is full). *)
Theorem C36_capacities_complete_and_ordered : forall psy sol M a (u : dxunit R) m i j x y,
  DXUnit psy sol M a = Ok u ->
  List.length (sd_net_cap (side_of m u)) = sd_n (side_of m u)
  /\ ((i <= j)%nat ->
      nth_error (sd_net_cap (side_of m u)) i = Some x ->
      nth_error (sd_net_cap (side_of m u)) j = Some y ->
      y <= x).
Proof. exact capacities_complete_and_ordered. Qed.
Print Assumptions C36_capacities_complete_and_ordered.

Theorem C36_given_capacities_stored : forall psy sol M a (u : dxunit R),
  plain_model sol M ->
  DXUnit psy sol M a = Ok u ->
  let nc := count_speeds (Some (a_ccap a)) (a_staging a) in
  let nh := count_speeds (a_hcap a) (a_staging a) in
  sd_n (u_c u) = nc /\ sd_n (u_h u) = nh
  /\ sd_net_cap (u_c u) = match a_ccap a with Scalar x => repeat x nc | Many l => l end
  /\ forall v, a_hcap a = Some v ->
       sd_net_cap (u_h u) = match v with Scalar x => repeat x nh | Many l => l end.
Proof. exact plain_capacities_given. Qed.
Print Assumptions C36_given_capacities_stored.

Theorem C36_increasing_capacities_rejected : forall psy sol M a l i j x y,
  plain_model sol M ->
  a_ccap a = Many l \/ a_hcap a = Some (Many l) ->
  (i <= j)%nat ->
  nth_error l i = Some x -> nth_error l j = Some y ->
  x < y ->
  forall u : dxunit R, DXUnit psy sol M a <> Ok u.
Proof. exact plain_rejects_increasing. Qed.
Print Assumptions C36_increasing_capacities_rejected.

Example C36_nonvacuous : exists u : dxunit R,
  DXUnit lin_psy lin_sol ConstantDXModel
    (args TWO_STAGE AHRI_210_240_2023 [10000; 7000] [9000; 6000] (Some 4) None (Some 3) None
       None) = Ok u
  /\ sd_net_cap (u_c u) = [10000; 7000]
  /\ sd_net_cap (u_h u) = [9000; 6000]
  /\ u_staging u = TWO_STAGE
  /\ sd_int (u_c u) = 1%nat
  /\ u_standard u = AHRI_210_240_2023.
Proof. exact two_stage_example. Qed.

(** * C37 *)
(** Net and gross, capacity and power, SHR, COP and EER of one condition are tied to
    four numbers, three of which are never negative. *)
Theorem C37_cooling_values_consistent : forall sol M (u : dxunit R) oc q s p w,
  gross_total_cooling_capacity M u oc = Ok q ->
  gross_sensible_cooling_capacity M u oc = Ok s ->
  gross_cooling_power M u oc = Ok p ->
  cooling_fan_power sol u oc = Ok w ->
  0 <= q /\ 0 <= s /\ 0 <= p
  /\ net_total_cooling_capacity sol M u oc = Ok (q - w)
  /\ net_sensible_cooling_capacity sol M u oc = Ok (s - w)
  /\ net_cooling_power sol M u oc = Ok (p + w)
  /\ (q <> 0 -> s <= q -> gross_shr M u oc = Ok (s / q))
  /\ (q - w <> 0 -> net_shr sol M u oc = Ok ((s - w) / (q - w)))
  /\ (p <> 0 -> gross_total_cooling_cop M u oc = Ok (q / p))
  /\ (p <> 0 -> gross_sensible_cooling_cop M u oc = Ok (s / p))
  /\ (p + w <> 0 -> net_total_cooling_cop sol M u oc = Ok ((q - w) / (p + w)))
  /\ (p + w <> 0 -> net_sensible_cooling_cop sol M u oc = Ok ((s - w) / (p + w)))
  /\ (p + w <> 0 -> eer sol M u oc = Ok ((q - w) / (p + w) * 3600 / 1055.056)).
Proof. exact net_cooling_values. Qed.
Print Assumptions C37_cooling_values_consistent.

(** Conversely a value that is returned comes from those numbers. *)
Theorem C37_cooling_values_determined : forall sol M (u : dxunit R) oc v,
  (net_total_cooling_capacity sol M u oc = Ok v ->
   exists q w, gross_total_cooling_capacity M u oc = Ok q
     /\ cooling_fan_power sol u oc = Ok w /\ v = q - w)
  /\ (net_sensible_cooling_capacity sol M u oc = Ok v ->
      exists s w, gross_sensible_cooling_capacity M u oc = Ok s
        /\ cooling_fan_power sol u oc = Ok w /\ v = s - w)
  /\ (net_cooling_power sol M u oc = Ok v ->
      exists p w, gross_cooling_power M u oc = Ok p
        /\ cooling_fan_power sol u oc = Ok w /\ v = p + w)
  /\ (gross_shr M u oc = Ok v ->
      exists s q, gross_sensible_cooling_capacity M u oc = Ok s
        /\ gross_total_cooling_capacity M u oc = Ok q
        /\ q <> 0 /\ v = s / q /\ 0 <= v <= 1)
  /\ (net_total_cooling_cop sol M u oc = Ok v ->
      exists q p, net_total_cooling_capacity sol M u oc = Ok q
        /\ net_cooling_power sol M u oc = Ok p /\ p <> 0 /\ v = q / p).
Proof. exact net_cooling_needs. Qed.
Print Assumptions C37_cooling_values_determined.

Theorem C37_heating_values_consistent : forall sol M (u : dxunit R) oc q p qi pi w,
  gross_steady_state_heating_capacity M u oc = Ok q ->
  gross_steady_state_heating_power M u oc = Ok p ->
  gross_integrated_heating_capacity M u oc = Ok qi ->
  gross_integrated_heating_power M u oc = Ok pi ->
  heating_fan_power sol u oc = Ok w ->
  net_steady_state_heating_capacity sol M u oc = Ok (q + w)
  /\ net_steady_state_heating_power sol M u oc = Ok (p + w)
  /\ net_integrated_heating_capacity sol M u oc = Ok (qi + w)
  /\ net_integrated_heating_power sol M u oc = Ok (pi + w)
  /\ (p <> 0 -> gross_steady_state_heating_cop M u oc = Ok (q / p))
  /\ (pi <> 0 -> gross_integrated_heating_cop M u oc = Ok (qi / pi))
  /\ (p + w <> 0 -> net_steady_state_heating_cop sol M u oc = Ok ((q + w) / (p + w)))
  /\ (pi + w <> 0 -> net_integrated_heating_cop sol M u oc = Ok ((qi + w) / (pi + w))).
Proof. exact net_heating_values. Qed.
Print Assumptions C37_heating_values_consistent.

(** Unlike cooling, heating capacities are not checked against zero: at four times the
    rated airflow the RESNET model returns a negative one. *)
Theorem C37_heating_nonnegative_refuted : forall psy sol (u : dxunit R) c q,
  rn_net (u_rn u) = None ->
  u_charge u = 0 ->
  c_mass_airflow_ratio c = Some 4 ->
  entry (sd_gross_cap (u_h u)) (c_speed c) q -> 0 < q ->
  0 < heat_cap_T (degF (ps_db (c_indoor c))) (degF (ps_db (c_outdoor c))) ->
  exists v,
    gross_steady_state_heating_capacity (RESNETDXModel psy sol) u (Some c) = Ok v /\ v < 0.
Proof. exact resnet_heating_unchecked. Qed.
Print Assumptions C37_heating_nonnegative_refuted.

Example C37_heating_nonvacuous :
  let u := toy_unit 0 (toy_defrost DCTimed DSReverseCycle) in
  let c := toy_cond 294.15 289 280.15 4 in
  rn_net (u_rn u) = None /\ u_charge u = 0 /\ c_mass_airflow_ratio c = Some 4
  /\ entry (sd_gross_cap (u_h u)) (c_speed c) 9700
  /\ 0 < heat_cap_T (degF (ps_db (c_indoor c))) (degF (ps_db (c_outdoor c))).
Proof.
  repeat split; try reflexivity.
  change (0 < heat_cap_T (degF 294.15) (degF 280.15)). unfold heat_cap_T, degF. lra.
Qed.

Example C37_nonvacuous : exists (u : dxunit R) (w : R),
  DXUnit lin_psy lin_sol ConstantDXModel
    (args SINGLE_STAGE AHRI_210_240_2023 [10000] [9000] (Some 4) None (Some 3) None None)
  = Ok u
  /\ 0 < w
  /\ gross_total_cooling_capacity ConstantDXModel u None = Ok (10000 + w)
  /\ gross_sensible_cooling_capacity ConstantDXModel u None = Ok ((10000 + w) * 0.7)
  /\ gross_cooling_power ConstantDXModel u None = Ok ((10000 + w) / 4)
  /\ cooling_fan_power lin_sol u None = Ok w
  /\ net_total_cooling_capacity lin_sol ConstantDXModel u None = Ok 10000
  /\ (exists v, gross_steady_state_heating_capacity ConstantDXModel u None = Ok v)
  /\ net_steady_state_heating_capacity lin_sol ConstantDXModel u None = Ok 9000.
Proof. exact single_stage_example. Qed.

(** * C38 *)
(** What the calibration stores: the bypass factor of the enthalpy line through the
    inlet, the rated outlet and the apparatus dew point. *)
Theorem C38_calibration : forall psy sol M c (u u' : dxunit R),
  calculate_rated_bypass_factor psy sol M c u = (u', Ok tt) ->
  exists bf m shr q outlet adp h_i h_o h_adp,
    c_mass_airflow c = Some m
    /\ entry (u_shr u) (c_speed c) shr
    /\ gross_total_cooling_capacity M u (Some c) = Ok q
    /\ gross_cooling_outlet_state psy M u (Some c) (Some (shr * q)) = Ok outlet
    /\ calculate_adp_state psy sol (c_indoor c) outlet = Ok adp
    /\ h_of psy (c_indoor c) = Ok h_i /\ h_of psy outlet = Ok h_o /\ h_of psy adp = Ok h_adp
    /\ h_i <> h_adp
    /\ bf = (h_o - h_adp) / (h_i - h_adp)
    /\ 0 < bf
    /\ entry (u_bf u') (c_speed c) bf
    /\ entry (u_ntu u') (c_speed c) (- m * ln bf).
Proof. exact calibration. Qed.
Print Assumptions C38_calibration.

(** Afterwards the bypass factor is positive, equals the calibrated one at the
    calibration airflow and, if that is below one, stays below one and grows with the
    airflow. *)
Theorem C38_bypass_factor_after_calibration : forall psy sol M c (u u' : dxunit R),
  calculate_rated_bypass_factor psy sol M c u = (u', Ok tt) ->
  exists bf m,
    entry (u_bf u') (c_speed c) bf /\ 0 < bf
    /\ c_mass_airflow c = Some m
    /\ forall c1 m1,
         c_speed c1 = c_speed c -> c_mass_airflow c1 = Some m1 -> m1 <> 0 ->
         exists b1,
           bypass_factor u' c1 = Ok b1 /\ 0 < b1
           /\ (m1 = m -> b1 = bf)
           /\ (bf < 1 -> 0 < m -> 0 < m1 ->
               b1 < 1
               /\ forall c2 m2,
                    c_speed c2 = c_speed c -> c_mass_airflow c2 = Some m2 -> m1 < m2 ->
                    exists b2, bypass_factor u' c2 = Ok b2 /\ b1 < b2).
Proof. exact calibrated_factor. Qed.
Print Assumptions C38_bypass_factor_after_calibration.

Example C38_nonvacuous : exists c (u u' : dxunit R) bf,
  c_mass_airflow c <> None
  /\ calculate_rated_bypass_factor lin_psy lin_sol ConstantDXModel c u = (u', Ok tt)
  /\ entry (u_bf u') (c_speed c) bf /\ 0 < bf < 1.
Proof. exact bypass_example. Qed.

(** * C39 *)
Theorem C39_ductless_pressure : forall u : dxunit R,
  u_ducted u = false -> get_rated_full_flow_rated_pressure u = Ok 0.
Proof. exact full_pressure_ductless. Qed.
Print Assumptions C39_ductless_pressure.

Theorem C39_pressure_2023 : forall u : dxunit R,
  u_ducted u = true -> u_standard u = AHRI_210_240_2023 ->
  get_rated_full_flow_rated_pressure u = Ok (in_H2O 0.5).
Proof. exact full_pressure_2023. Qed.
Print Assumptions C39_pressure_2023.

Theorem C39_pressure_2017 : forall (u : dxunit R) q,
  u_ducted u = true -> u_standard u = AHRI_210_240_2017 ->
  nth_error (sd_net_cap (u_c u)) 0 = Some q ->
  get_rated_full_flow_rated_pressure u = Ok (esp_2017 q).
Proof. exact full_pressure_2017. Qed.
Print Assumptions C39_pressure_2017.

Theorem C39_pressure_2017_no_capacity : forall u : dxunit R,
  u_ducted u = true -> u_standard u = AHRI_210_240_2017 -> sd_net_cap (u_c u) = [] ->
  get_rated_full_flow_rated_pressure u = Err IndexError.
Proof. exact full_pressure_2017_empty. Qed.
Print Assumptions C39_pressure_2017_no_capacity.

Theorem C39_pressure_2017_never_decreases : forall q q',
  q <= q' -> esp_2017 q <= esp_2017 q'.
Proof. exact esp_2017_mono. Qed.
Print Assumptions C39_pressure_2017_never_decreases.

Theorem C39_part_flow_pressure : forall (u : dxunit R) p r full,
  u_full_esp u = Some p -> full <> 0 ->
  calculate_rated_pressure u (r * full) full = Ok (p * (r * r)).
Proof. exact partial_pressure. Qed.
Print Assumptions C39_part_flow_pressure.

(** Every rating condition carries the full-flow pressure times the squared ratio of its
    airflow to the full airflow. *)
Theorem C39_rating_condition_pressure : forall psy m (u : dxunit R) speed i o c p,
  u_full_esp u = Some p ->
  make_condition psy m u speed i o = Ok c ->
  exists a full,
    entry (sd_airflow (side_of m u)) speed a /\ entry (sd_airflow (side_of m u)) 0 full
    /\ full <> 0
    /\ c_external_static_pressure c = Some (p * (a / full * (a / full))).
Proof. exact condition_pressure. Qed.
Print Assumptions C39_rating_condition_pressure.

Example C39_nonvacuous :
  esp_2017 (Btu_h 29000) = in_H2O 0.1
  /\ esp_2017 (Btu_h 36000) = in_H2O 0.15
  /\ esp_2017 (Btu_h 60000) = in_H2O 0.2.
Proof.
  unfold esp_2017, Btu_h.
  repeat split; repeat (destruct Rle_dec as [?H|?H]; try lra); reflexivity.
Qed.

(** * C40 *)
(** Setting standards is a matter of the last one, and going back to the unit's own
    standard after any detour gives the constructed unit back. *)
Theorem C40_last_standard_wins : forall psy l s (u : dxunit R),
  ex (set_rating_standard psy s) (after_standards psy l u) = ex (set_rating_standard psy s) u.
Proof. exact last_standard_wins. Qed.
Print Assumptions C40_last_standard_wins.

Theorem C40_round_trip_restores_unit : forall psy sol M,
  library_model psy sol M ->
  forall a (u : dxunit R) l,
  DXUnit psy sol M a = Ok u ->
  ex (set_rating_standard psy (u_standard u)) (after_standards psy l u) = Ok u.
Proof. exact constructed_restored. Qed.
Print Assumptions C40_round_trip_restores_unit.

(** Only the standard, the full-flow pressure and the rating conditions change: rated airflows,
    fan speeds and fan powers stay those of the standard the unit was built with. *)
Theorem C40_changes_only : forall psy l (u : dxunit R),
  let u' := after_standards psy l u in
  u' = wu_conds (u_conds u') (wu_full_esp (u_full_esp u') (wu_standard (u_standard u') u)).
Proof. exact standards_change_only. Qed.
Print Assumptions C40_changes_only.

Example C40_nonvacuous : exists u u1 : dxunit R,
  DXUnit lin_psy lin_sol ConstantDXModel
    (args TWO_STAGE AHRI_210_240_2023 [10000; 7000] [9000; 6000] (Some 4) None (Some 3) None
       None) = Ok u
  /\ after_standards lin_psy [AHRI_210_240_2017] u = u1
  /\ u_standard u1 = AHRI_210_240_2017
  /\ u_full_esp u1 <> u_full_esp u
  /\ ex (set_rating_standard lin_psy AHRI_210_240_2023) u1 = Ok u.
Proof. exact standard_example. Qed.

(** * C41 *)
(** A constructed two-stage unit cannot have its rated airflow reset, whatever the
    airflows (given per ton, or as a list reaching the low speed). *)
Theorem C41_two_stage_reset_refuted : forall psy sol M a (u : dxunit R) fc fh,
  library_model psy sol M ->
  DXUnit psy sol M a = Ok u ->
  u_staging u = TWO_STAGE ->
  (sd_int (u_c u) < match fc with Many l => List.length l | Scalar _ => sd_n (u_c u) end)%nat ->
  forall u', ex (reset_rated_flow_rates psy fc fh) u <> Ok u'.
Proof. exact two_stage_reset. Qed.
Print Assumptions C41_two_stage_reset_refuted.

Example C41_nonvacuous : exists u : dxunit R,
  DXUnit lin_psy lin_sol ConstantDXModel
    (args TWO_STAGE AHRI_210_240_2023 [10000; 7000] [9000; 6000] (Some 4) None (Some 3) None
       None) = Ok u
  /\ ex (reset_rated_flow_rates lin_psy (Scalar 0.00005) (Scalar 0.00005)) u
     = Err AttributeError.
Proof. exact two_stage_reset_example. Qed.

(** * C42 *)
Theorem C42_near_one_kept : forall design l c cv zl,
  List.length l = 18%nat -> in_band (total l) ->
  HeatingDistribution design l c cv zl = Ok (mkHD design l c cv zl).
Proof. exact distribution_kept. Qed.
Print Assumptions C42_near_one_kept.

Theorem C42_other_rescaled : forall design l c cv zl,
  List.length l = 18%nat -> ~ in_band (total l) -> total l <> 0 ->
  exists d,
    HeatingDistribution design l c cv zl = Ok d
    /\ hd_design d = design /\ hd_c d = c /\ hd_c_vs d = cv /\ hd_zero_load d = zl
    /\ hd_hours d = map (fun x => x / total l) l
    /\ total (hd_hours d) = 1.
Proof. exact distribution_scaled. Qed.
Print Assumptions C42_other_rescaled.

Theorem C42_rejected : forall design l c cv zl,
  List.length l <> 18%nat \/ ~ in_band (total l) /\ total l = 0 ->
  exists e,
    HeatingDistribution design l c cv zl = Err e /\ (total l <> 0 -> e = PyException).
Proof. exact distribution_rejected. Qed.
Print Assumptions C42_rejected.

Theorem C42_result_near_one : forall design l c cv zl (d : heating_distribution R),
  HeatingDistribution design l c cv zl = Ok d ->
  List.length (hd_hours d) = 18%nat /\ 0.98 <= total (hd_hours d) <= 1.02.
Proof. exact distribution_any. Qed.
Print Assumptions C42_result_near_one.

Theorem C42_tables : forall r,
  (1 <= r <= 6)%nat ->
  (exists d : heating_distribution R, distribution_2017 r = Ok d)
  /\ exists (d : heating_distribution R) cc cv zl,
       distribution_2023 r = Ok d
       /\ hd_c d = Some cc /\ hd_c_vs d = Some cv /\ hd_zero_load d = Some zl
       /\ hd_design d < zl.
Proof. exact table_distributions. Qed.
Print Assumptions C42_tables.

Example C42_nonvacuous :
  in_band (total (repeat (1 / 18) 18)) /\ ~ in_band (total (repeat 1 18))
  /\ total (repeat 1 18) <> 0.
Proof.
  unfold in_band, total. cbn [repeat fold_right]. repeat split; try lra.
Qed.

(** * C48 *)
(** A supplied heating-on temperature is dropped... *)
Theorem C48_heating_on_lost_refuted : forall psy sol M a (u : dxunit R) t,
  library_model psy sol M ->
  DXUnit psy sol M a = Ok u ->
  a_heating_on a = Some t ->
  u_heating_on u = None.
Proof. exact heating_on_lost. Qed.
Print Assumptions C48_heating_on_lost_refuted.

(** ... so that HSPF cannot be computed as soon as the unit would run in the first bin
    (62 F): above the cut-off temperature, with a COP of at least one on the line
    through the H3 and H1 tests. *)
Theorem C48_supplied_heating_on_breaks_hspf_refuted :
  forall psy sol M a (u : dxunit R) t region c1 c3 q1 p1 q3 p3,
  library_model psy sol M ->
  DXUnit psy sol M a = Ok u ->
  a_heating_on a = Some t ->
  rc_H1_full (u_conds u) = Some c1 -> rc_H3_full (u_conds u) = Some c3 ->
  net_steady_state_heating_capacity sol M u (Some c1) = Ok q1 ->
  net_steady_state_heating_power sol M u (Some c1) = Ok p1 ->
  net_steady_state_heating_capacity sol M u (Some c3) = Ok q3 ->
  net_steady_state_heating_power sol M u (Some c3) = Ok p3 ->
  u_heating_off u < deg_F 62 ->
  1 <= line (ps_db (c_outdoor c3)) q3 (ps_db (c_outdoor c1)) q1 (deg_F 62)
       / line (ps_db (c_outdoor c3)) p3 (ps_db (c_outdoor c1)) p1 (deg_F 62) ->
  forall v, hspf sol M u region <> Ok v.
Proof. exact supplied_on_hspf_fails. Qed.
Print Assumptions C48_supplied_heating_on_breaks_hspf_refuted.

Example C48_heating_on_nonvacuous : exists u : dxunit R,
  DXUnit lin_psy lin_sol ConstantDXModel
    (args SINGLE_STAGE AHRI_210_240_2023 [10000] [9000] (Some 4) None (Some 3) None
       (Some 275)) = Ok u
  /\ u_heating_off u < deg_F 62
  /\ exists c1 c3 pw,
       rc_H1_full (u_conds u) = Some c1 /\ rc_H3_full (u_conds u) = Some c3
       /\ net_steady_state_heating_capacity lin_sol ConstantDXModel u (Some c1) = Ok 9000
       /\ net_steady_state_heating_power lin_sol ConstantDXModel u (Some c1) = Ok pw
       /\ net_steady_state_heating_capacity lin_sol ConstantDXModel u (Some c3) = Ok 9000
       /\ net_steady_state_heating_power lin_sol ConstantDXModel u (Some c3) = Ok pw
       /\ 1 <= line (ps_db (c_outdoor c3)) 9000 (ps_db (c_outdoor c1)) 9000 (deg_F 62)
               / line (ps_db (c_outdoor c3)) pw (ps_db (c_outdoor c1)) pw (deg_F 62).
Proof. exact heating_on_example. Qed.

(** A net COP is stored only when the gross COP (which has a default) is passed as
    None; otherwise the gross COP decides. *)
Theorem C48_net_cop_ignored_refuted : forall psy sol M a (u : dxunit R) m g i,
  plain_model sol M ->
  DXUnit psy sol M a = Ok u ->
  gross_input m a = Some (Scalar g) ->
  (i < sd_n (side_of m u))%nat ->
  exists q gq w,
    nth_error (sd_net_cap (side_of m u)) i = Some q
    /\ entry (sd_gross_cap (side_of m u)) i gq
    /\ entry (sd_fan_power (side_of m u)) i w
    /\ entry (sd_gross_cop (side_of m u)) i g
    /\ entry (sd_net_cop (side_of m u)) i (q / (gq / g + w)).
Proof. exact gross_cop_decides. Qed.
Print Assumptions C48_net_cop_ignored_refuted.

Theorem C48_net_cop_stored_without_gross : forall psy sol M a (u : dxunit R) m x i,
  plain_model sol M ->
  DXUnit psy sol M a = Ok u ->
  gross_input m a = None ->
  net_input m a = Some (Scalar x) ->
  (i < sd_n (side_of m u))%nat ->
  entry (sd_net_cop (side_of m u)) i x.
Proof. exact net_cop_honoured. Qed.
Print Assumptions C48_net_cop_stored_without_gross.

Example C48_net_cop_nonvacuous : exists (u : dxunit R) v,
  DXUnit lin_psy lin_sol ConstantDXModel
    (args SINGLE_STAGE AHRI_210_240_2023 [10000] [9000] (Some 4) (Some 5) (Some 3) None None)
  = Ok u
  /\ sd_net_cop (u_c u) = [Some v] /\ v < 4
  /\ exists u' : dxunit R,
       DXUnit lin_psy lin_sol ConstantDXModel
         (args SINGLE_STAGE AHRI_210_240_2023 [10000] [9000] None (Some 5) (Some 3) None None)
       = Ok u'
       /\ sd_net_cop (u_c u') = [Some 5].
Proof. exact net_cop_example. Qed.

(** * C55 *)
Theorem C55_unknown_option_rejected : forall psy sol (M : dxmodel R) a k v,
  In (k, v) (a_kwargs a) ->
  ~ In k (md_allowed M) ->
  DXUnit psy sol M a = Err PyException.
Proof. exact unknown_keyword. Qed.
Print Assumptions C55_unknown_option_rejected.

Theorem C55_known_options_pass : forall (M : dxmodel R) kw,
  (forall k v, In (k, v) kw -> In k (md_allowed M)) ->
  (forall v, ~ In ("base_model"%string, v) kw) ->
  set_system M kw = md_process M kw.
Proof. exact known_keywords. Qed.
Print Assumptions C55_known_options_pass.

Example C55_nonvacuous :
  ~ In "cooling_refrigerant"%string (md_allowed (T:=R) ConstantDXModel)
  /\ In "tabular_data"%string (md_allowed (RESNETDXModel lin_psy lin_sol)).
Proof.
  split; cbn [md_allowed ConstantDXModel RESNETDXModel In].
  - intros H. repeat destruct H as [H|H]; discriminate || contradiction.
  - repeat (first [left; reflexivity|right]).
Qed.

(** * C56 *)
(** Going through the net COP and then through the gross COP it implies (or the other
    way round) gives the same unit. *)
Theorem C56_net_then_gross : forall m x g (u u1 : dxunit R),
  caps_nonzero (side_of m u) ->
  base_set_net_cop m (Scalar x) u = (u1, Ok tt) ->
  (forall i y, nth_error (sd_gross_cop (side_of m u1)) i = Some y -> y = Some g) ->
  base_set_gross_cop m (Scalar g) u = (u1, Ok tt).
Proof. exact base_net_then_gross. Qed.
Print Assumptions C56_net_then_gross.

Theorem C56_gross_then_net : forall m x g (u u1 : dxunit R),
  caps_nonzero (side_of m u) ->
  base_set_gross_cop m (Scalar g) u = (u1, Ok tt) ->
  (forall i y, nth_error (sd_net_cop (side_of m u1)) i = Some y -> y = Some x) ->
  base_set_net_cop m (Scalar x) u = (u1, Ok tt).
Proof. exact base_gross_then_net. Qed.
Print Assumptions C56_gross_then_net.

Theorem C56_nrel_net_then_gross : forall m X G (u u1 : dxunit R),
  caps_nonzero (side_of m u) ->
  List.length X = sd_n (side_of m u) ->
  nrel_set_net_cop m (Many X) u = (u1, Ok tt) ->
  sd_gross_cop (side_of m u1) = map Some G ->
  nrel_set_gross_cop m (Many G) u = (u1, Ok tt).
Proof. exact nrel_net_then_gross. Qed.
Print Assumptions C56_nrel_net_then_gross.

Theorem C56_nrel_gross_then_net : forall m X G (u u1 : dxunit R),
  caps_nonzero (side_of m u) ->
  List.length G = sd_n (side_of m u) ->
  nrel_set_gross_cop m (Many G) u = (u1, Ok tt) ->
  sd_net_cop (side_of m u1) = map Some X ->
  nrel_set_net_cop m (Many X) u = (u1, Ok tt).
Proof. exact nrel_gross_then_net. Qed.
Print Assumptions C56_nrel_gross_then_net.

(** The values stored. *)
Theorem C56_net_values : forall m x (u u1 : dxunit R),
  base_set_net_cop m (Scalar x) u = (u1, Ok tt) ->
  let s := side_of m u1 in
  sd_net_cop s = repeat (Some x) (sd_n s)
  /\ forall i, (i < sd_n s)%nat ->
     exists q g w,
       nth_error (sd_net_cap s) i = Some q /\ entry (sd_gross_cap s) i g
       /\ entry (sd_fan_power s) i w
       /\ entry (sd_net_power s) i (q / x)
       /\ entry (sd_gross_power s) i (q / x - w)
       /\ entry (sd_gross_cop s) i (g / (q / x - w)).
Proof. exact base_net_values. Qed.
Print Assumptions C56_net_values.

Theorem C56_gross_values : forall m g (u u1 : dxunit R),
  base_set_gross_cop m (Scalar g) u = (u1, Ok tt) ->
  let s := side_of m u1 in
  sd_gross_cop s = repeat (Some g) (sd_n s)
  /\ forall i, (i < sd_n s)%nat ->
     exists q gq w,
       nth_error (sd_net_cap s) i = Some q /\ entry (sd_gross_cap s) i gq
       /\ entry (sd_fan_power s) i w
       /\ entry (sd_gross_power s) i (gq / g)
       /\ entry (sd_net_power s) i (gq / g + w)
       /\ entry (sd_net_cop s) i (q / (gq / g + w)).
Proof. exact base_gross_values. Qed.
Print Assumptions C56_gross_values.

Example C56_nonvacuous : exists (u u1 : dxunit R) x,
  caps_nonzero (u_c u)
  /\ base_set_gross_cop Cooling (Scalar 4) u = (u1, Ok tt)
  /\ sd_net_cop (u_c u1) = [Some x] /\ 0 < x
  /\ sd_gross_cop (u_c u1) = [Some 4]
  /\ base_set_net_cop Cooling (Scalar x) u = (u1, Ok tt)
  /\ nrel_set_gross_cop Cooling (Many [4]) u = (u1, Ok tt)
  /\ nrel_set_net_cop Cooling (Many [x]) u = (u1, Ok tt).
Proof. exact cop_example. Qed.
