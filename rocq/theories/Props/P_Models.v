(** Properties C32-C35 and C57: defrost derates, Title 24 defaults and caching,
    RESNET tables (carrier_defrost_model.py, title24.py, unified_resnet.py). *)
From Coq Require Import Reals Lra List String.
From Verif.Base Require Import Num Res Tac.
From Verif.Model Require Import Units Psychrometrics Conditions Defrost Fan Tabular Unit
  BaseModel Title24 Resnet DXUnit.
From Verif.Spec Require Import NrelSpec ModelSpec.
From Verif.Proofs Require Import DefrostProofs ToyUnit T24Cache ModelProofs ResnetProofs
  ModelExamples.
From Verif.Props Require Import P_Psych.
Import ListNotations.
Local Open Scope R_scope.

(** * C32 *)
Theorem C32_carrier_fraction : forall c : cond R,
  carrier_fdef c = carrier_fraction (degF (ps_db (c_outdoor c)))
  /\ 0.075 <= carrier_fdef c <= 0.11.
Proof. exact carrier_fdef_bounds. Qed.
Print Assumptions C32_carrier_fraction.

Theorem C32_carrier_fraction_continuous : forall c c' : cond R,
  Rabs (carrier_fdef c - carrier_fdef c')
  <= 0.0025 * Rabs (degF (ps_db (c_outdoor c)) - degF (ps_db (c_outdoor c'))).
Proof. exact carrier_fdef_lipschitz. Qed.
Print Assumptions C32_carrier_fraction_continuous.

Theorem C32_integrated_capacity_reduction : forall steady u c s v,
  steady u c = Ok s -> 0 <= s ->
  carrier_gross_integrated_heating_capacity (T:=R) steady u c = Ok v ->
  (in_defrost (u_defrost u) c = false -> v = s)
  /\ (in_defrost (u_defrost u) c = true -> 0.89 * s <= v <= 0.925 * s).
Proof. exact carrier_reduction. Qed.
Print Assumptions C32_integrated_capacity_reduction.

Example C32_nonvacuous :
  let u := toy_unit 0 (toy_defrost DCTimed DSReverseCycle) in
  let c := toy_cond 294 289 270 1 in
  in_defrost (u_defrost u) c = true
  /\ exists v, carrier_gross_integrated_heating_capacity (fun _ _ => Ok 9000) u c = Ok v.
Proof.
  assert (D : in_defrost (u_defrost (toy_unit 0 (toy_defrost DCTimed DSReverseCycle)))
                (toy_cond 294 289 270 1) = true).
  { unfold in_defrost. cbn. rewrite (proj2 (Rltb_true 270 278)) by lra. reflexivity. }
  cbv zeta. split; [exact D|]. eexists. rewrite (carrier_integrated _ _ _ 9000); reflexivity.
Qed.

(** * C33 *)
Theorem C33_heating_cd_bounds : forall h : R, 0.05 <= t24_c_d_heating h <= 0.25.
Proof. exact t24_cd_bounds. Qed.
Print Assumptions C33_heating_cd_bounds.

Theorem C33_heating_cd_never_increases : forall h h' : R,
  h <= h' -> t24_c_d_heating h' <= t24_c_d_heating h.
Proof. exact t24_cd_antitone. Qed.
Print Assumptions C33_heating_cd_never_increases.

Theorem C33_steady_capacity_anchors : forall sol u c v q47 q17 w,
  md_ghc (Title24DXModel sol) u c = Ok v ->
  anchor47 u (c_speed c) q47 -> anchor17 u (c_speed c) q17 ->
  entry (sd_fan_power (u_h u)) (c_speed c) w ->
  (degF (ps_db (c_outdoor c)) = 47 -> v = q47 - w)
  /\ (degF (ps_db (c_outdoor c)) = 17 -> v = q17 - w).
Proof. exact t24_steady_anchors. Qed.
Print Assumptions C33_steady_capacity_anchors.

Theorem C33_integrated_capacity_anchors : forall sol u c v q17 q35 q47 w,
  md_gihc (Title24DXModel sol) u c = Ok v ->
  anchor17 u (c_speed c) q17 -> anchor35 u (c_speed c) q35 -> anchor47 u (c_speed c) q47 ->
  entry (sd_fan_power (u_h u)) (c_speed c) w ->
  (degF (ps_db (c_outdoor c)) = 17 -> v = q17 - w)
  /\ (degF (ps_db (c_outdoor c)) = 35 -> in_defrost (u_defrost u) c = true -> v = q35 - w)
  /\ (degF (ps_db (c_outdoor c)) = 47 -> v = q47 - w).
Proof. exact t24_integrated_anchors. Qed.
Print Assumptions C33_integrated_capacity_anchors.

Theorem C33_default_eer_monotone_refuted :
  eer_rated (T:=R) 15.999 > eer_rated 16.
Proof. exact eer_drops. Qed.
Print Assumptions C33_default_eer_monotone_refuted.

Theorem C33_capacity_ratio_monotone_refuted :
  cap17_ratio_rated (T:=R) 7.499 > cap17_ratio_rated 7.5.
Proof. exact ratio_drops. Qed.
Print Assumptions C33_capacity_ratio_monotone_refuted.

(** A unit with default anchors, and one with the anchors supplied. *)
Definition t24_unit (kw : list (string * kwval R)) : dxunit R :=
  wu_kwargs kw (toy_unit 0 (toy_defrost DCTimed DSReverseCycle)).
Definition t24_kw : list (string * kwval R) :=
  [("cap17"%string, KList [7000]); ("cap35"%string, KList [8000])].
Example C33_nonvacuous : forall sol kw, kw = [] \/ kw = t24_kw ->
  let u := t24_unit kw in
  exists q47 q17 q35 w, anchor47 u 0 q47 /\ anchor17 u 0 q17 /\ anchor35 u 0 q35
    /\ entry (sd_fan_power (u_h u)) 0 w
    /\ forall t, exists v v', md_ghc (Title24DXModel sol) u (toy_cond 294 289 t 1) = Ok v
       /\ md_gihc (Title24DXModel sol) u (toy_cond 294 289 t 1) = Ok v'.
Proof.
  intros sol kw [-> | ->].
  - exists 10000, (t24_ratio 8 * 10000). eexists. exists 300.
    assert (A : anchor17 (t24_unit []) 0 (t24_ratio 8 * 10000)).
    { right. split; [intros v H; destruct H|]. exists 8, 10000. repeat split. }
    split; [reflexivity|]. split; [exact A|]. split.
    { right. split; [intros v H; destruct H|]. do 2 eexists. split; [exact A|].
      split; reflexivity. }
    split; [reflexivity|]. exact (t24_total_default sol).
  - exists 10000, 7000, 8000, 300. split; [reflexivity|].
    split; [left; eexists; split; reflexivity|].
    split; [left; eexists; split; reflexivity|]. split; [reflexivity|].
    exact (t24_total_supplied sol).
Qed.

(** * C34 *)
Theorem C34_integrated_capacity : forall psy sol u c s,
  gross_steady_state_heating_capacity (RESNETDXModel psy sol) u (Some c) = Ok s ->
  gross_integrated_heating_capacity (RESNETDXModel psy sol) u (Some c)
  = Ok (s * if in_defrost (u_defrost u) c
            then 1 - 1.8 * resnet_fraction (degF (ps_db (c_outdoor c))) else 1).
Proof. exact resnet_capacity_derate. Qed.
Print Assumptions C34_integrated_capacity.

Theorem C34_integrated_power : forall psy sol u c p,
  md_ghp (RESNETDXModel psy sol) u c = Ok p ->
  gross_integrated_heating_power (RESNETDXModel psy sol) u (Some c)
  = Ok (p * if in_defrost (u_defrost u) c
            then 1 - 0.3 * resnet_fraction (degF (ps_db (c_outdoor c))) else 1).
Proof. exact resnet_power_derate. Qed.
Print Assumptions C34_integrated_power.

Theorem C34_derate_bounds : forall u c,
  0.856 <= (if in_defrost (u_defrost u) c
            then 1 - 1.8 * resnet_fraction (degF (ps_db (c_outdoor c))) else 1) <= 1
  /\ 0.976 <= (if in_defrost (u_defrost u) c
            then 1 - 0.3 * resnet_fraction (degF (ps_db (c_outdoor c))) else 1) <= 1.
Proof. exact resnet_derate_bounds. Qed.
Print Assumptions C34_derate_bounds.

(** Integrated power ignores the charge factor of the steady-state power. *)
Theorem C34_power_outside_defrost_refuted : forall psy sol u c s v,
  in_defrost (u_defrost u) c = false ->
  c_mass_airflow_ratio c = Some 1 ->
  charge_only Heating false (degC (ps_db (c_indoor c))) (degC (ps_db (c_outdoor c)))
    (u_charge u) <> 1 ->
  gross_steady_state_heating_power (RESNETDXModel psy sol) u (Some c) = Ok s ->
  gross_integrated_heating_power (RESNETDXModel psy sol) u (Some c) = Ok v ->
  (s <> 0 -> v <> s)
  /\ s = v * charge_only Heating false (degC (ps_db (c_indoor c)))
               (degC (ps_db (c_outdoor c))) (u_charge u).
Proof. exact resnet_power_ignores_charge. Qed.
Print Assumptions C34_power_outside_defrost_refuted.

Example C34_nonvacuous : forall sol,
  let u := toy_unit (-0.25) (toy_defrost DCTimed DSReverseCycle) in
  let c := toy_cond 294 289 290 1 in
  let M := RESNETDXModel toy_psy sol in
  in_defrost (u_defrost u) c = false
  /\ charge_only Heating false (degC (ps_db (c_indoor c))) (degC (ps_db (c_outdoor c)))
      (u_charge u) <> 1
  /\ exists s v, gross_steady_state_heating_power M u (Some c) = Ok s
     /\ gross_integrated_heating_power M u (Some c) = Ok v /\ s <> 0.
Proof. exact charge_power_example. Qed.

(** * C35 *)
Theorem C35_cooling_capacity : forall psy u c v,
  uses_table u -> resnet_gross_total_cooling_capacity psy u c = Ok v ->
  exists tv w r, table_value cooling_capacity u c tv
    /\ ps_wb (c_indoor c) = Some w /\ c_mass_airflow_ratio c = Some r
    /\ let odb := curve_odb (ps_db (c_outdoor c)) in
       cool_cap_T 67 odb <> 0
       /\ v = tv * (cool_cap_flow r * cool_cap_T (curve_wb w) odb / cool_cap_T 67 odb).
Proof. exact rn_cooling_capacity. Qed.
Print Assumptions C35_cooling_capacity.

Theorem C35_cooling_power : forall psy u c v,
  uses_table u -> resnet_gross_cooling_power psy u c = Ok v ->
  exists tv w r, table_value cooling_power u c tv
    /\ ps_wb (c_indoor c) = Some w /\ c_mass_airflow_ratio c = Some r
    /\ let odb := curve_odb (ps_db (c_outdoor c)) in
       cool_eir_T 67 odb * cool_cap_T 67 odb <> 0
       /\ v = tv * (cool_eir_flow r * cool_cap_flow r
                    * (cool_eir_T (curve_wb w) odb * cool_cap_T (curve_wb w) odb)
                    / (cool_eir_T 67 odb * cool_cap_T 67 odb)).
Proof. exact rn_cooling_power. Qed.
Print Assumptions C35_cooling_power.

Theorem C35_heating_capacity : forall psy u c v,
  uses_table u -> resnet_gross_heating_capacity psy u c = Ok v ->
  exists tv r, table_value heating_capacity u c tv /\ c_mass_airflow_ratio c = Some r
    /\ let idb := degF (ps_db (c_indoor c)) in let odb := degF (ps_db (c_outdoor c)) in
       heat_cap_T 70 odb <> 0
       /\ v = tv * (heat_cap_flow r * heat_cap_T idb odb / heat_cap_T 70 odb).
Proof. exact rn_heating_capacity. Qed.
Print Assumptions C35_heating_capacity.

Theorem C35_heating_power : forall psy u c v,
  uses_table u -> resnet_gross_heating_power psy u c = Ok v ->
  exists tv r, table_value heating_power u c tv /\ c_mass_airflow_ratio c = Some r
    /\ let idb := degF (ps_db (c_indoor c)) in let odb := degF (ps_db (c_outdoor c)) in
       heat_eir_T 70 odb * heat_cap_T 70 odb <> 0
       /\ v = tv * (heat_eir_flow r * heat_cap_flow r
                    * (heat_eir_T idb odb * heat_cap_T idb odb)
                    / (heat_eir_T 70 odb * heat_cap_T 70 odb)).
Proof. exact rn_heating_power. Qed.
Print Assumptions C35_heating_power.

Theorem C35_table_value_at_rated_conditions : forall psy u c v,
  uses_table u -> c_mass_airflow_ratio c = Some 1 ->
  (ps_wb (c_indoor c) = Some (fr_F 67) ->
     (resnet_gross_total_cooling_capacity psy u c = Ok v
        -> table_value cooling_capacity u c v)
     /\ (resnet_gross_cooling_power psy u c = Ok v -> table_value cooling_power u c v))
  /\ (ps_db (c_indoor c) = fr_F 70 ->
     (resnet_gross_heating_capacity psy u c = Ok v -> table_value heating_capacity u c v)
     /\ (resnet_gross_heating_power psy u c = Ok v -> table_value heating_power u c v)).
Proof. exact rn_rated. Qed.
Print Assumptions C35_table_value_at_rated_conditions.

Example C35_nonvacuous : exists g,
  let u := toy_table_unit g in
  let c := toy_cond (fr_F 70) (fr_F 67) 310 1 in
  uses_table u
  /\ resnet_gross_total_cooling_capacity toy_psy u c = Ok 12
  /\ resnet_gross_heating_capacity toy_psy u c = Ok 12
  /\ resnet_gross_cooling_power toy_psy u c = Ok 12
  /\ resnet_gross_heating_power toy_psy u c = Ok 12.
Proof. exact table_example. Qed.

(** * C57 *)
Theorem C57_cache_is_unobservable : forall sol u, sd_n (u_h u) = 1%nat ->
  forall h m c v,
  snd (t24_call sol m u c (t24_after sol u h blank_t24)) = Ok v
  <-> snd (t24_call sol m u c blank_t24) = Ok v.
Proof. exact call_history_free. Qed.
Print Assumptions C57_cache_is_unobservable.

Example C57_nonvacuous : forall sol,
  let u := t24_unit [] in
  sd_n (u_h u) = 1%nat
  /\ (exists v, snd (t24_call sol IntegratedCapacity u (toy_cond 294 289 270 1) blank_t24) = Ok v)
  /\ t24_after sol u [(IntegratedCapacity, toy_cond 294 289 280 1)] blank_t24 <> blank_t24.
Proof. exact t24_cache_example. Qed.
