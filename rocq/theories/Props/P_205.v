(** C54, C63-C65: the ASHRAE 205 export. *)
From Coq Require Import ZArith QArith Reals Lra List String Bool Sorting.
From Verif.Base Require Import Num Res Tac.
From Verif.Model Require Import Units Util Psychrometrics Conditions Defrost Fan Tabular Unit
  DXUnit BaseModel Repr205.
From Verif.Spec Require Import IdfSpec Repr205Spec.
From Verif.Proofs Require Import Repr205Proofs Repr205Proofs2 ToyBuild ToyIdf Toy205 Control205.
Import ListNotations.
Local Open Scope R_scope.

(** ** C54 *)

(** The lookup arrays fill the grid in row-major order, and compressor sequence
    number [k] is unit speed [n - k] (in [grid_condition]). *)
Theorem C54_cooling_map_layout : forall psy sol M (u : dxunit R) r,
  generate_205_representation psy sol M u = Ok r ->
  let m := r_cooling r in
  g_sequence m = seq 1 (sd_n (u_c u)) /\
  fills (cooling_dims m) (l_total m) /\ fills (cooling_dims m) (l_sensible m) /\
  fills (cooling_dims m) (l_power m) /\ fills (cooling_dims m) (l_state m) /\
  forall i1 i2 i3 i4 i5 i6 t_o rh t_i m_dot k p,
    nth_error (g_outdoor m) i1 = Some t_o -> nth_error (g_humidity m) i2 = Some rh ->
    nth_error (g_indoor m) i3 = Some t_i -> nth_error (g_flow m) i4 = Some m_dot ->
    nth_error (g_sequence m) i5 = Some k -> nth_error (g_pressure m) i6 = Some p ->
    let entry {A} (l : list A) := value_at (cooling_dims m) [i1; i2; i3; i4; i5; i6] l in
    exists c q s w,
      grid_condition psy u t_o rh t_i m_dot k p c /\
      gross_total_cooling_capacity M u (Some c) = Ok q /\ entry (l_total m) = Some q /\
      gross_sensible_cooling_capacity M u (Some c) = Ok s /\ entry (l_sensible m) = Some s /\
      gross_cooling_power M u (Some c) = Ok w /\ entry (l_power m) = Some w /\
      entry (l_state m) = Some "NORMAL"%string.
Proof. exact repr_layout. Qed.
Print Assumptions C54_cooling_map_layout.

(** The hypothesis of C54 holds of a two-speed unit; its first grid point is the instance of C64. *)
Example C54_C64_nonvacuous :
  exists r, generate_205_representation lin_psy lin_sol flow_model (idf_unit 255) = Ok r.
Proof. exact (repr_works 255). Qed.

(** ** C64 *)

(** The mass airflow of a grid condition is the one of the grid, but its airflow
    ratio, the one the performance functions use, is the inverse of what it should
    be. *)
Theorem C64_grid_mass_flow : forall psy (u : dxunit R) t_o rh t_i m_dot k p c,
  grid_condition psy u t_o rh t_i m_dot k p c ->
  exists rated, c_rated_mass_airflow c = Some rated /\ c_mass_airflow c = Some m_dot /\
    c_mass_airflow_ratio c = Some (rated / m_dot).
Proof. exact grid_flow. Qed.
Print Assumptions C64_grid_mass_flow.

(** So the exported capacity is not the capacity at the grid's mass flow: here the
    capacity is proportional to the airflow, and setting the airflow by its ratio
    gives the same mass flow but another capacity. *)
Theorem C64_capacity_at_mass_flow_refuted :
  exists (r : unit_repr R) t_o rh t_i m_dot p o i c0 c q,
    generate_205_representation lin_psy lin_sol flow_model (idf_unit 255) = Ok r /\
    nth_error (g_outdoor (r_cooling r)) 0 = Some t_o /\
    nth_error (g_humidity (r_cooling r)) 0 = Some rh /\
    nth_error (g_indoor (r_cooling r)) 0 = Some t_i /\
    nth_error (g_flow (r_cooling r)) 0 = Some m_dot /\
    nth_error (g_sequence (r_cooling r)) 0 = Some 1%nat /\
    nth_error (g_pressure (r_cooling r)) 0 = Some p /\
    PsychState lin_psy t_o p [("rel_hum"%string, lit 0.4)] = Ok o /\
    PsychState lin_psy t_i p [("rel_hum"%string, rh)] = Ok i /\
    make_condition lin_psy Cooling (idf_unit 255) (sd_n (u_c (idf_unit 255)) - 1)
      (Some i) (Some o) = Ok c0 /\
    (exists rated, c_rated_mass_airflow c0 = Some rated /\
       ex (set_mass_airflow_ratio lin_psy (m_dot / rated)) c0 = Ok c) /\
    c_mass_airflow c = Some m_dot /\
    gross_total_cooling_capacity flow_model (idf_unit 255) (Some c) = Ok q /\
    value_at (cooling_dims (r_cooling r)) [0; 0; 0; 0; 0; 0]%nat (l_total (r_cooling r))
      <> Some q.
Proof. exact (flow_wrong 255). Qed.
Print Assumptions C64_capacity_at_mass_flow_refuted.

(** ** C63 *)

(** Fan speed number [k] is the fan's [k]-th slowest speed, and every lookup array
    holds that speed's values in row-major order. *)
Theorem C63_fan_map_layout : forall psy sol M (u : dxunit R) r,
  generate_205_representation psy sol M u = Ok r ->
  exists f order, u_fan u = Some f /\ get_speed_order_map sol f = Ok order /\
  let m := r_fan r in
    fr_speed_number m = seq 1 (f_n f) /\
    (exists top, evenly_spaced 0 top 6 (fr_pressure m) /\
       (match f_class f with PSCFan => False | _ => True end -> top = fr_inH2O 1.2)) /\
    fills (fan_dims m) (fr_power m) /\ fills (fan_dims m) (fr_flow m) /\
    fills (fan_dims m) (fr_rotation m) /\ fills (fan_dims m) (fr_state m) /\
    (forall k p j, (1 <= k <= f_n f)%nat -> nth_error (fr_pressure m) j = Some p ->
       let entry {A} (l : list A) := value_at (fan_dims m) [(k - 1)%nat; j] l in
       exists i w a x,
         nth_error order (k - 1) = Some i /\
         power sol f i (Some p) = Ok w /\ entry (fr_power m) = Some w /\
         airflow sol f i (Some p) = Ok a /\ entry (fr_flow m) = Some a /\
         rotational_speed sol f i (Some p) = Ok x /\ entry (fr_rotation m) = Some (to_rps x) /\
         entry (fr_state m) = Some "NORMAL"%string) /\
    exists i, last (map Some order) None = Some i /\
      airflow sol f i (Some (f_design_esp f)) = Ok (fr_nominal m).
Proof. exact repr_fan. Qed.
Print Assumptions C63_fan_map_layout.

(** Without external pressure a higher speed number never moves less air. *)
Theorem C63_fan_map_ordered : forall psy sol M (u : dxunit R) r,
  generate_205_representation psy sol M u = Ok r ->
  let m := r_fan r in
  forall k k', (1 <= k <= k')%nat -> (k' <= List.length (fr_speed_number m))%nat ->
  exists a a', value_at (fan_dims m) [(k - 1)%nat; 0%nat] (fr_flow m) = Some a /\
    value_at (fan_dims m) [(k' - 1)%nat; 0%nat] (fr_flow m) = Some a' /\ a <= a'.
Proof. exact repr_fan_sorted. Qed.
Print Assumptions C63_fan_map_ordered.

Example C63_nonvacuous : exists r,
  generate_205_representation lin_psy lin_sol flow_model (idf_unit 255) = Ok r /\
  (1 <= 2 <= List.length (fr_speed_number (r_fan r)))%nat.
Proof. exact (repr_two_fan_speeds 255). Qed.

(** ** C65 *)

(** The grid covers 55-125 F outdoors, 65-90 F and 0-100 % humidity indoors, 280
    cfm/ton at the lowest speed to 500 cfm/ton at full speed, and 57 to 107 kPa. *)
Theorem C65_grid_axes : forall psy sol M (u : dxunit R) r,
  generate_205_representation psy sol M u = Ok r ->
  let m := r_cooling r in
  exists q_first q_last rho,
    nth_error (sd_net_cap (u_c u)) 0 = Some q_first /\
    last (map Some (sd_net_cap (u_c u))) None = Some q_last /\ std_rho psy = Ok rho /\
    evenly_spaced (fr_F 55) (fr_F 125) 4 (g_outdoor m) /\
    evenly_spaced 0 1 4 (g_humidity m) /\
    evenly_spaced (fr_F 65) (fr_F 90) 4 (g_indoor m) /\
    evenly_spaced (fr_cfm_per_ton 280 * q_last * rho) (fr_cfm_per_ton 500 * q_first * rho) 4
      (g_flow m) /\
    evenly_spaced 57226.508 106868.78 4 (g_pressure m).
Proof. exact repr_axes. Qed.
Print Assumptions C65_grid_axes.

(** All grid axes increase strictly, as the standard requires; for the airflow axis
    the lowest speed must have less than 500/280 of the full capacity. *)
Theorem C65_axes_increase : forall psy sol M (u : dxunit R) r,
  generate_205_representation psy sol M u = Ok r ->
  let m := r_cooling r in
  StronglySorted Rlt (g_outdoor m) /\ StronglySorted Rlt (g_humidity m) /\
  StronglySorted Rlt (g_indoor m) /\ StronglySorted Rlt (g_pressure m) /\
  StronglySorted lt (g_sequence m) /\
  forall q_first q_last rho,
    nth_error (sd_net_cap (u_c u)) 0 = Some q_first ->
    last (map Some (sd_net_cap (u_c u))) None = Some q_last -> std_rho psy = Ok rho ->
    0 < rho -> 280 * q_last < 500 * q_first -> StronglySorted Rlt (g_flow m).
Proof. exact repr_axes_increase. Qed.
Print Assumptions C65_axes_increase.

Example C65_nonvacuous :
  (exists r, generate_205_representation lin_psy lin_sol flow_model (idf_unit 255) = Ok r) /\
  nth_error (sd_net_cap (u_c (idf_unit 255))) 0 = Some 10000 /\
  last (map Some (sd_net_cap (u_c (idf_unit 255)))) None = Some 6000 /\
  std_rho lin_psy = Ok 1.2 /\ 0 < 1.2 /\ 280 * 6000 < 500 * 10000.
Proof. exact (repr_flow_axis 255). Qed.

(** ** C66 *)

(** The standby table read at any outdoor temperature gives the crankcase heater
    power below its set point and nothing above, up to half a degree. *)
Theorem C66_standby_power : forall psy sol M (u : dxunit R) r crank,
  generate_205_representation psy sol M u = Ok r -> u_crank u = Some crank ->
  forall t, exists w, read_two_points (r_standby_outdoor r) (r_standby_power r) t = Some w /\
    (t <= u_crank_setpoint u - 1 / 2 -> w = crank) /\
    (u_crank_setpoint u + 1 / 2 <= t -> w = 0) /\
    (0 <= crank -> 0 <= w <= crank).
Proof. exact standby_map. Qed.
Print Assumptions C66_standby_power.

(** The cycling degradation is the unit's for cooling; the number of cooling speeds, not the staging
    type, decides whether the compressor counts as continuously controlled. *)
Theorem C66_compressor_control : forall psy sol M (u : dxunit R) r,
  generate_205_representation psy sol M u = Ok r ->
  r_degradation r = sd_cd (u_c u)
  /\ (r_control r = "DISCRETE"%string <-> (sd_n (u_c u) <= 2)%nat)
  /\ (r_control r = "CONTINUOUS"%string <-> (3 <= sd_n (u_c u))%nat).
Proof. exact control_exported. Qed.
Print Assumptions C66_compressor_control.

Example C66_nonvacuous :
  (exists r, generate_205_representation lin_psy lin_sol flow_model (idf_unit 255) = Ok r) /\
  u_crank (idf_unit 255) = Some 20.
Proof. exact (conj (repr_works 255) eq_refl). Qed.
