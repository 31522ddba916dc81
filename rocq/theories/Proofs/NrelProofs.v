(** Proofs about the NREL curves, charge factors and defrost (C28-C31). *)
From Coq Require Import Reals QArith Lra Psatz Lia List Bool.
From Verif.Base Require Import Num Res Tac.
From Verif.Model Require Import Units Util Psychrometrics Conditions Defrost Fan Curves
  Tabular Unit NREL.
From Verif.Spec Require Import NrelSpec.
From Verif.Proofs Require Import UnitsR MakeCond.
Import ListNotations.
Local Open Scope R_scope.

Lemma to_F_degF (t : R) : to_F t = degF t.
Proof. unfold to_F, degF. rnum. lra. Qed.
Lemma to_C_degC (t : R) : to_C t = degC t.
Proof. unfold to_C, degC. rnum. lra. Qed.

Ltac curve := intros; cbv [calc_biquad calc_quad COOLING_CAP_FT COOLING_EIR_FT HEATING_CAP_FT
   HEATING_EIR_FT COOLING_CAP_FF COOLING_EIR_FF HEATING_CAP_FF HEATING_EIR_FF
   cool_cap_T cool_eir_T heat_cap_T heat_eir_T cool_cap_flow cool_eir_flow heat_cap_flow
   heat_eir_flow]; rnum; cbn [pow]; lra.
Lemma cct_eq x y : calc_biquad (T:=R) COOLING_CAP_FT x y = cool_cap_T x y. Proof. curve. Qed.
Lemma cet_eq x y : calc_biquad (T:=R) COOLING_EIR_FT x y = cool_eir_T x y. Proof. curve. Qed.
Lemma hct_eq x y : calc_biquad (T:=R) HEATING_CAP_FT x y = heat_cap_T x y. Proof. curve. Qed.
Lemma het_eq x y : calc_biquad (T:=R) HEATING_EIR_FT x y = heat_eir_T x y. Proof. curve. Qed.
Lemma ccf_eq r : calc_quad (T:=R) COOLING_CAP_FF r = cool_cap_flow r. Proof. curve. Qed.
Lemma cef_eq r : calc_quad (T:=R) COOLING_EIR_FF r = cool_eir_flow r. Proof. curve. Qed.
Lemma hcf_eq r : calc_quad (T:=R) HEATING_CAP_FF r = heat_cap_flow r. Proof. curve. Qed.
Lemma hef_eq r : calc_quad (T:=R) HEATING_EIR_FF r = heat_eir_flow r. Proof. curve. Qed.
Ltac curves := rewrite ?cct_eq, ?cet_eq, ?hct_eq, ?het_eq, ?ccf_eq, ?cef_eq, ?hcf_eq, ?hef_eq.

Lemma flow_one : cool_cap_flow 1 = 1 /\ cool_eir_flow 1 = 1 /\ heat_cap_flow 1 = 1
  /\ heat_eir_flow 1 = 1.
Proof. unfold cool_cap_flow, cool_eir_flow, heat_cap_flow, heat_eir_flow. lra. Qed.

Lemma bracket_clamp (x lo hi : R) : lo <= hi -> bracket x (Some lo) (Some hi) = clamp lo hi x.
Proof.
  intros H. unfold bracket, clamp. rnum. unfold Rmax, Rmin.
  destruct (Rltb_spec hi x), (Rltb_spec x lo), (Rle_dec hi x);
    repeat match goal with |- context [Rle_dec ?a ?b] => destruct (Rle_dec a b) end; lra.
Qed.
Lemma bracket_low (x lo : R) : bracket x (Some lo) None = Rmax lo x.
Proof.
  unfold bracket. rnum. unfold Rmax. destruct (Rltb_spec x lo), (Rle_dec lo x); lra.
Qed.

Lemma lit_57 : lit (T:=R) 57 = 57. Proof. rnum. lra. Qed.
Lemma lit_72 : lit (T:=R) 72 = 72. Proof. rnum. lra. Qed.
Lemma lit_75 : lit (T:=R) 75 = 75. Proof. rnum. lra. Qed.

Lemma cooling_temps c w : ps_wb (c_indoor c) = Some w ->
  cooling_temperatures (T:=R) c = Ok (curve_wb w, curve_odb (ps_db (c_outdoor c))).
Proof.
  intros H. unfold cooling_temperatures, wb_of, obs, get_wb, sread.
  rewrite H. cbn [need rbind snd].
  rewrite lit_57, lit_72, lit_75, bracket_clamp, bracket_low by lra.
  rewrite !to_F_degF. reflexivity.
Qed.

Lemma arr_ok (l : list (option R)) i x : arr l i = Ok x <-> entry l i x.
Proof.
  unfold arr, entry. rewrite rbind_ok. split.
  - intros (o & H1 & H2). apply geti_ok in H1. apply need_ok in H2. congruence.
  - intros H. exists (Some x). split; [apply geti_ok; auto|reflexivity].
Qed.

(** * Closed forms *)
Lemma gtc_eq u c w r q :
  ps_wb (c_indoor c) = Some w -> c_mass_airflow_ratio c = Some r ->
  entry (sd_gross_cap (u_c u)) (c_speed c) q ->
  nrel_gross_total_cooling_capacity u c
  = Ok (cool_cap_flow r * (cool_cap_T (curve_wb w) (curve_odb (ps_db (c_outdoor c))) * q)).
Proof.
  intros Hw Hr Hq. unfold nrel_gross_total_cooling_capacity.
  rewrite (cooling_temps c w Hw), Hr. apply arr_ok in Hq. cbn [rbind need]. rewrite Hq.
  cbn [rbind fst snd nmul RNum]. curves. f_equal. ring.
Qed.

Lemma limit_check_pos (x : R) : 0 <= x -> limit_check x (Some (lit 0)) None = Ok x.
Proof.
  intros H. unfold limit_check. rewrite lit0_R. cbn [nltb RNum].
  destruct (Rltb_spec x 0); [lra|reflexivity].
Qed.
Lemma limit_check_neg (x : R) : x < 0 -> limit_check x (Some (lit 0)) None = Err PyException.
Proof.
  intros H. unfold limit_check. rewrite lit0_R. cbn [nltb RNum].
  destruct (Rltb_spec x 0); [reflexivity|lra].
Qed.
Lemma limit_check_inv (x v : R) : limit_check x (Some (lit 0)) None = Ok v -> v = x /\ 0 <= x.
Proof.
  destruct (Rlt_dec x 0).
  - rewrite limit_check_neg by auto. discriminate.
  - rewrite limit_check_pos by lra. intros H. inv_ok. lra.
Qed.

Lemma gcp_eq u c w r q cop :
  ps_wb (c_indoor c) = Some w -> c_mass_airflow_ratio c = Some r ->
  entry (sd_gross_cap (u_c u)) (c_speed c) q ->
  entry (sd_gross_cop (u_c u)) (c_speed c) cop -> cop <> 0 ->
  nrel_gross_cooling_power u c =
  let wb := curve_wb w in
  let odb := curve_odb (ps_db (c_outdoor c)) in
  limit_check (cool_eir_flow r * cool_cap_flow r
               * (cool_eir_T wb odb * cool_cap_T wb odb * (q / cop))) (Some (lit 0)) None.
Proof.
  intros Hw Hr Hq Hc Hn. unfold nrel_gross_cooling_power.
  rewrite (cooling_temps c w Hw), Hr. apply arr_ok in Hq. apply arr_ok in Hc.
  cbn [rbind need]. rewrite Hq. cbn [rbind]. rewrite Hc.
  cbn [rbind fst snd nmul RNum]. curves. rewrite pydiv_ok by auto. cbn [rbind].
  f_equal. field; auto.
Qed.

Lemma ghc_eq u c r q :
  c_mass_airflow_ratio c = Some r ->
  entry (sd_gross_cap (u_h u)) (c_speed c) q ->
  nrel_gross_heating_capacity u c
  = Ok (heat_cap_flow r * (heat_cap_T (degF (ps_db (c_indoor c))) (degF (ps_db (c_outdoor c)))
                           * q)).
Proof.
  intros Hr Hq. unfold nrel_gross_heating_capacity.
  rewrite Hr. apply arr_ok in Hq. cbn [rbind need]. rewrite Hq.
  cbn [rbind nmul RNum]. curves. rewrite !to_F_degF. f_equal. ring.
Qed.

Lemma ghp_eq u c r q cop :
  c_mass_airflow_ratio c = Some r ->
  entry (sd_gross_cap (u_h u)) (c_speed c) q ->
  entry (sd_gross_cop (u_h u)) (c_speed c) cop -> cop <> 0 ->
  nrel_gross_heating_power u c =
  let idb := degF (ps_db (c_indoor c)) in
  let odb := degF (ps_db (c_outdoor c)) in
  Ok (heat_eir_flow r * heat_cap_flow r
      * (heat_eir_T idb odb * heat_cap_T idb odb * (q / cop))).
Proof.
  intros Hr Hq Hc Hn. unfold nrel_gross_heating_power.
  rewrite Hr. apply arr_ok in Hq. apply arr_ok in Hc.
  cbn [rbind need]. rewrite Hq. cbn [rbind]. rewrite Hc.
  cbn [rbind nmul RNum]. curves. rewrite !to_F_degF. rewrite pydiv_ok by auto.
  f_equal. field; auto.
Qed.

(** * C29 *)
Lemma clamped_equal u c c' w w' :
  ps_wb (c_indoor c) = Some w -> ps_wb (c_indoor c') = Some w' ->
  curve_wb w = curve_wb w' ->
  curve_odb (ps_db (c_outdoor c)) = curve_odb (ps_db (c_outdoor c')) ->
  c_speed c = c_speed c' -> c_mass_airflow_ratio c = c_mass_airflow_ratio c' ->
  nrel_gross_total_cooling_capacity u c = nrel_gross_total_cooling_capacity u c'
  /\ nrel_gross_cooling_power u c = nrel_gross_cooling_power u c'.
Proof.
  intros Hw Hw' E1 E2 E3 E4.
  unfold nrel_gross_total_cooling_capacity, nrel_gross_cooling_power.
  rewrite (cooling_temps c w Hw), (cooling_temps c' w' Hw'), E1, E2, E3, E4. auto.
Qed.

Lemma curve_wb_mono w w' : w <= w' -> 57 <= curve_wb w <= curve_wb w' /\ curve_wb w' <= 72.
Proof.
  intros H. unfold curve_wb, clamp, degF.
  repeat match goal with
  | |- context [Rmin ?a ?b] => unfold Rmin at 1; destruct (Rle_dec a b)
  | |- context [Rmax ?a ?b] => unfold Rmax at 1; destruct (Rle_dec a b)
  end; lra.
Qed.
Lemma curve_odb_ge t : 75 <= curve_odb t.
Proof. unfold curve_odb, Rmax. destruct (Rle_dec _ _); lra. Qed.

Lemma cool_cap_T_mono x x' y :
  0.09918866 + 0.000132822 * y <= 0.000964488 * (2 * x) -> x <= x' ->
  cool_cap_T x y <= cool_cap_T x' y.
Proof.
  intros H1 H2. unfold cool_cap_T.
  assert (E : 0 <= (x' - x) * (0.000964488 * (x + x') - 0.09918866 - 0.000132822 * y)).
  { apply Rmult_le_pos; lra. }
  nra.
Qed.

Lemma gtc_mono u c c' w w' r q v v' :
  ps_wb (c_indoor c) = Some w -> ps_wb (c_indoor c') = Some w' ->
  c_mass_airflow_ratio c = Some r -> c_mass_airflow_ratio c' = Some r ->
  c_speed c = c_speed c' -> ps_db (c_outdoor c) = ps_db (c_outdoor c') ->
  entry (sd_gross_cap (u_c u)) (c_speed c) q -> 0 <= q -> 0 <= cool_cap_flow r ->
  0.09918866 + 0.000132822 * curve_odb (ps_db (c_outdoor c))
    <= 0.000964488 * (2 * curve_wb w) ->
  w <= w' ->
  nrel_gross_total_cooling_capacity u c = Ok v ->
  nrel_gross_total_cooling_capacity u c' = Ok v' -> v <= v'.
Proof.
  intros Hw Hw' Hr Hr' Es Eo Hq Hq0 Hf Hv Hle E E'.
  rewrite (gtc_eq u c w r q Hw Hr Hq) in E.
  rewrite Es in Hq. rewrite (gtc_eq u c' w' r q Hw' Hr' Hq) in E'.
  inv_ok. subst. rewrite Eo in *.
  apply Rmult_le_compat_l; auto. apply Rmult_le_compat_r; auto.
  apply cool_cap_T_mono; auto.
  apply curve_wb_mono in Hle. lra.
Qed.

Lemma gtc_mono_mild u c c' w w' r q v v' :
  ps_wb (c_indoor c) = Some w -> ps_wb (c_indoor c') = Some w' ->
  c_mass_airflow_ratio c = Some r -> c_mass_airflow_ratio c' = Some r ->
  c_speed c = c_speed c' -> ps_db (c_outdoor c) = ps_db (c_outdoor c') ->
  entry (sd_gross_cap (u_c u)) (c_speed c) q -> 0 <= q -> 0 <= cool_cap_flow r ->
  (degF (ps_db (c_outdoor c)) <= 81
   \/ 61 <= degF w /\ degF (ps_db (c_outdoor c)) <= 135) ->
  w <= w' ->
  nrel_gross_total_cooling_capacity u c = Ok v ->
  nrel_gross_total_cooling_capacity u c' = Ok v' -> v <= v'.
Proof.
  intros Hw Hw' Hr Hr' Es Eo Hq Hq0 Hf Hcase Hle E E'.
  refine (gtc_mono u c c' w w' r q v v' Hw Hw' Hr Hr' Es Eo Hq Hq0 Hf _ Hle E E').
  destruct (curve_wb_mono w w') as [[H1 _] _]; auto.
  set (t := ps_db (c_outdoor c)) in *.
  destruct Hcase as [H|[H H']].
  - assert (curve_odb t <= 81).
    { unfold curve_odb, Rmax. destruct (Rle_dec _ _); lra. }
    lra.
  - assert (curve_odb t <= 135).
    { unfold curve_odb, Rmax. destruct (Rle_dec _ _); lra. }
    assert (61 <= curve_wb w).
    { unfold curve_wb, clamp, Rmax, Rmin. destruct (Rle_dec 72 (degF w)); destruct (Rle_dec _ _); lra. }
    lra.
Qed.

(** At 95 F outdoors, raising the wet bulb from 57 F to 57.5 F lowers the value. *)
Lemma cool_cap_T_drops : cool_cap_T 57.5 95 < cool_cap_T 57 95.
Proof. unfold cool_cap_T. lra. Qed.

(** * C30 *)
Lemma domanski_eq m capacity (ti to f : R) :
  domanski_charge_factor ti to f (charge_coeffs m capacity) = charge_only m capacity ti to f.
Proof.
  unfold domanski_charge_factor, charge_only. rewrite lit0_R. cbn [nltb RNum].
  destruct (Rltb_spec f 0), (Rlt_dec f 0); try lra;
    destruct m, capacity; cbv [charge_coeffs fst snd charge_poly]; rnum; lra.
Qed.

Lemma grading_zero psy m capacity fn u c :
  u_charge u = 0 -> resnet_grading_model psy m capacity fn u c = Ok 1.
Proof.
  intros H. unfold resnet_grading_model. rewrite H, lit0_R. cbn [neqb RNum].
  destruct (Reqb_spec 0 0); [|lra]. f_equal. rnum. lra.
Qed.

Lemma grading_rated psy m capacity fn u c v :
  c_mass_airflow_ratio c = Some 1 ->
  resnet_grading_model psy m capacity fn u c = Ok v ->
  v = charge_only m capacity (degC (ps_db (c_indoor c))) (degC (ps_db (c_outdoor c)))
        (u_charge u).
Proof.
  intros Hr H. unfold resnet_grading_model in H.
  rewrite lit0_R in H. cbn [neqb RNum] in H.
  destruct (Reqb_spec (u_charge u) 0) as [E0|E0].
  - inv_ok. subst. rewrite E0.
    unfold charge_only. destruct (Rlt_dec 0 0); [lra|].
    destruct m, capacity; unfold charge_poly; rnum; lra.
  - apply rbind_ok in H. destruct H as (rc & Hrc & H).
    apply rbind_ok in H. destruct H as (rated & Hrated & H).
    apply rbind_ok in H. destruct H as (cf & Hcf & H).
    cbv beta zeta in H.
    apply rbind_ok in H. destruct H as (fac & Hfac & H).
    rewrite Hr in H. cbn [rbind need] in H.
    apply rbind_ok in H. destruct H as (fa & Hfa & H).
    apply rbind_ok in H. destruct H as (fc & Hfc & H).
    apply rbind_ok in H. destruct H as (x & Hx & H).
    assert (E1 : fa = fac).
    { cbn [nmul RNum] in Hfa. rewrite Rmult_1_l in Hfa. congruence. }
    subst fa.
    assert (E2 : fc = 1).
    { rewrite (make_condition_ratio1 psy m u _ _ _ _ Hrc) in Hfc. cbn [rbind] in Hfc.
      rewrite Hrated in Hfc. cbn [rbind] in Hfc.
      apply pydiv_inv in Hfc. destruct Hfc as [Hn ->]. field; auto. }
    subst fc.
    apply pydiv_inv in Hx. destruct Hx as [Hn ->].
    apply pydiv_inv in H. destruct H as [_ ->].
    rewrite domanski_eq. unfold db_C. cbn [nmul RNum].
    rewrite (to_C_degC (ps_db (c_indoor c))), (to_C_degC (ps_db (c_outdoor c))). field; auto.
Qed.

(** * C31 *)
Lemma coil_diff_pos psy c d : coil_diff_outdoor_air_humidity (T:=R) psy c = Ok d -> 0 < d.
Proof.
  unfold coil_diff_outdoor_air_humidity. intros H. inv_ok. subst.
  rnum. destruct (Rltb_spec (/ 1000000 * 1) (v0 - v)); rcases; lra.
Qed.

Lemma epri_bounds psy c t : epri_defrost_time_fraction (T:=R) psy c = Ok t -> 0 < t < 1.
Proof.
  unfold epri_defrost_time_fraction. intros H.
  apply rbind_ok in H. destruct H as (d & Hd & H).
  apply coil_diff_pos in Hd.
  apply rbind_ok in H. destruct H as (q & Hq & H).
  apply pydiv_inv in Hq. destruct Hq as [_ ->].
  apply pydiv_inv in H. destruct H as [_ ->].
  assert (E : 0 < lit (T:=R) 0.01446 / d).
  { apply Rdiv_lt_0_compat; auto. rnum. lra. }
  set (q := lit 0.01446 / d) in *. clearbody q.
  rewrite lit1_R. cbn [nadd RNum].
  split.
  - apply Rdiv_lt_0_compat; lra.
  - apply (Rmult_lt_reg_r (1 + q)); [lra|]. unfold Rdiv.
    rewrite Rmult_assoc, Rinv_l by lra. lra.
Qed.

Lemma mult_bounds psy d c t mult :
  0 <= t <= 1 ->
  match df_control (T:=R) d with
  | DCTimed => let! x := coil_diff_outdoor_air_humidity psy c in
               Ok (lit 0.909 - lit 107.33 * x)%num
  | _ => Ok (lit 0.875 * (lit 1 - t))%num
  end = Ok mult ->
  mult <= 1
  /\ (t < 1 ->
      (forall x, coil_diff_outdoor_air_humidity psy c = Ok x -> x <= 0.0084) -> 0 < mult).
Proof.
  intros Ht H. destruct (df_control d) eqn:Ec.
  - inv_ok. subst. rnum. split; intros; lra.
  - apply rbind_ok in H. destruct H as (x & Hx & H). inv_ok. subst.
    pose proof (coil_diff_pos _ _ _ Hx) as Hp. split.
    + rnum. lra.
    + intros _ Hb. apply Hb in Hx. rnum. lra.
  - inv_ok. subst. rnum. split; intros; lra.
Qed.

(** During defrost the integrated capacity is at most the steady-state one. *)
Lemma integrated_le psy steady u c t s v :
  in_defrost (u_defrost u) c = true ->
  df_time_fraction (u_defrost u) c = Ok t -> 0 <= t <= 1 ->
  steady u c = Ok s -> 0 <= s ->
  (df_strategy (u_defrost u) = DSReverseCycle ->
   degC (ps_db (c_outdoor c)) <= 7.222
   /\ forall q, entry (sd_gross_cap (u_h u)) (c_speed c) q -> 0 <= q) ->
  nrel_gross_integrated_heating_capacity psy steady u c = Ok v -> v <= s.
Proof.
  intros Hd Ht Hb Hs Hs0 Hrc H. unfold nrel_gross_integrated_heating_capacity in H.
  rewrite Hd, Ht in H. cbn [rbind] in H.
  apply rbind_ok in H. destruct H as (mult & Hm & H).
  apply rbind_ok in H. destruct H as (qd & Hqd & H).
  rewrite Hs in H. cbn [rbind] in H. inv_ok. subst v.
  apply mult_bounds in Hm; auto. destruct Hm as [Hm _].
  assert (Hq : 0 <= qd).
  { destruct (df_strategy (u_defrost u)) eqn:Es.
    - inv_ok. subst. rewrite lit0_R. lra.
    - destruct (Hrc eq_refl) as [H1 H2].
      apply rbind_ok in Hqd. destruct Hqd as (q & Hq & Hqd).
      apply arr_ok in Hq. apply H2 in Hq. inv_ok. subst.
      rewrite to_C_degC. rnum.
      apply Rmult_le_pos; [apply Rmult_le_pos; lra|]. lra.
    - inv_ok. subst. rewrite lit0_R. lra. }
  rewrite lit1_R. cbn [nadd nsub nmul RNum].
  assert (0 <= qd * t) by nra.
  assert (s * mult * (1 - t) <= s).
  { assert (s * mult <= s) by nra.
    destruct (Rle_dec 0 (s * mult)); nra. }
  lra.
Qed.

(** Without reverse-cycle defrost it stays positive. *)
Lemma integrated_pos psy steady u c t s v :
  in_defrost (u_defrost u) c = true ->
  df_time_fraction (u_defrost u) c = Ok t -> 0 <= t < 1 ->
  steady u c = Ok s -> 0 < s ->
  df_strategy (u_defrost u) <> DSReverseCycle ->
  (forall x, coil_diff_outdoor_air_humidity psy c = Ok x -> x <= 0.0084) ->
  nrel_gross_integrated_heating_capacity psy steady u c = Ok v -> 0 < v.
Proof.
  intros Hd Ht Hb Hs Hs0 Hrc Hx H. unfold nrel_gross_integrated_heating_capacity in H.
  rewrite Hd, Ht in H. cbn [rbind] in H.
  apply rbind_ok in H. destruct H as (mult & Hm & H).
  apply rbind_ok in H. destruct H as (qd & Hqd & H).
  rewrite Hs in H. cbn [rbind] in H. inv_ok. subst v.
  apply mult_bounds in Hm; [|lra]. destruct Hm as [_ Hm].
  specialize (Hm (proj2 Hb) Hx).
  assert (Hq : qd = 0).
  { destruct (df_strategy (u_defrost u)) eqn:Es; try congruence; inv_ok; subst; apply lit0_R. }
  subst qd. rewrite lit1_R. cbn [nadd nsub nmul RNum].
  assert (0 < s * mult) by nra.
  assert (0 < s * mult * (1 - t)) by (apply Rmult_lt_0_compat; lra).
  lra.
Qed.

Lemma integrated_outside psy steady u c :
  in_defrost (u_defrost u) c = false ->
  nrel_gross_integrated_heating_capacity (T:=R) psy steady u c = steady u c
  /\ nrel_gross_integrated_heating_power psy steady u c = steady u c.
Proof.
  intros H. unfold nrel_gross_integrated_heating_capacity, nrel_gross_integrated_heating_power.
  rewrite H. auto.
Qed.

(** The reverse-cycle branch of the integrated power never returns. *)
Lemma integrated_power_raises psy steady u c v :
  in_defrost (u_defrost u) c = true -> df_strategy (u_defrost u) = DSReverseCycle ->
  nrel_gross_integrated_heating_power (T:=R) psy steady u c <> Ok v.
Proof.
  intros Hd Hs H. unfold nrel_gross_integrated_heating_power in H. rewrite Hd, Hs in H.
  apply rbind_ok in H. destruct H as (t & _ & H).
  apply rbind_ok in H. destruct H as (m & _ & H). discriminate H.
Qed.
