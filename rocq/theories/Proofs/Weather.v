(** Lemmas for C106: performance under hotter, colder and windier conditions. *)
From Coq Require Import String Reals QArith Lra Psatz List.
From Verif.Base Require Import Num Res Tac.
From Verif.Model Require Import Units Util Psychrometrics Conditions Defrost Fan Unit NREL BaseModel Resnet DXUnit.
From Verif.Spec Require Import NrelSpec WeatherSpec.
From Verif.Proofs Require Import UnitsR NrelProofs NrelProofs2 HeatRatio FanCost.
Import ListNotations.
Local Open Scope R_scope.

(** * Signs of the curves *)
Lemma wb_range w : 57 <= curve_wb w <= 72.
Proof. unfold curve_wb, clamp, Rmax, Rmin. repeat destruct Rle_dec; lra. Qed.
Lemma odb_range t : 75 <= curve_odb t.
Proof. unfold curve_odb, Rmax. destruct Rle_dec; lra. Qed.
Lemma odb_mono t t' : t <= t' -> curve_odb t <= curve_odb t'.
Proof. intros H. unfold curve_odb, Rmax, degF. repeat destruct Rle_dec; lra. Qed.
Lemma F_of_degF t : F_of t = degF t.
Proof. unfold F_of, degF. lra. Qed.

Lemma cap_falls w o o' : 57 <= w <= 72 -> 75 <= o <= o' -> cool_cap_T w o' <= cool_cap_T w o
  /\ (o < o' -> cool_cap_T w o' < cool_cap_T w o).
Proof.
  intros W O. assert (E : cool_cap_T w o - cool_cap_T w o' =
    (o' - o) * (-0.005887776 + 0.000012808 * (o + o') + 0.000132822 * w)) by (unfold cool_cap_T; lra).
  set (d := -0.005887776 + 0.000012808 * (o + o') + 0.000132822 * w) in *.
  assert (0 < d) by (unfold d; lra). clearbody d. split; [nra|intros L; nra].
Qed.
Lemma eir_rises w o o' : 57 <= w <= 72 -> 75 <= o <= o' -> cool_eir_T w o <= cool_eir_T w o'
  /\ (o < o' -> cool_eir_T w o < cool_eir_T w o').
Proof.
  intros W O. assert (E : cool_eir_T w o' - cool_eir_T w o =
    (o' - o) * (-0.007852322 + 0.000183438 * (o + o') - 0.000142548 * w)) by (unfold cool_eir_T; lra).
  set (d := -0.007852322 + 0.000183438 * (o + o') - 0.000142548 * w) in *.
  assert (0 < d) by (unfold d; lra). clearbody d. split; [nra|intros L; nra].
Qed.
Lemma cap_low w o : 57 <= w <= 72 -> 75 <= o <= 125 -> 0.77 <= cool_cap_T w o.
Proof.
  intros W O. destruct (cap_falls w o 125 W ltac:(lra)) as (L & _).
  assert (0.77 <= cool_cap_T w 125) by (pose proof (pow2_ge_0 (w - 60)); unfold cool_cap_T; lra). lra.
Qed.
Lemma eir_high w o : 57 <= w <= 72 -> 75 <= o <= 125 -> 0 < cool_eir_T w o <= 0.78 + 0.0215 * (o - 75).
Proof.
  intros W O. split.
  - destruct (eir_rises w 75 o W ltac:(lra)) as (L & _).
    assert (0 < cool_eir_T w 75) by (unfold cool_eir_T; nra). lra.
  - assert (cool_eir_T w 75 <= 0.78) by (pose proof (pow2_ge_0 (w - 60)); unfold cool_eir_T; lra).
    assert (E : cool_eir_T w o - cool_eir_T w 75 =
      (o - 75) * (-0.007852322 + 0.000183438 * (o + 75) - 0.000142548 * w)) by (unfold cool_eir_T; lra).
    set (d := -0.007852322 + 0.000183438 * (o + 75) - 0.000142548 * w) in *.
    assert (d <= 0.0215) by (unfold d; lra). clearbody d. nra.
Qed.
Lemma power_rises w o o' : 57 <= w <= 72 -> 75 <= o <= o' -> o' <= 125 ->
  cool_eir_T w o * cool_cap_T w o <= cool_eir_T w o' * cool_cap_T w o'
  /\ (o < o' -> cool_eir_T w o * cool_cap_T w o < cool_eir_T w o' * cool_cap_T w o').
Proof.
  intros W O O'.
  assert (E1 : cool_cap_T w o - cool_cap_T w o' =
    (o' - o) * (-0.005887776 + 0.000012808 * (o + o') + 0.000132822 * w)) by (unfold cool_cap_T; lra).
  assert (E2 : cool_eir_T w o' - cool_eir_T w o =
    (o' - o) * (-0.007852322 + 0.000183438 * (o + o') - 0.000142548 * w)) by (unfold cool_eir_T; lra).
  pose proof (cap_low w o' W ltac:(lra)) as C. pose proof (eir_high w o W ltac:(lra)) as E.
  set (dc := -0.005887776 + _ + _) in *. set (de := -0.007852322 + _ - _) in *.
  assert (DC : 0 < dc <= 0.0069) by (unfold dc; lra).
  assert (DE : 0.0093 + 0.000183438 * ((o - 75) + (o' - 75)) <= de) by (unfold de; lra).
  set (c := cool_cap_T w o) in *. set (c' := cool_cap_T w o') in *.
  set (e := cool_eir_T w o) in *. set (e' := cool_eir_T w o') in *.
  clearbody c c' e e' dc de.
  assert (K : 0 < c' * de - e * dc).
  { assert (0.77 * de <= c' * de) by (apply Rmult_le_compat_r; lra).
    assert (e * dc <= (0.78 + 0.0215 * (o - 75)) * 0.0069) by (apply Rmult_le_compat; lra). lra. }
  assert (Q : e' * c' - e * c = (o' - o) * (c' * de - e * dc)).
  { replace e' with (e + (o' - o) * de) by lra. replace c with (c' + (o' - o) * dc) by lra. ring. }
  split; [|intros L].
  - assert (0 <= (o' - o) * (c' * de - e * dc)) by (apply Rmult_le_pos; lra). lra.
  - assert (0 < (o' - o) * (c' * de - e * dc)) by (apply Rmult_lt_0_compat; lra). lra.
Qed.

Lemma cool_flow_pos r : 0 <= r <= 1.5 -> 0 < cool_cap_flow r /\ 0 < cool_eir_flow r.
Proof. intros H. unfold cool_cap_flow, cool_eir_flow. split; nra. Qed.
Lemma cool_flow_mono r r' : 0 <= r < r' -> r' <= 1.5 ->
  cool_cap_flow r < cool_cap_flow r' /\ cool_eir_flow r' < cool_eir_flow r.
Proof. intros H H'. unfold cool_cap_flow, cool_eir_flow. split; nra. Qed.
Lemma heat_flow_pos r : 0 <= r <= 1.5 -> 0 < heat_cap_flow r /\ 0 < heat_eir_flow r.
Proof. intros H. unfold heat_cap_flow, heat_eir_flow. split; nra. Qed.
Lemma heat_flow_mono r r' : 0 <= r < r' -> r' <= 1.28 ->
  heat_cap_flow r < heat_cap_flow r' /\ heat_eir_flow r' < heat_eir_flow r.
Proof. intros H H'. unfold heat_cap_flow, heat_eir_flow. split; nra. Qed.

Lemma heat_pos i o : 50 <= i <= 80 -> -40 <= o <= 65 -> 0 < heat_cap_T i o /\ 0 < heat_eir_T i o.
Proof. intros I O. unfold heat_cap_T, heat_eir_T. split; nra. Qed.
Lemma heat_outdoor i o o' : 60 <= i <= 80 -> -40 <= o < o' -> o' <= 65 ->
  heat_cap_T i o < heat_cap_T i o' /\ heat_eir_T i o' < heat_eir_T i o.
Proof. intros I O O'. unfold heat_cap_T, heat_eir_T. split; nra. Qed.
Lemma heat_indoor i i' o : 50 <= i < i' -> i' <= 80 -> -40 <= o <= 65 ->
  heat_cap_T i' o < heat_cap_T i o /\ heat_eir_T i o < heat_eir_T i' o.
Proof. intros I I' O. unfold heat_cap_T, heat_eir_T. split; nra. Qed.

(** * The unit's values *)
Section Values.
  Variables (psy : psychro R) (sol : solvers R) (M : dxmodel R) (u : dxunit R).
  Hypothesis G : by_curves psy sol M u.

  Lemma curve_values c :
    md_gtc M u c = nrel_gross_total_cooling_capacity u c /\ md_gcp M u c = nrel_gross_cooling_power u c
    /\ md_ghc M u c = nrel_gross_heating_capacity u c /\ md_ghp M u c = nrel_gross_heating_power u c
    /\ md_f_gtc M u c = Ok 1 /\ md_f_gcp M u c = Ok 1 /\ md_f_ghc M u c = Ok 1 /\ md_f_ghp M u c = Ok 1.
  Proof.
    destruct G as (Z & [->|(-> & N)]).
    - cbn [NRELDXModel md_gtc md_gcp md_ghc md_ghp md_f_gtc md_f_gcp md_f_ghc md_f_ghp].
      repeat split; apply grading_zero; exact Z.
    - cbn [RESNETDXModel md_gtc md_gcp md_ghc md_ghp md_f_gtc md_f_gcp md_f_ghc md_f_ghp].
      unfold resnet_gross_total_cooling_capacity, resnet_gross_cooling_power,
        resnet_gross_heating_capacity, resnet_gross_heating_power, resnet_value.
      rewrite N. repeat split; apply grading_zero; exact Z.
  Qed.

  Lemma cap_value c w r q0 cop q : ps_wb (c_indoor c) = Some w -> c_mass_airflow_ratio c = Some r ->
    rated_at (u_c u) (c_speed c) q0 cop -> gross_total_cooling_capacity M u (Some c) = Ok q ->
    q = cool_cap_flow r * (cool_cap_T (curve_wb w) (curve_odb (ps_db (c_outdoor c))) * q0) /\ 0 <= q.
  Proof.
    intros W R1 (Q & Q0 & C & C0) H. destruct (curve_values c) as (V & _ & _ & _ & F & _).
    unfold gross_total_cooling_capacity, checked_product in H. cbn [cooling_conditions rbind] in H.
    rewrite V, F, (gtc_eq u c w r q0 W R1 Q) in H. cbn [rbind nmul RNum] in H.
    apply limit_check_inv in H as [-> H]. rewrite Rmult_1_r in *. split; [reflexivity|exact H].
  Qed.
  Lemma pow_value c w r q0 cop p : ps_wb (c_indoor c) = Some w -> c_mass_airflow_ratio c = Some r ->
    rated_at (u_c u) (c_speed c) q0 cop -> gross_cooling_power M u (Some c) = Ok p ->
    let o := curve_odb (ps_db (c_outdoor c)) in
    p = cool_eir_flow r * cool_cap_flow r * (cool_eir_T (curve_wb w) o * cool_cap_T (curve_wb w) o * (q0 / cop)) /\ 0 <= p.
  Proof.
    intros W R1 (Q & Q0 & C & C0) H. destruct (curve_values c) as (_ & V & _ & _ & _ & F & _).
    unfold gross_cooling_power, checked_product in H. cbn [cooling_conditions rbind] in H.
    rewrite V, F, (gcp_eq u c w r q0 cop W R1 Q C) in H by lra. cbv zeta in *.
    apply rbind_ok in H. destruct H as (x & X & H). apply limit_check_inv in X as [-> X].
    cbn [rbind nmul RNum] in H. apply limit_check_inv in H as [-> H]. rewrite Rmult_1_r in *. split; [reflexivity|exact H].
  Qed.
  Lemma cop_value c w r q0 cop n : ps_wb (c_indoor c) = Some w -> c_mass_airflow_ratio c = Some r -> 0 <= r <= 1.5 ->
    rated_at (u_c u) (c_speed c) q0 cop -> gross_total_cooling_cop M u (Some c) = Ok n ->
    let e := cool_eir_T (curve_wb w) (curve_odb (ps_db (c_outdoor c))) in
    0 < e /\ n = cop / (cool_eir_flow r * e).
  Proof.
    intros W R1 Hr K H. apply ratio_inv in H as (q & p & A & B & N & ->).
    destruct (cap_value c w r q0 cop q W R1 K A) as (Eq & Nq).
    destruct (pow_value c w r q0 cop p W R1 K B) as (Ep & Np). cbv zeta in *.
    destruct K as (_ & Q0 & _ & C0). destruct (cool_flow_pos r Hr) as (P1 & P2).
    set (e := cool_eir_T _ _) in *. set (k := cool_cap_T _ _) in *. clearbody e k.
    set (a := cool_cap_flow r) in *. set (b := cool_eir_flow r) in *. clearbody a b.
    assert (k <> 0) by (intros ->; apply N; rewrite Ep; ring).
    assert (e <> 0) by (intros ->; apply N; rewrite Ep; ring).
    assert (Pk : 0 < k).
    { destruct (Rtotal_order 0 k) as [|[|]]; [assumption|lra|]. assert (0 < a * (- k * q0)) by (repeat apply Rmult_lt_0_compat; lra).
      replace (a * (k * q0)) with (- (a * (- k * q0))) in Eq by ring. lra. }
    assert (Pq : 0 < q0 / cop) by (apply Rdiv_lt_0_compat; lra).
    assert (Pe : 0 < e).
    { destruct (Rtotal_order 0 e) as [|[|]]; [assumption|lra|]. set (z := q0 / cop) in *. clearbody z.
      assert (0 < b * a * (- e * k * z)) by (repeat apply Rmult_lt_0_compat; lra).
      replace (b * a * (e * k * z)) with (- (b * a * (- e * k * z))) in Ep by ring. lra. }
    split; [exact Pe|]. rewrite Eq, Ep. field. repeat split; lra.
  Qed.

  Lemma hcap_value c r q0 cop q : c_mass_airflow_ratio c = Some r -> rated_at (u_h u) (c_speed c) q0 cop ->
    gross_steady_state_heating_capacity M u (Some c) = Ok q ->
    q = heat_cap_flow r * (heat_cap_T (in_F c) (out_F c) * q0).
  Proof.
    intros R1 (Q & Q0 & C & C0) H. destruct (curve_values c) as (_ & _ & V & _ & _ & _ & F & _).
    unfold gross_steady_state_heating_capacity, product in H. cbn [heating_conditions rbind] in H.
    rewrite V, F, (ghc_eq u c r q0 R1 Q) in H. cbn [rbind nmul RNum] in H. apply Ok_inj in H.
    unfold in_F, out_F. rewrite !F_of_degF, <- H. ring.
  Qed.
  Lemma hpow_value c r q0 cop p : c_mass_airflow_ratio c = Some r -> rated_at (u_h u) (c_speed c) q0 cop ->
    gross_steady_state_heating_power M u (Some c) = Ok p ->
    p = heat_eir_flow r * heat_cap_flow r * (heat_eir_T (in_F c) (out_F c) * heat_cap_T (in_F c) (out_F c) * (q0 / cop)).
  Proof.
    intros R1 (Q & Q0 & C & C0) H. destruct (curve_values c) as (_ & _ & _ & V & _ & _ & _ & F).
    unfold gross_steady_state_heating_power, product in H. cbn [heating_conditions rbind] in H.
    rewrite V, F, (ghp_eq u c r q0 cop R1 Q C) in H by lra. cbn [rbind nmul RNum] in H. apply Ok_inj in H.
    unfold in_F, out_F. rewrite !F_of_degF, <- H. ring.
  Qed.
  Lemma hcop_value c r q0 cop n : c_mass_airflow_ratio c = Some r -> rated_at (u_h u) (c_speed c) q0 cop ->
    gross_steady_state_heating_cop M u (Some c) = Ok n ->
    n = cop / (heat_eir_flow r * heat_eir_T (in_F c) (out_F c)).
  Proof.
    intros R1 K H. apply ratio_inv in H as (q & p & A & B & N & ->).
    rewrite (hcap_value c r q0 cop q R1 K A). rewrite (hpow_value c r q0 cop p R1 K B) in *.
    destruct K as (_ & Q0 & _ & C0).
    set (a := heat_eir_flow r) in *. set (b := heat_cap_flow r) in *. set (e := heat_eir_T _ _) in *. set (k := heat_cap_T _ _) in *.
    clearbody a b e k. field.
    repeat split; try lra; intros ->; apply N; ring.
  Qed.

  Lemma inv_less x a b : 0 < x -> 0 < a < b -> x / b < x / a.
  Proof. intros X A. unfold Rdiv. apply Rmult_lt_compat_l; [lra|]. apply Rinv_lt_contravar; [nra|lra]. Qed.
  Lemma inv_le x a b : 0 < x -> 0 < a <= b -> x / b <= x / a.
  Proof. intros X A. unfold Rdiv. apply Rmult_le_compat_l; [lra|]. apply Rinv_le_contravar; lra. Qed.

  (** Hotter outdoors, in cooling. *)
  Lemma hotter_cooling c c' r q0 cop : same_indoors c c' r r -> 0 <= r <= 1.5 -> rated_at (u_c u) (c_speed c) q0 cop ->
    ps_db (c_outdoor c) < ps_db (c_outdoor c') ->
    (forall q q', gross_total_cooling_capacity M u (Some c) = Ok q -> gross_total_cooling_capacity M u (Some c') = Ok q' ->
       q' <= q /\ (75 < out_F c' -> q' < q))
    /\ (forall n n', gross_total_cooling_cop M u (Some c) = Ok n -> gross_total_cooling_cop M u (Some c') = Ok n' ->
       n' <= n /\ (75 < out_F c' -> n' < n))
    /\ (forall p p', out_F c' <= 125 -> gross_cooling_power M u (Some c) = Ok p -> gross_cooling_power M u (Some c') = Ok p' ->
       p <= p' /\ (75 < out_F c' -> p < p')).
  Proof.
    intros (S & W & N & R1 & R2) Hr K L. destruct (ps_wb (c_indoor c)) as [w|] eqn:Ew; [|contradiction]. symmetry in W.
    assert (K' : rated_at (u_c u) (c_speed c') q0 cop) by (rewrite <- S; exact K).
    pose proof (wb_range w) as Wr. pose proof (odb_range (ps_db (c_outdoor c))) as Or.
    assert (Om : curve_odb (ps_db (c_outdoor c)) <= curve_odb (ps_db (c_outdoor c'))) by (apply odb_mono; lra).
    assert (Os : 75 < out_F c' -> curve_odb (ps_db (c_outdoor c)) < curve_odb (ps_db (c_outdoor c'))).
    { unfold out_F. rewrite F_of_degF. unfold curve_odb, degF, Rmax. intros Z. repeat destruct Rle_dec; lra. }
    destruct (cool_flow_pos r Hr) as (P1 & P2).
    pose proof K as (_ & Q0 & _ & C0).
    destruct (cap_falls _ _ _ Wr (conj Or Om)) as (F1 & F2). destruct (eir_rises _ _ _ Wr (conj Or Om)) as (E1 & E2).
    split; [|split].
    - intros q q' A B. destruct (cap_value _ _ _ _ _ _ Ew R1 K A) as (-> & _). destruct (cap_value _ _ _ _ _ _ W R2 K' B) as (-> & _).
      split; [|intros Z; specialize (F2 (Os Z))].
      + apply Rmult_le_compat_l; [lra|]. apply Rmult_le_compat_r; lra.
      + apply Rmult_lt_compat_l; [lra|]. apply Rmult_lt_compat_r; lra.
    - intros n n' A B. destruct (cop_value _ _ _ _ _ _ Ew R1 Hr K A) as (Z1 & ->).
      destruct (cop_value _ _ _ _ _ _ W R2 Hr K' B) as (Z2 & ->).
      split; [|intros Z; specialize (E2 (Os Z))].
      + apply inv_le; [lra|]. split; [apply Rmult_lt_0_compat; lra|apply Rmult_le_compat_l; lra].
      + apply inv_less; [lra|]. split; [apply Rmult_lt_0_compat; lra|apply Rmult_lt_compat_l; lra].
    - intros p p' Hx A B. destruct (pow_value _ _ _ _ _ _ Ew R1 K A) as (-> & _). destruct (pow_value _ _ _ _ _ _ W R2 K' B) as (-> & _).
      cbv zeta. assert (Ox : curve_odb (ps_db (c_outdoor c')) <= 125).
      { unfold out_F in Hx. rewrite F_of_degF in Hx. unfold curve_odb, Rmax. destruct Rle_dec; lra. }
      destruct (power_rises _ _ _ Wr (conj Or Om) Ox) as (T1 & T2).
      assert (0 < cool_eir_flow r * cool_cap_flow r) by (apply Rmult_lt_0_compat; lra).
      assert (0 < q0 / cop) by (apply Rdiv_lt_0_compat; lra).
      split; [|intros Z; specialize (T2 (Os Z))].
      + apply Rmult_le_compat_l; [lra|]. apply Rmult_le_compat_r; lra.
      + apply Rmult_lt_compat_l; [lra|]. apply Rmult_lt_compat_r; lra.
  Qed.

  (** More air, in cooling. *)
  Lemma airier_cooling c c' r r' q0 cop : same_indoors c c' r r' -> ps_db (c_outdoor c) = ps_db (c_outdoor c') ->
    0 <= r < r' -> r' <= 1.5 -> rated_at (u_c u) (c_speed c) q0 cop ->
    (forall q q', gross_total_cooling_capacity M u (Some c) = Ok q -> gross_total_cooling_capacity M u (Some c') = Ok q' ->
       0 < q -> q < q')
    /\ (forall n n', gross_total_cooling_cop M u (Some c) = Ok n -> gross_total_cooling_cop M u (Some c') = Ok n' -> n < n').
  Proof.
    intros (S & W & N & R1 & R2) O Hr Hr' K. destruct (ps_wb (c_indoor c)) as [w|] eqn:Ew; [|contradiction]. symmetry in W.
    assert (K' : rated_at (u_c u) (c_speed c') q0 cop) by (rewrite <- S; exact K).
    destruct (cool_flow_pos r ltac:(lra)) as (P1 & P2). destruct (cool_flow_pos r' ltac:(lra)) as (P3 & P4).
    destruct (cool_flow_mono r r' Hr Hr') as (I1 & I2). pose proof K as (_ & Q0 & _ & C0).
    split.
    - intros q q' A B. destruct (cap_value _ _ _ _ _ _ Ew R1 K A) as (-> & _). destruct (cap_value _ _ _ _ _ _ W R2 K' B) as (-> & _).
      rewrite <- O. set (x := _ * q0). intros Z. assert (0 < x) by (clearbody x; nra). apply Rmult_lt_compat_r; lra.
    - intros n n' A B. destruct (cop_value _ _ _ _ _ _ Ew R1 ltac:(lra) K A) as (Z1 & ->).
      destruct (cop_value _ _ _ _ _ _ W R2 ltac:(lra) K' B) as (Z2 & ->). rewrite <- O in *.
      apply inv_less; [lra|]. split; [apply Rmult_lt_0_compat; lra|apply Rmult_lt_compat_r; lra].
  Qed.

  (** Heating. *)
  Lemma warmer_heating c c' r q0 cop : c_speed c = c_speed c' -> ps_db (c_indoor c) = ps_db (c_indoor c') ->
    c_mass_airflow_ratio c = Some r -> c_mass_airflow_ratio c' = Some r -> 0 <= r <= 1.5 ->
    rated_at (u_h u) (c_speed c) q0 cop -> 60 <= in_F c <= 80 -> -40 <= out_F c < out_F c' -> out_F c' <= 65 ->
    (forall q q', gross_steady_state_heating_capacity M u (Some c) = Ok q ->
       gross_steady_state_heating_capacity M u (Some c') = Ok q' -> 0 < q < q')
    /\ (forall n n', gross_steady_state_heating_cop M u (Some c) = Ok n ->
       gross_steady_state_heating_cop M u (Some c') = Ok n' -> 0 < n < n').
  Proof.
    intros S I R1 R2 Hr K In O O'. assert (K' : rated_at (u_h u) (c_speed c') q0 cop) by (rewrite <- S; exact K).
    assert (Ei : in_F c' = in_F c) by (unfold in_F; rewrite I; reflexivity).
    destruct (heat_flow_pos r Hr) as (P1 & P2). pose proof K as (_ & Q0 & _ & C0).
    destruct (heat_outdoor _ _ _ In O O') as (T1 & T2).
    destruct (heat_pos (in_F c) (out_F c) ltac:(lra) ltac:(lra)) as (T3 & T4).
    destruct (heat_pos (in_F c) (out_F c') ltac:(lra) ltac:(lra)) as (T5 & T6).
    split.
    - intros q q' A B. rewrite (hcap_value _ _ _ _ _ R1 K A), (hcap_value _ _ _ _ _ R2 K' B), Ei. split.
      + repeat apply Rmult_lt_0_compat; lra.
      + apply Rmult_lt_compat_l; [lra|]. apply Rmult_lt_compat_r; lra.
    - intros n n' A B. rewrite (hcop_value _ _ _ _ _ R1 K A), (hcop_value _ _ _ _ _ R2 K' B), Ei. split.
      + apply Rdiv_lt_0_compat; [lra|apply Rmult_lt_0_compat; lra].
      + apply inv_less; [lra|]. split; [apply Rmult_lt_0_compat; lra|apply Rmult_lt_compat_l; lra].
  Qed.
  Lemma warmer_room c c' r q0 cop : c_speed c = c_speed c' -> ps_db (c_outdoor c) = ps_db (c_outdoor c') ->
    c_mass_airflow_ratio c = Some r -> c_mass_airflow_ratio c' = Some r -> 0 <= r <= 1.5 ->
    rated_at (u_h u) (c_speed c) q0 cop -> 50 <= in_F c < in_F c' -> in_F c' <= 80 -> -40 <= out_F c <= 65 ->
    (forall q q', gross_steady_state_heating_capacity M u (Some c) = Ok q ->
       gross_steady_state_heating_capacity M u (Some c') = Ok q' -> 0 < q' < q)
    /\ (forall n n', gross_steady_state_heating_cop M u (Some c) = Ok n ->
       gross_steady_state_heating_cop M u (Some c') = Ok n' -> 0 < n' < n).
  Proof.
    intros S O R1 R2 Hr K In I' Ho. assert (K' : rated_at (u_h u) (c_speed c') q0 cop) by (rewrite <- S; exact K).
    assert (Eo : out_F c' = out_F c) by (unfold out_F; rewrite O; reflexivity).
    destruct (heat_flow_pos r Hr) as (P1 & P2). pose proof K as (_ & Q0 & _ & C0).
    destruct (heat_indoor _ _ _ In I' Ho) as (T1 & T2).
    destruct (heat_pos (in_F c) (out_F c) ltac:(lra) ltac:(lra)) as (T3 & T4).
    destruct (heat_pos (in_F c') (out_F c) ltac:(lra) ltac:(lra)) as (T5 & T6).
    split.
    - intros q q' A B. rewrite (hcap_value _ _ _ _ _ R1 K A), (hcap_value _ _ _ _ _ R2 K' B), Eo. split.
      + repeat apply Rmult_lt_0_compat; lra.
      + apply Rmult_lt_compat_l; [lra|]. apply Rmult_lt_compat_r; lra.
    - intros n n' A B. rewrite (hcop_value _ _ _ _ _ R1 K A), (hcop_value _ _ _ _ _ R2 K' B), Eo. split.
      + apply Rdiv_lt_0_compat; [lra|apply Rmult_lt_0_compat; lra].
      + apply inv_less; [lra|]. split; [apply Rmult_lt_0_compat; lra|apply Rmult_lt_compat_l; lra].
  Qed.
  Lemma airier_heating c c' r r' q0 cop : c_speed c = c_speed c' ->
    ps_db (c_indoor c) = ps_db (c_indoor c') -> ps_db (c_outdoor c) = ps_db (c_outdoor c') ->
    c_mass_airflow_ratio c = Some r -> c_mass_airflow_ratio c' = Some r' ->
    rated_at (u_h u) (c_speed c) q0 cop -> 50 <= in_F c <= 80 -> -40 <= out_F c <= 65 ->
    (0 <= r < r' -> r' <= 1.28 ->
      (forall q q', gross_steady_state_heating_capacity M u (Some c) = Ok q ->
         gross_steady_state_heating_capacity M u (Some c') = Ok q' -> 0 < q < q')
      /\ (forall n n', gross_steady_state_heating_cop M u (Some c) = Ok n ->
         gross_steady_state_heating_cop M u (Some c') = Ok n' -> 0 < n < n'))
    /\ (1.29 <= r < r' -> r' <= 1.5 ->
      forall n n', gross_steady_state_heating_cop M u (Some c) = Ok n ->
         gross_steady_state_heating_cop M u (Some c') = Ok n' -> 0 < n' < n).
  Proof.
    intros S I O R1 R2 K Hi Ho. assert (K' : rated_at (u_h u) (c_speed c') q0 cop) by (rewrite <- S; exact K).
    assert (Eo : out_F c' = out_F c) by (unfold out_F; rewrite O; reflexivity).
    assert (Ei : in_F c' = in_F c) by (unfold in_F; rewrite I; reflexivity).
    destruct (heat_pos _ _ Hi Ho) as (T3 & T4). pose proof K as (_ & Q0 & _ & C0). split.
    - intros Hr Hr'. destruct (heat_flow_pos r ltac:(lra)) as (P1 & P2). destruct (heat_flow_pos r' ltac:(lra)) as (P3 & P4).
      destruct (heat_flow_mono r r' Hr Hr') as (I1 & I2). split.
      + intros q q' A B. rewrite (hcap_value _ _ _ _ _ R1 K A), (hcap_value _ _ _ _ _ R2 K' B), Eo, Ei.
        assert (0 < heat_cap_T (in_F c) (out_F c) * q0) by (apply Rmult_lt_0_compat; lra).
        split; [apply Rmult_lt_0_compat; lra|apply Rmult_lt_compat_r; lra].
      + intros n n' A B. rewrite (hcop_value _ _ _ _ _ R1 K A), (hcop_value _ _ _ _ _ R2 K' B), Eo, Ei. split.
        * apply Rdiv_lt_0_compat; [lra|apply Rmult_lt_0_compat; lra].
        * apply inv_less; [lra|]. split; [apply Rmult_lt_0_compat; lra|apply Rmult_lt_compat_r; lra].
    - intros Hr Hr'. destruct (heat_flow_pos r ltac:(lra)) as (P1 & P2). destruct (heat_flow_pos r' ltac:(lra)) as (P3 & P4).
      assert (I2 : heat_eir_flow r < heat_eir_flow r') by (unfold heat_eir_flow; nra).
      intros n n' A B. rewrite (hcop_value _ _ _ _ _ R1 K A), (hcop_value _ _ _ _ _ R2 K' B), Eo, Ei. split.
      + apply Rdiv_lt_0_compat; [lra|apply Rmult_lt_0_compat; lra].
      + apply inv_less; [lra|]. split; [apply Rmult_lt_0_compat; lra|apply Rmult_lt_compat_r; lra].
  Qed.
End Values.
