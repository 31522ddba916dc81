(** Lemmas for C105: the effect of a wrong refrigerant charge. *)
From Coq Require Import String Reals QArith Lra Psatz List.
From Verif.Base Require Import Num Res Tac.
From Verif.Model Require Import Units Util Psychrometrics Conditions Defrost Fan Unit NREL BaseModel Resnet DXUnit.
From Verif.Spec Require Import NrelSpec ChargeSpec.
From Verif.Proofs Require Import UnitsR NrelProofs NrelProofs2 NrelDefaults HeatRatio FanCost.
Import ListNotations.
Local Open Scope R_scope.

Definition graded (psy : psychro R) (sol : solvers R) (M : dxmodel R) : Prop :=
  M = NRELDXModel psy sol \/ M = RESNETDXModel psy sol.

(** The two signs of deviation. *)
Lemma charge_neg m b ti to f : f < 0 -> charge_only m b ti to f =
    match m, b with
    | Cooling, true => charge_poly (-0.946) 0.0493 (-0.00118) (-1.15) ti to f
    | Cooling, false => charge_poly (-0.313) 0.0115 0.00266 (-0.116) ti to f
    | Heating, true => charge_poly (-0.0339) 0 0.0203 (-2.62) ti to f
    | Heating, false => charge_poly 0.0616 0 0.00446 (-0.26) ti to f
    end.
Proof. intros H. unfold charge_only. destruct (Rlt_dec f 0); [reflexivity|lra]. Qed.
Lemma charge_pos m b ti to f : 0 <= f -> charge_only m b ti to f =
    match m, b with
    | Cooling, true => charge_poly (-0.163) 0.0114 (-0.00021) (-0.14) ti to f
    | Cooling, false => charge_poly 0.219 (-0.00501) 0.000989 0.284 ti to f
    | Heating, true => charge_poly (-0.00295) 0 0.000738 (-0.00641) ti to f
    | Heating, false => charge_poly (-0.0594) 0 0.0159 1.89 ti to f
    end.
Proof. intros H. unfold charge_only. destruct (Rlt_dec f 0); [lra|reflexivity]. Qed.
Lemma charge_zero m b ti to : charge_only m b ti to 0 = 1.
Proof. rewrite charge_pos by lra. destruct m, b; unfold charge_poly; ring. Qed.

(** Values of a unit with charge deviation [f], over those with the correct charge. *)
Lemma cooling_scaled psy sol M f (u : dxunit R) c :
  graded psy sol M -> c_mass_airflow_ratio c = Some 1 ->
  let ti := degC (ps_db (c_indoor c)) in
  let to := degC (ps_db (c_outdoor c)) in
  (forall q q0, gross_total_cooling_capacity M (charged f u) (Some c) = Ok q ->
     gross_total_cooling_capacity M (charged 0 u) (Some c) = Ok q0 -> q = q0 * charge_only Cooling true ti to f)
  /\ (forall p p0, gross_cooling_power M (charged f u) (Some c) = Ok p ->
     gross_cooling_power M (charged 0 u) (Some c) = Ok p0 -> p = p0 * charge_only Cooling false ti to f).
Proof.
  intros G R1 ti to.
  assert (F : forall g v,
    (md_f_gtc M (charged g u) c = Ok v -> v = charge_only Cooling true ti to g)
    /\ (md_f_gcp M (charged g u) c = Ok v -> v = charge_only Cooling false ti to g)).
  { intros g v. destruct G as [->| ->].
    - destruct (nrel_factors_rated psy sol (charged g u) c v R1) as (A & B & _). split; [exact A|exact B].
    - destruct (resnet_factors_rated psy (charged g u) c v R1) as (A & B & _). split; [exact A|exact B]. }
  assert (E1 : md_gtc M (charged f u) c = md_gtc M (charged 0 u) c) by (destruct G as [->| ->]; reflexivity).
  assert (E2 : md_gcp M (charged f u) c = md_gcp M (charged 0 u) c) by (destruct G as [->| ->]; reflexivity).
  unfold gross_total_cooling_capacity, gross_cooling_power, checked_product. cbn [cooling_conditions rbind].
  rewrite E1, E2. split; intros q q0 H H0.
  - apply rbind_ok in H. destruct H as (a & A & H). apply rbind_ok in H. destruct H as (k & K & H).
    apply rbind_ok in H0. destruct H0 as (a0 & A0 & H0). apply rbind_ok in H0. destruct H0 as (k0 & K0 & H0).
    rewrite A in A0. apply Ok_inj in A0. subst a0.
    apply F in K. apply F in K0. rewrite charge_zero in K0. subst k k0.
    apply limit_check_inv in H as [-> _]. apply limit_check_inv in H0 as [-> _]. cbn [nmul RNum]. ring.
  - apply rbind_ok in H. destruct H as (a & A & H). apply rbind_ok in H. destruct H as (k & K & H).
    apply rbind_ok in H0. destruct H0 as (a0 & A0 & H0). apply rbind_ok in H0. destruct H0 as (k0 & K0 & H0).
    rewrite A in A0. apply Ok_inj in A0. subst a0.
    apply F in K. apply F in K0. rewrite charge_zero in K0. subst k k0.
    apply limit_check_inv in H as [-> _]. apply limit_check_inv in H0 as [-> _]. cbn [nmul RNum]. ring.
Qed.

Lemma heating_scaled psy sol M f (u : dxunit R) c :
  graded psy sol M -> c_mass_airflow_ratio c = Some 1 ->
  let ti := degC (ps_db (c_indoor c)) in
  let to := degC (ps_db (c_outdoor c)) in
  (forall q q0, gross_steady_state_heating_capacity M (charged f u) (Some c) = Ok q ->
     gross_steady_state_heating_capacity M (charged 0 u) (Some c) = Ok q0 -> q = q0 * charge_only Heating true ti to f)
  /\ (forall p p0, gross_steady_state_heating_power M (charged f u) (Some c) = Ok p ->
     gross_steady_state_heating_power M (charged 0 u) (Some c) = Ok p0 -> p = p0 * charge_only Heating false ti to f).
Proof.
  intros G R1 ti to.
  assert (F : forall g v,
    (md_f_ghc M (charged g u) c = Ok v -> v = charge_only Heating true ti to g)
    /\ (md_f_ghp M (charged g u) c = Ok v -> v = charge_only Heating false ti to g)).
  { intros g v. destruct G as [->| ->].
    - destruct (nrel_factors_rated psy sol (charged g u) c v R1) as (_ & _ & A & B). split; [exact A|exact B].
    - destruct (resnet_factors_rated psy (charged g u) c v R1) as (_ & _ & A & B). split; [exact A|exact B]. }
  assert (E1 : md_ghc M (charged f u) c = md_ghc M (charged 0 u) c) by (destruct G as [->| ->]; reflexivity).
  assert (E2 : md_ghp M (charged f u) c = md_ghp M (charged 0 u) c) by (destruct G as [->| ->]; reflexivity).
  unfold gross_steady_state_heating_capacity, gross_steady_state_heating_power, product. cbn [heating_conditions rbind].
  rewrite E1, E2. split; intros q q0 H H0.
  - apply rbind_ok in H. destruct H as (a & A & H). apply rbind_ok in H. destruct H as (k & K & H).
    apply rbind_ok in H0. destruct H0 as (a0 & A0 & H0). apply rbind_ok in H0. destruct H0 as (k0 & K0 & H0).
    rewrite A in A0. apply Ok_inj in A0. subst a0.
    apply F in K. apply F in K0. rewrite charge_zero in K0. subst k k0.
    apply Ok_inj in H, H0. subst q q0. cbn [nmul RNum]. ring.
  - apply rbind_ok in H. destruct H as (a & A & H). apply rbind_ok in H. destruct H as (k & K & H).
    apply rbind_ok in H0. destruct H0 as (a0 & A0 & H0). apply rbind_ok in H0. destruct H0 as (k0 & K0 & H0).
    rewrite A in A0. apply Ok_inj in A0. subst a0.
    apply F in K. apply F in K0. rewrite charge_zero in K0. subst k k0.
    apply Ok_inj in H, H0. subst q q0. cbn [nmul RNum]. ring.
Qed.

(** Sizes of the factors. *)
Lemma under_cooling ti to f : 25 <= ti <= 30 -> 18 <= to <= 50 -> -0.5 <= f < 0 ->
  0 < charge_only Cooling true ti to f < charge_only Cooling false ti to f
  /\ charge_only Cooling false ti to f < 1.
Proof. intros I O F. rewrite !charge_neg by lra. unfold charge_poly. nra. Qed.
Lemma over_cooling ti to f : 25 <= ti <= 27 -> 18 <= to <= 50 -> 0.1 <= f <= 0.5 ->
  1 < charge_only Cooling true ti to f < charge_only Cooling false ti to f.
Proof. intros I O F. rewrite !charge_pos by lra. unfold charge_poly. nra. Qed.
Lemma under_heating ti to f : 8 <= to <= 20 -> -0.4 <= f < 0 ->
  0 < charge_only Heating true ti to f < charge_only Heating false ti to f
  /\ charge_only Heating false ti to f < 1.
Proof. intros O F. rewrite !charge_neg by lra. unfold charge_poly. nra. Qed.
Lemma over_heating ti to f : 8 <= to <= 20 -> 0 < f <= 0.5 ->
  0 < charge_only Heating true ti to f < charge_only Heating false ti to f
  /\ 1 < charge_only Heating false ti to f.
Proof. intros O F. rewrite !charge_pos by lra. unfold charge_poly. nra. Qed.
Lemma cold_heating ti to f : -30 <= to <= -15 -> -0.1 <= f < 0 ->
  1 < charge_only Heating true ti to f /\ 0 < charge_only Heating false ti to f < charge_only Heating true ti to f.
Proof. intros O F. rewrite !charge_neg by lra. unfold charge_poly. nra. Qed.

Lemma scaled_cop q p k j : 0 < q -> 0 < p -> 0 < j -> k < j -> q * k / (p * j) < q / p.
Proof.
  intros Q P J K. apply (Rmult_lt_reg_r (p * j)); [apply Rmult_lt_0_compat; lra|].
  replace (q * k / (p * j) * (p * j)) with (q * k) by (field; lra).
  replace (q / p * (p * j)) with (q * j) by (field; lra). apply Rmult_lt_compat_l; lra.
Qed.
Lemma scaled_cop' q p k j : 0 < q -> 0 < p -> 0 < j -> j < k -> q / p < q * k / (p * j).
Proof.
  intros Q P J K. apply (Rmult_lt_reg_r (p * j)); [apply Rmult_lt_0_compat; lra|].
  replace (q * k / (p * j) * (p * j)) with (q * k) by (field; lra).
  replace (q / p * (p * j)) with (q * j) by (field; lra). apply Rmult_lt_compat_l; lra.
Qed.

(** The fan's share grows as the coil's shrinks. *)
Lemma scaled_net q p w k j : 0 < q -> 0 <= p -> 0 <= w -> 0 < j < 1 -> k < j -> p * j + w <> 0 ->
  (q * k - w) / (p * j + w) < (q - w) / (p + w).
Proof.
  intros Q P W J K N. assert (0 <= p * j) by (apply Rmult_le_pos; lra).
  assert (0 < p * j + w) by lra. assert (0 < p + w) by nra.
  apply (Rmult_lt_reg_r (p * j + w)); [lra|]. apply (Rmult_lt_reg_r (p + w)); [lra|].
  replace ((q * k - w) / (p * j + w) * (p * j + w) * (p + w)) with ((q * k - w) * (p + w)) by (field; lra).
  replace ((q - w) / (p + w) * (p * j + w) * (p + w)) with ((q - w) * (p * j + w)) by (field; lra).
  assert (0 <= q * p * (j - k)) by (repeat apply Rmult_le_pos; lra).
  assert (0 <= q * w * (1 - k)) by (repeat apply Rmult_le_pos; lra).
  assert (0 <= w * p * (1 - j)) by (repeat apply Rmult_le_pos; lra).
  assert (0 < q * p * (j - k) + q * w * (1 - k)).
  { destruct (Rlt_dec 0 w).
    - assert (0 < q * w * (1 - k)) by (repeat apply Rmult_lt_0_compat; lra). lra.
    - assert (0 < q * p * (j - k)) by (repeat apply Rmult_lt_0_compat; lra). lra. }
  nra.
Qed.
Lemma scaled_net_heat q p w k j : 0 < p <= q -> 0 <= w -> 0 < j < 1 -> 0 < k < j ->
  (q * k + w) / (p * j + w) < (q + w) / (p + w).
Proof.
  intros Q W J K. assert (0 < p * j) by (apply Rmult_lt_0_compat; lra).
  apply (Rmult_lt_reg_r (p * j + w)); [lra|]. apply (Rmult_lt_reg_r (p + w)); [lra|].
  replace ((q * k + w) / (p * j + w) * (p * j + w) * (p + w)) with ((q * k + w) * (p + w)) by (field; lra).
  replace ((q + w) / (p + w) * (p * j + w) * (p + w)) with ((q + w) * (p * j + w)) by (field; lra).
  assert (0 < q * p * (j - k)) by (repeat apply Rmult_lt_0_compat; lra).
  assert (0 <= w * (q - p) * (1 - k)) by (repeat apply Rmult_le_pos; lra).
  assert (0 <= w * p * (j - k)) by (repeat apply Rmult_le_pos; lra).
  nra.
Qed.

Section Effects.
  Variables (psy : psychro R) (sol : solvers R) (M : dxmodel R) (f : R) (u : dxunit R) (c : cond R).
  Hypothesis G : graded psy sol M.

  Ltac same H H0 := rewrite H in H0; apply Ok_inj in H0; subst.

  Lemma under_cooling_effect : weather c 25 30 18 50 -> -0.5 <= f < 0 ->
    (forall q q0, gross_total_cooling_capacity M (charged f u) (Some c) = Ok q ->
       gross_total_cooling_capacity M (charged 0 u) (Some c) = Ok q0 -> 0 < q0 -> 0 < q < q0)
    /\ (forall p p0, gross_cooling_power M (charged f u) (Some c) = Ok p ->
       gross_cooling_power M (charged 0 u) (Some c) = Ok p0 -> 0 < p0 -> 0 < p < p0)
    /\ (forall n n0, gross_total_cooling_cop M (charged f u) (Some c) = Ok n ->
       gross_total_cooling_cop M (charged 0 u) (Some c) = Ok n0 -> n0 <> 0 -> n < n0)
    /\ (forall w q0 n n0, cooling_fan_power sol u (Some c) = Ok w -> 0 <= w ->
       gross_total_cooling_capacity M (charged 0 u) (Some c) = Ok q0 -> 0 < q0 ->
       net_total_cooling_cop sol M (charged f u) (Some c) = Ok n ->
       net_total_cooling_cop sol M (charged 0 u) (Some c) = Ok n0 -> n < n0).
  Proof.
    intros (R1 & I & O) F. fold (degC (ps_db (c_indoor c))) in I. fold (degC (ps_db (c_outdoor c))) in O.
    destruct (cooling_scaled psy sol M f u c G R1) as (Q & P). cbv zeta in Q, P.
    destruct (under_cooling _ _ _ I O F) as ((K0 & KJ) & J1).
    set (k := charge_only Cooling true _ _ f) in *. set (j := charge_only Cooling false _ _ f) in *.
    clearbody k j. split; [|split; [|split]].
    - intros q q0 A B H. rewrite (Q _ _ A B). split; nra.
    - intros p p0 A B H. rewrite (P _ _ A B). split; nra.
    - intros n n0 A B N.
      apply ratio_inv in A as (q & p & A1 & A2 & A3 & ->). apply ratio_inv in B as (q0 & p0 & B1 & B2 & B3 & ->).
      pose proof (gtc_nonneg _ _ _ _ B1). pose proof (gcp_nonneg _ _ _ _ B2).
      assert (q0 <> 0) by (intros ->; apply N; unfold Rdiv; ring).
      rewrite (Q _ _ A1 B1), (P _ _ A2 B2). apply scaled_cop; lra.
    - intros w q0 n n0 W W0 B1 H A B.
      apply ratio_inv in A as (x & y & X & Y & N & ->). apply ratio_inv in B as (x0 & y0 & X0 & Y0 & N0 & ->).
      apply diff_inv in X as (q & w1 & A1 & W1 & ->). apply sum_inv in Y as (p & w2 & A2 & W2 & ->).
      apply diff_inv in X0 as (q1 & w3 & B1' & W3 & ->). apply sum_inv in Y0 as (p0 & w4 & B2 & W4 & ->).
      change (cooling_fan_power sol (charged f u) (Some c)) with (cooling_fan_power sol u (Some c)) in *.
      change (cooling_fan_power sol (charged 0 u) (Some c)) with (cooling_fan_power sol u (Some c)) in *.
      same W W1. same W W2. same W W3. same W W4. same B1 B1'. pose proof (gcp_nonneg _ _ _ _ B2).
      rewrite (P _ _ A2 B2) in *. rewrite (Q _ _ A1 B1). apply scaled_net; auto; lra.
  Qed.

  Lemma over_cooling_effect : weather c 25 27 18 50 -> 0.1 <= f <= 0.5 ->
    (forall q q0, gross_total_cooling_capacity M (charged f u) (Some c) = Ok q ->
       gross_total_cooling_capacity M (charged 0 u) (Some c) = Ok q0 -> 0 < q0 -> q0 < q)
    /\ (forall p p0, gross_cooling_power M (charged f u) (Some c) = Ok p ->
       gross_cooling_power M (charged 0 u) (Some c) = Ok p0 -> 0 < p0 -> p0 < p)
    /\ (forall n n0, gross_total_cooling_cop M (charged f u) (Some c) = Ok n ->
       gross_total_cooling_cop M (charged 0 u) (Some c) = Ok n0 -> n0 <> 0 -> n < n0).
  Proof.
    intros (R1 & I & O) F. fold (degC (ps_db (c_indoor c))) in I. fold (degC (ps_db (c_outdoor c))) in O.
    destruct (cooling_scaled psy sol M f u c G R1) as (Q & P). cbv zeta in Q, P.
    destruct (over_cooling _ _ _ I O F) as (K1 & KJ).
    set (k := charge_only Cooling true _ _ f) in *. set (j := charge_only Cooling false _ _ f) in *.
    clearbody k j. split; [|split].
    - intros q q0 A B H. rewrite (Q _ _ A B). nra.
    - intros p p0 A B H. rewrite (P _ _ A B). nra.
    - intros n n0 A B N.
      apply ratio_inv in A as (q & p & A1 & A2 & A3 & ->). apply ratio_inv in B as (q0 & p0 & B1 & B2 & B3 & ->).
      pose proof (gtc_nonneg _ _ _ _ B1). pose proof (gcp_nonneg _ _ _ _ B2).
      assert (q0 <> 0) by (intros ->; apply N; unfold Rdiv; ring).
      rewrite (Q _ _ A1 B1), (P _ _ A2 B2). apply scaled_cop; lra.
  Qed.

  Lemma under_heating_effect q0 p0 : c_mass_airflow_ratio c = Some 1 ->
    8 <= ps_db (c_outdoor c) - 273.15 <= 20 -> -0.4 <= f < 0 ->
    gross_steady_state_heating_capacity M (charged 0 u) (Some c) = Ok q0 -> 0 < q0 ->
    gross_steady_state_heating_power M (charged 0 u) (Some c) = Ok p0 -> 0 < p0 ->
    (forall q, gross_steady_state_heating_capacity M (charged f u) (Some c) = Ok q -> 0 < q < q0)
    /\ (forall p, gross_steady_state_heating_power M (charged f u) (Some c) = Ok p -> 0 < p < p0)
    /\ (forall n n0, gross_steady_state_heating_cop M (charged f u) (Some c) = Ok n ->
       gross_steady_state_heating_cop M (charged 0 u) (Some c) = Ok n0 -> n < n0)
    /\ (forall w n n0, heating_fan_power sol u (Some c) = Ok w -> 0 <= w -> p0 <= q0 ->
       net_steady_state_heating_cop sol M (charged f u) (Some c) = Ok n ->
       net_steady_state_heating_cop sol M (charged 0 u) (Some c) = Ok n0 -> n < n0).
  Proof.
    intros R1 O F B1 Hq B2 Hp. fold (degC (ps_db (c_outdoor c))) in O.
    destruct (heating_scaled psy sol M f u c G R1) as (Q & P). cbv zeta in Q, P.
    destruct (under_heating (degC (ps_db (c_indoor c))) _ _ O F) as ((K0 & KJ) & J1).
    set (k := charge_only Heating true _ _ f) in *. set (j := charge_only Heating false _ _ f) in *.
    clearbody k j. split; [|split; [|split]].
    - intros q A. rewrite (Q _ _ A B1). split; nra.
    - intros p A. rewrite (P _ _ A B2). split; nra.
    - intros n n0 A B.
      apply ratio_inv in A as (q & p & A1 & A2 & A3 & ->). apply ratio_inv in B as (q1 & p1 & B1' & B2' & B3 & ->).
      same B1 B1'. same B2 B2'. rewrite (Q _ _ A1 B1), (P _ _ A2 B2). apply scaled_cop; lra.
    - intros w n n0 W W0 H A B.
      apply ratio_inv in A as (x & y & X & Y & N & ->). apply ratio_inv in B as (x0 & y0 & X0 & Y0 & N0 & ->).
      apply sum_inv in X as (q & w1 & A1 & W1 & ->). apply sum_inv in Y as (p & w2 & A2 & W2 & ->).
      apply sum_inv in X0 as (q1 & w3 & B1' & W3 & ->). apply sum_inv in Y0 as (p1 & w4 & B2' & W4 & ->).
      change (heating_fan_power sol (charged f u) (Some c)) with (heating_fan_power sol u (Some c)) in *.
      change (heating_fan_power sol (charged 0 u) (Some c)) with (heating_fan_power sol u (Some c)) in *.
      same W W1. same W W2. same W W3. same W W4. same B1 B1'. same B2 B2'.
      rewrite (P _ _ A2 B2), (Q _ _ A1 B1). apply scaled_net_heat; lra.
  Qed.

  Lemma over_heating_effect q0 p0 : c_mass_airflow_ratio c = Some 1 ->
    8 <= ps_db (c_outdoor c) - 273.15 <= 20 -> 0 < f <= 0.5 ->
    gross_steady_state_heating_capacity M (charged 0 u) (Some c) = Ok q0 -> 0 < q0 ->
    gross_steady_state_heating_power M (charged 0 u) (Some c) = Ok p0 -> 0 < p0 ->
    (forall p, gross_steady_state_heating_power M (charged f u) (Some c) = Ok p -> p0 < p)
    /\ (forall n n0, gross_steady_state_heating_cop M (charged f u) (Some c) = Ok n ->
       gross_steady_state_heating_cop M (charged 0 u) (Some c) = Ok n0 -> n < n0).
  Proof.
    intros R1 O F B1 Hq B2 Hp. fold (degC (ps_db (c_outdoor c))) in O.
    destruct (heating_scaled psy sol M f u c G R1) as (Q & P). cbv zeta in Q, P.
    destruct (over_heating (degC (ps_db (c_indoor c))) _ _ O F) as ((K0 & KJ) & J1).
    set (k := charge_only Heating true _ _ f) in *. set (j := charge_only Heating false _ _ f) in *.
    clearbody k j. split.
    - intros p A. rewrite (P _ _ A B2). nra.
    - intros n n0 A B.
      apply ratio_inv in A as (q & p & A1 & A2 & A3 & ->). apply ratio_inv in B as (q1 & p1 & B1' & B2' & B3 & ->).
      same B1 B1'. same B2 B2'. rewrite (Q _ _ A1 B1), (P _ _ A2 B2). apply scaled_cop; lra.
  Qed.

  Lemma cold_heating_effect q0 p0 : c_mass_airflow_ratio c = Some 1 ->
    -30 <= ps_db (c_outdoor c) - 273.15 <= -15 -> -0.1 <= f < 0 ->
    gross_steady_state_heating_capacity M (charged 0 u) (Some c) = Ok q0 -> 0 < q0 ->
    gross_steady_state_heating_power M (charged 0 u) (Some c) = Ok p0 -> 0 < p0 ->
    (forall q, gross_steady_state_heating_capacity M (charged f u) (Some c) = Ok q -> q0 < q)
    /\ (forall n n0, gross_steady_state_heating_cop M (charged f u) (Some c) = Ok n ->
       gross_steady_state_heating_cop M (charged 0 u) (Some c) = Ok n0 -> n0 < n).
  Proof.
    intros R1 O F B1 Hq B2 Hp. fold (degC (ps_db (c_outdoor c))) in O.
    destruct (heating_scaled psy sol M f u c G R1) as (Q & P). cbv zeta in Q, P.
    destruct (cold_heating (degC (ps_db (c_indoor c))) _ _ O F) as (K1 & J0 & JK).
    set (k := charge_only Heating true _ _ f) in *. set (j := charge_only Heating false _ _ f) in *.
    clearbody k j. split.
    - intros q A. rewrite (Q _ _ A B1). nra.
    - intros n n0 A B.
      apply ratio_inv in A as (q & p & A1 & A2 & A3 & ->). apply ratio_inv in B as (q1 & p1 & B1' & B2' & B3 & ->).
      same B1 B1'. same B2 B2'. rewrite (Q _ _ A1 B1), (P _ _ A2 B2). apply scaled_cop'; lra.
  Qed.
End Effects.
