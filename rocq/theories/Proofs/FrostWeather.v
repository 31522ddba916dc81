(** Lemmas for C115: RESNET heating including defrost in warmer weather. *)
From Coq Require Import String Reals QArith Lra Psatz List.
From Verif.Base Require Import Num Res Tac.
From Verif.Model Require Import Units Psychrometrics Conditions Defrost Fan Unit NREL BaseModel Resnet DXUnit.
From Verif.Spec Require Import NrelSpec ModelSpec WeatherSpec FrostWeatherSpec.
From Verif.Proofs Require Import UnitsR NrelProofs ToyUnit NrelProofs2 ResnetProofs HeatRatio FanCost ToyBuild Weather WeatherExample.
From Verif.Props Require Import P_Psych.
Import ListNotations.
Local Open Scope R_scope.

Lemma fraction_falls t t' : t <= t' -> resnet_fraction t' <= resnet_fraction t.
Proof.
  intros H. unfold resnet_fraction. apply Rmax_lub; [|apply Rmax_r].
  eapply Rle_trans; [|apply Rmax_l]. apply Rmin_glb; [|apply Rmin_r].
  eapply Rle_trans; [apply Rmin_l|]. lra.
Qed.

Definition frost (u : dxunit R) (c : cond R) : R :=
  if in_defrost (u_defrost u) c then resnet_fraction (degF (ps_db (c_outdoor c))) else 0.

Lemma frost_bounds u c : 0 <= frost u c <= 0.08.
Proof. unfold frost. destruct (in_defrost _ _); [apply resnet_fraction_bounds|lra]. Qed.

Lemma frost_falls u c c' : milder u c c' -> frost u c' <= frost u c.
Proof.
  intros (T & D). unfold frost. destruct (in_defrost (u_defrost u) c') eqn:E'.
  - rewrite (D eq_refl). apply fraction_falls. unfold degF. lra.
  - destruct (in_defrost (u_defrost u) c); [apply resnet_fraction_bounds|lra].
Qed.

Section Frost.
  Variable psy : psychro R.
  Variable sol : solvers R.
  Variable u : dxunit R.
  Notation M := (RESNETDXModel psy sol).

  Lemma cap_frost c s : gross_steady_state_heating_capacity M u (Some c) = Ok s ->
    gross_integrated_heating_capacity M u (Some c) = Ok (s * (1 - 1.8 * frost u c)).
  Proof.
    intros S. rewrite (resnet_capacity_derate psy sol u c s S). f_equal.
    unfold frost. destruct (in_defrost _ _); lra.
  Qed.

  Lemma cop_frost c x y : u_charge u = 0 ->
    gross_steady_state_heating_cop M u (Some c) = Ok y ->
    gross_integrated_heating_cop M u (Some c) = Ok x ->
    x * (1 - 0.3 * frost u c) = y * (1 - 1.8 * frost u c).
  Proof.
    intros U Y X. destruct (resnet_ratios psy sol u c) as (C & P & _). cbv zeta in *.
    fold (frost u c) in C, P. pose proof X as X'. pose proof Y as Y'.
    apply ratio_inv in X' as (i & q & I & Q & N1 & Ex). apply ratio_inv in Y' as (s & p & S & Pp & N2 & Ey).
    assert (B : gross_heating_power_ratio M u (Some c) = Ok (q / p)).
    { unfold gross_heating_power_ratio, both. rewrite Q. cbn [rbind]. rewrite Pp. cbn [rbind]. apply pydiv_ok. exact N2. }
    apply (P _ U) in B. rewrite (cap_frost c s S) in I. apply Ok_inj in I.
    rewrite Ex, Ey, <- I, <- B. field. split; assumption.
  Qed.

  Lemma warmer_cap c c' s s' q q' : milder u c c' ->
    gross_steady_state_heating_capacity M u (Some c) = Ok s ->
    gross_steady_state_heating_capacity M u (Some c') = Ok s' ->
    gross_integrated_heating_capacity M u (Some c) = Ok q ->
    gross_integrated_heating_capacity M u (Some c') = Ok q' ->
    0 <= s -> (s <= s' -> q <= q') /\ (s < s' -> q < q').
  Proof.
    intros W S S' I I' P. rewrite (cap_frost c s S) in I. rewrite (cap_frost c' s' S') in I'.
    apply Ok_inj in I, I'. subst q q'. pose proof (frost_falls _ _ _ W). pose proof (frost_bounds u c).
    pose proof (frost_bounds u c'). split; intros; nra.
  Qed.

  Lemma warmer_cop c c' y y' x x' : u_charge u = 0 -> milder u c c' ->
    gross_steady_state_heating_cop M u (Some c) = Ok y ->
    gross_steady_state_heating_cop M u (Some c') = Ok y' ->
    gross_integrated_heating_cop M u (Some c) = Ok x ->
    gross_integrated_heating_cop M u (Some c') = Ok x' ->
    0 <= y -> (y <= y' -> x <= x') /\ (y < y' -> x < x').
  Proof.
    intros U W Y Y' X X' P. pose proof (cop_frost c x y U Y X) as E. pose proof (cop_frost c' x' y' U Y' X') as E'.
    pose proof (frost_falls _ _ _ W) as F. pose proof (frost_bounds u c) as B.
    pose proof (frost_bounds u c') as B'. set (f := frost u c) in *. set (f' := frost u c') in *. clearbody f f'.
    assert (K : (1 - 1.8 * f) * (1 - 0.3 * f') <= (1 - 1.8 * f') * (1 - 0.3 * f)) by nra.
    assert (D : 0 < (1 - 0.3 * f) * (1 - 0.3 * f')) by nra.
    assert (L : x * ((1 - 0.3 * f) * (1 - 0.3 * f')) = y * ((1 - 1.8 * f) * (1 - 0.3 * f'))) by nra.
    assert (R : x' * ((1 - 0.3 * f) * (1 - 0.3 * f')) = y' * ((1 - 1.8 * f') * (1 - 0.3 * f))) by nra.
    assert (0 < (1 - 1.8 * f') * (1 - 0.3 * f)) by nra.
    split; intros G.
    - apply Rmult_le_reg_r with (1 := D). rewrite L, R.
      apply Rle_trans with (y * ((1 - 1.8 * f') * (1 - 0.3 * f))).
      + apply Rmult_le_compat_l; assumption.
      + apply Rmult_le_compat_r; lra.
    - apply Rmult_lt_reg_r with (1 := D). rewrite L, R.
      apply Rle_lt_trans with (y * ((1 - 1.8 * f') * (1 - 0.3 * f))).
      + apply Rmult_le_compat_l; assumption.
      + apply Rmult_lt_compat_r; lra.
  Qed.

  Lemma no_low_milder c c' : df_low_temperature (u_defrost u) = None ->
    ps_db (c_outdoor c) <= ps_db (c_outdoor c') -> milder u c c'.
  Proof.
    intros L T. split; [exact T|]. unfold in_defrost, in_defrost_at. rewrite L.
    destruct (df_strategy (u_defrost u)); try discriminate; intros H;
      apply Rltb_true in H; apply Rltb_true; lra.
  Qed.

  (** Integrated values exist only when the steady ones do. *)
  Lemma cap_steady k q : gross_integrated_heating_capacity M u (Some k) = Ok q ->
    exists s, gross_steady_state_heating_capacity M u (Some k) = Ok s.
  Proof.
    intros H. cbv [gross_integrated_heating_capacity heating_conditions rbind] in H.
    cbv [gross_steady_state_heating_capacity heating_conditions rbind].
    cbn [md_gihc md_ghc md_f_ghc RESNETDXModel] in *.
    unfold resnet_gross_integrated_heating_capacity in H. cbv zeta in H.
    destruct (in_defrost (u_defrost u) k); [|eauto].
    apply rbind_ok in H. destruct H as (s & S & _). eauto.
  Qed.
  Lemma cop_steady k n : u_charge u = 0 -> gross_integrated_heating_cop M u (Some k) = Ok n ->
    exists s, gross_steady_state_heating_cop M u (Some k) = Ok s.
  Proof.
    intros U H. apply ratio_inv in H as (i & q & I & Q & N & _).
    destruct (cap_steady k i I) as (s & S).
    assert (P : exists p, md_ghp M u k = Ok p /\ p <> 0).
    { cbv [gross_integrated_heating_power heating_conditions rbind] in Q.
      cbn [md_gihp md_ghp RESNETDXModel] in *.
      unfold resnet_gross_integrated_heating_power in Q. cbv zeta in Q.
      destruct (in_defrost (u_defrost u) k); [|eauto].
      apply rbind_ok in Q. destruct Q as (p & P & Q). exists p. split; [exact P|].
      intros ->. apply Ok_inj in Q. apply N. rewrite <- Q. cbn [nmul RNum]. lra. }
    destruct P as (p & P & Np).
    assert (T : gross_steady_state_heating_power M u (Some k) = Ok p).
    { unfold gross_steady_state_heating_power. cbn [heating_conditions rbind]. unfold product. rewrite P.
      cbn [rbind md_f_ghp RESNETDXModel]. unfold resnet_f_ghp, resnet_grading_model.
      rewrite U, lit0_R. cbn [neqb RNum]. destruct (Reqb_spec 0 0); [|lra]. rewrite lit1_R.
      cbn [rbind nmul RNum]. f_equal. lra. }
    exists (s / p). unfold gross_steady_state_heating_cop, both. rewrite S, T. cbn [rbind]. apply pydiv_ok. exact Np.
  Qed.

  Lemma warmer_frost c c' r q0 cop : by_curves psy sol M u -> df_low_temperature (u_defrost u) = None ->
    same_heating c c' r -> 0 <= r <= 1.5 -> rated_at (u_h u) (c_speed c) q0 cop ->
    60 <= in_F c <= 80 -> -40 <= out_F c < out_F c' -> out_F c' <= 65 ->
    (forall q q', gross_integrated_heating_capacity M u (Some c) = Ok q ->
       gross_integrated_heating_capacity M u (Some c') = Ok q' -> 0 < q < q')
    /\ (forall n n', gross_integrated_heating_cop M u (Some c) = Ok n ->
       gross_integrated_heating_cop M u (Some c') = Ok n' -> 0 < n < n').
  Proof.
    intros G L (Sp & Id & R1 & R2) Hr K In O O'.
    destruct (warmer_heating psy sol M u G c c' r q0 cop Sp Id R1 R2 Hr K In O O') as (A & B).
    assert (W : milder u c c').
    { apply no_low_milder; [exact L|]. unfold out_F, F_of in O. lra. }
    split.
    - intros q q' I I'. destruct (cap_steady _ _ I) as (s & S). destruct (cap_steady _ _ I') as (s' & S').
      specialize (A s s' S S'). split; [|apply (warmer_cap c c' s s' q q' W S S' I I'); lra].
      rewrite (cap_frost c s S) in I. apply Ok_inj in I. subst q. pose proof (frost_bounds u c). nra.
    - intros n n' I I'. pose proof (proj1 G) as U.
      destruct (cop_steady _ _ U I) as (s & S). destruct (cop_steady _ _ U I') as (s' & S').
      specialize (B s s' S S'). split; [|apply (warmer_cop c c' s s' n n' U W S S' I I'); lra].
      pose proof (cop_frost c n s U S I) as E. pose proof (frost_bounds u c). nra.
  Qed.
End Frost.
