(** Title 24 heating capacity as a function of outdoor temperature (C108). *)
From Coq Require Import String Reals QArith Lra Psatz List.
From Verif.Base Require Import Num Res Tac.
From Verif.Model Require Import Units Psychrometrics Conditions Defrost Fan Unit NREL BaseModel Title24 Resnet DXUnit.
From Verif.Spec Require Import NrelSpec ModelSpec Title24Spec.
From Verif.Proofs Require Import UnitsR DefrostProofs ToyUnit NrelProofs NrelProofs2 NrelDefaults ModelProofs ModelExamples.
From Verif.Props Require Import P_Psych P_Models.
Import ListNotations.
Local Open Scope R_scope.

Lemma t24_steady_line : forall sol (u : dxunit R) c v q17 q47 w,
  gross_steady_state_heating_capacity (Title24DXModel sol) u (Some c) = Ok v ->
  anchor17 u (c_speed c) q17 -> anchor47 u (c_speed c) q47 ->
  entry (sd_fan_power (u_h u)) (c_speed c) w ->
  v = clear_line q17 q47 (degF (ps_db (c_outdoor c))) - w.
Proof.
  intros sol u c v q17 q47 w S H17 H47 Hw.
  unfold gross_steady_state_heating_capacity, product in S. cbn [heating_conditions rbind] in S.
  apply rbind_ok in S. destruct S as (s0 & S & S1). cbn [Title24DXModel md_f_ghc] in S1.
  unfold unit_factor in S1. cbn [rbind] in S1. rewrite lit1_R in S1. apply Ok_inj in S1.
  cbn [Title24DXModel md_ghc] in S. unfold fresh in S.
  destruct (t24_heating_capacity u c blank_t24) as [d1 r1] eqn:E1. simpl in S. subst r1.
  destruct (capacity_value u c _ _ _ (capok_blank u) E1) as (a & b & x & A & B & X & Hs).
  unfold anchor47, entry in *.
  assert (a = q47) by congruence. assert (x = w) by congruence.
  assert (b = q17) by (eapply anchor17_fun; eauto). subst a x b.
  cbn [nmul RNum] in S1. unfold clear_line. lra.
Qed.

Lemma t24_integrated_line : forall sol (u : dxunit R) c v q17 q35 q47 w,
  gross_integrated_heating_capacity (Title24DXModel sol) u (Some c) = Ok v ->
  anchor17 u (c_speed c) q17 -> anchor35 u (c_speed c) q35 -> anchor47 u (c_speed c) q47 ->
  entry (sd_fan_power (u_h u)) (c_speed c) w ->
  v = (if in_defrost (u_defrost u) c
       then frosted_line q17 q35 q47 (degF (ps_db (c_outdoor c)))
       else clear_line q17 q47 (degF (ps_db (c_outdoor c)))) - w.
Proof.
  intros sol u c v q17 q35 q47 w V H17 H35 H47 Hw.
  unfold gross_integrated_heating_capacity in V. cbn [heating_conditions rbind] in V.
  cbn [Title24DXModel md_gihc] in V. unfold fresh in V.
  destruct (t24_integrated_capacity u c blank_t24) as [d2 r2] eqn:E2. simpl in V. subst r2.
  destruct (icapacity_value u c _ _ _ (capok_blank u) E2) as (a' & b' & e' & x' & A' & B' & C' & X' & Hv).
  unfold anchor47, entry in *.
  assert (a' = q47) by congruence. assert (x' = w) by congruence.
  assert (b' = q17) by (eapply anchor17_fun; eauto).
  assert (e' = q35) by (eapply anchor35_fun; eauto). subst a' x' b' e'.
  unfold frosted_line, clear_line. cbv zeta in Hv. revert Hv.
  destruct (in_defrost _ _); [|lra].
  destruct (Rlt_dec 17 _); [|lra]. destruct (Rlt_dec _ 45); lra.
Qed.

Lemma t24_steady_rises : forall sol (u : dxunit R) c c' v v' q17 q47 w,
  gross_steady_state_heating_capacity (Title24DXModel sol) u (Some c) = Ok v ->
  gross_steady_state_heating_capacity (Title24DXModel sol) u (Some c') = Ok v' ->
  c_speed c' = c_speed c ->
  anchor17 u (c_speed c) q17 -> anchor47 u (c_speed c) q47 -> q17 < q47 ->
  entry (sd_fan_power (u_h u)) (c_speed c) w ->
  ps_db (c_outdoor c) < ps_db (c_outdoor c') -> v < v'.
Proof.
  intros sol u c c' v v' q17 q47 w V V' E H17 H47 Q W T.
  rewrite (t24_steady_line sol u c v q17 q47 w V H17 H47 W).
  rewrite <- E in H17, H47, W.
  rewrite (t24_steady_line sol u c' v' q17 q47 w V' H17 H47 W).
  unfold clear_line, degF. set (a := ps_db (c_outdoor c)) in *. set (b := ps_db (c_outdoor c')) in *.
  clearbody a b. assert (0 < (q47 - q17) * (b - a)) by (apply Rmult_lt_0_compat; lra). lra.
Qed.

(** The default ratio lies strictly between these for ordinary HSPF values. *)
Lemma ratio_range h : 2.01 <= h <= 15.46 -> 0 < t24_ratio h < 0.84375.
Proof. intros H. unfold t24_ratio. repeat destruct (Rlt_dec _ _); lra. Qed.

Lemma default_anchors u i q47 h : not_supplied u "cap17" -> not_supplied u "cap35" ->
  u_hspf u = Some h -> anchor47 u i q47 -> df_strategy (u_defrost u) <> DSNone ->
  anchor17 u i (t24_ratio h * q47)
  /\ anchor35 u i (0.36 * (t24_ratio h * q47) + 0.54 * q47).
Proof.
  intros N N' Hh H47 D.
  assert (A : anchor17 u i (t24_ratio h * q47)) by (right; split; [exact N|]; exists h, q47; auto).
  split; [exact A|]. right. split; [exact N'|]. exists (t24_ratio h * q47), q47.
  split; [exact A|]. split; [exact H47|]. destruct (df_strategy _); [contradiction|..]; lra.
Qed.

Lemma in_defrost_strategy (u : dxunit R) c : in_defrost (u_defrost u) c = true ->
  df_strategy (u_defrost u) <> DSNone.
Proof.
  unfold in_defrost, in_defrost_at. destruct (df_strategy _); [discriminate|..]; intros _ H; discriminate.
Qed.

Lemma t24_integrated_rises : forall sol (u : dxunit R) c c' v v' h q47 w,
  let M := Title24DXModel sol in
  gross_integrated_heating_capacity M u (Some c) = Ok v ->
  gross_integrated_heating_capacity M u (Some c') = Ok v' ->
  c_speed c' = c_speed c -> not_supplied u "cap17" -> not_supplied u "cap35" ->
  u_hspf u = Some h -> 2.01 <= h <= 15.46 ->
  anchor47 u (c_speed c) q47 -> 0 < q47 -> entry (sd_fan_power (u_h u)) (c_speed c) w ->
  df_low_temperature (u_defrost u) = None ->
  ps_db (c_outdoor c) < ps_db (c_outdoor c') -> v < v'.
Proof.
  intros sol u c c' v v' h q47 w M V V' E N N' Hh B H47 P W L T.
  pose proof (ratio_range h B) as Rr.
  set (r := t24_ratio h) in *.
  assert (P1 : 0 < r * q47) by (apply Rmult_lt_0_compat; lra).
  assert (P2 : r * q47 < 0.84375 * q47) by (apply Rmult_lt_compat_r; lra).
  assert (Hc : forall c0 v0, gross_integrated_heating_capacity M u (Some c0) = Ok v0 ->
    c_speed c0 = c_speed c ->
    v0 = (if in_defrost (u_defrost u) c0
          then frosted_line (r * q47) (0.36 * (r * q47) + 0.54 * q47) q47 (degF (ps_db (c_outdoor c0)))
          else clear_line (r * q47) q47 (degF (ps_db (c_outdoor c0)))) - w).
  { intros c0 v0 V0 E0. destruct (df_strategy (u_defrost u)) eqn:DS.
    - assert (A : anchor17 u (c_speed c) (r * q47)) by (right; split; [exact N|]; exists h, q47; auto).
      destruct (in_defrost (u_defrost u) c0) eqn:I.
      { exfalso. apply (in_defrost_strategy _ _ I). exact DS. }
      assert (Z : v0 = (if in_defrost (u_defrost u) c0
          then frosted_line (r * q47) (((r * q47) + (35 - 17) / (47 - 17) * (q47 - (r * q47))) * 1) q47 (degF (ps_db (c_outdoor c0)))
          else clear_line (r * q47) q47 (degF (ps_db (c_outdoor c0)))) - w).
      { apply (t24_integrated_line sol); rewrite ?E0; auto. right. split; [exact N'|].
        exists (r * q47), q47. split; [exact A|]. split; [exact H47|]. rewrite DS. reflexivity. }
      rewrite I in Z. exact Z.
    - destruct (default_anchors u (c_speed c) q47 h N N' Hh H47) as [A A']; [rewrite DS; discriminate|].
      fold r in A, A'. apply (t24_integrated_line sol); rewrite ?E0; auto.
    - destruct (default_anchors u (c_speed c) q47 h N N' Hh H47) as [A A']; [rewrite DS; discriminate|].
      fold r in A, A'. apply (t24_integrated_line sol); rewrite ?E0; auto. }
  rewrite (Hc c v V eq_refl), (Hc c' v' V' E). clear Hc V V'.
  assert (I : in_defrost (u_defrost u) c' = true -> in_defrost (u_defrost u) c = true).
  { unfold in_defrost, in_defrost_at. rewrite L. destruct (df_strategy _); [auto|..];
    cbn [nltb RNum]; intros HH; apply Rltb_true;
    (destruct (Rltb_spec (ps_db (c_outdoor c')) (df_high_temperature (u_defrost u))); [lra|discriminate]). }
  assert (Tf : degF (ps_db (c_outdoor c)) < degF (ps_db (c_outdoor c'))) by (unfold degF; lra).
  unfold clear_line, frosted_line.
  set (a := degF (ps_db (c_outdoor c))) in *. set (b := degF (ps_db (c_outdoor c'))) in *.
  clearbody a b. set (x := r * q47) in *. clearbody x. clear - P P1 P2 Tf I.
  assert (K1 : 0 < (0.54 * q47 - 0.64 * x) * (b - a)) by (apply Rmult_lt_0_compat; lra).
  assert (K2 : 0 < (q47 - x) * (b - a)) by (apply Rmult_lt_0_compat; lra).
  assert (K3 : 17 < b -> 0 < (0.6 * q47 + 0.4 * x) * (b - 17)) by (intros; apply Rmult_lt_0_compat; lra).
  assert (K4 : 17 < b -> a <= 17 -> 0 < (0.54 * q47 - 0.64 * x) * (b - 17)) by (intros; apply Rmult_lt_0_compat; lra).
  assert (K5 : a <= 17 -> 0 <= (q47 - x) * (17 - a)) by (intros; apply Rmult_le_pos; lra).
  destruct (in_defrost (u_defrost u) c'); [rewrite I by reflexivity|destruct (in_defrost (u_defrost u) c)];
    repeat destruct (Rlt_dec _ _); try lra.
  all: try (specialize (K3 ltac:(lra))); try (specialize (K4 ltac:(lra) ltac:(lra))); try (specialize (K5 ltac:(lra))); lra.
Qed.

(** * Examples: a 10 kW unit of HSPF 8, and one of HSPF 16 *)
Definition t24_rated (h : R) : dxunit R := wu_hspf (Some h) (t24_unit []).

Lemma t24_rated_total sol h t : let M := Title24DXModel sol in
  (exists s, gross_steady_state_heating_capacity M (t24_rated h) (Some (toy_cond 294 289 t 1)) = Ok s)
  /\ exists s, gross_integrated_heating_capacity M (t24_rated h) (Some (toy_cond 294 289 t 1)) = Ok s.
Proof.
  intros M. unfold gross_steady_state_heating_capacity, gross_integrated_heating_capacity, product.
  cbn [heating_conditions rbind M md_ghc md_gihc Title24DXModel]. unfold fresh, t24_integrated_capacity.
  set (c := toy_cond 294 289 t 1).
  split; repeat match goal with |- context [if ?b then _ else _] => destruct b end;
    eexists; reflexivity.
Qed.

Lemma t24_rated_in_defrost h x : x <= 40 ->
  in_defrost (u_defrost (t24_rated h)) (toy_cond 294 289 (fr_F x) 1) = true.
Proof.
  intros Hx. unfold in_defrost. cbn [toy_cond c_outdoor ps_db psych_wetbulb put_wb blank].
  assert (E : fr_F (T:=R) x = (x - 32) / 1.8 + 273.15) by (unfold fr_F; rnum; lra). rewrite E.
  cbn. apply Rltb_true. lra.
Qed.

Lemma t24_rated_case : forall h, let u := t24_rated h in
  let c := toy_cond 294 289 (fr_F 20) 1 in let c' := toy_cond 294 289 (fr_F 40) 1 in
  c_speed c' = c_speed c /\ not_supplied u "cap17" /\ not_supplied u "cap35"
  /\ u_hspf u = Some h /\ anchor47 u (c_speed c) 10000
  /\ anchor17 u (c_speed c) (t24_ratio h * 10000)
  /\ anchor35 u (c_speed c) (0.36 * (t24_ratio h * 10000) + 0.54 * 10000)
  /\ entry (sd_fan_power (u_h u)) (c_speed c) 300
  /\ df_low_temperature (u_defrost u) = None
  /\ degF (ps_db (c_outdoor c)) = 20 /\ degF (ps_db (c_outdoor c')) = 40
  /\ ps_db (c_outdoor c) < ps_db (c_outdoor c')
  /\ in_defrost (u_defrost u) c = true /\ in_defrost (u_defrost u) c' = true.
Proof.
  intros h u c c'.
  assert (N : not_supplied u "cap17") by (intros v H; destruct H).
  assert (N' : not_supplied u "cap35") by (intros v H; destruct H).
  assert (A : anchor47 u (c_speed c) 10000) by reflexivity.
  destruct (default_anchors u (c_speed c) 10000 h N N' eq_refl A) as [A1 A2]; [discriminate|].
  assert (E : forall x, fr_F (T:=R) x = (x - 32) / 1.8 + 273.15) by (intros x; unfold fr_F; rnum; lra).
  split; [reflexivity|]. repeat (split; [assumption || reflexivity|]).
  unfold c, c'. split; [|split; [|split]].
  - cbn [toy_cond c_outdoor ps_db psych_wetbulb put_wb blank]. rewrite E. unfold degF. lra.
  - cbn [toy_cond c_outdoor ps_db psych_wetbulb put_wb blank]. rewrite E. unfold degF. lra.
  - cbn [toy_cond c_outdoor ps_db psych_wetbulb put_wb blank]. rewrite !E. lra.
  - split; apply t24_rated_in_defrost; lra.
Qed.

Lemma t24_falls : forall sol, let u := t24_rated 16 in let M := Title24DXModel sol in
  let c := toy_cond 294 289 (fr_F 20) 1 in let c' := toy_cond 294 289 (fr_F 40) 1 in
  exists v v', gross_integrated_heating_capacity M u (Some c) = Ok v
  /\ gross_integrated_heating_capacity M u (Some c') = Ok v' /\ v' < v.
Proof.
  intros sol u M c c'.
  destruct (t24_rated_total sol 16 (fr_F 20)) as [_ (v & V)].
  destruct (t24_rated_total sol 16 (fr_F 40)) as [_ (v' & V')].
  destruct (t24_rated_case 16) as (E & N & N' & Hh & A47 & A17 & A35 & W & L & T & T' & _ & D & D').
  exists v, v'. split; [exact V|]. split; [exact V'|].
  rewrite (t24_integrated_line sol _ _ v _ _ _ _ V A17 A35 A47 W).
  rewrite (t24_integrated_line sol _ _ v' _ _ _ _ V' A17 A35 A47 W).
  rewrite D, D', T, T'. unfold frosted_line, t24_ratio.
  repeat destruct (Rlt_dec _ _); lra.
Qed.
