(** A variable-speed unit that loses a fifth of its heating capacity to frost: its
    resistance heat is negative in one bin. *)
From Coq Require Import Reals QArith Qreals Lra Psatz Lia List Bool String.
From Verif.Base Require Import Num Res Tac.
From Verif.Model Require Import Units Util Psychrometrics Conditions Defrost Fan Curves
  Tabular Unit NREL BaseModel Title24 Resnet DXUnit.
From Verif.Spec Require Import UtilSpec UnitModels UnitSpec SeasonSpec.
From Verif.Proofs Require Import UnitsR UnitProofs3 UnitProofs4 ToyBuild ToyBuild2 SeerProofs
  ScaleProofs HspfProofs HspfProofs2 HspfProofs3 ToySeason ToySeason2.
Import ListNotations.
Local Open Scope R_scope.

(** The model of ConstantDXModel with a frost penalty. *)
Definition FrostModel : dxmodel R :=
  let m := ConstantDXModel in
  mkModel (md_allowed m) (md_process m) (md_gtc m) (md_gcp m) (md_gsc m) (md_shr m)
    (md_ghc m) (md_ghp m) (fun u c => let! q := md_gihc m u c in Ok (0.8 * q)) (md_gihp m)
    (md_f_gtc m) (md_f_gcp m) (md_f_ghc m) (md_f_ghp m) (md_cd_cooling m) (md_cd_heating m)
    (md_set_net_capacities_and_fan m) (md_set_net_cop m) (md_set_gross_cop m).

Lemma frost_build a : DXUnit lin_psy lin_sol FrostModel a = DXUnit lin_psy lin_sol K a.
Proof. reflexivity. Qed.

(** Net capacity left by the frost penalty. *)
Definition fr : R := 0.8 + 0.2 * (fl * ef).
Lemma fr_bounds : 0.8 < fr < 0.808.
Proof. pose proof kfan as [A B]. unfold fr. lra. Qed.
Definition frosted (t q w : R) : point R := mkPoint (deg_F t) (q * fr) (q * w).

Lemma frost_frosted u qs k g f all i q full p o t :
  u_fan u = Some f -> f_class f = ConstantEfficacyFan ->
  f_airflow f = map (fun q => q * fl) all ->
  f_design_efficacy f = EffList (repeat ef (List.length all)) ->
  nth_error qs i = Some q -> nth_error all (k + i) = Some q -> 0 < g ->
  u_h u = by_gross Heating qs k g ->
  ps_db (match o with Some s => s | None => default_outdoor Heating end) = deg_F t ->
  frost_test lin_sol FrostModel u (Some (rc Heating k q full p i o)) (frosted t q (wh g)).
Proof.
  intros F Kf A D Q QA G S T.
  destruct (heating_vals lin_sol u qs k g f all i q full p o S F Kf A D Q QA G)
    as (V0 & V1 & V2 & V3 & V4).
  exists (rc Heating k q full p i o). split; [reflexivity|]. split; [symmetry; exact T|].
  split.
  - unfold net_integrated_heating_capacity, both in *.
    apply rbind_ok in V3. destruct V3 as (qg & W1 & V3). apply rbind_ok in V3.
    destruct V3 as (fw & W2 & V3).
    unfold net_steady_state_heating_capacity, both in V1. rewrite V0, W2 in V1.
    cbn [rbind] in V1. unfold plus in V1, V3. cbn [nadd RNum] in V1, V3.
    apply Ok_inj in V1. apply Ok_inj in V3.
    assert (E : gross_integrated_heating_capacity FrostModel u (Some (rc Heating k q full p i o))
                = Ok (0.8 * qg)).
    { unfold gross_integrated_heating_capacity in *. cbn [heating_conditions rbind] in *.
      change (md_gihc FrostModel) with
        (fun u c => let! q := md_gihc (T:=R) ConstantDXModel u c in Ok (0.8 * q)).
      cbv beta. rewrite W1. reflexivity. }
    rewrite E. cbn [rbind]. rewrite W2. cbn [rbind]. unfold plus. apply f_equal.
    cbn [nadd RNum frosted pt_q]. unfold fr, fanw in *. lra.
  - assert (P4 : pt_p (frosted t q (wh g)) = (q - fanw q) / g + fanw q)
      by (unfold frosted, wh, fanw; cbn [pt_p]; field; lra).
    rewrite P4. exact V4.
Qed.

Lemma q_full_frost h w t : 
  full_line q_at (at_F 47 h w) (frosted 35 h w) (at_F 17 h w) (deg_F t)
  = if Rle_dec 45 t then h else if Rle_dec t 17 then h else h - h * (1 - fr) * ((t - 17) / 18).
Proof.
  unfold full_line. rewrite !q_flat.
  assert (A : forall a b, deg_F a <= deg_F b <-> a <= b) by (intros; unfold deg_F; lra).
  destruct (Rle_dec (deg_F 45) (deg_F t)) as [X|X]; rewrite A in X;
    destruct (Rle_dec 45 t); try lra.
  destruct (Rle_dec (deg_F t) (deg_F 17)) as [Y|Y]; rewrite A in Y;
    destruct (Rle_dec t 17); try lra.
  unfold q_at, UnitSpec.line, at_F, frosted, deg_F. cbn [pt_q pt_t]. field. lra.
Qed.
Lemma p_full_frost h w t :
  full_line p_at (at_F 47 h w) (frosted 35 h w) (at_F 17 h w) t = h * w.
Proof.
  unfold full_line.
  assert (E : p_at (at_F 17 h w) (frosted 35 h w) t = h * w).
  { unfold p_at, UnitSpec.line, at_F, frosted. cbn [pt_p pt_t]. unfold Rdiv. ring. }
  rewrite E, !p_flat. ifs.
Qed.
Lemma p_int_frost h1 h2 h3 w t :
  p_int_heat (at_F 62 h3 w) (at_F 47 h3 w) (frosted 35 h2 w) (frosted 35 h1 w) (at_F 17 h1 w) t
  = h2 * w.
Proof. unfold p_int_heat, mixed_slope, at_F, frosted. cbn [pt_p pt_t]. unfold Rdiv. ring. Qed.
Lemma q_int_frost h1 h2 h3 w t : h3 < h2 * fr -> h2 <= h1 -> 
  exists x, 0 <= x <= 1 /\
  q_int_heat (at_F 62 h3 w) (at_F 47 h3 w) (frosted 35 h2 w) (frosted 35 h1 w) (at_F 17 h1 w)
    (deg_F t) = h2 * fr - h1 * (1 - fr) / 18 * x * (t - 35).
Proof.
  intros A B. pose proof fr_bounds as F.
  exists ((h2 * fr - h3) / (h1 * fr - h3)). split.
  - assert (h2 * fr <= h1 * fr) by nra. split; [apply Rle_mult_inv_pos; lra|].
    apply (Rmult_le_reg_r (h1 * fr - h3)); [lra|].
    replace ((h2 * fr - h3) / (h1 * fr - h3) * (h1 * fr - h3)) with (h2 * fr - h3)
      by (field; lra). lra.
  - assert (h2 * fr <= h1 * fr) by nra.
    unfold q_int_heat, mixed_slope. rewrite q_flat. unfold at_F, frosted, deg_F.
    cbn [pt_q pt_t]. field. lra.
Qed.

Notation h1 := 7300 (only parsing).
Notation h2 := 6000 (only parsing).
Notation h3 := 3000 (only parsing).

Lemma frost_unit :
  exists u,
    DXUnit lin_psy lin_sol FrostModel
      (toy_args VARIABLE_SPEED AHRI_210_240_2023 [10000; 7000; 4000] [h1; h2; h3] 4 4) = Ok u
    /\ plain VARIABLE_SPEED AHRI_210_240_2023 (Q2R (-20)) u
    /\ full_tests u 10000 h1 4 4 /\ low_tests u 4000 h3 4 4
    /\ frost_test lin_sol FrostModel u (rc_H2_full (u_conds u)) (frosted 35 h1 (wh 4))
    /\ frost_test lin_sol FrostModel u (rc_H2_int (u_conds u)) (frosted 35 h2 (wh 4)).
Proof.
  destruct (built_3 AHRI_210_240_2023 (Some 4) None (Some 4) None None
     ltac:(apply good_gross; lra) ltac:(apply good_gross; lra) 10000 7000 4000 h1 h2 h3)
    as (f & p & cr & s & b & t & B & Kf & A & D & E); try lra.
  destruct (toy_3 AHRI_210_240_2023 10000 7000 4000 h1 h2 h3 4 4)
    as (u & Eu & Pl & Ft & Lt & _); try lra.
  exists u. rewrite frost_build. split; [exact Eu|].
  do 3 (split; [assumption|]).
  unfold toy_args in Eu. rewrite B in Eu. apply Ok_inj in Eu. subst u. clear Pl Ft Lt.
  set (u := built _ _ _ _ _ _ _ _ _ _ _ _ _ _ _).
  set (all := [10000; 7000; 4000] ++ [h1; h2; h3]) in *.
  split.
  - apply (frost_frosted u [h1; h2; h3] 3%nat 4 f all 0%nat h1 h1 p (t35 (T:=R)) 35);
      [reflexivity|exact Kf|exact A|exact D|reflexivity|reflexivity|lra|reflexivity|temp].
  - apply (frost_frosted u [h1; h2; h3] 3%nat 4 f all 1%nat h2 h1 p (t35 (T:=R)) 35);
      [reflexivity|exact Kf|exact A|exact D|reflexivity|reflexivity|lra|reflexivity|temp].
Qed.

Lemma bin_temp i : (i < 18)%nat -> exists x, heat_t i = deg_F x /\ -23 <= x <= 62.
Proof.
  intros I. exists (62 - 5 * INR i). split; [reflexivity|].
  assert (H : (i <= 17)%nat) by lia. apply le_INR in H. replace (INR 17) with 17 in H by (cbn [INR]; lra).
  pose proof (pos_INR i). lra.
Qed.

Lemma wh4 : 1 / 4 < wh 4 < 1 / 2.
Proof.
  pose proof kfan as [X Y]. unfold wh. lra.
Qed.

Lemma frost_full_q t w :
  let q := full_line q_at (at_F 47 h1 w) (frosted 35 h1 w) (at_F 17 h1 w) (deg_F t) in
  5000 < q <= h1 /\ (t < 32 -> 6000 < q).
Proof.
  cbv zeta. rewrite q_full_frost. pose proof fr_bounds as F.
  destruct (Rle_dec 45 t); [lra|]. destruct (Rle_dec t 17); [lra|].
  assert (0 < (t - 17) / 18 < 28 / 18) by lra.
  assert (t < 32 -> (t - 17) / 18 < 15 / 18) by lra. set (y := (t - 17) / 18) in *.
  split; [split; nra|]. intros T. assert (y < 15 / 18) by auto. nra.
Qed.
Lemma frost_int_q t w : -23 <= t <= 62 ->
  2400 <= q_int_heat (at_F 62 h3 w) (at_F 47 h3 w) (frosted 35 h2 w) (frosted 35 h1 w)
            (at_F 17 h1 w) (deg_F t) <= 9600.
Proof.
  intros T. pose proof fr_bounds as F. 
  destruct (q_int_frost h1 h2 h3 w t) as (x & X & ->); [lra|lra|].
  assert (77 <= h1 * (1 - fr) / 18 <= 81.2) by lra. set (a := h1 * (1 - fr) / 18) in *.
  assert (0 <= a * x <= 81.2) by nra. set (b := a * x) in *. nra.
Qed.
Lemma range q h w a b : 0 < h -> 0 < w -> a * h <= q <= b * h -> a / w <= q / (h * w) <= b / w.
Proof.
  intros H W [A B]. assert (P : 0 < h * w) by nra.
  assert (E : q / (h * w) = q / h / w) by (field; lra). rewrite E.
  unfold Rdiv at 1 3 4. 
  assert (0 < / w) by (apply Rinv_0_lt_compat; exact W).
  assert (a <= q / h <= b).
  { split; apply (Rmult_le_reg_r h); try exact H; (replace (q / h * h) with q by (field; lra)); lra. }
  split; apply Rmult_le_compat_r; lra.
Qed.

Lemma frost_speeds w : 0 < w ->
  speeds_ok (0.4 / w) (1.6 / w) (at_F 62 h3 w) (at_F 47 h3 w) (frosted 35 h2 w)
    (at_F 47 h1 w) (frosted 35 h1 w) (at_F 17 h1 w) (at_F 5 h1 w).
Proof.
  intros W. pose proof fr_bounds as F.
  assert (Dis : forall a b, a <> b -> deg_F a <> deg_F b) by (intros a b N C; apply N; unfold deg_F in C; lra).
  unfold speeds_ok. cbn [pt_t at_F frosted].
  do 4 (split; [apply Dis; lra|]). rewrite q_flat, p_flat. cbn [pt_q pt_p frosted].
  split; [apply Rlt_not_eq; lra|]. split; [apply Rlt_not_eq; lra|].
  intros i I. cbv zeta. destruct (bin_temp i I) as (x & -> & X).
  rewrite p_int_frost, p_full_frost, q_flat, p_flat.
  destruct (frost_full_q x w) as [A _]. pose proof (frost_int_q x w X) as B.
  split; [lra|]. split; [lra|]. split; [lra|]. split; [lra|]. split; [lra|].
  split; [|split]; apply range; lra.
Qed.

Lemma load_at x : load23 1.07 10000 (deg_F x) = Rmax (214 * (55 - x)) 0.
Proof.
  unfold load23. replace ((deg_F 55 - deg_F x) / (deg_F 55 - deg_F 5)) with ((55 - x) / 50)
    by (unfold deg_F; field; lra). f_equal. lra.
Qed.

Lemma mix r a b : 0 <= r <= 1 -> 0 < a -> 0 < b -> 0 < r * a + (1 - r) * b.
Proof. intros. nra. Qed.
Lemma frost_bin off on i : (i < 18)%nat ->
  let w := wh 4 in
  let bin := variable_bin off on (1 / 4) (load23 1.07 10000) (at_F 62 h3 w) (at_F 47 h3 w)
    (frosted 35 h2 w) (at_F 47 h1 w) (frosted 35 h1 w) (at_F 17 h1 w) (at_F 5 h1 w) in
  0 <= fst (bin i) + snd (bin i)
  /\ (0 < load23 1.07 10000 (heat_t i) -> 0 < fst (bin i) + snd (bin i)).
Proof.
  intros I w bin. pose proof wh4 as W. fold w in W.
  destruct (bin_temp i I) as (x & Ex & X).
  destruct (frost_speeds w ltac:(lra)) as (_ & _ & _ & _ & _ & _ & Sp).
  specialize (Sp i I). cbv zeta in Sp. unfold bin, variable_bin. cbv zeta. rewrite Ex in *.
  destruct Sp as (Q1 & P1 & Pi & Qf & Pf & K1 & K2 & K3).
  rewrite !q_flat, !p_flat, p_int_frost, p_full_frost in *.
  set (qi := q_int_heat _ _ _ _ _ _) in *.
  destruct (frost_full_q x w) as [A A']. set (qf := full_line _ _ _ _ _) in *.
  set (bl := load23 _ _ _).
  assert (B0 : 0 <= bl) by apply Rmax_r.
  unfold variable_heat.
  assert (Rn : forall c, 0 <= run_fraction off on (deg_F x) c <= 1) by (intros; apply run_bounds).
  assert (L0 : 0 < 0.4 / w) by (apply Rdiv_lt_0_compat; lra).
  destruct (Rle_dec bl h3) as [C|C]; cbn [fst snd].
  - destruct (cycling_bounds0 (1 / 4) bl h3 (h3 * w) (0.4 / w) (1.6 / w)) as [Y Z];
      try assumption; try lra.
    assert (Hh : 0 < 1.6 / w) by (apply Rdiv_lt_0_compat; lra).
    set (r := run_fraction _ _ _ _). specialize (Rn (h3 / (h3 * w))). fold r in Rn.
    set (cy := cycling _ _ _) in *. split; [nra|]. intros Bp.
    assert (0 < cy) by (apply (Rmult_lt_reg_l (1.6 / w)); lra). nra.
  - destruct (Rlt_dec bl qf) as [E|E]; cbn [fst snd].
    + assert (SC := speed_cop_bounds bl h3 (h3 * w) qi (h2 * w) qf (h1 * w) (0.4 / w) (1.6 / w)
        ltac:(lra) L0 K1 K2 K3).
      set (sc := speed_cop _ _ _ _ _ _ _) in *. specialize (Rn sc).
      set (r := run_fraction _ _ _ _) in *.
      assert (Sp0 : 0 < sc) by lra. assert (Bl0 : 0 < bl) by lra. assert (0 < bl / sc) by (apply Rdiv_lt_0_compat; assumption).
      split; [apply Rlt_le|intros _]; apply mix; assumption.
    + specialize (Rn (qf / (h1 * w))). set (r := run_fraction _ _ _ _) in *.
      assert (G : 6000 < qf).
      { apply A'. apply Rnot_le_lt. intros N.
        assert (bl <= 4922); [|lra]. unfold bl. rewrite load_at. apply Rmax_lub; lra. }
      split; [nra|]. intros; nra.
Qed.

Lemma negative_resistance :
  exists u on d H0l H1l H2i H1 H2 H3 H4 L credit v,
    DXUnit lin_psy lin_sol FrostModel
      (toy_args VARIABLE_SPEED AHRI_210_240_2023 [10000; 7000; 4000] [h1; h2; h3] 4 4) = Ok u
    /\ u_staging u = VARIABLE_SPEED /\ u_heating_on u = Some on
    /\ climate u 4 = Ok d
    /\ heating_test lin_sol FrostModel u (rc_H0_low (u_conds u)) H0l
    /\ heating_test lin_sol FrostModel u (rc_H1_low (u_conds u)) H1l
    /\ frost_test lin_sol FrostModel u (rc_H2_int (u_conds u)) H2i
    /\ heating_test lin_sol FrostModel u (rc_H1_full (u_conds u)) H1
    /\ frost_test lin_sol FrostModel u (rc_H2_full (u_conds u)) H2
    /\ heating_test lin_sol FrostModel u (rc_H3_full (u_conds u)) H3
    /\ heating_test lin_sol FrostModel u (rc_H4_full (u_conds u)) H4
    /\ heat_load lin_sol FrostModel u d L
    /\ demand_credit (u_defrost u) = Ok credit
    /\ hspf lin_sol FrostModel u 4 = Ok v
    /\ let bin := variable_bin (u_heating_off u) on (sd_cd (u_h u)) L
                    H0l H1l H2i H1 H2 H3 H4 in
       v = seasonal_heating (hours_of d) (fun i => L (heat_t i))
             (fun i => fst (bin i)) (fun i => snd (bin i)) credit
       /\ 0 < hours_of d 8 /\ snd (bin 8%nat) < 0.
Proof.
  destruct frost_unit as (u & E & Pl & Ft & (TBl & TFl & T0l & T1l & T2l & T3l) & F2 & F2i).
  pose proof wh4 as W.
  pose proof Pl as (S1 & S2 & S3 & S4 & S5 & S6 & S7 & S8).
  pose proof Ft as (TA & TB & T1 & _ & T3 & T4).
  destruct (region4_2023 u S3) as (d & k & Cl & Kp & Dd & C1 & C2 & Z & Hh).
  assert (Hp : forall i, 0 <= hours_of d i) by (apply (climate_hours u 4 d Cl)).
  assert (H8 : 0 < hours_of d 8) by (rewrite Hh by lia; cbn [nth raw4]; lra).
  assert (HL : heat_load lin_sol FrostModel u d (load23 1.07 10000)).
  { change (heat_load lin_sol K u d (load23 1.07 10000)).
    apply (has_load23 u VARIABLE_SPEED (Q2R (-20)) 10000 h1 4 4); auto. }
  exists u, (deg_F (Q2R (-20))), d, (at_F 62 h3 (wh 4)), (at_F 47 h3 (wh 4)),
    (frosted 35 h2 (wh 4)), (at_F 47 h1 (wh 4)), (frosted 35 h1 (wh 4)), (at_F 17 h1 (wh 4)),
    (at_F 5 h1 (wh 4)), (load23 1.07 10000), 1. eexists.
  split; [exact E|]. split; [exact S1|]. split; [exact S5|]. split; [exact Cl|].
  split; [exact T0l|]. split; [exact T1l|]. split; [exact F2i|]. split; [exact T1|].
  split; [exact F2|]. split; [exact T3|]. split; [exact T4|]. split; [exact HL|].
  split; [exact S8|].
  assert (L8 : load23 1.07 10000 (heat_t 8) = 7062).
  { rewrite load23_bin. cbn [INR]. rewrite Rmax_left; lra. }
  split; [|split; [reflexivity|split; [exact H8|]]].
  - apply (hspf_variable_value lin_sol FrostModel u 4 (deg_F (Q2R (-20))) d _ _ _ _ _ _ _
      (load23 1.07 10000) 1 (0.4 / wh 4) (1.6 / wh 4) S1 S5 Cl T0l T1l F2i T1 F2 T3 T4 HL S8).
    + rewrite S7. lra.
    + apply Rdiv_lt_0_compat; lra.
    + apply frost_speeds. lra.
    + rewrite <- over_add. rewrite S7.
      apply (over_some 18 _ 8%nat); [lia| |].
      * destruct (frost_bin (u_heating_off u) (deg_F (Q2R (-20))) 8 ltac:(lia)) as [_ G].
        specialize (G ltac:(rewrite L8; lra)). cbv zeta in G. nra.
      * intros i I. destruct (frost_bin (u_heating_off u) (deg_F (Q2R (-20))) i I) as [G _].
        cbv zeta in G. specialize (Hp i). nra.
  - assert (T8 : heat_t 8 = deg_F 22) by (unfold heat_t; f_equal; cbn [INR]; lra).
    assert (G : full_line q_at (at_F 47 h1 (wh 4)) (frosted 35 h1 (wh 4)) (at_F 17 h1 (wh 4))
                  (heat_t 8) <= 6920 /\ 6800 < full_line q_at (at_F 47 h1 (wh 4)) (frosted 35 h1 (wh 4)) (at_F 17 h1 (wh 4)) (heat_t 8)).
    { rewrite T8, q_full_frost. pose proof fr_bounds.
      destruct (Rle_dec 45 22); [lra|]. destruct (Rle_dec 22 17); [lra|]. lra. }
    rewrite variable_bin_over.
    + rewrite q_flat, L8. lra.
    + rewrite q_flat, L8. lra.
    + rewrite L8. lra.
    + apply heat_t_lt. unfold Q2R. cbn [INR]. simpl. lra.
    + rewrite S4. apply heat_t_lt. unfold Q2R. cbn [INR]. simpl. lra.
    + rewrite p_full_frost. apply (Rmult_le_reg_r (h1 * wh 4)); [lra|].
      match goal with |- 1 * ?a <= ?q / ?a * ?a => replace (q / a * a) with q by (field; lra) end.
      lra.
Qed.

Lemma two_stage_runs_below_cut_out :
  exists u on d s L credit v,
    unit_of TWO_STAGE AHRI_210_240_2023 [5000; 3500] [9000; 4000] 4 4 u
    /\ u_staging u = TWO_STAGE /\ u_heating_on u = Some on
    /\ climate u 4 = Ok d
    /\ heating_test lin_sol K u (rc_H0_low (u_conds u)) (s_H0l s)
    /\ heating_test lin_sol K u (rc_H1_low (u_conds u)) (s_H1l s)
    /\ frost_test lin_sol K u (rc_H2_low (u_conds u)) (s_H2l s)
    /\ heating_test lin_sol K u (rc_H3_low (u_conds u)) (s_H3l s)
    /\ heating_test lin_sol K u (rc_H1_full (u_conds u)) (s_H1 s)
    /\ frost_test lin_sol K u (rc_H2_full (u_conds u)) (s_H2 s)
    /\ heating_test lin_sol K u (rc_H3_full (u_conds u)) (s_H3 s)
    /\ heat_load lin_sol K u d L
    /\ demand_credit (u_defrost u) = Ok credit
    /\ hspf lin_sol K u 4 = Ok v
    /\ let bin := two_stage_bin (u_cycling u) (u_heating_off u) on (sd_cd (u_h u)) L s in
       v = seasonal_heating (hours_of d) (fun i => L (heat_t i))
             (fun i => fst (bin i)) (fun i => snd (bin i)) credit
       /\ heat_t 13 <= u_heating_off u /\ 0 < hours_of d 13
       /\ 0 < fst (bin 13%nat) /\ snd (bin 13%nat) = 0.
Proof.
  destruct toy_hspf_two as (u & on & d & s & L & cr & lo & hi & E & S1 & S2 & S3 & Cl & T1 & T2 & T3
    & T4 & T5 & T6 & T7 & HL & Lp & L0 & Cr & C0 & Cd & Lo & St & B1 & B2 & B3 & B4 & B5).
  destruct (hspf_two_total lin_sol K u 4 on d s L cr lo hi) as (v & V1 & V2 & _);
    auto; try lra.
  exists u, on, d, s, L, cr, v. cbv zeta. repeat (split; [assumption|]). assumption.
Qed.

Lemma toy_single_runs : exists u on v,
  unit_of SINGLE_STAGE AHRI_210_240_2023 [10000] [9000] 4 4 u
  /\ u_staging u = SINGLE_STAGE /\ u_heating_on u = Some on
  /\ hspf lin_sol K u 4 = Ok v /\ heat_t 14 <= u_heating_off u.
Proof.
  destruct toy_hspf_single as (u & on & d & H1 & H2 & H3 & L & cr & lo & hi & E & S1 & S2 & Cl
    & T1 & T2 & T3 & N1 & N2 & HL & Lp & Cr & C0 & Cd & Lo & F & B & _).
  destruct (hspf_single_total lin_sol K u 4 on d H1 H2 H3 L cr lo hi) as (v & V & _);
    auto; try lra.
  exists u, on, v. repeat (split; [assumption|]). assumption.
Qed.

Lemma toy_variable_runs : exists u on v,
  unit_of VARIABLE_SPEED AHRI_210_240_2023 [10000; 7000; 4000] [9000; 6000; 3000] 4 4 u
  /\ u_staging u = VARIABLE_SPEED /\ u_heating_on u = Some on
  /\ hspf lin_sol K u 4 = Ok v /\ heat_t 17 <= u_heating_off u.
Proof.
  destruct toy_hspf_variable as (u & on & d & H0l & H1l & H2i & H1 & H2 & H3 & H4 & L & cr & lo
    & hi & E & S1 & S2 & Cl & T1 & T2 & T3 & T4 & T5 & T6 & T7 & HL & Lp & Cr & C0 & Cd & Lo
    & F & G & B).
  destruct (hspf_variable_total lin_sol K u 4 on d H0l H1l H2i H1 H2 H3 H4 L cr lo hi)
    as (v & V & _); auto; try lra.
  exists u, on, v. repeat (split; [assumption|]). assumption.
Qed.
