(** Pairs of units that meet the hypotheses of C86. *)
From Coq Require Import Reals QArith Qreals Lra Psatz Lia List Bool String.
From Verif.Base Require Import Num Res Tac.
From Verif.Model Require Import Units Util Psychrometrics Conditions Defrost Fan Curves
  Tabular Unit NREL BaseModel Title24 Resnet DXUnit.
From Verif.Spec Require Import UtilSpec UnitModels UnitSpec SeasonSpec CompareSpec.
From Verif.Proofs Require Import UnitsR UnitProofs3 UnitProofs4 ToyBuild ToyBuild2 SeerProofs
  ScaleProofs HspfProofs HspfProofs2 HspfProofs3 ToySeason ToySeason2.
Import ListNotations.
Local Open Scope R_scope.

Lemma wc_less : wc 5 < wc 4.
Proof. pose proof kfan. unfold wc. lra. Qed.
Lemma wh_less : wh 5 < wh 4.
Proof. pose proof kfan. unfold wh. lra. Qed.
Lemma wh_degraded : 1 <= (1 - 1 / 4) * (1 / wh 5).
Proof.
  pose proof kfan. destruct (wh_bounds 5 ltac:(lra)) as [W _].
  assert (X : wh 5 <= 0.75) by (unfold wh; lra).
  apply (Rmult_le_reg_r (wh 5)); [exact W|].
  replace ((1 - 1 / 4) * (1 / wh 5) * wh 5) with (1 - 1 / 4) by (field; lra). lra.
Qed.
Lemma flat_same t q w w' : same_capacity (at_F t q w) (at_F t q w').
Proof. split; reflexivity. Qed.

(** Assigning c_d_cooling. *)
Definition with_cd (x : R) (u : dxunit R) : dxunit R := wu_c (ws_cd x (u_c u)) u.
Lemma cool_with_cd x u get P : cooling_test lin_sol K u (get (u_conds u)) P ->
  cooling_test lin_sol K (with_cd x u) (get (u_conds (with_cd x u))) P.
Proof. intros (c & H). exists c. exact H. Qed.

Lemma pair_seer_single : exists u w B B',
  unit_of SINGLE_STAGE AHRI_210_240_2023 [10000] [9000] 4 4 u
  /\ unit_of SINGLE_STAGE AHRI_210_240_2023 [10000] [9000] 5 5 w
  /\ let u' := with_cd (1 / 8) w in
     u_staging u = SINGLE_STAGE /\ u_staging u' = SINGLE_STAGE
     /\ cooling_test lin_sol K u (rc_B_full (u_conds u)) B
     /\ cooling_test lin_sol K u' (rc_B_full (u_conds u')) B'
     /\ same_capacity B B' /\ 0 < pt_q B /\ 0 < pt_p B' < pt_p B
     /\ 0 <= sd_cd (u_c u') < sd_cd (u_c u) /\ sd_cd (u_c u) < 1.
Proof.
  destruct (toy_1 AHRI_210_240_2023 10000 9000 4 4) as (u & E & (S & _ & _ & _ & _ & Cd & _)
    & (_ & TB & _) & _); try lra.
  destruct (toy_1 AHRI_210_240_2023 10000 9000 5 5) as (w & E' & (S' & _) & (_ & TB' & _) & _);
    try lra.
  destruct (wc_bounds 4 ltac:(lra)) as [W1 W2]. destruct (wc_bounds 5 ltac:(lra)) as [W1' _].
  pose proof wc_less.
  exists u, w, (at_F 82 10000 (wc 4)), (at_F 82 10000 (wc 5)).
  split; [exact E|]. split; [exact E'|]. cbv zeta. split; [exact S|]. split; [exact S'|].
  split; [exact TB|]. split; [apply cool_with_cd, TB'|]. split; [apply flat_same|].
  cbn [pt_q pt_p at_F]. split; [lra|]. split; [lra|]. rewrite Cd.
  change (sd_cd (u_c (with_cd (1 / 8) w))) with (1 / 8). lra.
Qed.

Lemma pair_seer_two : exists u w A B Bl Fl A' B' Bl' Fl',
  unit_of TWO_STAGE AHRI_210_240_2023 [10000; 7000] [9000; 6000] 4 4 u
  /\ unit_of TWO_STAGE AHRI_210_240_2023 [10000; 7000] [9000; 6000] 5 5 w
  /\ let u' := with_cd (1 / 8) w in
     u_staging u = TWO_STAGE /\ u_staging u' = TWO_STAGE /\ u_cycling u' = u_cycling u
     /\ cooling_tests lin_sol K u A B Bl Fl /\ cooling_tests lin_sol K u' A' B' Bl' Fl'
     /\ same_capacity A A' /\ same_capacity B B' /\ same_capacity Bl Bl' /\ same_capacity Fl Fl'
     /\ pt_t Bl <> pt_t Fl /\ pt_t A <> pt_t B /\ 0 < pt_q A
     /\ 0 <= sd_cd (u_c u') < sd_cd (u_c u) /\ sd_cd (u_c u) < 1
     /\ (forall i, (i < 8)%nat ->
          let t := cool_t i in
          0 < q_at Fl Bl t <= q_at B A t
          /\ 0 < p_at Fl' Bl' t < p_at Fl Bl t /\ 0 < p_at B' A' t < p_at B A t)
     /\ cool_load (pt_q A) (cool_t 0) < q_at Fl Bl (cool_t 0).
Proof.
  destruct (toy_2 AHRI_210_240_2023 10000 7000 9000 6000 4 4) as (u & E
    & (S & Cy & _ & _ & _ & Cd & _) & (TA & TB & _) & (TBl & TFl & _)); try lra.
  destruct (toy_2 AHRI_210_240_2023 10000 7000 9000 6000 5 5) as (w & E'
    & (S' & Cy' & _) & (TA' & TB' & _) & (TBl' & TFl' & _)); try lra.
  destruct (wc_bounds 4 ltac:(lra)) as [W1 W2]. destruct (wc_bounds 5 ltac:(lra)) as [W1' _].
  pose proof wc_less.
  exists u, w, (at_F 95 10000 (wc 4)), (at_F 82 10000 (wc 4)), (at_F 82 7000 (wc 4)),
    (at_F 67 7000 (wc 4)), (at_F 95 10000 (wc 5)), (at_F 82 10000 (wc 5)), (at_F 82 7000 (wc 5)),
    (at_F 67 7000 (wc 5)).
  split; [exact E|]. split; [exact E'|]. cbv zeta. split; [exact S|]. split; [exact S'|].
  split; [rewrite Cy; exact Cy'|].
  split; [repeat (split; [assumption|]); assumption|].
  split; [repeat (split; [apply cool_with_cd; assumption|]); apply cool_with_cd; assumption|].
  do 4 (split; [apply flat_same|]).
  do 2 (split; [apply at_F_neq; lra|]). cbn [pt_q at_F]. split; [lra|].
  rewrite Cd. change (sd_cd (u_c (with_cd (1 / 8) w))) with (1 / 8).
  split; [lra|]. split; [lra|]. split.
  - intros i I. cbv zeta. rewrite !q_flat, !p_flat. lra.
  - rewrite q_flat. unfold cool_load, cool_t. cbn [INR]. apply Rmax_lub_lt; [|lra].
    unfold deg_F. lra.
Qed.

Lemma pair_seer_variable : exists u w A B Bl Fl E A' B' Bl' Fl' E',
  unit_of VARIABLE_SPEED AHRI_210_240_2023 [10000; 7000; 4000] [9000; 6000; 3000] 4 4 u
  /\ unit_of VARIABLE_SPEED AHRI_210_240_2023 [10000; 7000; 4000] [9000; 6000; 3000] 5 5 w
  /\ let u' := with_cd (1 / 8) w in
     u_staging u = VARIABLE_SPEED /\ u_staging u' = VARIABLE_SPEED
     /\ cooling_tests lin_sol K u A B Bl Fl /\ cooling_tests lin_sol K u' A' B' Bl' Fl'
     /\ cooling_test lin_sol K u (rc_E_int (u_conds u)) E
     /\ cooling_test lin_sol K u' (rc_E_int (u_conds u')) E'
     /\ same_capacity A A' /\ same_capacity B B' /\ same_capacity Bl Bl' /\ same_capacity Fl Fl'
     /\ same_capacity E E'
     /\ pt_t Bl <> pt_t Fl /\ pt_t A <> pt_t B /\ 0 < pt_q A
     /\ p_at B A (deg_F 87) <> p_at Fl Bl (deg_F 87)
     /\ p_at B' A' (deg_F 87) <> p_at Fl' Bl' (deg_F 87)
     /\ 0 <= sd_cd (u_c u') < sd_cd (u_c u) /\ sd_cd (u_c u) < 1
     /\ (forall i, (i < 8)%nat ->
          let t := cool_t i in
          0 < q_at Fl Bl t <= q_int_cool A B Bl Fl E t
          /\ q_int_cool A B Bl Fl E t < q_at B A t
          /\ 0 < p_at Fl' Bl' t < p_at Fl Bl t
          /\ 0 < p_int_cool A' B' Bl' Fl' E' t < p_int_cool A B Bl Fl E t
          /\ 0 < p_at B' A' t < p_at B A t)
     /\ cool_load (pt_q A) (cool_t 0) < q_at Fl Bl (cool_t 0).
Proof.
  destruct (toy_3 AHRI_210_240_2023 10000 7000 4000 9000 6000 3000 4 4) as (u & E
    & (S & _ & _ & _ & _ & Cd & _) & (TA & TB & _) & (TBl & TFl & _) & (TE & _)); try lra.
  destruct (toy_3 AHRI_210_240_2023 10000 7000 4000 9000 6000 3000 5 5) as (w & E'
    & (S' & _) & (TA' & TB' & _) & (TBl' & TFl' & _) & (TE' & _)); try lra.
  destruct (wc_bounds 4 ltac:(lra)) as [W1 W2]. destruct (wc_bounds 5 ltac:(lra)) as [W1' W2'].
  pose proof wc_less.
  exists u, w, (at_F 95 10000 (wc 4)), (at_F 82 10000 (wc 4)), (at_F 82 4000 (wc 4)),
    (at_F 67 4000 (wc 4)), (at_F 87 7000 (wc 4)), (at_F 95 10000 (wc 5)), (at_F 82 10000 (wc 5)),
    (at_F 82 4000 (wc 5)), (at_F 67 4000 (wc 5)), (at_F 87 7000 (wc 5)).
  split; [exact E|]. split; [exact E'|]. cbv zeta. split; [exact S|]. split; [exact S'|].
  split; [repeat (split; [assumption|]); assumption|].
  split; [repeat (split; [apply cool_with_cd; assumption|]); apply cool_with_cd; assumption|].
  split; [exact TE|]. split; [apply cool_with_cd, TE'|].
  do 5 (split; [apply flat_same|]).
  do 2 (split; [apply at_F_neq; lra|]). cbn [pt_q at_F]. split; [lra|].
  do 2 (split; [rewrite !p_flat; apply Rgt_not_eq; lra|]).
  rewrite Cd. change (sd_cd (u_c (with_cd (1 / 8) w))) with (1 / 8).
  split; [lra|]. split; [lra|]. split.
  - intros i I. cbv zeta. rewrite q_int_cool_flat, !p_int_cool_flat, !q_flat, !p_flat. lra.
  - rewrite q_flat. unfold cool_load, cool_t. cbn [INR]. apply Rmax_lub_lt; [|lra].
    unfold deg_F. lra.
Qed.

Lemma often (u w : dxunit R) st off : plain st AHRI_210_240_2023 off u ->
  plain st AHRI_210_240_2023 off w -> runs_as_often u w (deg_F off) (deg_F off).
Proof.
  intros (_ & _ & _ & S4 & S5 & _ & S7 & _) (_ & _ & _ & S4' & S5' & _ & S7' & _).
  unfold runs_as_often. rewrite S4, S4', S7, S7'. repeat split; auto; lra.
Qed.

Lemma pair_hspf_single : exists u u' on on' d L credit H1 H2 H3 H1' H2' H3' lo hi lo' hi',
  unit_of SINGLE_STAGE AHRI_210_240_2023 [10000] [9000] 4 4 u
  /\ unit_of SINGLE_STAGE AHRI_210_240_2023 [10000] [9000] 4 5 u'
  /\ u_staging u = SINGLE_STAGE /\ u_staging u' = SINGLE_STAGE
  /\ runs_as_often u u' on on'
  /\ rated_in lin_sol K u 4 d L credit /\ rated_in lin_sol K u' 4 d L credit
  /\ 0 < over 18 (fun i => hours_of d i * L (heat_t i)) /\ 0 < credit
  /\ single_tests lin_sol K u H1 H2 H3 /\ single_tests lin_sol K u' H1' H2' H3'
  /\ same_capacity H1 H1' /\ same_capacity H2 H2' /\ same_capacity H3 H3'
  /\ pt_t H1 <> pt_t H3 /\ pt_t H2 <> pt_t H3
  /\ 0 < lo /\ 1 <= (1 - sd_cd (u_h u')) * lo'
  /\ (forall i, (i < 18)%nat ->
       let q := full_line q_at H1 H2 H3 (heat_t i) in
       let p := full_line p_at H1 H2 H3 (heat_t i) in
       let p' := full_line p_at H1' H2' H3' (heat_t i) in
       0 < q /\ 0 < p' < p /\ lo <= q / p <= hi /\ lo' <= q / p' <= hi').
Proof.
  destruct (toy_1 AHRI_210_240_2023 10000 9000 4 4) as (u & E & Pl & Ft & _); try lra.
  destruct (toy_1 AHRI_210_240_2023 10000 9000 4 5) as (w & E' & Pl' & Ft' & _); try lra.
  destruct (wh_bounds 4 ltac:(lra)) as [W1 W2]. destruct (wh_bounds 5 ltac:(lra)) as [W1' W2'].
  pose proof wh_less.
  pose proof Pl as (S1 & S2 & S3 & S4 & S5 & S6 & S7 & S8).
  pose proof Pl' as (S1' & S2' & S3' & S4' & S5' & S6' & S7' & S8').
  pose proof Ft as (TA & TB & T1 & T2 & T3 & T4).
  pose proof Ft' as (TA' & TB' & T1' & T2' & T3' & T4').
  destruct (region4_2023 u S3) as (d & k & Cl & Kp & Dd & C1 & C2 & Z & Hh).
  assert (Cl' : climate w 4 = Ok d) by (unfold climate in *; rewrite S3'; rewrite S3 in Cl; exact Cl).
  exists u, w, (deg_F (Q2R 0)), (deg_F (Q2R 0)), d, (load23 1.15 10000), 1,
    (at_F 47 9000 (wh 4)), (at_F 35 9000 (wh 4)), (at_F 17 9000 (wh 4)),
    (at_F 47 9000 (wh 5)), (at_F 35 9000 (wh 5)), (at_F 17 9000 (wh 5)),
    (1 / wh 4), (1 / wh 4), (1 / wh 5), (1 / wh 5).
  split; [exact E|]. split; [exact E'|]. split; [exact S1|]. split; [exact S1'|].
  split; [apply (often u w SINGLE_STAGE); assumption|].
  split; [split; [exact Cl|split; [apply (has_load23 u SINGLE_STAGE (Q2R 0) 10000 9000 4 4); auto|exact S8]]|].
  split; [split; [exact Cl'|split; [apply (has_load23 w SINGLE_STAGE (Q2R 0) 10000 9000 4 5); auto|exact S8']]|].
  split; [apply (load_sum d k); auto; try lra; apply (climate_hours u 4 d Cl)|].
  split; [lra|].
  split; [split; [exact T1|split; assumption]|]. split; [split; [exact T1'|split; assumption]|].
  do 3 (split; [apply flat_same|]). do 2 (split; [apply at_F_neq; lra|]).
  split; [apply Rdiv_lt_0_compat; lra|]. split; [rewrite S7'; apply wh_degraded|].
  intros i _. cbv zeta. rewrite full_q_flat, !full_p_flat. split; [lra|]. split; [lra|].
  split; apply flat_range; lra.
Qed.

Lemma pair_hspf_two : exists u u' on on' d L credit s s' lo hi lo' hi',
  unit_of TWO_STAGE AHRI_210_240_2023 [5000; 3500] [9000; 4000] 4 4 u
  /\ unit_of TWO_STAGE AHRI_210_240_2023 [5000; 3500] [9000; 4000] 4 5 u'
  /\ u_staging u = TWO_STAGE /\ u_staging u' = TWO_STAGE
  /\ u_cycling u = BETWEEN_LOW_FULL /\ u_cycling u' = BETWEEN_LOW_FULL
  /\ runs_as_often u u' on on'
  /\ rated_in lin_sol K u 4 d L credit /\ rated_in lin_sol K u' 4 d L credit
  /\ 0 < over 18 (fun i => hours_of d i * L (heat_t i)) /\ 0 < credit
  /\ two_stage_tests lin_sol K u s /\ two_stage_tests lin_sol K u' s' /\ same_stages s s'
  /\ L (heat_t 0) <= low_of q_at s 0
  /\ 0 < lo /\ 1 <= (1 - sd_cd (u_h u')) * lo' /\ stages_ok lo hi s /\ stages_ok lo' hi' s'
  /\ (forall i, (i < 18)%nat ->
       low_of p_at s' i < low_of p_at s i /\ full_of p_at s' i < full_of p_at s i).
Proof.
  destruct (toy_2 AHRI_210_240_2023 5000 3500 9000 4000 4 4) as (u & E & Pl & Ft & Lt); try lra.
  destruct (toy_2 AHRI_210_240_2023 5000 3500 9000 4000 4 5) as (w & E' & Pl' & Ft' & Lt'); try lra.
  destruct (wh_bounds 4 ltac:(lra)) as [W1 W2]. destruct (wh_bounds 5 ltac:(lra)) as [W1' W2'].
  pose proof wh_less.
  pose proof Pl as (S1 & S2 & S3 & S4 & S5 & S6 & S7 & S8).
  pose proof Pl' as (S1' & S2' & S3' & S4' & S5' & S6' & S7' & S8').
  pose proof (two_tests u 5000 3500 9000 4000 4 4 Ft Lt) as (T0l & T1l & T2l & T3l & T1 & T2 & T3).
  pose proof (two_tests w 5000 3500 9000 4000 4 5 Ft' Lt')
    as (T0l' & T1l' & T2l' & T3l' & T1' & T2' & T3').
  destruct (region4_2023 u S3) as (d & k & Cl & Kp & Dd & C1 & C2 & Z & Hh).
  assert (Cl' : climate w 4 = Ok d) by (unfold climate in *; rewrite S3'; rewrite S3 in Cl; exact Cl).
  exists u, w, (deg_F (Q2R 0)), (deg_F (Q2R 0)), d, (load23 1.15 5000), 1,
    (stages_F 9000 4000 (wh 4)), (stages_F 9000 4000 (wh 5)),
    (1 / wh 4), (1 / wh 4), (1 / wh 5), (1 / wh 5).
  split; [exact E|]. split; [exact E'|]. split; [exact S1|]. split; [exact S1'|].
  split; [exact S2|]. split; [exact S2'|].
  split; [apply (often u w TWO_STAGE); assumption|].
  split; [split; [exact Cl|split; [apply (has_load23 u TWO_STAGE (Q2R 0) 5000 9000 4 4); auto|exact S8]]|].
  split; [split; [exact Cl'|split; [apply (has_load23 w TWO_STAGE (Q2R 0) 5000 9000 4 5); auto|exact S8']]|].
  split; [apply (load_sum d k); auto; try lra; apply (climate_hours u 4 d Cl)|].
  split; [lra|].
  split; [repeat (split; [assumption|]); assumption|].
  split; [repeat (split; [assumption|]); assumption|].
  split; [repeat (split; [apply flat_same|]); apply flat_same|].
  split.
  { rewrite load23_bin, low_q_F. cbn [INR]. rewrite Rmax_right; lra. }
  split; [apply Rdiv_lt_0_compat; lra|]. split; [rewrite S7'; apply wh_degraded|].
  split; [apply stages_F_ok; lra|]. split; [apply stages_F_ok; lra|].
  intros i _. rewrite !low_p_F, !full_p_F. lra.
Qed.

Lemma pair_hspf_variable : exists u u' on on' d L credit
    H0l H1l H2i H1 H2 H3 H4 H0l' H1l' H2i' H1' H2' H3' H4' lo hi lo' hi',
  unit_of VARIABLE_SPEED AHRI_210_240_2023 [10000; 7000; 4000] [9000; 6000; 3000] 4 4 u
  /\ unit_of VARIABLE_SPEED AHRI_210_240_2023 [10000; 7000; 4000] [9000; 6000; 3000] 4 5 u'
  /\ u_staging u = VARIABLE_SPEED /\ u_staging u' = VARIABLE_SPEED
  /\ runs_as_often u u' on on'
  /\ rated_in lin_sol K u 4 d L credit /\ rated_in lin_sol K u' 4 d L credit
  /\ 0 < over 18 (fun i => hours_of d i * L (heat_t i)) /\ 0 < credit
  /\ variable_tests lin_sol K u H0l H1l H2i H1 H2 H3 H4
  /\ variable_tests lin_sol K u' H0l' H1l' H2i' H1' H2' H3' H4'
  /\ same_capacity H0l H0l' /\ same_capacity H1l H1l' /\ same_capacity H2i H2i'
  /\ same_capacity H1 H1' /\ same_capacity H2 H2' /\ same_capacity H3 H3'
  /\ same_capacity H4 H4'
  /\ 0 < lo /\ 1 <= (1 - sd_cd (u_h u')) * lo'
  /\ speeds_ok lo hi H0l H1l H2i H1 H2 H3 H4
  /\ speeds_ok lo' hi' H0l' H1l' H2i' H1' H2' H3' H4'
  /\ (forall i, (i < 18)%nat ->
       let t := heat_t i in
       p_at H0l' H1l' t < p_at H0l H1l t
       /\ p_int_heat H0l' H1l' H2i' H2' H3' t < p_int_heat H0l H1l H2i H2 H3 t
       /\ full_line p_at H1' H2' H3' t < full_line p_at H1 H2 H3 t
       /\ (full_line q_at H1 H2 H3 t <= L t ->
           0 < p_at H4' H3' t < p_at H4 H3 t /\ q_at H4 H3 t <= L t
           /\ lo <= q_at H4 H3 t / p_at H4 H3 t <= hi
           /\ lo' <= q_at H4 H3 t / p_at H4' H3' t <= hi')).
Proof.
  destruct (toy_3 AHRI_210_240_2023 10000 7000 4000 9000 6000 3000 4 4)
    as (u & E & Pl & Ft & (TBl & TFl & T0l & T1l & T2l & T3l) & (TE & T2i)); try lra.
  destruct (toy_3 AHRI_210_240_2023 10000 7000 4000 9000 6000 3000 4 5)
    as (w & E' & Pl' & Ft' & (TBl' & TFl' & T0l' & T1l' & T2l' & T3l') & (TE' & T2i')); try lra.
  destruct (wh_bounds 4 ltac:(lra)) as [W1 W2]. destruct (wh_bounds 5 ltac:(lra)) as [W1' W2'].
  pose proof wh_less.
  pose proof Pl as (S1 & S2 & S3 & S4 & S5 & S6 & S7 & S8).
  pose proof Pl' as (S1' & S2' & S3' & S4' & S5' & S6' & S7' & S8').
  pose proof Ft as (TA & TB & T1 & T2 & T3 & T4).
  pose proof Ft' as (TA' & TB' & T1' & T2' & T3' & T4').
  destruct (region4_2023 u S3) as (d & k & Cl & Kp & Dd & C1 & C2 & Z & Hh).
  assert (Cl' : climate w 4 = Ok d) by (unfold climate in *; rewrite S3'; rewrite S3 in Cl; exact Cl).
  exists u, w, (deg_F (Q2R (-20))), (deg_F (Q2R (-20))), d, (load23 1.07 10000), 1,
    (at_F 62 3000 (wh 4)), (at_F 47 3000 (wh 4)),
    (at_F 35 6000 (wh 4)), (at_F 47 9000 (wh 4)), (at_F 35 9000 (wh 4)), (at_F 17 9000 (wh 4)),
    (at_F 5 9000 (wh 4)), (at_F 62 3000 (wh 5)), (at_F 47 3000 (wh 5)),
    (at_F 35 6000 (wh 5)), (at_F 47 9000 (wh 5)), (at_F 35 9000 (wh 5)), (at_F 17 9000 (wh 5)),
    (at_F 5 9000 (wh 5)), (1 / wh 4), (1 / wh 4), (1 / wh 5), (1 / wh 5).
  split; [exact E|]. split; [exact E'|]. split; [exact S1|]. split; [exact S1'|].
  split; [apply (often u w VARIABLE_SPEED); assumption|].
  split; [split; [exact Cl|split; [apply (has_load23 u VARIABLE_SPEED (Q2R (-20)) 10000 9000 4 4); auto|exact S8]]|].
  split; [split; [exact Cl'|split; [apply (has_load23 w VARIABLE_SPEED (Q2R (-20)) 10000 9000 4 5); auto|exact S8']]|].
  split; [apply (load_sum d k); auto; try lra; apply (climate_hours u 4 d Cl)|].
  split; [lra|].
  split; [do 3 (split; [assumption|]); split; [split; [exact T1|split; assumption]|exact T4]|].
  split; [do 3 (split; [assumption|]); split; [split; [exact T1'|split; assumption]|exact T4']|].
  do 7 (split; [apply flat_same|]).
  split; [apply Rdiv_lt_0_compat; lra|]. split; [rewrite S7'; apply wh_degraded|].
  split; [apply speeds_F_ok; lra|]. split; [apply speeds_F_ok; lra|].
  intros i _. cbv zeta. rewrite full_q_flat, !full_p_flat, !p_int_heat_flat, !q_flat, !p_flat.
  split; [lra|]. split; [lra|]. split; [lra|]. intros B.
  split; [lra|]. split; [exact B|]. split; apply flat_range; lra.
Qed.
