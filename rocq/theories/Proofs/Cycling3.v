(** C97: two-stage units cycling between off and full. *)
From Coq Require Import Reals QArith Lra Psatz Lia List Bool.
From Verif.Base Require Import Num Res Tac.
From Verif.Model Require Import Units Util Psychrometrics Conditions Defrost Fan Curves
  Tabular Unit BaseModel DXUnit.
From Verif.Spec Require Import UtilSpec UnitSpec UnitModels SeasonSpec CompareSpec CyclingSpec.
From Verif.Proofs Require Import UnitsR UtilProofs UnitProofs UnitProofs3 UnitProofs4 SeerProofs HspfProofs
  HspfProofs2 HspfProofs3 Dominance Cycling Cycling2 ToyBuild ToySeason ToySeason2.
Import ListNotations.
Local Open Scope R_scope.
Local Notation U := (dxunit R).

Section Value.
  Variable sol : solvers R.
  Variable M : dxmodel R.

  Lemma bin_off_ok (u : U) on bl t ql pl qf pf df hlf n dl :
    u_heating_on u = Some on -> u_cycling u = BETWEEN_OFF_FULL ->
    0 <= sd_cd (u_h u) < 1 -> 0 < pl -> 0 < ql -> 0 <= bl -> (bl <= ql \/ dl <> None) ->
    exists r, hspf_bin_two u bl t ql pl qf pf df hlf n dl = Ok r /\ snd r <> None.
  Proof.
    intros On Cy D P Q B A. unfold hspf_bin_two. rewrite pydiv_ok by lra. cbn [rbind].
    cbn [nleb nltb RNum]. destruct (Rleb_spec bl ql) as [C|C].
    - apply (low_ok u on); auto.
    - destruct A as [A|A]; [lra|]. destruct dl as [y|]; [|contradiction].
      destruct (Rltb_spec bl qf) as [E|E].
      + rewrite pydiv_ok by (cbn [nsub RNum]; lra). cbn [rbind]. rewrite Cy.
        rewrite pydiv_ok.
        * cbn [need rbind]. eexists. split; [reflexivity|discriminate].
        * rewrite lit1_R. cbn [nsub nmul ndiv RNum]. apply degraded; [exact D|].
          split; [apply Rle_mult_inv_pos; lra|]. apply (Rmult_le_reg_r (qf - ql)); [lra|].
          replace ((qf - bl) / (qf - ql) * (qf - ql)) with (qf - bl) by (field; lra). lra.
      + eexists. split; [reflexivity|discriminate].
  Qed.

  Lemma off_full_value (u : U) region on d s L credit lo hi :
    u_staging u = TWO_STAGE -> u_cycling u = BETWEEN_OFF_FULL -> u_heating_on u = Some on ->
    climate u region = Ok d -> two_stage_tests sol M u s -> heat_load sol M u d L ->
    L (heat_t 0) <= low_of q_at s 0 ->
    demand_credit (u_defrost u) = Ok credit ->
    0 <= sd_cd (u_h u) < 1 -> stages_ok lo hi s ->
    let bin := two_stage_bin (u_cycling u) (u_heating_off u) on (sd_cd (u_h u)) L s in
    0 < over 18 (fun i => hours_of d i * fst (bin i)) + over 18 (fun i => hours_of d i * snd (bin i)) ->
    hspf sol M u region = Ok (seasonal_heating (hours_of d) (fun i => L (heat_t i))
               (fun i => fst (bin i)) (fun i => snd (bin i)) credit).
  Proof.
    intros St Cy On Hd (T0l & T1l & T2l & T3l & T1 & T2 & T3) HL First Cr D
      (N1 & N2 & N3 & N4 & N5 & K) bin Pos.
    pose proof (heat_load_pos sol M u d L HL) as LP.
    destruct (load_ok sol M u d (s_H1 s) L T1 HL) as (load & Hl & Ld).
    pose proof (climate_length u region d Hd) as Len.
    destruct (sums_ok u on d load L (s_H1 s) (s_H2 s) (s_H3 s)
      (two_step u (s_H0l s) (s_H1l s) (s_H2l s) (s_H3l s))
      (fun i dl => i = 0%nat \/ dl <> None)) as [acc Hs]; auto.
    { intros i dl I J. destruct (K i I) as (Q1 & P1 & Q2 & P2 & _). cbv zeta.
      fold (full_of q_at s i) (full_of p_at s i).
      split; [lra|]. split; [lra|]. unfold two_step.
      rewrite (two_low_ok pt_q q_at) by (try assumption; reflexivity). cbn [rbind].
      rewrite (two_low_ok pt_p p_at) by (try assumption; reflexivity). cbn [rbind].
      fold (low_of q_at s i) (low_of p_at s i).
      match goal with |- exists r, hspf_bin_two ?u ?b ?t ?ql ?pl ?qf ?pf ?df ?h ?n ?dl = _ /\ _ =>
        destruct (bin_off_ok u on b t ql pl qf pf df h n dl On Cy D P1 Q1 (LP _)) as (r & R1 & R2)
      end.
      { destruct J as [->|J]; [left; exact First|right; exact J]. }
      exists r. split; [exact R1|right; exact R2]. }
    destruct (sums_two u on d load L s acc Len On Ld Hs) as (Eq & Ee & Er & _).
    unfold hspf.
    fold (climate u region). rewrite Hd. cbn [rbind].
    unfold hspf_with, heating_point, frost_point.
    rewrite (proj1 (tested_point _ _ _ _ _) T1). cbn [rbind].
    rewrite (proj1 (tested_point _ _ _ _ _) T2). cbn [rbind].
    rewrite (proj1 (tested_point _ _ _ _ _) T3). cbn [rbind].
    rewrite Hl. cbn [rbind]. rewrite St.
    rewrite (proj1 (tested_point _ _ _ _ _) T0l). cbn [rbind].
    rewrite (proj1 (tested_point _ _ _ _ _) T1l). cbn [rbind].
    rewrite (proj1 (tested_point _ _ _ _ _) T2l). cbn [rbind].
    rewrite (proj1 (tested_point _ _ _ _ _) T3l). cbn [rbind].
    unfold two_step in Hs. rewrite Hs. cbn [rbind].
    rewrite (value_ok u acc credit Cr).
    - rewrite Eq, Ee, Er. reflexivity.
    - rewrite Ee, Er. apply Rgt_not_eq. exact Pos.
  Qed.
End Value.

Definition off_full_args : dxargs R :=
  with_cycling BETWEEN_OFF_FULL (toy_args TWO_STAGE AHRI_210_240_2023 [5000; 3500] [9000; 4000] 4 4).

Lemma toy_off_full : exists u on d s L credit v,
  DXUnit lin_psy lin_sol K off_full_args = Ok u
  /\ u_staging u = TWO_STAGE /\ u_cycling u = BETWEEN_OFF_FULL /\ u_heating_on u = Some on
  /\ 0 <= sd_cd (u_h u) < 1
  /\ climate u 4 = Ok d /\ two_stage_tests lin_sol K u s /\ heat_load lin_sol K u d L
  /\ demand_credit (u_defrost u) = Ok credit
  /\ hspf lin_sol K u 4 = Ok v
  /\ let bin := two_stage_bin BETWEEN_OFF_FULL (u_heating_off u) on (sd_cd (u_h u)) L s in
     v = seasonal_heating (hours_of d) (fun i => L (heat_t i))
           (fun i => fst (bin i)) (fun i => snd (bin i)) credit
     /\ low_of q_at s 13 < L (heat_t 13) < full_of q_at s 13
     /\ 0 < hours_of d 13 /\ 0 < L (heat_t 13)
     /\ bin 13%nat = (0, 0)
     /\ low_of q_at s 10 < L (heat_t 10) < full_of q_at s 10
     /\ u_heating_off u < heat_t 10 /\ on < heat_t 10
     /\ 1 <= full_of q_at s 10 / full_of p_at s 10.
Proof.
  destruct (toy_2 AHRI_210_240_2023 5000 3500 9000 4000 4 4) as (w & E & Pl & Ft & Lt); try lra.
  destruct (wh_bounds 4 ltac:(lra)) as [W1 W2].
  assert (PM : plain_model lin_sol K) by (unfold plain_model; simpl; tauto).
  pose proof Pl as (S1 & S2 & S3 & S4 & S5 & S6 & S7 & S8).
  destruct (two_tests w 5000 3500 9000 4000 4 4 Ft Lt) as (T0l & T1l & T2l & T3l & T1 & T2 & T3).
  destruct (region4_2023 w S3) as (d & k & Cl & Kp & Dd & C1 & C2 & Z & Hh).
  pose proof (has_load23 w TWO_STAGE (Q2R 0) 5000 9000 4 4 d 1.15) as HL.
  specialize (HL Pl Ft Dd Z C1).
  set (u := cycled BETWEEN_OFF_FULL w).
  assert (Eu : DXUnit lin_psy lin_sol K off_full_args = Ok u).
  { unfold off_full_args. rewrite (cycling_kept BETWEEN_OFF_FULL lin_psy lin_sol K _ PM), E. reflexivity. }
  assert (Ts : two_stage_tests lin_sol K u (stages_F 9000 4000 (wh 4)))
    by (repeat split; [exact T0l|exact T1l|exact T2l|exact T3l|exact T1|exact T2|exact T3]).
  assert (HL' : heat_load lin_sol K u d (load23 1.15 5000)) by exact HL.
  assert (Lv : forall i, load23 1.15 5000 (heat_t i) = Rmax (115 * (5 * INR i - 7)) 0).
  { intros i. rewrite load23_bin. f_equal. lra. }
  assert (L13 : load23 1.15 5000 (heat_t 13) = 6670).
  { rewrite Lv. cbn [INR]. rewrite Rmax_left; lra. }
  assert (First : load23 1.15 5000 (heat_t 0) <= low_of q_at (stages_F 9000 4000 (wh 4)) 0).
  { rewrite Lv, low_q_F. cbn [INR]. rewrite Rmax_right; lra. }
  assert (D : 0 <= sd_cd (u_h u) < 1) by (change (sd_cd (u_h u)) with (sd_cd (u_h w)); rewrite S7; lra).
  pose proof (wh_cop 4 ltac:(lra)) as Wc.
  assert (Bt : forall i, let bin := two_stage_bin BETWEEN_OFF_FULL (u_heating_off u) (deg_F (Q2R 0)) (sd_cd (u_h u))
       (load23 1.15 5000) (stages_F 9000 4000 (wh 4)) in 0 <= fst (bin i) /\ 0 <= snd (bin i)).
  { intros i. cbv zeta. unfold two_stage_bin, two_stage_heat.
    rewrite low_q_F, low_p_F, full_q_F, full_p_F.
    assert (P : 0 <= load23 1.15 5000 (heat_t i)) by (rewrite Lv; apply Rmax_r).
    set (bl := load23 1.15 5000 (heat_t i)) in *.
    pose proof (run_bounds (u_heating_off u) (deg_F (Q2R 0)) (heat_t i)) as RB.
    match goal with |- context [low_run ?a ?b ?c ?e] => assert (R1 : 0 <= low_run a b c e <= 1) by apply RB;
      set (r1 := low_run a b c e) in * end.
    match goal with |- context [full_run ?a ?b ?c ?e] => assert (R2 : 0 <= full_run a b c e <= 1) by apply RB;
      set (r2 := full_run a b c e) in * end.
    match goal with |- context [carried ?a ?b ?c ?e ?f] => assert (R3 : 0 <= match carried a b c e f with Some x => x | None => 0 end <= 1);
      [destruct (carried a b c e f) as [x|] eqn:Ex; [exact (carried_some _ _ _ _ _ _ Ex)|lra]|] end.
    match type of R3 with _ <= ?x <= _ => set (r3 := x) in * end. clearbody r1 r2 r3 bl.
    set (cd := sd_cd (u_h u)) in *. clearbody cd.
    destruct (Rle_dec bl 4000) as [A|A]; cbn [fst snd].
    - split; [|nra]. apply Rmult_le_pos; [lra|]. unfold cycling.
      assert (0 <= bl / 4000 <= 1) by lra. apply Rle_mult_inv_pos; nra.
    - destruct (Rlt_dec bl 9000) as [B|B]; cbn [fst snd].
      + split; [|nra]. apply Rle_mult_inv_pos.
        * apply Rmult_le_pos; [lra|]. apply Rmult_le_pos; lra.
        * assert (0 <= 1 - (9000 - bl) / (9000 - 4000) <= 1) by lra. nra.
      + split; [nra|nra]. }
  assert (Cut : heat_t 13 <= u_heating_off u).
  { change (u_heating_off u) with (u_heating_off w). rewrite S4. apply heat_t_le. unfold Q2R. cbn [INR]. simpl. lra. }
  assert (Run : forall j, (j <= 8)%nat -> low_run (u_heating_off u) (deg_F (Q2R 0)) (stages_F 9000 4000 (wh 4)) j = 1).
  { intros j J. unfold low_run. rewrite low_q_F, low_p_F, cop_flat by lra. unfold run_fraction.
    change (u_heating_off u) with (u_heating_off w). rewrite S4. apply le_INR in J. cbn [INR] in J.
    destruct (Rle_dec (heat_t j) (deg_F (Q2R 0))) as [A|A];
      [apply heat_t_le in A; unfold Q2R in A; simpl in A; lra|].
    destruct (Rlt_dec (1 / wh 4) 1) as [B|B]; [lra|].
    destruct (Rlt_dec (deg_F (Q2R 0)) (heat_t j)) as [C|C]; [reflexivity|].
    exfalso. apply C, heat_t_lt. unfold Q2R. simpl. lra. }
  assert (Ca : carried (u_heating_off u) (deg_F (Q2R 0)) (load23 1.15 5000)
                 (stages_F 9000 4000 (wh 4)) 13 = Some 1).
  { unfold carried.
    assert (No : forall j, (9 <= j)%nat -> ~ load23 1.15 5000 (heat_t j)
               <= low_of q_at (stages_F 9000 4000 (wh 4)) j).
    { intros j J. rewrite Lv, low_q_F. apply le_INR in J. cbn [INR] in J.
      rewrite Rmax_left; lra. }
    do 4 (cbn [latest_low];
      match goal with |- context [Rle_dec ?a ?b] => destruct (Rle_dec a b) as [X|X];
        [exfalso; refine (No _ _ X); lia|clear X] end).
    cbn [latest_low].
    match goal with |- context [Rle_dec ?a ?b] => destruct (Rle_dec a b) as [X|X] end.
    - f_equal. apply Run. lia.
    - exfalso. apply X. rewrite Lv, low_q_F. cbn [INR]. rewrite Rmax_left; lra. }
  assert (Pos : let bin := two_stage_bin (u_cycling u) (u_heating_off u) (deg_F (Q2R 0)) (sd_cd (u_h u))
       (load23 1.15 5000) (stages_F 9000 4000 (wh 4)) in
     0 < over 18 (fun i => hours_of d i * fst (bin i)) + over 18 (fun i => hours_of d i * snd (bin i))).
  { cbv zeta. change (u_cycling u) with BETWEEN_OFF_FULL.
    assert (Hp : forall i, 0 <= hours_of d i) by (apply (climate_hours w 4 d Cl)).
    apply Rplus_lt_le_0_compat.
    - apply (over_some 18 _ 4%nat); [lia| |].
      + apply Rmult_lt_0_compat; [rewrite Hh by lia; cbn [nth raw4]; lra|].
        assert (L4 : load23 1.15 5000 (heat_t 4) = 1495).
        { rewrite Lv. cbn [INR]. rewrite Rmax_left; lra. }
        unfold two_stage_bin, two_stage_heat. rewrite low_q_F, low_p_F, L4, Run by lia.
        destruct (Rle_dec 1495 4000); [|lra]. cbn [fst]. unfold cycling.
        change (sd_cd (u_h u)) with (sd_cd (u_h w)). rewrite S7. apply Rmult_lt_0_compat; [lra|].
        apply Rdiv_lt_0_compat; lra.
      + intros i _. apply Rmult_le_pos; [apply Hp|apply Bt].
    - apply over_nonneg. intros i _. apply Rmult_le_pos; [apply Hp|apply Bt]. }
  exists u, (deg_F (Q2R 0)), d, (stages_F 9000 4000 (wh 4)), (load23 1.15 5000), 1. eexists.
  split; [exact Eu|]. split; [exact S1|]. split; [reflexivity|]. split; [exact S5|]. split; [exact D|].
  split; [exact Cl|]. split; [exact Ts|]. split; [exact HL'|]. split; [exact S8|]. split.
  { refine (off_full_value lin_sol K u 4 _ d _ _ 1 (1 / wh 4) (1 / wh 4) S1 eq_refl S5 Cl Ts HL' First S8 D _ Pos).
    apply stages_F_ok; lra. }
  split; [reflexivity|]. split; [rewrite low_q_F, full_q_F, L13; lra|].
  split; [rewrite Hh by lia; cbn [nth raw4]; lra|]. split; [rewrite L13; lra|].
  unfold two_stage_bin, two_stage_heat. rewrite Ca, !low_q_F, !full_q_F, L13.
  destruct (Rle_dec 6670 4000); [lra|]. destruct (Rlt_dec 6670 9000); [|lra].
  unfold full_run, run_fraction. destruct (Rle_dec (heat_t 13) (u_heating_off u)); [|lra].
  split; [f_equal; unfold Rdiv; ring|].
  assert (L10 : load23 1.15 5000 (heat_t 10) = 4945).
  { rewrite Lv. cbn [INR]. rewrite Rmax_left; lra. }
  split; [lra|].
  assert (T10 : deg_F (Q2R 0) < heat_t 10) by (apply heat_t_lt; unfold Q2R; cbn [INR]; simpl; lra).
  split; [change (u_heating_off u) with (u_heating_off w); rewrite S4; exact T10|]. split; [exact T10|].
  rewrite full_p_F, cop_flat by lra. lra.
Qed.

(** The hypotheses of the comparison of SEERs. *)
Lemma toy_low_full : exists u A B Bl Fl,
  DXUnit lin_psy lin_sol K (toy_args TWO_STAGE AHRI_210_240_2023 [10000; 7000] [9000; 6000] 4 4) = Ok u
  /\ plain_model lin_sol K /\ u_staging u = TWO_STAGE
  /\ cooling_tests lin_sol K u A B Bl Fl
  /\ pt_t Bl <> pt_t Fl /\ pt_t A <> pt_t B /\ 0 < pt_q A /\ 0 < sd_cd (u_c u) < 1
  /\ (forall i, (i < 8)%nat ->
       let t := cool_t i in
       0 < q_at Fl Bl t <= q_at B A t /\ 0 < p_at Fl Bl t /\ 0 < p_at B A t
       /\ q_at B A t / p_at B A t <= q_at Fl Bl t / p_at Fl Bl t)
  /\ q_at Fl Bl (cool_t 5) < cool_load (pt_q A) (cool_t 5) < q_at B A (cool_t 5).
Proof.
  destruct (toy_2 AHRI_210_240_2023 10000 7000 9000 6000 4 4) as (u & E & Pl & Ft & Lt); try lra.
  pose proof Pl as (S1 & S2 & S3 & S4 & S5 & S6 & S7 & S8).
  destruct (wc_bounds 4 ltac:(lra)) as [W1 W2].
  destruct Ft as (TA & TB & _). destruct Lt as (TBl & TFl & _).
  exists u, (at_F 95 10000 (wc 4)), (at_F 82 10000 (wc 4)), (at_F 82 7000 (wc 4)), (at_F 67 7000 (wc 4)).
  split; [exact E|]. split; [unfold plain_model; simpl; tauto|]. split; [exact S1|].
  split; [repeat split; assumption|].
  split; [apply at_F_neq; lra|]. split; [apply at_F_neq; lra|]. split; [cbn; lra|]. split; [rewrite S6; lra|].
  split.
  - intros i I. cbv zeta. rewrite !q_flat, !p_flat.
    split; [lra|]. split; [nra|]. split; [nra|]. right. field. lra.
  - rewrite !q_flat. unfold cool_load, cool_t, deg_F. cbn [pt_q at_F INR]. rewrite Rmax_left; lra.
Qed.
