(** Defrost control settings (C109). *)
From Coq Require Import String Reals QArith Lra Psatz List.
From Verif.Base Require Import Num Res Tac.
From Verif.Model Require Import Units Psychrometrics Conditions Defrost Fan Unit NREL BaseModel Title24 Resnet DXUnit.
From Verif.Spec Require Import NrelSpec ModelSpec UnitModels DefrostSpec ControlSpec.
From Verif.Proofs Require Import UnitsR DefrostProofs ToyUnit NrelProofs.
Import ListNotations.
Local Open Scope R_scope.

Definition hspf_credited (sol : solvers R) (M : dxmodel R) (u : dxunit R) (region : nat)
    (credit : res R) : res R :=
  let! d := match u_standard u with
            | AHRI_210_240_2017 => distribution_2017 region
            | AHRI_210_240_2023 => distribution_2023 region
            end in
  let! H1 := heating_point sol M rc_H1_full u in
  let! H2 := frost_point sol M rc_H2_full u in
  let! H3 := heating_point sol M rc_H3_full u in
  let! load := hspf_load sol M u d (pt_q H1) in
  let! s :=
    match u_staging u with
    | SINGLE_STAGE => hspf_sums u d load H1 H2 H3 (hspf_bin_single u)
    | TWO_STAGE =>
        let! H0l := heating_point sol M rc_H0_low u in
        let! H1l := heating_point sol M rc_H1_low u in
        let! H2l := frost_point sol M rc_H2_low u in
        let! H3l := heating_point sol M rc_H3_low u in
        hspf_sums u d load H1 H2 H3
          (fun bl t qf pf df hlf n dl =>
             let! ql := hspf_two_low pt_q H0l H1l H2l H3l t in
             let! pl := hspf_two_low pt_p H0l H1l H2l H3l t in
             hspf_bin_two u bl t ql pl qf pf df hlf n dl)
    | VARIABLE_SPEED =>
        let! H0l := heating_point sol M rc_H0_low u in
        let! H1l := heating_point sol M rc_H1_low u in
        let! H2i := frost_point sol M rc_H2_int u in
        let! H4 := heating_point sol M rc_H4_full u in
        let! mq := hspf_slope pt_q H0l H1l H2i H2 H3 in
        let! mp := hspf_slope pt_p H0l H1l H2i H2 H3 in
        hspf_sums u d load H1 H2 H3
          (fun bl t qf pf df hlf n dl =>
             let! ql := along pt_q H0l H1l t in
             let! pl := along pt_p H0l H1l t in
             let! q4 := along pt_q H4 H3 t in
             let! p4 := along pt_p H4 H3 t in
             hspf_bin_variable u bl t ql pl
               (pt_q H2i + mq * (t - fr_F (lit 35)))
               (pt_p H2i + mp * (t - fr_F (lit 35))) qf pf q4 p4 df n dl)
    end in
  let! credit := credit in
  let! r := pydiv (h_q s) (h_e s + h_rh s) in
  Ok (to_Btu_Wh (r * credit)).

Lemma hspf_is sol M u region : hspf sol M u region = hspf_credited sol M u region (demand_credit (u_defrost u)).
Proof.
  unfold hspf, hspf_credited, hspf_with.
  destruct (match u_standard u with _ => _ end); reflexivity.
Qed.

Lemma credited_same psy sol M k p l u region x : not_nrel psy sol M ->
  hspf_credited sol M (controlled k p l u) region x = hspf_credited sol M u region x.
Proof.
  intros H. repeat (destruct H as [<-|H]; [reflexivity|]). destruct H.
Qed.

Lemma credit_minutes p l : l <> 5400 -> credit_formula p l = credit_of (p / 60) (l / 60).
Proof.
  intros H. unfold credit_formula, credit_of, min90, min720.
  replace (Rmax (p / 60) 90) with (Rmax p 5400 / 60)
    by (unfold Rmax; repeat destruct (Rle_dec _ _); lra).
  replace (Rmin (l / 60) 720) with (Rmin l 43200 / 60)
    by (unfold Rmin; repeat destruct (Rle_dec _ _); lra).
  assert (Rmin l 43200 - 5400 <> 0) by (unfold Rmin; destruct (Rle_dec _ _); lra).
  set (a := Rmax p 5400) in *. set (b := Rmin l 43200) in *. clearbody a b.
  replace ((a / 60 - 90) / (b / 60 - 90)) with ((a - 5400) / (b - 5400)); [lra|].
  field. lra.
Qed.

Lemma demand_hspf psy sol M (u : dxunit R) region k p0 l0 p l v : not_nrel psy sol M ->
  k <> DCDemand -> hspf sol M (controlled k p0 l0 u) region = Ok v ->
  (l <> 5400 -> hspf sol M (controlled DCDemand p l u) region = Ok (v * credit_of (p / 60) (l / 60)))
  /\ (l = 5400 -> hspf sol M (controlled DCDemand p l u) region = Err ZeroDivisionError).
Proof.
  intros HM K V. rewrite hspf_is in V |- *. rewrite (credited_same psy) in V by exact HM.
  rewrite (credited_same psy) by exact HM.
  rewrite demand_credit_not_demand in V by exact K.
  rewrite demand_credit_demand by reflexivity.
  cbn [controlled u_defrost df_max_time df_period]. unfold min90.
  unfold hspf_credited in *.
  apply rbind_ok in V. destruct V as (d & E & V). rewrite E. cbn [rbind].
  apply rbind_ok in V. destruct V as (H1 & E1 & V). rewrite E1. cbn [rbind].
  apply rbind_ok in V. destruct V as (H2 & E2 & V). rewrite E2. cbn [rbind].
  apply rbind_ok in V. destruct V as (H3 & E3 & V). rewrite E3. cbn [rbind].
  apply rbind_ok in V. destruct V as (ld & E4 & V). rewrite E4. cbn [rbind].
  apply rbind_ok in V. destruct V as (s & E5 & V). rewrite E5. cbn [rbind].
  cbn [rbind] in V. apply rbind_ok in V. destruct V as (x & E6 & V). apply Ok_inj in V.
  destruct (Req_EM_T l 5400) as [L|L]; split; intros L'; try contradiction; [reflexivity|].
  cbn [rbind]. rewrite E6. cbn [rbind]. f_equal. rewrite credit_minutes by exact L.
  rewrite <- V. unfold to_Btu_Wh. rnum. lra.
Qed.

Lemma credit_range p l : 90 < l -> p <= l -> p <= 720 ->
  1 <= credit_of p l <= 1.03 /\ (p <= 90 -> credit_of p l = 1.03).
Proof.
  intros L P P'. unfold credit_of.
  assert (D : 0 < Rmin l 720 - 90) by (unfold Rmin; destruct (Rle_dec _ _); lra).
  assert (N : 0 <= Rmax p 90 - 90 <= Rmin l 720 - 90)
    by (unfold Rmax, Rmin; repeat destruct (Rle_dec _ _); lra).
  split.
  - assert (0 <= (Rmax p 90 - 90) / (Rmin l 720 - 90) <= 1); [|lra].
    split; [apply Rmult_le_pos; [lra|left; apply Rinv_0_lt_compat; lra]|].
    apply (Rmult_le_reg_r (Rmin l 720 - 90)); [lra|].
    unfold Rdiv. rewrite Rmult_assoc, Rinv_l by lra. lra.
  - intros Q. rewrite Rmax_right by lra. unfold Rdiv. lra.
Qed.

Lemma demand_hspf_range psy sol M (u : dxunit R) region k p0 l0 p l v v' : not_nrel psy sol M ->
  k <> DCDemand -> hspf sol M (controlled k p0 l0 u) region = Ok v -> 0 <= v ->
  hspf sol M (controlled DCDemand p l u) region = Ok v' ->
  5400 < l -> p <= l -> p <= 43200 -> v <= v' <= 1.03 * v /\ (p <= 5400 -> v' = 1.03 * v).
Proof.
  intros HM K V P V' L Q Q'.
  destruct (demand_hspf psy sol M u region k p0 l0 p l v HM K V) as [H _].
  rewrite H in V' by lra. apply Ok_inj in V'. subst v'.
  destruct (credit_range (p / 60) (l / 60)) as [C C']; [lra|lra|lra|]. split; [nra|].
  intros X. rewrite C' by lra. lra.
Qed.

Lemma periods_unused psy sol M (u : dxunit R) region k p l p' l' : library_model psy sol M ->
  k <> DCDemand -> hspf sol M (controlled k p l u) region = hspf sol M (controlled k p' l' u) region.
Proof.
  intros H K. rewrite !hspf_is, !demand_credit_not_demand by exact K.
  repeat (destruct H as [<-|H]; [reflexivity|]). destruct H.
Qed.

Lemma cooling_unaffected psy sol M (u : dxunit R) k p l : library_model psy sol M ->
  seer sol M (controlled k p l u) = seer sol M u
  /\ (forall oc, eer sol M (controlled k p l u) oc = eer sol M u oc)
  /\ (forall oc, net_total_cooling_capacity sol M (controlled k p l u) oc
                 = net_total_cooling_capacity sol M u oc)
  /\ (forall oc, net_cooling_power sol M (controlled k p l u) oc = net_cooling_power sol M u oc).
Proof.
  intros H. repeat (destruct H as [<-|H]; [repeat split; reflexivity|]). destruct H.
Qed.

(** * The NREL model in dry air *)
Lemma nrel_dry psy sol (u : dxunit R) c t x s p l p' l' q q' : let M := NRELDXModel psy sol in
  in_defrost (u_defrost u) c = true -> df_time_fraction (u_defrost u) c = Ok t -> 0 <= t < 1 ->
  coil_diff_outdoor_air_humidity psy c = Ok x -> x <= 0.0003 ->
  gross_steady_state_heating_capacity M u (Some c) = Ok s -> 0 < s ->
  gross_integrated_heating_capacity M (controlled DCDemand p l u) (Some c) = Ok q ->
  gross_integrated_heating_capacity M (controlled DCTimed p' l' u) (Some c) = Ok q' -> q < q'.
Proof.
  intros M D T Ht X Hx S Hs Q Q'.
  assert (G : forall k a b, gross_steady_state_heating_capacity M (controlled k a b u) (Some c) = Ok s)
    by (intros; exact S).
  unfold gross_integrated_heating_capacity in Q, Q'.
  cbn [heating_conditions rbind M NRELDXModel md_gihc] in Q, Q'.
  unfold nrel_gross_integrated_heating_capacity in Q, Q'.
  change (in_defrost (u_defrost (controlled DCDemand p l u)) c) with (in_defrost (u_defrost u) c) in Q.
  change (in_defrost (u_defrost (controlled DCTimed p' l' u)) c) with (in_defrost (u_defrost u) c) in Q'.
  rewrite D in Q, Q'.
  change (df_time_fraction (u_defrost (controlled DCDemand p l u)) c) with (df_time_fraction (u_defrost u) c) in Q.
  change (df_time_fraction (u_defrost (controlled DCTimed p' l' u)) c) with (df_time_fraction (u_defrost u) c) in Q'.
  rewrite T in Q, Q'. cbn [rbind] in Q, Q'.
  unfold controlled at 1 in Q. unfold controlled at 1 in Q'.
  cbn [u_defrost df_control rbind] in Q, Q'. rewrite X in Q'. cbn [rbind] in Q'.
  apply rbind_ok in Q. destruct Q as (d & E & Q). apply rbind_ok in Q'. destruct Q' as (d' & E' & Q').
  assert (d' = d).
  { apply Ok_inj. rewrite <- E, <- E'. reflexivity. }
  subst d'. clear E E'.
  specialize (G DCDemand p l) as G1. specialize (G DCTimed p' l') as G2.
  unfold gross_steady_state_heating_capacity in G1, G2.
  cbn [heating_conditions rbind M NRELDXModel md_ghc md_f_ghc] in G1, G2.
  rewrite G1 in Q. rewrite G2 in Q'. cbn [rbind] in Q, Q'.
  apply Ok_inj in Q. apply Ok_inj in Q'. subst q q'. rnum.
  assert (A : 0 < s * (1 - t)) by (apply Rmult_lt_0_compat; lra).
  assert (B : 0 < s * (1 - t) * (0.909 - 107.33 * x - 0.875 * (1 - t))) by (apply Rmult_lt_0_compat; lra).
  lra.
Qed.
