(** What ratings depend on (C110). *)
From Coq Require Import String Reals QArith List.
From Verif.Base Require Import Num Res Tac.
From Verif.Model Require Import Units Psychrometrics Conditions Defrost Fan Unit NREL BaseModel Title24 Resnet DXUnit.
From Verif.Spec Require Import UnitModels AgreeSpec.
Import ListNotations.
Local Open Scope R_scope.

Lemma cooling_depends psy sol M (u u' : dxunit R) : library_model psy sol M -> cooling_alike u u' ->
  (M = Title24DXModel sol -> u_kwargs u' = u_kwargs u /\ u_seer u' = u_seer u) ->
  seer sol M u' = seer sol M u
  /\ forall oc,
     eer sol M u' oc = eer sol M u oc
     /\ gross_total_cooling_capacity M u' oc = gross_total_cooling_capacity M u oc
     /\ gross_cooling_power M u' oc = gross_cooling_power M u oc
     /\ gross_sensible_cooling_capacity M u' oc = gross_sensible_cooling_capacity M u oc
     /\ net_total_cooling_capacity sol M u' oc = net_total_cooling_capacity sol M u oc
     /\ net_cooling_power sol M u' oc = net_cooling_power sol M u oc.
Proof.
  intros H A T. unfold cooling_alike in A. destruct u, u'. cbn in A, T.
  destruct A as (A1 & A2 & A3 & A4 & A5 & A6 & A7 & A8 & A9 & A10 & A11). subst.
  destruct H as [<-|H]; [repeat split; reflexivity|].
  destruct H as [<-|H]; [repeat split; reflexivity|].
  destruct H as [<-|H]; [repeat split; reflexivity|].
  destruct H as [<-|H]; [destruct T as [T1 T2]; [reflexivity|]; subst; repeat split; reflexivity|].
  destruct H as [<-|H]; [repeat split; reflexivity|].
  destruct H as [<-|H]; [repeat split; reflexivity|]. destruct H.
Qed.

(** hspf() with the load line as a parameter. *)
Definition hspf_loaded (sol : solvers R) (M : dxmodel R) (u : dxunit R) (region : nat)
    (line : heating_distribution R -> R -> res (R -> res R)) : res R :=
  let! d := match u_standard u with
            | AHRI_210_240_2017 => distribution_2017 region
            | AHRI_210_240_2023 => distribution_2023 region
            end in
  let! H1 := heating_point sol M rc_H1_full u in
  let! H2 := frost_point sol M rc_H2_full u in
  let! H3 := heating_point sol M rc_H3_full u in
  let! load := line d (pt_q H1) in
  let! s :=
    match u_staging u with
    | SINGLE_STAGE => hspf_sums u d load H1 H2 H3 (hspf_bin_single u)
    | TWO_STAGE =>
        let! H0l := heating_point sol M rc_H0_low u in
        let! H1l := heating_point sol M rc_H1_low u in
        let! H2l := frost_point sol M rc_H2_low u in
        let! H3l := heating_point sol M rc_H3_low u in
        hspf_sums u d load H1 H2 H3
          (fun bl t qf pf df hlf n dl =>
             let! ql := hspf_two_low pt_q H0l H1l H2l H3l t in
             let! pl := hspf_two_low pt_p H0l H1l H2l H3l t in
             hspf_bin_two u bl t ql pl qf pf df hlf n dl)
    | VARIABLE_SPEED =>
        let! H0l := heating_point sol M rc_H0_low u in
        let! H1l := heating_point sol M rc_H1_low u in
        let! H2i := frost_point sol M rc_H2_int u in
        let! H4 := heating_point sol M rc_H4_full u in
        let! mq := hspf_slope pt_q H0l H1l H2i H2 H3 in
        let! mp := hspf_slope pt_p H0l H1l H2i H2 H3 in
        hspf_sums u d load H1 H2 H3
          (fun bl t qf pf df hlf n dl =>
             let! ql := along pt_q H0l H1l t in
             let! pl := along pt_p H0l H1l t in
             let! q4 := along pt_q H4 H3 t in
             let! p4 := along pt_p H4 H3 t in
             hspf_bin_variable u bl t ql pl
               (pt_q H2i + mq * (t - fr_F (lit 35)))
               (pt_p H2i + mp * (t - fr_F (lit 35))) qf pf q4 p4 df n dl)
    end in
  let! credit := demand_credit (u_defrost u) in
  let! r := pydiv (h_q s) (h_e s + h_rh s) in
  Ok (to_Btu_Wh (r * credit)).

Lemma hspf_line sol M u region : hspf sol M u region = hspf_loaded sol M u region (hspf_load sol M u).
Proof.
  unfold hspf, hspf_loaded, hspf_with.
  destruct (match u_standard u with _ => _ end); reflexivity.
Qed.

Lemma loaded_ext sol M u region L L' : (forall d q, L d q = L' d q) ->
  hspf_loaded sol M u region L = hspf_loaded sol M u region L'.
Proof.
  intros H. unfold hspf_loaded.
  assert (B : forall A A' (x : res A) (f g : A -> res A'), (forall a, f a = g a) -> rbind x f = rbind x g)
    by (intros A A' [a|e] f g E; [apply E|reflexivity]).
  apply B. intros d. apply B. intros H1. apply B. intros H2. apply B. intros H3.
  rewrite H. reflexivity.
Qed.

Lemma heating_depends psy sol M (u u' : dxunit R) : library_model psy sol M -> heating_alike u u' ->
  (M = Title24DXModel sol -> u_kwargs u' = u_kwargs u /\ u_hspf u' = u_hspf u) ->
  (u_standard u = AHRI_210_240_2017
   \/ net_total_cooling_capacity sol M u' None = net_total_cooling_capacity sol M u None ->
   forall region, hspf sol M u' region = hspf sol M u region)
  /\ forall oc,
     gross_steady_state_heating_capacity M u' oc = gross_steady_state_heating_capacity M u oc
     /\ gross_steady_state_heating_power M u' oc = gross_steady_state_heating_power M u oc
     /\ gross_integrated_heating_capacity M u' oc = gross_integrated_heating_capacity M u oc
     /\ gross_integrated_heating_power M u' oc = gross_integrated_heating_power M u oc
     /\ net_steady_state_heating_capacity sol M u' oc = net_steady_state_heating_capacity sol M u oc
     /\ net_steady_state_heating_power sol M u' oc = net_steady_state_heating_power sol M u oc
     /\ net_integrated_heating_capacity sol M u' oc = net_integrated_heating_capacity sol M u oc
     /\ net_integrated_heating_power sol M u' oc = net_integrated_heating_power sol M u oc.
Proof.
  intros H A T.
  assert (L : u_standard u = AHRI_210_240_2017
   \/ net_total_cooling_capacity sol M u' None = net_total_cooling_capacity sol M u None ->
   forall d q, hspf_load sol M u' d q = hspf_load sol M u d q).
  { intros B d q. unfold hspf_load, heating_alike in *.
    destruct A as (_ & -> & _ & -> & _ & _ & _ & _ & _ & _ & C & _).
    destruct (u_standard u); [reflexivity|]. destruct B as [B|B]; [discriminate|].
    unfold net_total_cooling_capacity, both, rating in *. rewrite C in *.
    destruct (need TypeError _); cbn [rbind]; [|reflexivity].
    destruct (need TypeError _); cbn [rbind]; [|reflexivity].
    unfold gross_total_cooling_capacity, cooling_fan_power, cooling_conditions in *. rewrite C in B.
    destruct (rc_A_full (u_conds u)); cbn [need rbind] in *; [|reflexivity]. rewrite B. reflexivity. }
  unfold heating_alike in A.
  assert (L2 : u_standard u = AHRI_210_240_2017
   \/ net_total_cooling_capacity sol M u' None = net_total_cooling_capacity sol M u None ->
   forall region, hspf_loaded sol M u' region (hspf_load sol M u') = hspf_loaded sol M u' region (hspf_load sol M u)).
  { intros B region. apply loaded_ext. exact (L B). }
  assert (G : (forall region line, hspf_loaded sol M u' region line = hspf_loaded sol M u region line)
    /\ forall oc,
     gross_steady_state_heating_capacity M u' oc = gross_steady_state_heating_capacity M u oc
     /\ gross_steady_state_heating_power M u' oc = gross_steady_state_heating_power M u oc
     /\ gross_integrated_heating_capacity M u' oc = gross_integrated_heating_capacity M u oc
     /\ gross_integrated_heating_power M u' oc = gross_integrated_heating_power M u oc
     /\ net_steady_state_heating_capacity sol M u' oc = net_steady_state_heating_capacity sol M u oc
     /\ net_steady_state_heating_power sol M u' oc = net_steady_state_heating_power sol M u oc
     /\ net_integrated_heating_capacity sol M u' oc = net_integrated_heating_capacity sol M u oc
     /\ net_integrated_heating_power sol M u' oc = net_integrated_heating_power sol M u oc).
  { clear L L2. destruct u, u'. cbn in A, T.
    destruct A as (A1 & A2 & A3 & A4 & A5 & A6 & A7 & A8 & A9 & A10 & A11 & A12). subst.
    destruct H as [<-|H]; [repeat split; reflexivity|].
    destruct H as [<-|H]; [repeat split; reflexivity|].
    destruct H as [<-|H]; [repeat split; reflexivity|].
    destruct H as [<-|H]; [destruct T as [T1 T2]; [reflexivity|]; subst; repeat split; reflexivity|].
    destruct H as [<-|H]; [repeat split; reflexivity|].
    destruct H as [<-|H]; [repeat split; reflexivity|]. destruct H. }
  destruct G as [G1 G2]. split; [|exact G2].
  intros B region. rewrite !hspf_line, (L2 B region). apply G1.
Qed.
