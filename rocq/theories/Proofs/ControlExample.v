(** Units for C109. *)
From Coq Require Import String Reals QArith Lra Psatz List.
From Verif.Base Require Import Num Res Tac.
From Verif.Model Require Import Units Psychrometrics Conditions Defrost Fan Unit NREL BaseModel Title24 Resnet DXUnit.
From Verif.Spec Require Import NrelSpec ModelSpec UnitModels UnitSpec SeasonSpec SettingsSpec DefrostSpec ControlSpec.
From Verif.Proofs Require Import UnitsR DefrostProofs ToyUnit NrelProofs NrelDefaults UnitProofs3 ToyBuild ToySeason ToySeason2
  ToySeason3 HspfProofs2 HspfProofs SettingsProofs Control.
From Verif.Props Require Import P_Psych.
Import ListNotations.
Local Open Scope R_scope.

Lemma controlled_self (u : dxunit R) : let d := u_defrost u in
  controlled (df_control d) (df_period d) (df_max_time d) u = u.
Proof. destruct u as [a b c d e f g h df]. destruct df. reflexivity. Qed.

Lemma timed_case : exists u v,
  unit_of SINGLE_STAGE AHRI_210_240_2023 [10000] [9000] 4 4 u
  /\ not_nrel lin_psy lin_sol ConstantDXModel
  /\ u = controlled DCTimed 5400 43200 u
  /\ hspf lin_sol ConstantDXModel u 4 = Ok v /\ 0 < v
  /\ hspf lin_sol ConstantDXModel (controlled DCDemand 5400 43200 u) 4 = Ok (1.03 * v).
Proof.
  destruct toy_hspf_single as (u & on & d & H1 & H2 & H3 & L & cr & lo & hi & E & S1 & S2 & Cl
    & T1 & T2 & T3 & N1 & N2 & HL & Lp & Cr & C0 & Cd & Lo & F & B & _).
  destruct (hspf_single_total lin_sol ConstantDXModel u 4 on d H1 H2 H3 L cr lo hi) as (v & V & _ & V1 & _);
    auto; try lra.
  assert (M : library_model lin_psy lin_sol ConstantDXModel) by (right; left; reflexivity).
  assert (M' : not_nrel lin_psy lin_sol ConstantDXModel) by (right; left; reflexivity).
  destruct (kept_settings lin_psy lin_sol ConstantDXModel _ u M E) as (_&_&_&_&_&_&_&_&_&_&U).
  cbn in U. destruct U as (_ & K & _ & _ & K1 & K2 & _).
  assert (Z : u = controlled DCTimed 5400 43200 u).
  { rewrite <- (controlled_self u) at 1. cbv zeta. rewrite K, K1, K2. f_equal; lra. }
  exists u, v. split; [exact E|]. split; [exact M'|]. split; [exact Z|]. split; [exact V|].
  assert (P : 0 < v).
  { eapply Rlt_le_trans; [|exact V1]. unfold Btu_Wh.
    assert (0 < Rmin ((1 - sd_cd (u_h u)) * lo) 1).
    { apply Rmin_glb_lt; [apply Rmult_lt_0_compat; lra|lra]. }
    assert (0 < Rmin ((1 - sd_cd (u_h u)) * lo) 1 * cr) by (apply Rmult_lt_0_compat; lra). lra. }
  split; [exact P|]. rewrite Z in V at 1.
  destruct (demand_hspf lin_psy lin_sol ConstantDXModel u 4 DCTimed 5400 43200 5400 43200 v M') as [G _];
    [discriminate|exact V|].
  rewrite G by lra. f_equal. destruct (credit_range (5400 / 60) (43200 / 60)) as [_ Q]; try lra.
  rewrite Q by lra. lra.
Qed.

Lemma nrel_dry_case sol : let u := toy_unit 0 (toy_defrost DCDemand DSResistive) in
  let c := toy_cond 294 289 270 1 in let M := NRELDXModel toy_psy sol in
  in_defrost (u_defrost u) c = true
  /\ (exists t, df_time_fraction (u_defrost u) c = Ok t /\ 0 <= t < 1)
  /\ (exists x, coil_diff_outdoor_air_humidity toy_psy c = Ok x /\ x <= 0.0003)
  /\ (exists s, gross_steady_state_heating_capacity M u (Some c) = Ok s /\ 0 < s)
  /\ (exists q, gross_integrated_heating_capacity M (controlled DCDemand 5400 43200 u) (Some c) = Ok q)
  /\ exists q, gross_integrated_heating_capacity M (controlled DCTimed 5400 43200 u) (Some c) = Ok q.
Proof.
  intros u c M. destruct (nrel_defrost_case sol) as (D & (t & T & _) & q & s & r & p & Q & _ & _ & I & _).
  fold u c M in D, T, Q, I.
  assert (T' : df_time_fraction (u_defrost u) c = Ok (3.5 / 60)).
  { unfold u, toy_unit, toy_defrost. cbn [u_defrost df_time_fraction]. unfold default_time_fraction.
    f_equal. unfold fr_min. rnum. lra. }
  assert (X : exists x, coil_diff_outdoor_air_humidity toy_psy c = Ok x /\ x <= 0.0003).
  { eexists. split; [reflexivity|]. rnum. rcases; lra. }
  split; [exact D|]. split; [exists (3.5 / 60); split; [exact T'|lra]|]. split; [exact X|].
  split. { exists q. split; [exact Q|].
    assert (F : forall m b fn, resnet_grading_model toy_psy m b fn u c = Ok 1).
    { intros m b fn. unfold resnet_grading_model. change (u_charge u) with 0.
      rewrite lit0_R, lit1_R. cbn [neqb RNum]. destruct (Reqb_spec 0 0); [reflexivity|lra]. }
    assert (Qv : nrel_gross_heating_capacity u c
      = Ok (heat_cap_flow 1 * (heat_cap_T (degF 294) (degF 270) * 9700))) by (apply ghc_eq; reflexivity).
    unfold gross_steady_state_heating_capacity, product in Q.
    cbn [heating_conditions rbind M NRELDXModel md_ghc md_f_ghc] in Q. rewrite Qv in Q.
    cbn [rbind] in Q. rewrite F in Q. apply Ok_inj in Q. rewrite <- Q.
    destruct flow_one as (_ & _ & A1 & _). rewrite A1. cbn [nmul RNum].
    assert (0 < heat_cap_T (degF 294) (degF 270) * 9700) by (unfold heat_cap_T, degF; lra). lra. }
  split; [exists r; exact I|].
  destruct X as (x & X & _).
  unfold gross_integrated_heating_capacity. cbn [heating_conditions rbind M NRELDXModel md_gihc].
  unfold nrel_gross_integrated_heating_capacity.
  change (in_defrost (u_defrost (controlled DCTimed 5400 43200 u)) c) with (in_defrost (u_defrost u) c).
  change (df_time_fraction (u_defrost (controlled DCTimed 5400 43200 u)) c) with (df_time_fraction (u_defrost u) c).
  rewrite D, T. cbn [rbind]. unfold controlled at 1. cbn [u_defrost df_control rbind]. rewrite X.
  assert (G : gross_steady_state_heating_capacity M (controlled DCTimed 5400 43200 u) (Some c) = Ok q) by exact Q.
  unfold gross_steady_state_heating_capacity in G. cbn [heating_conditions rbind M NRELDXModel md_ghc md_f_ghc] in G.
  cbn [rbind]. unfold controlled at 1, u at 1, toy_unit, toy_defrost. cbn [u_defrost df_strategy rbind].
  rewrite G. cbn [rbind]. eexists. reflexivity.
Qed.
