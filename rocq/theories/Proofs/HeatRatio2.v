(** The defrost loss of the Title 24 model (C100). *)
From Coq Require Import String Reals QArith Lra Psatz List.
From Verif.Base Require Import Num Res Tac.
From Verif.Model Require Import Units Psychrometrics Conditions Defrost Fan Unit NREL BaseModel Title24 Resnet DXUnit.
From Verif.Spec Require Import NrelSpec ModelSpec HeatRatioSpec.
From Verif.Proofs Require Import UnitsR DefrostProofs ToyUnit NrelProofs NrelProofs2 NrelDefaults ModelProofs ModelExamples HeatRatio.
From Verif.Props Require Import P_Psych P_Models.
Import ListNotations.
Local Open Scope R_scope.

Lemma t24_warm_loss : forall sol (u : dxunit R) c c' s s' v v' q17 q47,
  let M := Title24DXModel sol in
  let t := degF (ps_db (c_outdoor c)) in
  let t' := degF (ps_db (c_outdoor c')) in
  not_supplied u "cap35" -> c_speed c' = c_speed c ->
  anchor17 u (c_speed c) q17 -> anchor47 u (c_speed c) q47 -> 0 < clear35 q17 q47 ->
  gross_steady_state_heating_capacity M u (Some c) = Ok s ->
  gross_integrated_heating_capacity M u (Some c) = Ok v ->
  gross_steady_state_heating_capacity M u (Some c') = Ok s' ->
  gross_integrated_heating_capacity M u (Some c') = Ok v' ->
  in_defrost (u_defrost u) c = true -> in_defrost (u_defrost u) c' = true ->
  17 < t -> t < t' -> t' < 45 ->
  s - v = (t - 17) / 180 * clear35 q17 q47 /\ s - v < s' - v'.
Proof.
  intros sol u c c' s s' v v' q17 q47 M t t' N E H17 H47 P S V S' V' D D' T1 T2 T3.
  pose proof (t24_default_loss sol u c s v q17 q47 S V N H17 H47 D) as L.
  rewrite <- E in H17, H47.
  pose proof (t24_default_loss sol u c' s' v' q17 q47 S' V' N H17 H47 D') as L'.
  fold t in L. fold t' in L'. rewrite L, L' by lra. split; [reflexivity|nra].
Qed.

Lemma t24_warm_case : forall sol,
  let u := t24_unit [] in let M := Title24DXModel sol in
  let c := toy_cond 294 289 (fr_F 35) 1 in let c' := toy_cond 294 289 (fr_F 40) 1 in
  not_supplied u "cap35" /\ c_speed c' = c_speed c
  /\ anchor47 u (c_speed c) 10000
  /\ anchor17 u (c_speed c) (t24_ratio 8 * 10000) /\ 0 < clear35 (t24_ratio 8 * 10000) 10000
  /\ (exists s, gross_steady_state_heating_capacity M u (Some c) = Ok s)
  /\ (exists s, gross_integrated_heating_capacity M u (Some c) = Ok s)
  /\ (exists s, gross_steady_state_heating_capacity M u (Some c') = Ok s)
  /\ (exists s, gross_integrated_heating_capacity M u (Some c') = Ok s)
  /\ in_defrost (u_defrost u) c = true /\ in_defrost (u_defrost u) c' = true
  /\ degF (ps_db (c_outdoor c)) = 35 /\ degF (ps_db (c_outdoor c')) = 40.
Proof.
  intros sol u M c c'. split; [intros v H; destruct H|]. split; [reflexivity|]. split; [reflexivity|].
  split. { right. split; [intros v H; destruct H|]. exists 8, 10000. repeat split. }
  split. { unfold clear35, t24_ratio. destruct (Rlt_dec 8 7.5); [lra|]. destruct (Rlt_dec 8 9.5567); lra. }
  pose proof (t24_total_default sol) as T.
  assert (G : forall t, (exists s, gross_steady_state_heating_capacity M u (Some (toy_cond 294 289 t 1)) = Ok s)
    /\ exists s, gross_integrated_heating_capacity M u (Some (toy_cond 294 289 t 1)) = Ok s).
  { intros t. destruct (T t) as (v & v' & V & V'). split.
    - unfold gross_steady_state_heating_capacity, product. cbn [heating_conditions rbind].
      change (md_ghc M u (toy_cond 294 289 t 1) = Ok v) in V. rewrite V. eexists. reflexivity.
    - exists v'. exact V'. }
  split; [apply G|]. split; [apply G|]. split; [apply G|]. split; [apply G|].
  assert (E : forall x, fr_F (T:=R) x = (x - 32) / 1.8 + 273.15) by (intros x; unfold fr_F; rnum; lra).
  assert (B : forall x, x <= 40 -> in_defrost (u_defrost u) (toy_cond 294 289 (fr_F x) 1) = true).
  { intros x Hx. unfold in_defrost. cbn [toy_cond c_outdoor ps_db psych_wetbulb put_wb blank]. rewrite E.
    cbn. apply Rltb_true. lra. }
  split; [apply B; lra|]. split; [apply B; lra|].
  unfold c, c'. cbn [toy_cond c_outdoor ps_db psych_wetbulb put_wb blank]. rewrite !E. unfold degF. lra.
Qed.

Lemma one_case : exists r r' : R,
  gross_heating_capacity_ratio ConstantDXModel (toy_unit 0 (toy_defrost DCTimed DSReverseCycle))
    (Some (toy_cond 294 289 270 1)) = Ok r
  /\ in_defrost (toy_defrost DCTimed DSReverseCycle) (toy_cond 294 289 290 1) = false
  /\ forall sol, gross_heating_capacity_ratio (NRELDXModel toy_psy sol)
       (toy_unit 0 (toy_defrost DCTimed DSReverseCycle)) (Some (toy_cond 294 289 290 1)) = Ok r'.
Proof.
  set (u := toy_unit 0 (toy_defrost DCTimed DSReverseCycle)).
  assert (D : in_defrost (toy_defrost DCTimed DSReverseCycle) (toy_cond 294 289 290 1) = false).
  { unfold in_defrost. cbn. rewrite (proj2 (Rltb_false 290 278)) by lra. reflexivity. }
  set (q := heat_cap_flow 1 * (heat_cap_T (degF 294) (degF 290) * 9700)).
  assert (Pq : 0 < q * 1).
  { unfold q. destruct flow_one as (_ & _ & H1 & H2). rewrite H1.
    assert (0 < heat_cap_T (degF 294) (degF 290) * 9700) by (unfold heat_cap_T, degF; lra). lra. }
  eexists. exists (q * 1 / (q * 1)). split; [|split; [exact D|]].
  - unfold gross_heating_capacity_ratio, both.
    assert (E : gross_steady_state_heating_capacity ConstantDXModel u (Some (toy_cond 294 289 270 1)) = Ok (9700 * 1)).
    { unfold gross_steady_state_heating_capacity, product. cbn [heating_conditions rbind ConstantDXModel md_ghc md_f_ghc].
      unfold unit_factor. rewrite lit1_R. reflexivity. }
    change (gross_integrated_heating_capacity ConstantDXModel u (Some (toy_cond 294 289 270 1)))
      with (gross_steady_state_heating_capacity ConstantDXModel u (Some (toy_cond 294 289 270 1))).
    rewrite E. cbn [rbind]. rewrite pydiv_ok by lra. reflexivity.
  - intros sol. unfold gross_heating_capacity_ratio, both.
    destruct (nrel_outside toy_psy sol u _ D) as (-> & _).
    assert (E : gross_steady_state_heating_capacity (NRELDXModel toy_psy sol) u (Some (toy_cond 294 289 290 1)) = Ok (q * 1)).
    { unfold gross_steady_state_heating_capacity, product. cbn [heating_conditions rbind NRELDXModel md_ghc md_f_ghc].
      assert (Q : nrel_gross_heating_capacity u (toy_cond 294 289 290 1) = Ok q) by (apply ghc_eq; reflexivity).
      rewrite Q. cbn [rbind]. unfold resnet_grading_model. change (u_charge u) with 0.
      rewrite lit0_R, lit1_R. cbn [neqb RNum]. destruct (Reqb_spec 0 0); [reflexivity|lra]. }
    rewrite E. cbn [rbind]. rewrite pydiv_ok by lra. reflexivity.
Qed.
