(** Resetting the airflow of a single-stage unit of ToyBuild.v, for the examples beside C89. *)
From Coq Require Import Reals QArith Lra Lia List Bool.
From Verif.Base Require Import Num Res Tac.
From Verif.Model Require Import Units Util Psychrometrics Conditions Defrost Fan Curves Tabular Unit NREL BaseModel
  Title24 Resnet DXUnit.
From Verif.Spec Require Import FanSpec CondSpec UnitSpec UnitModels DefaultSpec TestSpec ResetSpec.
From Verif.Proofs Require Import UnitsR FanProofs MakeCond Frame UnitProofs2 UnitProofs3 ResetProofs ResetProofs2 ResetProofs3
  ToyBuild ToyBuild2.
Import ListNotations.
Local Open Scope R_scope.

Definition one_stage : dxargs R :=
  args SINGLE_STAGE AHRI_210_240_2023 [10000] [9000] (Some 4) None (Some 3) None None.

Definition flow_c : num_or_list R := Scalar 0.00005.
Definition flow_h : num_or_list R := Scalar 0.00004.

Lemma reset_example : exists (u : dxunit R) (f f' : fan R) (u' : dxunit R) (e : R) (c : cond R),
  DXUnit lin_psy lin_sol ConstantDXModel one_stage = Ok u
  /\ u_fan u = Some f /\ u_full_esp u = Some e /\ 0 < e
  /\ (forall m, hd 0 (new_airflows m u flow_c flow_h) <> 0
        /\ List.length (new_airflows m u flow_c flow_h)
           = List.length (flows m u flow_c flow_h))
  /\ with_speeds f (new_speeds Cooling u flow_c flow_h e
                    ++ new_speeds Heating u flow_c flow_h e) f'
  /\ (forall t i, t <> A_boost -> test_speed t u = Some i ->
        (i < List.length (flows (test_mode t) u flow_c flow_h))%nat -> In t (tests u))
  /\ ex (reset_rated_flow_rates lin_psy flow_c flow_h) u = Ok u'
  /\ f_n f = 2%nat
  /\ In A_full (tests u) /\ test_speed A_full u = Some 0%nat
  /\ new_airflows Cooling u flow_c flow_h = [10000 * 0.00005]
  /\ new_airflows Heating u flow_c flow_h = [9000 * 0.00004]
  /\ stored A_full (u_conds u) = Some c
  /\ c_rated_standard_volumetric_airflow c = Some (10000 * fl)
  /\ 0 < 10000 * fl /\ 10000 * 0.00005 <> 10000 * fl
  /\ fan_power lin_sol u c = Ok (10000 * fl * ef)
  /\ e < ef.
Proof.
  destruct (built_1 AHRI_210_240_2023 (Some 4) None (Some 3) None None
     ltac:(apply good_gross; lra) ltac:(apply good_gross; lra) 10000 9000
     ltac:(lra) ltac:(lra)) as (f & p & cr & s & b & t & B & K & A & D & E).
  set (u := built _ _ _ _ _ _ _ _ _ _ _ _ _ _ _) in B. pose proof fl_pos as L.
  assert (Z : 10000 * fl <> 0) by (apply Rgt_not_eq; lra).
  assert (A0 : nth_error (f_airflow f) 0 = Some (10000 * fl)) by (rewrite A; reflexivity).
  assert (F : u_fan u = Some f) by reflexivity.
  assert (Ee : u_full_esp u = Some p) by reflexivity.
  
  assert (Nc : new_airflows Cooling u flow_c flow_h = [10000 * 0.00005]) by reflexivity.
  assert (Nh : new_airflows Heating u flow_c flow_h = [9000 * 0.00004]) by reflexivity.
  assert (Hm : forall m, hd 0 (new_airflows m u flow_c flow_h) <> 0
     /\ List.length (new_airflows m u flow_c flow_h) = List.length (flows m u flow_c flow_h)).
  { intros m. destruct m.
    - rewrite Nc. cbn [hd]. split; [apply Rgt_not_eq; lra|reflexivity].
    - rewrite Nh. cbn [hd]. split; [apply Rgt_not_eq; lra|reflexivity]. }
  assert (W : exists f', with_speeds f (new_speeds Cooling u flow_c flow_h p ++ new_speeds Heating u flow_c flow_h p) f').
  { unfold new_speeds. rewrite Nc, Nh. cbn [map hd app].
    match goal with |- context [(10000 * 0.00005, ?x) :: [(_, ?y)]] =>
      destruct (const_add_total f _ (10000 * fl) (10000 * 0.00005) x K D A0 Z) as (f1 & F1 & K1 & D1 & A1);
      destruct (const_add_total f1 _ (10000 * fl) (9000 * 0.00004) y K1 D1 A1 Z) as (f2 & F2 & _) end.
    exists f2. econstructor; [exact F1|]. econstructor; [exact F2|]. constructor. }
  destruct W as (f' & W).
  assert (Rd : forall t i, t <> A_boost -> test_speed t u = Some i ->
     (i < List.length (flows (test_mode t) u flow_c flow_h))%nat -> In t (tests u)).
  { intros x i NB Sp Lt.
    assert (i = 0%nat).
    { destruct (test_mode x); cbn in Lt; lia. }
    subst i. destruct x; try (cbn; tauto); try congruence; discriminate Sp. }
  assert (LM : library_model lin_psy lin_sol ConstantDXModel) by (apply plain_library; right; left; reflexivity).
  destruct (reset_succeeds lin_psy lin_sol ConstantDXModel _ flow_c flow_h u f f' p LM B F Ee Hm W Rd) as (u' & H).
  destruct (default_fan_made lin_psy lin_sol ConstantDXModel _ u ltac:(right; left; reflexivity) B)
    as (f0 & F0 & _ & Par).
  assert (f0 = f) by congruence. subst f0.
  assert (N2 : f_n f = 2%nat).
  { pose proof (parallel_par0 _ Par) as (Q & _). rewrite A in Q. symmetry. exact Q. }
  assert (Ep : p = fr_inH2O (lit 0.5)).
  { cbn [full_esp hd] in E. symmetry. apply Ok_inj. exact E. }
  exists u, f, f', u', p. eexists.
  split; [exact B|]. split; [exact F|]. split; [exact Ee|].
  split. { rewrite Ep, inH2O_R. unfold in_H2O. rnum. lra. }
  split; [exact Hm|]. split; [exact W|]. split; [exact Rd|]. split; [exact H|]. split; [exact N2|].
  split; [left; reflexivity|]. split; [reflexivity|]. split; [exact Nc|]. split; [exact Nh|].
  split; [reflexivity|]. split; [reflexivity|]. split; [lra|].
  split. { rewrite fl_val. apply Rlt_not_eq. lra. }
  split.
  - unfold fan_power. rewrite F. cbn [need rbind rc flow_cond c_external_static_pressure c_fan_speed].
    eapply const_power; eauto; reflexivity.
  - rewrite Ep, inH2O_R, ef_val. unfold in_H2O. rnum. lra.
Qed.

Lemma reset_power_example : exists (u u' : dxunit R) e c c',
  DXUnit lin_psy lin_sol ConstantDXModel one_stage = Ok u
  /\ ex (reset_rated_flow_rates lin_psy flow_c flow_h) u = Ok u'
  /\ In A_full (tests u) /\ test_speed A_full u = Some 0%nat /\ u_full_esp u = Some e
  /\ nth_error (new_speeds Cooling u flow_c flow_h e) 0 = Some (10000 * 0.00005, e)
  /\ stored A_full (u_conds u) = Some c /\ fan_power lin_sol u c = Ok (10000 * fl * ef)
  /\ stored A_full (u_conds u') = Some c' /\ fan_power lin_sol u' c' = Ok (10000 * 0.00005 * e)
  /\ 389 < 10000 * fl * ef < 390 /\ 62 < 10000 * 0.00005 * e < 63.
Proof.
  destruct reset_example as (u & f & f' & u' & e & c & B & F & Ee & Pe & Hm & W & Rd & H & N & I & Sp & Nc & Nh & St
    & A0 & _ & _ & P & _).
  assert (LM : library_model lin_psy lin_sol ConstantDXModel) by (apply plain_library; right; left; reflexivity).
  assert (Nt : nth_error (new_airflows (test_mode A_full) u flow_c flow_h) 0 = Some (10000 * 0.00005)).
  { cbn [test_mode]. rewrite Nc. reflexivity. }
  assert (Nn : nth_error (new_speeds Cooling u flow_c flow_h e) 0 = Some (10000 * 0.00005, e)).
  { apply first_pressure; [apply (proj1 (Hm Cooling))|exact Nt]. }
  destruct (reset_conditions lin_psy flow_c flow_h u u' f A_full H F) as [Mv _].
  destruct (Mv 0%nat (10000 * 0.00005) ltac:(discriminate) Sp Nt) as (c1 & c' & _ & St' & _).
  exists u, u', e, c, c'. repeat (split; [assumption|]).
  split; [|split].
  - apply (reset_default_power lin_psy lin_sol ConstantDXModel one_stage flow_c flow_h u u' A_full 0 e);
      auto; try discriminate. right; left; reflexivity.
  - rewrite fl_val, ef_val. split; lra.
  - assert (e = fr_inH2O (lit 0.5)).
    { destruct (built_1 AHRI_210_240_2023 (Some 4) None (Some 3) None None
       ltac:(apply good_gross; lra) ltac:(apply good_gross; lra) 10000 9000
       ltac:(lra) ltac:(lra)) as (f0 & p & cr & s & b & t & B' & _ & _ & _ & E).
      cbn [full_esp hd] in E. apply Ok_inj in E. unfold one_stage in B. rewrite B in B'. apply Ok_inj in B'.
      rewrite B' in Ee. cbn in Ee. congruence. }
    subst e. rewrite inH2O_R. unfold in_H2O. rnum. split; lra.
Qed.
