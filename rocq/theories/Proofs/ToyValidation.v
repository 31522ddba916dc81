(** A variable-speed unit whose validation table has the wrong power at 47 F (C71). *)
From Coq Require Import Reals QArith Qreals Lra List Bool String.
From Verif.Base Require Import Num Res Tac.
From Verif.Model Require Import Units Psychrometrics Conditions Defrost Fan Tabular Unit
  NREL BaseModel Title24 Resnet DXUnit Validation.
From Verif.Spec Require Import NrelSpec UnitModels UnitSpec SeasonSpec TestSpec ValidationSpec.
From Verif.Proofs Require Import UnitsR ToyUnit ToyBuild ToyBuild2 ToySeason UnitProofs2
  TestProofs ValidationProofs.
Import ListNotations.
Local Open Scope string_scope.
Local Open Scope R_scope.

Notation K := ConstantDXModel.

Lemma Btu_h_inv x : exists v, x = Btu_h v.
Proof. exists (x / (1055.056 / 3600)). unfold Btu_h. field; lra. Qed.
Lemma ft3_inv x : exists v, x = ft3_min v.
Proof. exists (x / (0.028316846592 / 60)). unfold ft3_min. field; lra. Qed.

Lemma steady_measured (u : dxunit R) t P q :
  frost t = false -> heating_test lin_sol K u (stored t (u_conds u)) P ->
  (forall c, stored t (u_conds u) = Some c ->
     exists a, c_rated_standard_volumetric_airflow c = Some a) ->
  exists v, measured lin_sol K q t u v.
Proof.
  intros F (c & Sc & _ & Q & W) A. destruct q.
  - destruct (Btu_h_inv (pt_q P)) as (v & V). exists v, c. rewrite F, <- V. auto.
  - exists (pt_p P), c. rewrite F. auto.
  - destruct (A c Sc) as (a & E). destruct (ft3_inv a) as (v & V). exists v, c.
    rewrite <- V. auto.
Qed.
Lemma frost_measured (u : dxunit R) t P q :
  frost t = true -> frost_test lin_sol K u (stored t (u_conds u)) P ->
  (forall c, stored t (u_conds u) = Some c ->
     exists a, c_rated_standard_volumetric_airflow c = Some a) ->
  exists v, measured lin_sol K q t u v.
Proof.
  intros F (c & Sc & _ & Q & W) A. destruct q.
  - destruct (Btu_h_inv (pt_q P)) as (v & V). exists v, c. rewrite F, <- V. auto.
  - exists (pt_p P), c. rewrite F. auto.
  - destruct (A c Sc) as (a & E). destruct (ft3_inv a) as (v & V). exists v, c.
    rewrite <- V. auto.
Qed.

Lemma table_example : exists (u : dxunit R) header row v w,
  DXUnit lin_psy lin_sol K
    (toy_args VARIABLE_SPEED AHRI_210_240_2023 [10000; 7000; 4000] [9000; 6000; 3000] 4 4) = Ok u
  /\ write_validation_tables lin_sol K None u NotOpened = (Table header [row], Ok tt)
  /\ under header row (column Power "47full") (CNum v)
  /\ measured lin_sol K Power H1_full u w /\ v <> w.
Proof.
  destruct (toy_3 AHRI_210_240_2023 10000 7000 4000 9000 6000 3000 4 4)
    as (u & E & Pl & Ft & Lt & It); try lra.
  destruct Pl as (S1 & S2 & S3 & S4 & S5 & S6 & S7 & S8).
  destruct Ft as (TA & TB & T1 & T2 & T3 & T4).
  destruct Lt as (TBl & TFl & T0l & T1l & T2l & T3l). destruct It as (TE & T2i).
  assert (LM : library_model lin_psy lin_sol K)
    by (apply plain_library; right; left; reflexivity).
  assert (A : forall t, In t (tests u) -> forall c, stored t (u_conds u) = Some c ->
              exists a, c_rated_standard_volumetric_airflow c = Some a).
  { intros t I c Sc. destruct (constructed_conditions lin_psy lin_sol K _ u t LM E I)
      as (c' & Sc' & v & q & a & full & p & f & _ & _ & _ & _ & _ & _ & _ & Ea & _).
    assert (c = c') by congruence. subst c'. eauto. }
  assert (I : forall t, t <> A_boost -> In t (tests u)).
  { intros t N. unfold tests. rewrite S1. cbv zeta. rewrite !in_app_iff.
    destruct t; cbn [In]; try tauto. }
  assert (F : exists fn, u_fan u = Some fn).
  { destruct (built_3 AHRI_210_240_2023 (Some 4) None (Some 4) None None
       ltac:(apply good_gross; lra) ltac:(apply good_gross; lra) 10000 7000 4000 9000 6000 3000)
      as (f & p & cr & s & b & t & B & _); try lra.
    unfold toy_args in E. rewrite B in E. apply Ok_inj in E. exists f. rewrite <- E. reflexivity. }
  destruct F as (fn & F).
  assert (Me : forall q l t, In (l, t) heat_points -> exists v, measured lin_sol K q t u v).
  { intros q l t J. unfold heat_points in J.
    repeat (destruct J as [J|J];
      [injection J as <- <-;
       first [eapply steady_measured; [reflexivity|eassumption|apply A, I; discriminate]
             |eapply frost_measured; [reflexivity|eassumption|apply A, I; discriminate]]|]).
    destruct J. }
  destruct TA as (cA & SA & _ & QA & _).
  destruct (A A_full (I A_full ltac:(discriminate)) cA SA) as (aA & EA).
  destruct (table_written lin_sol K None u fn _ 1 cA _ aA NotOpened S1 F S5 S8 Me SA QA EA)
    as (f & W).
  destruct (table_columns lin_sol K None u NotOpened f W)
    as (_ & header & row & -> & Nd & Len & Cols & _).
  exists u, header, row.
  (* the cell exists *)
  assert (V : exists v, under header row (column Power "47full") (CNum v)).
  { pose proof W as W'. apply write_inv in W'. destruct W' as (fn' & d & _ & _ & Fd & Et).
    injection Et as -> ->.
    destruct (entry_cell u _ d "powerConsumption47full"
      (column_entry lin_sol K Power H0_low) Fd) as (c & E1 & K1);
      [unfold heating_entries; repeat first [left; reflexivity | right]|].
    apply column_value in E1. destruct E1 as (v & -> & _). exists v. exact K1. }
  destruct V as (v & V). exists v.
  destruct T1 as (c1 & Sc1 & _ & _ & W1). destruct T0l as (c0 & Sc0 & _ & _ & W0).
  exists (pt_p (at_F 47 9000 (wh 4))).
  split; [exact E|]. split; [exact W|]. split; [exact V|]. split.
  - exists c1. split; [exact Sc1|]. exact W1.
  - pose proof (power_47full lin_sol K None u NotOpened header row v W V) as (c & Sc & P).
    cbn [frost] in P. change (stored H0_low (u_conds u)) with (rc_H0_low (u_conds u)) in Sc.
    assert (c = c0) by congruence. subst c. rewrite W0 in P. apply Ok_inj in P. subst v.
    unfold at_F. cbn [pt_p]. pose proof (wh_bounds 4 ltac:(lra)). intros Z. lra.
Qed.

Lemma validation_example : exists (u v w : dxunit R) f fn,
  u_staging u = VARIABLE_SPEED
  /\ write_validation_tables lin_sol K None u NotOpened = (f, Ok tt)
  /\ u_staging v = TWO_STAGE /\ u_fan v = Some fn
  /\ u_staging w = VARIABLE_SPEED
  /\ write_validation_tables lin_sol K None w NotOpened = (NotOpened, Err AttributeError).
Proof.
  destruct table_example as (u & header & row & v & w & _ & W & _).
  destruct (built_2 AHRI_210_240_2023 (Some 4) None (Some 3) None None
     ltac:(apply good_gross; lra) ltac:(apply good_gross; lra) 10000 7000 9000 6000
     ltac:(lra) ltac:(lra)) as (f & p & cr & s & b & t & B & _).
  exists u, (built TWO_STAGE AHRI_210_240_2023 [10000; 7000] [9000; 6000] (Some 4) None
    (Some 3) None None f p cr s b t), (wu_fan None u), (Table header [row]), f.
  pose proof (table_columns lin_sol K None u NotOpened _ W) as (S & _).
  split; [exact S|]. split; [exact W|]. split; [reflexivity|]. split; [reflexivity|].
  split; [destruct u; exact S|]. destruct u; reflexivity.
Qed.
