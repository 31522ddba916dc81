(** Calls on the units of ToyBuild.v, for the examples beside the theorems. *)
From Coq Require Import Reals QArith Lra Psatz Lia List Bool String.
From Verif.Base Require Import Num Res Tac.
From Verif.Model Require Import Units Util Psychrometrics Conditions Defrost Fan Curves
  Tabular Unit NREL BaseModel Title24 Resnet DXUnit.
From Verif.Spec Require Import FanSpec NrelSpec UnitSpec.
From Verif.Spec Require Import UnitModels.
From Verif.Proofs Require Import UnitsR FanProofs FanProofs3 FanProofs4 NrelProofs MakeCond CopProofs ToyUnit
  Frame StandardProofs UnitProofs UnitProofs2 UnitProofs3 UnitProofs4 ToyBuild.
Import ListNotations.
Local Open Scope R_scope.

Lemma good_gross g : 0 < g -> good_cop (Some g) None.
Proof.
  intros H. split; [|split].
  - intros x E. injection E as <-. exact H.
  - intros x E. discriminate.
  - left. discriminate.
Qed.
Lemma good_both g n : 0 < g -> 0 < n < 20 -> good_cop (Some g) (Some n).
Proof.
  intros H K. split; [|split].
  - intros x E. injection E as <-. exact H.
  - intros x E. injection E as <-. exact K.
  - left. discriminate.
Qed.
Lemma good_net n : 0 < n < 20 -> good_cop None (Some n).
Proof.
  intros K. split; [|split].
  - intros x E. discriminate.
  - intros x E. injection E as <-. exact K.
  - right. discriminate.
Qed.

(** A two-stage and a single-stage unit. *)
Lemma two_stage_example :
  exists u, DXUnit lin_psy lin_sol ConstantDXModel
              (args TWO_STAGE AHRI_210_240_2023 [10000; 7000] [9000; 6000]
                 (Some 4) None (Some 3) None None) = Ok u
    /\ sd_net_cap (u_c u) = [10000; 7000] /\ sd_net_cap (u_h u) = [9000; 6000]
    /\ u_staging u = TWO_STAGE /\ sd_int (u_c u) = 1%nat
    /\ u_standard u = AHRI_210_240_2023.
Proof.
  destruct (built_2 AHRI_210_240_2023 (Some 4) None (Some 3) None None
     ltac:(apply good_gross; lra) ltac:(apply good_gross; lra) 10000 7000 9000 6000
     ltac:(lra) ltac:(lra)) as (f & p & cr & s & b & t & B & _).
  eexists. split; [exact B|]. repeat split.
Qed.

(** * Values at the rating conditions *)
Section Values.
  Variables (sol : solvers R) (u : dxunit R) (m : mode) (qs : list R) (k : nat) (g : R).
  Variables (f : fan R) (all : list R) (i : nat) (q full p : R) (o : option (psych_state R)).
  Hypotheses (S : side_of m u = by_gross m qs k g) (F : u_fan u = Some f)
    (K : f_class f = ConstantEfficacyFan)
    (A : f_airflow f = map (fun q => q * fl) all)
    (D : f_design_efficacy f = EffList (repeat ef (List.length all)))
    (Q : nth_error qs i = Some q) (QA : nth_error all (k + i) = Some q)
    (P : 0 < q) (G : 0 < g).
  Let c := rc m k q full p i o.

  Lemma val_fan : fan_power sol u c = Ok (fanw q).
  Proof.
    unfold fan_power. rewrite F. cbn [need rbind].
    cbn [c c_external_static_pressure c_fan_speed rc flow_cond need rbind].
    rewrite (const_power sol _ f (k + i) (q * fl) _ K A); [reflexivity| |].
    - rewrite map_length. exact D.
    - rewrite nth_error_map, QA. reflexivity.
  Qed.
  Lemma val_cap : constant_capacity m u c = Ok (gcap m q).
  Proof.
    unfold constant_capacity. rewrite S. apply arr_ok. unfold entry.
    cbn [sd_gross_cap by_gross cside]. unfold gross_of. rewrite nth_error_map.
    change (c_speed c) with i. rewrite Q. reflexivity.
  Qed.
  Lemma val_pow : constant_power m u c = Ok (gcap m q / g).
  Proof.
    unfold constant_power, ratio_at. rewrite S. change (c_speed c) with i.
    cbn [sd_gross_cap sd_gross_cop by_gross cside].
    assert (E1 : arr (gross_of m qs) i = Ok (gcap m q)).
    { apply arr_ok. unfold entry, gross_of. rewrite nth_error_map, Q. reflexivity. }
    assert (E2 : arr (map (fun _ : R => Some g) qs) i = Ok g).
    { apply arr_ok. unfold entry. rewrite nth_error_map, Q. reflexivity. }
    rewrite E1. cbn [rbind]. rewrite E2. cbn [rbind]. apply pydiv_ok. lra.
  Qed.
  Lemma val_product raw v : raw u c = Ok v -> product raw unit_factor u c = Ok v.
  Proof.
    intros E. unfold product. rewrite E. cbn [rbind]. unfold unit_factor. cbn [rbind].
    rewrite lit1_R. cbn [nmul RNum]. rewrite Rmult_1_r. reflexivity.
  Qed.
  Lemma val_checked raw v : raw u c = Ok v -> 0 <= v -> checked_product raw unit_factor u c = Ok v.
  Proof.
    intros E V. unfold checked_product. rewrite E. cbn [rbind]. unfold unit_factor. cbn [rbind].
    rewrite lit1_R. cbn [nmul RNum]. rewrite Rmult_1_r. apply limit_check_pos. exact V.
  Qed.
End Values.

Section Cooling.
  Variables (sol : solvers R) (u : dxunit R) (qs : list R) (k : nat) (g : R).
  Variables (f : fan R) (all : list R) (i : nat) (q full p : R) (o : option (psych_state R)).
  Hypotheses (S : u_c u = by_gross Cooling qs k g) (F : u_fan u = Some f)
    (K : f_class f = ConstantEfficacyFan)
    (A : f_airflow f = map (fun q => q * fl) all)
    (D : f_design_efficacy f = EffList (repeat ef (List.length all)))
    (Q : nth_error qs i = Some q) (QA : nth_error all (k + i) = Some q)
    (P : 0 < q) (G : 0 < g).
  Let c := rc Cooling k q full p i o.

  Lemma cooling_vals :
    gross_total_cooling_capacity ConstantDXModel u (Some c) = Ok (q + fanw q)
    /\ gross_sensible_cooling_capacity ConstantDXModel u (Some c) = Ok ((q + fanw q) * 0.7)
    /\ gross_cooling_power ConstantDXModel u (Some c) = Ok ((q + fanw q) / g)
    /\ cooling_fan_power sol u (Some c) = Ok (fanw q)
    /\ net_total_cooling_capacity sol ConstantDXModel u (Some c) = Ok q
    /\ net_cooling_power sol ConstantDXModel u (Some c) = Ok ((q + fanw q) / g + fanw q).
  Proof.
    pose proof (fanw_pos q P) as W.
    pose proof (gcap_pos Cooling q P) as GP.
    assert (E : gcap Cooling q = q + fanw q) by reflexivity.
    assert (DP : 0 < gcap Cooling q / g) by (apply Rdiv_lt_0_compat; lra).
    assert (H1 : checked_product (constant_capacity Cooling) unit_factor u c = Ok (gcap Cooling q)).
    { apply val_checked; [|lra]. eapply val_cap; eauto. }
    assert (H2 : gross_total_cooling_capacity ConstantDXModel u (Some c) = Ok (q + fanw q)) by exact H1.
    assert (H3 : gross_sensible_cooling_capacity ConstantDXModel u (Some c)
                 = Ok ((q + fanw q) * 0.7)).
    { unfold gross_sensible_cooling_capacity. cbn [cooling_conditions rbind].
      change (md_gsc ConstantDXModel u c) with
        (let! q := checked_product (constant_capacity Cooling) unit_factor u c in Ok (nmul q (lit 0.7))).
      rewrite H1. cbn [rbind nmul RNum]. rewrite E.
      replace (lit (T:=R) 0.7) with 0.7 by (rnum; lra). apply limit_check_pos. lra. }
    assert (H4 : gross_cooling_power ConstantDXModel u (Some c) = Ok ((q + fanw q) / g)).
    { unfold gross_cooling_power. cbn [cooling_conditions rbind]. apply val_checked.
      - eapply val_pow; eauto.
      - rewrite <- E. lra. }
    assert (H5 : cooling_fan_power sol u (Some c) = Ok (fanw q)).
    { unfold cooling_fan_power. cbn [cooling_conditions rbind].
      eapply val_fan; eauto. }
    destruct (net_cooling_values sol ConstantDXModel u (Some c) _ _ _ _ H2 H3 H4 H5)
      as (_ & _ & _ & N1 & _ & N2 & _).
    repeat split; auto. rewrite N1. f_equal. lra.
  Qed.
End Cooling.

Section Heating.
  Variables (sol : solvers R) (u : dxunit R) (qs : list R) (k : nat) (g : R).
  Variables (f : fan R) (all : list R) (i : nat) (q full p : R) (o : option (psych_state R)).
  Hypotheses (S : u_h u = by_gross Heating qs k g) (F : u_fan u = Some f)
    (K : f_class f = ConstantEfficacyFan)
    (A : f_airflow f = map (fun q => q * fl) all)
    (D : f_design_efficacy f = EffList (repeat ef (List.length all)))
    (Q : nth_error qs i = Some q) (QA : nth_error all (k + i) = Some q)
    (P : 0 < q) (G : 0 < g).
  Let c := rc Heating k q full p i o.

  Lemma heating_vals :
    gross_steady_state_heating_capacity ConstantDXModel u (Some c) = Ok (q - fanw q)
    /\ net_steady_state_heating_capacity sol ConstantDXModel u (Some c) = Ok q
    /\ net_steady_state_heating_power sol ConstantDXModel u (Some c)
       = Ok ((q - fanw q) / g + fanw q)
    /\ net_integrated_heating_capacity sol ConstantDXModel u (Some c) = Ok q
    /\ net_integrated_heating_power sol ConstantDXModel u (Some c)
       = Ok ((q - fanw q) / g + fanw q).
  Proof.
    assert (H1 : product (constant_capacity Heating) unit_factor u c = Ok (q - fanw q)).
    { apply val_product. eapply val_cap; eauto. }
    assert (H2 : product (constant_power Heating) unit_factor u c = Ok ((q - fanw q) / g)).
    { apply val_product. eapply val_pow; eauto. }
    assert (H5 : heating_fan_power sol u (Some c) = Ok (fanw q)).
    { unfold heating_fan_power. cbn [heating_conditions rbind]. eapply val_fan; eauto. }
    destruct (net_heating_values sol ConstantDXModel u (Some c) _ _ _ _ _ H1 H2 H1 H2 H5)
      as (N1 & N2 & N3 & N4 & _).
    split; [exact H1|]. rewrite N1, N2, N3, N4.
    replace (q - fanw q + fanw q) with q by lra. auto.
  Qed.
End Heating.

(** The net capacity at the rating conditions is the rated net capacity. *)
Lemma single_stage_example :
  exists u w, DXUnit lin_psy lin_sol ConstantDXModel
              (args SINGLE_STAGE AHRI_210_240_2023 [10000] [9000]
                 (Some 4) None (Some 3) None None) = Ok u
    /\ 0 < w
    /\ gross_total_cooling_capacity ConstantDXModel u None = Ok (10000 + w)
    /\ gross_sensible_cooling_capacity ConstantDXModel u None = Ok ((10000 + w) * 0.7)
    /\ gross_cooling_power ConstantDXModel u None = Ok ((10000 + w) / 4)
    /\ cooling_fan_power lin_sol u None = Ok w
    /\ net_total_cooling_capacity lin_sol ConstantDXModel u None = Ok 10000
    /\ (exists v, gross_steady_state_heating_capacity ConstantDXModel u None = Ok v)
    /\ net_steady_state_heating_capacity lin_sol ConstantDXModel u None = Ok 9000.
Proof.
  destruct (built_1 AHRI_210_240_2023 (Some 4) None (Some 3) None None
     ltac:(apply good_gross; lra) ltac:(apply good_gross; lra) 10000 9000
     ltac:(lra) ltac:(lra)) as (f & p & cr & s & b & t & B & K & A & D & E).
  pose proof (fanw_pos 10000 ltac:(lra)) as W.
  eexists. exists (fanw 10000). split; [exact B|]. split; [exact W|].
  set (u := built _ _ _ _ _ _ _ _ _ _ _ _ _ _ _).
  destruct (cooling_vals lin_sol u [10000] 0 4 f [10000; 9000] 0 10000 10000 p None eq_refl
     eq_refl K A D eq_refl eq_refl ltac:(lra) ltac:(lra)) as (H1 & H2 & H3 & H4 & H5 & _).
  destruct (heating_vals lin_sol u [9000] 1 3 f [10000; 9000] 0 9000 9000 p None eq_refl
     eq_refl K A D eq_refl eq_refl ltac:(lra)) as (H6 & H7 & _).
  repeat split; auto. eexists. exact H6.
Qed.

(** A supplied heating-on temperature makes HSPF fail. *)
Lemma heating_on_example :
  exists u, DXUnit lin_psy lin_sol ConstantDXModel
              (args SINGLE_STAGE AHRI_210_240_2023 [10000] [9000]
                 (Some 4) None (Some 3) None (Some 275)) = Ok u
    /\ u_heating_off u < deg_F 62
    /\ exists c1 c3 pw, rc_H1_full (u_conds u) = Some c1 /\ rc_H3_full (u_conds u) = Some c3
       /\ net_steady_state_heating_capacity lin_sol ConstantDXModel u (Some c1) = Ok 9000
       /\ net_steady_state_heating_power lin_sol ConstantDXModel u (Some c1) = Ok pw
       /\ net_steady_state_heating_capacity lin_sol ConstantDXModel u (Some c3) = Ok 9000
       /\ net_steady_state_heating_power lin_sol ConstantDXModel u (Some c3) = Ok pw
       /\ 1 <= line (ps_db (c_outdoor c3)) 9000 (ps_db (c_outdoor c1)) 9000 (deg_F 62)
               / line (ps_db (c_outdoor c3)) pw (ps_db (c_outdoor c1)) pw (deg_F 62).
Proof.
  destruct (built_1 AHRI_210_240_2023 (Some 4) None (Some 3) None (Some 275)
     ltac:(apply good_gross; lra) ltac:(apply good_gross; lra) 10000 9000
     ltac:(lra) ltac:(lra)) as (f & p & cr & s & b & t & B & K & A & D & E).
  eexists. split; [exact B|].
  set (u := built _ _ _ _ _ _ _ _ _ _ _ _ _ _ _).
  split.
  { change (u_heating_off u) with (fr_F (T:=R) (lit 0)). rewrite fr_F_deg, lit0_R.
    unfold deg_F. lra. }
  destruct (heating_vals lin_sol u [9000] 1 3 f [10000; 9000] 0 9000 9000 p None eq_refl
     eq_refl K A D eq_refl eq_refl ltac:(lra)) as (_ & H1 & H2 & _).
  destruct (heating_vals lin_sol u [9000] 1 3 f [10000; 9000] 0 9000 9000 p t17 eq_refl
     eq_refl K A D eq_refl eq_refl ltac:(lra)) as (_ & H3 & H4 & _).
  exists (rc Heating 1 9000 9000 p 0 None), (rc Heating 1 9000 9000 p 0 t17),
    ((9000 - fanw 9000) / 3 + fanw 9000).
  split; [reflexivity|]. split; [reflexivity|]. repeat (split; [assumption|]).
  assert (L : forall x0 x1 y x, line x0 y x1 y x = y).
  { intros. unfold line. unfold Rdiv. replace (y - y) with 0 by lra. rewrite !Rmult_0_l. lra. }
  rewrite !L. pose proof kfan as [K1 K2]. unfold fanw. rewrite Rmult_assoc.
  set (k := fl * ef) in *.
  apply (Rmult_le_reg_r ((9000 - 9000 * k) / 3 + 9000 * k)); [lra|].
  replace (9000 / ((9000 - 9000 * k) / 3 + 9000 * k) * ((9000 - 9000 * k) / 3 + 9000 * k))
    with 9000 by (field; apply Rgt_not_eq; lra). lra.
Qed.

(** A supplied net COP is overwritten by the gross one, and kept without it. *)
Lemma net_cop_example :
  exists u v, DXUnit lin_psy lin_sol ConstantDXModel
              (args SINGLE_STAGE AHRI_210_240_2023 [10000] [9000]
                 (Some 4) (Some 5) (Some 3) None None) = Ok u
    /\ sd_net_cop (u_c u) = [Some v] /\ v < 4
    /\ exists u', DXUnit lin_psy lin_sol ConstantDXModel
              (args SINGLE_STAGE AHRI_210_240_2023 [10000] [9000]
                 None (Some 5) (Some 3) None None) = Ok u'
       /\ sd_net_cop (u_c u') = [Some 5].
Proof.
  destruct (built_1 AHRI_210_240_2023 (Some 4) (Some 5) (Some 3) None None
     ltac:(apply good_both; lra) ltac:(apply good_gross; lra) 10000 9000
     ltac:(lra) ltac:(lra)) as (f & p & cr & s & b & t & B & _).
  destruct (built_1 AHRI_210_240_2023 None (Some 5) (Some 3) None None
     ltac:(apply good_net; lra) ltac:(apply good_gross; lra) 10000 9000
     ltac:(lra) ltac:(lra)) as (f' & p' & cr' & s' & b' & t' & B' & _).
  eexists. eexists. split; [exact B|]. split; [reflexivity|]. split.
  - cbn [gcap]. pose proof kfan as [K1 K2]. unfold fanw. rewrite !Rmult_assoc.
    set (k := fl * ef) in *.
    apply (Rmult_lt_reg_r ((10000 + 10000 * k) / 4 + 10000 * k)); [lra|].
    replace (10000 / ((10000 + 10000 * k) / 4 + 10000 * k)
             * ((10000 + 10000 * k) / 4 + 10000 * k)) with 10000 by (field; apply Rgt_not_eq; lra). lra.
  - eexists. split; [exact B'|]. reflexivity.
Qed.

(** * reset_rated_flow_rates on a two-stage unit *)

Lemma new_speed_ok m k q full p i o n air :
  q <> 0 -> exists c', set_new_fan_speed lin_psy n air (rc m k q full p i o) = (c', Ok tt).
Proof.
  intros Q. pose proof fl_pos as L. unfold rc.
  assert (Hr : rho_of lin_psy (default_indoor m) = Ok 1.2) by (destruct m; reflexivity).
  assert (Hs : std_rho lin_psy = Ok 1.2) by reflexivity.
  assert (H1 : 1.2 <> 0) by (apply Rgt_not_eq; lra).
  assert (H2 : q * fl * 1.2 <> 0).
  { apply Rmult_integral_contrapositive_currified; [|assumption].
    apply Rmult_integral_contrapositive_currified; [assumption|apply Rgt_not_eq; lra]. }
  cond_go. eexists. reflexivity.
Qed.

Lemma cond_speed_run get set n air (u : dxunit R) m k q full p i o :
  get (u_conds u) = Some (rc m k q full p i o) -> q <> 0 ->
  exists c', cond_fan_speed lin_psy get set n air u
    = (wu_conds (set (Some c') (u_conds u)) u, Ok tt).
Proof.
  intros G Q. destruct (new_speed_ok m k q full p i o n air Q) as (c' & E).
  exists c'. unfold cond_fan_speed, sbind, sread, rating. rewrite G. cbn [need]. rewrite E.
  reflexivity.
Qed.

Lemma const_add_total (f : fan R) l a0 air e :
  f_class f = ConstantEfficacyFan -> f_design_efficacy f = EffList l ->
  nth_error (f_airflow f) 0 = Some a0 -> a0 <> 0 ->
  exists f', add_speed air (Some e) f = (f', Ok tt)
    /\ f_class f' = ConstantEfficacyFan /\ f_design_efficacy f' = EffList (l ++ [e])
    /\ nth_error (f_airflow f') 0 = Some a0.
Proof.
  intros K E A Z.
  assert (B : geti (f_airflow f ++ [air]) 0 = Ok a0).
  { apply geti_ok. destruct (f_airflow f); [discriminate|exact A]. }
  exists (w_eff (EffList (l ++ [e]))
    (w_base (S (f_n f)) (f_airflow f ++ [air]) (f_ratio f ++ [air / a0]) f)).
  split.
  { unfold add_speed. apply sbind_ok. exists f, f. split; [reflexivity|]. rewrite K.
    unfold const_add_speed. apply sbind_ok. eexists. exists tt.
    split; [apply (base_add_total f air a0 B Z)|].
    apply sbind_ok. eexists. eexists. split; [reflexivity|].
    cbn [f_design_efficacy w_base]. rewrite E. reflexivity. }
  cbn [w_eff w_base f_class f_design_efficacy f_airflow].
  split; [exact K|]. split; [reflexivity|]. apply geti_ok. exact B.
Qed.

Lemma sbind_err {S A B} (m : st S A) (k : A -> st S B) s s1 x e :
  m s = (s1, Ok x) -> snd (k x s1) = Err e -> snd (sbind m k s) = Err e.
Proof. intros H1 H2. unfold sbind. rewrite H1. exact H2. Qed.

Lemma two_stage_reset_example :
  exists u, DXUnit lin_psy lin_sol ConstantDXModel
              (args TWO_STAGE AHRI_210_240_2023 [10000; 7000] [9000; 6000]
                 (Some 4) None (Some 3) None None) = Ok u
    /\ ex (reset_rated_flow_rates lin_psy (Scalar 0.00005) (Scalar 0.00005)) u = Err AttributeError.
Proof.
  destruct (built_2 AHRI_210_240_2023 (Some 4) None (Some 3) None None
     ltac:(apply good_gross; lra) ltac:(apply good_gross; lra) 10000 7000 9000 6000
     ltac:(lra) ltac:(lra)) as (f & p & cr & s & b & t & B & K & A & D & E).
  eexists. split; [exact B|].
  set (u := built _ _ _ _ _ _ _ _ _ _ _ _ _ _ _). pose proof fl_pos as L.
  assert (A0 : nth_error (f_airflow f) 0 = Some (10000 * fl)) by (rewrite A; reflexivity).
  assert (Z : 10000 * fl <> 0) by (apply Rgt_not_eq; lra).
  set (full := 10000 * 0.00005).
  assert (FZ : full <> 0) by (unfold full; apply Rgt_not_eq; lra).
  assert (P : forall v a, u_full_esp v = Some p ->
     exists e, calculate_rated_pressure v a full = Ok e).
  { intros v a H. unfold calculate_rated_pressure. rewrite H. cbn [need rbind].
    rewrite pydiv_ok by exact FZ. cbn [rbind]. eauto. }
  destruct (const_add_total f _ (10000 * fl) full (p * ((full / full) * (full / full))) K D A0 Z)
    as (f1 & F1 & K1 & D1 & A1).
  set (u1 := wu_fan (Some f1) u).
  set (n1 := Nat.pred (f_n f1)).
  destruct (cond_speed_run rc_A_full wc_A_full n1 full u1 Cooling 0 10000 10000 p 0 None eq_refl
    ltac:(apply Rgt_not_eq; lra)) as (c1 & R1).
  set (u2 := wu_conds (wc_A_full (Some c1) (u_conds u1)) u1) in *.
  destruct (cond_speed_run rc_B_full wc_B_full n1 full u2 Cooling 0 10000 10000 p 0 t82 eq_refl
    ltac:(apply Rgt_not_eq; lra)) as (c2 & R2).
  set (u3 := wu_conds (wc_B_full (Some c2) (u_conds u2)) u2) in *.
  set (air2 := 7000 * 0.00005).
  destruct (const_add_total f1 _ (10000 * fl) air2 (p * ((air2 / full) * (air2 / full))) K1 D1 A1 Z)
    as (f2 & F2 & K2 & D2 & A2).
  unfold ex.
  assert (SE : snd (reset_rated_flow_rates lin_psy (Scalar 0.00005) (Scalar 0.00005) u)
               = Err AttributeError).
  2:{ destruct (reset_rated_flow_rates _ _ _ u) as [w r]. simpl in SE. subst r. reflexivity. }
  unfold reset_rated_flow_rates.
  match goal with |- snd (sbind ?m _ u) = _ =>
    enough (Q : snd (m u) = Err AttributeError)
      by (unfold sbind; destruct (m u) as [w [?|?]]; simpl in *; congruence) end.
  unfold reset_side_flow.
  apply (sbind_err _ _ u u u); [reflexivity|]. cbv zeta.
  apply (sbind_err _ _ u u full).
  { apply slift_ok. split; reflexivity. }
  change (repeat 0.00005 (sd_n (side_of Cooling u))) with [0.00005; 0.00005].
  change (enumerate [0.00005; 0.00005]) with [(0%nat, 0.00005); (1%nat, 0.00005)].
  cbn [sfold].
  apply (sbind_err _ _ u u3 tt).
  { apply sbind_ok. exists u, u. split; [reflexivity|].
    apply sbind_ok. exists u, 10000. split; [reflexivity|]. cbv zeta.
    change (nmul 10000 (snd (0%nat, 0.00005))) with full.
    apply sbind_ok. exists u, (p * ((full / full) * (full / full))). split.
    { apply slift_ok. split; [reflexivity|]. unfold calculate_rated_pressure.
      change (u_full_esp u) with (Some p). cbn [need rbind]. rewrite pydiv_ok by exact FZ.
      reflexivity. }
    apply sbind_ok. exists u1, tt. split.
    { unfold on_fan. change (u_fan u) with (Some f). cbv beta iota. rewrite F1. reflexivity. }
    apply sbind_ok. exists u1, n1. split; [reflexivity|].
    unfold update_conditions. apply sbind_ok. exists u1, u1. split; [reflexivity|]. cbv zeta.
    change (sd_full (side_of Cooling u1)) with 0%nat.
    change (sd_int (side_of Cooling u1)) with 1%nat.
    change (sd_low (side_of Cooling u1)) with (Some 1%nat).
    cbn [fst Nat.eqb when is_speed].
    apply sbind_ok. exists u3, tt. split.
    { apply sbind_ok. exists u2, tt. split; [exact R1|exact R2]. }
    apply sbind_ok. exists u3, tt. split; reflexivity. }
  match goal with |- snd (sbind ?m _ u3) = _ =>
    enough (Q : snd (m u3) = Err AttributeError)
      by (unfold sbind at 1; destruct (m u3) as [w [?|?]]; simpl in *; congruence) end.
  apply (sbind_err _ _ u3 u3 u3); [reflexivity|].
  apply (sbind_err _ _ u3 u3 7000); [reflexivity|]. cbv zeta.
  change (nmul 7000 (snd (1%nat, 0.00005))) with air2.
  apply (sbind_err _ _ u3 u3 (p * ((air2 / full) * (air2 / full)))).
  { apply slift_ok. split; [reflexivity|]. unfold calculate_rated_pressure.
    change (u_full_esp u3) with (Some p). cbn [need rbind]. rewrite pydiv_ok by exact FZ.
    reflexivity. }
  apply (sbind_err _ _ u3 (wu_fan (Some f2) u3) tt).
  { unfold on_fan. change (u_fan u3) with (Some f1). cbv beta iota. rewrite F2. reflexivity. }
  apply (sbind_err _ _ _ (wu_fan (Some f2) u3) (Nat.pred (f_n f2))); [reflexivity|].
  reflexivity.
Qed.

(** * Rating standards *)
Lemma standard_example :
  exists u u1, DXUnit lin_psy lin_sol ConstantDXModel
              (args TWO_STAGE AHRI_210_240_2023 [10000; 7000] [9000; 6000]
                 (Some 4) None (Some 3) None None) = Ok u
    /\ after_standards lin_psy [AHRI_210_240_2017] u = u1
    /\ u_standard u1 = AHRI_210_240_2017 /\ u_full_esp u1 <> u_full_esp u
    /\ ex (set_rating_standard lin_psy AHRI_210_240_2023) u1 = Ok u.
Proof.
  destruct (built_2 AHRI_210_240_2023 (Some 4) None (Some 3) None None
     ltac:(apply good_gross; lra) ltac:(apply good_gross; lra) 10000 7000 9000 6000
     ltac:(lra) ltac:(lra)) as (f & p & cr & s & b & t & B & K & A & D & E).
  eexists. eexists. split; [exact B|]. split; [reflexivity|].
  set (u := built _ _ _ _ _ _ _ _ _ _ _ _ _ _ _).
  unfold after_standards. cbn [fold_left].
  assert (P17 : get_rated_full_flow_rated_pressure (wu_standard AHRI_210_240_2017 u)
                = Ok (esp_2017 10000)).
  { apply full_pressure_2017; reflexivity. }
  rewrite set_rating_standard_eq, P17. cbv zeta. cbn [fst u_standard u_full_esp wu_conds wu_full_esp].
  split; [reflexivity|]. split.
  - change (u_full_esp u) with (Some p). cbn [full_esp hd] in E. apply Ok_inj in E. subst p.
    intros Q. assert (Q' : esp_2017 10000 = fr_inH2O (T:=R) (lit 0.5)) by congruence.
    clear Q. revert Q'. rewrite inH2O_R. unfold esp_2017, in_H2O, Btu_h.
    repeat destruct (Rle_dec _ _); rnum; lra.
  - pose proof (constructed_restored lin_psy lin_sol ConstantDXModel) as R1.
    assert (LM : library_model lin_psy lin_sol ConstantDXModel)
      by (apply plain_library; right; left; reflexivity).
    specialize (R1 LM _ u [AHRI_210_240_2017] B).
    unfold after_standards in R1. cbn [fold_left] in R1.
    change (u_standard u) with AHRI_210_240_2023 in R1.
    rewrite set_rating_standard_eq, P17 in R1. exact R1.
Qed.

(** * Bypass factor *)
Lemma bypass_example :
  exists (c : cond R) u u' bf, c_mass_airflow c <> None
    /\ calculate_rated_bypass_factor lin_psy lin_sol ConstantDXModel c u = (u', Ok tt)
    /\ entry (u_bf u') (c_speed c) bf /\ 0 < bf < 1.
Proof.
  destruct (fan_any 10000 [9000] ltac:(lra)) as (f & _).
  set (v := uD AHRI_210_240_2023 None None f 0 SINGLE_STAGE [10000] [9000] 100).
  destruct (coil_run v [10000] _ _ _ _ 100 0 10000 10000 rc_A_full [None] [None] [None] eq_refl
      eq_refl eq_refl ltac:(lra) eq_refl eq_refl eq_refl)
    as (s1 & b1 & n1 & _ & _ & _ & (bf & E1 & E2) & R1).
  unfold set_sensible_at in R1.
  apply sbind_ok in R1. destruct R1 as (w1 & c & X1 & R1).
  apply sread_ok in X1. destruct X1 as [-> X1].
  apply (f_equal (fun r => match r with Ok x => x | Err _ => c end)) in X1. cbv beta iota in X1.
  assert (Hc : c = rc Cooling 0 10000 10000 100 0 None) by (rewrite <- X1; reflexivity).
  apply sbind_ok in R1. destruct R1 as (w2 & y2 & _ & R1).
  apply sbind_ok in R1. destruct R1 as (w3 & y3 & _ & R1).
  apply sbind_ok in R1. destruct R1 as (w4 & y4 & _ & R1).
  apply sbind_ok in R1. destruct R1 as (w5 & y5 & _ & R1).
  apply sbind_ok in R1. destruct R1 as (w6 & y6 & _ & R1).
  exists c, w6, (coil_data s1 b1 n1 v), bf. subst c. split; [discriminate|].
  split; [exact R1|]. split; [exact E1|exact E2].
Qed.

(** * COP setters *)
Lemma cop_example : exists (u u1 : dxunit R) (x : R),
  caps_nonzero (u_c u)
  /\ base_set_gross_cop Cooling (Scalar 4) u = (u1, Ok tt)
  /\ sd_net_cop (u_c u1) = [Some x] /\ 0 < x
  /\ sd_gross_cop (u_c u1) = [Some 4]
  /\ base_set_net_cop Cooling (Scalar x) u = (u1, Ok tt)
  /\ nrel_set_gross_cop Cooling (Many [4]) u = (u1, Ok tt)
  /\ nrel_set_net_cop Cooling (Many [x]) u = (u1, Ok tt).
Proof.
  pose (u := wu_side Cooling (cside [10000] 0 (gross_of Cooling [10000]) [] [] [] [])
               (toy_unit 0 (toy_defrost DCTimed DSReverseCycle))).
  assert (P : forall q, In q [10000] -> 0 < q) by (intros q [<-|[]]; lra).
  assert (G : base_set_gross_cop Cooling (Scalar 4) u
              = (wu_side Cooling (by_gross Cooling [10000] 0 4) u, Ok tt)).
  { apply (gross_phase Cooling u [10000] 0 [] [] [] [] 4); [reflexivity|exact P|lra]. }
  assert (C : caps_nonzero (side_of Cooling u)).
  { pose proof (gcap_pos Cooling 10000 ltac:(lra)) as K. split; intros i q H.
    - destruct i as [|[|i]]; cbn in H; try discriminate.
      injection H as <-. apply Rgt_not_eq. lra.
    - assert (E : sd_gross_cap (side_of Cooling u) = [Some (gcap Cooling 10000)]) by reflexivity.
      rewrite E in H. destruct i as [|[|i]]; cbn [nth_error] in H; try discriminate.
      assert (E2 : q = gcap Cooling 10000) by congruence. rewrite E2. apply Rgt_not_eq. lra. }
  assert (N : sd_net_cop (side_of Cooling (wu_side Cooling (by_gross Cooling [10000] 0 4) u))
              = [Some (10000 / (gcap Cooling 10000 / 4 + fanw 10000))]) by reflexivity.
  assert (B : base_set_net_cop Cooling (Scalar (10000 / (gcap Cooling 10000 / 4 + fanw 10000))) u
              = (wu_side Cooling (by_gross Cooling [10000] 0 4) u, Ok tt)).
  { apply (base_gross_then_net Cooling _ 4 u _ C G). intros i y H. rewrite N in H.
    destruct i as [|[|i]]; cbn [nth_error] in H; congruence. }
  exists u, (wu_side Cooling (by_gross Cooling [10000] 0 4) u),
    (10000 / (gcap Cooling 10000 / 4 + fanw 10000)).
  split; [exact C|]. split; [exact G|]. split; [exact N|]. split.
  { apply Rdiv_lt_0_compat; [lra|].
    pose proof (gcap_pos Cooling 10000 ltac:(lra)). pose proof (fanw_pos 10000 ltac:(lra)). lra. }
  split; [reflexivity|]. split; [exact B|]. split; [exact G|exact B].
Qed.
