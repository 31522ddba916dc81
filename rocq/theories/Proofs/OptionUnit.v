(** C90, C91: the optional ratings of a constructed unit. *)
From Coq Require Import Reals QArith Lra Lia List Bool String ZArith.
From Verif.Base Require Import Num Res Tac.
From Verif.Model Require Import Units Util Psychrometrics Conditions Defrost Fan Curves Tabular Unit NREL BaseModel
  Title24 Resnet DXUnit RatingSolver.
From Verif.Spec Require Import TabularSpec NrelSpec ModelSpec UnitSpec UnitModels RatedSpec TestSpec ReportSpec SettingsSpec OptionSpec.
From Verif.Proofs Require Import UtilProofs UnitsR FanProofs MakeCond Frame UnitProofs UnitProofs2
  UnitProofs4 RatedTable RatedValues RatedEer TestProofs Layout SettingsProofs RatingProofs OptionProofs.
Import ListNotations.
Local Open Scope R_scope.

Section OptionUnit.
  Variable psy : psychro R.
  Variable sol : solvers R.
  Notation U := (dxunit R).
  Notation M := (RESNETDXModel psy sol).

  (** The table value of a test is the unit's value at the test's condition. *)
  Lemma test_values a (u : U) net t i k :
    DXUnit psy sol M a = Ok u -> a_fan a = None -> a_charge a = 0 -> rn_net (u_rn u) = Some net ->
    get_kwarg_value "tabular_data" (a_kwargs a) = KNone ->
    In t (tests u) -> test_speed t u = Some i -> In (i, k) (table_columns (u_staging u)) ->
    (k <= table_speeds (test_mode t) net)%nat ->
    exists c, stored t (u_conds u) = Some c
      /\ (fan_at_rated_pressure u (test_mode t) c ->
          (forall q v, table_capacity (test_mode t) net (INR k) (fr_F (fst (outdoor_air t))) = Ok q ->
             net_capacity sol M (test_mode t) u (Some c) = Ok v -> v = q)
          /\ (forall x v, table_cop (test_mode t) net (INR k) (fr_F (fst (outdoor_air t))) = Ok x ->
             net_cop sol M (test_mode t) u (Some c) = Ok v -> v = x)).
  Proof.
    intros D Fa Ch N Tab It Sp C L.
    assert (LM : library_model psy sol M) by (unfold library_model; simpl; tauto).
    assert (Hp : forall p, get_kwarg_value "tabular_data" (a_kwargs a) = KTable p -> interpolators_set p)
      by (intros p X; congruence).
    destruct (stored_condition psy sol M a u t LM D It) as (s & c & S1 & S2 & Mk).
    assert (s = i) by congruence. subst s. exists c. split; [exact S2|]. intros Mot.
    assert (O : ps_db (c_outdoor c) = fr_F (fst (outdoor_air t))).
    { destruct (make_condition_facts _ _ _ _ _ _ _ Mk) as (_ & _ & _ & O). rewrite O.
      destruct (test_air t) as ((E & _) & _). rewrite fr_F_deg. exact E. }
    destruct (make_condition_facts _ _ _ _ _ _ _ Mk) as (Sc & _).
    pose proof Mot as Mot'. unfold fan_at_rated_pressure in Mot'. rewrite Sc in Mot'.
    rewrite <- O. split.
    - exact (proj1 (rated_exact_each psy sol a u net _ i k _ c D Fa Ch N Hp C L Mot' Mk)).
    - intros x v X V. exact (rated_cop psy sol a u net _ i k _ c x v D Fa Ch N Hp C L Mk Mot X V).
  Qed.

  Lemma some_capacity_17 a (u0 : U) st h : init_unit M a = Ok u0 -> exists q17, capacity_17 a st h q17.
  Proof.
    intros I. destruct (init_options psy sol _ _ I) as (_ & O & _ & _). unfold capacity_17, option_given.
    destruct (get_kwarg_value "rated_net_heating_capacity_17" (a_kwargs a)) as [|x|p|b|y|] eqn:E; cbn [kw_num] in O; try discriminate.
    - eexists. right. split; reflexivity.
    - exists x. left. reflexivity.
  Qed.

  (** The facts about the tables, for the constructed unit. *)
  Lemma unit_options a (u : U) q h q17 :
    DXUnit psy sol M a = Ok u -> rated_unit a (u_staging u) q h ->
    (u_staging u = VARIABLE_SPEED -> u_heating_off u < fr_F 5) ->
    capacity_17 a (u_staging u) h q17 ->
    exists net k, rn_net (u_rn u) = Some net
      /\ sd_full (u_h u) = full_speed (u_staging u)
      /\ In (full_speed (u_staging u), k) (table_columns (u_staging u))
      /\ (k <= table_speeds Heating net)%nat
      /\ heating_capacity net (INR k) (fr_F 17) = Ok q17
      /\ (forall x, u_staging u <> SINGLE_STAGE -> option_given a "rated_net_total_cooling_cop_82_min" x ->
           (forall r, option_given a "min_net_total_cooling_capacity_ratio_95" r -> r <> 0) ->
           cooling_cop net 1 (fr_F 82) = Ok x)
      /\ (forall r, u_staging u = VARIABLE_SPEED -> option_given a "min_net_total_cooling_capacity_ratio_95" r ->
           exists q1 q3, cooling_capacity net 1 (fr_F 95) = Ok q1 /\ cooling_capacity net 3 (fr_F 95) = Ok q3
             /\ q1 = r * q3)
      /\ (1 <= table_speeds Cooling net)%nat /\ (u_staging u = VARIABLE_SPEED -> (3 <= table_speeds Cooling net)%nat).
  Proof.
    intros D (Qc & Nq & Nh & Qh & Fa & Ch & Tab) Off C17.
    assert (LM : library_model psy sol M) by (unfold library_model; simpl; tauto).
    assert (Hp : forall p, get_kwarg_value "tabular_data" (a_kwargs a) = KTable p -> interpolators_set p)
      by (intros p X; congruence).
    destruct (net_exists psy sol a u D) as (net & N); [intros l X; rewrite X in Qh; exact Qh|].
    destruct (built psy sol a u net D N Hp) as (_ & _ & _ & _ & _ & (F1 & F2) & B).
    destruct (B Tab) as (u0 & I & TB). clear B.
    destruct (constructed_config psy sol M LM a u D) as (u0' & I' & K).
    assert (u0' = u0) by congruence. subst u0'. unfold config in K.
    assert (K3 : u_heating_off u = u_heating_off u0) by congruence. rewrite K3 in Off. clear K K3.
    destruct (built_options psy sol _ _ _ _ _ _ _ _ _ I TB Qc (heating_R _ _ _ _ Qh) Nq Nh Off C17)
      as (k & G). exists net, k. split; [exact N|]. split; [exact F2|]. exact G.
  Qed.

  Theorem capacity_17_met a (u : U) q h q17 :
    DXUnit psy sol M a = Ok u -> rated_unit a (u_staging u) q h ->
    (u_staging u = VARIABLE_SPEED -> u_heating_off u < fr_F 5) ->
    capacity_17 a (u_staging u) h q17 ->
    exists c, rc_H3_full (u_conds u) = Some c
      /\ (fan_at_rated_pressure u Heating c ->
          forall v, net_steady_state_heating_capacity sol M u (Some c) = Ok v -> v = q17).
  Proof.
    intros D Ru Off C17. destruct (unit_options a u q h q17 D Ru Off C17) as (net & k & N & F2 & C & L & T & _).
    destruct Ru as (Qc & Nq & Nh & Qh & Fa & Ch & Tab).
    destruct (test_values a u net H3_full (full_speed (u_staging u)) k D Fa Ch N Tab) as (c & S & G);
      [cbn; auto 10|cbn [test_speed test_mode side_of]; congruence|exact C|exact L|].
    exists c. split; [exact S|]. intros Mot v V. exact (proj1 (G Mot) q17 v T V).
  Qed.

  Lemma low_speed a (u : U) : DXUnit psy sol M a = Ok u -> plain_speeds a ->
    match u_staging u with
    | SINGLE_STAGE => True
    | TWO_STAGE => sd_low (u_c u) = Some 1%nat
    | VARIABLE_SPEED => sd_low (u_c u) = Some 3%nat /\ sd_boost (u_c u) = Some 0%nat
    end.
  Proof.
    intros D P. destruct (resnet_layout psy sol a u D P Cooling) as ((_ & L & _ & B & _) & N & F).
    cbn [side_of] in *. rewrite N in L. rewrite F in B. destruct (u_staging u); cbn in *; auto.
  Qed.

  Theorem low_cop_met a (u : U) q h x :
    DXUnit psy sol M a = Ok u -> rated_unit a (u_staging u) q h -> plain_speeds a ->
    (u_staging u = VARIABLE_SPEED -> u_heating_off u < fr_F 5) ->
    u_staging u <> SINGLE_STAGE -> option_given a "rated_net_total_cooling_cop_82_min" x ->
    (forall r, option_given a "min_net_total_cooling_capacity_ratio_95" r -> r <> 0) ->
    exists c, rc_B_low (u_conds u) = Some c
      /\ (fan_at_rated_pressure u Cooling c ->
          forall v, net_total_cooling_cop sol M u (Some c) = Ok v -> v = x).
  Proof.
    intros D Ru P Off Ns Gx R0.
    destruct (constructed_config psy sol M ltac:(unfold library_model; simpl; tauto) a u D) as (u0 & I & _).
    destruct (some_capacity_17 a u0 (u_staging u) h I) as (q17 & C17).
    destruct (unit_options a u q h q17 D Ru Off C17) as (net & k & N & _ & _ & _ & _ & T & _ & L1 & _).
    specialize (T x Ns Gx R0). pose proof (low_speed a u D P) as Lo.
    destruct Ru as (Qc & Nq & Nh & Qh & Fa & Ch & Tab).
    destruct (test_values a u net B_low (match u_staging u with TWO_STAGE => 1 | _ => 3 end)%nat 1%nat D Fa Ch N Tab)
      as (c & S & G).
    - unfold tests. apply in_or_app. right. apply in_or_app. right. destruct (u_staging u); [congruence| |];
        apply in_or_app; right; cbn; auto.
    - cbn [test_speed test_mode side_of]. destruct (u_staging u); [congruence|exact Lo|exact (proj1 Lo)].
    - destruct (u_staging u); [congruence| |]; cbn; auto.
    - exact L1.
    - exists c. split; [exact S|]. intros Mot v V. refine (proj2 (G Mot) x v _ V). exact T.
  Qed.

  Theorem low_capacity_met a (u : U) q h r :
    DXUnit psy sol M a = Ok u -> rated_unit a (u_staging u) q h -> plain_speeds a ->
    u_staging u = VARIABLE_SPEED -> u_heating_off u < fr_F 5 ->
    option_given a "min_net_total_cooling_capacity_ratio_95" r ->
    exists cl cb, rc_A_low (u_conds u) = Some cl /\ rc_A_boost (u_conds u) = Some cb
      /\ (fan_at_rated_pressure u Cooling cl -> fan_at_rated_pressure u Cooling cb ->
          forall vl vb, net_total_cooling_capacity sol M u (Some cl) = Ok vl ->
            net_total_cooling_capacity sol M u (Some cb) = Ok vb -> vl = r * vb).
  Proof.
    intros D Ru P Sv Off Gr.
    destruct (constructed_config psy sol M ltac:(unfold library_model; simpl; tauto) a u D) as (u0 & I & _).
    destruct (some_capacity_17 a u0 (u_staging u) h I) as (q17 & C17).
    destruct (unit_options a u q h q17 D Ru (fun _ => Off) C17) as (net & k & N & _ & _ & _ & _ & _ & T & L1 & L3).
    destruct (T r Sv Gr) as (q1 & q3 & T1 & T3 & E). specialize (L3 Sv). pose proof (low_speed a u D P) as Lo.
    rewrite Sv in Lo. destruct Lo as (Lo & Bo).
    destruct Ru as (Qc & Nq & Nh & Qh & Fa & Ch & Tab).
    destruct (test_values a u net A_low 3%nat 1%nat D Fa Ch N Tab) as (cl & S & G);
      [unfold tests; rewrite Sv, Bo; cbn; tauto|exact Lo|rewrite Sv; cbn; auto|exact L1|].
    destruct (test_values a u net A_boost 0%nat 3%nat D Fa Ch N Tab) as (cb & S' & G');
      [unfold tests; rewrite Sv, Bo; cbn; tauto|exact Bo|rewrite Sv; cbn; auto|exact L3|].
    exists cl, cb. split; [exact S|]. split; [exact S'|]. intros Mo Mo' vl vb V V'.
    rewrite (proj1 (G Mo) q1 vl T1 V).
    replace (INR 3) with 3 in G' by (cbn; lra).
    rewrite (proj1 (G' Mo') q3 vb T3 V'). exact E.
  Qed.

  (** ** What [make_rating_unit] was asked for *)
  Lemma asked_rated r c p : ri_q95 r <> 0 -> asked_heating r <> 0 ->
    rated_unit (rating_args r c p) (ri_staging r) (ri_q95 r) (asked_heating r).
  Proof.
    intros Nq Nh. unfold rated_unit, asked_heating in *. cbn [rating_args a_ccap a_hcap a_fan a_charge a_kwargs].
    split; [reflexivity|]. split; [exact Nq|]. split; [exact Nh|].
    split; [|split; [reflexivity|split; [exact lit0_R|reflexivity]]].
    destruct (ri_q47 r); cbn [option_map]; [reflexivity|]. destruct (ri_staging r); reflexivity.
  Qed.
  Lemma rating_unit_inv r (u : U) : make_rating_unit psy sol r = Ok u ->
    exists c p, DXUnit psy sol M (rating_args r c (Some p)) = Ok u.
  Proof.
    intros E. destruct (rating_inv psy sol r u E) as (c & p & _ & _ & H). exists c, p.
    rewrite <- H. symmetry. apply rating_unit_eq.
  Qed.

  Theorem asked_settings r (u : U) : make_rating_unit psy sol r = Ok u ->
    u_staging u = ri_staging r /\ u_standard u = ri_standard r
    /\ u_seer u = Some (ri_seer r) /\ u_hspf u = Some (ri_hspf r)
    /\ (forall e, ri_eer r = Some e -> u_eer u = Some e)
    /\ u_cooling_off u = ri_t_max r
    /\ u_heating_off u = given_or (ri_t_min r) (match ri_staging r with VARIABLE_SPEED => deg_F (-20) | _ => deg_F 0 end)
    /\ df_high_temperature (u_defrost u) = ri_t_defrost r /\ df_strategy (u_defrost u) = DSReverseCycle.
  Proof.
    intros E. destruct (rating_unit_inv r u E) as (c & p & D).
    assert (LM : library_model psy sol M) by (unfold library_model; simpl; tauto).
    pose proof (kept_settings psy sol M _ u LM D) as (_ & A1 & A2 & _ & _ & _ & A3 & _ & A4 & _ & A5).
    pose proof (kept_heating_off psy sol M _ u LM D) as A6. pose proof (kept_eer psy sol M _ u LM D) as A7.
    assert (A8 : u_staging u = staging_asked (rating_args r c (Some p))) by (apply (resnet_staging psy sol); [exact D|reflexivity]).
    cbn [rating_args a_seer a_hspf a_cooling_off a_standard a_defrost a_heating_off a_eer] in *.
    change (staging_asked (rating_args r c (Some p))) with (ri_staging r) in *.
    split; [exact A8|]. split; [exact A4|]. split; [exact A1|]. split; [exact A2|].
    split; [intros e X; rewrite X in A7; exact A7|]. split; [exact A3|]. split; [exact A6|]. rewrite A5. split; reflexivity.
  Qed.

  Theorem asked_values r (u : U) : make_rating_unit psy sol r = Ok u ->
    ri_q95 r <> 0 -> asked_heating r <> 0 ->
    (ri_staging r = VARIABLE_SPEED -> forall t, ri_t_min r = Some t -> t < deg_F 5) ->
    exists ca ch c17, rc_A_full (u_conds u) = Some ca /\ rc_H1_full (u_conds u) = Some ch
      /\ rc_H3_full (u_conds u) = Some c17
      /\ (fan_at_rated_pressure u Cooling ca ->
          (forall v, net_total_cooling_capacity sol M u None = Ok v -> v = ri_q95 r)
          /\ (forall e v, ri_eer r = Some e -> eer sol M u None = Ok v -> v = e))
      /\ (fan_at_rated_pressure u Heating ch ->
          forall v, net_steady_state_heating_capacity sol M u None = Ok v -> v = asked_heating r)
      /\ (fan_at_rated_pressure u Heating c17 ->
          forall v, net_steady_state_heating_capacity sol M u (Some c17) = Ok v ->
            v = given_or (ri_q47 r) (ri_q95 r) * ri_qm17 r).
  Proof.
    intros E Nq Nh Tm. destruct (asked_settings r u E) as (St & _ & _ & _ & _ & _ & Ho & _).
    destruct (rating_unit_inv r u E) as (c & p & D).
    pose proof (asked_rated r c (Some p) Nq Nh) as Ru. rewrite <- St in Ru.
    assert (Off : u_staging u = VARIABLE_SPEED -> u_heating_off u < fr_F 5).
    { intros V. rewrite St in V. rewrite Ho, V, fr_F_deg. destruct (ri_t_min r) as [t|]; cbn [given_or]; [exact (Tm V t eq_refl)|].
      unfold deg_F. lra. }
    destruct (ratings_met psy sol _ u _ _ D Ru Off) as (ca & ch & S1 & S2 & G1 & G2).
    destruct (capacity_17_met _ u _ _ (given_or (ri_q47 r) (ri_q95 r) * ri_qm17 r) D Ru Off) as (c17 & S3 & G3).
    { left. unfold option_given. cbn [rating_args a_kwargs]. destruct (ri_q47 r); reflexivity. }
    exists ca, ch, c17. split; [exact S1|]. split; [exact S2|]. split; [exact S3|]. split; [|split].
    - intros Mo. destruct (G1 Mo) as (X & Y). split; [exact X|]. intros e v He. apply Y. cbn [rating_args a_eer]. exact He.
    - intros Mo. exact (proj1 (G2 Mo)).
    - exact G3.
  Qed.

  Theorem maintenance r (u : U) : make_rating_unit psy sol r = Ok u ->
    ri_q95 r <> 0 -> asked_heating r <> 0 ->
    (ri_staging r = VARIABLE_SPEED -> forall t, ri_t_min r = Some t -> t < deg_F 5) ->
    exists c47 c17, rc_H1_full (u_conds u) = Some c47 /\ rc_H3_full (u_conds u) = Some c17
      /\ (fan_at_rated_pressure u Heating c47 -> fan_at_rated_pressure u Heating c17 ->
          forall v47 v17, net_steady_state_heating_capacity sol M u (Some c47) = Ok v47 ->
            net_steady_state_heating_capacity sol M u (Some c17) = Ok v17 ->
            (ri_q47 r <> None -> v17 = ri_qm17 r * v47)
            /\ (ri_q47 r = None -> ri_qm17 r <> 0 -> ri_q95 r <> asked_heating r -> v17 <> ri_qm17 r * v47)).
  Proof.
    intros E Nq Nh Tm. destruct (asked_values r u E Nq Nh Tm) as (ca & ch & c17 & _ & S1 & S2 & _ & G1 & G2).
    exists ch, c17. split; [exact S1|]. split; [exact S2|]. intros M1 M2 v47 v17 V1 V2.
    rewrite (G2 M2 v17 V2).
    assert (W : net_steady_state_heating_capacity sol M u None = Ok v47).
    { rewrite <- V1. unfold net_steady_state_heating_capacity, both, gross_steady_state_heating_capacity, heating_fan_power,
        heating_conditions. rewrite S1. reflexivity. }
    rewrite (G1 M1 v47 W). split.
    - intros Q. unfold asked_heating. destruct (ri_q47 r) as [x|]; [|congruence]. cbn [given_or]. lra.
    - intros Q N1 N2. rewrite Q. cbn [given_or]. intros C. apply N2. nra.
  Qed.
End OptionUnit.
