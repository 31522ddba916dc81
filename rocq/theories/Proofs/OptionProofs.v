(** C90, C91: optional ratings of a RESNET unit. *)
From Coq Require Import Reals QArith Lra Lia List Bool String ZArith.
From Verif.Base Require Import Num Res Tac.
From Verif.Model Require Import Units Util Psychrometrics Conditions Defrost Fan Curves Tabular Unit NREL BaseModel
  Title24 Resnet DXUnit RatingSolver.
From Verif.Spec Require Import TabularSpec NrelSpec ModelSpec UnitModels RatedSpec TestSpec SettingsSpec OptionSpec.
From Verif.Proofs Require Import UtilProofs UnitsR FanProofs MakeCond Frame UnitProofs UnitProofs2 NrelProofs ResnetProofs
  SingleFan SingleUnit TabGross TabMisc TabBuild RatedFan RatedTable RatedEer TestProofs SettingsProofs RatingProofs.
Import ListNotations.
Local Open Scope R_scope.

Section Options.
  Variable psy : psychro R.
  Variable sol : solvers R.
  Notation U := (dxunit R).
  Notation M := (RESNETDXModel psy sol).

  (** ** From the keyword arguments to the model's data *)
  Lemma init_options a (u0 : U) : init_unit M a = Ok u0 ->
    kw_table (get_kwarg_value "tabular_data" (a_kwargs a)) = Ok (rn_net (u_rn u0))
    /\ kw_num (get_kwarg_value "rated_net_heating_capacity_17" (a_kwargs a)) = Ok (rn_cap17 (u_rn u0))
    /\ kw_num (get_kwarg_value "min_net_total_cooling_capacity_ratio_95" (a_kwargs a)) = Ok (rn_ratio95 (u_rn u0))
    /\ kw_num (get_kwarg_value "rated_net_total_cooling_cop_82_min" (a_kwargs a)) = Ok (rn_cop82 (u_rn u0)).
  Proof.
    intros I. unfold init_unit in I. apply rbind_ok in I. destruct I as (rn & Rn & I).
    cbv zeta in I. apply rbind_ok in I. destruct I as (stg & _ & I). apply Ok_inj in I. subst u0.
    cbn [u_rn]. unfold set_system in Rn. destruct (forallb _ _) in Rn; [|discriminate].
    apply rbind_ok in Rn. destruct Rn as (z & _ & Rn). cbn [md_process RESNETDXModel] in Rn.
    unfold resnet_process_kwargs in Rn.
    apply rbind_ok in Rn. destruct Rn as (tb & Tb & Rn).
    apply rbind_ok in Rn. destruct Rn as (x0 & _ & Rn).
    apply rbind_ok in Rn. destruct Rn as (x1 & X1 & Rn). apply rbind_ok in Rn. destruct Rn as (x2 & X2 & Rn).
    apply rbind_ok in Rn. destruct Rn as (x3 & X3 & Rn). apply Ok_inj in Rn. subst rn. auto.
  Qed.

  Lemma resnet_staging a (u : U) : DXUnit psy sol M a = Ok u ->
    get_kwarg_value "tabular_data" (a_kwargs a) = KNone -> u_staging u = staging_asked a.
  Proof.
    intros D Tab. unfold DXUnit in D. apply rbind_ok in D. destruct D as (u0 & I & D).
    unfold ex in D. destruct (finish_unit psy sol M a u0) as [u1 [b|e]] eqn:E; [|discriminate].
    apply Ok_inj in D. subst u1.
    destruct (init_options _ _ I) as (T0 & _). rewrite Tab in T0. cbn [kw_table] in T0. apply Ok_inj in T0.
    destruct (init_settings M a u0 I) as (_ & _ & _ & _ & _ & _ & _ & _ & _ & St & _). rewrite <- St.
    unfold finish_unit in E. apply sbind_ok in E. destruct E as (s1 & x1 & E1 & E).
    apply sbind_ok in E. destruct E as (s2 & x2 & E2 & E).
    assert (K0 : keeps (fun u : U => (u_rn u, u_staging u)) (set_placeholder_arrays (T:=R)))
      by (unfold set_placeholder_arrays; repeat (keep_step || (cbv zeta beta)); reflexivity).
    pose proof (keeps_ok _ _ _ _ _ K0 E1) as V0. cbv beta in V0.
    assert (V : u_staging u = u_staging s2).
    { cbn [md_set_net_cop md_set_gross_cop RESNETDXModel] in E.
      match type of E with ?m s2 = _ => assert (K : keeps rview m) end.
      { repeat (first [ apply rview_esp | apply rview_put_gross | apply rview_conditions | apply rview_sensible
          | apply rview_net_cop | apply rview_gross_cop | keep_step
          | match goal with |- keeps _ (opt_set _ ?o) => destruct o; cbn [opt_set] end ]; cbv zeta beta). }
      pose proof (keeps_ok rview _ _ _ _ K E) as V. unfold rview in V. congruence. }
    rewrite V. clear E V K0. cbn [md_set_net_capacities_and_fan RESNETDXModel] in E2.
    unfold resnet_set_net_capacities_and_fan in E2.
    apply sbind_ok in E2. destruct E2 as (s3 & [] & A1 & E2).
    assert (s3 = s1).
    { unfold adopt_table_staging, sbind at 1, sget in A1.
      replace (rn_net (u_rn s1)) with (@None (perf R)) in A1 by congruence.
      unfold sret in A1. apply pair_ok_inj in A1. destruct A1; auto. }
    subst s3.
    apply sbind_ok in E2. destruct E2 as (s4 & [] & A2 & E2).
    apply sbind_ok in E2. destruct E2 as (s5 & [] & A3 & E2).
    apply sbind_ok in E2. destruct E2 as (s6 & [] & A4 & E2).
    assert (S4 : u_staging s4 = u_staging s1).
    { destruct (a_hcap a) as [[x|lh]|].
      - exact (proj1 (caps_tabled _ _ _ _ _ A2)).
      - apply sbind_ok in A2. destruct A2 as (z & [] & Z & A2). destruct (a_ccap a) as [x|lc]; [discriminate|].
        apply on_side_inv in Z. apply on_side_inv in A2. subst s4 z. reflexivity.
      - exact (proj1 (caps_tabled _ _ _ _ _ A2)). }
    pose proof (keeps_ok nview _ _ _ _ (nview_set_fan sol (a_fan a)) A3) as V3. unfold nview in V3.
    assert (S6 : u_staging s6 = u_staging s5).
    { destruct (rn_net (u_rn s5)) as [net|] eqn:N.
      - exact (proj1 (proj2 (proj2 (gross_inv net _ _ _ N A4)))).
      - unfold setup_gross_table, sbind at 1, sget in A4. rewrite N in A4. unfold sret in A4.
        apply pair_ok_inj in A4. destruct A4 as [<- _]. reflexivity. }
    assert (K : keeps (fun u : U => u_staging u) (set_lower_speed_net_capacities (T:=R) sol)).
    { unfold set_lower_speed_net_capacities, lower_speed, add_design_speed,
        put_rated_fan_speed, put_fan_speed, last_fan_speed, side_put.
      repeat (first [keep_step | match goal with |- keeps _ (on_fan _) =>
        let u := fresh in intros u; unfold on_fan; destruct (u_fan u); [|reflexivity];
        match goal with |- context [let (_, _) := ?e in _] => destruct e end; reflexivity end ]; cbv zeta beta). }
    pose proof (keeps_ok _ _ _ _ _ K E2) as S7. cbv beta in S7. congruence.
  Qed.

  (** ** Tables *)
  Lemma single_default q95 s e q47 hs tmax tmin c cd : q47 <> 0 ->
    make_single_speed_model_data (T:=R) q95 s e q47 None hs tmax tmin c cd
    = make_single_speed_model_data q95 s e q47 (Some (0.626 * q47)) hs tmax tmin c cd.
  Proof.
    intros N. unfold make_single_speed_model_data. cbv iota. rewrite (pydiv_ok (0.626 * q47) q47) by exact N.
    replace (0.626 * q47 / q47) with (lit (T:=R) 0.626) by (rnum; field; exact N). reflexivity.
  Qed.
  Lemma two_default q95 s e q47 hs tmax tmin c82 c : q47 <> 0 ->
    make_two_speed_model_data (T:=R) q95 s e q47 None hs tmax tmin c82 c
    = make_two_speed_model_data q95 s e q47 (Some (0.626 * q47)) hs tmax tmin c82 c.
  Proof.
    intros N. unfold make_two_speed_model_data. cbv iota. rewrite (pydiv_ok (0.626 * q47) q47) by exact N.
    replace (0.626 * q47 / q47) with (lit (T:=R) 0.626) by (rnum; field; exact N). reflexivity.
  Qed.

  (** The table values that depend on the options. *)
  Lemma built_options qc qh a (u0 : U) st net q h q17 :
    init_unit M a = Ok u0 ->
    table_built qc qh u0 st net -> qc = Scalar q -> heating_rating st qh q = h -> q <> 0 -> h <> 0 ->
    (st = VARIABLE_SPEED -> u_heating_off u0 < fr_F 5) ->
    capacity_17 a st h q17 ->
    exists k, In (full_speed st, k) (table_columns st)
      /\ (k <= table_speeds Heating net)%nat
      /\ heating_capacity net (INR k) (fr_F 17) = Ok q17
      /\ (forall x, st <> SINGLE_STAGE -> option_given a "rated_net_total_cooling_cop_82_min" x ->
           (forall r, option_given a "min_net_total_cooling_capacity_ratio_95" r -> r <> 0) ->
           cooling_cop net 1 (fr_F 82) = Ok x)
      /\ (forall r, st = VARIABLE_SPEED -> option_given a "min_net_total_cooling_capacity_ratio_95" r ->
           exists q1 q3, cooling_capacity net 1 (fr_F 95) = Ok q1 /\ cooling_capacity net 3 (fr_F 95) = Ok q3
             /\ q1 = r * q3)
      /\ (1 <= table_speeds Cooling net)%nat /\ (st = VARIABLE_SPEED -> (3 <= table_speeds Cooling net)%nat).
  Proof.
    intros I (u1 & q' & (K & Op) & Eq & B) Eq' Eh Nq Nh Off C17. cbv zeta in B.
    assert (q' = q) by congruence. subst q'. rewrite Eh in B, Op.
    destruct (init_options _ _ I) as (_ & O17 & O95 & O82). destruct Op as (P82 & P95 & P17).
    rewrite <- P82 in O82. rewrite <- P95 in O95.
    assert (K3 : u_heating_off u1 = u_heating_off u0) by (unfold config in K; congruence).
    rewrite <- K3 in Off. clear K K3 P82 P95.
    assert (H82 : forall x, option_given a "rated_net_total_cooling_cop_82_min" x -> rn_cop82 (u_rn u1) = Some x).
    { intros x X. unfold option_given in X. rewrite X in O82. cbn [kw_num] in O82. congruence. }
    assert (H95 : forall x, option_given a "min_net_total_cooling_capacity_ratio_95" x -> rn_ratio95 (u_rn u1) = Some x).
    { intros x X. unfold option_given in X. rewrite X in O95. cbn [kw_num] in O95. congruence. }
    assert (H95' : forall x, rn_ratio95 (u_rn u1) = Some x -> option_given a "min_net_total_cooling_capacity_ratio_95" x).
    { intros x X. rewrite X in O95. unfold option_given.
      destruct (get_kwarg_value "min_net_total_cooling_capacity_ratio_95" (a_kwargs a)); cbn [kw_num] in O95; congruence. }
    assert (H17 : rn_cap17 (u_rn u1) = Some q17 \/ (st <> VARIABLE_SPEED /\ rn_cap17 (u_rn u1) = None /\ q17 = 0.626 * h)).
    { destruct C17 as [C17|(C17 & C17')].
      - left. unfold option_given in C17. rewrite C17 in O17. cbn [kw_num] in O17.
        replace (rn_cap17 (u_rn u0)) with (Some q17) in P17 by congruence. exact P17.
      - rewrite C17 in O17. cbn [kw_num] in O17.
        replace (rn_cap17 (u_rn u0)) with (@None R) in P17 by congruence. subst q17. destruct st.
        + right. split; [discriminate|]. auto.
        + right. split; [discriminate|]. auto.
        + left. rewrite P17. reflexivity. }
    clear O17 P17 O82 O95 C17 I.
    destruct st.
    - unfold single_speed_table in B. cbn [number rbind] in B. apply rbind_ok in B. destruct B as ([[[s e] hs] c] & _ & B).
      assert (B' : make_single_speed_model_data q s e h (Some q17) hs (u_cooling_off u1) (u_heating_off u1) c (sd_cd (u_c u1)) = Ok net).
      { destruct H17 as [H17|(_ & H17 & ->)]; rewrite H17 in B; [exact B|]. rewrite <- single_default by exact Nh. exact B. }
      destruct (single_n _ _ _ _ _ _ _ _ _ _ _ B') as (N1 & N2).
      destruct (single_reproduces _ _ _ _ _ _ _ _ _ _ _ B' Nq Nh) as (_ & _ & _ & _ & A1 & _).
      exists 1%nat. cbn [full_speed table_columns In table_speeds INR]. rewrite N1, N2.
      split; [auto|]. split; [lia|]. split; [apply A1; reflexivity|].
      split; [intros x X; congruence|]. split; [intros; discriminate|]. split; [lia|]. discriminate.
    - unfold two_speed_table in B. cbn [number rbind] in B. apply rbind_ok in B. destruct B as ([[[s e] hs] c] & _ & B).
      assert (B' : make_two_speed_model_data q s e h (Some q17) hs (u_cooling_off u1) (u_heating_off u1) (rn_cop82 (u_rn u1)) c = Ok net).
      { destruct H17 as [H17|(_ & H17 & ->)]; rewrite H17 in B; [exact B|]. rewrite <- two_default by exact Nh. exact B. }
      destruct (two_n _ _ _ _ _ _ _ _ _ _ _ B') as (N1 & N2).
      destruct (two_reproduces _ _ _ _ _ _ _ _ _ _ _ B' Nq Nh) as (_ & _ & A0 & _ & A1 & _).
      exists 2%nat. cbn [full_speed table_columns In table_speeds]. rewrite N1, N2. replace (INR 2) with 2 by (cbn; lra).
      split; [auto|]. split; [lia|]. split; [apply A1; reflexivity|].
      split; [intros x _ X _; rewrite A0, (H82 x X); reflexivity|]. split; [intros; discriminate|]. split; [lia|]. discriminate.
    - unfold variable_speed_table in B. apply rbind_ok in B. destruct B as ([[[s e] hs] c] & _ & B).
      destruct H17 as [H17|(H17 & _)]; [|congruence]. rewrite H17 in B.
      destruct (neep_n _ _ _ _ _ _ _ _ _ _ _ _ B) as (N1 & N2).
      destruct (statistical_reproduces _ _ _ _ _ _ _ _ _ _ _ _ B (Off eq_refl) Nq Nh) as (_ & _ & A3 & A2 & _ & A1 & _).
      exists 2%nat. cbn [full_speed table_columns In table_speeds]. rewrite N1, N2. replace (INR 2) with 2 by (cbn; lra).
      split; [auto|]. split; [lia|]. split; [apply A1; reflexivity|].
      split; [intros x _ X R0; apply A2; [exact (H82 x X)|intros r Hr; apply R0, H95', Hr]|].
      split; [intros r _ X; exact (A3 r (H95 r X))|]. split; lia.
  Qed.
End Options.
