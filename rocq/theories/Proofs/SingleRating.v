(** C49: a single-stage RESNET unit has the SEER and EER it was built from. *)
From Coq Require Import Reals QArith Lra Lia List Bool String.
From Verif.Base Require Import Num Res Tac.
From Verif.Model Require Import Units Util Psychrometrics Conditions Defrost Fan Curves Tabular Unit NREL BaseModel
  Title24 Resnet DXUnit RatingSolver.
From Verif.Spec Require Import TabularSpec NrelSpec ModelSpec SeasonSpec UnitModels RatingSpec.
From Verif.Proofs Require Import UtilProofs UnitsR FanProofs MakeCond Frame StandardProofs UnitProofs NrelProofs
  ResnetProofs SeerProofs SingleFan SingleFan2 SingleTable TabBuild TabGross SingleUnit RatingProofs.
Import ListNotations.
Local Open Scope R_scope.

Lemma single_caps q95 seer eer q47 q17 hspf tmax tmin cop47 cd (p : perf R) :
  make_single_speed_model_data q95 seer eer q47 q17 hspf tmax tmin cop47 cd = Ok p ->
  cooling_capacity p 1 (fr_F 95) = Ok q95 /\ heating_capacity p 1 (fr_F 47) = Ok q47.
Proof.
  intros H. unfold make_single_speed_model_data in H. cbv zeta in H.
  set (t82 := fr_F (lit (T:=R) 82)) in *. set (t95 := fr_F (lit (T:=R) 95)) in *.
  set (t17 := fr_F (lit (T:=R) 17)) in *. set (t47 := fr_F (lit (T:=R) 47)) in *.
  set (t60 := fr_F (lit (T:=R) 60)) in *. set (t5 := fr_F (lit (T:=R) 5)) in *.
  assert (E95 : fr_F 95 = t95) by (unfold t95; f_equal; rnum; lra).
  assert (E47 : fr_F 47 = t47) by (unfold t47; f_equal; rnum; lra).
  assert (L1 : t82 < t95) by (apply fr_F_lt; rnum; lra).
  assert (L2 : t17 < t47) by (apply fr_F_lt; rnum; lra).
  rewrite E95, E47. clearbody t82 t95 t17 t47 t60 t5. clear E95 E47.
  pose proof (knows_new CoolingTable 1 _ (sorted2 _ _ L1)) as KC.
  pose proof (knows_new HeatingTable 1 _ (sorted2 _ _ L2)) as KH.
  inv_ok. inv_ex. track. use_finish H.
  split; [apply HC; inlist|apply HQ; inlist].
Qed.

Section Rating.
  Variable psy : psychro R.
  Variable sol : solvers R.
  Notation U := (dxunit R).
  Notation M := (RESNETDXModel psy sol).

  (** * The conditions of a single-stage unit *)
  Lemma conditions_inv (u1 u2 : U) b :
    u_staging u1 = SINGLE_STAGE -> set_rating_conditions psy u1 = (u2, Ok b) ->
    exists p cA cB cH,
      get_rated_full_flow_rated_pressure u1 = Ok p
      /\ let X := wu_full_esp (Some p) u1 in
         make_condition psy Cooling X (sd_full (u_c u1)) None None = Ok cA
         /\ make_condition psy Cooling X (sd_full (u_c u1)) None t82 = Ok cB
         /\ make_condition psy Heating X (sd_full (u_h u1)) None None = Ok cH
         /\ rc_A_full (u_conds u2) = Some cA /\ rc_B_full (u_conds u2) = Some cB
         /\ u_full_esp u2 = Some p.
  Proof.
    intros St H. rewrite set_rating_conditions_puts in H.
    apply sbind_ok in H. destruct H as (s1 & x & E & H).
    unfold reset_full_esp in E. apply sbind_ok in E. destruct E as (s2 & p & E1 & E).
    apply sread_ok in E1. destruct E1 as [-> P]. unfold smod in E. apply pair_ok_inj in E. destruct E as [E _].
    apply sbind_ok in H. destruct H as (s3 & y & E2 & H). unfold sget in E2. apply pair_ok_inj in E2.
    destruct E2 as [<- <-]. set (X := wu_full_esp (Some p) u1) in *. subst s1.
    assert (SX : u_staging X = SINGLE_STAGE) by exact St.
    rewrite <- (wu_conds_same X) in H at 2. rewrite sfold_run in H.
    unfold rating_puts in H. rewrite SX in H. cbn [app] in H.
    pose proof (f_equal fst H) as Hu. pose proof (f_equal snd H) as Hr. clear H. cbn [fst snd] in Hu, Hr.
    exists p. cbn [run] in Hu, Hr. unfold make in Hu, Hr.
    cbn [p_set p_mode p_speed p_out need rbind] in Hu, Hr.
    destruct (make_condition psy Cooling X (sd_full (u_c X)) None None) as [cA|] eqn:EA; [|discriminate].
    destruct (make_condition psy Cooling X (sd_full (u_c X)) None t82) as [cB|] eqn:EB; [|discriminate].
    destruct (make_condition psy Heating X (sd_full (u_h X)) None None) as [cH|] eqn:EH; [|discriminate].
    destruct (make_condition psy Heating X (sd_full (u_h X)) None t35) as [c1|]; [|discriminate].
    destruct (make_condition psy Heating X (sd_full (u_h X)) None t17) as [c2|]; [|discriminate].
    destruct (make_condition psy Heating X (sd_full (u_h X)) None t5) as [c3|]; [|discriminate].
    exists cA, cB, cH. split; [exact P|]. cbv zeta. split; [exact EA|]. split; [exact EB|].
    split; [exact EH|]. subst u2. split; [reflexivity|]. split; reflexivity.
  Qed.

  (** * Net values at the rated indoor conditions and flow *)
  Lemma lit67 : fr_F (lit (T:=R) 67) = fr_F 67.
  Proof. f_equal. rnum. lra. Qed.

  Lemma net_cop_single (u : U) net gross f o k pc rho srho a q w Q P v :
    u_charge u = 0 -> u_fan u = Some f ->
    rn_net (u_rn u) = Some net -> rn_gross (u_rn u) = Some gross -> rn_map (u_rn u) = Some [lit 1] ->
    power sol f k (Some (pc * (1 * 1))) = Ok w ->
    cooling_capacity gross (lit 1) (ps_db o) = Ok (Q + w) ->
    cooling_power gross (lit 1) (ps_db o) = Ok (P - w) ->
    net_total_cooling_cop sol M u
      (Some (flow_cond o (default_indoor Cooling) 0 (Some k) (Some pc) rho srho a q 1 None)) = Ok v ->
    P <> 0 /\ v = Q / P.
  Proof.
    intros Ch Fn N1 N2 N3 W GC GP H. set (c := flow_cond _ _ _ _ _ _ _ _ _ _ _) in H.
    assert (UT : uses_table u) by (unfold uses_table; rewrite N1; discriminate).
    assert (FP : fan_power sol u c = Ok w).
    { unfold fan_power. rewrite Fn. unfold c, flow_cond. cbn [c_external_static_pressure c_fan_speed need rbind].
      exact W. }
    assert (R1 : c_mass_airflow_ratio c = Some 1) by reflexivity.
    assert (WB : ps_wb (c_indoor c) = Some (fr_F 67)).
    { unfold c. cbn [flow_cond c_indoor default_indoor psych_wetbulb put_wb ps_wb blank]. rewrite <- lit67. reflexivity. }
    assert (TV : forall look x y, table_value look u c x -> look gross (lit 1) (ps_db o) = Ok y -> x = y).
    { intros look x y (g & m & s & A1 & A2 & A3 & A4) B. rewrite N2 in A1. injection A1 as <-.
      rewrite N3 in A2. assert (m = [lit 1]) by congruence. subst m.
      change (c_speed c) with 0%nat in A3. cbn [nth_error] in A3.
      assert (s = lit 1) by congruence. subst s. change (ps_db (c_outdoor c)) with (ps_db o) in A4. congruence. }
    unfold net_total_cooling_cop, both in H. apply rbind_ok in H. destruct H as (x & X & H).
    apply rbind_ok in H. destruct H as (y & Y & H).
    apply rbind_ok in X. destruct X as (x1 & X1 & X). apply rbind_ok in X. destruct X as (x2 & X2 & X).
    apply rbind_ok in Y. destruct Y as (y1 & Y1 & Y). apply rbind_ok in Y. destruct Y as (y2 & Y2 & Y).
    unfold cooling_fan_power in X2, Y2. cbn [cooling_conditions rbind] in X2, Y2.
    rewrite FP in X2, Y2. apply Ok_inj in X2, Y2. subst x2 y2.
    apply Ok_inj in X, Y. cbn [nadd nsub RNum] in X, Y.
    unfold gross_total_cooling_capacity in X1. unfold gross_cooling_power in Y1.
    cbn [cooling_conditions rbind] in X1, Y1.
    unfold checked_product in X1, Y1. cbn [md_gtc md_gcp md_f_gtc md_f_gcp RESNETDXModel] in X1, Y1.
    apply rbind_ok in X1. destruct X1 as (qv & X0 & X1). apply rbind_ok in X1. destruct X1 as (fx & Fx & X1).
    apply rbind_ok in Y1. destruct Y1 as (pv & Y0 & Y1). apply rbind_ok in Y1. destruct Y1 as (fy & Fy & Y1).
    unfold resnet_f_gtc in Fx. unfold resnet_f_gcp in Fy.
    rewrite grading_zero in Fx by exact Ch. rewrite grading_zero in Fy by exact Ch.
    apply Ok_inj in Fx, Fy. subst fx fy.
    pose proof (rn_rated psy u c qv UT R1) as RQ. pose proof (rn_rated psy u c pv UT R1) as RP.
    destruct RQ as [RQ _]. destruct RP as [RP _].
    apply (proj1 (RQ WB)) in X0. apply (proj2 (RP WB)) in Y0.
    rewrite (TV _ _ _ X0 GC) in *. rewrite (TV _ _ _ Y0 GP) in *.
    apply limit_check_inv in X1, Y1.
    assert (x1 = Q + w) by (destruct X1 as [E _]; cbn [nmul RNum] in E; lra).
    assert (y1 = P - w) by (destruct Y1 as [E _]; cbn [nmul RNum] in E; lra).
    apply pydiv_inv in H. destruct H as [Hn Hv].
    assert (Ex : x = Q) by lra. assert (Ey : y = P) by lra. rewrite Ex, Ey in Hv. rewrite Ey in Hn.
    split; [exact Hn|exact Hv].
  Qed.

  (** * Construction *)
  Lemma init_single a u0 :
    rated_single_stage a -> init_unit M a = Ok u0 ->
    u_staging u0 = SINGLE_STAGE /\ rn_net (u_rn u0) = None /\ sd_n (u_c u0) = 1%nat /\ sd_n (u_h u0) = 1%nat
    /\ u_charge u0 = 0 /\ u_seer u0 = a_seer a /\ u_eer u0 = default_eer (a_seer a) (a_eer a)
    /\ (get_kwarg_value "motor_type" (a_kwargs a) <> KMotor MotorBPM ->
        match rn_motor (u_rn u0) with Some k => k | None => MotorPSC end = MotorPSC).
  Proof.
    intros (St & (q & Qc) & Qh & _ & Tab & Ch) I. unfold init_unit in I.
    apply rbind_ok in I. destruct I as (rn & Rn & I). cbv zeta in I.
    assert (Nc : count_speeds (Some (a_ccap a)) (a_staging a) = 1%nat)
      by (rewrite Qc; destruct St as [->| ->]; reflexivity).
    assert (Nh : count_speeds (a_hcap a) (a_staging a) = 1%nat)
      by (destruct Qh as [->|(x & ->)]; destruct St as [->| ->]; reflexivity).
    rewrite Nc, Nh in I. apply rbind_ok in I. destruct I as (stg & Sg & I).
    assert (Es : stg = SINGLE_STAGE) by (destruct St as [E|E]; rewrite E in Sg; congruence).
    subst stg. apply Ok_inj in I. subst u0.
    cbn [u_staging u_rn u_c u_h u_charge u_seer u_eer init_side sd_n].
    unfold set_system in Rn. destruct (forallb _ _) in Rn; [|discriminate].
    apply rbind_ok in Rn. destruct Rn as (x & _ & Rn). cbn [md_process RESNETDXModel] in Rn.
    unfold resnet_process_kwargs in Rn. rewrite Tab in Rn. cbn [kw_table rbind] in Rn.
    apply rbind_ok in Rn. destruct Rn as (mt & Mt & Rn).
    apply rbind_ok in Rn. destruct Rn as (x1 & _ & Rn). apply rbind_ok in Rn. destruct Rn as (x2 & _ & Rn).
    apply rbind_ok in Rn. destruct Rn as (x3 & _ & Rn). apply Ok_inj in Rn. subst rn.
    cbn [rn_net rn_motor].
    split; [reflexivity|]. split; [reflexivity|]. split; [reflexivity|]. split; [reflexivity|].
    split; [exact Ch|]. split; [reflexivity|]. split; [reflexivity|].
    intros NB. destruct (get_kwarg_value "motor_type" (a_kwargs a)) as [| | | |m|]; cbn [kw_motor] in Mt; try discriminate.
    - apply Ok_inj in Mt. subst mt. reflexivity.
    - apply Ok_inj in Mt. subst mt. destruct m; [reflexivity|congruence].
  Qed.

  Lemma placeholders_one (u u' : U) b :
    sd_n (u_c u) = 1%nat -> sd_n (u_h u) = 1%nat -> set_placeholder_arrays u = (u', Ok b) ->
    one_entry (u_c u') /\ one_entry (u_h u') /\ u_staging u' = u_staging u /\ u_rn u' = u_rn u.
  Proof.
    intros N1 N2 E. unfold set_placeholder_arrays, smod in E. cbv zeta in E. apply pair_ok_inj in E.
    destruct E as [<- _]. rewrite N1, N2.
    split; [|split; [|split; reflexivity]]; (split; [assumption|]); split; [|split| |split]; eexists; reflexivity.
  Qed.

  Lemma finish_single a u0 u b :
    rated_single_stage a -> init_unit M a = Ok u0 -> finish_unit psy sol M a u0 = (u, Ok b) ->
    exists q qh s1 s2 s8 s9,
      configc s1 = configc u0 /\ u_rn s1 = u_rn u0
      /\ single_made sol s1 s2 q qh /\ configc s2 = configc u0
      /\ rview s8 = rview s2 /\ configc s8 = configc u0
      /\ set_rating_conditions psy s8 = (s9, Ok tt)
      /\ rview u = rview s2 /\ configc u = configc s9.
  Proof.
    intros A I E. destruct (init_single a u0 A I) as (I1 & I2 & I3 & I4 & _).
    destruct A as (St & (q & Qc) & Qh & Fa & _). unfold finish_unit in E.
    rewrite Qc, Fa in E.
    apply sbind_ok in E. destruct E as (s1 & x1 & E1 & E).
    apply sbind_ok in E. destruct E as (s2 & x2 & E2 & E).
    apply sbind_ok in E. destruct E as (s3 & x3 & E3 & E).
    apply sbind_ok in E. destruct E as (s4 & x4 & E4 & E).
    apply sbind_ok in E. destruct E as (s5 & x5 & E5 & E).
    apply sbind_ok in E. destruct E as (s6 & x6 & E6 & E).
    apply sbind_ok in E. destruct E as (s7 & x7 & E7 & E).
    apply sbind_ok in E. destruct E as (s8 & x8 & E8 & E).
    apply sbind_ok in E. destruct E as (s9 & [] & E9 & E).
    apply sbind_ok in E. destruct E as (t1 & y1 & F1 & E).
    apply sbind_ok in E. destruct E as (t2 & y2 & F2 & E).
    apply sbind_ok in E. destruct E as (t3 & y3 & F3 & E).
    apply sbind_ok in E. destruct E as (t4 & y4 & F4 & E).
    apply sbind_ok in E. destruct E as (t5' & y5 & F5 & E).
    apply sbind_ok in E. destruct E as (t6 & y6 & F6 & E).
    apply sbind_ok in E. destruct E as (t7 & y7 & F7 & E).
    apply sbind_ok in E. destruct E as (t8 & [] & F8 & E).
    apply sbind_ok in E. destruct E as (t9 & [] & F9 & E).
    apply sread_ok in F8. destruct F8 as [-> F8].
    apply sread_ok in F9. destruct F9 as [-> F9].
    apply sread_ok in E. destruct E as [-> E].
    destruct (placeholders_one _ _ _ I3 I4 E1) as (O1 & O2 & S1 & R1).
    assert (Hq : exists qh, a_hcap a = option_map Scalar qh).
    { destruct Qh as [->|(x & ->)]; [exists None|exists (Some x)]; reflexivity. }
    destruct Hq as [qh Hq].
    assert (MS : single_made sol s1 s2 q qh).
    { refine (made_single sol s1 s2 x2 q qh (a_hcap a) _ _ O1 O2 Hq E2); congruence. }
    assert (LM : library_model psy sol M) by (unfold library_model; simpl; tauto).
    exists q, qh, s1, s2, s8, s9.
    assert (C1 : configc s1 = configc u0) by exact (keeps_ok configc _ _ _ _ keeps_placeholders E1).
    split; [exact C1|]. split; [exact R1|]. split; [exact MS|].
    split; [rewrite <- C1; exact (keeps_ok configc _ _ _ _ (keeps_resnet_set sol _ _ _) E2)|].
    assert (V8 : rview s8 = rview s2).
    { assert (K8 : rview s8 = rview s7) by (inv_st; reflexivity). rewrite K8.
      assert (K7 : rview s7 = rview s6) by (destruct (a_crank a); inv_st; reflexivity). rewrite K7.
      rewrite (keeps_ok rview _ _ _ _ (keeps_fold rview _ _ (rview_put_gross Heating)) E6).
      rewrite (keeps_ok rview _ _ _ _ (keeps_fold rview _ _ (rview_put_gross Cooling)) E5).
      rewrite (keeps_ok rview _ _ _ _ (keeps_get _) E4).
      exact (keeps_ok rview _ _ _ _ rview_esp E3). }
    split; [exact V8|].
    split.
    { assert (K8 : configc s8 = configc s7) by (inv_st; reflexivity). rewrite K8.
      assert (K7 : configc s7 = configc s6) by (destruct (a_crank a); inv_st; reflexivity). rewrite K7.
      rewrite (keeps_ok configc _ _ _ _ (keeps_fold configc _ _ (keeps_put_gross Heating)) E6).
      rewrite (keeps_ok configc _ _ _ _ (keeps_fold configc _ _ (keeps_put_gross Cooling)) E5).
      rewrite (keeps_ok configc _ _ _ _ (keeps_get _) E4).
      rewrite (keeps_ok configc _ _ _ _ keeps_reset_esp E3).
      rewrite (keeps_ok configc _ _ _ _ (keeps_resnet_set sol _ _ _) E2). exact C1. }
    split; [exact E9|].
    cbn [md_set_net_cop md_set_gross_cop RESNETDXModel] in F4, F5, F6, F7.
    split.
    { rewrite <- V8.
      rewrite (keeps_ok rview _ _ _ _ (opt_keeps rview _ _ (rview_gross_cop Heating)) F7).
      rewrite (keeps_ok rview _ _ _ _ (opt_keeps rview _ _ (rview_net_cop Heating)) F6).
      rewrite (keeps_ok rview _ _ _ _ (opt_keeps rview _ _ (rview_gross_cop Cooling)) F5).
      rewrite (keeps_ok rview _ _ _ _ (opt_keeps rview _ _ (rview_net_cop Cooling)) F4).
      rewrite (keeps_ok rview _ _ _ _ (keeps_lift rview _) F3).
      rewrite (keeps_ok rview _ _ _ _ (keeps_lift rview _) F2).
      rewrite (keeps_ok rview _ _ _ _ (rview_sensible psy sol _) F1).
      exact (keeps_ok rview _ _ _ _ (rview_conditions psy) E9). }
    destruct (model_keeps psy sol M LM) as (_ & K2 & K3).
    rewrite (keeps_ok configc _ _ _ _ (opt_keeps configc _ _ (K3 Heating)) F7).
    rewrite (keeps_ok configc _ _ _ _ (opt_keeps configc _ _ (K2 Heating)) F6).
    rewrite (keeps_ok configc _ _ _ _ (opt_keeps configc _ _ (K3 Cooling)) F5).
    rewrite (keeps_ok configc _ _ _ _ (opt_keeps configc _ _ (K2 Cooling)) F4).
    rewrite (keeps_ok configc _ _ _ _ (keeps_lift configc _) F3).
    rewrite (keeps_ok configc _ _ _ _ (keeps_lift configc _) F2).
    assert (Ks : keeps configc (set_sensible_cooling_variables psy sol M)).
    { unfold set_sensible_cooling_variables, set_sensible_at, calculate_rated_bypass_factor. keepc. }
    exact (keeps_ok configc _ _ _ _ Ks F1).
  Qed.

  (** * The ratings *)
  Lemma const_linear w : piecewise_linear_in_speed [w] (fun _ => w).
  Proof.
    split; [|split].
    - intros [|k] v E; cbn [nth_error] in E; [congruence|destruct k; discriminate].
    - reflexivity.
    - intros k a b _ E. destruct k; discriminate.
  Qed.
  Lemma lit95 : fr_F (lit (T:=R) 95) = fr_F 95.
  Proof. f_equal. rnum. lra. Qed.
  Lemma lit82 : fr_F (lit (T:=R) 82) = fr_F 82.
  Proof. f_equal. rnum. lra. Qed.
  Lemma lit47 : fr_F (lit (T:=R) 47) = fr_F 47.
  Proof. f_equal. rnum. lra. Qed.
  Lemma lit1' : lit (T:=R) 1 = 1.
  Proof. rnum. lra. Qed.
  Lemma Btu_Wh_fr x : Btu_Wh (fr_Btu_Wh x) = x.
  Proof. unfold Btu_Wh, fr_Btu_Wh, btu_h. rnum. field. Qed.

  Lemma single_rated a u :
    rated_single_stage a -> DXUnit psy sol M a = Ok u ->
    get_kwarg_value "motor_type" (a_kwargs a) <> KMotor MotorBPM \/ heating_flow_within_cooling u ->
    exists sr er, a_seer a = Some sr /\ default_eer (a_seer a) (a_eer a) = Some er
      /\ (forall v, eer sol M u None = Ok v -> v = er)
      /\ (forall v, seer sol M u = Ok v -> v = sr).
  Proof.
    intros A D Hm. apply DXUnit_inv in D. destruct D as (u0 & b & I & D).
    destruct (init_single a u0 A I) as (I1 & I2 & I3 & I4 & I5 & I6 & I7 & I8).
    destruct (finish_single a u0 u b A I D) as (q & qh & s1 & s2 & s8 & s9 & C1 & R1 & MS & C2 & V8 & C8 & E9 & Vu & Cu).
    destruct MS as (net & gross & f & p & qc & qh' & ac & ah & wc & wh & T & Q1 & Q2 & P & Fn & Fc & FC & FH & OC & OH & G & N1 & N2 & N3 & St).
    clear D I A.
    (* the table *)
    unfold single_speed_table in T. cbn [number rbind] in T.
    apply rbind_ok in T. destruct T as ([[[sr er] hh] ch] & RI & T).
    unfold rating_inputs in RI. apply rbind_ok in RI. destruct RI as (sr0 & Sr & RI).
    apply rbind_ok in RI. destruct RI as (er0 & Er & RI).
    apply rbind_ok in RI. destruct RI as (c0 & _ & RI). apply rbind_ok in RI. destruct RI as (h0 & _ & RI).
    apply Ok_inj in RI.
    assert (sr0 = sr) by congruence. assert (er0 = er) by congruence. subst sr0 er0. clear RI.
    assert (Cfg : u_seer s1 = u_seer u0 /\ u_eer s1 = u_eer u0 /\ sd_cd (u_c s1) = sd_cd (u_c u0)).
    { unfold configc, config in C1. split; [|split]; congruence. }
    destruct Cfg as (G1 & G2 & G3). rewrite G1, I6 in Sr. rewrite G2, I7 in Er. rewrite G3 in T.
    exists sr, er.
    assert (Hs : a_seer a = Some sr) by (destruct (a_seer a); cbn [number_if] in Sr; [congruence|discriminate]).
    assert (He : default_eer (a_seer a) (a_eer a) = Some er)
      by (destruct (default_eer (a_seer a) (a_eer a)); cbn [number_if] in Er; [congruence|discriminate]).
    split; [exact Hs|]. split; [exact He|].
    destruct (single_caps _ _ _ _ _ _ _ _ _ _ _ T) as (K1 & K2).
    rewrite lit95, lit1' in Q1. rewrite lit47, lit1' in Q2. rewrite K1 in Q1. rewrite K2 in Q2.
    apply Ok_inj in Q1, Q2. subst qc qh'.
    (* the conditions *)
    assert (V8s : u_staging s8 = SINGLE_STAGE).
    { rewrite <- St. exact (f_equal (fun x => snd (fst (fst x))) V8). }
    assert (V8c : sview (u_c s8) = sview (u_c s2)) by exact (f_equal (fun x => snd (fst x)) V8).
    assert (V8h : sview (u_h s8) = sview (u_h s2)) by exact (f_equal snd V8).
    destruct (conditions_inv s8 s9 tt V8s E9) as (p' & cA & cB & cH & P' & MA & MB & MH & RA & RB & _).
    pose proof (sview_one _ _ _ V8c OC) as OC8. pose proof (sview_one _ _ _ V8h OH) as OH8.
    assert (Pp : p' = p).
    { assert (G4 : u_ducted s8 = u_ducted s2 /\ u_standard s8 = u_standard s2).
      { unfold configc, config in C8, C2. split; congruence. }
      destruct G4 as [G4 G5].
      unfold get_rated_full_flow_rated_pressure in P, P'. rewrite G4, G5 in P'.
      rewrite (proj1 (proj2 (proj2 OC8))) in P'. rewrite (proj1 (proj2 (proj2 OC))) in P. congruence. }
    subst p'.
    pose proof (sview_fan sol _ _ _ _ _ _ _ V8c FC) as FC8.
    destruct OC8 as (_ & OF & ON & _). destruct OH8 as (_ & OFh & ONh & _).
    rewrite OF in MA, MB. rewrite OFh in MH.
    (* nonzero capacities *)
    assert (Nqh : heating_default q qh <> 0).
    { apply make_condition_inv in MH. destruct MH as (q0 & a0 & full & p0 & fl & rho & srho & B1 & _ & _ & _ & _ & _ & _ & _ & _ & _ & B2 & _).
      change (sd_net_cap (side_of Heating (wu_full_esp (Some p) s8))) with (sd_net_cap (u_h s8)) in B1.
      rewrite ONh in B1. cbn [nth_error] in B1. congruence. }
    assert (Cond : forall o c, make_condition psy Cooling (wu_full_esp (Some p) s8) 0 None o = Ok c ->
      q <> 0 /\ exists k rho srho, power sol f k (Some (p * ((ac / ac) * (ac / ac)) * (1 * 1))) = Ok wc
      /\ c = flow_cond (match o with Some s => s | None => default_outdoor Cooling end) (default_indoor Cooling) 0
               (Some k) (Some (p * ((ac / ac) * (ac / ac)))) rho srho ac q 1 None).
    { intros o c MC. apply make_condition_inv in MC.
      destruct MC as (q0 & a0 & full & p0 & fl & rho & srho & B1 & B2 & B3 & B4 & (mp & B5 & B6) & _ & _ & _ & _ & B8 & B7 & B9).
      change (side_of Cooling (wu_full_esp (Some p) s8)) with (u_c s8) in *.
      destruct FC8 as (k & f0 & H1 & H2 & H3 & H4 & H5 & H6 & H7 & H8).
      rewrite ON in B1. rewrite H2 in B2, B3. rewrite H1 in B5. cbn [nth_error] in B1, B2, B3.
      assert (q0 = q) by congruence. assert (a0 = ac) by congruence. assert (full = ac) by congruence.
      assert (mp = [Some k]) by congruence. subst q0 a0 full mp. cbn [nth_error] in B6.
      assert (fl = Some k) by congruence. subst fl.
      unfold calculate_rated_pressure in B4. change (u_full_esp (wu_full_esp (Some p) s8)) with (Some p) in B4.
      cbn [need rbind] in B4. rewrite pydiv_ok in B4 by exact B8. cbn [rbind] in B4. apply Ok_inj in B4.
      unfold nsq in B4. cbn [nmul ndiv RNum] in B4. subst p0.
      split; [exact B7|]. exists k, rho, srho. split; [|exact B9].
      assert (Lk : (k < List.length (f_airflow f0))%nat) by (apply geti_ok in H6; apply nth_error_Some; congruence).
      rewrite (extends_power sol f0 f k _ H7 H8 Lk).
      destruct Hm as [Hm|Hm].
      - specialize (I8 Hm). rewrite <- R1 in I8. rewrite I8 in Fc.
        rewrite <- H5. apply psc_power. destruct H8 as (n & l & r & ->). exact Fc.
      - rewrite <- H5. f_equal. f_equal.
        destruct Hm as (ac' & ah' & M1 & M2 & M3).
        assert (Vc : sview (u_c u) = sview (u_c s2)) by exact (f_equal (fun x => snd (fst x)) Vu).
        assert (Vh : sview (u_h u) = sview (u_h s2)) by exact (f_equal snd Vu).
        destruct (sview_fan sol _ _ _ _ _ _ _ Vc FC) as (k1 & f1 & _ & Z1 & _).
        destruct (sview_fan sol _ _ _ _ _ _ _ Vh FH) as (k2 & f2 & _ & Z2 & _).
        rewrite Z1 in M1. rewrite Z2 in M2. cbn [nth_error] in M1, M2.
        assert (ac' = ac) by congruence. assert (ah' = ah) by congruence. subst ac' ah'.
        destruct (Rle_dec ah ac) as [_|N]; [ring|contradiction]. }
    destruct (Cond _ _ MA) as (Nq & kA & rA & srA & WA & EA). destruct (Cond _ _ MB) as (_ & kB & rB & srB & WB & EB).
    clear Cond MA MB MH.
    destruct (single_reproduces _ _ _ _ _ _ _ _ _ _ _ T Nq Nqh) as (_ & L1 & (c82 & L2 & L3) & _).
    (* the gross table *)
    destruct (single_shape _ _ _ _ _ _ _ _ _ _ _ T) as (_ & _ & U1 & U2 & U3 & U4).
    assert (Sh : forall t v, (cooling_capacity net (lit 1) t = Ok v -> cooling_capacity gross (lit 1) t = Ok (v + wc))
      /\ (cooling_power net (lit 1) t = Ok v -> cooling_power gross (lit 1) t = Ok (v - wc))).
    { unfold ex in G. intros t v.
      destruct (make_gross_shift [wc] [wh] _ _ net U1 U2 U3 U4 (const_linear wc) (const_linear wh))
        as [(_ & p1 & Ep & Sh)|(_ & p1 & Ep)]; rewrite Ep in G; [|discriminate].
      apply Ok_inj in G. subst p1. specialize (Sh (lit 1) t v). tauto. }
    assert (Vr : u_rn u = u_rn s2) by exact (f_equal (fun x => fst (fst (fst (fst x)))) Vu).
    assert (Vf : u_fan u = u_fan s2) by exact (f_equal (fun x => snd (fst (fst (fst x)))) Vu).
    assert (Vs : u_staging u = u_staging s2) by exact (f_equal (fun x => snd (fst (fst x))) Vu).
    rewrite <- Vr in N1, N2, N3. rewrite <- Vf in Fn. rewrite <- Vs in St.
    assert (K9 : config s9 = config s8) by exact (keeps_ok config _ _ _ _ (keeps_conditions psy) E9).
    assert (Ku : config u = config u0).
    { apply (f_equal fst) in Cu. apply (f_equal fst) in C8. cbn [configc fst] in Cu, C8. congruence. }
    assert (Kc : u_conds u = u_conds s9) by exact (f_equal snd Cu).
    assert (Ch : u_charge u = 0) by (unfold config in Ku; congruence).
    assert (Cd : sd_cd (u_c u) = sd_cd (u_c u0)) by (unfold config in Ku; congruence).
    rewrite <- Kc in RA, RB. rewrite lit1' in *.
    assert (Cop : forall t x c o k rho srho v, c = flow_cond o (default_indoor Cooling) 0 (Some k)
                   (Some (p * ((ac / ac) * (ac / ac)))) rho srho ac q 1 None ->
      power sol f k (Some (p * ((ac / ac) * (ac / ac)) * (1 * 1))) = Ok wc ->
      ps_db o = t -> cooling_cop net 1 t = Ok x -> net_total_cooling_cop sol M u (Some c) = Ok v -> v = x).
    { intros t x c o k rho srho v -> W Ht X H. unfold cooling_cop in X.
      apply rbind_ok in X. destruct X as (Q & X1 & X). apply rbind_ok in X. destruct X as (PP & X2 & X).
      apply pydiv_inv in X. destruct X as [NP ->].
      refine (proj2 (net_cop_single u net gross f o k (p * ((ac / ac) * (ac / ac))) rho srho ac q wc Q PP v Ch Fn N1 N2 _ W _ _ H)).
      - rewrite lit1'. exact N3.
      - rewrite lit1', Ht. apply (proj1 (Sh _ _) X1).
      - rewrite lit1', Ht. apply (proj2 (Sh _ _) X2). }
    split.
    - intros v H. unfold eer in H. apply rbind_ok in H. destruct H as (cop & Hc & H). apply Ok_inj in H. subst v.
      assert (Hc' : net_total_cooling_cop sol M u (Some cA) = Ok cop).
      { rewrite <- Hc. unfold net_total_cooling_cop, net_total_cooling_capacity, net_cooling_power, both,
          gross_total_cooling_capacity, gross_cooling_power, cooling_fan_power, cooling_conditions.
        rewrite RA. reflexivity. }
      assert (cop = fr_Btu_Wh er).
      { refine (Cop (fr_F 95) _ _ _ _ _ _ _ EA WA _ L1 Hc').
        cbn [default_outdoor psych_wetbulb put_wb ps_db blank]. apply lit95. }
      subst cop. rewrite to_Btu_Wh_spec. apply Btu_Wh_fr.
    - intros v H. destruct (seer_single_inv sol M u v St H) as (c & cop & Rc & Hc & ->).
      rewrite RB in Rc. injection Rc as <-.
      assert (cop = c82).
      { refine (Cop (fr_F 82) _ _ _ _ _ _ _ EB WB _ L2 Hc).
        cbn [t82 outdoor psych_wetbulb put_wb ps_db blank]. apply lit82. }
      subst cop. rewrite Cd. replace ((1 - sd_cd (u_c u0) / 2) * c82) with (fr_Btu_Wh sr) by (rewrite <- L3; lra).
      apply Btu_Wh_fr.
  Qed.
End Rating.
