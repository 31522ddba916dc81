(** C82: settings of a constructed unit. *)
From Coq Require Import Reals QArith Lra Lia List Bool String.
From Verif.Base Require Import Num Res Tac.
From Verif.Model Require Import Units Util Psychrometrics Conditions Defrost Fan Curves Tabular Unit NREL BaseModel
  Title24 Resnet DXUnit.
From Verif.Spec Require Import UnitSpec UnitModels SettingsSpec.
From Verif.Proofs Require Import Frame UnitProofs UnitProofs2 UnitProofs4 UnitsR Layout CopProofs ToyBuild
  ToyBuild2 ToyDefault.
Import ListNotations.
Local Open Scope R_scope.

Section Settings.
  Variable psy : psychro R.
  Variable sol : solvers R.
  Notation U := (dxunit R).

  Lemma speeds_asked_count caps s : count_speeds caps s = speeds_asked caps s.
  Proof. destruct caps as [[x|l]|], s as [[]|]; reflexivity. Qed.

  Lemma init_numbered n full int fs rfs fl cd :
    numbered n full int (init_side (T:=R) n full int fs rfs fl cd).
  Proof.
    unfold numbered, given_or, init_side. cbn [sd_n sd_full sd_int sd_boost sd_low].
    repeat split; destruct int, full, n as [|[|]]; reflexivity.
  Qed.

  Lemma init_settings M a (u0 : U) : init_unit M a = Ok u0 ->
    (u_kwargs u0, u_seer u0, u_hspf u0, u_hcop u0) = (a_kwargs a, a_seer a, a_hspf a, a_net_hcop a)
    /\ u_eer u0 = default_eer (a_seer a) (a_eer a)
    /\ u_cycling u0 = a_cycling a /\ u_ducted u0 = a_ducted a
    /\ u_cooling_off u0 = a_cooling_off a
    /\ u_defrost u0 = or_else (a_defrost a) (default_defrost (fr_F (lit 41)))
    /\ u_crank_setpoint u0 = a_crank_setpoint a /\ u_standard u0 = a_standard a
    /\ u_charge u0 = a_charge a /\ u_staging u0 = staging_asked a
    /\ u_heating_off u0 = or_else (a_heating_off a)
         (match staging_asked a with VARIABLE_SPEED => fr_F (lit (-20)) | _ => fr_F (lit 0) end)
    /\ sd_cd (u_c u0) = or_else (a_cd_c a) (md_cd_cooling M)
    /\ sd_cd (u_h u0) = or_else (a_cd_h a) (md_cd_heating M)
    /\ numbered (speeds_asked (Some (a_ccap a)) (a_staging a)) (a_cfull a) (a_cint a) (u_c u0)
    /\ numbered (speeds_asked (a_hcap a) (a_staging a)) (a_hfull a) (a_hint a) (u_h u0).
  Proof.
    unfold init_unit. intros H. apply rbind_ok in H. destruct H as (rn & _ & H).
    cbv zeta in H. apply rbind_ok in H. destruct H as (stg & S & H). apply Ok_inj in H.
    assert (S' : stg = staging_asked a).
    { unfold staging_asked. destruct (a_staging a); [apply Ok_inj in S; auto|].
      rewrite speeds_asked_count in S.
      destruct (speeds_asked (a_hcap a) None) as [|[|[|]]]; inversion S; reflexivity. }
    subst stg u0.
    split; [reflexivity|]. do 12 (split; [reflexivity|]).
    rewrite <- !speeds_asked_count. split; apply init_numbered.
  Qed.

  Section Any.
    Variables (M : dxmodel R) (a : dxargs R) (u : U).
    Hypothesis LM : library_model psy sol M.
    Hypothesis D : DXUnit psy sol M a = Ok u.

    Lemma kept_settings :
      u_kwargs u = a_kwargs a /\ u_seer u = a_seer a /\ u_hspf u = a_hspf a
      /\ u_hcop u = a_net_hcop a /\ u_cycling u = a_cycling a /\ u_ducted u = a_ducted a
      /\ u_cooling_off u = a_cooling_off a /\ u_crank_setpoint u = a_crank_setpoint a
      /\ u_standard u = a_standard a /\ u_charge u = a_charge a
      /\ match a_defrost a with Some d => u_defrost u = d | None => usual_defrost (u_defrost u) end.
    Proof.
      destruct (constructed_config psy sol M LM a u D) as (u0 & I & K). unfold config in K.
      destruct (init_settings M a u0 I) as (I1 & I2 & I3 & I4 & I5 & I6 & I7 & I8 & I9 & _).
      assert (Kd : u_defrost u = u_defrost u0) by congruence.
      repeat split; try congruence.
      rewrite Kd, I6. destruct (a_defrost a) as [d|]; cbn [or_else]; [reflexivity|].
      unfold usual_defrost, default_defrost.
      cbn [df_strategy df_control df_high_temperature df_low_temperature df_period df_max_time df_time_fraction].
      do 2 (split; [reflexivity|]). split.
      { replace (lit (T:=R) 41) with 41 by (unfold lit; rnum; lra). apply fr_F_deg. }
      split; [reflexivity|]. split; [unfold fr_min; rnum; lra|]. split; [unfold fr_min; rnum; lra|].
      intros c. unfold default_time_fraction. f_equal. unfold fr_min. rnum. lra.
    Qed.

    Lemma kept_degradation : sd_cd (u_c u) = or_else (a_cd_c a) (md_cd_cooling M)
      /\ sd_cd (u_h u) = or_else (a_cd_h a) (md_cd_heating M).
    Proof.
      destruct (constructed_config psy sol M LM a u D) as (u0 & I & K). unfold config in K.
      destruct (init_settings M a u0 I) as (I1 & I2 & I3 & I4 & I5 & I6 & I7 & I8 & I9 & I10 & I11 & I12 & I13 & _).
      split; congruence.
    Qed.

    Lemma kept_heating_off : u_heating_off u = given_or (a_heating_off a)
         (match staging_asked a with VARIABLE_SPEED => deg_F (-20) | _ => deg_F 0 end).
    Proof.
      destruct (constructed_config psy sol M LM a u D) as (u0 & I & K). unfold config in K.
      destruct (init_settings M a u0 I) as (I1 & I2 & I3 & I4 & I5 & I6 & I7 & I8 & I9 & I10 & I11 & _).
      assert (Kd : u_heating_off u = u_heating_off u0) by congruence.
      rewrite Kd, I11. destruct (a_heating_off a); [reflexivity|]. cbn [or_else given_or].
      replace (lit (T:=R) (-20)) with (-20) by (unfold lit; rnum; lra).
      rewrite lit0_R, !fr_F_deg. reflexivity.
    Qed.

    Lemma kept_eer : u_eer u = match a_eer a, a_seer a with
        | Some e, _ => Some e
        | None, Some s => Some (eer_of_seer s)
        | None, None => None
        end.
    Proof.
      destruct (constructed_config psy sol M LM a u D) as (u0 & I & K). unfold config in K.
      destruct (init_settings M a u0 I) as (I1 & I2 & _).
      assert (Kd : u_eer u = u_eer u0) by congruence.
      rewrite Kd, I2. unfold default_eer. destruct (a_eer a), (a_seer a); try reflexivity.
      f_equal. unfold eer_of_seer.
      replace (lit (T:=R) 13) with 13 by (unfold lit; rnum; lra).
      change (r <? 13)%num with (Rltb r 13).
      destruct (Rltb_spec r 13), (Rlt_dec r 13); try lra; unfold lit; rnum; lra.
    Qed.
  End Any.

  Lemma eer_increases s s' : s < s' -> eer_of_seer s < eer_of_seer s'.
  Proof. intros L. unfold eer_of_seer. destruct (Rlt_dec s 13), (Rlt_dec s' 13); lra. Qed.

  (** Default degradation coefficients. *)
  Lemma default_degradation M a (u : U) : DXUnit psy sol M a = Ok u ->
    (M = RESNETDXModel psy sol ->
       sd_cd (u_c u) = given_or (a_cd_c a) 0.15 /\ sd_cd (u_h u) = given_or (a_cd_h a) 0.15)
    /\ (In M [BaseDXModel; ConstantDXModel; CarrierDefrostModel; Title24DXModel sol; NRELDXModel psy sol] ->
       sd_cd (u_c u) = given_or (a_cd_c a) 0.25 /\ sd_cd (u_h u) = given_or (a_cd_h a) 0.25).
  Proof.
    intros D.
    assert (L25 : lit (T:=R) 0.25 = 0.25) by (unfold lit; rnum; lra).
    assert (L15 : lit (T:=R) 0.15 = 0.15) by (unfold lit; rnum; lra).
    split; intros I.
    - assert (LM : library_model psy sol M) by (unfold library_model; subst; simpl; tauto).
      destruct (kept_degradation M a u LM D) as [-> ->]. subst M.
      cbn [md_cd_cooling md_cd_heating RESNETDXModel]. rewrite L15.
      split; [destruct (a_cd_c a) | destruct (a_cd_h a)]; reflexivity.
    - assert (LM : library_model psy sol M) by (unfold library_model; simpl in *; tauto).
      destruct (kept_degradation M a u LM D) as [-> ->].
      cbn [In] in I. repeat (destruct I as [<-|I]; [
        cbn [md_cd_cooling md_cd_heating BaseDXModel ConstantDXModel CarrierDefrostModel Title24DXModel NRELDXModel];
        rewrite L25; split; [destruct (a_cd_c a) | destruct (a_cd_h a)]; reflexivity |]). destruct I.
  Qed.

  (** Speed numbers. *)
  Lemma lay_base_cop m v : keeps layout (base_set_net_cop (T:=R) m v).
  Proof. unfold base_set_net_cop, derive_from_net_cop, set_comp, set_entry, side_put. destruct m; keepl. Qed.
  Lemma lay_base_gross m v : keeps layout (base_set_gross_cop (T:=R) m v).
  Proof. unfold base_set_gross_cop, derive_from_gross_cop, set_comp, set_entry, side_put. destruct m, v; keepl. Qed.
  Lemma lay_base_set qc qh f : keeps layout (base_set_net_capacities_and_fan (T:=R) qc qh f).
  Proof.
    unfold base_set_net_capacities_and_fan, base_set_net_cooling_capacity, base_set_net_heating_capacity,
      base_set_fan, base_fan_step, side_put. keepl.
  Qed.
  Lemma lay_t24_set qc qh f : keeps layout (t24_set_net_capacities_and_fan (T:=R) qc qh f).
  Proof.
    unfold t24_set_net_capacities_and_fan, t24_set_rated_fan_characteristics, base_set_net_cooling_capacity, base_set_net_heating_capacity,
      t24_set_fan, t24_fan_step, side_put. keepl.
  Qed.
  Lemma lay_sensible' M : keeps layout (set_sensible_cooling_variables (T:=R) psy sol M).
  Proof.
    unfold set_sensible_cooling_variables, set_sensible_at, calculate_rated_bypass_factor. keepl.
  Qed.

  Lemma plain_numbers M a (u : U) : plain_model sol M -> DXUnit psy sol M a = Ok u ->
    u_staging u = staging_asked a
    /\ numbered (speeds_asked (Some (a_ccap a)) (a_staging a)) (a_cfull a) (a_cint a) (u_c u)
    /\ numbered (speeds_asked (a_hcap a) (a_staging a)) (a_hfull a) (a_hint a) (u_h u).
  Proof.
    intros HM D. destruct (plain_cops sol M HM) as [P1 P2].
    destruct (build_frame psy sol layout M a u) as (u0 & u1 & u2 & H0 & H1 & H2 & H3).
    - apply lay_esp.
    - apply lay_put_gross.
    - intros. keepl.
    - apply lay_conditions.
    - apply lay_sensible'.
    - rewrite P1. apply lay_base_cop.
    - rewrite P2. apply lay_base_gross.
    - exact D.
    - assert (K : layout u2 = layout u1).
      { unfold plain_model in HM. simpl in HM.
        destruct HM as [<-|[<-|[<-|[<-|[]]]]];
          cbn [md_set_net_capacities_and_fan BaseDXModel ConstantDXModel CarrierDefrostModel
               Title24DXModel] in H2.
        1, 2, 3: exact (keeps_ok layout _ _ _ _ (lay_base_set _ _ _) H2).
        exact (keeps_ok layout _ _ _ _ (lay_t24_set _ _ _) H2). }
      pose proof (keeps_ok layout _ _ _ _ lay_placeholders H1) as K1.
      rewrite K, K1 in H3. unfold layout, lay in H3.
      destruct (init_settings M a u0 H0) as (_ & _ & _ & _ & _ & _ & _ & _ & _ & I10 & _ & _ & _ & N1 & N2).
      unfold numbered in *. intuition congruence.
  Qed.

  (** The crankcase heater. *)
  Definition crk (u : U) := (u_crank u, sd_net_cap (u_c u), sd_full (u_c u)).

  Lemma crk_cops M : library_model psy sol M ->
    (forall m v, keeps crk (md_set_net_cop M m v)) /\ (forall m v, keeps crk (md_set_gross_cop M m v)).
  Proof.
    intros H. unfold library_model in H. simpl in H.
    repeat (destruct H as [<-|H]; [cbn [md_set_net_cop
      md_set_gross_cop BaseDXModel ConstantDXModel CarrierDefrostModel Title24DXModel
      NRELDXModel RESNETDXModel]; split; intros m v;
      unfold unless_table, nrel_set_net_cop, nrel_set_gross_cop, base_set_net_cop, base_set_gross_cop,
        derive_from_net_cop, derive_from_gross_cop, set_comp, set_entry, side_put; destruct m, v; keepl|]).
    contradiction.
  Qed.
  Lemma crk_conditions : keeps crk (set_rating_conditions (T:=R) psy).
  Proof. unfold set_rating_conditions, reset_full_esp, put_cond. keepl. Qed.
  Lemma crk_sensible M : keeps crk (set_sensible_cooling_variables (T:=R) psy sol M).
  Proof.
    unfold set_sensible_cooling_variables, set_sensible_at, calculate_rated_bypass_factor. keepl.
  Qed.

  Lemma default_crankcase M a (u : U) : library_model psy sol M -> DXUnit psy sol M a = Ok u ->
    match a_crank a with
    | Some w => u_crank u = Some w
    | None => exists q, nth_error (sd_net_cap (u_c u)) (sd_full (u_c u)) = Some q
        /\ u_crank u = Some (10 * (q / (12000 * (1055.056 / 3600))))
    end.
  Proof.
    intros LM H. unfold DXUnit in H. apply rbind_ok in H. destruct H as (u0 & H0 & H).
    unfold ex in H. destruct (finish_unit psy sol M a u0) as [u' [[]|e]] eqn:E; [|discriminate].
    injection H as ->. unfold finish_unit in E.
    apply sbind_ok in E. destruct E as (s1 & [] & E1 & E).
    apply sbind_ok in E. destruct E as (s2 & [] & E2 & E).
    apply sbind_ok in E. destruct E as (s3 & [] & E3 & E).
    apply sbind_ok in E. destruct E as (s4 & x & E4 & E).
    apply sbind_ok in E. destruct E as (s5 & [] & E5 & E).
    apply sbind_ok in E. destruct E as (s6 & [] & E6 & E).
    apply sbind_ok in E. destruct E as (s7 & cr & E7 & E).
    apply sbind_ok in E. destruct E as (s8 & [] & E8 & E).
    destruct (crk_cops M LM) as [K6 K7].
    match type of E with ?m _ = _ => assert (K : keeps crk m) end.
    { apply keeps_bind; [apply crk_conditions|intros _].
      apply keeps_bind; [apply crk_sensible|intros _].
      apply keeps_bind; [apply keeps_lift|intros _].
      apply keeps_bind; [apply keeps_lift|intros _].
      apply keeps_bind; [apply opt_keeps, K6|intros _].
      apply keeps_bind; [apply opt_keeps, K7|intros _].
      apply keeps_bind; [apply opt_keeps, K6|intros _].
      apply keeps_bind; [apply opt_keeps, K7|intros _].
      apply keeps_bind; [apply keeps_read|intros _].
      apply keeps_bind; [apply keeps_read|intros _]. apply keeps_read. }
    pose proof (keeps_ok crk _ _ _ _ K E) as F. clear K E. unfold smod in E8. apply pair_ok_inj in E8.
    destruct E8 as [<- _]. unfold crk in F. cbn [u_crank u_c wu_crank] in F.
    assert (F1 : u_crank u = Some cr) by congruence.
    destruct (a_crank a) as [w|].
    - unfold sret in E7. apply pair_ok_inj in E7. destruct E7 as [_ <-]. exact F1.
    - apply sread_ok in E7. destruct E7 as [-> Q]. apply rbind_ok in Q. destruct Q as (q & Q & R).
      apply geti_ok in Q. apply Ok_inj in R. exists q.
      assert (F2 : sd_net_cap (u_c u) = sd_net_cap (u_c s6)) by congruence.
      assert (F3 : sd_full (u_c u) = sd_full (u_c s6)) by congruence.
      rewrite F2, F3. split; [exact Q|]. rewrite F1. f_equal. rewrite <- R.
      unfold to_ton, ton_ref, btu_h. rnum. lra.
  Qed.
End Settings.

Lemma default_eer_increases psy sol M a a' (u u' : dxunit R) s s' e e' :
  library_model psy sol M -> DXUnit psy sol M a = Ok u -> DXUnit psy sol M a' = Ok u' ->
  a_eer a = None -> a_eer a' = None -> a_seer a = Some s -> a_seer a' = Some s' ->
  u_eer u = Some e -> u_eer u' = Some e' -> s < s' -> e < e'.
Proof.
  intros LM B B' N N' S S' E E' L.
  pose proof (kept_eer psy sol M a u LM B) as K. pose proof (kept_eer psy sol M a' u' LM B') as K'.
  rewrite N, S, E in K. rewrite N', S', E' in K'. injection K as ->. injection K' as ->.
  apply eer_increases, L.
Qed.

(** For the example. *)
Lemma cut_out_125 : fr_F (T:=R) (lit 125) = deg_F 125.
Proof. replace (lit (T:=R) 125) with 125 by (unfold lit; rnum; lra). apply fr_F_deg. Qed.
Lemma two_full : exists u, DXUnit lin_psy lin_sol ConstantDXModel two_args = Ok u
  /\ nth_error (sd_net_cap (u_c u)) (sd_full (u_c u)) = Some 10000.
Proof.
  destruct (built_2 AHRI_210_240_2023 (Some 4) None (Some 3) None None
     ltac:(apply good_gross; lra) ltac:(apply good_gross; lra) 10000 7000 9000 6000
     ltac:(lra) ltac:(lra)) as (f & p & cr & s & b & t & B & _).
  eexists. split; [exact B|]. reflexivity.
Qed.
