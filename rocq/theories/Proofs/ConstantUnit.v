(** C79: units of the constant model. *)
From Coq Require Import Reals QArith Lra Lia List Bool String.
From Verif.Base Require Import Num Res Tac.
From Verif.Model Require Import Units Util Psychrometrics Conditions Defrost Fan Curves
  Tabular Unit NREL BaseModel Title24 Resnet DXUnit.
From Verif.Spec Require Import NrelSpec UnitModels SeasonSpec TestSpec DefaultSpec.
From Verif.Proofs Require Import UnitsR NrelProofs MakeCond Frame StandardProofs UnitProofs
  UnitProofs2 CopProofs UnitProofs4 SeerProofs TestProofs DefaultFan DefaultFan2.
Import ListNotations.
Local Open Scope R_scope.

Section Constant.
  Variable psy : psychro R.
  Variable sol : solvers R.
  Notation U := (dxunit R).
  Notation M := (ConstantDXModel (T:=R)).

  Lemma constant_base : base_fan_model M.
  Proof. unfold base_fan_model. simpl. auto. Qed.
  Lemma constant_plain : plain_model sol M.
  Proof. apply (base_fan_plain sol M constant_base). Qed.

  Lemma no_fan_given a (u : U) : DXUnit psy sol M a = Ok u -> a_fan a = None.
  Proof.
    intros H. destruct (a_fan a) as [f|] eqn:E; [|reflexivity]. exfalso.
    exact (given_fan_rejected psy sol M a f constant_plain E u H).
  Qed.

  Lemma constant_fan a (u : U) m i q c : DXUnit psy sol M a = Ok u ->
    nth_error (sd_net_cap (side_of m u)) i = Some q -> runs u m i c ->
    exists w, entry (sd_fan_power (side_of m u)) i w /\ w = q * per_ton 375 * per_cfm 0.365
      /\ fan_power sol u c = Ok w
      /\ entry (sd_gross_cap (side_of m u)) i (gross_of_net m q w).
  Proof.
    intros H Q (SP & (p & P) & l & L & N).
    pose proof (default_fan psy sol M a u constant_base (no_fan_given a u H) H m i q Q) as D.
    unfold served in D. destruct D as (_ & W & _ & (l' & L' & N') & f & F & FP).
    exists (q * per_ton 375 * per_cfm 0.365). split; [exact W|]. split; [reflexivity|].
    split.
    - rewrite L in L'. injection L' as <-. rewrite N in N'. injection N' as N'.
      unfold fan_power. rewrite F, P, N'. cbn [need rbind]. apply FP.
    - exact (gross_capacity psy sol M a u constant_plain H m i q _ Q W).
  Qed.

  Lemma arr_entry (l : list (option R)) i x : entry l i x -> arr l i = Ok x.
  Proof. unfold entry, arr. intros E. rewrite (proj2 (geti_ok _ _ _) E). reflexivity. Qed.

  Lemma one_R (x : R) : nmul x (lit 1) = x.
  Proof. rewrite lit1_R. cbn [nmul RNum]. lra. Qed.

  Lemma w_pos q : 0 < q -> 0 < q * per_ton 375 * per_cfm 0.365.
  Proof.
    intros Q. assert (0 < per_ton 375) by (unfold per_ton; lra).
    assert (0 < per_cfm 0.365) by (unfold per_cfm; lra).
    apply Rmult_lt_0_compat; [apply Rmult_lt_0_compat; assumption|assumption].
  Qed.

  Lemma constant_cooling a (u : U) i q g c : DXUnit psy sol M a = Ok u ->
    nth_error (sd_net_cap (u_c u)) i = Some q -> entry (sd_gross_cop (u_c u)) i g ->
    0 < q -> 0 < g -> runs u Cooling i c ->
    exists w, w = q * per_ton 375 * per_cfm 0.365
      /\ cooling_fan_power sol u (Some c) = Ok w
      /\ gross_total_cooling_capacity M u (Some c) = Ok (q + w)
      /\ net_total_cooling_capacity sol M u (Some c) = Ok q
      /\ gross_shr M u (Some c) = Ok 0.7
      /\ gross_sensible_cooling_capacity M u (Some c) = Ok (0.7 * (q + w))
      /\ gross_cooling_power M u (Some c) = Ok ((q + w) / g)
      /\ net_cooling_power sol M u (Some c) = Ok ((q + w) / g + w).
  Proof.
    intros H Q G Q0 G0 Rn.
    destruct (constant_fan a u Cooling i q c H Q Rn) as (w & W & EW & FP & GC).
    assert (W0 : 0 < w) by (rewrite EW; apply w_pos; exact Q0).
    cbn [side_of gross_of_net] in *. destruct Rn as [SP _].
    assert (QG : 0 <= (q + w) / g) by (apply Rlt_le, Rdiv_lt_0_compat; lra).
    assert (E1 : gross_total_cooling_capacity M u (Some c) = Ok (q + w)).
    { unfold gross_total_cooling_capacity. cbn [cooling_conditions rbind].
      unfold checked_product. cbn [M ConstantDXModel md_gtc md_f_gtc].
      unfold constant_capacity, unit_factor. cbn [side_of]. rewrite SP, (arr_entry _ _ _ GC).
      cbn [rbind]. rewrite one_R. apply limit_check_pos. lra. }
    assert (E2 : gross_cooling_power M u (Some c) = Ok ((q + w) / g)).
    { unfold gross_cooling_power. cbn [cooling_conditions rbind].
      unfold checked_product. cbn [M ConstantDXModel md_gcp md_f_gcp].
      unfold constant_power, unit_factor, ratio_at. cbn [side_of].
      rewrite SP, (arr_entry _ _ _ GC), (arr_entry _ _ _ G). cbn [rbind].
      rewrite pydiv_ok by lra. cbn [rbind]. rewrite one_R. apply limit_check_pos. exact QG. }
    assert (E3 : gross_sensible_cooling_capacity M u (Some c) = Ok (0.7 * (q + w))).
    { unfold gross_sensible_cooling_capacity. cbn [cooling_conditions rbind].
      cbn [M ConstantDXModel md_gsc]. unfold checked_product, constant_capacity, unit_factor. cbn [side_of].
      rewrite SP, (arr_entry _ _ _ GC). cbn [rbind]. rewrite one_R, limit_check_pos by lra.
      cbn [rbind]. replace (nmul (q + w) (lit 0.7)) with (0.7 * (q + w)) by (rnum; lra).
      apply limit_check_pos. lra. }
    assert (E4 : cooling_fan_power sol u (Some c) = Ok w) by exact FP.
    exists w. split; [exact EW|]. split; [exact E4|]. split; [exact E1|].
    split. { unfold net_total_cooling_capacity, both, minus. rewrite E1, E4. cbn [rbind]. f_equal. rnum. lra. }
    split. { unfold gross_shr, both. rewrite E1, E3. cbn [rbind]. rewrite pydiv_ok by lra. cbn [rbind].
      replace (0.7 * (q + w) / (q + w)) with 0.7 by (field; lra).
      unfold limit_check. rewrite lit0_R, lit1_R. cbn [nltb RNum].
      destruct (Rltb_spec 0.7 0); [lra|]. destruct (Rltb_spec 1 0.7); [lra|]. reflexivity. }
    split; [exact E3|]. split; [exact E2|].
    unfold net_cooling_power, both, plus. rewrite E2, E4. reflexivity.
  Qed.

  Lemma constant_heating a (u : U) i q g c : DXUnit psy sol M a = Ok u ->
    nth_error (sd_net_cap (u_h u)) i = Some q -> entry (sd_gross_cop (u_h u)) i g ->
    g <> 0 -> runs u Heating i c ->
    exists w, w = q * per_ton 375 * per_cfm 0.365
      /\ heating_fan_power sol u (Some c) = Ok w
      /\ gross_steady_state_heating_capacity M u (Some c) = Ok (q - w)
      /\ gross_integrated_heating_capacity M u (Some c) = Ok (q - w)
      /\ net_steady_state_heating_capacity sol M u (Some c) = Ok q
      /\ net_integrated_heating_capacity sol M u (Some c) = Ok q
      /\ net_steady_state_heating_power sol M u (Some c) = Ok ((q - w) / g + w)
      /\ net_integrated_heating_power sol M u (Some c) = Ok ((q - w) / g + w).
  Proof.
    intros H Q G G0 Rn.
    destruct (constant_fan a u Heating i q c H Q Rn) as (w & W & EW & FP & GC).
    cbn [side_of gross_of_net] in *. destruct Rn as [SP _].
    assert (E1 : gross_steady_state_heating_capacity M u (Some c) = Ok (q - w)).
    { unfold gross_steady_state_heating_capacity. cbn [heating_conditions rbind].
      unfold product. cbn [M ConstantDXModel md_ghc md_f_ghc].
      unfold constant_capacity, unit_factor. cbn [side_of]. rewrite SP, (arr_entry _ _ _ GC).
      cbn [rbind]. rewrite one_R. reflexivity. }
    assert (E1' : gross_integrated_heating_capacity M u (Some c) = Ok (q - w)) by exact E1.
    assert (E2 : gross_steady_state_heating_power M u (Some c) = Ok ((q - w) / g)).
    { unfold gross_steady_state_heating_power. cbn [heating_conditions rbind].
      unfold product. cbn [M ConstantDXModel md_ghp md_f_ghp].
      unfold constant_power, unit_factor, ratio_at. cbn [side_of].
      rewrite SP, (arr_entry _ _ _ GC), (arr_entry _ _ _ G). cbn [rbind].
      rewrite pydiv_ok by exact G0. cbn [rbind]. rewrite one_R. reflexivity. }
    assert (E2' : gross_integrated_heating_power M u (Some c) = Ok ((q - w) / g)) by exact E2.
    assert (E4 : heating_fan_power sol u (Some c) = Ok w) by exact FP.
    exists w. split; [exact EW|]. split; [exact E4|]. split; [exact E1|]. split; [exact E1'|].
    unfold net_steady_state_heating_capacity, net_integrated_heating_capacity,
      net_steady_state_heating_power, net_integrated_heating_power, both, plus.
    rewrite E1, E1', E2, E2', E4. cbn [rbind].
    repeat split; f_equal; rnum; lra.
  Qed.

  (** The COPs stored for a speed fit its capacities. *)
  Lemma cop_fits N a (u : U) m i q gq w g n : plain_model sol N -> DXUnit psy sol N a = Ok u ->
    cop_given m a -> nth_error (sd_net_cap (side_of m u)) i = Some q ->
    entry (sd_gross_cap (side_of m u)) i gq -> entry (sd_fan_power (side_of m u)) i w ->
    entry (sd_gross_cop (side_of m u)) i g -> entry (sd_net_cop (side_of m u)) i n ->
    gq <> 0 -> q <> 0 -> q / (gq / g + w) = n /\ gq / g + w <> 0.
  Proof.
    intros HM H HC Q GQ W G NC N1 N2.
    assert (I : (i < sd_n (side_of m u))%nat).
    { destruct (plain_build psy sol N a u HM H) as (_ & _ & _ & _ & _ & _ & _ & _ & L).
      rewrite <- L. apply nth_error_Some. congruence. }
    destruct (plain_phase psy sol N a u m HM H) as (v0 & v1 & v2 & H1 & H2 & E).
    rewrite E in *. destruct HC as [[x HC]|[HC HC']].
    - rewrite HC in H2. cbn [opt_set base_set_gross_cop] in H2.
      apply sbind_ok in H2. destruct H2 as (v3 & [] & _ & H2).
      apply gross_inv in H2. cbv zeta in H2. destruct H2 as (gp & np & nc & L1 & L2 & L3 & Hu & F).
      subst v2. rewrite DefaultFan.side_wu in *. unfold grossed in *. cbn [sd_n ws_gross_cop ws_gross_power ws_net_power ws_net_cop] in I.
      destruct (F i I) as (cap & gcap & ww & y & aa & b & c & (E1 & E2 & E3 & E4 & E5 & E6 & E7) & X1 & Ea & Eb & X2 & Ec).
      cbn [ws_gross_cop ws_gross_power ws_net_power ws_net_cop sd_net_cap sd_gross_cap sd_fan_power sd_gross_cop sd_net_cop] in *.
      apply map_some_entry in NC. unfold entry in *.
      assert (cap = q /\ gcap = gq /\ ww = w /\ c = g /\ y = n) as (-> & -> & -> & -> & ->)
        by (repeat split; congruence).
      subst b aa. split; [congruence|exact X2].
    - rewrite HC in H2. cbn [opt_set] in H2. apply pair_ok_inj in H2. destruct H2 as [-> _].
      destruct (net_input m a) as [v|]; [|congruence]. cbn [opt_set] in H1.
      unfold base_set_net_cop in H1.
      apply sbind_ok in H1. destruct H1 as (v3 & [] & _ & H1).
      apply net_inv in H1. cbv zeta in H1. destruct H1 as (np & gp & gc & L1 & L2 & L3 & Hu & F).
      subst v2. rewrite DefaultFan.side_wu in *. unfold with_cops in *. cbn [sd_n ws_gross_cop ws_gross_power ws_net_power ws_net_cop] in I.
      destruct (F i I) as (cap & gcap & ww & y & aa & b & c & (E1 & E2 & E3 & E4 & E5 & E6 & E7) & X1 & Ea & Eb & X2 & Ec).
      cbn [ws_gross_cop ws_gross_power ws_net_power ws_net_cop sd_net_cap sd_gross_cap sd_fan_power sd_gross_cop sd_net_cop] in *.
      apply map_some_entry in G. unfold entry in *.
      assert (cap = q /\ gcap = gq /\ ww = w /\ c = g /\ y = n) as (-> & -> & -> & -> & ->)
        by (repeat split; congruence).
      assert (EB : gq / g = b).
      { rewrite Ec. field. split; assumption. }
      rewrite EB, Eb, Ea. replace (q / n - w + w) with (q / n) by lra.
      split; [field; split; assumption|].
      unfold Rdiv. apply Rmult_integral_contrapositive_currified; [exact N2|apply Rinv_neq_0_compat; exact X1].
  Qed.

  Lemma constant_net_cop a (u : U) i q g n c : DXUnit psy sol M a = Ok u -> cop_given Cooling a ->
    nth_error (sd_net_cap (u_c u)) i = Some q -> entry (sd_gross_cop (u_c u)) i g ->
    entry (sd_net_cop (u_c u)) i n -> 0 < q -> 0 < g -> runs u Cooling i c ->
    net_total_cooling_cop sol M u (Some c) = Ok n.
  Proof.
    intros H HC Q G N Q0 G0 Rn.
    destruct (constant_cooling a u i q g c H Q G Q0 G0 Rn) as (w & EW & _ & _ & E1 & _ & _ & _ & E2).
    destruct (constant_fan a u Cooling i q c H Q Rn) as (w' & W & EW' & _ & GC).
    rewrite <- EW in EW'. subst w'. pose proof (w_pos q Q0). rewrite <- EW in H0.
    destruct (cop_fits M a u Cooling i q (q + w) w g n constant_plain H HC Q GC W G N) as [K1 K2]; try lra.
    unfold net_total_cooling_cop, both. rewrite E1, E2. cbn [rbind].
    rewrite pydiv_ok by exact K2. congruence.
  Qed.

  Lemma constant_heating_cop a (u : U) i q g n c : DXUnit psy sol M a = Ok u -> cop_given Heating a ->
    nth_error (sd_net_cap (u_h u)) i = Some q -> entry (sd_gross_cop (u_h u)) i g ->
    entry (sd_net_cop (u_h u)) i n -> q <> 0 -> g <> 0 -> runs u Heating i c ->
    net_steady_state_heating_cop sol M u (Some c) = Ok n
    /\ net_integrated_heating_cop sol M u (Some c) = Ok n.
  Proof.
    intros H HC Q G N Q0 G0 Rn.
    destruct (constant_heating a u i q g c H Q G G0 Rn) as (w & EW & _ & _ & _ & E1 & E1' & E2 & E2').
    destruct (constant_fan a u Heating i q c H Q Rn) as (w' & W & EW' & _ & GC).
    rewrite <- EW in EW'. subst w'. cbn [side_of gross_of_net] in *.
    assert (K0 : q - w <> 0).
    { rewrite EW. replace (q - q * per_ton 375 * per_cfm 0.365) with (q * (1 - per_ton 375 * per_cfm 0.365)) by lra.
      apply Rmult_integral_contrapositive_currified; [exact Q0|]. unfold per_ton, per_cfm.
      apply Rgt_not_eq. lra. }
    destruct (cop_fits M a u Heating i q (q - w) w g n constant_plain H HC Q GC W G N) as [K1 K2]; try assumption.
    unfold net_steady_state_heating_cop, net_integrated_heating_cop, both.
    rewrite E1, E1', E2, E2'. cbn [rbind].
    rewrite pydiv_ok by exact K2. rewrite K1. split; reflexivity.
  Qed.

  Lemma rating_runs a (u : U) t : DXUnit psy sol M a = Ok u -> In t (tests u) ->
    exists c i q, stored t (u_conds u) = Some c /\ test_speed t u = Some i
      /\ nth_error (sd_net_cap (side_of (test_mode t) u)) i = Some q
      /\ runs u (test_mode t) i c.
  Proof.
    intros H T.
    assert (LM : library_model psy sol M).
    { unfold library_model. simpl. auto 8. }
    destruct (constructed_conditions psy sol M a u t LM H T) as (c & S & i & q & fa & full & p & f
      & TS & SP & _ & _ & Q & _ & _ & _ & _ & _ & _ & P & (l & L & N) & FS).
    exists c, i, q. split; [exact S|]. split; [exact TS|]. split; [exact Q|].
    split; [exact SP|]. split; [eexists; exact P|]. exists l. split; [exact L|]. congruence.
  Qed.

  Lemma constant_eer a (u : U) q g n : DXUnit psy sol M a = Ok u -> cop_given Cooling a ->
    nth_error (sd_net_cap (u_c u)) (sd_full (u_c u)) = Some q -> 0 < q ->
    entry (sd_gross_cop (u_c u)) (sd_full (u_c u)) g -> 0 < g ->
    entry (sd_net_cop (u_c u)) (sd_full (u_c u)) n ->
    eer sol M u None = Ok (Btu_Wh n)
    /\ (u_staging u = SINGLE_STAGE -> seer sol M u = Ok (Btu_Wh ((1 - sd_cd (u_c u) / 2) * n))).
  Proof.
    intros H HC Q Q0 G G0 N.
    assert (K : forall t, In t [A_full; B_full] -> exists c, stored t (u_conds u) = Some c
       /\ net_total_cooling_cop sol M u (Some c) = Ok n).
    { intros t T. assert (T' : In t (tests u)).
      { unfold tests. apply in_or_app. left. simpl in *. tauto. }
      destruct (rating_runs a u t H T') as (c & i & q' & S & TS & _ & Rn). exists c. split; [exact S|].
      assert (EI : test_mode t = Cooling /\ i = sd_full (u_c u)).
      { destruct T as [<-|[<-|[]]]; cbn in TS |- *; split; congruence. }
      destruct EI as [EM ->]. rewrite EM in Rn.
      exact (constant_net_cop a u _ q g n c H HC Q G N Q0 G0 Rn). }
    split.
    - destruct (K A_full) as (c & S & E); [simpl; auto|]. cbn [stored] in S.
      unfold eer. assert (E' : net_total_cooling_cop sol M u None = Ok n).
      { rewrite <- E. unfold net_total_cooling_cop, net_total_cooling_capacity, net_cooling_power,
          gross_total_cooling_capacity, gross_cooling_power, cooling_fan_power, both.
        cbn [cooling_conditions]. rewrite S. reflexivity. }
      rewrite E'. cbn [rbind]. rewrite to_Btu_Wh_spec. reflexivity.
    - intros SS. destruct (K B_full) as (c & S & E); [simpl; auto|]. cbn [stored] in S.
      exact (seer_single sol M u c n SS S E).
  Qed.
End Constant.
