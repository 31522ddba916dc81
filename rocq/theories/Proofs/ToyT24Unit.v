(** A unit of the Title 24 model built by the constructor, for the examples. *)
From Coq Require Import Reals QArith Lra Lia List Bool String.
From Verif.Base Require Import Num Res Tac.
From Verif.Model Require Import Units Util Psychrometrics Conditions Defrost Fan Curves
  Tabular Unit NREL BaseModel Title24 Resnet DXUnit.
From Verif.Spec Require Import NrelSpec UnitModels DefaultSpec Title24Spec ModelSpec UnitSpec.
From Verif.Proofs Require Import UnitsR FanProofs FanProofs4 NrelProofs MakeCond CopProofs ToyBuild UnitProofs4
  DefaultFan2 T24Cache T24Cooling.
Import ListNotations.
Local Open Scope R_scope.

(** Air of constant humidity, and a Newton iteration that stops far below. *)
Definition flat_psy : psychro R := {|
  GetHumRatioFromTWetBulb := fun _ _ _ => Ok 0.01;
  GetTWetBulbFromHumRatio := fun _ _ _ => Ok 15;
  GetTWetBulbFromRelHum := fun _ _ _ => Ok 16;
  GetMoistAirEnthalpy := fun t w => Ok (1000 * t);
  GetHumRatioFromEnthalpyAndTDryBulb := fun h t => Ok 0.01;
  GetMoistAirDensity := fun _ _ _ => Ok 1.2;
  GetSatHumRatio := fun _ _ => Ok 0.02;
  GetSatAirEnthalpy := fun t _ => Ok (1006 * t);
  GetTDryBulbFromEnthalpyAndHumRatio := fun _ _ => Ok 20;
  GetRelHumFromTWetBulb := fun _ _ _ => Ok 0.5;
  GetHumRatioFromRelHum := fun _ _ _ => Ok 0.0076
|}.
Definition low_sol : solvers R := {|
  brentq := fun _ a _ => Ok a;
  newton := fun _ => PDone (-1000)
|}.

Definition F24 : R := fr_cfm_per_ton (lit 350).
Lemma F24_val : F24 = per_ton 350.
Proof. exact fl350. Qed.
Lemma F24_pos : 0 < F24.
Proof. rewrite F24_val. unfold per_ton. lra. Qed.

(** Cooling the indoor air by [dt] and its enthalpy by [K]. *)
Lemma flat_coil dt K : 0 < dt < 100 -> 0 < K < 100000 ->
  exists outlet adp h_i h_o h_a,
    PsychState flat_psy (ps_db inC - dt) (ps_p inC)
      [("enthalpy"%string, 1000 * to_C (fr_F (lit 80)) - K)] = Ok outlet
    /\ calculate_adp_state flat_psy low_sol inC outlet = Ok adp
    /\ h_of flat_psy inC = Ok h_i /\ h_of flat_psy outlet = Ok h_o
    /\ h_of flat_psy adp = Ok h_a /\ h_a < h_o < h_i.
Proof.
  intros D B.
  assert (Ti : to_C (T:=R) (fr_F (lit 80)) = 80 / 3).
  { unfold to_C, fr_F. rnum. lra. }
  assert (To : to_C (T:=R) (ps_db inC - dt) = 80 / 3 - dt).
  { change (ps_db inC) with (fr_F (T:=R) (lit 80)). revert Ti. unfold to_C. rnum. intros Ti. lra. }
  do 5 eexists. split; [reflexivity|]. split.
  { unfold calculate_adp_state. cbv zeta.
    change (run_prober_pure _ _) with (Ok (A:=R) (-1000)).
    change (hr_of flat_psy inC) with (Ok (A:=R) 0.01).
    change (hr_of flat_psy _) with (Ok (A:=R) 0.01).
    change (db_C (put_h _ _)) with (to_C (ps_db inC - dt)).
    change (db_C inC) with (to_C (T:=R) (fr_F (lit 80))).
    rewrite Ti, To.
    cbn [rbind nsub nmul RNum]. rewrite pydiv_ok by (apply Rgt_not_eq; lra). cbn [rbind].
    cbn [nltb RNum].
    destruct (Rltb_spec (80 / 3 - dt) (-1000)) as [C|_]; [exfalso; lra|].
    match goal with |- context [Rltb ?a ?b] => destruct (Rltb_spec a b) as [C|_] end.
    { exfalso. unfold Rminus at 1 in C. unfold Rdiv in C. 
      replace (0.01 - 0.01) with 0 in C by lra. lra. }
    cbn [orb]. reflexivity. }
  split; [reflexivity|]. split; [reflexivity|]. split; [reflexivity|].
  change (db_C _) with (to_C (fr_C (T:=R) (-1000))) at 1. cbn [snd].
  change (db_C inC) with (to_C (T:=R) (fr_F (lit 80))). rewrite Ti.
  replace (to_C (T:=R) (fr_C (-1000))) with (-1000) by (unfold to_C, fr_C; rnum; lra).
  split; lra.
Qed.

Section Unit.
  Variables (q h : R) (f : fan R).
  Hypothesis Q : 0 < q.
  Hypothesis H : 0 < h.
  Let air : R := q * F24.
  Let w : R := air * t24_eff.
  Hypothesis HF : make_constant_efficacy_fan [air; air] (fr_inH2O (lit 0.2)) (EffList [t24_eff; t24_eff]) = Ok f.

  Definition t24_args : dxargs R :=
    const_args SINGLE_STAGE AHRI_210_240_2023 [q] [h] None (Some (Scalar 4)) None (Some (Scalar 3)) None.

  Definition tside (c : R) (k : nat) (g np nq gq gp : option R) : side R :=
    mkSide 1 0 None 1 None [c] [g] [Some w] [np] [nq] [gq] [gp] [Some air] [None]
      (Some [Some k]) (Some [Some k]) (Some (Many [F24])) [] (lit 0.25).

  Definition tunit (c hh : side R) (esp : option R) (k : rconds R) (s b t : option R)
      (crank : option R) : dxunit R :=
    mkUnit [] None None None (Some (Scalar 3)) BETWEEN_LOW_FULL true (fr_F (lit 125))
      (default_defrost (fr_F (lit 41))) (fr_F (lit 50)) AHRI_210_240_2023 (lit 0) SINGLE_STAGE
      (fr_F (lit 0)) (Some (fr_F (lit 0)))
      c hh [s] [b] [t] esp (Some f) crank k no_data.

  Definition v0 (esp : option R) : dxunit R :=
    tunit (tside q 0 None None None None None) (tside h 1 None None None None None)
      esp no_conds None None None None.

  Lemma t24_setup : exists u0, init_unit (Title24DXModel low_sol) t24_args = Ok u0
     /\ sbind set_placeholder_arrays (fun _ => md_set_net_capacities_and_fan (Title24DXModel low_sol)
          (Many [q]) (Some (Many [h])) None) u0 = (v0 None, Ok tt).
  Proof.
    eexists. split; [reflexivity|].
    cbv -[make_constant_efficacy_fan fan_efficacy_rated F24 fr_cfm_per_ton fr_W_per_cfm fr_inH2O
  fr_Btuh fr_F lit RNum RNumX default_defrost Rmult Rplus Rminus t24_eff].
    rewrite t24_eff_ok.
    cbv -[make_constant_efficacy_fan fan_efficacy_rated F24 fr_cfm_per_ton fr_W_per_cfm fr_inH2O
  fr_Btuh fr_F lit RNum RNumX default_defrost Rmult Rplus Rminus t24_eff].
    match goal with |- context [make_constant_efficacy_fan ?l ?e ?x] =>
      change (make_constant_efficacy_fan l e x) with
       (make_constant_efficacy_fan [air; air] (fr_inH2O (lit 0.2)) (EffList [t24_eff; t24_eff])) end.
    rewrite HF. reflexivity.
  Qed.

  Let p : R := fr_inH2O (lit 0.5).
  Let gc : R := q + w.
  Let gh : R := h - w.
  Definition v1 k s b t cr : dxunit R :=
    tunit (tside q 0 (Some gc) None None None None) (tside h 1 (Some gh) None None None None)
      (Some p) k s b t cr.

  Lemma t24_gross : gross_step (v0 (Some p)) = (v1 no_conds None None None None, Ok tt).
  Proof. cbv -[RNum RNumX lit Rmult Rplus Rminus F24 fr_inH2O t24_eff fr_F default_defrost]. reflexivity. Qed.

  Definition tc (m : mode) (o : option (psych_state R)) : cond R :=
    flow_cond (match o with Some s => s | None => default_outdoor m end) (default_indoor m)
      0 (Some (match m with Cooling => 0%nat | Heating => 1%nat end))
      (Some (p * ((air / air) * (air / air))))
      1.2 1.2 air (match m with Cooling => q | Heating => h end) 1 None.

  Lemma air_pos : 0 < air.
  Proof. apply Rmult_lt_0_compat; [exact Q|exact F24_pos]. Qed.

  Lemma tc_ok m k s b t cr o :
    make_condition flat_psy m (v1 k s b t cr) 0 None o = Ok (tc m o).
  Proof.
    pose proof air_pos as A. unfold tc.
    assert (Ne : 1.2 <> 0) by lra. assert (Na : air <> 0) by lra.
    destruct m.
    - rewrite (make_condition_ok flat_psy Cooling (v1 k s b t cr) 0 None o q air air p
        [Some 0%nat] (Some 0%nat) 1.2 1.2); auto; try reflexivity. lra.
    - rewrite (make_condition_ok flat_psy Heating (v1 k s b t cr) 0 None o h air air p
        [Some 1%nat] (Some 1%nat) 1.2 1.2); auto; try reflexivity. lra.
  Qed.

  Definition tks : rconds R :=
    mkConds (Some (tc Cooling None)) (Some (tc Cooling t82)) (Some (tc Heating None))
      (Some (tc Heating t35)) (Some (tc Heating t17)) (Some (tc Heating t5))
      None None None None None None None None None None None.

  Lemma t24_conds s b t cr :
    set_rating_conditions flat_psy (v1 no_conds s b t cr) = (v1 tks s b t cr, Ok tt).
  Proof.
    assert (P : forall set m o k, put_cond flat_psy set m (Some 0%nat) o (v1 k s b t cr)
        = (v1 (set (Some (tc m o)) k) s b t cr, Ok tt)).
    { intros. unfold put_cond, sbind, sget, slift. cbn [need]. rewrite tc_ok. reflexivity. }
    unfold set_rating_conditions.
    apply sbind_ok. exists (v1 no_conds s b t cr), tt. split.
    { reflexivity. }
    apply sbind_ok. eexists. eexists. split; [reflexivity|].
    do 6 (apply sbind_ok; eexists; eexists; split; [apply P|]).
    reflexivity.
  Qed.

  Lemma tc_point : t24_point (tc Cooling None) 67 95 80 350.
  Proof.
    pose proof F24_pos as FP. pose proof air_pos as AP.
    exists (fr_F (lit 67)), F24. split; [reflexivity|]. split.
    { cbn [tc flow_cond c_standard_volumetric_airflow_per_capacity]. f_equal. unfold air. field. lra. }
    split; [lra|]. cbn [tc flow_cond c_outdoor c_indoor].
    unfold default_outdoor, default_indoor, psych_wetbulb. cbn [ps_db].
    rewrite !fr_F_deg. unfold deg_F, degF. rewrite F24_val. unfold cfm_per_ton, per_ton.
    cbn [put_wb blank ps_db]. repeat split; rnum; lra.
  Qed.

  Lemma share : t24_shr 67 95 80 350 = 1.5085285 + 0.0242020 * 80 - 0.0592153 * 67 + 0.0012651 * 95 + 0.0016375 * 350
          - 0.0000165 * 67 * 350 + 0.0002021 * 67 ^ 2.
  Proof. unfold t24_shr. apply Rmin_right. lra. Qed.
  Lemma factor x : t24_cap 67 95 80 350 x -> 0.9 < x < 1.1.
  Proof.
    intros [C _]. assert (W : t24_wet 67 95 80 350) by (unfold t24_wet; rewrite share; lra).
    rewrite (C W). split; lra.
  Qed.

  Lemma t24_sensible cr : exists s b t,
    set_sensible_cooling_variables flat_psy low_sol (Title24DXModel low_sol)
      (v1 tks None None None cr) = (v1 tks s b t cr, Ok tt).
  Proof.
    set (cc := tc Cooling None).
    set (s0 := t24_shr 67 95 80 350).
    assert (S0 : 0.5 < s0 < 1) by (unfold s0; rewrite share; lra).
    pose proof F24_pos as FP. pose proof air_pos as AP.
    assert (W0 : 0 < w /\ w < q).
    { unfold w, air. rewrite F24_val, t24_watts. lra. }
    assert (GC : 0 < gc) by (unfold gc; lra).
    assert (CE : exists x, 0.9 < x < 1.1 /\ forall a b c, 
       t24_gross_total_cooling_capacity (v1 tks a b c cr) cc = Ok (x * gc)).
    { destruct (capacity_eq (v1 tks None None None cr) cc 67 95 80 350 tc_point gc eq_refl) as (x & X & E).
      exists x. split; [apply factor; exact X|]. intros. exact E. }
    destruct CE as (x & X & CE).
    assert (GP : 0 < x * gc) by (apply Rmult_lt_0_compat; lra).
    assert (GT : forall a b c, gross_total_cooling_capacity (Title24DXModel low_sol) (v1 tks a b c cr) (Some cc) = Ok (x * gc)).
    { intros. apply gtc24. split; [apply CE|lra]. }
    set (m := 1 * (air * 1.2)).
    assert (M : 0 < m) by (unfold m; lra).
    set (K := x * gc / m).
    assert (KB : 0 < K < 100000).
    { split; [apply Rdiv_lt_0_compat; lra|]. unfold K. apply (Rmult_lt_reg_r m); [exact M|].
      replace (x * gc / m * m) with (x * gc) by (field; lra).
      unfold m, air, gc, w, air. rewrite F24_val.  rewrite t24_watts. unfold per_ton.
      apply Rlt_le_trans with (2 * q); [nra|lra]. }
    assert (DT : s0 * (x * gc) / (m * 1006) = s0 * K / 1006) by (unfold K; field; lra).
    assert (SK : 0 < s0 * K / 1006 < 100).
    { assert (0 < s0 * K) by (apply Rmult_lt_0_compat; lra).
      assert (s0 * K < K) by nra. split; lra. }
    destruct (flat_coil (s0 * K / 1006) K SK KB)
      as (outlet & adp & h_i & h_o & h_a & E1 & E2 & E3 & E4 & E5 & B1 & B2).
    set (bf := (h_o - h_a) / (h_i - h_a)).
    assert (BF : 0 < bf) by (apply Rdiv_lt_0_compat; lra).
    exists (Some s0), (Some bf), (Some (- m * ln bf)).
    unfold set_sensible_cooling_variables.
    apply sbind_ok. eexists. eexists. split; [reflexivity|].
    apply sbind_ok. exists (v1 tks (Some s0) (Some bf) (Some (- m * ln bf)) cr), tt. split; [|reflexivity].
    unfold set_sensible_at.
    apply sbind_ok. exists (v1 tks None None None cr), cc. split; [reflexivity|].
    apply sbind_ok. eexists. eexists. split; [reflexivity|].
    apply sbind_ok. exists (v1 tks None None None cr), s0. split.
    { apply slift_ok. split; [reflexivity|].
      exact (shr_eq (v1 tks None None None cr) cc 67 95 80 350 tc_point). }
    apply sbind_ok. eexists. eexists. split; [reflexivity|].
    apply sbind_ok. eexists. eexists. split; [reflexivity|].
    apply sbind_ok. exists (v1 tks (Some s0) None None cr), tt. split; [reflexivity|].
    unfold calculate_rated_bypass_factor.
    apply sbind_ok. eexists. eexists. split; [reflexivity|]. cbv zeta.
    apply sbind_ok. exists (v1 tks (Some s0) None None cr), bf. split.
    { apply slift_ok. split; [reflexivity|].
      change (arr (u_shr (v1 tks (Some s0) None None cr)) (c_speed cc)) with (Ok s0).
      cbn [rbind]. rewrite GT. cbn [rbind].
      assert (O : gross_cooling_outlet_state flat_psy (Title24DXModel low_sol) (v1 tks (Some s0) None None cr) (Some cc)
                  (Some (nmul s0 (x * gc))) = Ok outlet).
      { unfold gross_cooling_outlet_state. cbn [cooling_conditions rbind].
        change (h_of flat_psy (c_indoor cc)) with (Ok (1000 * to_C (fr_F (T:=R) (lit 80)))).
        cbn [rbind]. change (c_mass_airflow cc) with (Some m). cbn [need rbind].
        rewrite GT. cbn [rbind]. rewrite pydiv_ok by lra. cbn [rbind].
        replace (C_p (T:=R)) with 1006 by (unfold C_p; rnum; lra).
        rewrite pydiv_ok by (cbn [nmul RNum]; apply Rmult_integral_contrapositive_currified; [lra|apply Rgt_not_eq; lra]).
        cbn [nmul RNum]. fold K. rewrite DT. exact E1. }
      rewrite O. cbn [rbind]. change (c_indoor cc) with inC. rewrite E2. cbn [rbind].
      rewrite E3. cbn [rbind]. rewrite E4. cbn [rbind]. rewrite E5. cbn [rbind].
      cbn [nsub RNum]. apply pydiv_ok. apply Rgt_not_eq. lra. }
    apply sbind_ok. eexists. eexists. split; [reflexivity|].
    apply sbind_ok. exists (v1 tks (Some s0) (Some bf) None cr), tt. split; [reflexivity|].
    apply sbind_ok. exists (v1 tks (Some s0) (Some bf) None cr), (- m * ln bf). split.
    { apply slift_ok. split; [reflexivity|]. change (c_mass_airflow cc) with (Some m).
      cbn [need rbind]. unfold pylog. rewrite lit0_R. cbn [nleb RNum].
      destruct (Rleb_spec bf 0) as [C|_]; [exfalso; lra|]. reflexivity. }
    apply sbind_ok. eexists. eexists. split; reflexivity.
  Qed.

  Lemma t24_cop m (v : dxunit R) c k g x :
    side_of m v = tside c k (Some g) None None None None -> x <> 0 -> c / x - w <> 0 ->
    exists n1 n2 n3 n4, base_set_net_cop m (Scalar x) v
      = (wu_side m (tside c k (Some g) n1 n2 n3 n4) v, Ok tt).
  Proof.
    intros S N1 N2.
    do 4 eexists.
    set (v2 := wu_side m (ws_net_cop (repeat (Some x) (sd_n (side_of m v))) (side_of m v)) v).
    change (base_set_net_cop m (Scalar x) v) with (derive_from_net_cop m v2).
    rewrite (net_run m v2 [c / x] [c / x - w] [g / (c / x - w)]); unfold v2; rewrite ?side_wu, ?S.
    - rewrite wu_wu. reflexivity.
    - reflexivity.
    - reflexivity.
    - reflexivity.
    - intros i I. change (sd_n _) with 1%nat in I. assert (i = 0)%nat as -> by lia.
      exists c, g, w, x, (c / x), (c / x - w), (g / (c / x - w)).
      unfold rated_at, entry. repeat split; auto.
  Qed.

  Lemma t24_build : q < 8 * h -> exists u,
    DXUnit flat_psy low_sol (Title24DXModel low_sol) t24_args = Ok u.
  Proof.
    intros QH. assert (W : w = q * (500 / 12000)) by (unfold w, air; rewrite F24_val; apply t24_watts).
    destruct t24_setup as (u0 & I & A).
    set (cr := 10 * to_ton q). destruct (t24_sensible (Some cr)) as (s & b & t & D).
    unfold DXUnit. rewrite I. cbn [rbind]. unfold ex.
    enough (R : exists u, finish_unit flat_psy low_sol (Title24DXModel low_sol) t24_args u0 = (u, Ok tt)).
    { destruct R as (u & ->). exists u. reflexivity. }
    enough (R : exists u x, finish_unit flat_psy low_sol (Title24DXModel low_sol) t24_args u0 = (u, Ok x)).
    { destruct R as (u & [] & R). eauto. }
    unfold finish_unit.
    apply sbind_ok in A. destruct A as (w1 & z & A1 & A2). destruct z.
    assert (G : forall (m : st (dxunit R) unit) f u v, m u = (v, Ok tt) -> (exists z x, f v = (z, Ok x)) ->
      exists z (x : unit), sbind m (fun _ => f) u = (z, Ok x)).
    { intros m f1 u v E (z & x & F). exists z, x. apply sbind_ok. eauto. }
    apply (G _ _ _ w1); [exact A1|].
    apply (G _ _ _ (v0 None)); [exact A2|].
    apply (G _ _ _ (v0 (Some p))).
    { unfold reset_full_esp, sbind, sread. rewrite (full_esp_ok _ p); [reflexivity|].
      split; [reflexivity|]. exists q. split; reflexivity. }
    pose proof t24_gross as B. unfold gross_step in B.
    apply sbind_ok in B. destruct B as (w2 & w3 & B1 & B2).
    apply pair_ok_inj in B1. destruct B1 as [<- <-].
    apply sbind_ok in B2. destruct B2 as (w4 & z & B2 & B3). destruct z.
    rewrite sbind_eq. cbn [sget].
    apply (G _ _ _ w4); [exact B2|].
    apply (G _ _ _ (v1 no_conds None None None None)); [exact B3|].
    rewrite sbind_eq.
    change (a_crank t24_args) with (@None R). cbv iota.
    change (sread _ (v1 no_conds None None None None))
      with (v1 no_conds None None None None, Ok (nmul (lit 10) (to_ton q))).
    cbv beta iota.
    assert (CR : nmul (lit 10) (to_ton q) = cr).
    { unfold cr. cbn [nmul RNum]. f_equal. rnum. lra. }
    rewrite CR.
    apply (G _ _ _ (v1 no_conds None None None (Some cr))); [reflexivity|].
    apply (G _ _ _ (v1 tks None None None (Some cr))); [apply t24_conds|].
    apply (G _ _ _ (v1 tks s b t (Some cr))); [exact D|].
    set (v := v1 tks s b t (Some cr)).
    apply (G _ _ _ v); [reflexivity|].
    apply (G _ _ _ v); [reflexivity|].
    assert (X1 : q / 4 - w <> 0) by (apply Rgt_not_eq; lra).
    assert (X2 : h / 3 - w <> 0) by (apply Rgt_not_eq; lra).
    destruct (t24_cop Cooling v q 0 gc 4 eq_refl (Rgt_not_eq 4 0 ltac:(lra)) X1)
      as (a1 & a2 & a3 & a4 & E1).
    set (v2 := wu_side Cooling _ v) in E1.
    apply (G _ _ _ v2); [exact E1|]. apply (G _ _ _ v2); [reflexivity|].
    destruct (t24_cop Heating v2 h 1 gh 3 eq_refl (Rgt_not_eq 3 0 ltac:(lra)) X2)
      as (b1 & b2 & b3 & b4 & E2).
    set (v3 := wu_side Heating _ v2) in E2.
    apply (G _ _ _ v3); [exact E2|]. apply (G _ _ _ v3); [reflexivity|].
    apply (G _ _ _ v3); [reflexivity|]. apply (G _ _ _ v3); [reflexivity|].
    eexists. eexists. reflexivity.
  Qed.
End Unit.

Lemma t24_constructed q h : 0 < q -> 0 < h -> q < 8 * h ->
  exists u, DXUnit flat_psy low_sol (Title24DXModel low_sol) (t24_args q h) = Ok u.
Proof.
  intros Q H L. pose proof F24_pos as F.
  assert (A : 0 < q * F24) by (apply Rmult_lt_0_compat; lra).
  destruct (const_total [q * F24; q * F24] (fr_inH2O (lit 0.2)) (EffList [t24_eff; t24_eff]) (q * F24))
    as (f & E); [reflexivity|lra|unfold fr_inH2O, inH2O; rnum; lra|].
  exact (t24_build q h f Q H E L).
Qed.
