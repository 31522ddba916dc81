(** The heating season of the single-stage RESNET unit of ToyResnet.v. *)
From Coq Require Import Reals QArith Lra Psatz Lia List Bool String ZArith.
From Verif.Base Require Import Num Res Tac.
From Verif.Model Require Import Units Util Psychrometrics Conditions Defrost Fan Curves
  Tabular Unit NREL BaseModel Title24 Resnet DXUnit RatingSolver.
From Verif.Spec Require Import ModelSpec TabularSpec NrelSpec UnitSpec SeasonSpec RatingSpec.
From Verif.Proofs Require Import UtilProofs UnitProofs4 UnitsR FanProofs FanProofs2 NrelProofs ResnetProofs MakeCond TabInterp TabBuild
  TabGross SingleTable SingleUnit SingleRating SingleRating2 HspfProofs2 ToyBuild ToySeason ToySeason2 ToyResnetTable Secant ToyResnet.
Import ListNotations.
Local Open Scope R_scope.

Lemma single_hp17 q95 seer eer q47 q17 hspf tmax tmin cop cd (p : perf R) :
  make_single_speed_model_data q95 seer eer q47 (Some q17) hspf tmax tmin (Some cop) cd = Ok p ->
  heating_power p 1 (fr_F 17)
  = Ok (q47 / cop * ((q17 / q47)%R * calc_biquad HEATING_EIR_FT (lit 70) (lit 17))%num).
Proof.
  intros H. unfold make_single_speed_model_data in H. cbv zeta in H.
  set (t82 := fr_F (lit (T:=R) 82)) in *. set (t95 := fr_F (lit (T:=R) 95)) in *.
  set (t17 := fr_F (lit (T:=R) 17)) in *. set (t47 := fr_F (lit (T:=R) 47)) in *.
  set (t60 := fr_F (lit (T:=R) 60)) in *. set (t5 := fr_F (lit (T:=R) 5)) in *.
  assert (E17 : fr_F 17 = t17) by (unfold t17; f_equal; rnum; lra).
  assert (L1 : t82 < t95) by (apply fr_F_lt; rnum; lra).
  assert (L2 : t17 < t47) by (apply fr_F_lt; rnum; lra).
  rewrite E17. clearbody t82 t95 t17 t47 t60 t5. clear E17.
  pose proof (knows_new CoolingTable 1 _ (sorted2 _ _ L1)) as KC.
  pose proof (knows_new HeatingTable 1 _ (sorted2 _ _ L2)) as KH.
  inv_ok. inv_ex. track. use_finish H.
  rltd HC. rltd HP. rltd HQ. rltd HW. apply HW. inlist.
Qed.

Lemma between_17_47 (t : table R) v17 v47 x : up_to_date t -> consecutive (t_temps t) (fr_F 17) (fr_F 47) ->
  calculate 1 (fr_F 17) t = Ok v17 -> calculate 1 (fr_F 47) t = Ok v47 -> 17 <= x <= 47 ->
  calculate 1 (fr_F x) t = Ok (v17 + (v47 - v17) / 30 * (x - 17)).
Proof.
  intros U C E1 E2 Hx. destruct (calc_affine t t _ _ 1 U C) as (p & q & F).
  assert (B : fr_F 17 <= fr_F x <= fr_F 47) by (unfold fr_F; rnum; lra).
  rewrite F in E1, E2 |- * by (left; lra). apply Ok_inj in E1, E2. f_equal. rewrite <- E1, <- E2.
  unfold fr_F. rnum. field.
Qed.

Lemma eir_17 : 1.3 < calc_biquad (T:=R) HEATING_EIR_FT (lit 70) (lit 17) < 1.4.
Proof. unfold calc_biquad, HEATING_EIR_FT. rnum. lra. Qed.
Definition heat_F : list R := [0; 5; 17; 35; 47; 60].
Lemma heat_curves x : In x heat_F -> 0 < heat_cap_T 70 x /\ 0 < heat_eir_T 70 x.
Proof.
  intros I. cbn [In heat_F] in I.
  repeat (destruct I as [<- | I]; [unfold heat_cap_T, heat_eir_T; split; lra|]). contradiction.
Qed.

(** The heating line of the net table. *)
Definition q35 : R := 6500 + (10000 - 6500) / 30 * (35 - 17).
Definition p47 (c : R) : R := 10000 / c.
Definition p17 (c : R) : R := p47 c * (6500 / 10000 * calc_biquad HEATING_EIR_FT (lit 70) (lit 17)).
Definition p35 (c : R) : R := p17 c + (p47 c - p17 c) / 30 * (35 - 17).

Lemma p47_val c : 3 <= c <= 4 -> 2500 <= p47 c <= 3334.
Proof.
  intros H. unfold p47. split; apply (Rmult_le_reg_r c); try lra;
    replace (10000 / c * c) with 10000 by (field; lra); lra.
Qed.
Lemma p17_val c : 3 <= c <= 4 -> 0.84 * p47 c < p17 c < 0.92 * p47 c.
Proof.
  intros H. pose proof (p47_val c H). unfold p17. pose proof eir_17 as E.
  set (e := calc_biquad _ _ _) in *. clearbody e. set (p := p47 c) in *. clearbody p. nra.
Qed.

Section Heat.
  Variables (hs c : R) (net : perf R).
  Hypothesis Hc : 3 <= c <= 4.
  Hypothesis Hnet : make_single_speed_model_data 10000 14 12 10000 (Some 6500) hs (fr_F (lit 125)) (fr_F (lit 0))
      (Some c) (lit 0.15) = Ok net.
  Hypothesis Cols : heating_columns net.
  Hypothesis Cells : cells_above 1000 net.

  Lemma net_heat : heating_capacity net 1 (fr_F 47) = Ok 10000 /\ heating_capacity net 1 (fr_F 35) = Ok q35
    /\ heating_capacity net 1 (fr_F 17) = Ok 6500 /\ heating_power net 1 (fr_F 47) = Ok (p47 c)
    /\ heating_power net 1 (fr_F 35) = Ok (p35 c) /\ heating_power net 1 (fr_F 17) = Ok (p17 c).
  Proof.
    destruct (single_shape _ _ _ _ _ _ _ _ _ _ _ Hnet) as (_ & _ & _ & _ & U3 & U4).
    destruct (toy_powers hs c net Hc Hnet Cells) as (_ & _ & _ & W).
    rewrite lit1_R in W. replace (lit 47) with 47 in W by (rnum; lra).
    destruct (single_reproduces _ _ _ _ _ _ _ _ _ _ _ Hnet) as (_ & _ & _ & Q1 & Q2 & _); try lra.
    specialize (Q2 _ eq_refl).
    pose proof (single_hp17 _ _ _ _ _ _ _ _ _ _ _ Hnet) as P2. destruct Cols as (C1 & C2).
    split; [exact Q1|]. split; [|split; [exact Q2|split; [exact W|split; [|exact P2]]]].
    - exact (between_17_47 _ _ _ 35 U3 C1 Q2 Q1 ltac:(lra)).
    - exact (between_17_47 _ _ _ 35 U4 C2 P2 W ltac:(lra)).
  Qed.

  Variables (g : perf R) (P95 s b n : R).
  Hypothesis Sh : shifted net g.
  Let u := toy_unit hs c net g P95 s b n.

  Lemma heat_fan o : fan_power rt_sol u (rcd Heating o) = Ok fanwt.
  Proof. unfold fan_power. cbn [need rbind rcd flow_cond]. apply toy_power. lia. Qed.

  Lemma gross_heat o x (look : perf R -> R -> R -> res R) fn v y :
    ps_db (c_outdoor (rcd Heating o)) = fr_F x ->
    look g 1 (fr_F x) = Ok v ->
    (forall o', ps_db (c_outdoor (rcd Heating o')) = fr_F x -> fn u (rcd Heating o') = Ok y) -> y <> 0 ->
    resnet_value lin_psy Heating look fn u (rcd Heating o) = Ok v.
  Proof.
    intros Ho L F N. unfold resnet_value, correction_factor. rewrite Ho.
    change (rn_net (u_rn u)) with (Some net). cbv beta iota.
    change (need AttributeError (rn_gross (u_rn u))) with (Ok g). cbn [rbind].
    change (table_speed u (c_speed (rcd Heating o))) with (Ok (lit (T:=R) 1)). cbn [rbind].
    rewrite lit1_R, L. cbn [rbind].
    assert (Po : exists o', PsychState lin_psy (fr_F x) atm [("rel_hum"%string, lit 0.4)] = Ok o'
               /\ ps_db o' = fr_F x).
    { eexists. split; reflexivity. }
    destruct Po as (o' & Po & Do). rewrite Po. cbn [rbind].
    change (c_speed (rcd Heating o)) with 0%nat.
    unfold u at 1, toy_unit. rewrite rcd_ok. cbn [rbind].
    rewrite (F o Ho). cbn [rbind]. rewrite (F (Some o') Do). cbn [rbind].
    rewrite pydiv_ok by exact N. cbn [rbind nmul RNum]. f_equal. field. exact N.
  Qed.

  Lemma charge_one f m o look fn : f = resnet_grading_model lin_psy m look fn -> f u (rcd Heating o) = Ok 1.
  Proof. intros ->. apply grading_zero. unfold u, toy_unit, u_full, tunit. cbn [u_charge]. apply lit0_R. Qed.

  Lemma heat_at o x q p : In x heat_F -> ps_db (c_outdoor (rcd Heating o)) = fr_F x ->
    heating_capacity net 1 (fr_F x) = Ok q -> heating_power net 1 (fr_F x) = Ok p ->
    md_ghc Mr u (rcd Heating o) = Ok (q - fanwt) /\ md_ghp Mr u (rcd Heating o) = Ok (p - fanwt)
    /\ gross_steady_state_heating_capacity Mr u (Some (rcd Heating o)) = Ok (q - fanwt)
    /\ gross_steady_state_heating_power Mr u (Some (rcd Heating o)) = Ok (p - fanwt).
  Proof.
    intros Hx Ho Q P. pose proof fanwt_val as FW. pose proof (p47_val c Hc) as V. unfold p47 in V.
    destruct (heat_curves x Hx) as (K1 & K2).
    assert (DX : degF (fr_F x) = x) by (rewrite <- to_F_degF; unfold to_F, fr_F; rnum; lra).
    destruct flow_one as (_ & _ & F3 & F4).
    destruct (Sh 1 (fr_F x) q) as (_ & _ & S3 & _). destruct (Sh 1 (fr_F x) p) as (_ & _ & _ & S4).
    specialize (S3 Q). specialize (S4 P).
    assert (E1 : entry (sd_gross_cap (u_h u)) 0 (10000 - fanwt)) by reflexivity.
    assert (E2 : entry (sd_gross_cop (u_h u)) 0 ((10000 - fanwt) / (10000 / c - fanwt))) by reflexivity.
    assert (GC : 0 < (10000 - fanwt) / (10000 / c - fanwt)) by (apply Rdiv_lt_0_compat; lra).
    assert (GQ : 0 < (10000 - fanwt) / ((10000 - fanwt) / (10000 / c - fanwt))) by (apply Rdiv_lt_0_compat; lra).
    assert (M1 : md_ghc Mr u (rcd Heating o) = Ok (q - fanwt)).
    { apply (gross_heat o x heating_capacity nrel_gross_heating_capacity _ (1 * (heat_cap_T 70 x * (10000 - fanwt))) Ho S3).
      - intros o' Ho'. rewrite (ghc_eq u (rcd Heating o') 1 (10000 - fanwt) eq_refl E1).
        rewrite Ho', DX, F3. change (c_indoor (rcd Heating o')) with (default_indoor (T:=R) Heating).
        rewrite default_idb. reflexivity.
      - apply Rgt_not_eq. rewrite Rmult_1_l. apply Rmult_lt_0_compat; [exact K1|lra]. }
    assert (M2 : md_ghp Mr u (rcd Heating o) = Ok (p - fanwt)).
    { apply (gross_heat o x heating_power nrel_gross_heating_power _
         (heat_eir_flow 1 * heat_cap_flow 1 * (heat_eir_T 70 x * heat_cap_T 70 x
           * ((10000 - fanwt) / ((10000 - fanwt) / (10000 / c - fanwt))))) Ho S4).
      - intros o' Ho'. rewrite (ghp_eq u (rcd Heating o') 1 (10000 - fanwt) _ eq_refl E1 E2) by lra.
        cbv zeta. rewrite Ho', DX. change (c_indoor (rcd Heating o')) with (default_indoor (T:=R) Heating).
        rewrite default_idb. reflexivity.
      - apply Rgt_not_eq. rewrite F3, F4, !Rmult_1_l.
        apply Rmult_lt_0_compat; [apply Rmult_lt_0_compat; assumption|exact GQ]. }
    split; [exact M1|]. split; [exact M2|].
    unfold gross_steady_state_heating_capacity, gross_steady_state_heating_power.
    cbn [heating_conditions rbind]. unfold product. rewrite M1, M2. cbn [rbind].
    split.
    - rewrite (charge_one (md_f_ghc Mr) _ o _ _ eq_refl). cbn [rbind nmul RNum]. f_equal. lra.
    - rewrite (charge_one (md_f_ghp Mr) _ o _ _ eq_refl). cbn [rbind nmul RNum]. f_equal. lra.
  Qed.

  Definition T1 : point R := mkPoint (deg_F 47) 10000 (p47 c).
  Definition T2 : point R := mkPoint (deg_F 35) ((q35 - fanwt) * (1 - 1.8 * 0.029) + fanwt)
    ((p35 c - fanwt) * (1 - 0.3 * 0.029) + fanwt).
  Definition T3 : point R := mkPoint (deg_F 17) 6500 (p17 c).

  Lemma heat_steady o x q p : In x heat_F -> ps_db (c_outdoor (rcd Heating o)) = fr_F x ->
    heating_capacity net 1 (fr_F x) = Ok q -> heating_power net 1 (fr_F x) = Ok p ->
    heating_test rt_sol Mr u (Some (rcd Heating o)) (mkPoint (deg_F x) q p).
  Proof.
    intros Hx Ho Q P. destruct (heat_at o x q p Hx Ho Q P) as (_ & _ & G1 & G2).
    exists (rcd Heating o). split; [reflexivity|]. split; [rewrite Ho; symmetry; apply fr_F_deg|].
    unfold net_steady_state_heating_capacity, net_steady_state_heating_power, both, heating_fan_power.
    cbn [heating_conditions rbind pt_q pt_p]. rewrite G1, G2, heat_fan. cbn [rbind]. unfold plus.
    cbn [nadd RNum]. split; f_equal; lra.
  Qed.
  Lemma heat_frost : frost_test rt_sol Mr u (Some (rcd Heating t35)) T2.
  Proof.
    destruct net_heat as (_ & Q & _ & _ & P & _).
    assert (L : lit (T:=R) 35 = 35) by (rnum; lra).
    assert (Ho : ps_db (c_outdoor (rcd Heating t35)) = fr_F 35) by (rewrite <- L; reflexivity).
    destruct (heat_at t35 35 _ _ ltac:(cbn; tauto) Ho Q P) as (_ & M2 & G1 & _).
    assert (D : in_defrost (u_defrost u) (rcd Heating t35) = true).
    { unfold in_defrost, in_defrost_at. rewrite Ho.
      change (df_strategy (u_defrost u)) with DSReverseCycle.
      change (df_low_temperature (u_defrost u)) with (@None R).
      change (df_high_temperature (u_defrost u)) with (fr_F (T:=R) (lit 41)). cbv beta iota.
      cbn [nltb RNum]. destruct (Rltb_spec (fr_F 35) (fr_F (lit 41))) as [_|C]; [reflexivity|].
      exfalso. apply C. apply fr_F_lt. rnum. lra. }
    assert (F : resnet_fraction (degF (ps_db (c_outdoor (rcd Heating t35)))) = 0.029).
    { rewrite Ho. replace (degF (fr_F 35)) with 35 by (rewrite <- to_F_degF; unfold to_F, fr_F; rnum; lra).
      unfold resnet_fraction. rewrite Rmin_left by lra. rewrite Rmax_left by lra. lra. }
    pose proof (resnet_capacity_derate lin_psy rt_sol _ _ _ G1) as I1.
    pose proof (resnet_power_derate lin_psy rt_sol _ _ _ M2) as I2.
    rewrite D, F in I1, I2.
    exists (rcd Heating t35). split; [reflexivity|].
    split; [rewrite Ho; symmetry; apply fr_F_deg|].
    unfold net_integrated_heating_capacity, net_integrated_heating_power, both, heating_fan_power.
    cbn [heating_conditions rbind T2 pt_q pt_p]. unfold Mr. rewrite I1, I2, heat_fan. split; reflexivity.
  Qed.

  Lemma toy_cooling : net_total_cooling_capacity rt_sol Mr u (Some (rcd Cooling None)) = Ok 10000.
  Proof.
    assert (Q1 : cooling_capacity net (lit 1) (fr_F (lit 95)) = Ok 10000).
    { rewrite lit1_R. replace (lit 95) with 95 by (rnum; lra). exact (proj1 (single_caps _ _ _ _ _ _ _ _ _ _ _ Hnet)). }
    destruct (Sh (lit 1) (fr_F (lit 95)) 10000) as (G95 & _). specialize (G95 Q1).
    assert (F : fan_power rt_sol u (rcd Cooling None) = Ok fanwt).
    { unfold fan_power. cbn [need rbind rcd flow_cond]. apply toy_power. lia. }
    unfold net_total_cooling_capacity, both. cbn [cooling_conditions rbind].
    unfold u, toy_unit. rewrite toy_gtc by exact G95. cbn [rbind].
    unfold cooling_fan_power. cbn [cooling_conditions rbind]. fold (toy_unit hs c net g P95 s b n). fold u.
    rewrite F. cbn [rbind]. unfold minus. cbn [nsub RNum]. f_equal. lra.
  Qed.
End Heat.

Lemma full_bins c i : 3 <= c <= 4 -> (i < 18)%nat ->
  let q := full_line q_at (T1 c) (T2 c) (T3 c) (heat_t i) in
  let p := full_line p_at (T1 c) (T2 c) (T3 c) (heat_t i) in
  0 < q /\ 0 < p /\ 0.5 <= q / p <= 20.
Proof.
  intros Hc Hi. cbv zeta. pose proof fanwt_val as FW. pose proof (p47_val c Hc) as A. pose proof (p17_val c Hc) as B.
  enough (H : forall q p, q = full_line q_at (T1 c) (T2 c) (T3 c) (heat_t i) ->
     p = full_line p_at (T1 c) (T2 c) (T3 c) (heat_t i) -> 0 < q /\ 0 < p /\ 0.5 * p <= q <= 20 * p).
  { destruct (H _ _ eq_refl eq_refl) as (X & Y & Z). split; [exact X|]. split; [exact Y|].
    split; apply (Rmult_le_reg_r (full_line p_at (T1 c) (T2 c) (T3 c) (heat_t i))); try exact Y;
      unfold Rdiv; rewrite Rmult_assoc, Rinv_l by lra; lra. }
  intros q p. unfold full_line.
  repeat match goal with |- context [Rle_dec ?a ?b] => destruct (Rle_dec a b) end;
    unfold q_at, p_at, line, T1, T2, T3, q35, p35, heat_t, deg_F in *; cbn [pt_t pt_q pt_p] in *;
    set (w := fanwt) in *; set (x := p47 c) in *; set (y := p17 c) in *; clearbody w x y;
    do 18 (destruct i as [|i]; [cbn [INR] in *; intros -> ->; lra|]); lia.
Qed.

Definition toy_region : dxunit R := tunit 0 0 (start_side []) (start_side []) nocoil None None None no_conds (trn None None None None).

(** The HSPF, whatever HSPF was asked for. *)
Lemma toy_hspf c : 3 <= c <= 4 -> exists v, forall hs net g P95 s b n,
  make_single_speed_model_data 10000 14 12 10000 (Some 6500) hs (fr_F (lit 125)) (fr_F (lit 0))
      (Some c) (lit 0.15) = Ok net ->
  heating_columns net -> cells_above 1000 net -> shifted net g ->
  hspf rt_sol Mr (toy_unit hs c net g P95 s b n) 4 = Ok v.
Proof.
  intros Hc. destruct (region4_2023 toy_region eq_refl) as (d & k & Cl & Kp & Dd & C1 & C2 & Z & Hh).
  eexists. intros hs net g P95 s b n Hnet Cols Cells Sh.
  set (u := toy_unit hs c net g P95 s b n).
  destruct (net_heat hs c net Hc Hnet Cols Cells) as (Q1 & _ & Q3 & P1 & _ & P3).
  assert (L47 : lit (T:=R) 47 = 47) by (rnum; lra).
  assert (L17 : lit (T:=R) 17 = 17) by (rnum; lra).
  assert (A1 : ps_db (c_outdoor (rcd Heating None)) = fr_F 47) by (rewrite <- L47; reflexivity).
  assert (A3 : ps_db (c_outdoor (rcd Heating t17)) = fr_F 17) by (rewrite <- L17; reflexivity).
  destruct (hspf_single_total rt_sol Mr u 4 (fr_F (lit 0)) d (T1 c) (T2 c) (T3 c) (load23 1.15 10000) 1 0.5 20)
    as (v & V & E & _).
  - reflexivity.
  - reflexivity.
  - exact Cl.
  - exact (heat_steady hs c net Hc g P95 s b n Sh None 47 _ _ ltac:(cbn; tauto) A1 Q1 P1).
  - exact (heat_frost hs c net Hc Hnet Cols Cells g P95 s b n Sh).
  - exact (heat_steady hs c net Hc g P95 s b n Sh t17 17 _ _ ltac:(cbn; tauto) A3 Q3 P3).
  - unfold T1, T3, deg_F. cbn [pt_t]. lra.
  - unfold T2, T3, deg_F. cbn [pt_t]. lra.
  - unfold heat_load. cbn [u_standard u_staging].
    exists 1.15, (deg_F 55), (rcd Cooling None), 10000. split; [exact C1|]. split; [exact Z|]. split; [reflexivity|].
    split; [exact (toy_cooling hs c net Hnet g P95 s b n Sh)|].
    split; [rewrite Dd; unfold deg_F; lra|]. intros t. rewrite Dd. reflexivity.
  - apply (load_sum d k); auto; try lra. apply (climate_hours toy_region 4 d Cl).
  - change (Ok (lit (T:=R) 1) = Ok 1). rewrite lit1_R. reflexivity.
  - lra.
  - change (sd_cd (u_h u)) with (lit (T:=R) 0.15). rnum. lra.
  - lra.
  - intros i Hi. apply full_bins; assumption.
  - change (u_heating_off u) with (fr_F (T:=R) (lit 0)) in E.
    change (sd_cd (u_h u)) with (lit (T:=R) 0.15) in E. rewrite V, E. reflexivity.
Qed.

(** Asked for the HSPF of the unit with heating COP 3.5, the solver finds that unit. *)
Theorem toy_rating_unit_psc : exists hs u, make_rating_unit lin_psy rt_sol (toy_inputs hs) = Ok u
  /\ rn_motor (u_rn u) = Some MotorPSC.
Proof.
  destruct (toy_hspf 3.5) as (hs & Hv); [lra|]. exists hs.
  destruct (toy_table 3.5 hs) as (net & N & Cols & Cl); [lra|].
  destruct (toy_built hs 3.5 net) as (g & P & s & b & n & E & Sh & _); [lra|exact N|exact Cl|].
  specialize (Hv hs net g P s b n N Cols Cl Sh).
  exists (toy_unit hs 3.5 net g P s b n). split; [|reflexivity].
  unfold make_rating_unit. cbn [ri_staging toy_inputs rbind].
  assert (Z : hspf_error lin_psy rt_sol (toy_inputs hs) (lit 3) 3.5 = Ok 0).
  { unfold hspf_error, rating_unit. fold (toy_args hs 3.5). fold Mr.
    change (M lin_psy rt_sol) with Mr. rewrite E. cbn [rbind]. rewrite Hv. cbn [rbind ri_hspf toy_inputs].
    f_equal. cbn [nsub RNum]. lra. }
  match goal with |- (let! x := ?r in _) = _ => assert (R : r = Ok 3.5) end.
  { change (newton rt_sol _) with secant. unfold secant, check_root. cbn [run_prober_pure]. rewrite Z.
    cbn [rbind]. destruct (Req_EM_T 0 0) as [_|C]; [reflexivity|lra]. }
  rewrite R. cbn [rbind]. unfold rating_unit. exact E.
Qed.
Theorem toy_rating_unit : exists hs u, make_rating_unit lin_psy rt_sol (toy_inputs hs) = Ok u.
Proof. destruct toy_rating_unit_psc as (hs & u & E & _). exists hs, u. exact E. Qed.
