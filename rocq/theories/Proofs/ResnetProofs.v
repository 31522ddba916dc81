(** Lemmas for C34 and C35. *)
From Coq Require Import Reals QArith Lra Psatz Lia List Bool String.
From Verif.Base Require Import Num Res Tac.
From Verif.Model Require Import Units Util Psychrometrics Conditions Defrost Fan Curves
  Tabular Unit NREL BaseModel Title24 Resnet DXUnit.
From Verif.Spec Require Import NrelSpec ModelSpec.
From Verif.Proofs Require Import UnitsR PsychProofs DefrostProofs MakeCond NrelProofs ToyUnit NrelProofs2
  T24Cache ModelProofs.
From Verif.Props Require Import P_Psych.
Import ListNotations.
Local Open Scope R_scope.

(** * C34 *)
Lemma resnet_fdef_eq (c : cond R) :
  resnet_fdef c = resnet_fraction (degF (ps_db (c_outdoor c))).
Proof.
  unfold resnet_fdef, resnet_fraction. rewrite to_F_degF. set (t := degF _). clearbody t.
  rnum. unfold Rmax, Rmin.
  rinner; destruct (Rle_dec (134 * / 1000 - 3 * / 1000 * t) (8 * / 100));
    destruct (Rle_dec _ 0); lra.
Qed.
Lemma resnet_fraction_bounds t : 0 <= resnet_fraction t <= 0.08.
Proof.
  unfold resnet_fraction. split; [apply Rmax_r|]. apply Rmax_lub; [|lra]. apply Rmin_r.
Qed.

Section C34.
  Variable psy : psychro R.
  Variable sol : solvers R.
  Notation M := (RESNETDXModel psy sol).

  Lemma resnet_capacity_derate u c s :
    gross_steady_state_heating_capacity M u (Some c) = Ok s ->
    gross_integrated_heating_capacity M u (Some c)
    = Ok (s * if in_defrost (u_defrost u) c
              then 1 - 1.8 * resnet_fraction (degF (ps_db (c_outdoor c))) else 1).
  Proof.
    intros H. cbv [gross_steady_state_heating_capacity heating_conditions rbind] in H.
    cbv [gross_integrated_heating_capacity heating_conditions rbind].
    cbn [md_gihc md_ghc md_f_ghc RESNETDXModel] in *.
    unfold resnet_gross_integrated_heating_capacity. cbv zeta.
    destruct (in_defrost (u_defrost u) c).
    - change (resnet_f_ghc psy) with (resnet_f_ghc psy) in H. rewrite H. cbn [rbind].
      rewrite resnet_fdef_eq. f_equal. cbn [nmul nsub RNum].
      replace (lit 1.8) with 1.8 by (rnum; lra). rewrite lit1_R. reflexivity.
    - rewrite H. f_equal. lra.
  Qed.

  Lemma resnet_power_derate u c p :
    md_ghp M u c = Ok p ->
    gross_integrated_heating_power M u (Some c)
    = Ok (p * if in_defrost (u_defrost u) c
              then 1 - 0.3 * resnet_fraction (degF (ps_db (c_outdoor c))) else 1).
  Proof.
    intros H. cbv [gross_integrated_heating_power heating_conditions rbind].
    cbn [md_gihp md_ghp RESNETDXModel] in *.
    unfold resnet_gross_integrated_heating_power. cbv zeta.
    destruct (in_defrost (u_defrost u) c).
    - rewrite H. cbn [rbind].
      rewrite resnet_fdef_eq. f_equal. cbn [nmul nsub RNum].
      replace (lit 0.3) with 0.3 by (rnum; lra). rewrite lit1_R. reflexivity.
    - rewrite H. f_equal. lra.
  Qed.

  Lemma resnet_derate_bounds u c :
    0.856 <= (if in_defrost (u_defrost u) c
              then 1 - 1.8 * resnet_fraction (degF (ps_db (c_outdoor c))) else 1) <= 1
    /\ 0.976 <= (if in_defrost (u_defrost u) c
              then 1 - 0.3 * resnet_fraction (degF (ps_db (c_outdoor c))) else 1) <= 1.
  Proof.
    pose proof (resnet_fraction_bounds (degF (ps_db (c_outdoor c)))).
    destruct (in_defrost _ _); lra.
  Qed.

  Lemma resnet_power_ignores_charge u c s v :
    in_defrost (u_defrost u) c = false ->
    c_mass_airflow_ratio c = Some 1 ->
    charge_only Heating false (degC (ps_db (c_indoor c))) (degC (ps_db (c_outdoor c)))
      (u_charge u) <> 1 ->
    gross_steady_state_heating_power M u (Some c) = Ok s ->
    gross_integrated_heating_power M u (Some c) = Ok v ->
    (s <> 0 -> v <> s)
    /\ s = v * charge_only Heating false (degC (ps_db (c_indoor c)))
                 (degC (ps_db (c_outdoor c))) (u_charge u).
  Proof.
    intros Hd Hr Hc Hs Hv.
    cbv [gross_steady_state_heating_power heating_conditions rbind] in Hs.
    cbn [md_ghp md_f_ghp RESNETDXModel] in Hs.
    apply rbind_ok in Hs. destruct Hs as (p & Hp & Hs).
    apply rbind_ok in Hs. destruct Hs as (f & Hf & Hs).
    apply Ok_inj in Hs. subst s.
    rewrite (resnet_power_derate u c p Hp), Hd in Hv. apply Ok_inj in Hv.
    rewrite Rmult_1_r in Hv. subst v.
    apply grading_rated in Hf; [|auto]. rewrite <- Hf in *. cbn [nmul RNum] in *.
    split; [|lra]. intros Hn E. apply Hn.
    assert (E' : p * (f - 1) = 0) by lra.
    apply Rmult_integral in E'. destruct E' as [->|]; lra.
  Qed.
End C34.

(** * C35 *)
Lemma gtc_inv (u : dxunit R) c v : nrel_gross_total_cooling_capacity u c = Ok v ->
  exists w r q, ps_wb (c_indoor c) = Some w /\ c_mass_airflow_ratio c = Some r
    /\ entry (sd_gross_cap (u_c u)) (c_speed c) q
    /\ v = cool_cap_flow r * (cool_cap_T (curve_wb w) (curve_odb (ps_db (c_outdoor c))) * q).
Proof.
  intros H0. pose proof H0 as H. unfold nrel_gross_total_cooling_capacity in H.
  apply rbind_ok in H. destruct H as (t & Ht & H).
  apply rbind_ok in H. destruct H as (r & Hr & H).
  apply rbind_ok in H. destruct H as (q & Hq & _).
  apply need_ok in Hr. apply arr_ok in Hq.
  unfold cooling_temperatures in Ht. apply rbind_ok in Ht. destruct Ht as (w & Hw & _).
  assert (Hw' : ps_wb (c_indoor c) = Some w).
  { revert Hw. cbv [wb_of obs get_wb sread need snd].
    destruct (ps_wb (c_indoor c)); intros E; inversion E; reflexivity. }
  exists w, r, q. repeat (split; [assumption|]).
  rewrite (gtc_eq u c w r q Hw' Hr Hq) in H0. apply Ok_inj in H0. auto.
Qed.

Lemma gcp_inv (u : dxunit R) c v : nrel_gross_cooling_power u c = Ok v ->
  exists w r q cop, ps_wb (c_indoor c) = Some w /\ c_mass_airflow_ratio c = Some r
    /\ entry (sd_gross_cap (u_c u)) (c_speed c) q
    /\ entry (sd_gross_cop (u_c u)) (c_speed c) cop /\ cop <> 0
    /\ let wb := curve_wb w in let odb := curve_odb (ps_db (c_outdoor c)) in
       v = cool_eir_flow r * cool_cap_flow r
           * (cool_eir_T wb odb * cool_cap_T wb odb * (q / cop)).
Proof.
  intros H0. pose proof H0 as H. unfold nrel_gross_cooling_power in H.
  apply rbind_ok in H. destruct H as (t & Ht & H).
  apply rbind_ok in H. destruct H as (r & Hr & H).
  apply rbind_ok in H. destruct H as (q & Hq & H).
  apply rbind_ok in H. destruct H as (cop & Hc & H).
  apply rbind_ok in H. destruct H as (p & Hp & _).
  apply pydiv_inv in Hp. destruct Hp as [Hn _].
  apply need_ok in Hr. apply arr_ok in Hq. apply arr_ok in Hc.
  unfold cooling_temperatures in Ht. apply rbind_ok in Ht. destruct Ht as (w & Hw & _).
  assert (Hw' : ps_wb (c_indoor c) = Some w).
  { revert Hw. cbv [wb_of obs get_wb sread need snd].
    destruct (ps_wb (c_indoor c)); intros E; inversion E; reflexivity. }
  exists w, r, q, cop. repeat (split; [assumption|]). cbv zeta.
  rewrite (gcp_eq u c w r q cop Hw' Hr Hq Hc Hn) in H0. cbv zeta in H0.
  apply limit_check_inv in H0. tauto.
Qed.

Lemma ghc_inv (u : dxunit R) c v : nrel_gross_heating_capacity u c = Ok v ->
  exists r q, c_mass_airflow_ratio c = Some r
    /\ entry (sd_gross_cap (u_h u)) (c_speed c) q
    /\ v = heat_cap_flow r * (heat_cap_T (degF (ps_db (c_indoor c)))
             (degF (ps_db (c_outdoor c))) * q).
Proof.
  intros H0. pose proof H0 as H. unfold nrel_gross_heating_capacity in H.
  apply rbind_ok in H. destruct H as (r & Hr & H).
  apply rbind_ok in H. destruct H as (q & Hq & _).
  apply need_ok in Hr. apply arr_ok in Hq.
  exists r, q. repeat (split; [assumption|]).
  rewrite (ghc_eq u c r q Hr Hq) in H0. apply Ok_inj in H0. auto.
Qed.

Lemma ghp_inv (u : dxunit R) c v : nrel_gross_heating_power u c = Ok v ->
  exists r q cop, c_mass_airflow_ratio c = Some r
    /\ entry (sd_gross_cap (u_h u)) (c_speed c) q
    /\ entry (sd_gross_cop (u_h u)) (c_speed c) cop /\ cop <> 0
    /\ let idb := degF (ps_db (c_indoor c)) in let odb := degF (ps_db (c_outdoor c)) in
       v = heat_eir_flow r * heat_cap_flow r
           * (heat_eir_T idb odb * heat_cap_T idb odb * (q / cop)).
Proof.
  intros H0. pose proof H0 as H. unfold nrel_gross_heating_power in H.
  apply rbind_ok in H. destruct H as (r & Hr & H).
  apply rbind_ok in H. destruct H as (q & Hq & H).
  apply rbind_ok in H. destruct H as (cop & Hc & H).
  apply pydiv_inv in H. destruct H as [Hn _].
  apply need_ok in Hr. apply arr_ok in Hq. apply arr_ok in Hc.
  exists r, q, cop. repeat (split; [assumption|]). cbv zeta.
  rewrite (ghp_eq u c r q cop Hr Hq Hc Hn) in H0. cbv zeta in H0. apply Ok_inj in H0. auto.
Qed.

Lemma entry_fun l i x y : entry l i x -> entry l i y -> x = y.
Proof. unfold entry. congruence. Qed.

Ltac nz H :=
  let E := fresh in
  intros E; apply H; rewrite E; unfold Rdiv; ring.

Section C35.
  Variable psy : psychro R.

  Lemma factor_inv m fn u c f :
    correction_factor psy m fn u c = Ok f ->
    exists rc a b, fn u c = Ok a /\ fn u rc = Ok b /\ b <> 0 /\ f = a / b
      /\ c_speed rc = c_speed c /\ c_mass_airflow_ratio rc = Some 1
      /\ c_indoor rc = default_indoor m
      /\ ps_db (c_outdoor rc) = ps_db (c_outdoor c).
  Proof.
    unfold correction_factor. intros H.
    apply rbind_ok in H. destruct H as (o & Ho & H).
    apply rbind_ok in H. destruct H as (rc & Hrc & H).
    apply rbind_ok in H. destruct H as (a & Ha & H).
    apply rbind_ok in H. destruct H as (b & Hb & H).
    apply pydiv_inv in H. destruct H as [Hn ->].
    destruct (make_condition_facts psy m u _ _ _ _ Hrc) as (F1 & F2 & F3 & F4).
    exists rc, a, b. repeat (split; [assumption || reflexivity|]).
    rewrite F4. apply PsychState_reads_back in Ho. tauto.
  Qed.

  Lemma resnet_value_inv m look fn u c v :
    uses_table u -> resnet_value psy m look fn u c = Ok v ->
    exists tv f, table_value look u c tv /\ correction_factor psy m fn u c = Ok f
      /\ v = tv * f.
  Proof.
    unfold uses_table, resnet_value. destruct (rn_net (u_rn u)) as [nt|]; [|congruence].
    intros _ H.
    apply rbind_ok in H. destruct H as (g & Hg & H).
    apply rbind_ok in H. destruct H as (s & Hs & H).
    apply rbind_ok in H. destruct H as (tv & Htv & H).
    apply rbind_ok in H. destruct H as (f & Hf & H).
    apply Ok_inj in H. subst v. exists tv, f. split; [|auto].
    unfold table_speed in Hs. apply rbind_ok in Hs. destruct Hs as (m' & Hm & Hs).
    apply need_ok in Hg. apply need_ok in Hm. apply need_ok in Hs.
    exists g, m', s. auto.
  Qed.

  Lemma default_wb : ps_wb (default_indoor (T:=R) Cooling) = Some (fr_F 67).
  Proof. cbn. f_equal. f_equal. rnum. lra. Qed.
  Lemma default_curve_wb : curve_wb (fr_F 67) = 67.
  Proof. maxmin. Qed.
  Lemma default_idb : degF (ps_db (default_indoor (T:=R) Heating)) = 70.
  Proof. cbn [default_indoor ps_db psych_wetbulb put_wb blank]. rewrite degF_fr_F. rnum. lra. Qed.

  Lemma rn_cooling_capacity u c v :
    uses_table u -> resnet_gross_total_cooling_capacity psy u c = Ok v ->
    exists tv w r, table_value cooling_capacity u c tv
      /\ ps_wb (c_indoor c) = Some w /\ c_mass_airflow_ratio c = Some r
      /\ let odb := curve_odb (ps_db (c_outdoor c)) in
         cool_cap_T 67 odb <> 0
         /\ v = tv * (cool_cap_flow r * cool_cap_T (curve_wb w) odb / cool_cap_T 67 odb).
  Proof.
    intros Ht H. apply resnet_value_inv in H; [|auto]. destruct H as (tv & f & T & Hf & ->).
    apply factor_inv in Hf. destruct Hf as (rc & a & b & Ha & Hb & Hn & -> & E1 & E2 & E3 & E4).
    apply gtc_inv in Ha. destruct Ha as (w & r & q & A1 & A2 & A3 & ->).
    apply gtc_inv in Hb. destruct Hb as (w' & r' & q' & B1 & B2 & B3 & ->).
    rewrite E1 in B3. rewrite E2 in B2. rewrite E3, default_wb in B1. rewrite E4 in *.
    rewrite (entry_fun _ _ _ _ B3 A3) in *.
    apply (f_equal (fun o => match o with Some x => x | None => 0 end)) in B1.
    apply (f_equal (fun o => match o with Some x => x | None => 0 end)) in B2.
    cbn beta iota in B1, B2. rewrite <- B1, <- B2 in *.
    rewrite default_curve_wb in *. destruct flow_one as (F1 & _). rewrite F1 in *.
    exists tv, w, r. repeat (split; [assumption|]). cbv zeta.
    set (odb := curve_odb _) in *. set (W := curve_wb w) in *.
    assert (N1 : cool_cap_T 67 odb <> 0) by nz Hn.
    assert (N2 : q <> 0) by nz Hn.
    split; [auto|]. set (T67 := cool_cap_T 67 odb) in *. set (TW := cool_cap_T W odb).
    clearbody T67 TW. field. auto.
  Qed.

  Lemma rn_cooling_power u c v :
    uses_table u -> resnet_gross_cooling_power psy u c = Ok v ->
    exists tv w r, table_value cooling_power u c tv
      /\ ps_wb (c_indoor c) = Some w /\ c_mass_airflow_ratio c = Some r
      /\ let odb := curve_odb (ps_db (c_outdoor c)) in
         cool_eir_T 67 odb * cool_cap_T 67 odb <> 0
         /\ v = tv * (cool_eir_flow r * cool_cap_flow r
                      * (cool_eir_T (curve_wb w) odb * cool_cap_T (curve_wb w) odb)
                      / (cool_eir_T 67 odb * cool_cap_T 67 odb)).
  Proof.
    intros Ht H. apply resnet_value_inv in H; [|auto]. destruct H as (tv & f & T & Hf & ->).
    apply factor_inv in Hf. destruct Hf as (rc & a & b & Ha & Hb & Hn & -> & E1 & E2 & E3 & E4).
    apply gcp_inv in Ha. destruct Ha as (w & r & q & cop & A1 & A2 & A3 & A4 & A5 & ->).
    apply gcp_inv in Hb. destruct Hb as (w' & r' & q' & cop' & B1 & B2 & B3 & B4 & _ & ->).
    cbv zeta in *.
    rewrite E1 in B3, B4. rewrite E2 in B2. rewrite E3, default_wb in B1. rewrite E4 in *.
    rewrite (entry_fun _ _ _ _ B3 A3), (entry_fun _ _ _ _ B4 A4) in *.
    apply (f_equal (fun o => match o with Some x => x | None => 0 end)) in B1.
    apply (f_equal (fun o => match o with Some x => x | None => 0 end)) in B2.
    cbn beta iota in B1, B2. rewrite <- B1, <- B2 in *.
    rewrite default_curve_wb in *. destruct flow_one as (F1 & F2 & _). rewrite F1, F2 in *.
    exists tv, w, r. repeat (split; [assumption|]). cbv zeta.
    set (odb := curve_odb _) in *. set (W := curve_wb w) in *.
    assert (N1 : cool_eir_T 67 odb * cool_cap_T 67 odb <> 0) by nz Hn.
    assert (N2 : q / cop <> 0) by nz Hn.
    split; [auto|].
    set (E67 := cool_eir_T 67 odb) in *. set (C67 := cool_cap_T 67 odb) in *.
    set (EW := cool_eir_T W odb). set (CW := cool_cap_T W odb).
    set (p := q / cop) in *. clearbody E67 C67 EW CW p. field.
    repeat split; auto; intros E; apply N1; rewrite E; ring.
  Qed.

  Lemma rn_heating_capacity u c v :
    uses_table u -> resnet_gross_heating_capacity psy u c = Ok v ->
    exists tv r, table_value heating_capacity u c tv /\ c_mass_airflow_ratio c = Some r
      /\ let idb := degF (ps_db (c_indoor c)) in let odb := degF (ps_db (c_outdoor c)) in
         heat_cap_T 70 odb <> 0
         /\ v = tv * (heat_cap_flow r * heat_cap_T idb odb / heat_cap_T 70 odb).
  Proof.
    intros Ht H. apply resnet_value_inv in H; [|auto]. destruct H as (tv & f & T & Hf & ->).
    apply factor_inv in Hf. destruct Hf as (rc & a & b & Ha & Hb & Hn & -> & E1 & E2 & E3 & E4).
    apply ghc_inv in Ha. destruct Ha as (r & q & A2 & A3 & ->).
    apply ghc_inv in Hb. destruct Hb as (r' & q' & B2 & B3 & ->).
    rewrite E1 in B3. rewrite E2 in B2. rewrite E3, E4, default_idb in *.
    rewrite (entry_fun _ _ _ _ B3 A3) in *.
    apply (f_equal (fun o => match o with Some x => x | None => 0 end)) in B2.
    cbn beta iota in B2. rewrite <- B2 in *.
    destruct flow_one as (_ & _ & F1 & _). rewrite F1 in *.
    exists tv, r. repeat (split; [assumption|]). cbv zeta.
    set (odb := degF (ps_db (c_outdoor c))) in *. set (idb := degF (ps_db (c_indoor c))) in *.
    assert (N1 : heat_cap_T 70 odb <> 0) by nz Hn.
    assert (N2 : q <> 0) by nz Hn.
    split; [auto|]. set (T70 := heat_cap_T 70 odb) in *. set (TI := heat_cap_T idb odb).
    clearbody T70 TI. field. auto.
  Qed.

  Lemma rn_heating_power u c v :
    uses_table u -> resnet_gross_heating_power psy u c = Ok v ->
    exists tv r, table_value heating_power u c tv /\ c_mass_airflow_ratio c = Some r
      /\ let idb := degF (ps_db (c_indoor c)) in let odb := degF (ps_db (c_outdoor c)) in
         heat_eir_T 70 odb * heat_cap_T 70 odb <> 0
         /\ v = tv * (heat_eir_flow r * heat_cap_flow r
                      * (heat_eir_T idb odb * heat_cap_T idb odb)
                      / (heat_eir_T 70 odb * heat_cap_T 70 odb)).
  Proof.
    intros Ht H. apply resnet_value_inv in H; [|auto]. destruct H as (tv & f & T & Hf & ->).
    apply factor_inv in Hf. destruct Hf as (rc & a & b & Ha & Hb & Hn & -> & E1 & E2 & E3 & E4).
    apply ghp_inv in Ha. destruct Ha as (r & q & cop & A2 & A3 & A4 & A5 & ->).
    apply ghp_inv in Hb. destruct Hb as (r' & q' & cop' & B2 & B3 & B4 & _ & ->).
    cbv zeta in *.
    rewrite E1 in B3, B4. rewrite E2 in B2. rewrite E3, E4, default_idb in *.
    rewrite (entry_fun _ _ _ _ B3 A3), (entry_fun _ _ _ _ B4 A4) in *.
    apply (f_equal (fun o => match o with Some x => x | None => 0 end)) in B2.
    cbn beta iota in B2. rewrite <- B2 in *.
    destruct flow_one as (_ & _ & F1 & F2). rewrite F1, F2 in *.
    exists tv, r. repeat (split; [assumption|]). cbv zeta.
    set (odb := degF (ps_db (c_outdoor c))) in *. set (idb := degF (ps_db (c_indoor c))) in *.
    assert (N1 : heat_eir_T 70 odb * heat_cap_T 70 odb <> 0) by nz Hn.
    assert (N2 : q / cop <> 0) by nz Hn.
    split; [auto|].
    set (E70 := heat_eir_T 70 odb) in *. set (C70 := heat_cap_T 70 odb) in *.
    set (EI := heat_eir_T idb odb). set (CI := heat_cap_T idb odb).
    set (p := q / cop) in *. clearbody E70 C70 EI CI p. field.
    repeat split; auto; intros E; apply N1; rewrite E; ring.
  Qed.

  (** At the rated indoor air and airflow the table value comes back. *)
  Lemma rn_rated u c v :
    uses_table u -> c_mass_airflow_ratio c = Some 1 ->
    (ps_wb (c_indoor c) = Some (fr_F 67) ->
       (resnet_gross_total_cooling_capacity psy u c = Ok v
          -> table_value cooling_capacity u c v)
       /\ (resnet_gross_cooling_power psy u c = Ok v -> table_value cooling_power u c v))
    /\ (ps_db (c_indoor c) = fr_F 70 ->
       (resnet_gross_heating_capacity psy u c = Ok v -> table_value heating_capacity u c v)
       /\ (resnet_gross_heating_power psy u c = Ok v -> table_value heating_power u c v)).
  Proof.
    intros Ht Hr. destruct flow_one as (F1 & F2 & F3 & F4). split; intros Hi; split; intros H.
    - apply rn_cooling_capacity in H; [|auto]. destruct H as (tv & w & r & T & W & Q & N & ->).
      replace w with (fr_F 67) in * by congruence. replace r with 1 in * by congruence.
      rewrite default_curve_wb, F1 in *. set (k := cool_cap_T _ _) in *. clearbody k.
      replace (tv * (1 * k / k)) with tv by (field; auto). auto.
    - apply rn_cooling_power in H; [|auto]. destruct H as (tv & w & r & T & W & Q & N & ->).
      replace w with (fr_F 67) in * by congruence. replace r with 1 in * by congruence.
      rewrite default_curve_wb, F1, F2 in *. set (k := cool_eir_T _ _ * _) in *. clearbody k.
      replace (tv * (1 * 1 * k / k)) with tv by (field; auto). auto.
    - apply rn_heating_capacity in H; [|auto]. destruct H as (tv & r & T & Q & N & ->).
      replace r with 1 in * by congruence. rewrite Hi, degF_fr_F, F3 in *.
      set (k := heat_cap_T _ _) in *. clearbody k.
      replace (tv * (1 * k / k)) with tv by (field; auto). auto.
    - apply rn_heating_power in H; [|auto]. destruct H as (tv & r & T & Q & N & ->).
      replace r with 1 in * by congruence. rewrite Hi, degF_fr_F, F3, F4 in *.
      set (k := heat_eir_T _ _ * _) in *. clearbody k.
      replace (tv * (1 * 1 * k / k)) with tv by (field; auto). auto.
  Qed.
End C35.
