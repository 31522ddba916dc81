(** The text and the plot of the single-stage RESNET unit of ToyResnet.v, for the examples. *)
From Coq Require Import Reals QArith Lra Psatz Lia List Bool String ZArith.
From Verif.Base Require Import Num Res Tac.
From Verif.Model Require Import Units Util Psychrometrics Conditions Defrost Fan Curves
  Tabular Unit NREL BaseModel Title24 Resnet DXUnit RatingSolver Idf Report.
From Verif.Spec Require Import ModelSpec TabularSpec NrelSpec UnitSpec SeasonSpec RatingSpec RatedSpec ReportSpec.
From Verif.Proofs Require Import UtilProofs UnitProofs4 UnitsR FanProofs FanProofs2 NrelProofs ResnetProofs MakeCond TabInterp
  SingleTable SingleUnit SingleRating SingleRating2 SeerProofs ToyBuild Secant ToyResnetTable ToyResnet ToyResnet2 ToyIdf
  ReportProofs Layout.
Import ListNotations.
Local Open Scope R_scope.

Lemma works_list {A B} (f : A -> res B) (P : B -> Prop) l :
  (forall x, In x l -> exists y, f x = Ok y /\ P y) -> exists ys, rmapM f l = Ok ys /\ Forall P ys.
Proof.
  induction l as [|x l IH]; intros H; cbn [rmapM].
  - exists []. split; [reflexivity|constructor].
  - destruct (H x) as (y & -> & Py); [left; reflexivity|].
    destruct IH as (ys & -> & Ps); [intros z I; apply H; right; exact I|].
    exists (y :: ys). split; [reflexivity|constructor; assumption].
Qed.

Definition cool_F : list R := [60; 82; 95; 125].
Lemma cool_curves x : In x cool_F ->
  0 < cool_cap_T 67 (curve_odb (fr_F x)) /\ 0 < cool_eir_T 67 (curve_odb (fr_F x)).
Proof.
  intros I. assert (D : degF (fr_F x) = x) by (rewrite <- to_F_degF; unfold to_F, fr_F; rnum; lra).
  unfold curve_odb. rewrite D. cbn [In cool_F] in I.
  repeat (destruct I as [<- | I]; [unfold Rmax; destruct (Rle_dec _ _); unfold cool_cap_T, cool_eir_T; split; lra|]).
  contradiction.
Qed.

(** Sign of the outdoor state of a plotted or printed condition. *)
Definition at_F_of (m : mode) (l : list R) (k : cond R) : Prop :=
  exists o x, k = rcd m o /\ In x l /\ ps_db (c_outdoor k) = fr_F x.

Section Report.
  Variables (hs c : R) (net : perf R).
  Hypothesis Hc : 3 <= c <= 4.
  Hypothesis Hnet : make_single_speed_model_data 10000 14 12 10000 (Some 6500) hs (fr_F (lit 125)) (fr_F (lit 0))
      (Some c) (lit 0.15) = Ok net.
  Hypothesis Cols : heating_columns net.
  Hypothesis Cells : cells_above 1000 net.
  Hypothesis Col : columns net.
  Variables (g : perf R) (P95 s b n : R).
  Hypothesis Sh : shifted net g.
  Hypothesis Pn : 0 < n.
  Hypothesis PP : 1000 < P95.
  Let u := toy_unit hs c net g P95 s b n.

  Lemma cool_fan o : fan_power rt_sol u (rcd Cooling o) = Ok fanwt.
  Proof. unfold fan_power. cbn [need rbind rcd flow_cond]. apply toy_power. lia. Qed.

  (** ** Cooling *)
  Lemma cool_gross o x q p : In x cool_F -> ps_db (c_outdoor (rcd Cooling o)) = fr_F x ->
    cooling_capacity net 1 (fr_F x) = Ok q -> cooling_power net 1 (fr_F x) = Ok p ->
    1000 < q -> 1000 < p ->
    gross_total_cooling_capacity Mr u (Some (rcd Cooling o)) = Ok (q + fanwt)
    /\ gross_cooling_power Mr u (Some (rcd Cooling o)) = Ok (p - fanwt).
  Proof.
    intros Hx Ho Q P Bq Bp. pose proof fanwt_val as FW. destruct (cool_curves x Hx) as (K1 & K2).
    set (y := curve_odb (fr_F x)) in *.
    assert (Po : exists o', PsychState lin_psy (fr_F x) atm [("rel_hum"%string, lit 0.4)] = Ok o'
               /\ ps_db o' = fr_F x) by (eexists; split; reflexivity).
    destruct Po as (o' & Po & Do).
    destruct (Sh 1 (fr_F x) q) as (S1 & _). destruct (Sh 1 (fr_F x) p) as (_ & S2 & _).
    specialize (S1 Q). specialize (S2 P).
    assert (Eq : entry (sd_gross_cap (u_c u)) 0 (10000 + fanwt)) by reflexivity.
    assert (Ec : entry (sd_gross_cop (u_c u)) 0 ((10000 + fanwt) / (P95 - fanwt))) by reflexivity.
    assert (GC : 0 < (10000 + fanwt) / (P95 - fanwt)) by (apply Rdiv_lt_0_compat; lra).
    assert (GQ : 0 < (10000 + fanwt) / ((10000 + fanwt) / (P95 - fanwt))) by (apply Rdiv_lt_0_compat; lra).
    assert (WB : forall o, ps_wb (c_indoor (rcd Cooling o)) = Some (fr_F 67)).
    { intros o0. cbn [rcd flow_cond c_indoor default_indoor psych_wetbulb put_wb ps_wb blank]. rewrite <- lit67. reflexivity. }
    destruct flow_one as (F1 & F2 & _).
    assert (Hq : forall o, ps_db (c_outdoor (rcd Cooling o)) = fr_F x ->
       nrel_gross_total_cooling_capacity u (rcd Cooling o) = Ok (cool_cap_T 67 y * (10000 + fanwt))).
    { intros o0 Ho0. rewrite (gtc_eq u _ (fr_F 67) 1 (10000 + fanwt) (WB o0) eq_refl Eq).
      rewrite Ho0. fold y. rewrite default_curve_wb, F1, Rmult_1_l. reflexivity. }
    set (pw := cool_eir_T 67 y * cool_cap_T 67 y * ((10000 + fanwt) / ((10000 + fanwt) / (P95 - fanwt)))).
    assert (Pp : 0 < pw).
    { unfold pw. apply Rmult_lt_0_compat; [apply Rmult_lt_0_compat; assumption|assumption]. }
    assert (Hp : forall o, ps_db (c_outdoor (rcd Cooling o)) = fr_F x ->
       nrel_gross_cooling_power u (rcd Cooling o) = Ok pw).
    { intros o0 Ho0. rewrite (gcp_eq u _ (fr_F 67) 1 _ _ (WB o0) eq_refl Eq Ec) by lra. cbv zeta.
      rewrite Ho0. fold y. rewrite default_curve_wb, F1, F2, !Rmult_1_l. apply limit_check_pos. fold pw. lra. }
    split.
    - unfold gross_total_cooling_capacity. cbn [cooling_conditions rbind Mr md_gtc md_f_gtc RESNETDXModel].
      refine (value_rated lin_psy u net g _ cooling_capacity _ (rcd Cooling o) (rcd Cooling (Some o')) o' x (q + fanwt) _
        eq_refl eq_refl eq_refl eq_refl Ho _ Po (rcd_ok _ _ _ _ _ _ _ _ Cooling _ _ _ (Some o')) (Hq o Ho) (Hq (Some o') Do) _ _ _).
      + rewrite lit1_R. exact S1.
      + apply Rgt_not_eq. apply Rmult_lt_0_compat; [exact K1|lra].
      + lra.
      + apply grading_zero. unfold u, toy_unit, u_full, tunit. cbn [u_charge]. apply lit0_R.
    - unfold gross_cooling_power. cbn [cooling_conditions rbind Mr md_gcp md_f_gcp RESNETDXModel].
      refine (value_rated lin_psy u net g _ cooling_power _ (rcd Cooling o) (rcd Cooling (Some o')) o' x (p - fanwt) _
        eq_refl eq_refl eq_refl eq_refl Ho _ Po (rcd_ok _ _ _ _ _ _ _ _ Cooling _ _ _ (Some o')) (Hp o Ho) (Hp (Some o') Do) _ _ _).
      + rewrite lit1_R. exact S2.
      + lra.
      + lra.
      + apply grading_zero. unfold u, toy_unit, u_full, tunit. cbn [u_charge]. apply lit0_R.
  Qed.

  Lemma root_found (a d z : R) : a <> 0 ->
    exists r, run_prober_pure (fun t => Ok (a * t + d - z)) secant = Ok r.
  Proof.
    intros Na. unfold secant, check_root. cbn [run_prober_pure rbind].
    destruct (Req_EM_T _ 0) as [_|N1]; [eexists; reflexivity|]. cbn [run_prober_pure rbind].
    destruct (Req_EM_T _ 0) as [_|N2]; [eexists; reflexivity|]. cbn [run_prober_pure rbind].
    destruct (Req_EM_T _ 0) as [_|N3]; [eexists; reflexivity|].
    exfalso. apply N3. clear - Na.
    replace (a * 4.5 + d - z - (a * 3.5 + d - z)) with a by lra.
    set (y := 3.5). set (e := a * y + d - z).
    replace (a * (y - e / a)) with (a * y - e) by (field; exact Na). unfold e. ring.
  Qed.

  Lemma cool_sensible o q : gross_total_cooling_capacity Mr u (Some (rcd Cooling o)) = Ok q -> 0 < q ->
    exists v, gross_sensible_cooling_capacity Mr u (Some (rcd Cooling o)) = Ok v.
  Proof.
    intros Q Pq. pose proof air_val as AV.
    unfold gross_sensible_cooling_capacity. cbn [cooling_conditions rbind].
    unfold gross_total_cooling_capacity in Q. cbn [cooling_conditions rbind] in Q.
    change (md_gsc Mr u (rcd Cooling o)) with
      (nrel_gross_sensible_cooling_capacity lin_psy rt_sol (checked_product (md_gtc Mr) (md_f_gtc Mr)) u (rcd Cooling o)).
    unfold nrel_gross_sensible_cooling_capacity. rewrite Q. cbn [rbind].
    set (m := 1 * (air * 1.2)).
    change (h_of lin_psy (c_indoor (rcd Cooling o))) with (Ok (1006 * to_C (fr_F (lit 80)) + 2500000 * 0.0112)).
    cbn [rbind]. change (c_mass_airflow (rcd Cooling o)) with (Some m). cbn [need rbind].
    assert (Mp : 0 < m) by (unfold m; lra).
    assert (BF : exists bf, bypass_factor u (rcd Cooling o) = Ok bf /\ 0 < bf < 1).
    { unfold bypass_factor. change (arr (u_ntu u) (c_speed (rcd Cooling o))) with (Ok n). cbn [rbind].
      change (c_mass_airflow (rcd Cooling o)) with (Some m). cbn [need rbind].
      rewrite pydiv_ok by lra. cbn [rbind]. eexists. split; [reflexivity|].
      cbn [nexp RNumX]. split; [apply exp_pos|]. rewrite <- exp_0. apply exp_increasing.
      rewrite lit0_R. cbn [nsub RNum]. assert (0 < n / m) by (apply Rdiv_lt_0_compat; assumption).
      unfold Rdiv in *. lra. }
    destruct BF as (bf & -> & B1 & B2). cbn [rbind]. rewrite lit1_R.
    assert (D : 0 < m * (1 - bf)) by (apply Rmult_lt_0_compat; lra).
    cbn [nmul nsub RNum]. rewrite pydiv_ok by lra. cbn [rbind].
    set (hi := 1006 * to_C (fr_F (lit 80)) + 2500000 * 0.0112).
    assert (X : 0 < q / (m * (1 - bf))) by (apply Rdiv_lt_0_compat; assumption).
    assert (XQ : q / (q / (m * (1 - bf))) = m * (1 - bf)) by (field; split; lra).
    set (x := q / (m * (1 - bf))) in *. clearbody x.
    change (newton rt_sol (db_C (c_indoor (rcd Cooling o)))) with secant.
    destruct (root_found 1006 (2500000 * 0.02) (hi - x)) as (r & R); [lra|].
    match goal with |- context [run_prober_pure ?f secant] =>
      replace (run_prober_pure f secant) with (Ok r) by (symmetry; exact R) end.
    cbn [rbind].
    change (GetSatHumRatio lin_psy r (ps_p (c_indoor (rcd Cooling o)))) with (Ok 0.02). cbn [rbind].
    change (GetMoistAirEnthalpy lin_psy (db_C (c_indoor (rcd Cooling o))) 0.02)
      with (Ok (1006 * to_C (fr_F (lit 80)) + 2500000 * 0.02)). cbn [rbind].
    replace (hi - (hi - x)) with x by ring. rewrite pydiv_ok by lra. cbn [rbind].
    exists (q * (1006 * to_C (fr_F (lit 80)) + 2500000 * 0.02 - (hi - x)) / x).
    apply limit_check_pos.
    replace (1006 * to_C (fr_F (lit 80)) + 2500000 * 0.02 - (hi - x)) with (22000 + x) by (unfold hi; lra).
    left. apply Rdiv_lt_0_compat; [apply Rmult_lt_0_compat; lra|exact X].
  Qed.

  (** Everything that is printed or plotted about cooling exists. *)
  Lemma cool_works k : at_F_of Cooling cool_F k ->
    works (net_total_cooling_capacity rt_sol Mr u (Some k)) /\ works (net_sensible_cooling_capacity rt_sol Mr u (Some k))
    /\ works (net_cooling_power rt_sol Mr u (Some k)) /\ works (net_total_cooling_cop rt_sol Mr u (Some k))
    /\ works (net_sensible_cooling_cop rt_sol Mr u (Some k)) /\ works (gross_total_cooling_capacity Mr u (Some k))
    /\ works (gross_sensible_cooling_capacity Mr u (Some k)) /\ works (gross_cooling_power Mr u (Some k))
    /\ works (gross_total_cooling_cop Mr u (Some k)) /\ works (gross_sensible_cooling_cop Mr u (Some k))
    /\ works (net_shr rt_sol Mr u (Some k)).
  Proof.
    intros (o & x & -> & I & Ho). pose proof fanwt_val as FW.
    destruct (proj1 Col x I) as (q & p & Q & P & Bq & Bp).
    destruct (cool_gross o x q p I Ho Q P) as (G1 & G2); [lra|lra|].
    destruct (cool_sensible o _ G1) as (v & G3); [lra|].
    assert (F : cooling_fan_power rt_sol u (Some (rcd Cooling o)) = Ok fanwt).
    { unfold cooling_fan_power. cbn [cooling_conditions rbind]. apply cool_fan. }
    assert (N1 : net_total_cooling_capacity rt_sol Mr u (Some (rcd Cooling o)) = Ok (q + fanwt - fanwt)).
    { unfold net_total_cooling_capacity, both. rewrite G1, F. reflexivity. }
    assert (N2 : net_cooling_power rt_sol Mr u (Some (rcd Cooling o)) = Ok (p - fanwt + fanwt)).
    { unfold net_cooling_power, both. rewrite G2, F. reflexivity. }
    assert (N3 : net_sensible_cooling_capacity rt_sol Mr u (Some (rcd Cooling o)) = Ok (v - fanwt)).
    { unfold net_sensible_cooling_capacity, both. rewrite G3, F. reflexivity. }
    unfold net_total_cooling_cop, net_sensible_cooling_cop, gross_total_cooling_cop, gross_sensible_cooling_cop, net_shr, both.
    rewrite N1, N2, N3, G1, G2, G3. cbn [rbind].
    repeat split; solve [apply works_ok | apply works_div; lra].
  Qed.

  (** ** Heating *)
  Lemma heat_cells x : In x heat_F -> exists q p, heating_capacity net 1 (fr_F x) = Ok q
    /\ heating_power net 1 (fr_F x) = Ok p /\ 1000 < q /\ 1000 < p.
  Proof.
    intros I. cbn [In heat_F] in I. pose proof (p47_val c Hc). pose proof (p17_val c Hc).
    repeat (destruct I as [<- | I]; [try solve [apply (proj2 Col); cbn; tauto]|]); [|contradiction].
    destruct (net_heat hs c net Hc Hnet Cols Cells) as (_ & Q & _ & _ & P & _).
    exists q35, (p35 c). split; [exact Q|]. split; [exact P|]. unfold q35, p35. split; lra.
  Qed.

  Lemma heat_works k : at_F_of Heating heat_F k ->
    works (net_steady_state_heating_capacity rt_sol Mr u (Some k)) /\ works (net_integrated_heating_capacity rt_sol Mr u (Some k))
    /\ works (net_steady_state_heating_power rt_sol Mr u (Some k)) /\ works (net_integrated_heating_power rt_sol Mr u (Some k))
    /\ works (net_steady_state_heating_cop rt_sol Mr u (Some k)) /\ works (net_integrated_heating_cop rt_sol Mr u (Some k))
    /\ works (gross_steady_state_heating_capacity Mr u (Some k)) /\ works (gross_integrated_heating_capacity Mr u (Some k))
    /\ works (gross_steady_state_heating_power Mr u (Some k)) /\ works (gross_integrated_heating_power Mr u (Some k))
    /\ works (gross_steady_state_heating_cop Mr u (Some k)) /\ works (gross_integrated_heating_cop Mr u (Some k)).
  Proof.
    intros (o & x & -> & I & Ho). pose proof fanwt_val as FW.
    destruct (heat_cells x I) as (q & p & Q & P & Bq & Bp).
    destruct (ToyResnet2.heat_at hs c net Hc g P95 s b n Sh o x q p I Ho Q P) as (_ & M2 & G1 & G2). fold u in M2, G1, G2.
    pose proof (resnet_capacity_derate lin_psy rt_sol _ _ _ G1) as I1.
    pose proof (resnet_power_derate lin_psy rt_sol _ _ _ M2) as I2.
    fold Mr in I1, I2.
    set (fr := if in_defrost (u_defrost u) (rcd Heating o) then 1 - 0.3 * _ else 1) in I2.
    assert (Bf : 0.9 < fr <= 1).
    { unfold fr. destruct (in_defrost _ _); [|lra]. unfold resnet_fraction.
      match goal with |- context [Rmin ?a ?b] => pose proof (Rmin_r a b); set (mn := Rmin a b) in * end.
      pose proof (Rmax_r mn 0). assert (Rmax mn 0 <= 0.08) by (apply Rmax_lub; lra). lra. }
    clearbody fr. match type of I1 with _ = Ok ?z => set (qi := z) in I1; clearbody qi end.
    assert (F : heating_fan_power rt_sol u (Some (rcd Heating o)) = Ok fanwt).
    { unfold heating_fan_power. cbn [heating_conditions rbind]. apply heat_fan. }
    assert (PI : 0 < (p - fanwt) * fr) by (apply Rmult_lt_0_compat; lra).
    unfold net_steady_state_heating_cop, net_integrated_heating_cop, gross_steady_state_heating_cop, gross_integrated_heating_cop,
      net_steady_state_heating_capacity, net_integrated_heating_capacity, net_steady_state_heating_power,
      net_integrated_heating_power, both.
    rewrite G1, G2, I1, I2, F. cbn [rbind]. unfold plus. cbn [rbind nadd RNum].
    repeat split; solve [apply works_ok | apply works_div; lra].
  Qed.

  (** ** Plot *)
  Lemma curve_works d ks : Forall (at_F_of (ds_mode d) (match ds_mode d with Cooling => cool_F | Heating => heat_F end)) ks ->
    (forall k, at_F_of (ds_mode d) (match ds_mode d with Cooling => cool_F | Heating => heat_F end) k ->
      works (ds_function d u (Some k))) ->
    works (plot_curve u d 0 ks).
  Proof.
    intros Fk W. unfold plot_curve. destruct (quantity_units (ds_quantity d)) as [[sb un] di].
    apply works_bind'; [|intros values].
    - apply works_map. intros k I. apply W. rewrite Forall_forall in Fk. apply Fk, I.
    - apply works_bind'; [|intros; apply works_ok].
      destruct (ds_mode d); eexists; reflexivity.
  Qed.

  Lemma conditions_work m : exists ks, plot_conditions lin_psy m u = Ok [ks]
    /\ Forall (at_F_of m (match m with Cooling => cool_F | Heating => heat_F end)) ks.
  Proof.
    assert (N : sd_n (side_of m u) = 1%nat) by (destruct m; reflexivity).
    unfold plot_conditions. rewrite N. cbn [seq rmapM].
    match goal with |- context [rmapM ?f ?l] =>
      destruct (works_list f (at_F_of m (match m with Cooling => cool_F | Heating => heat_F end)) l) as (ks & E & Fk) end.
    - intros t I.
      assert (T : exists x, In x (match m with Cooling => cool_F | Heating => heat_F end) /\ t = fr_F x).
      { destruct m; unfold plot_temperatures in I; cbn [map app In] in I.
        - repeat (destruct I as [<- | I]; [first
            [ exists 60; split; [cbn; tauto|f_equal; rnum; lra]
            | exists 82; split; [cbn; tauto|f_equal; rnum; lra]
            | exists 95; split; [cbn; tauto|f_equal; rnum; lra]
            | exists 125; split; [cbn; tauto|change (fr_F (lit 125) = fr_F 125); f_equal; rnum; lra] ]|]). contradiction.
        - repeat (destruct I as [<- | I]; [first
            [ exists 5; split; [cbn; tauto|f_equal; rnum; lra]
            | exists 17; split; [cbn; tauto|f_equal; rnum; lra]
            | exists 35; split; [cbn; tauto|f_equal; rnum; lra]
            | exists 47; split; [cbn; tauto|f_equal; rnum; lra]
            | exists 60; split; [cbn; tauto|f_equal; rnum; lra]
            | exists 0; split; [cbn; tauto|change (fr_F (lit 0) = fr_F 0); f_equal; rnum; lra] ]|]). contradiction. }
      destruct T as (x & Ix & ->).
      assert (Po : exists o', PsychState lin_psy (fr_F x) atm [("rel_hum"%string, lit 0.4)] = Ok o'
               /\ ps_db o' = fr_F x) by (eexists; split; reflexivity).
      destruct Po as (o' & Po & Do).
      exists (rcd m (Some o')). rewrite Po. cbn [rbind]. split; [apply rcd_ok|].
      exists (Some o'), x. split; [reflexivity|]. split; [exact Ix|exact Do].
    - rewrite E. cbn [rbind]. exists ks. split; [reflexivity|exact Fk].
  Qed.

  Lemma toy_plot : exists f, plot lin_psy rt_sol Mr u = Ok f.
  Proof.
    unfold plot. destruct (conditions_work Heating) as (kh & -> & Fh). destruct (conditions_work Cooling) as (kc & -> & Fc).
    cbn [rbind]. fold (works (let! curves := rmapM (fun d =>
      rmapM (fun speed => let! k := geti (match ds_mode d with Heating => [kh] | Cooling => [kc] end) speed in
        plot_curve u d speed k) (seq 0 (sd_n (side_of (ds_mode d) u)))) (display_specs rt_sol Mr) in
      Ok (mkFigure (plot_temperatures Heating u ++ tl (plot_temperatures Cooling u))%list (List.concat curves)))).
    apply works_bind'; [|intros; apply works_ok].
    apply works_map. intros d I.
    assert (W : forall k, at_F_of (ds_mode d) (match ds_mode d with Cooling => cool_F | Heating => heat_F end) k ->
      works (ds_function d u (Some k))).
    { unfold display_specs in I. cbn [In] in I.
      repeat (destruct I as [<- | I]; [cbn [ds_mode ds_function]; intros k A;
        first [pose proof (cool_works k A)|pose proof (heat_works k A)]; tauto|]). contradiction. }
    assert (N : sd_n (side_of (ds_mode d) u) = 1%nat) by (destruct (ds_mode d); reflexivity).
    rewrite N. cbn [seq]. apply works_map. intros i [<- | []].
    assert (G : geti (match ds_mode d with Heating => [kh] | Cooling => [kc] end) 0
                = Ok (match ds_mode d with Heating => kh | Cooling => kc end)) by (destruct (ds_mode d); reflexivity).
    rewrite G. cbn [rbind]. apply curve_works; [|exact W]. destruct (ds_mode d); assumption.
  Qed.

  (** ** Text *)
  Lemma print_value_ok before (v : res R) d after l : works v ->
    exists l', print_value before v d after l = (l', Ok tt) /\ List.length l' = S (List.length l).
  Proof.
    intros (x & ->). eexists. split; [reflexivity|]. rewrite app_length. cbn. lia.
  Qed.
  Lemma stage_in_ok what k (v : res R) units l : works v -> exists l', stage_in what k v units l = (l', Ok tt) /\ List.length l' = S (List.length l).
  Proof. intros (x & ->). apply print_value_ok. eexists. reflexivity. Qed.
  Lemma stage_of_ok what k (v : res R) d l : works v -> exists l', stage_of what k v d l = (l', Ok tt) /\ List.length l' = S (List.length l).
  Proof. intros W. apply print_value_ok, W. Qed.

  Lemma rated_at m : at_F_of m (match m with Cooling => cool_F | Heating => heat_F end) (rcd m None).
  Proof.
    destruct m.
    - exists None, 95. split; [reflexivity|]. split; [cbn; tauto|].
      change (fr_F (T:=R) (lit 95) = fr_F 95). f_equal. rnum. lra.
    - exists None, 47. split; [reflexivity|]. split; [cbn; tauto|].
      change (fr_F (T:=R) (lit 47) = fr_F 47). f_equal. rnum. lra.
  Qed.

  Lemma toy_prints_cooling before : exists after,
    print_cooling_info lin_psy rt_sol Mr watts tons u before = (after, Ok tt)
    /\ List.length after = (7 + List.length before)%nat.
  Proof.
    pose proof (cool_works _ (rated_at Cooling)) as W.
    assert (S0 : works (seer rt_sol Mr u)).
    { assert (A : at_F_of Cooling cool_F (rcd Cooling t82)).
      { exists t82, 82. split; [reflexivity|]. split; [cbn; tauto|].
        change (fr_F (T:=R) (lit 82) = fr_F 82). f_equal. rnum. lra. }
      destruct (cool_works _ A) as (_ & _ & _ & (v & V) & _).
      eexists. exact (seer_single rt_sol Mr u (rcd Cooling t82) v eq_refl eq_refl V). }
    unfold print_cooling_info. destruct S0 as (v & ->).
    assert (E1 : works (eer rt_sol Mr u (Some (rcd Cooling None)))).
    { unfold eer. apply works_bind'; [tauto|]. intros; apply works_ok. }
    destruct (stage_in_ok "Net cooling power" 0 (net_cooling_power rt_sol Mr u (Some (rcd Cooling None))) watts
      (before ++ [Line "SEER: " v 2 ""])%list) as (l1 & X1 & N1); [tauto|].
    destruct (stage_in_ok "Net cooling capacity" 0 (net_total_cooling_capacity rt_sol Mr u (Some (rcd Cooling None))) tons l1)
      as (l2 & X2 & N2); [tauto|].
    destruct (stage_of_ok "Net cooling EER" 0 (eer rt_sol Mr u (Some (rcd Cooling None))) 2 l2) as (l3 & X3 & N3); [tauto|].
    destruct (stage_of_ok "Gross cooling COP" 0 (gross_total_cooling_cop Mr u (Some (rcd Cooling None))) 3 l3) as (l4 & X4 & N4); [tauto|].
    destruct (stage_of_ok "Net SHR" 0 (net_shr rt_sol Mr u (Some (rcd Cooling None))) 3 l4) as (l5 & X5 & N5); [tauto|].
    exists (l5 ++ [Blank])%list.
    split; [|rewrite app_length in *; cbn [List.length] in *; lia].
    apply sbind_ok. exists (before ++ [Line "SEER: " v 2 ""])%list, tt. split; [reflexivity|].
    change (sd_n (u_c u)) with 1%nat. cbn [seq sfold].
    apply sbind_ok. exists l5, tt. split; [|reflexivity].
    apply sbind_ok. exists l5, tt. split; [|reflexivity].
    apply sbind_ok. exists (before ++ [Line "SEER: " v 2 ""])%list, (rcd Cooling None).
    split; [apply slift_ok; split; [reflexivity|apply rcd_ok]|].
    apply sbind_ok. exists l1, tt. split; [exact X1|].
    apply sbind_ok. exists l2, tt. split; [exact X2|].
    apply sbind_ok. exists l3, tt. split; [exact X3|].
    apply sbind_ok. exists l4, tt. split; [exact X4|]. exact X5.
  Qed.

  Lemma toy_prints_heating v before : hspf rt_sol Mr u 4 = Ok v -> exists after,
    print_heating_info lin_psy rt_sol Mr watts tons 4 u before = (after, Ok tt)
    /\ List.length after = (5 + List.length before)%nat.
  Proof.
    intros H. pose proof (heat_works _ (rated_at Heating)) as W.
    unfold print_heating_info. rewrite H. set (first := (before ++ [Line ("HSPF (region " ++ show 4 ++ "): ")%string v 2 ""])%list).
    destruct (stage_in_ok "Net heating power" 0 (net_integrated_heating_power rt_sol Mr u (Some (rcd Heating None))) watts first)
      as (l1 & X1 & N1); [tauto|].
    destruct (stage_in_ok "Net heating capacity" 0 (net_integrated_heating_capacity rt_sol Mr u (Some (rcd Heating None))) tons l1)
      as (l2 & X2 & N2); [tauto|].
    destruct (stage_of_ok "Gross heating COP" 0 (gross_integrated_heating_cop Mr u (Some (rcd Heating None))) 3 l2) as (l3 & X3 & N3); [tauto|].
    exists (l3 ++ [Blank])%list.
    split; [|unfold first in *; rewrite app_length in *; cbn [List.length] in *; lia].
    apply sbind_ok. exists first, tt. split; [reflexivity|].
    change (sd_n (u_h u)) with 1%nat. cbn [seq sfold].
    apply sbind_ok. exists l3, tt. split; [|reflexivity].
    apply sbind_ok. exists l3, tt. split; [|reflexivity].
    apply sbind_ok. exists first, (rcd Heating None). split; [apply slift_ok; split; [reflexivity|apply rcd_ok]|].
    apply sbind_ok. exists l1, tt. split; [exact X1|].
    apply sbind_ok. exists l2, tt. split; [exact X2|]. exact X3.
  Qed.
End Report.

Lemma one_each psy sol M (u : dxunit R) f : plot psy sol M u = Ok f -> (forall m, sd_n (side_of m u) = 1%nat) ->
  List.length (fg_series f) = 22%nat.
Proof.
  intros H N. destruct (plot_inv psy sol M u f H) as (_ & curves & -> & F).
  change 22%nat with (List.length all_curves). induction F as [|k l ks ls ((D & _) & _) F IH]; [reflexivity|].
  cbn [List.concat List.length]. rewrite app_length, IH, <- (Forall2_len _ _ _ D), seq_length, N. reflexivity.
Qed.

(** A unit made by the constructor of which everything can be printed and plotted. *)
Lemma toy_report_example : exists u f lc lh,
  DXUnit lin_psy rt_sol (RESNETDXModel lin_psy rt_sol) (toy_args 8 3.5) = Ok u
  /\ rated_unit (toy_args 8 3.5) (u_staging u) 10000 10000 /\ plain_speeds (toy_args 8 3.5)
  /\ u_staging u = SINGLE_STAGE /\ rn_motor (u_rn u) = Some MotorPSC
  /\ (forall m, regular_speeds (side_of m u))
  /\ plot lin_psy rt_sol (RESNETDXModel lin_psy rt_sol) u = Ok f
  /\ print_cooling_info lin_psy rt_sol (RESNETDXModel lin_psy rt_sol) watts tons u [] = (lc, Ok tt)
  /\ print_heating_info lin_psy rt_sol (RESNETDXModel lin_psy rt_sol) watts tons 4 u [] = (lh, Ok tt)
  /\ List.length (fg_series f) = 22%nat /\ List.length lc = 7%nat /\ List.length lh = 5%nat.
Proof.
  destruct (toy_hspf 3.5) as (v & Hv); [lra|].
  destruct (toy_table_columns 3.5 8) as (net & N & Cols & Cl & Col); [lra|].
  destruct (toy_built 8 3.5 net) as (g & P & s & b & n & E & Sh & B & _ & Pn); [lra|exact N|exact Cl|].
  specialize (Hv 8 net g P s b n N Cols Cl Sh).
  assert (Hc : 3 <= 3.5 <= 4) by lra.
  destruct (toy_plot 8 3.5 net Hc N Cols Cl Col g P s b n Sh Pn B) as (f & F).
  destruct (toy_prints_cooling 8 3.5 net Hc Col g P s b n Sh Pn B []) as (lc & C & Lc).
  destruct (toy_prints_heating 8 3.5 net Hc N Cols Cl Col g P s b n Sh v [] Hv) as (lh & H & Lh).
  assert (Pl : plain_speeds (toy_args 8 3.5)).
  { repeat split; [eexists; reflexivity|intros l; discriminate]. }
  exists (toy_unit 8 3.5 net g P s b n), f, lc, lh.
  split; [exact E|]. split; [repeat split; [lra|lra|exact lit0_R]|]. split; [exact Pl|].
  split; [reflexivity|]. split; [reflexivity|].
  split; [intros m; exact (proj1 (resnet_layout _ _ _ _ E Pl m))|].
  split; [exact F|]. split; [exact C|]. split; [exact H|].
  split; [apply (one_each _ _ _ _ _ F); intros []; reflexivity|]. split; [exact Lc|exact Lh].
Qed.
