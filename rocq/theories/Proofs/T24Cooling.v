(** Cooling capacity and power of the Title 24 model (C76). *)
From Coq Require Import Reals QArith Lra Psatz List Bool String.
From Verif.Base Require Import Num Res Tac.
From Verif.Model Require Import Units Util Psychrometrics Conditions Defrost Fan Tabular Unit
  NREL BaseModel Title24 DXUnit.
From Verif.Spec Require Import NrelSpec ModelSpec Title24Spec.
From Verif.Proofs Require Import UnitsR NrelProofs UnitProofs ModelProofs.
Import ListNotations.
Local Open Scope R_scope.

Section Cooling.
  Variable u : dxunit R.
  Variable c : cond R.
  Variables wb odb idb v : R.
  Hypothesis P : t24_point c wb odb idb v.

  Lemma inputs_eq : t24_inputs c = Ok (wb, odb, idb, v).
  Proof.
    destruct P as (w & x & W & X & _ & -> & -> & -> & ->).
    unfold t24_inputs, wb_of, obs, get_wb, sread. rewrite W. cbn [need snd rbind].
    rewrite X. cbn [need rbind]. rewrite !to_F_degF. unfold cfm_per_ton, to_cfm_per_ton, ton_ref, cfm, btu_h.
    do 2 f_equal. rnum. lra.
  Qed.
  Lemma v_nz : v <> 0.
  Proof. destruct P as (w & x & _ & _ & V & _). exact V. Qed.

  Lemma regression k0 k1 k2 k3 k4 k5 k6 k7 k8 k9 k10 k11 :
    CA_regression [k0; k1; k2; k3; k4; k5; k6; k7; k8; k9; k10; k11] wb odb idb v
    = Ok (k0 * idb + k1 * wb + k2 * odb + k3 * v + k4 * idb * odb + k5 * idb * v
          + k6 * wb * odb + k7 * wb * v + k8 * odb * v + k9 * wb * wb + k10 / v + k11).
  Proof. unfold CA_regression. rewrite pydiv_ok by exact v_nz. reflexivity. Qed.

  Ltac poly := rnum; unfold Rdiv; generalize (/ v); intros; simpl; lra.

  Lemma shr_eq : t24_gross_shr u c = Ok (t24_shr wb odb idb v).
  Proof.
    unfold t24_gross_shr. rewrite inputs_eq. cbn [rbind]. unfold SHR_COEFFS.
    rewrite regression. cbn [rbind]. f_equal. unfold t24_shr.
    match goal with |- pymin _ ?a = Rmin _ ?y => replace a with y by poly end.
    generalize (1.5085285 + 0.0242020 * idb - 0.0592153 * wb + 0.0012651 * odb + 0.0016375 * v
                - 0.0000165 * wb * v + 0.0002021 * wb ^ 2). clear P. intros y.
    rnum. replace (1 * / 1) with 1 by lra. unfold Rmin.
    destruct (Rle_dec 1 y), (Rltb_spec y 1); lra.
  Qed.

  Lemma wet_dec : nltb (t24_shr wb odb idb v) (lit 1) = true /\ t24_wet wb odb idb v
    \/ nltb (t24_shr wb odb idb v) (lit 1) = false /\ ~ t24_wet wb odb idb v.
  Proof.
    unfold t24_wet. set (s := t24_shr _ _ _ _). clearbody s. rnum.
    replace (1 * / 1) with 1 by lra. destruct (Rltb_spec s 1); [left|right]; split; auto; lra.
  Qed.

  Lemma cap_curve (wet : bool) :
    (wet = true /\ t24_wet wb odb idb v \/ wet = false /\ ~ t24_wet wb odb idb v) ->
    exists f, t24_cap wb odb idb v f
    /\ CA_regression (if wet then CAP_COEFFS_WET else CAP_COEFFS_DRY) wb odb idb v = Ok f.
  Proof.
    intros [[-> W]|[-> W]]; unfold CAP_COEFFS_WET, CAP_COEFFS_DRY; rewrite regression;
      (eexists; split; [|reflexivity]); (split; intros H; [|]); try contradiction; poly.
  Qed.
  Lemma mild_curve (wet : bool) :
    (wet = true /\ t24_wet wb odb idb v \/ wet = false /\ ~ t24_wet wb odb idb v) ->
    exists f, t24_pow_mild wb odb idb v f
    /\ CA_regression (if wet then SEER_COEFFS_WET else SEER_COEFFS_DRY) wb odb idb v = Ok f.
  Proof.
    intros [[-> W]|[-> W]]; unfold SEER_COEFFS_WET, SEER_COEFFS_DRY; rewrite regression;
      (eexists; split; [|reflexivity]); (split; intros H; [|]); try contradiction; poly.
  Qed.
  Lemma hot_curve (wet : bool) :
    (wet = true /\ t24_wet wb odb idb v \/ wet = false /\ ~ t24_wet wb odb idb v) ->
    exists f, t24_pow_hot wb odb idb v f
    /\ CA_regression (if wet then EER_COEFFS_WET else EER_COEFFS_DRY) wb odb idb v = Ok f.
  Proof.
    intros [[-> W]|[-> W]]; unfold EER_COEFFS_WET, EER_COEFFS_DRY; rewrite regression;
      (eexists; split; [|reflexivity]); (split; intros H; [|]); try contradiction; poly.
  Qed.

  Lemma capacity_eq q : entry (sd_gross_cap (u_c u)) (c_speed c) q ->
    exists f, t24_cap wb odb idb v f /\ t24_gross_total_cooling_capacity u c = Ok (f * q).
  Proof.
    intros Q. unfold t24_gross_total_cooling_capacity. rewrite shr_eq. cbn [rbind].
    rewrite inputs_eq. cbn [rbind].
    destruct (cap_curve _ wet_dec) as (f & F & E). exists f. split; [exact F|].
    rewrite E. cbn [rbind]. apply arr_ok in Q. rewrite Q. reflexivity.
  Qed.

  Lemma factor_known f :
    match find (fun x => String.eqb "input_cooling_efficiency_multiplier" (fst x)) (u_kwargs u) with
    | None => Ok (lit 1)
    | Some (_, KNum x) => Ok x
    | Some _ => Err TypeError
    end = Ok f -> efficiency_factor u f.
  Proof.
    unfold efficiency_factor. destruct (find _ (u_kwargs u)) as [[k x]|] eqn:E.
    - destruct x; intros H; try discriminate H. apply Ok_inj in H. subst. left. eauto.
    - intros H. apply Ok_inj in H. subst f. right. split; [apply find_absent; exact E|].
      apply lit1_R.
  Qed.

  Lemma power_inv p : t24_gross_cooling_power u c = Ok p ->
    exists q w s r f cap, nth_error (sd_net_cap (u_c u)) (c_speed c) = Some q
      /\ entry (sd_fan_power (u_c u)) (c_speed c) w
      /\ seasonal_known u wb odb idb v q w s /\ rated_known u (c_speed c) wb odb idb v q w r /\ efficiency_factor u f
      /\ t24_gross_total_cooling_capacity u c = Ok cap /\ 0 <= cap
      /\ t24_efficiency odb s r * f <> 0
      /\ p = cap / (t24_efficiency odb s r * f).
  Proof.
    unfold t24_gross_cooling_power. rewrite shr_eq. cbn [rbind]. rewrite inputs_eq. cbn [rbind].
    intros H. apply rbind_ok in H. destruct H as (q & Q & H). apply geti_ok in Q.
    apply rbind_ok in H. destruct H as (ow & W & H). apply geti_ok in W.
    destruct (cap_curve _ wet_dec) as (fc & FC & EC).
    destruct (mild_curve _ wet_dec) as (fm & FM & EM).
    destruct (hot_curve _ wet_dec) as (fh & FH & EH).
    cbv zeta in H. rewrite EC, EM, EH in H. cbn [rbind] in H.
    apply rbind_ok in H. destruct H as (s & S & H).
    apply rbind_ok in H. destruct H as (r & Rr & H).
    apply rbind_ok in H. destruct H as (f & F & H). apply factor_known in F.
    apply rbind_ok in H. destruct H as (cap & CAP & H).
    unfold checked_product in CAP. apply rbind_ok in CAP. destruct CAP as (cap' & CAP & L).
    unfold unit_factor in L. cbn [rbind] in L. apply limit_check_inv in L. destruct L as [L1 L2].
    cbn [nmul RNum] in L1, L2. rewrite lit1_R, Rmult_1_r in L1, L2. subst cap'.
    apply pydiv_inv in H. destruct H as [N H].
    assert (X : exists w, ow = Some w /\ seasonal_known u wb odb idb v q w s /\ rated_known u (c_speed c) wb odb idb v q w r).
    { assert (Ht : odb < 95 \/ 82 < odb) by lra.
      assert (SK : odb < 95 -> exists w, ow = Some w /\ seasonal_known u wb odb idb v q w s).
      { intros L. cbn [nltb RNum] in S. replace (Rltb odb (lit 95)) with true in S
          by (symmetry; apply Rltb_true; rnum; lra).
        apply rbind_ok in S. destruct S as (seer & SE & S). apply need_ok in SE.
        apply rbind_ok in S. destruct S as (f1 & F1 & S). apply pydiv_inv in F1. destruct F1 as [N1 ->].
        apply rbind_ok in S. destruct S as (w & EW & S). apply need_ok in EW.
        apply rbind_ok in S. destruct S as (y & Y & S). apply pydiv_inv in Y. destruct Y as [N2 ->].
        apply pydiv_inv in S. destruct S as [N3 ->].
        exists w. split; [exact EW|]. intros _. exists fc, fm, seer. repeat (split; [assumption|]).
        unfold seasonal_efficiency, as_cop, fr_Btu_Wh, btu_h. cbn [nmul ndiv nadd nsub RNum].
        replace (lit 1.09) with 1.09 by (rnum; lra).
        replace (lit 1055.056 / lit 3600) with (1055.056 / 3600) by (rnum; lra). reflexivity. }
      assert (RK : 82 < odb -> exists w, ow = Some w /\ rated_known u (c_speed c) wb odb idb v q w r).
      { intros L. cbn [nltb RNum] in Rr. replace (Rltb (lit 82) odb) with true in Rr
          by (symmetry; apply Rltb_true; rnum; lra).
        apply rbind_ok in Rr. destruct Rr as (oe & OE & Rr). apply geti_ok in OE.
        apply rbind_ok in Rr. destruct Rr as (og & OG & Rr). apply geti_ok in OG.
        apply rbind_ok in Rr. destruct Rr as (e & E1 & Rr). apply need_ok in E1.
        apply rbind_ok in Rr. destruct Rr as (y & Y & Rr). apply pydiv_inv in Y. destruct Y as [N2 ->].
        apply rbind_ok in Rr. destruct Rr as (w & EW & Rr). apply need_ok in EW.
        apply rbind_ok in Rr. destruct Rr as (g & G & Rr). apply need_ok in G.
        apply pydiv_inv in Rr. destruct Rr as [N3 ->].
        exists w. split; [exact EW|]. intros _. exists fh, g, e. unfold entry.
        subst. repeat (split; [assumption|]).
        unfold rated_efficiency. cbn [nmul ndiv nadd nsub RNum].
        replace (lit 3.413) with 3.413 by (rnum; lra). reflexivity. }
      destruct (Rlt_dec odb 95) as [L|L].
      - destruct (SK L) as (w & EW & K). exists w. split; [exact EW|]. split; [exact K|].
        destruct (Rlt_dec 82 odb) as [M|M].
        + destruct (RK M) as (w' & EW' & K'). assert (w' = w) by congruence. subst w'. exact K'.
        + intros X; exfalso; lra.
      - destruct (RK ltac:(lra)) as (w & EW & K). exists w. split; [exact EW|]. split; [|exact K].
        intros X; exfalso; lra. }
    destruct X as (w & -> & SK & RK).
    exists q, w, s, r, f, cap. repeat (split; [assumption|]).
    assert (E : (if nleb odb (lit 82) then s
         else if nltb odb (lit 95) then nadd s (ndiv (nmul (nsub odb (lit 82)) (nsub r s)) (lit 13)) else r)
         = t24_efficiency odb s r).
    { unfold t24_efficiency. replace (lit 82) with 82 by (rnum; lra). replace (lit 95) with 95 by (rnum; lra).
      cbn [nleb nltb nadd nsub nmul ndiv RNum]. replace (lit 13) with 13 by (rnum; lra).
      destruct (Rleb_spec odb 82), (Rle_dec odb 82); try lra.
      destruct (Rltb_spec odb 95), (Rlt_dec odb 95); try lra. }
    rewrite E in N, H. cbn [nmul RNum] in N, H. auto.
  Qed.
End Cooling.

Notation M24 := Title24DXModel.

Lemma gtc24 sol u c r : gross_total_cooling_capacity (M24 sol) u (Some c) = Ok r <->
  t24_gross_total_cooling_capacity u c = Ok r /\ 0 <= r.
Proof.
  unfold gross_total_cooling_capacity, cooling_conditions, checked_product. cbn [rbind].
  change (md_gtc (M24 sol)) with (t24_gross_total_cooling_capacity (T:=R)).
  change (md_f_gtc (M24 sol)) with (unit_factor (T:=R)). unfold unit_factor.
  destruct (t24_gross_total_cooling_capacity u c) as [x|e]; cbn [rbind].
  - cbn [nmul RNum]. rewrite lit1_R, Rmult_1_r. split.
    + intros H. apply limit_check_inv in H. destruct H as [-> H]. auto.
    + intros [E H]. apply Ok_inj in E. subst. apply limit_check_pos. exact H.
  - split; [discriminate|]. intros [H _]. discriminate.
Qed.
Lemma gcp24 sol u c r : gross_cooling_power (M24 sol) u (Some c) = Ok r <->
  t24_gross_cooling_power u c = Ok r /\ 0 <= r.
Proof.
  unfold gross_cooling_power, cooling_conditions, checked_product. cbn [rbind].
  change (md_gcp (M24 sol)) with (t24_gross_cooling_power (T:=R)).
  change (md_f_gcp (M24 sol)) with (unit_factor (T:=R)). unfold unit_factor.
  destruct (t24_gross_cooling_power u c) as [x|e]; cbn [rbind].
  - cbn [nmul RNum]. rewrite lit1_R, Rmult_1_r. split.
    + intros H. apply limit_check_inv in H. destruct H as [-> H]. auto.
    + intros [E H]. apply Ok_inj in E. subst. apply limit_check_pos. exact H.
  - split; [discriminate|]. intros [H _]. discriminate.
Qed.

Lemma sensible24 sol u c wb odb idb v s : t24_point c wb odb idb v ->
  gross_sensible_cooling_capacity (M24 sol) u (Some c) = Ok s ->
  exists q, gross_total_cooling_capacity (M24 sol) u (Some c) = Ok q
    /\ s = t24_shr wb odb idb v * q /\ s <= q.
Proof.
  intros P H. unfold gross_sensible_cooling_capacity, cooling_conditions in H. cbn [rbind] in H.
  change (md_gsc (M24 sol)) with (t24_gross_sensible_cooling_capacity (T:=R)) in H.
  apply rbind_ok in H. destruct H as (x & X & H). apply limit_check_inv in H. destruct H as [-> N].
  unfold t24_gross_sensible_cooling_capacity in X. rewrite (shr_eq u c _ _ _ _ P) in X. cbn [rbind] in X.
  apply rbind_ok in X. destruct X as (q & Q & X). apply Ok_inj in X. cbn [nmul RNum] in X.
  assert (Q' : gross_total_cooling_capacity (M24 sol) u (Some c) = Ok q) by exact Q.
  exists q. split; [exact Q'|]. split; [symmetry; exact X|].
  apply gtc24 in Q'. destruct Q' as [_ Q'].
  assert (S1 : t24_shr wb odb idb v <= 1) by apply Rmin_l. rewrite <- X.
  set (a := t24_shr _ _ _ _) in *. clearbody a. nra.
Qed.

Lemma total24 sol u c wb odb idb v q : t24_point c wb odb idb v ->
  entry (sd_gross_cap (u_c u)) (c_speed c) q ->
  exists f, t24_cap wb odb idb v f
    /\ (0 <= f * q -> gross_total_cooling_capacity (M24 sol) u (Some c) = Ok (f * q))
    /\ (f * q < 0 -> gross_total_cooling_capacity (M24 sol) u (Some c) = Err PyException).
Proof.
  intros P Q. destruct (capacity_eq u c _ _ _ _ P q Q) as (f & F & E). exists f.
  split; [exact F|]. split; intros N.
  - apply gtc24. auto.
  - unfold gross_total_cooling_capacity, cooling_conditions, checked_product. cbn [rbind].
    change (md_gtc (M24 sol)) with (t24_gross_total_cooling_capacity (T:=R)).
    change (md_f_gtc (M24 sol)) with (unit_factor (T:=R)). unfold unit_factor. rewrite E. cbn [rbind].
    cbn [nmul RNum]. rewrite lit1_R, Rmult_1_r. apply limit_check_neg. exact N.
Qed.

Lemma cop24 sol u c wb odb idb v k : t24_point c wb odb idb v ->
  gross_total_cooling_cop (M24 sol) u (Some c) = Ok k ->
  gross_total_cooling_capacity (M24 sol) u (Some c) <> Ok 0 ->
  exists q w s r f, nth_error (sd_net_cap (u_c u)) (c_speed c) = Some q
    /\ entry (sd_fan_power (u_c u)) (c_speed c) w
    /\ seasonal_known u wb odb idb v q w s /\ rated_known u (c_speed c) wb odb idb v q w r
    /\ efficiency_factor u f /\ k = t24_efficiency odb s r * f.
Proof.
  intros P H N. unfold gross_total_cooling_cop, both in H.
  apply rbind_ok in H. destruct H as (cap & CAP & H).
  apply rbind_ok in H. destruct H as (p & PW & H). apply pydiv_inv in H. destruct H as [NP ->].
  apply gcp24 in PW. destruct PW as [PW _].
  destruct (power_inv u c _ _ _ _ P p PW) as (q & w & s & r & f & cap' & Q & W & S & Rr & F & C & _ & NE & ->).
  pose proof CAP as CAP'. apply gtc24 in CAP'. destruct CAP' as [CAP' _].
  assert (cap' = cap) by congruence. subst cap'.
  exists q, w, s, r, f. repeat (split; [assumption|]).
  assert (cap <> 0) by (intros ->; contradiction).
  set (e := t24_efficiency odb s r * f) in *. field. auto.
Qed.

(** ** Ratings that do not matter *)
Lemma seer_free sol u c x : 95 <= degF (ps_db (c_outdoor c)) ->
  gross_cooling_power (M24 sol) (wu_seer x u) (Some c) = gross_cooling_power (M24 sol) u (Some c).
Proof.
  intros H. unfold gross_cooling_power, cooling_conditions, checked_product. cbn [rbind].
  change (md_gcp (M24 sol)) with (t24_gross_cooling_power (T:=R)).
  change (md_f_gcp (M24 sol)) with (unit_factor (T:=R)).
  assert (E : t24_gross_cooling_power (wu_seer x u) c = t24_gross_cooling_power u c);
    [|rewrite E; reflexivity].
  unfold t24_gross_cooling_power.
  change (t24_gross_shr (wu_seer x u) c) with (t24_gross_shr u c).
  destruct (t24_gross_shr u c); [cbn [rbind]|reflexivity].
  unfold t24_inputs. destruct (wb_of (c_indoor c)); [cbn [rbind]|reflexivity].
  destruct (need _ (c_standard_volumetric_airflow_per_capacity c)); [cbn [rbind]|reflexivity].
  rewrite to_F_degF. replace (nltb (degF (ps_db (c_outdoor c))) (lit 95)) with false
    by (symmetry; apply Rltb_false; rnum; lra).
  reflexivity.
Qed.
Lemma eer_free sol u c l : degF (ps_db (c_outdoor c)) <= 82 ->
  gross_cooling_power (M24 sol) (wu_c (ws_net_cop l (u_c u)) u) (Some c)
  = gross_cooling_power (M24 sol) u (Some c).
Proof.
  intros H. unfold gross_cooling_power, cooling_conditions, checked_product. cbn [rbind].
  change (md_gcp (M24 sol)) with (t24_gross_cooling_power (T:=R)).
  change (md_f_gcp (M24 sol)) with (unit_factor (T:=R)).
  assert (E : t24_gross_cooling_power (wu_c (ws_net_cop l (u_c u)) u) c = t24_gross_cooling_power u c);
    [|rewrite E; reflexivity].
  unfold t24_gross_cooling_power.
  change (t24_gross_shr (wu_c (ws_net_cop l (u_c u)) u) c) with (t24_gross_shr u c).
  destruct (t24_gross_shr u c); [cbn [rbind]|reflexivity].
  unfold t24_inputs. destruct (wb_of (c_indoor c)); [cbn [rbind]|reflexivity].
  destruct (need _ (c_standard_volumetric_airflow_per_capacity c)); [cbn [rbind]|reflexivity].
  rewrite to_F_degF. replace (nltb (lit 82) (degF (ps_db (c_outdoor c)))) with false
    by (symmetry; apply Rltb_false; rnum; lra).
  reflexivity.
Qed.

(** ** At the rating condition *)
Lemma rating_shr : t24_shr 67 95 80 400 = 0.7174748.
Proof. unfold t24_shr. rewrite Rmin_right; lra. Qed.
Lemma rating_wet : t24_wet 67 95 80 400.
Proof. unfold t24_wet. rewrite rating_shr. lra. Qed.

Lemma rating24 sol u c q g w cop f : t24_point c 67 95 80 400 ->
  nth_error (sd_net_cap (u_c u)) (c_speed c) = Some q ->
  entry (sd_gross_cap (u_c u)) (c_speed c) g -> 0 < g ->
  entry (sd_fan_power (u_c u)) (c_speed c) w ->
  entry (sd_net_cop (u_c u)) (c_speed c) cop -> cop <> 0 ->
  efficiency_factor u f -> 0 < f ->
  0 < q / cop - w / 3.413 ->
  gross_total_cooling_capacity (M24 sol) u (Some c) = Ok g
  /\ gross_sensible_cooling_capacity (M24 sol) u (Some c) = Ok (0.7174748 * g)
  /\ gross_cooling_power (M24 sol) u (Some c) = Ok ((q / cop - w / 3.413) / f).
Proof.
  intros P Q G G0 W COP N F F0 D.
  assert (C1 : forall x, t24_cap 67 95 80 400 x -> x = 1).
  { intros x [X _]. rewrite (X rating_wet). lra. }
  assert (T : gross_total_cooling_capacity (M24 sol) u (Some c) = Ok g).
  { destruct (total24 sol u c _ _ _ _ g P G) as (x & X & T & _). rewrite (C1 x X) in T.
    rewrite Rmult_1_l in T. apply T. lra. }
  split; [exact T|].
  assert (T' : t24_gross_total_cooling_capacity u c = Ok g) by (apply gtc24 in T; tauto).
  assert (CP : checked_product t24_gross_total_cooling_capacity unit_factor u c = Ok g) by exact T.
  split.
  - unfold gross_sensible_cooling_capacity, cooling_conditions. cbn [rbind].
    change (md_gsc (M24 sol)) with (t24_gross_sensible_cooling_capacity (T:=R)).
    unfold t24_gross_sensible_cooling_capacity. rewrite (shr_eq u c _ _ _ _ P), CP. cbn [rbind].
    rewrite rating_shr. cbn [nmul RNum]. apply limit_check_pos. nra.
  - apply gcp24.
    assert (POS : 0 <= (q / cop - w / 3.413) / f).
    { apply Rlt_le, Rdiv_lt_0_compat; assumption. }
    split; [|exact POS].
    unfold t24_gross_cooling_power. rewrite (shr_eq u c _ _ _ _ P). cbn [rbind].
    rewrite (inputs_eq c _ _ _ _ P). cbn [rbind].
    rewrite (proj2 (geti_ok _ _ _) Q). cbn [rbind].
    rewrite (proj2 (geti_ok _ _ _) W). cbn [rbind]. cbv zeta.
    replace (nltb 95 (lit 95)) with false by (symmetry; apply Rltb_false; rnum; lra).
    replace (nltb (lit 82) 95) with true by (symmetry; apply Rltb_true; rnum; lra).
    cbn [rbind].
    rewrite (proj2 (geti_ok _ _ _) COP). cbn [rbind].
    rewrite (proj2 (geti_ok _ _ _) G). cbn [rbind].
    destruct (hot_curve c _ _ _ _ P _ (wet_dec _ _ _ _)) as (fp & FP & EP). rewrite EP.
    assert (fp = 1) by (destruct FP as [X _]; rewrite (X rating_wet); lra). subst fp.
    cbn [rbind need]. rewrite pydiv_ok by exact N. cbn [rbind need].
    replace (lit 3.413) with 3.413 by (rnum; lra). cbn [nmul ndiv nsub nadd RNum].
    rewrite Rmult_1_l. rewrite pydiv_ok by lra. cbn [rbind].
    replace (nleb 95 (lit 82)) with false by (symmetry; apply Rleb_false; rnum; lra).
    assert (FE : match find (fun x => String.eqb "input_cooling_efficiency_multiplier" (fst x)) (u_kwargs u) with
      | None => Ok (lit 1) | Some (_, KNum x) => Ok x | Some _ => Err TypeError end = Ok f).
    { destruct F as [(e & -> & E)|[A ->]].
      - destruct e as [k y]. cbn [snd] in E. subst y. reflexivity.
      - destruct (find _ (u_kwargs u)) as [[k y]|] eqn:E.
        + apply find_some in E. destruct E as [E1 E2]. apply String.eqb_eq in E2. cbn [fst] in E2. subst k.
          destruct (A _ E1).
        + rewrite lit1_R. reflexivity. }
    rewrite FE. cbn [rbind]. rewrite CP. cbn [rbind].
    rewrite pydiv_ok.
    + f_equal. set (d := q / cop - w / 3.413) in *. clearbody d. field. lra.
    + set (d := q / cop - w / 3.413) in *. clearbody d.
      apply Rmult_integral_contrapositive_currified; [|lra].
      apply Rgt_not_eq. apply Rdiv_lt_0_compat; assumption.
Qed.

(** Capacity over power at the rating condition, fan included. *)
Lemma rated_cop24 sol u c q w cop : t24_point c 67 95 80 400 ->
  nth_error (sd_net_cap (u_c u)) (c_speed c) = Some q -> 0 < q ->
  entry (sd_fan_power (u_c u)) (c_speed c) w -> 0 <= w ->
  entry (sd_gross_cap (u_c u)) (c_speed c) (q + w) ->
  entry (sd_net_cop (u_c u)) (c_speed c) cop -> cop <> 0 ->
  not_supplied u "input_cooling_efficiency_multiplier" ->
  w / 3.413 < q / cop ->
  cooling_fan_power sol u (Some c) = Ok w ->
  net_total_cooling_capacity sol (M24 sol) u (Some c) = Ok q
  /\ net_cooling_power sol (M24 sol) u (Some c) = Ok (q / cop + w * (1 - 1 / 3.413))
  /\ net_total_cooling_cop sol (M24 sol) u (Some c) = Ok (q / (q / cop + w * (1 - 1 / 3.413))).
Proof.
  intros P Q Q0 W W0 G COP N F D FAN.
  destruct (rating24 sol u c q (q + w) w cop 1 P Q G ltac:(lra) W COP N (or_intror (conj F eq_refl))
    ltac:(lra) ltac:(lra)) as (A & _ & B).
  assert (CAP : net_total_cooling_capacity sol (M24 sol) u (Some c) = Ok q).
  { unfold net_total_cooling_capacity, both. rewrite A. cbn [rbind]. rewrite FAN. cbn [rbind].
    unfold minus. cbn [nsub RNum]. f_equal. lra. }
  assert (POW : net_cooling_power sol (M24 sol) u (Some c) = Ok (q / cop + w * (1 - 1 / 3.413))).
  { unfold net_cooling_power, both. rewrite B. cbn [rbind]. rewrite FAN. cbn [rbind].
    unfold plus. cbn [nadd RNum]. f_equal. generalize (q / cop). intros. lra. }
  split; [exact CAP|]. split; [exact POW|].
  unfold net_total_cooling_cop, both. rewrite CAP. cbn [rbind]. rewrite POW. cbn [rbind].
  apply pydiv_ok. assert (0 <= w / 3.413) by lra. assert (0 < q / cop) by lra.
  apply Rgt_not_eq. apply Rplus_lt_le_0_compat; [assumption|]. apply Rmult_le_pos; lra.
Qed.
