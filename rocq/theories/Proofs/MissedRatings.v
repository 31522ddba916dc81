(** C73: by how much a unit with a BPM motor misses its ratings. *)
From Coq Require Import Reals QArith Lra Lia List Bool String ZArith.
From Verif.Base Require Import Num Res Tac.
From Verif.Model Require Import Units Util Psychrometrics Conditions Defrost Fan Curves Tabular Unit NREL BaseModel
  Title24 Resnet DXUnit.
From Verif.Spec Require Import TabularSpec SeasonSpec NrelSpec ModelSpec UnitModels UnitSpec TestSpec RatedSpec FanSpec ResnetFanSpec.
From Verif.Proofs Require Import UtilProofs UnitsR FanProofs FanProofs2 FanProofs3 MakeCond Frame UnitProofs UnitProofs4 NrelProofs ResnetProofs
  SingleFan SingleUnit TabGross TabMisc TabBuild SeerProofs RatingProofs StandardProofs TestProofs SingleRating RatedFan
  RatedTable RatedValues RatedEer ResnetFan ResnetFan2 ResnetFan3.
Import ListNotations.
Local Open Scope R_scope.

(** The power of a BPM fan at a speed not above its first rises with the pressure. *)
Lemma bpm_rises sol (f : fan R) k v top p p' w w' : sound_brentq 0 sol -> f_class f = RESNETBPMFan ->
  f_design_esp f = fr_inH2O (lit 0.5) -> geti (f_airflow f) k = Ok v -> geti (f_airflow f) 0 = Ok top ->
  0 < v <= top -> power sol f k (Some p) = Ok w -> power sol f k (Some p') = Ok w' -> p < p' -> w < w'.
Proof.
  intros (S1 & _) C De Gv Gt V W W' L. pose proof half_inH2O_pos as H0. unfold power in W, W'. rewrite C in W, W'.
  unfold airflow, efficacy in W, W'. rewrite C in W, W'. rewrite Gv in W, W'. cbn [rbind] in W, W'.
  apply rbind_ok in W. destruct W as (e & E & W). apply rbind_ok in W'. destruct W' as (e' & E' & W').
  apply Ok_inj in W, W'. cbn [nmul RNum] in W, W'. subst w w'. apply Rmult_lt_compat_l; [lra|].
  unfold resnet_bpm_efficacy in E, E'.
  destruct (operating_pressure sol f k) as [dp|x] eqn:O; [|discriminate]. cbn [rbind] in E, E'.
  rewrite !(resnet_ratio sol f k v top) in E, E' by (auto; lra). cbn [rbind] in E, E'.
  set (r := v / top) in *. assert (Rr : 0 < r <= 1).
  { unfold r. split; [apply Rdiv_lt_0_compat; lra|]. apply Rmult_le_reg_r with top; [lra|]. unfold Rdiv. rewrite Rmult_assoc, Rinv_l; lra. }
  unfold pypow in E, E'. rewrite lit0_R in E, E'. cbn [nltb neqb RNum] in E, E'.
  destruct (Rltb_spec r 0); [lra|]. destruct (Reqb_spec r 0); [lra|]. cbn [rbind] in E, E'.
  apply rbind_ok in E. destruct E as (y & Y & E). apply pydiv_inv in Y. destruct Y as (Nd & Y). apply Ok_inj in E.
  apply rbind_ok in E'. destruct E' as (y' & Y' & E'). apply pydiv_inv in Y'. destruct Y' as (_ & Y'). apply Ok_inj in E'.
  unfold operating_pressure in O. apply S1 in O. destruct O as (x0 & B & _ & Ab). rewrite De, lit0_R in B.
  assert (Dp : 0 < dp).
  { assert (dp = x0). { destruct (Req_dec (dp - x0) 0); [lra|]. pose proof (Rabs_pos_lt _ H). lra. } subst x0. lra. }
  rewrite <- E, <- E', Y, Y'. cbn [nadd nsub nmul npow RNum RNumX]. apply Rplus_lt_compat_l.
  unfold Rdiv. apply Rmult_lt_compat_r; [apply Rinv_0_lt_compat; exact Dp|]. apply Rmult_lt_compat_l; [|exact L].
  replace (lit (T:=R) 1.75) with 1.75 by (rnum; lra).
  replace (DUCTED_DESIGN_EFFICACY (T:=R)) with (fr_W_per_cfm (T:=R) 0.281)
    by (unfold DUCTED_DESIGN_EFFICACY; f_equal; rnum; lra).
  replace (DUCTLESS_DESIGN_EFFICACY (T:=R)) with (fr_W_per_cfm (T:=R) 0.171)
    by (unfold DUCTLESS_DESIGN_EFFICACY; f_equal; rnum; lra).
  pose proof (Rpower_175_le r Rr) as (B1 & _). cbn [pow] in B1. rewrite Rmult_1_r in B1.
  unfold fr_W_per_cfm. cbn [ndiv RNum]. pose proof cfm_pos as Cp. unfold Rdiv.
  assert (Z : 0 < / cfm (T:=R)) by (apply Rinv_0_lt_compat; exact Cp). set (z := / cfm (T:=R)) in *.
  assert (0 < r * r) by nra. set (y175 := Rpower r 1.75) in *.
  replace (0.281 * z * y175 - 0.171 * z * r * r) with (z * (0.281 * y175 - 0.171 * (r * r))) by ring.
  apply Rmult_lt_0_compat; [exact Z|lra].
Qed.

Section Missed.
  Variable psy : psychro R.
  Variable sol : solvers R.
  Notation U := (dxunit R).
  Notation M := (RESNETDXModel psy sol).
  Variables (a : dxargs R) (u : U) (f : fan R).
  Hypothesis S : sound_brentq 0 sol.
  Hypothesis D : DXUnit psy sol M a = Ok u.
  Hypothesis Fa : a_fan a = None.
  Hypothesis Ff : u_fan u = Some f.
  Hypothesis Fk : f_class f = RESNETBPMFan.

  Lemma fan_gap m m' v v' v0 c o r P w : m <> m' ->
    let full := sd_full (side_of m u) in
    entry (sd_airflow (side_of m u)) full v -> entry (sd_airflow (side_of m u)) 0 v0 ->
    entry (sd_airflow (side_of m' u)) (sd_full (side_of m' u)) v' ->
    make_condition psy m u full o r = Ok c ->
    get_rated_full_flow_rated_pressure u = Ok P -> 0 < P -> 0 < v -> 0 < v0 ->
    fan_power sol u c = Ok w ->
    exists w0, entry (sd_fan_power (side_of m u)) full w0
      /\ (v0 < Rmax v v' -> w0 < w) /\ (Rmax v v' < v0 -> w < w0).
  Proof.
    intros Nm fl V V0 V' Mk HP P1 V1 V2 FW.
    destruct (resnet_fan psy sol a u D Fa) as (f' & k & P0 & ac & ah & H1 & H2 & (H3 & H3') & H4 & H5 & H6 & H7 & H8).
    assert (f' = f) by congruence. subst f'. assert (P0 = P) by congruence. subst P0.
    assert (Hq : exists q, nth_error (sd_net_cap (side_of m u)) fl = Some q).
    { pose proof Mk as C. apply make_condition_inv in C. destruct C as (q & _ & _ & _ & _ & _ & _ & Hq & _). exists q. exact Hq. }
    destruct Hq as (q & Hq).
    destruct (H8 m fl q Hq) as (x & p & w0 & v2 & G1 & (J1 & J2 & J3 & _ & (mp & kf & M1 & M2 & Ja & Jp)) & _ & _).
    exists w0. split; [exact J3|].
    destruct (full_pressure psy sol a u D Fa m m' v v' v0 p c o r P Nm V V0 V' J2 Mk HP P1 V1 V2) as (p' & A1 & _ & _ & A2 & A3).
    pose proof Mk as C. apply make_condition_inv in C.
    destruct C as (q0 & a0 & full & p0 & fs & rho0 & srho0 & _ & _ & _ & _ & (mp' & N1 & N2) & _ & _ & _ & _ & _ & _ & Ec).
    assert (Cf : c_fan_speed c = Some kf).
    { subst c. unfold flow_cond. cbn [c_fan_speed]. congruence. }
    unfold fan_power in FW. rewrite Ff, A1, Cf in FW. cbn [need rbind] in FW.
    unfold entry in J1, V. assert (Qx : q * x = v) by congruence. rewrite Qx in *.
    assert (Gv : geti (f_airflow f) kf = Ok v).
    { specialize (Ja None). unfold airflow in Ja. rewrite Fk in Ja. exact Ja. }
    assert (Gt : geti (f_airflow f) 0 = Ok (Rmax ac ah)).
    { specialize (H7 None). unfold airflow in H7. rewrite Fk in H7. exact H7. }
    assert (Dm : Rmax ac ah = Rmax v v').
    { unfold entry in *. subst fl. destruct m, m'; try contradiction; cbn [side_of] in *.
      - assert (ac = v) by congruence; assert (ah = v') by congruence; congruence.
      - assert (ah = v) by congruence; assert (ac = v') by congruence. subst. apply Rmax_comm. }
    rewrite Dm in Gt.
    assert (Lv : 0 < v <= Rmax v v') by (split; [exact V1|apply Rmax_l]).
    split; intros L; [exact (bpm_rises sol f kf v _ p p' w0 w S Fk H3' Gv Gt Lv Jp FW (A2 L))
      |exact (bpm_rises sol f kf v _ p' p w w0 S Fk H3' Gv Gt Lv FW Jp (A3 L))].
  Qed.

  Variables (q h P vc vc0 vh vh0 : R).
  Hypothesis Ru : rated_unit a (u_staging u) q h.
  Hypothesis Off : u_staging u = VARIABLE_SPEED -> u_heating_off u < fr_F 5.
  Hypothesis HP : get_rated_full_flow_rated_pressure u = Ok P.
  Hypothesis Pp : 0 < P.
  Hypothesis Vc : entry (sd_airflow (u_c u)) (sd_full (u_c u)) vc.
  Hypothesis Vc0 : entry (sd_airflow (u_c u)) 0 vc0.
  Hypothesis Vh : entry (sd_airflow (u_h u)) (sd_full (u_h u)) vh.
  Hypothesis Vh0 : entry (sd_airflow (u_h u)) 0 vh0.
  Hypothesis Pos : 0 < vc /\ 0 < vc0 /\ 0 < vh /\ 0 < vh0.

  (** Net values at the rating condition: those of the ratings, shifted by a difference
      between two fan powers. *)
  Lemma shifted :
    exists d d' pc ph,
      ((vc0 < Rmax vc vh -> 0 < d) /\ (Rmax vc vh < vc0 -> d < 0))
      /\ ((vh0 < Rmax vc vh -> 0 < d') /\ (Rmax vc vh < vh0 -> d' < 0))
      /\ (forall v, net_total_cooling_capacity sol M u None = Ok v -> v = q - d)
      /\ (forall e v, a_eer a = Some e -> eer sol M u None = Ok v ->
            pc <> 0 /\ pc + d <> 0 /\ e = to_Btu_Wh (q / pc) /\ v = to_Btu_Wh ((q - d) / (pc + d)))
      /\ (forall v, net_steady_state_heating_capacity sol M u None = Ok v -> v = h + d')
      /\ (forall c v, a_net_hcop a = Some (Scalar c) -> net_steady_state_heating_cop sol M u None = Ok v ->
            ph <> 0 /\ ph + d' <> 0 /\ c = h / ph /\ v = (h + d') / (ph + d')).
  Proof.
    destruct Ru as (Qc & Nq & Nh & Qh & _ & Ch & Tab). destruct Pos as (P1 & P2 & P3 & P4).
    assert (LM : library_model psy sol M) by (unfold library_model; simpl; tauto).
    assert (Hp : forall p, get_kwarg_value "tabular_data" (a_kwargs a) = KTable p -> interpolators_set p)
      by (intros p X; congruence).
    destruct (net_exists psy sol a u D) as (net & N); [intros l X; rewrite X in Qh; exact Qh|].
    destruct (built psy sol a u net D N Hp) as (_ & _ & _ & _ & _ & (F1 & F2) & B).
    destruct (B Tab) as (u0 & I & TB). clear B.
    destruct (constructed_config psy sol M LM a u D) as (u0' & I' & K).
    assert (u0' = u0) by congruence. subst u0'. unfold config in K.
    assert (K3 : u_heating_off u = u_heating_off u0) by congruence. pose proof Off as Off'. rewrite K3 in Off'. clear K K3.
    assert (Ie : u_eer u0 = default_eer (a_seer a) (a_eer a) /\ u_hcop u0 = a_net_hcop a).
    { unfold init_unit in I. apply rbind_ok in I. destruct I as (rn & _ & I). cbv zeta in I.
      apply rbind_ok in I. destruct I as (stg & _ & I). apply Ok_inj in I. subst u0. split; reflexivity. }
    destruct Ie as (Ie & Ih).
    destruct (built_ratings _ _ _ _ _ _ _ TB Qc (heating_R _ _ _ _ Qh) Nq Nh Off')
      as (k & C & L1 & L2 & T1 & (e & E1 & T2) & T3 & x & T4 & X1).
    destruct (stored_condition psy sol M a u A_full LM D) as (s & ca & S1 & S2 & Mk); [cbn; auto|].
    destruct (stored_condition psy sol M a u H1_full LM D) as (s' & ch & S3 & S4 & Mk'); [cbn; auto|].
    cbn [test_speed side_of test_mode] in S1, S3.
    injection S1 as <-. injection S3 as <-. cbn [stored test_mode given_outdoor] in S2, S4, Mk, Mk'.
    assert (Oa : ps_db (c_outdoor ca) = fr_F 95).
    { destruct (make_condition_facts _ _ _ _ _ _ _ Mk) as (_ & _ & _ & O). rewrite O. exact (outdoor_db Cooling). }
    assert (Oh : ps_db (c_outdoor ch) = fr_F 47).
    { destruct (make_condition_facts _ _ _ _ _ _ _ Mk') as (_ & _ & _ & O). rewrite O. exact (outdoor_db Heating). }
    destruct (cop_parts Cooling _ _ _ _ T2) as (q' & pc & Q & Pc & Npc & Ec).
    assert (q' = q) by (cbn [table_capacity] in Q; congruence). subst q'.
    destruct (cop_parts Heating _ _ _ _ T4) as (h' & ph & Hh & Ph & Nph & Eh).
    assert (h' = h) by (cbn [table_capacity] in Hh; congruence). subst h'.
    rewrite <- Oa in Q, Pc. rewrite <- Oh in Hh, Ph.
    assert (Cc : In (sd_full (u_c u), k) (table_columns (u_staging u))) by (rewrite F1; exact C).
    assert (Ccool : exists d, ((vc0 < Rmax vc vh -> 0 < d) /\ (Rmax vc vh < vc0 -> d < 0))
      /\ (forall v, net_capacity sol M Cooling u (Some ca) = Ok v -> v = q - d)
      /\ (forall v, net_power sol M Cooling u (Some ca) = Ok v -> v = pc + d)).
    { destruct (fan_power sol u ca) as [wc|er] eqn:Ew.
      - destruct (fan_gap Cooling Heating vc vh vc0 ca _ _ P wc ltac:(discriminate) Vc Vc0 Vh Mk HP Pp P1 P2 Ew)
          as (w0 & W0 & G1 & G2).
        destruct (rated_values psy sol a u net Cooling _ k _ ca w0 wc q pc D Ch N Hp Cc L1 Mk W0 Ew Q Pc) as (A & A').
        exists (wc - w0). split; [split; intros L; [specialize (G1 L)|specialize (G2 L)]; lra|].
        split; intros v Hv; [rewrite (A v Hv); cbn [fan_heat]; lra|exact (A' v Hv)].
      - exists (if Rlt_dec vc0 (Rmax vc vh) then 1 else -1).
        split; [destruct (Rlt_dec vc0 (Rmax vc vh)); split; intros; lra|].
        assert (Bad : forall v, net_capacity sol M Cooling u (Some ca) = Ok v \/ net_power sol M Cooling u (Some ca) = Ok v -> False).
        { intros v [Hv|Hv]; cbn [net_capacity net_power] in Hv; [unfold net_total_cooling_capacity in Hv|unfold net_cooling_power in Hv];
            unfold both, cooling_fan_power, cooling_conditions in Hv; cbn [rbind] in Hv; rewrite Ew in Hv;
            apply rbind_ok in Hv; destruct Hv as (? & _ & Hv); discriminate. }
        split; intros v Hv; exfalso; eauto. }
    assert (Chc : In (sd_full (u_h u), k) (table_columns (u_staging u))) by (rewrite F2; exact C).
    assert (Cheat : exists d, ((vh0 < Rmax vc vh -> 0 < d) /\ (Rmax vc vh < vh0 -> d < 0))
      /\ (forall v, net_capacity sol M Heating u (Some ch) = Ok v -> v = h + d)
      /\ (forall v, net_power sol M Heating u (Some ch) = Ok v -> v = ph + d)).
    { rewrite Rmax_comm. destruct (fan_power sol u ch) as [wc|er] eqn:Ew.
      - destruct (fan_gap Heating Cooling vh vc vh0 ch _ _ P wc ltac:(discriminate) Vh Vh0 Vc Mk' HP Pp P3 P4 Ew)
          as (w0 & W0 & G1 & G2).
        destruct (rated_values psy sol a u net Heating _ k _ ch w0 wc h ph D Ch N Hp Chc L2 Mk' W0 Ew Hh Ph) as (A & A').
        exists (wc - w0). split; [split; intros L; [specialize (G1 L)|specialize (G2 L)]; lra|].
        split; intros v Hv; [rewrite (A v Hv); cbn [fan_heat]; lra|exact (A' v Hv)].
      - exists (if Rlt_dec vh0 (Rmax vh vc) then 1 else -1).
        split; [destruct (Rlt_dec vh0 (Rmax vh vc)); split; intros; lra|].
        assert (Bad : forall v, net_capacity sol M Heating u (Some ch) = Ok v \/ net_power sol M Heating u (Some ch) = Ok v -> False).
        { intros v [Hv|Hv]; cbn [net_capacity net_power] in Hv;
            [unfold net_steady_state_heating_capacity in Hv|unfold net_steady_state_heating_power in Hv];
            unfold both, heating_fan_power, heating_conditions in Hv; cbn [rbind] in Hv; rewrite Ew in Hv;
            apply rbind_ok in Hv; destruct Hv as (? & _ & Hv); discriminate. }
        split; intros v Hv; exfalso; eauto. }
    destruct Ccool as (d & G1 & A1 & A2). destruct Cheat as (d' & G2 & B1 & B2).
    exists d, d', pc, ph. split; [exact G1|]. split; [exact G2|]. split; [|split; [|split]].
    - intros v V. apply A1. rewrite <- V. symmetry.
      unfold net_capacity, net_total_cooling_capacity, both, gross_total_cooling_capacity, cooling_fan_power, cooling_conditions.
      rewrite S2. reflexivity.
    - intros e' v He V. unfold eer in V. apply rbind_ok in V. destruct V as (w & W & V). apply Ok_inj in V.
      assert (Ww : net_cop sol M Cooling u (Some ca) = Ok w).
      { rewrite <- W. unfold net_cop, net_total_cooling_cop, net_total_cooling_capacity, net_cooling_power, both, gross_total_cooling_capacity,
          gross_cooling_power, cooling_fan_power, cooling_conditions. rewrite S2. reflexivity. }
      destruct (net_cop_parts psy sol _ _ _ _ Ww) as (q1 & p1 & Q1 & Pw & Np1 & Ew).
      rewrite (A1 _ Q1), (A2 _ Pw) in Ew. rewrite (A2 _ Pw) in Np1.
      split; [exact Npc|]. split; [exact Np1|].
      rewrite He in Ie. assert (e = e') by (unfold default_eer in Ie; destruct (a_seer a); congruence). subst e'.
      split; [rewrite <- Ec, to_Btu_Wh_spec; symmetry; apply Btu_Wh_fr|rewrite <- V, Ew; reflexivity].
    - intros v V. apply B1. rewrite <- V. symmetry.
      unfold net_capacity, net_steady_state_heating_capacity, both, gross_steady_state_heating_capacity, heating_fan_power,
        heating_conditions. rewrite S4. reflexivity.
    - intros c v Hc V.
      assert (Ww : net_cop sol M Heating u (Some ch) = Ok v).
      { rewrite <- V. unfold net_cop, net_steady_state_heating_cop, net_steady_state_heating_capacity, net_steady_state_heating_power, both,
          gross_steady_state_heating_capacity, gross_steady_state_heating_power, heating_fan_power, heating_conditions.
        rewrite S4. reflexivity. }
      destruct (net_cop_parts psy sol _ _ _ _ Ww) as (q1 & p1 & Q1 & Pw & Np1 & Ew).
      rewrite (B1 _ Q1), (B2 _ Pw) in Ew. rewrite (B2 _ Pw) in Np1.
      split; [exact Nph|]. split; [exact Np1|]. split; [|exact Ew]. rewrite <- Eh. symmetry. apply X1. congruence.
  Qed.

  Lemma Btu_pos x y : x < y -> to_Btu_Wh (T:=R) x < to_Btu_Wh y.
  Proof. rewrite !to_Btu_Wh_spec. unfold Btu_Wh. lra. Qed.
  Lemma Btu_0 : to_Btu_Wh (T:=R) 0 = 0.
  Proof. rewrite to_Btu_Wh_spec. unfold Btu_Wh. lra. Qed.
  Lemma Btu_neg x : 0 < to_Btu_Wh (T:=R) x -> 0 < x.
  Proof. rewrite to_Btu_Wh_spec. unfold Btu_Wh. lra. Qed.
  Lemma div_pos x y : y <> 0 -> 0 < x -> 0 < x / y -> 0 < y.
  Proof.
    intros N X H. destruct (Rtotal_order y 0) as [L|[L|L]]; [exfalso|contradiction|exact L].
    assert (x / y < 0); [|lra]. unfold Rdiv. assert (/ y < 0) by (apply Rinv_lt_0_compat; exact L). nra.
  Qed.
  Lemma div_less x y x' y' : 0 < y -> 0 < y' -> x * y' < x' * y -> x / y < x' / y'.
  Proof.
    intros Y Y' H. apply Rmult_lt_reg_r with (y * y'); [nra|].
    replace (x / y * (y * y')) with (x * y') by (field; lra).
    replace (x' / y' * (y * y')) with (x' * y) by (field; lra). exact H.
  Qed.

  Theorem ratings_missed : 0 < q -> 0 < h ->
    (vc0 < Rmax vc vh ->
       (forall v, net_total_cooling_capacity sol M u None = Ok v -> v < q)
       /\ (forall e v, a_eer a = Some e -> 0 < e -> eer sol M u None = Ok v -> v < e))
    /\ (Rmax vc vh < vc0 ->
       (forall v, net_total_cooling_capacity sol M u None = Ok v -> q < v)
       /\ (forall e v, a_eer a = Some e -> 0 < e -> eer sol M u None = Ok v -> 0 < v -> e < v))
    /\ (vh0 < Rmax vc vh ->
       (forall v, net_steady_state_heating_capacity sol M u None = Ok v -> h < v)
       /\ (forall c v, a_net_hcop a = Some (Scalar c) -> 1 < c -> net_steady_state_heating_cop sol M u None = Ok v -> v < c))
    /\ (Rmax vc vh < vh0 ->
       (forall v, net_steady_state_heating_capacity sol M u None = Ok v -> v < h)
       /\ (forall c v, a_net_hcop a = Some (Scalar c) -> 1 < c ->
            net_steady_state_heating_cop sol M u None = Ok v -> 1 < v -> c < v)).
  Proof.
    intros Hq Hh. destruct shifted as (d & d' & pc & ph & (G1 & G2) & (G3 & G4) & A1 & A2 & B1 & B2).
    split; [|split; [|split]]; intros L.
    - specialize (G1 L). split; [intros v V; rewrite (A1 v V); lra|].
      intros e v He Pe V. destruct (A2 e v He V) as (N1 & N2 & -> & ->). apply Btu_neg in Pe.
      pose proof (div_pos _ _ N1 Hq Pe) as Pc. apply Btu_pos. apply div_less; nra.
    - specialize (G2 L). split; [intros v V; rewrite (A1 v V); lra|].
      intros e v He Pe V Pv. destruct (A2 e v He V) as (N1 & N2 & -> & ->). apply Btu_neg in Pe. apply Btu_neg in Pv.
      pose proof (div_pos _ _ N1 Hq Pe) as Pc. assert (Q2 : 0 < q - d) by lra. pose proof (div_pos _ _ N2 Q2 Pv) as Pd.
      apply Btu_pos. apply div_less; nra.
    - specialize (G3 L). split; [intros v V; rewrite (B1 v V); lra|].
      intros c v Hc Pc V. destruct (B2 c v Hc V) as (N1 & N2 & Ec & ->). rewrite Ec in *.
      pose proof (div_pos _ _ N1 Hh ltac:(lra)) as Pp'. assert (ph < h).
      { apply Rmult_lt_reg_r with (/ ph); [apply Rinv_0_lt_compat; exact Pp'|]. rewrite Rinv_r by lra. exact Pc. }
      apply div_less; nra.
    - specialize (G4 L). split; [intros v V; rewrite (B1 v V); lra|].
      intros c v Hc Pc V Pv. destruct (B2 c v Hc V) as (N1 & N2 & Ec & Ev). rewrite Ec in *. rewrite Ev in *.
      pose proof (div_pos _ _ N1 Hh ltac:(lra)) as Pp'. assert (Lp : ph < h).
      { apply Rmult_lt_reg_r with (/ ph); [apply Rinv_0_lt_compat; exact Pp'|]. rewrite Rinv_r by lra. exact Pc. }
      assert (Pd : 0 < ph + d').
      { destruct (Rtotal_order (ph + d') 0) as [X|[X|X]]; [exfalso|contradiction|exact X].
        assert (Y : (h + d') / (ph + d') < 1); [|lra].
        assert (Z : / (ph + d') < 0) by (apply Rinv_lt_0_compat; exact X).
        replace 1 with ((ph + d') * / (ph + d')) by (apply Rinv_r; lra). unfold Rdiv. nra. }
      apply div_less; nra.
  Qed.
End Missed.
