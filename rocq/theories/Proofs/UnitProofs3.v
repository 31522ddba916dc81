(** C37, C38, C39, C42: performance identities, coil calibration, rated pressures
    and heating distributions. *)
From Coq Require Import Reals QArith Lra Lia Psatz List Bool String.
From Verif.Base Require Import Num Res Tac.
From Verif.Model Require Import Units Util Psychrometrics Conditions Defrost Fan Curves
  Tabular Unit NREL BaseModel Title24 Resnet DXUnit.
From Verif.Spec Require Import NrelSpec UnitSpec.
From Verif.Proofs Require Import UnitsR UtilProofs NrelProofs MakeCond.
Import ListNotations.
Local Open Scope R_scope.

(** ** C37 *)
Section Identities.
  Variable sol : solvers R.
  Variable M : dxmodel R.
  Notation U := (dxunit R).

  Lemma both_ok op (f g : U -> option (cond R) -> res R) u oc a b :
    f u oc = Ok a -> g u oc = Ok b -> both op f g u oc = op a b.
  Proof. intros E1 E2. unfold both. rewrite E1. cbn [rbind]. rewrite E2. reflexivity. Qed.
  Lemma both_inv op (f g : U -> option (cond R) -> res R) u oc v :
    both op f g u oc = Ok v -> exists a b, f u oc = Ok a /\ g u oc = Ok b /\ op a b = Ok v.
  Proof.
    unfold both. intros H. apply rbind_ok in H. destruct H as (a & Ha & H).
    apply rbind_ok in H. destruct H as (b & Hb & H). eauto.
  Qed.

  Lemma checked_nonneg raw f u c v :
    checked_product (T:=R) raw f u c = Ok v -> 0 <= v.
  Proof.
    unfold checked_product. intros H. apply rbind_ok in H. destruct H as (a & Ha & H).
    apply rbind_ok in H. destruct H as (b & Hb & H).
    apply limit_check_inv in H. destruct H as [-> H]. exact H.
  Qed.
  Lemma gtc_nonneg u oc v : gross_total_cooling_capacity M u oc = Ok v -> 0 <= v.
  Proof.
    unfold gross_total_cooling_capacity. intros H. apply rbind_ok in H.
    destruct H as (c & _ & H). apply checked_nonneg in H. exact H.
  Qed.
  Lemma gcp_nonneg u oc v : gross_cooling_power M u oc = Ok v -> 0 <= v.
  Proof.
    unfold gross_cooling_power. intros H. apply rbind_ok in H.
    destruct H as (c & _ & H). apply checked_nonneg in H. exact H.
  Qed.
  Lemma gsc_nonneg u oc v : gross_sensible_cooling_capacity M u oc = Ok v -> 0 <= v.
  Proof.
    unfold gross_sensible_cooling_capacity. intros H. apply rbind_ok in H.
    destruct H as (c & _ & H). apply rbind_ok in H. destruct H as (q & _ & H).
    apply limit_check_inv in H. destruct H as [-> H]. exact H.
  Qed.

  Lemma net_cooling_values u oc q s p w :
    gross_total_cooling_capacity M u oc = Ok q ->
    gross_sensible_cooling_capacity M u oc = Ok s ->
    gross_cooling_power M u oc = Ok p ->
    cooling_fan_power sol u oc = Ok w ->
    0 <= q /\ 0 <= s /\ 0 <= p
    /\ net_total_cooling_capacity sol M u oc = Ok (q - w)
    /\ net_sensible_cooling_capacity sol M u oc = Ok (s - w)
    /\ net_cooling_power sol M u oc = Ok (p + w)
    /\ (q <> 0 -> s <= q -> gross_shr M u oc = Ok (s / q))
    /\ (q - w <> 0 -> net_shr sol M u oc = Ok ((s - w) / (q - w)))
    /\ (p <> 0 -> gross_total_cooling_cop M u oc = Ok (q / p))
    /\ (p <> 0 -> gross_sensible_cooling_cop M u oc = Ok (s / p))
    /\ (p + w <> 0 -> net_total_cooling_cop sol M u oc = Ok ((q - w) / (p + w)))
    /\ (p + w <> 0 -> net_sensible_cooling_cop sol M u oc = Ok ((s - w) / (p + w)))
    /\ (p + w <> 0 -> eer sol M u oc = Ok ((q - w) / (p + w) * 3600 / 1055.056)).
  Proof.
    intros Hq Hs Hp Hw.
    assert (N1 : net_total_cooling_capacity sol M u oc = Ok (q - w))
      by (unfold net_total_cooling_capacity; rewrite (both_ok _ _ _ u oc q w); auto).
    assert (N2 : net_sensible_cooling_capacity sol M u oc = Ok (s - w))
      by (unfold net_sensible_cooling_capacity; rewrite (both_ok _ _ _ u oc s w); auto).
    assert (N3 : net_cooling_power sol M u oc = Ok (p + w))
      by (unfold net_cooling_power; rewrite (both_ok _ _ _ u oc p w); auto).
    pose proof (gtc_nonneg _ _ _ Hq) as Q0.
    pose proof (gsc_nonneg _ _ _ Hs) as S0.
    do 3 (split; [eauto using gtc_nonneg, gcp_nonneg, gsc_nonneg|]).
    do 3 (split; [assumption|]).
    split.
    { intros A B. unfold gross_shr. rewrite (both_ok _ _ _ u oc s q) by auto.
      rewrite pydiv_ok by auto. cbn [rbind]. apply limit_check_ok_iff. split; [auto|].
      rewrite lit0_R, lit1_R.
      assert (0 < q) by lra. assert (E : s = s / q * q) by (field; auto).
      split; intros m Hm; injection Hm as <-.
      - unfold Rdiv. apply Rmult_le_pos; [lra|]. apply Rlt_le, Rinv_0_lt_compat. auto.
      - apply Rmult_le_reg_r with q; lra. }
    assert (N4 : p + w <> 0 -> net_total_cooling_cop sol M u oc = Ok ((q - w) / (p + w))).
    { intros A. unfold net_total_cooling_cop.
      rewrite (both_ok _ _ _ u oc (q - w) (p + w)) by auto. apply pydiv_ok; auto. }
    repeat split; intros A.
    - unfold net_shr. rewrite (both_ok _ _ _ u oc (s - w) (q - w)) by auto. apply pydiv_ok; auto.
    - unfold gross_total_cooling_cop. rewrite (both_ok _ _ _ u oc q p) by auto. apply pydiv_ok; auto.
    - unfold gross_sensible_cooling_cop. rewrite (both_ok _ _ _ u oc s p) by auto. apply pydiv_ok; auto.
    - auto.
    - unfold net_sensible_cooling_cop.
      rewrite (both_ok _ _ _ u oc (s - w) (p + w)) by auto. apply pydiv_ok; auto.
    - unfold eer. rewrite N4 by auto. cbn [rbind]. f_equal. unfold to_Btu_Wh, btu_h.
      generalize ((q - w) / (p + w)). intros x. rnum. lra.
  Qed.

  Lemma net_cooling_needs u oc v :
    (net_total_cooling_capacity sol M u oc = Ok v ->
     exists q w, gross_total_cooling_capacity M u oc = Ok q
                 /\ cooling_fan_power sol u oc = Ok w /\ v = q - w)
    /\ (net_sensible_cooling_capacity sol M u oc = Ok v ->
        exists s w, gross_sensible_cooling_capacity M u oc = Ok s
                    /\ cooling_fan_power sol u oc = Ok w /\ v = s - w)
    /\ (net_cooling_power sol M u oc = Ok v ->
        exists p w, gross_cooling_power M u oc = Ok p
                    /\ cooling_fan_power sol u oc = Ok w /\ v = p + w)
    /\ (gross_shr M u oc = Ok v ->
        exists s q, gross_sensible_cooling_capacity M u oc = Ok s
                    /\ gross_total_cooling_capacity M u oc = Ok q
                    /\ q <> 0 /\ v = s / q /\ 0 <= v <= 1)
    /\ (net_total_cooling_cop sol M u oc = Ok v ->
        exists q p, net_total_cooling_capacity sol M u oc = Ok q
                    /\ net_cooling_power sol M u oc = Ok p /\ p <> 0 /\ v = q / p).
  Proof.
    repeat split; intros H; apply both_inv in H; destruct H as (a & b & Ha & Hb & H).
    - exists a, b. apply Ok_inj in H. auto.
    - exists a, b. apply Ok_inj in H. auto.
    - exists a, b. apply Ok_inj in H. auto.
    - exists a, b. apply rbind_ok in H. destruct H as (r & Hr & H).
      apply pydiv_inv in Hr. destruct Hr as [Hn ->].
      apply limit_check_ok_iff in H. destruct H as [-> [L1 L2]].
      specialize (L1 _ eq_refl). specialize (L2 _ eq_refl). rewrite lit0_R in L1. rewrite lit1_R in L2.
      repeat split; auto; lra.
    - exists a, b. apply pydiv_inv in H. destruct H as [Hn ->]. auto.
  Qed.

  Lemma net_heating_values u oc q p qi pi w :
    gross_steady_state_heating_capacity M u oc = Ok q ->
    gross_steady_state_heating_power M u oc = Ok p ->
    gross_integrated_heating_capacity M u oc = Ok qi ->
    gross_integrated_heating_power M u oc = Ok pi ->
    heating_fan_power sol u oc = Ok w ->
    net_steady_state_heating_capacity sol M u oc = Ok (q + w)
    /\ net_steady_state_heating_power sol M u oc = Ok (p + w)
    /\ net_integrated_heating_capacity sol M u oc = Ok (qi + w)
    /\ net_integrated_heating_power sol M u oc = Ok (pi + w)
    /\ (p <> 0 -> gross_steady_state_heating_cop M u oc = Ok (q / p))
    /\ (pi <> 0 -> gross_integrated_heating_cop M u oc = Ok (qi / pi))
    /\ (p + w <> 0 -> net_steady_state_heating_cop sol M u oc = Ok ((q + w) / (p + w)))
    /\ (pi + w <> 0 -> net_integrated_heating_cop sol M u oc = Ok ((qi + w) / (pi + w))).
  Proof.
    intros Hq Hp Hqi Hpi Hw.
    assert (N1 : net_steady_state_heating_capacity sol M u oc = Ok (q + w))
      by (unfold net_steady_state_heating_capacity; rewrite (both_ok _ _ _ u oc q w); auto).
    assert (N2 : net_steady_state_heating_power sol M u oc = Ok (p + w))
      by (unfold net_steady_state_heating_power; rewrite (both_ok _ _ _ u oc p w); auto).
    assert (N3 : net_integrated_heating_capacity sol M u oc = Ok (qi + w))
      by (unfold net_integrated_heating_capacity; rewrite (both_ok _ _ _ u oc qi w); auto).
    assert (N4 : net_integrated_heating_power sol M u oc = Ok (pi + w))
      by (unfold net_integrated_heating_power; rewrite (both_ok _ _ _ u oc pi w); auto).
    repeat split; try assumption; intros A.
    - unfold gross_steady_state_heating_cop. rewrite (both_ok _ _ _ u oc q p) by auto.
      apply pydiv_ok; auto.
    - unfold gross_integrated_heating_cop. rewrite (both_ok _ _ _ u oc qi pi) by auto.
      apply pydiv_ok; auto.
    - unfold net_steady_state_heating_cop. rewrite (both_ok _ _ _ u oc (q + w) (p + w)) by auto.
      apply pydiv_ok; auto.
    - unfold net_integrated_heating_cop. rewrite (both_ok _ _ _ u oc (qi + w) (pi + w)) by auto.
      apply pydiv_ok; auto.
  Qed.
End Identities.

(** Heating values are not checked: the flow polynomial of the NREL capacity curve
    is negative from a flow ratio of about 3.87. *)
Lemma resnet_heating_unchecked psy sol u c q :
  rn_net (u_rn u) = None -> u_charge u = 0 ->
  c_mass_airflow_ratio c = Some 4 ->
  entry (sd_gross_cap (u_h u)) (c_speed c) q -> 0 < q ->
  0 < heat_cap_T (degF (ps_db (c_indoor c))) (degF (ps_db (c_outdoor c))) ->
  exists v, gross_steady_state_heating_capacity (RESNETDXModel psy sol) u (Some c) = Ok v
            /\ v < 0.
Proof.
  intros Hn Hc Hr Hq Hq0 Ht.
  exists (heat_cap_flow 4 * (heat_cap_T (degF (ps_db (c_indoor c)))
           (degF (ps_db (c_outdoor c))) * q)).
  split.
  - unfold gross_steady_state_heating_capacity, product.
    cbn [heating_conditions rbind md_ghc md_f_ghc RESNETDXModel].
    unfold resnet_gross_heating_capacity at 1, resnet_value. rewrite Hn.
    rewrite (ghc_eq u c 4 q Hr Hq). cbn [rbind].
    unfold resnet_f_ghc. rewrite (grading_zero psy _ _ _ u c Hc). cbn [rbind nmul RNum].
    f_equal. ring.
  - assert (heat_cap_flow 4 < 0) by (unfold heat_cap_flow; lra).
    pose proof (Rmult_lt_0_compat _ _ Ht Hq0). nra.
Qed.

(** ** C38 *)
Section Bypass.
  Variable psy : psychro R.
  Variable sol : solvers R.
  Variable M : dxmodel R.
  Notation U := (dxunit R).

  Lemma bypass_value (u : U) (c : cond R) ntu m :
    entry (u_ntu u) (c_speed c) ntu -> c_mass_airflow c = Some m -> m <> 0 ->
    bypass_factor u c = Ok (exp (- ntu / m)).
  Proof.
    intros Hn Hm Hz. unfold bypass_factor. apply arr_ok in Hn. rewrite Hn. cbn [rbind].
    rewrite Hm. cbn [rbind need nsub RNum]. rewrite lit0_R.
    rewrite pydiv_ok by auto. cbn [rbind nexp RNumX]. f_equal. f_equal. f_equal. lra.
  Qed.

  Lemma entry_upd l i (x : R) : (i < List.length l)%nat -> entry (upd l i (Some x)) i x.
  Proof. intros H. unfold entry. apply upd_same. exact H. Qed.

  Lemma calibration (c : cond R) (u u' : U) :
    calculate_rated_bypass_factor psy sol M c u = (u', Ok tt) ->
    exists bf m shr q outlet adp h_i h_o h_adp,
      c_mass_airflow c = Some m
      /\ entry (u_shr u) (c_speed c) shr
      /\ gross_total_cooling_capacity M u (Some c) = Ok q
      /\ gross_cooling_outlet_state psy M u (Some c) (Some (shr * q)) = Ok outlet
      /\ calculate_adp_state psy sol (c_indoor c) outlet = Ok adp
      /\ h_of psy (c_indoor c) = Ok h_i /\ h_of psy outlet = Ok h_o
      /\ h_of psy adp = Ok h_adp
      /\ h_i <> h_adp /\ bf = (h_o - h_adp) / (h_i - h_adp) /\ 0 < bf
      /\ entry (u_bf u') (c_speed c) bf
      /\ entry (u_ntu u') (c_speed c) (- m * ln bf).
  Proof.
    unfold calculate_rated_bypass_factor. intros H.
    apply sbind_ok in H. destruct H as (s0 & u0 & H0 & H).
    apply pair_ok_inj in H0. destruct H0 as [<- <-].
    apply sbind_ok in H. destruct H as (s1 & bf & H1 & H).
    apply slift_ok in H1. destruct H1 as [-> H1].
    apply rbind_ok in H1. destruct H1 as (shr & Hshr & H1).
    apply rbind_ok in H1. destruct H1 as (q & Hq & H1).
    apply rbind_ok in H1. destruct H1 as (outlet & Hout & H1).
    apply rbind_ok in H1. destruct H1 as (adp & Hadp & H1).
    apply rbind_ok in H1. destruct H1 as (h_i & Hhi & H1).
    apply rbind_ok in H1. destruct H1 as (h_o & Hho & H1).
    apply rbind_ok in H1. destruct H1 as (h_adp & Hha & H1).
    apply pydiv_inv in H1. destruct H1 as [Hn Hbf].
    apply sbind_ok in H. destruct H as (s2 & l & H2 & H).
    apply slift_ok in H2. destruct H2 as [-> H2].
    apply sbind_ok in H. destruct H as (s3 & [] & H3 & H).
    apply pair_ok_inj in H3. destruct H3 as [<- _].
    apply sbind_ok in H. destruct H as (s4 & ntu & H4 & H).
    apply slift_ok in H4. destruct H4 as [-> H4].
    apply rbind_ok in H4. destruct H4 as (m & Hm & H4). apply need_ok in Hm.
    apply rbind_ok in H4. destruct H4 as (g & Hg & H4). apply Ok_inj in H4.
    apply sbind_ok in H. destruct H as (s5 & l' & H5 & H).
    apply slift_ok in H5. destruct H5 as [-> H5].
    apply pair_ok_inj in H. destruct H as [<- _].
    assert (B : 0 < bf /\ g = ln bf).
    { unfold pylog in Hg. rewrite lit0_R in Hg. cbn [nleb RNum nln RNumX] in Hg.
      destruct (Rleb_spec bf 0); [discriminate|]. apply Ok_inj in Hg. split; [lra|auto]. }
    destruct B as [B ->].
    unfold seti in H2, H5.
    destruct (Nat.ltb_spec (c_speed c) (List.length (u_bf u))) as [L1|L1]; [|discriminate].
    match type of H5 with (if ?b then _ else _) = _ => destruct b eqn:L2; [|discriminate] end.
    apply Nat.ltb_lt in L2. apply Ok_inj in H2. apply Ok_inj in H5.
    apply arr_ok in Hshr.
    exists bf, m, shr, q, outlet, adp, h_i, h_o, h_adp.
    split; [exact Hm|]. do 7 (split; [assumption|]).
    split; [intros E; apply Hn; cbn [nsub RNum]; lra|].
    split; [exact Hbf|]. split; [exact B|].
    split.
    - rewrite <- H2. apply entry_upd. exact L1.
    - rewrite <- H5. rewrite <- H4. apply entry_upd. exact L2.
  Qed.

  Lemma calibrated_factor (c : cond R) (u u' : U) :
    calculate_rated_bypass_factor psy sol M c u = (u', Ok tt) ->
    exists bf m,
      entry (u_bf u') (c_speed c) bf /\ 0 < bf /\ c_mass_airflow c = Some m
      /\ forall c1 m1, c_speed c1 = c_speed c -> c_mass_airflow c1 = Some m1 -> m1 <> 0 ->
         exists b1, bypass_factor u' c1 = Ok b1 /\ 0 < b1
           /\ (m1 = m -> b1 = bf)
           /\ (bf < 1 -> 0 < m -> 0 < m1 -> b1 < 1
               /\ forall c2 m2, c_speed c2 = c_speed c -> c_mass_airflow c2 = Some m2 ->
                  m1 < m2 -> exists b2, bypass_factor u' c2 = Ok b2 /\ b1 < b2).
  Proof.
    intros H. apply calibration in H.
    destruct H as (bf & m & _ & _ & _ & _ & _ & _ & _ & Hm & _ & _ & _ & _ & _ & _ & _ & _
      & _ & B & Hbf & Hntu).
    exists bf, m. do 3 (split; [assumption|]).
    intros c1 m1 S1 M1 Z1. rewrite <- S1 in Hntu.
    exists (exp (- (- m * ln bf) / m1)).
    split; [apply bypass_value; auto|]. split; [apply exp_pos|].
    split.
    - intros ->. replace (- (- m * ln bf) / m) with (ln bf) by (field; auto).
      apply exp_ln. exact B.
    - intros B1 P0 P1.
      assert (L : ln bf < 0) by (rewrite <- ln_1; apply ln_increasing; auto).
      assert (K : m * ln bf < 0) by nra.
      assert (I1 : 0 < / m1) by (apply Rinv_0_lt_compat; auto).
      split.
      + rewrite <- exp_0. apply exp_increasing. unfold Rdiv. nra.
      + intros c2 m2 S2 M2 L2.
        exists (exp (- (- m * ln bf) / m2)). split.
        * apply bypass_value; [rewrite S2, <- S1; exact Hntu|exact M2|lra].
        * apply exp_increasing. assert (I2 : / m2 < / m1) by (apply Rinv_lt_contravar; nra).
          unfold Rdiv. nra.
  Qed.
End Bypass.

(** ** C39 *)
Section Pressure.
  Variable psy : psychro R.
  Notation U := (dxunit R).

  Lemma inH2O_R x : fr_inH2O (T:=R) x = in_H2O x.
  Proof. unfold fr_inH2O, inH2O, in_H2O. rnum. lra. Qed.
  Lemma Btuh_R x : fr_Btuh (T:=R) x = Btu_h x.
  Proof. unfold fr_Btuh, btu_h, Btu_h. rnum. lra. Qed.

  Lemma full_pressure_ductless (u : U) :
    u_ducted u = false -> get_rated_full_flow_rated_pressure u = Ok 0.
  Proof.
    intros H. unfold get_rated_full_flow_rated_pressure. rewrite H. cbn [negb].
    rewrite lit0_R. reflexivity.
  Qed.
  Lemma full_pressure_2023 (u : U) :
    u_ducted u = true -> u_standard u = AHRI_210_240_2023 ->
    get_rated_full_flow_rated_pressure u = Ok (in_H2O 0.5).
  Proof.
    intros H1 H2. unfold get_rated_full_flow_rated_pressure. rewrite H1, H2. cbn [negb].
    rewrite inH2O_R. reflexivity.
  Qed.
  Lemma full_pressure_2017 (u : U) q :
    u_ducted u = true -> u_standard u = AHRI_210_240_2017 ->
    nth_error (sd_net_cap (u_c u)) 0 = Some q ->
    get_rated_full_flow_rated_pressure u = Ok (esp_2017 q).
  Proof.
    intros H1 H2 Hq. unfold get_rated_full_flow_rated_pressure. rewrite H1, H2. cbn [negb].
    apply geti_ok in Hq. rewrite Hq. cbn [rbind]. rewrite !inH2O_R, !Btuh_R.
    unfold esp_2017. cbn [nleb RNum].
    replace (lit (T:=R) 29000) with 29000 by (rnum; lra).
    replace (lit (T:=R) 43000) with 43000 by (rnum; lra).
    replace (lit (T:=R) 0.1) with 0.1 by (rnum; lra).
    replace (lit (T:=R) 0.15) with 0.15 by (rnum; lra).
    replace (lit (T:=R) 0.2) with 0.2 by (rnum; lra).
    destruct (Rleb_spec q (Btu_h 29000)), (Rle_dec q (Btu_h 29000)); try lra; [reflexivity|].
    destruct (Rleb_spec q (Btu_h 43000)), (Rle_dec q (Btu_h 43000)); try lra; reflexivity.
  Qed.
  Lemma full_pressure_2017_empty (u : U) :
    u_ducted u = true -> u_standard u = AHRI_210_240_2017 -> sd_net_cap (u_c u) = [] ->
    get_rated_full_flow_rated_pressure u = Err IndexError.
  Proof.
    intros H1 H2 Hq. unfold get_rated_full_flow_rated_pressure. rewrite H1, H2, Hq. reflexivity.
  Qed.
  Lemma esp_2017_mono q q' : q <= q' -> esp_2017 q <= esp_2017 q'.
  Proof.
    intros H. unfold esp_2017, in_H2O.
    destruct (Rle_dec q (Btu_h 29000)), (Rle_dec q' (Btu_h 29000)); try lra;
    repeat match goal with |- context [Rle_dec ?a ?b] => destruct (Rle_dec a b) end; try lra.
    all: try (unfold Btu_h in *; lra).
  Qed.

  Lemma partial_pressure (u : U) p r full :
    u_full_esp u = Some p -> full <> 0 ->
    calculate_rated_pressure u (r * full) full = Ok (p * (r * r)).
  Proof.
    intros Hp Hf. unfold calculate_rated_pressure. rewrite Hp. cbn [rbind need nmul RNum].
    rewrite pydiv_ok by auto. cbn [rbind nmul RNum]. f_equal. unfold nsq. cbn [nmul RNum].
    field. auto.
  Qed.

  Lemma condition_pressure m (u : U) speed i o c p :
    u_full_esp u = Some p ->
    make_condition psy m u speed i o = Ok c ->
    exists a full, entry (sd_airflow (side_of m u)) speed a
      /\ entry (sd_airflow (side_of m u)) 0 full /\ full <> 0
      /\ c_external_static_pressure c = Some (p * ((a / full) * (a / full))).
  Proof.
    intros Hp H. apply make_condition_inv in H.
    destruct H as (q & a & full & p' & fl & rho & srho & _ & Ha & Hf & Hp' & _ & _ & _ & _ & _
      & _ & _ & ->).
    unfold calculate_rated_pressure in Hp'. rewrite Hp in Hp'. cbn [rbind need] in Hp'.
    apply rbind_ok in Hp'. destruct Hp' as (r & Hr & Hp'). apply pydiv_inv in Hr.
    destruct Hr as [Hn ->]. apply Ok_inj in Hp'.
    exists a, full. do 3 (split; [assumption|]).
    cbn [flow_cond c_external_static_pressure]. rewrite <- Hp'. unfold nsq. cbn [nmul RNum].
    f_equal. ring.
  Qed.
End Pressure.

(** ** C42 *)
Lemma nsum_total (l : list R) : nsum l = total l.
Proof.
  unfold nsum, total.
  assert (A : forall (l : list R) a, fold_left (@nadd R RNum) l a = a + fold_right Rplus 0 l).
  { induction l0 as [|x l0 IH]; intros a; simpl; [lra|]. rewrite IH. cbn [nadd RNum]. lra. }
  rewrite A. rewrite lit0_R. lra.
Qed.

Lemma total_scale (l : list R) s : total (map (fun x => x / s) l) = total l / s.
Proof.
  unfold total. induction l as [|x l IH]; cbn [map fold_right]; [unfold Rdiv; ring|].
  rewrite IH. unfold Rdiv. ring.
Qed.


Lemma band_case (s : R) :
  (orb (Rltb s (lit 0.98)) (Rltb (lit 1.02) s) = false <-> in_band s).
Proof.
  unfold in_band. replace (lit (T:=R) 0.98) with 0.98 by (rnum; lra).
  replace (lit (T:=R) 1.02) with 1.02 by (rnum; lra).
  rewrite orb_false_iff, !Rltb_false. tauto.
Qed.

Lemma distribution_kept design (l : list R) c cv zl :
  List.length l = 18%nat -> in_band (total l) ->
  HeatingDistribution design l c cv zl = Ok (mkHD design l c cv zl).
Proof.
  intros Hl Hb. unfold HeatingDistribution. rewrite nsum_total.
  cbn [nltb RNum]. rewrite (proj2 (band_case (total l)) Hb). cbn [rbind].
  rewrite (proj2 (Nat.eqb_eq _ _) Hl). reflexivity.
Qed.
Lemma distribution_scaled design (l : list R) c cv zl :
  List.length l = 18%nat -> ~ in_band (total l) -> total l <> 0 ->
  exists d, HeatingDistribution design l c cv zl = Ok d
            /\ hd_design d = design /\ hd_c d = c /\ hd_c_vs d = cv /\ hd_zero_load d = zl
            /\ hd_hours d = map (fun x => x / total l) l /\ total (hd_hours d) = 1.
Proof.
  intros Hl Hb Hz. unfold HeatingDistribution. rewrite nsum_total.
  cbn [nltb RNum].
  destruct (orb _ _) eqn:E; [|apply band_case in E; contradiction].
  rewrite (rmapM_map _ (fun x => x / total l)) by (intros x _; apply pydiv_ok; auto).
  cbn [rbind]. rewrite map_length, (proj2 (Nat.eqb_eq _ _) Hl).
  eexists. split; [reflexivity|]. cbn [hd_design hd_c hd_c_vs hd_zero_load hd_hours].
  repeat (split; [reflexivity|]). rewrite total_scale. field. auto.
Qed.
Lemma distribution_rejected design (l : list R) c cv zl :
  (List.length l <> 18%nat \/ (~ in_band (total l) /\ total l = 0)) ->
  exists e, HeatingDistribution design l c cv zl = Err e
            /\ (total l <> 0 -> e = PyException).
Proof.
  intros H. unfold HeatingDistribution. rewrite nsum_total. cbn [nltb RNum].
  destruct (orb _ _) eqn:E.
  - destruct (Req_dec (total l) 0) as [Z|Z].
    + destruct l as [|x l].
      * simpl. eexists. split; [reflexivity|]. auto.
      * rewrite Z. cbn [rmapM]. rewrite pydiv_zero. cbn [rbind].
        eexists. split; [reflexivity|]. intros F. contradiction.
    + rewrite (rmapM_map _ (fun x => x / total l)) by (intros x _; apply pydiv_ok; auto).
      cbn [rbind]. rewrite map_length. destruct H as [H|[_ H]]; [|contradiction].
      apply Nat.eqb_neq in H. rewrite H. eexists. split; reflexivity.
  - apply band_case in E. cbn [rbind]. destruct H as [H|[H _]]; [|contradiction].
    apply Nat.eqb_neq in H. rewrite H. eexists. split; reflexivity.
Qed.
Lemma distribution_any design (l : list R) c cv zl d :
  HeatingDistribution design l c cv zl = Ok d ->
  List.length (hd_hours d) = 18%nat /\ 0.98 <= total (hd_hours d) <= 1.02.
Proof.
  intros H.
  destruct (Nat.eq_dec (List.length l) 18) as [L|L].
  - destruct (orb (Rltb (total l) (lit 0.98)) (Rltb (lit 1.02) (total l))) eqn:E.
    + assert (N : ~ in_band (total l)).
      { intros K. apply band_case in K. congruence. }
      destruct (Req_dec (total l) 0) as [Z|Z].
      * destruct (distribution_rejected design l c cv zl (or_intror (conj N Z))) as (e & E1 & _).
        congruence.
      * destruct (distribution_scaled design l c cv zl L N Z) as (d' & E1 & _ & _ & _ & _ & Hh & Ht).
        assert (d' = d) by congruence. subst d'. rewrite Ht. split; [|lra].
        rewrite Hh, map_length. exact L.
    + apply band_case in E. rewrite (distribution_kept design l c cv zl L E) in H.
      apply Ok_inj in H. subst d. cbn [hd_hours]. split; [exact L|exact E].
  - destruct (distribution_rejected design l c cv zl (or_introl L)) as (e & E1 & _). congruence.
Qed.

Lemma table_distributions r :
  (1 <= r <= 6)%nat ->
  (exists d, distribution_2017 (T:=R) r = Ok d)
  /\ (exists d cc cv zl, distribution_2023 (T:=R) r = Ok d
        /\ hd_c d = Some cc /\ hd_c_vs d = Some cv /\ hd_zero_load d = Some zl
        /\ hd_design d < zl).
Proof.
  intros H.
  assert (K : r = 1%nat \/ r = 2%nat \/ r = 3%nat \/ r = 4%nat \/ r = 5%nat \/ r = 6%nat) by lia.
  assert (T0 : forall (l : list Q), total (hours l) <> 0 -> List.length l = 18%nat ->
     forall design c cv zl, exists d, HeatingDistribution design (hours l) c cv zl = Ok d
      /\ hd_design d = design /\ hd_c d = c /\ hd_c_vs d = cv /\ hd_zero_load d = zl).
  { intros l Hz Hl design c cv zl.
    assert (L : List.length (hours (T:=R) l) = 18%nat) by (unfold hours; rewrite map_length; auto).
    destruct (orb (Rltb (total (hours l)) (lit 0.98)) (Rltb (lit 1.02) (total (hours l)))) eqn:E.
    - assert (N : ~ in_band (total (hours l))).
      { intros K'. apply band_case in K'. congruence. }
      destruct (distribution_scaled design _ c cv zl L N Hz) as (d & E1 & F1 & F2 & F3 & F4 & _).
      exists d. auto.
    - apply band_case in E. exists (mkHD design (hours l) c cv zl). split; auto.
      apply distribution_kept; auto. }
  split.
  - destruct K as [->|[->|[->|[->|[->| ->]]]]];
    cbn [distribution_2017]; cbv zeta;
    match goal with |- exists d, HeatingDistribution ?a0 (hours ?l0) ?b0 ?c0 ?e0 = _ =>
      let A1 := fresh "P" in let A2 := fresh "Q" in
      assert (A1 : total (hours l0) <> 0) by (apply Rgt_not_eq; unfold total, hours; cbn [map fold_right]; rnum; cbv [Qdiv Qmult Qinv Qnum Qden Z.mul Pos.mul Pos.add Pos.succ Pos.add_carry]; lra);
      assert (A2 : List.length l0 = 18%nat) by reflexivity;
      destruct (T0 l0 A1 A2 a0 b0 c0 e0) as (d & E & _); exists d; exact E end.
  - destruct K as [->|[->|[->|[->|[->| ->]]]]];
    cbn [distribution_2023]; cbv zeta;
    match goal with |- exists d _ _ _, HeatingDistribution ?a0 (hours ?l0) (Some ?b0) (Some ?c0) (Some ?e0) = _ /\ _ =>
      let A1 := fresh "P" in let A2 := fresh "Q" in
      assert (A1 : total (hours l0) <> 0) by (apply Rgt_not_eq; unfold total, hours; cbn [map fold_right]; rnum; cbv [Qdiv Qmult Qinv Qnum Qden Z.mul Pos.mul Pos.add Pos.succ Pos.add_carry]; lra);
      assert (A2 : List.length l0 = 18%nat) by reflexivity;
      destruct (T0 l0 A1 A2 a0 (Some b0) (Some c0) (Some e0)) as (d & E & E1 & E2 & E3 & E4);
      exists d, b0, c0, e0; do 4 (split; [assumption|]); rewrite E1; apply fr_F_lt; rnum; lra end.
Qed.
