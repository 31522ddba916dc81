(** A unit whose ASHRAE 205 export succeeds, and one exported number that is wrong. *)
From Coq Require Import ZArith QArith Reals Lra Psatz Lia List Bool String Sorting.
From Verif.Base Require Import Num Res Tac.
From Verif.Model Require Import Units Util Psychrometrics Conditions Defrost Fan Curves
  Tabular Unit NREL BaseModel DXUnit Repr205.
From Verif.Spec Require Import FanSpec IdfSpec Repr205Spec.
From Verif.Proofs Require Import UnitsR MakeCond FanProofs3 ToyUnit ToyBuild ToyIdf Repr205Proofs
  Repr205Proofs2.
Import ListNotations.
Local Open Scope R_scope.

(** Total capacity proportional to the airflow, constant power. *)
Definition flow_capacity (u : dxunit R) (c : cond R) : res R :=
  let! q := arr (sd_gross_cap (u_c u)) (c_speed c) in
  let! r := need AttributeError (c_mass_airflow_ratio c) in
  Ok (q * r).
Definition flow_model : dxmodel R :=
  mkModel ["base_model"%string] (fun _ => Ok no_data)
    flow_capacity (constant_power Cooling)
    (fun u c => let! q := flow_capacity u c in Ok (q * 0.7))
    (fun _ _ => Ok 0.7)
    (constant_capacity Heating) (constant_power Heating)
    (constant_capacity Heating) (constant_power Heating)
    unit_factor unit_factor unit_factor unit_factor 0.25 0.25
    base_set_net_capacities_and_fan base_set_net_cop base_set_gross_cop.

Lemma works_rloop {A B} (f : A -> res (list B)) l : (forall x, In x l -> works (f x)) ->
  works (rloop f l).
Proof.
  intros H. unfold rloop. apply works_bind'; [apply works_map, H | intros v; apply works_ok].
Qed.

Section Flow.
  Variable off : R.
  Let u := idf_unit off.
  Let M := flow_model.

  Lemma flow_at c r : (c_speed c < 2)%nat -> c_mass_airflow_ratio c = Some r -> 0 <= r ->
    gross_total_cooling_capacity M u (Some c) = Ok (gross Cooling (c_speed c) * r) /\
    gross_sensible_cooling_capacity M u (Some c) = Ok (gross Cooling (c_speed c) * r * 0.7) /\
    gross_cooling_power M u (Some c) = Ok (gpow Cooling (c_speed c)).
  Proof.
    intros L Hr P.
    assert (Pg : 0 <= gross Cooling (c_speed c)) by (destruct (c_speed c); cbn [gross]; lra).
    assert (F : flow_capacity u c = Ok (gross Cooling (c_speed c) * r)).
    { unfold flow_capacity. rewrite Hr. cbn [need].
      destruct (c_speed c) as [| [|]]; [reflexivity | reflexivity | lia]. }
    split; [| split].
    - unfold gross_total_cooling_capacity, cooling_conditions, checked_product. cbn [rbind].
      change (md_gtc M u c) with (flow_capacity u c). rewrite F. cbn [rbind].
      change (md_f_gtc M u c) with (Ok (A:=R) (lit 1)). cbn [rbind]. rewrite lit1_R.
      cbn [nmul RNum]. rewrite Rmult_1_r. apply limit_fine. nra.
    - unfold gross_sensible_cooling_capacity, cooling_conditions. cbn [rbind].
      change (md_gsc M u c) with (let! q := flow_capacity u c in Ok (q * 0.7)). rewrite F.
      cbn [rbind]. apply limit_fine. nra.
    - exact (proj2 (cool_at off c L)).
  Qed.

  Lemma spaced_pos a b n l x : evenly_spaced a b n l -> (1 < n)%nat -> 0 < a -> a < b ->
    In x l -> 0 < x.
  Proof.
    intros [L E] N A AB I. apply In_nth_error in I. destruct I as [i I].
    assert (Hi : (i < n)%nat) by (rewrite <- L; apply nth_error_Some; congruence).
    rewrite E in I by exact Hi. injection I as <-.
    assert (0 <= INR i) by apply pos_INR.
    assert (0 < (b - a) / INR (n - 1)) by (apply Rdiv_lt_0_compat; [lra | apply lt_0_INR; lia]).
    nra.
  Qed.

  Lemma cfm_ton_pos x : 0 < x -> 0 < fr_cfm_per_ton (T:=R) x.
  Proof.
    intros P. unfold fr_cfm_per_ton. pose proof cfm_pos. pose proof ton_pos. cbn [nmul ndiv RNum].
    apply Rdiv_lt_0_compat; [nra | assumption].
  Qed.

  Lemma point_works t_o rh t_i m_dot s p : (s < 2)%nat -> 0 < m_dot ->
    works (point_205 lin_psy M u t_o rh t_i m_dot s p).
  Proof.
    intros L P. unfold point_205.
    eapply works_bind; [reflexivity |]. eapply works_bind; [reflexivity |].
    match goal with |- works (let! c := make_condition _ _ _ _ (Some ?i) (Some ?o) in _) =>
      destruct (cond_at off Cooling s (Some i) (Some o) L eq_refl)
        as (o' & i' & f & pr & a & q & E & Hq & Hr) end.
    assert (Pa : 0 <= a).
    { apply make_condition_inv in E.
      destruct E as (q' & a' & full & p' & fl' & rho & srho & _ & Na & _ & _ & _ & _ & _ & _ & _
                     & _ & _ & Q).
      apply (f_equal c_rated_standard_volumetric_airflow) in Q.
      unfold flow_cond in Q. cbn [c_rated_standard_volumetric_airflow] in Q. injection Q as <-.
      destruct s as [| [|]]; [| | lia]; cbn in Na; injection Na as <-; lra. }
    eapply works_bind; [exact E |].
    destruct (set_mass_flow_cond lin_psy o' i' s f pr 1.2 1.2 a q 1 None m_dot)
      as (c & Ec & C1 & C2 & C3 & C4 & _); auto; try lra.
    eapply works_bind; [exact Ec |].
    assert (P1 : 0 <= a * 1.2 / m_dot).
    { apply Rmult_le_pos; [nra | left; apply Rinv_0_lt_compat; exact P]. }
    destruct (flow_at c _ ltac:(rewrite C4; exact L) C3 P1) as (F1 & F2 & F3).
    rewrite F1, F2, F3. cbn [rbind]. apply works_ok.
  Qed.

  Lemma cooling_205_works : works (cooling_205 lin_psy M u).
  Proof.
    unfold cooling_205.
    eapply works_bind; [reflexivity |]. eapply works_bind; [reflexivity |].
    eapply works_bind; [reflexivity |]. apply works_bind'; [| intros rows; apply works_ok].
    apply works_rloop. intros t_o _. apply works_rloop. intros rh _. apply works_rloop.
    intros t_i _. apply works_rloop. intros m_dot Im. apply works_rloop. intros s Is.
    apply works_rloop. intros p _. apply point_works.
    - apply in_map_iff in Is. destruct Is as (k & <- & Ik). apply in_seq in Ik.
      change (sd_n (u_c u)) with 2%nat in *. lia.
    - assert (L280 : lit (T:=R) 280 = 280) by (unfold lit; rnum; lra).
      assert (L500 : lit (T:=R) 500 = 500) by (unfold lit; rnum; lra).
      rewrite L280, L500 in Im. cbn [nmul RNum] in Im.
      eapply spaced_pos; [apply linspace_spaced | | | | exact Im]; try lia.
      + pose proof (cfm_ton_pos 280). nra.
      + assert (C : forall x : R, fr_cfm_per_ton x = x * fr_cfm_per_ton 1).
        { intros x. unfold fr_cfm_per_ton. rnum. unfold Rdiv. ring. }
        pose proof (cfm_ton_pos 1 ltac:(lra)). rewrite (C 280), (C 500). lra.
  Qed.

  Lemma fan_205_works : works (fan_205 lin_sol toy_fan).
  Proof.
    unfold fan_205. rewrite order_toy. cbn [rbind].
    change (lasti [1%nat; 0%nat]) with (Ok 0%nat). cbn [rbind].
    eapply works_bind; [reflexivity |]. apply works_bind'; [| intros m; eapply works_bind;
      [reflexivity | apply works_ok]].
    unfold fan_205_map. rewrite order_toy. cbn [rbind].
    change (lasti [1%nat; 0%nat]) with (Ok 0%nat). cbn [rbind].
    eapply works_bind; [reflexivity |]. apply works_bind'; [| intros rows; apply works_ok].
    apply works_map. intros s Is. apply in_seq in Is. change (f_n toy_fan) with 2%nat in Is.
    apply works_map. intros p _. unfold fan_map_entry.
    destruct s as [| [| [|]]]; try lia; (eapply works_bind; [reflexivity |]);
      (eapply works_bind; [reflexivity |]); (eapply works_bind; [reflexivity |]);
      unfold rotational_speed; cbn [toy_fan f_class]; unfold airflow_ratio;
      change (airflow lin_sol _ 0 (Some p)) with (Ok (A:=R) 1); 
      try change (airflow lin_sol _ 1 (Some p)) with (Ok (A:=R) 0.5); cbn [rbind];
      rewrite pydiv_ok by lra; cbn [rbind]; apply works_ok.
  Qed.

  Lemma repr_works : works (generate_205_representation lin_psy lin_sol M u).
  Proof.
    unfold generate_205_representation.
    destruct (flow_at (toy_cond 300 292 308 1) 1) as (F1 & F2 & F3);
      [cbn; lia | reflexivity | lra |].
    change (c_speed (toy_cond 300 292 308 1)) with 0%nat in *. cbn [gross gpow] in *.
    assert (G1 : gross_total_cooling_capacity M u None = Ok (10300 * 1)) by exact F1.
    assert (G2 : gross_sensible_cooling_capacity M u None = Ok (10300 * 1 * 0.7)) by exact F2.
    assert (G3 : gross_cooling_power M u None = Ok 2200) by exact F3.
    unfold gross_total_cooling_cop, gross_shr, both. rewrite G1, G2, G3. cbn [rbind].
    rewrite pydiv_ok by lra. cbn [rbind]. rewrite pydiv_ok by lra. cbn [rbind].
    unfold limit_check. rewrite lit0_R, lit1_R. rnum.
    match goal with |- context [Rltb ?a ?b] => destruct (Rltb_spec a b); [lra |] end.
    match goal with |- context [Rltb ?a ?b] => destruct (Rltb_spec a b); [lra |] end.
    cbn [rbind]. apply works_bind'; [apply cooling_205_works |]. intros m.
    eapply works_bind; [reflexivity |]. eapply works_bind; [reflexivity |].
    apply works_bind'; [apply fan_205_works |]. intros f. apply works_ok.
  Qed.

  (** The first entry is not the capacity at its mass flow rate. *)
  Lemma flow_wrong : exists r t_o rh t_i m_dot p o i c0 c q,
    generate_205_representation lin_psy lin_sol M u = Ok r /\
    nth_error (g_outdoor (r_cooling r)) 0 = Some t_o /\
    nth_error (g_humidity (r_cooling r)) 0 = Some rh /\
    nth_error (g_indoor (r_cooling r)) 0 = Some t_i /\
    nth_error (g_flow (r_cooling r)) 0 = Some m_dot /\
    nth_error (g_sequence (r_cooling r)) 0 = Some 1%nat /\
    nth_error (g_pressure (r_cooling r)) 0 = Some p /\
    PsychState lin_psy t_o p [("rel_hum"%string, lit 0.4)] = Ok o /\
    PsychState lin_psy t_i p [("rel_hum"%string, rh)] = Ok i /\
    make_condition lin_psy Cooling u (sd_n (u_c u) - 1) (Some i) (Some o) = Ok c0 /\
    (exists rated, c_rated_mass_airflow c0 = Some rated /\
       ex (set_mass_airflow_ratio lin_psy (m_dot / rated)) c0 = Ok c) /\
    c_mass_airflow c = Some m_dot /\
    gross_total_cooling_capacity M u (Some c) = Ok q /\
    value_at (cooling_dims (r_cooling r)) [0; 0; 0; 0; 0; 0]%nat (l_total (r_cooling r)) <> Some q.
  Proof.
    destruct repr_works as [r E].
    pose proof E as E'. unfold generate_205_representation in E'.
    apply rbind_ok in E'. destruct E' as (? & _ & E').
    apply rbind_ok in E'. destruct E' as (? & _ & E').
    apply rbind_ok in E'. destruct E' as (? & _ & E').
    apply rbind_ok in E'. destruct E' as (cm & Ec & E').
    apply rbind_ok in E'. destruct E' as (? & _ & E').
    apply rbind_ok in E'. destruct E' as (? & _ & E').
    apply rbind_ok in E'. destruct E' as (? & _ & E').
    apply Ok_inj in E'. assert (Hr : r_cooling r = cm) by (subst r; reflexivity).
    exists r. rewrite Hr. clear E' Hr.
    destruct (cooling_axes lin_psy M u cm Ec)
      as (qf & ql & rho & E1 & E2 & E3 & S1 & S2 & S3 & S4 & S6).
    change (sd_net_cap (u_c u)) with [10000; 6000] in E1, E2. cbn in E1, E2.
    injection E1 as <-. injection E2 as <-.
    change (std_rho lin_psy) with (Ok (A:=R) 1.2) in E3. apply Ok_inj in E3. subst rho.
    destruct (cooling_map_layout lin_psy M u cm Ec) as (Sq & _ & _ & _ & _ & V).
    change (sd_n (u_c u)) with 2%nat in *.
    assert (N1 := proj2 S1 0%nat ltac:(lia)). assert (N2 := proj2 S2 0%nat ltac:(lia)).
    assert (N3 := proj2 S3 0%nat ltac:(lia)). assert (N4 := proj2 S4 0%nat ltac:(lia)).
    assert (N6 := proj2 S6 0%nat ltac:(lia)).
    assert (N5 : nth_error (g_sequence cm) 0 = Some 1%nat) by (rewrite Sq; reflexivity).
    set (t_o := fr_F 55 + _) in N1. set (rh := 0 + _) in N2. set (t_i := fr_F 65 + _) in N3.
    set (m_dot := fr_cfm_per_ton 280 * 6000 * 1.2 + _) in N4. set (p := 57226.508 + _) in N6.
    assert (Em : m_dot = fr_cfm_per_ton 280 * 6000 * 1.2).
    { unfold m_dot. cbn [INR]. ring. }
    assert (Bm : 0 < m_dot < 0.3).
    { rewrite Em. unfold fr_cfm_per_ton, cfm, ton_ref, btu_h. rnum. split; lra. }
    destruct (V 0 0 0 0 0 0 t_o rh t_i m_dot 1 p N1 N2 N3 N4 N5 N6)%nat
      as (c & q & s & w & (o & i & c0 & Eo & Ei & E0 & Emf) & Eq & Vq & _).
    change (sd_n (u_c u) - 1)%nat with 1%nat in E0.
    destruct (cond_at off Cooling 1 (Some i) (Some o) ltac:(lia))
      as (o' & i' & f & pr & a & qn & E0' & Hq & Hrho).
    { revert Ei. intros Ei. injection Ei as <-. reflexivity. }
    assert (Ha : a = 1 / 2).
    { pose proof E0' as Z. apply make_condition_inv in Z.
      destruct Z as (q' & a' & full & p' & fl' & rho & srho & _ & Na & _ & _ & _ & _ & _ & _ & _
                     & _ & _ & Q).
      apply (f_equal c_rated_standard_volumetric_airflow) in Q.
      unfold flow_cond in Q. cbn [c_rated_standard_volumetric_airflow] in Q. injection Q as ->.
      cbn in Na. injection Na as <-. reflexivity. }
    change (make_condition lin_psy Cooling u 1 (Some i) (Some o) =
       Ok (flow_cond o' i' 1 f pr 1.2 1.2 a qn 1 None)) in E0'.
    rewrite E0 in E0'. apply Ok_inj in E0'. subst c0 a.
    set (rm := 1 / 2 * 1.2).
    destruct (set_mass_flow_cond lin_psy o' i' 1 f pr 1.2 1.2 (1 / 2) qn 1 None m_dot)
      as (c' & Ec' & _ & _ & C3 & C4 & _); auto; try lra.
    rewrite Emf in Ec'. apply Ok_inj in Ec'. subst c'.
    assert (Er : ex (set_mass_airflow_ratio lin_psy (m_dot / rm))
       (flow_cond o' i' 1 f pr 1.2 1.2 (1 / 2) qn 1 None)
       = Ok (flow_cond o' i' 1 f pr 1.2 1.2 (1 / 2) qn (m_dot / rm) None)).
    { apply set_ratio_flow_cond; auto; lra. }
    assert (P0 : 0 <= m_dot / rm).
    { apply Rmult_le_pos; [lra | left; apply Rinv_0_lt_compat; unfold rm; lra]. }
    destruct (flow_at (flow_cond o' i' 1 f pr 1.2 1.2 (1 / 2) qn (m_dot / rm) None) (m_dot / rm))
      as (F1 & _ & _); [cbn; lia | reflexivity | exact P0 |].
    exists t_o, rh, t_i, m_dot, p, o, i. do 2 eexists. eexists.
    split; [exact E |]. do 9 (split; [eassumption |]).
    split; [exists rm; split; [reflexivity | exact Er] |].
    split; [unfold flow_cond; cbn [c_mass_airflow]; f_equal; unfold rm; field; lra |].
    split; [exact F1 |]. rewrite Vq. intros X. injection X as X.
    assert (P1 : 0 <= 1 / 2 * 1.2 / m_dot).
    { apply Rmult_le_pos; [lra | left; apply Rinv_0_lt_compat; lra]. }
    destruct (flow_at c _ ltac:(rewrite C4; lia) C3 P1) as (F2 & _ & _).
    rewrite Eq in F2. apply Ok_inj in F2. rewrite C4 in F2. cbn [gross] in F2.
    change (c_speed (flow_cond o' i' 1 f pr 1.2 1.2 (1 / 2) qn (m_dot / rm) None)) with 1%nat in X.
    cbn [gross] in X. rewrite F2 in X.
    assert (Y : 1 / 2 * 1.2 / m_dot = m_dot / rm) by lra.
    assert (Z : 1 / 2 * 1.2 * rm = m_dot * m_dot).
    { apply (f_equal (fun x => x * (m_dot * rm))) in Y.
      unfold rm in *. replace (1 / 2 * 1.2 / m_dot * (m_dot * (1 / 2 * 1.2)))
        with (1 / 2 * 1.2 * (1 / 2 * 1.2)) in Y by (field; lra).
      rewrite Y. field; lra. }
    unfold rm in Z. nra.
  Qed.
  Lemma repr_two_fan_speeds : exists r,
    generate_205_representation lin_psy lin_sol M u = Ok r /\
    (1 <= 2 <= List.length (fr_speed_number (r_fan r)))%nat.
  Proof.
    destruct repr_works as [r E]. exists r. split; [exact E |].
    destruct (repr_fan _ _ _ _ _ E) as (f & order & Uf & _ & Sn & _).
    change (u_fan u) with (Some toy_fan) in Uf. injection Uf as <-. rewrite Sn, seq_length.
    change (f_n toy_fan) with 2%nat. lia.
  Qed.

  Lemma repr_flow_axis :
    (exists r, generate_205_representation lin_psy lin_sol M u = Ok r) /\
    nth_error (sd_net_cap (u_c u)) 0 = Some 10000 /\
    last (map Some (sd_net_cap (u_c u))) None = Some 6000 /\
    std_rho lin_psy = Ok 1.2 /\ 0 < 1.2 /\ 280 * 6000 < 500 * 10000.
  Proof.
    split; [exact repr_works |]. repeat split; lra.
  Qed.
End Flow.
