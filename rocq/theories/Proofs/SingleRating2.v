(** C49: the ratings of a single-stage RESNET unit exist. *)
From Coq Require Import Reals QArith Lra Lia List Bool String ZArith.
From Verif.Base Require Import Num Res Tac.
From Verif.Model Require Import Units Util Psychrometrics Conditions Defrost Fan Curves Tabular Unit NREL BaseModel
  Title24 Resnet DXUnit RatingSolver.
From Verif.Spec Require Import TabularSpec NrelSpec ModelSpec SeasonSpec UnitModels RatingSpec.
From Verif.Proofs Require Import UtilProofs UnitsR FanProofs MakeCond Frame StandardProofs UnitProofs NrelProofs
  PsychProofs NrelProofs2 ResnetProofs SeerProofs SingleFan SingleFan2 SingleTable TabBuild TabGross TabMisc SingleUnit RatingProofs SingleRating.
Import ListNotations.
Local Open Scope R_scope.

(** * Cells of the table *)
Lemma finish_get qc pc qh ph (p : perf R) : finish qc pc qh ph = Ok p ->
  forall s x, t_get s x (p_cc p) = t_get s x qc /\ t_get s x (p_cp p) = t_get s x pc.
Proof.
  unfold finish, make_perf. intros H. inv_ok. subst p. cbn [p_cc p_cp].
  apply ex_ok in E, E0. intros s x. split; [exact (interpolated_get _ _ E s x)|exact (interpolated_get _ _ E0 s x)].
Qed.

Lemma single_cells q95 seer eer q47 q17 hspf tmax tmin cop47 cd (p : perf R) :
  make_single_speed_model_data q95 seer eer q47 q17 hspf tmax tmin cop47 cd = Ok p ->
  forall t, t = fr_F 95 \/ t = fr_F 82 ->
  exists a b, t_get 1 t (p_cc p) = Ok (Some a) /\ cooling_capacity p 1 t = Ok a
    /\ t_get 1 t (p_cp p) = Ok (Some b) /\ cooling_power p 1 t = Ok b.
Proof.
  intros H t Ht. unfold make_single_speed_model_data in H. cbv zeta in H.
  set (t82 := fr_F (lit (T:=R) 82)) in *. set (t95 := fr_F (lit (T:=R) 95)) in *.
  set (t17 := fr_F (lit (T:=R) 17)) in *. set (t47 := fr_F (lit (T:=R) 47)) in *.
  set (t60 := fr_F (lit (T:=R) 60)) in *. set (t5 := fr_F (lit (T:=R) 5)) in *.
  assert (E95 : fr_F 95 = t95) by (unfold t95; f_equal; rnum; lra).
  assert (E82 : fr_F 82 = t82) by (unfold t82; f_equal; rnum; lra).
  assert (L1 : t82 < t95) by (apply fr_F_lt; rnum; lra).
  assert (L2 : t17 < t47) by (apply fr_F_lt; rnum; lra).
  rewrite E95, E82 in Ht. clearbody t82 t95 t17 t47 t60 t5. clear E95 E82.
  pose proof (knows_new CoolingTable 1 _ (sorted2 _ _ L1)) as KC.
  pose proof (knows_new HeatingTable 1 _ (sorted2 _ _ L2)) as KH.
  inv_ok. inv_ex. track. pose proof (finish_get _ _ _ _ _ H) as FG. use_finish H.
  match type of H with finish ?qc ?pc ?qh ?ph = Ok ?p =>
    match goal with
    | K1 : knows CoolingTable _ qc _, K2 : knows CoolingTable _ pc _ |- _ =>
        destruct K1 as (_ & _ & _ & K1); destruct K2 as (_ & _ & _ & K2);
        destruct Ht as [-> | ->]; do 2 eexists;
        (split; [rewrite (proj1 (FG _ _)); apply K1; inlist|]);
        (split; [apply HC; inlist|]);
        (split; [rewrite (proj2 (FG _ _)); apply K2; inlist|]); apply HP; inlist
    end
  end.
Qed.

Definition gcop (u : dxunit R) := sd_gross_cop (u_c u).
Definition gcap (u : dxunit R) := sd_gross_cap (u_c u).

Ltac keepm :=
  repeat (first
    [ keep_step
    | match goal with |- keeps _ (on_side ?m _) => destruct m end ]; cbv zeta beta); try reflexivity.

Section Total.
  Variable psy : psychro R.
  Variable sol : solvers R.
  Notation U := (dxunit R).
  Notation M := (RESNETDXModel psy sol).

  Lemma gcop_put_gross m i : keeps gcop (put_gross_capacity (T:=R) m i).
  Proof. unfold put_gross_capacity, side_put. keepm. Qed.
  Lemma gcop_heating_cops net gross is : keeps gcop (put_table_cops (T:=R) Heating net gross is).
  Proof. unfold put_table_cops, side_put. keepm. Qed.
  Lemma gcap_heating_gross i : keeps gcap (put_gross_capacity (T:=R) Heating i).
  Proof. unfold put_gross_capacity, side_put. keepm. Qed.

  Definition gv (u : U) := (gcop u, gcap u).
  Lemma gv_esp : keeps gv (reset_full_esp (T:=R)).
  Proof. unfold reset_full_esp. keepm. Qed.
  Lemma gv_conditions : keeps gv (set_rating_conditions psy).
  Proof. unfold set_rating_conditions, reset_full_esp, put_cond. keepm. Qed.
  Definition ge (u : U) := (gv u, u_full_esp u).
  Lemma ge_sensible : keeps ge (set_sensible_cooling_variables psy sol M).
  Proof.
    unfold set_sensible_cooling_variables, set_sensible_at, calculate_rated_bypass_factor. keepm.
  Qed.

  Lemma unless_same (m : st U unit) (u u' : U) b net :
    rn_net (u_rn u) = Some net -> unless_table m u = (u', Ok b) -> u' = u.
  Proof.
    intros N E. unfold unless_table, sbind, sget in E. rewrite N in E. unfold sret in E.
    apply pair_ok_inj in E. destruct E as [E _]. congruence.
  Qed.
  Lemma opt_unless (f : num_or_list R -> st U unit) o (u u' : U) b net :
    rn_net (u_rn u) = Some net -> opt_set (fun v => unless_table (f v)) o u = (u', Ok b) -> u' = u.
  Proof.
    intros N E. destruct o; cbn [opt_set] in E.
    - exact (unless_same _ _ _ _ _ N E).
    - unfold sret in E. apply pair_ok_inj in E. destruct E as [E _]. congruence.
  Qed.

  Lemma table_cops_inv net gross s (u u' : U) b :
    put_table_cops Cooling net gross (0%nat, s) u = (u', Ok b) ->
    exists cg, cooling_cop gross s (fr_F (lit 95)) = Ok cg /\ entry (gcop u') 0 cg.
  Proof.
    intros E. unfold put_table_cops in E. cbn [fst snd] in E. cbv zeta in E.
    apply sbind_ok in E. destruct E as (s1 & x1 & E1 & E). apply slift_ok in E1. destruct E1 as [-> E1].
    apply sbind_ok in E. destruct E as (s2 & [] & E2 & E). apply side_put_inv in E2. destruct E2 as [E2 _].
    apply sbind_ok in E. destruct E as (s3 & cg & E3 & E). apply slift_ok in E3. destruct E3 as [-> E3].
    apply side_put_inv in E. destruct E as [-> L]. exists cg. split; [exact E3|].
    unfold entry, gcop. cbn [wu_side side_of u_c wu_c] in L |- *.
    change (nth_error (upd (sd_gross_cop (u_c s2)) 0 (Some cg)) 0 = Some (Some cg)).
    destruct (sd_gross_cop (u_c s2)); [cbn in L; lia|reflexivity].
  Qed.

  Lemma set_gross_cop (u u' : U) qc qh fo net b :
    resnet_set_net_capacities_and_fan sol qc qh fo u = (u', Ok b) ->
    u_staging u' = SINGLE_STAGE -> rn_net (u_rn u') = Some net -> rn_map (u_rn u') = Some [lit 1] ->
    exists g cg, rn_gross (u_rn u') = Some g /\ cooling_cop g (lit 1) (fr_F (lit 95)) = Ok cg
      /\ entry (gcop u') 0 cg.
  Proof.
    intros E St N Mp. unfold resnet_set_net_capacities_and_fan in E.
    apply sbind_ok in E. destruct E as (s1 & [] & _ & E).
    apply sbind_ok in E. destruct E as (s2 & [] & _ & E).
    apply sbind_ok in E. destruct E as (s3 & [] & _ & E).
    apply sbind_ok in E. destruct E as (s4 & [] & E1 & E).
    assert (E4 : u' = s4 \/ u_staging s4 = TWO_STAGE).
    { unfold set_lower_speed_net_capacities, sbind at 1, sget in E.
      destruct (u_staging s4); [left|right; reflexivity|left]; unfold sret in E; apply pair_ok_inj in E;
        destruct E as [E _]; congruence. }
    assert (Ks : keeps (fun u : U => u_staging u) (set_lower_speed_net_capacities (T:=R) sol)).
    { unfold set_lower_speed_net_capacities, lower_speed, other_speed, add_rated_speed, add_design_speed,
        given_fan_speed, put_rated_fan_speed, put_fan_speed, last_fan_speed, side_put, put_rn.
      repeat (first [keep_step | match goal with |- keeps _ (on_fan _) =>
        let u := fresh in intros u; unfold on_fan; destruct (u_fan u); [|reflexivity];
        match goal with |- context [let (_, _) := ?e in _] => destruct e end; reflexivity end ]; cbv zeta beta). }
    assert (S4 : u_staging s4 = SINGLE_STAGE) by (rewrite <- St; symmetry; exact (keeps_ok _ _ _ _ _ Ks E)).
    destruct E4 as [->|E4]; [|congruence]. clear E Ks.
    unfold setup_gross_table in E1. apply sbind_ok in E1. destruct E1 as (s5 & u5 & E & E1).
    unfold sget in E. apply pair_ok_inj in E. destruct E as [<- <-].
    destruct (rn_net (u_rn s3)) as [net'|] eqn:N3.
    2:{ unfold sret in E1. apply pair_ok_inj in E1. destruct E1 as [E1 _]. congruence. }
    apply sbind_ok in E1. destruct E1 as (s5 & fc & E & E1). apply slift_ok in E. destruct E as [-> _].
    apply sbind_ok in E1. destruct E1 as (s5 & fh & E & E1). apply slift_ok in E. destruct E as [-> _].
    apply sbind_ok in E1. destruct E1 as (s5 & g & E & E1). apply slift_ok in E. destruct E as [-> _].
    apply sbind_ok in E1. destruct E1 as (s5 & [] & E & E1). unfold put_rn, smod in E.
    apply pair_ok_inj in E. destruct E as [E5 _].
    apply sbind_ok in E1. destruct E1 as (s6 & m & E & E1). apply slift_ok in E. destruct E as [-> Em].
    apply need_ok in Em.
    apply sbind_ok in E1. destruct E1 as (s6 & [] & E6 & E1).
    assert (V1 : rview s6 = rview s5) by
      exact (keeps_ok rview _ _ _ _ (keeps_fold rview _ _ (rview_table_cops Cooling net' g)) E6).
    assert (V2 : rview s4 = rview s6) by
      exact (keeps_ok rview _ _ _ _ (keeps_fold rview _ _ (rview_table_cops Heating net' g)) E1).
    assert (R4 : u_rn s4 = u_rn s5) by exact (f_equal (fun x => fst (fst (fst (fst x)))) (eq_trans V2 V1)).
    assert (R5 : u_rn s5 = wr_gross (Some g) (u_rn s3)) by (rewrite <- E5; reflexivity).
    rewrite R4, R5 in Mp. change (rn_map (wr_gross (Some g) (u_rn s3))) with (rn_map (u_rn s3)) in Mp.
    assert (m = [lit 1]) by congruence. subst m.
    rewrite R4, R5. exists g.
    change (enumerate [lit (T:=R) 1]) with [(0%nat, lit (T:=R) 1)] in E6. cbn [sfold] in E6.
    apply sbind_ok in E6. destruct E6 as (s7 & [] & E7 & E6). unfold sret in E6. apply pair_ok_inj in E6.
    destruct E6 as [E6 _]. subst s7.
    destruct (table_cops_inv _ _ _ _ _ _ E7) as (cg & G1 & G2).
    exists cg. split; [reflexivity|]. split; [exact G1|].
    rewrite (keeps_ok gcop _ _ _ _ (keeps_fold gcop _ _ (gcop_heating_cops net' g)) E1). exact G2.
  Qed.

  Lemma finish_gross a u0 u b :
    rated_single_stage a -> init_unit M a = Ok u0 -> finish_unit psy sol M a u0 = (u, Ok b) ->
    exists g cg q w, rn_gross (u_rn u) = Some g
      /\ cooling_cop g (lit 1) (fr_F (lit 95)) = Ok cg /\ entry (sd_gross_cop (u_c u)) 0 cg
      /\ nth_error (sd_net_cap (u_c u)) 0 = Some q /\ entry (sd_fan_power (u_c u)) 0 w
      /\ entry (sd_gross_cap (u_c u)) 0 (q + w)
      /\ exists p, u_full_esp u = Some p.
  Proof.
    intros A I E. destruct (init_single psy sol a u0 A I) as (I1 & I2 & I3 & I4 & _).
    destruct A as (St & (q & Qc) & Qh & Fa & _). unfold finish_unit in E.
    rewrite Qc, Fa in E.
    apply sbind_ok in E. destruct E as (s1 & x1 & E1 & E).
    apply sbind_ok in E. destruct E as (s2 & x2 & E2 & E).
    apply sbind_ok in E. destruct E as (s3 & x3 & E3 & E).
    apply sbind_ok in E. destruct E as (s4 & x4 & E4 & E).
    apply sbind_ok in E. destruct E as (s5 & x5 & E5 & E).
    apply sbind_ok in E. destruct E as (s6 & x6 & E6 & E).
    apply sbind_ok in E. destruct E as (s7 & x7 & E7 & E).
    apply sbind_ok in E. destruct E as (s8 & x8 & E8 & E).
    apply sbind_ok in E. destruct E as (s9 & [] & E9 & E).
    apply sbind_ok in E. destruct E as (t1 & y1 & F1 & E).
    apply sbind_ok in E. destruct E as (t2 & y2 & F2 & E).
    apply sbind_ok in E. destruct E as (t3 & y3 & F3 & E).
    apply sbind_ok in E. destruct E as (t4 & y4 & F4 & E).
    apply sbind_ok in E. destruct E as (t5' & y5 & F5 & E).
    apply sbind_ok in E. destruct E as (t6 & y6 & F6 & E).
    apply sbind_ok in E. destruct E as (t7 & y7 & F7 & E).
    apply sbind_ok in E. destruct E as (t8 & [] & F8 & E).
    apply sbind_ok in E. destruct E as (t9 & [] & F9 & E).
    apply sread_ok in F8. destruct F8 as [-> F8].
    apply sread_ok in F9. destruct F9 as [-> F9].
    apply sread_ok in E. destruct E as [-> E].
    destruct (placeholders_one _ _ _ I3 I4 E1) as (O1 & O2 & S1 & R1).
    assert (Hq : exists qh, a_hcap a = option_map Scalar qh).
    { destruct Qh as [->|(x & ->)]; [exists None|exists (Some x)]; reflexivity. }
    destruct Hq as [qh Hq].
    assert (MS : single_made sol s1 s2 q qh).
    { refine (made_single sol s1 s2 x2 q qh (a_hcap a) _ _ O1 O2 Hq E2); congruence. }
    destruct MS as (net & gross & f & p & qc & qh' & ac & ah & wc & wh & T & Q1 & Q2 & P & Fn & Fc & FC & FH & OC & OH & G & N1 & N2 & N3 & Sg).
    destruct (set_gross_cop s1 s2 _ _ _ net x2 E2 Sg N1 N3) as (g & cg & G1 & G2 & G3).
    assert (g = gross) by congruence. subst g.
    assert (V3 : rview s3 = rview s2) by exact (keeps_ok rview _ _ _ _ rview_esp E3).
    assert (E34 : s4 = s3 /\ x4 = s3) by (unfold sget in E4; apply pair_ok_inj in E4; split; symmetry; tauto).
    destruct E34 as [-> ->].
    assert (V3c : sview (u_c s3) = sview (u_c s2)) by exact (f_equal (fun x => snd (fst x)) V3).
    pose proof (sview_one _ _ _ V3c OC) as (OA & OF & ON & _).
    pose proof (sview_fan sol _ _ _ _ _ _ _ V3c FC) as (k & f0 & _ & _ & _ & FW & _).
    rewrite OA in E5. cbn [seq sfold] in E5.
    apply sbind_ok in E5. destruct E5 as (s5' & [] & E51 & E5). unfold sret in E5. apply pair_ok_inj in E5.
    destruct E5 as [-> _].
    assert (GC5 : entry (gcap s5) 0 (qc + wc)).
    { unfold put_gross_capacity in E51. apply sbind_ok in E51. destruct E51 as (z & v & Z & E51).
      unfold sget in Z. apply pair_ok_inj in Z. destruct Z as [<- <-]. cbv zeta in E51.
      apply sbind_ok in E51. destruct E51 as (z & v & Z & E51). apply slift_ok in Z. destruct Z as [-> Z].
      cbn [side_of] in Z. rewrite ON in Z. unfold geti in Z. cbn in Z. apply Ok_inj in Z. subst v.
      apply sbind_ok in E51. destruct E51 as (z & v & Z & E51). apply slift_ok in Z. destruct Z as [-> Z].
      cbn [side_of] in Z. rewrite FW in Z. unfold arr, geti in Z. cbn in Z. apply Ok_inj in Z. subst v.
      apply side_put_inv in E51. destruct E51 as [-> L].
      unfold entry, gcap. cbn [wu_side side_of] in L |- *.
      change (nth_error (upd (sd_gross_cap (u_c s3)) 0 (Some (qc + wc))) 0 = Some (Some (qc + wc))).
      destruct (sd_gross_cap (u_c s3)); [cbn in L; lia|reflexivity]. }
    assert (CC5 : entry (gcop s5) 0 cg).
    { rewrite (keeps_ok gcop _ _ _ _ (gcop_put_gross Cooling 0) E51).
      assert (K3 : gv s3 = gv s2) by exact (keeps_ok gv _ _ _ _ gv_esp E3).
      apply (f_equal fst) in K3. cbn [gv fst] in K3. rewrite K3. exact G3. }
    assert (K6 : gcop s6 = gcop s5) by exact (keeps_ok gcop _ _ _ _ (keeps_fold gcop _ _ (gcop_put_gross Heating)) E6).
    assert (K6' : gcap s6 = gcap s5) by exact (keeps_ok gcap _ _ _ _ (keeps_fold gcap _ _ gcap_heating_gross) E6).
    assert (K8 : gv s8 = gv s6).
    { assert (K8 : gv s8 = gv s7) by (inv_st; reflexivity). rewrite K8.
      destruct (a_crank a); inv_st; reflexivity. }
    assert (K9 : gv s9 = gv s8) by exact (keeps_ok gv _ _ _ _ gv_conditions E9).
    assert (Vt1 : rview t1 = rview s2).
    { rewrite (keeps_ok rview _ _ _ _ (rview_sensible psy sol _) F1).
      rewrite (keeps_ok rview _ _ _ _ (rview_conditions psy) E9).
      assert (K8' : rview s8 = rview s7) by (inv_st; reflexivity). rewrite K8'.
      assert (K7' : rview s7 = rview s6) by (destruct (a_crank a); inv_st; reflexivity). rewrite K7'.
      rewrite (keeps_ok rview _ _ _ _ (keeps_fold rview _ _ (rview_put_gross Heating)) E6).
      rewrite (keeps_ok rview _ _ _ _ (rview_put_gross Cooling 0) E51). exact V3. }
    assert (Nt1 : rn_net (u_rn t1) = Some net).
    { assert (Z : u_rn t1 = u_rn s2) by exact (f_equal (fun x => fst (fst (fst (fst x)))) Vt1). rewrite Z. exact N1. }
    apply slift_ok in F2, F3. destruct F2 as [-> _]. destruct F3 as [-> _].
    cbn [md_set_net_cop md_set_gross_cop RESNETDXModel] in F4, F5, F6, F7.
    pose proof (opt_unless _ _ _ _ _ _ Nt1 F4) as ->.
    pose proof (opt_unless _ _ _ _ _ _ Nt1 F5) as ->.
    pose proof (opt_unless _ _ _ _ _ _ Nt1 F6) as ->.
    pose proof (opt_unless _ _ _ _ _ _ Nt1 F7) as ->.
    assert (Kt : ge t1 = ge s9) by exact (keeps_ok ge _ _ _ _ ge_sensible F1).
    assert (Kg : gv t1 = gv s6) by (apply (f_equal fst) in Kt; cbn [ge fst] in Kt; congruence).
    assert (Ke : u_full_esp t1 = u_full_esp s9) by exact (f_equal snd Kt).
    assert (Vr : u_rn t1 = u_rn s2) by exact (f_equal (fun x => fst (fst (fst (fst x)))) Vt1).
    assert (Vc : sview (u_c t1) = sview (u_c s2)) by exact (f_equal (fun x => snd (fst x)) Vt1).
    pose proof (sview_one _ _ _ Vc OC) as (_ & _ & ONt & _).
    pose proof (sview_fan sol _ _ _ _ _ _ _ Vc FC) as (k1 & f1 & _ & _ & _ & FWt & _).
    exists gross, cg, qc, wc. rewrite Vr, ONt, FWt.
    split; [exact N2|]. split; [exact G2|].
    split; [change (entry (gcop t1) 0 cg); replace (gcop t1) with (gcop s5) by (unfold gv in Kg; congruence); exact CC5|].
    split; [reflexivity|]. split; [reflexivity|].
    split; [change (entry (gcap t1) 0 (qc + wc)); replace (gcap t1) with (gcap s5) by (unfold gv in Kg; congruence); exact GC5|].
    rewrite Ke.
    rewrite set_rating_conditions_puts in E9. apply sbind_ok in E9. destruct E9 as (z & v & Z & E9).
    unfold reset_full_esp in Z. apply sbind_ok in Z. destruct Z as (z' & p' & Z1 & Z).
    apply sread_ok in Z1. destruct Z1 as [-> _]. unfold smod in Z. apply pair_ok_inj in Z. destruct Z as [Z _].
    apply sbind_ok in E9. destruct E9 as (z' & v' & Z1 & E9). unfold sget in Z1. apply pair_ok_inj in Z1.
    destruct Z1 as [<- <-]. exists p'.
    assert (Kf : keeps (fun u : U => u_full_esp u) (sfold (do_put psy) (rating_puts z))).
    { apply keeps_fold. intros w0. unfold do_put, put_cond. keepm. }
    rewrite (keeps_ok _ _ _ _ _ Kf E9). rewrite <- Z. reflexivity.
  Qed.

  Lemma curves_positive t : t = 82 \/ t = 95 ->
    curve_odb (fr_F t) = t /\ 0 < cool_cap_T 67 t /\ 0 < cool_eir_T 67 t.
  Proof.
    intros H. unfold curve_odb. rewrite degF_fr_F. split.
    - apply Rmax_right. destruct H; lra.
    - unfold cool_cap_T, cool_eir_T. destruct H as [-> | ->]; split; lra.
  Qed.

  Lemma other_outdoor m (u : U) sp i o o' c :
    make_condition psy m u sp i o = Ok c -> exists c', make_condition psy m u sp i o' = Ok c'.
  Proof.
    intros Mk. apply make_condition_inv in Mk.
    destruct Mk as (q0 & a0 & full & p0 & fl & rho0 & srho0 & B1 & B2 & B3 & B4 & (mp & B5 & B6) & B7 & B8 & B9 & B10 & B11 & B12 & B13).
    unfold calculate_rated_pressure in B4. apply rbind_ok in B4. destruct B4 as (e & He & B4).
    apply need_ok in He. apply rbind_ok in B4. destruct B4 as (rr & Hr & _). apply pydiv_inv in Hr.
    destruct Hr as [Nf _]. eexists.
    exact (make_condition_ok psy m u sp i o' q0 a0 full e mp fl rho0 srho0 B1 B2 B3 He B5 B6 B7 B8 B9 B10 B11 Nf B12).
  Qed.

  (** Correction factors at rated conditions are 1. *)
  Lemma value_rated (u : U) net gross (fch : U -> cond R -> res R) look fn c rc o t v x :
    rn_net (u_rn u) = Some net -> rn_gross (u_rn u) = Some gross -> rn_map (u_rn u) = Some [lit 1] ->
    c_speed c = 0%nat -> ps_db (c_outdoor c) = fr_F t ->
    look gross (lit 1) (fr_F t) = Ok v ->
    PsychState psy (fr_F t) atm [("rel_hum"%string, lit 0.4)] = Ok o ->
    make_condition psy Cooling u 0 None (Some o) = Ok rc ->
    fn u c = Ok x -> fn u rc = Ok x -> x <> 0 -> 0 <= v -> fch u c = Ok 1 ->
    checked_product (resnet_value psy Cooling look fn) fch u c = Ok v.
  Proof.
    intros N1 N2 N3 Cs Co L Po Mk F1 F2 Nx Pv Gr. unfold checked_product.
    unfold resnet_value, table_speed, correction_factor.
    rewrite N1, N2, N3, Cs. cbn [need rbind nth_error]. rewrite Co, L. cbn [rbind]. rewrite Po. cbn [rbind].
    rewrite Mk. cbn [rbind]. rewrite F1, F2. cbn [rbind]. rewrite pydiv_ok by exact Nx. cbn [rbind].
    rewrite Gr. cbn [rbind]. cbn [nmul RNum]. replace (v * (x / x) * 1) with v by (field; exact Nx).
    apply limit_check_pos. exact Pv.
  Qed.

  Lemma rate_exists (u : U) net gross f o k pc rho srho a q w Q P qg cg t :
    t = 82 \/ t = 95 -> outdoor_states_exist psy ->
    u_charge u = 0 -> u_fan u = Some f ->
    rn_net (u_rn u) = Some net -> rn_gross (u_rn u) = Some gross -> rn_map (u_rn u) = Some [lit 1] ->
    power sol f k (Some (pc * (1 * 1))) = Ok w ->
    ps_db o = fr_F t ->
    cooling_capacity gross (lit 1) (fr_F t) = Ok (Q + w) -> 0 < Q + w ->
    cooling_power gross (lit 1) (fr_F t) = Ok (P - w) -> 0 < P - w -> P <> 0 ->
    entry (sd_gross_cap (u_c u)) 0 qg -> 0 < qg ->
    entry (sd_gross_cop (u_c u)) 0 cg -> 0 < cg ->
    make_condition psy Cooling u 0 None (Some o) =
      Ok (flow_cond o (default_indoor Cooling) 0 (Some k) (Some pc) rho srho a q 1 None) ->
    exists v, net_total_cooling_cop sol M u
      (Some (flow_cond o (default_indoor Cooling) 0 (Some k) (Some pc) rho srho a q 1 None)) = Ok v.
  Proof.
    intros Ht PE Ch Fn N1 N2 N3 W Ho GC GC0 GP GP0 P0 Eq Pq Ec Pc Mk.
    destruct (curves_positive t Ht) as (Co & C1 & C2).
    destruct (PE t Ht) as (o' & Po).
    assert (Lt : lit (T:=R) 0.4 = 0.4) by (rnum; lra). rewrite <- Lt in Po.
    pose proof (PsychState_reads_back _ _ _ _ _ _ Po) as Rb.
    assert (Do : ps_db o' = fr_F t) by tauto. clear Rb.
    set (c := flow_cond o _ _ _ _ _ _ _ _ _ _) in *.
    destruct (other_outdoor Cooling u 0 None (Some o) (Some o') c Mk) as (rc & Mk').
    destruct (make_condition_facts psy _ _ _ _ _ _ Mk') as (R1 & R2 & R3 & R4).
    assert (WB : ps_wb (c_indoor c) = Some (fr_F 67)).
    { unfold c. cbn [flow_cond c_indoor default_indoor psych_wetbulb put_wb ps_wb blank]. rewrite <- lit67. reflexivity. }
    assert (WB' : ps_wb (c_indoor rc) = Some (fr_F 67)) by (rewrite R3; exact WB).
    assert (Hq : nrel_gross_total_cooling_capacity u c = Ok (cool_cap_T 67 t * qg)
                 /\ nrel_gross_total_cooling_capacity u rc = Ok (cool_cap_T 67 t * qg)).
    { destruct flow_one as (F1 & _). split.
      - rewrite (gtc_eq u c (fr_F 67) 1 qg WB eq_refl Eq). change (c_outdoor c) with o.
        rewrite Ho, Co, default_curve_wb, F1, Rmult_1_l. reflexivity.
      - rewrite (gtc_eq u rc (fr_F 67) 1 qg WB' R2) by (rewrite R1; exact Eq). rewrite R4, Do, Co, default_curve_wb, F1, Rmult_1_l.
        reflexivity. }
    assert (Nc : cg <> 0) by lra.
    set (pw := cool_eir_T 67 t * cool_cap_T 67 t * (qg / cg)).
    assert (Pp : 0 < pw).
    { unfold pw. apply Rmult_lt_0_compat; [apply Rmult_lt_0_compat; assumption|apply Rdiv_lt_0_compat; assumption]. }
    assert (Hp : nrel_gross_cooling_power u c = Ok pw /\ nrel_gross_cooling_power u rc = Ok pw).
    { destruct flow_one as (F1 & F2 & _). split.
      - rewrite (gcp_eq u c (fr_F 67) 1 qg cg WB eq_refl Eq Ec Nc). cbv zeta. change (c_outdoor c) with o.
        rewrite Ho, Co, default_curve_wb, F1, F2, !Rmult_1_l. apply limit_check_pos. fold pw. lra.
      - rewrite (gcp_eq u rc (fr_F 67) 1 qg cg WB' R2) by (rewrite ?R1; assumption). cbv zeta.
        rewrite R4, Do, Co, default_curve_wb, F1, F2, !Rmult_1_l. apply limit_check_pos. fold pw. lra. }
    assert (Nq : cool_cap_T 67 t * qg <> 0).
    { pose proof (Rmult_lt_0_compat _ _ C1 Pq). lra. }
    assert (FP : fan_power sol u c = Ok w).
    { unfold fan_power. rewrite Fn. unfold c, flow_cond. cbn [c_external_static_pressure c_fan_speed need rbind].
      exact W. }
    assert (X : gross_total_cooling_capacity M u (Some c) = Ok (Q + w)).
    { unfold gross_total_cooling_capacity. cbn [cooling_conditions rbind md_gtc md_f_gtc RESNETDXModel].
      refine (value_rated u net gross _ cooling_capacity _ c rc o' t (Q + w) _ N1 N2 N3 eq_refl Ho GC Po Mk'
                (proj1 Hq) (proj2 Hq) Nq _ _); [lra|apply grading_zero; exact Ch]. }
    assert (Y : gross_cooling_power M u (Some c) = Ok (P - w)).
    { unfold gross_cooling_power. cbn [cooling_conditions rbind md_gcp md_f_gcp RESNETDXModel].
      refine (value_rated u net gross _ cooling_power _ c rc o' t (P - w) _ N1 N2 N3 eq_refl Ho GP Po Mk'
                (proj1 Hp) (proj2 Hp) _ _ _); [lra|lra|apply grading_zero; exact Ch]. }
    exists (Q / P). unfold net_total_cooling_cop, net_total_cooling_capacity, net_cooling_power, both.
    rewrite X, Y. unfold cooling_fan_power. cbn [cooling_conditions rbind]. rewrite FP. cbn [rbind minus plus].
    cbn [nadd nsub RNum]. replace (Q + w - w) with Q by ring. replace (P - w + w) with P by ring.
    apply pydiv_ok. exact P0.
  Qed.

  Lemma rates_exist a u :
    outdoor_states_exist psy ->
    rated_single_stage a -> DXUnit psy sol M a = Ok u ->
    get_kwarg_value "motor_type" (a_kwargs a) <> KMotor MotorBPM \/ heating_flow_within_cooling u ->
    (exists v, eer sol M u None = Ok v) /\ (exists v, seer sol M u = Ok v).
  Proof.
    intros PE A D Hm.
    assert (LM : library_model psy sol M) by (unfold library_model; simpl; tauto).
    assert (Fix_ : set_rating_conditions psy u = (u, Ok tt)).
    { pose proof (constructed_standard_fixed psy sol M LM a u D) as Fx. apply ex_ok in Fx.
      unfold set_rating_standard, sbind, smod in Fx.
      replace (wu_standard (u_standard u) u) with u in Fx by (destruct u; reflexivity). exact Fx. }
    apply DXUnit_inv in D. destruct D as (u0 & b & I & D).
    destruct (finish_gross a u0 u b A I D) as (g & cg & gq & gw & GG & GC & GE & GQ & GW & GQW & _).
    destruct (init_single psy sol a u0 A I) as (I1 & I2 & I3 & I4 & I5 & I6 & I7 & I8).
    destruct (finish_single psy sol a u0 u b A I D) as (q & qh & s1 & s2 & s8 & s9 & C1 & R1 & MS & C2 & V8 & C8 & E9 & Vu & Cu).
    destruct MS as (net & gross & f & p & qc & qh' & ac & ah & wc & wh & T & Q1 & Q2 & P & Fn & Fc & FC & FH & OC & OH & G & N1 & N2 & N3 & St).
    clear D I A.
    (* the table *)
    unfold single_speed_table in T. cbn [number rbind] in T.
    apply rbind_ok in T. destruct T as ([[[sr er] hh] ch] & RI & T).
    unfold rating_inputs in RI. apply rbind_ok in RI. destruct RI as (sr0 & Sr & RI).
    apply rbind_ok in RI. destruct RI as (er0 & Er & RI).
    apply rbind_ok in RI. destruct RI as (c0 & _ & RI). apply rbind_ok in RI. destruct RI as (h0 & _ & RI).
    apply Ok_inj in RI.
    assert (sr0 = sr) by congruence. assert (er0 = er) by congruence. subst sr0 er0. clear RI.
    assert (Cfg : u_seer s1 = u_seer u0 /\ u_eer s1 = u_eer u0 /\ sd_cd (u_c s1) = sd_cd (u_c u0)).
    { unfold configc, config in C1. split; [|split]; congruence. }
    destruct Cfg as (G1 & G2 & G3). rewrite G1, I6 in Sr. rewrite G2, I7 in Er. rewrite G3 in T.
    assert (Hs : a_seer a = Some sr) by (destruct (a_seer a); cbn [number_if] in Sr; [congruence|discriminate]).
    assert (He : default_eer (a_seer a) (a_eer a) = Some er)
      by (destruct (default_eer (a_seer a) (a_eer a)); cbn [number_if] in Er; [congruence|discriminate]).
    destruct (single_caps _ _ _ _ _ _ _ _ _ _ _ T) as (K1 & K2).
    rewrite lit95, lit1' in Q1. rewrite lit47, lit1' in Q2. rewrite K1 in Q1. rewrite K2 in Q2.
    apply Ok_inj in Q1, Q2. subst qc qh'.
    (* the conditions *)
    assert (Vr : u_rn u = u_rn s2) by exact (f_equal (fun x => fst (fst (fst (fst x)))) Vu).
    assert (Vf : u_fan u = u_fan s2) by exact (f_equal (fun x => snd (fst (fst (fst x)))) Vu).
    assert (Vs : u_staging u = u_staging s2) by exact (f_equal (fun x => snd (fst (fst x))) Vu).
    rewrite <- Vr in N1, N2, N3. rewrite <- Vf in Fn. rewrite <- Vs in St.
    assert (K9 : config s9 = config s8) by exact (keeps_ok config _ _ _ _ (keeps_conditions psy) E9).
    assert (Ku : config u = config u0).
    { apply (f_equal fst) in Cu. apply (f_equal fst) in C8. cbn [configc fst] in Cu, C8. congruence. }
    assert (Ch : u_charge u = 0) by (unfold config in Ku; congruence).
    assert (V8c : sview (u_c u) = sview (u_c s2)) by exact (f_equal (fun x => snd (fst x)) Vu).
    assert (V8h : sview (u_h u) = sview (u_h s2)) by exact (f_equal snd Vu).
    destruct (conditions_inv psy u u tt St Fix_) as (p' & cA & cB & cH & P' & MA & MB & MH & RA & RB & Esp).
    pose proof (sview_one _ _ _ V8c OC) as OC8. pose proof (sview_one _ _ _ V8h OH) as OH8.
    assert (Pp : p' = p).
    { assert (G4 : u_ducted u = u_ducted s2 /\ u_standard u = u_standard s2).
      { apply (f_equal fst) in C2. cbn [configc fst] in C2. unfold config in Ku, C2. split; congruence. }
      destruct G4 as [G4 G5].
      unfold get_rated_full_flow_rated_pressure in P, P'. rewrite G4, G5 in P'.
      rewrite (proj1 (proj2 (proj2 OC8))) in P'. rewrite (proj1 (proj2 (proj2 OC))) in P. congruence. }
    subst p'.
    assert (EX : wu_full_esp (Some p) u = u) by (rewrite <- Esp; destruct u; reflexivity).
    cbv zeta in MA, MB, MH. rewrite EX in MA, MB, MH.
    pose proof (sview_fan sol _ _ _ _ _ _ _ V8c FC) as FC8.
    destruct OC8 as (_ & OF & ON & _). destruct OH8 as (_ & OFh & ONh & _).
    rewrite OF in MA, MB. rewrite OFh in MH.
    (* nonzero capacities *)
    assert (Nqh : heating_default q qh <> 0).
    { apply make_condition_inv in MH. destruct MH as (q0 & a0 & full & p0 & fl & rho & srho & B1 & _ & _ & _ & _ & _ & _ & _ & _ & _ & B2 & _).
      change (sd_net_cap (side_of Heating u)) with (sd_net_cap (u_h u)) in B1.
      rewrite ONh in B1. cbn [nth_error] in B1. congruence. }
    assert (Cond : forall o c, make_condition psy Cooling u 0 None o = Ok c ->
      q <> 0 /\ exists k rho srho, power sol f k (Some (p * ((ac / ac) * (ac / ac)) * (1 * 1))) = Ok wc
      /\ c = flow_cond (match o with Some s => s | None => default_outdoor Cooling end) (default_indoor Cooling) 0
               (Some k) (Some (p * ((ac / ac) * (ac / ac)))) rho srho ac q 1 None).
    { intros o c MC. apply make_condition_inv in MC.
      destruct MC as (q0 & a0 & full & p0 & fl & rho & srho & B1 & B2 & B3 & B4 & (mp & B5 & B6) & _ & _ & _ & _ & B8 & B7 & B9).
      change (side_of Cooling u) with (u_c u) in *.
      destruct FC8 as (k & f0 & H1 & H2 & H3 & H4 & H5 & H6 & H7 & H8).
      rewrite ON in B1. rewrite H2 in B2, B3. rewrite H1 in B5. cbn [nth_error] in B1, B2, B3.
      assert (q0 = q) by congruence. assert (a0 = ac) by congruence. assert (full = ac) by congruence.
      assert (mp = [Some k]) by congruence. subst q0 a0 full mp. cbn [nth_error] in B6.
      assert (fl = Some k) by congruence. subst fl.
      unfold calculate_rated_pressure in B4. rewrite Esp in B4.
      cbn [need rbind] in B4. rewrite pydiv_ok in B4 by exact B8. cbn [rbind] in B4. apply Ok_inj in B4.
      unfold nsq in B4. cbn [nmul ndiv RNum] in B4. subst p0.
      split; [exact B7|]. exists k, rho, srho. split; [|exact B9].
      assert (Lk : (k < List.length (f_airflow f0))%nat) by (apply geti_ok in H6; apply nth_error_Some; congruence).
      rewrite (extends_power sol f0 f k _ H7 H8 Lk).
      destruct Hm as [Hm|Hm].
      - specialize (I8 Hm). rewrite <- R1 in I8. rewrite I8 in Fc.
        rewrite <- H5. apply psc_power. destruct H8 as (n & l & r & ->). exact Fc.
      - rewrite <- H5. f_equal. f_equal.
        destruct Hm as (ac' & ah' & M1 & M2 & M3).
        destruct (sview_fan sol _ _ _ _ _ _ _ V8c FC) as (k1 & f1 & _ & Z1 & _).
        destruct (sview_fan sol _ _ _ _ _ _ _ V8h FH) as (k2 & f2 & _ & Z2 & _).
        rewrite Z1 in M1. rewrite Z2 in M2. cbn [nth_error] in M1, M2.
        assert (ac' = ac) by congruence. assert (ah' = ah) by congruence. subst ac' ah'.
        destruct (Rle_dec ah ac) as [_|N]; [ring|contradiction]. }
    assert (MA' : make_condition psy Cooling u 0 None (Some (default_outdoor Cooling)) = Ok cA) by exact MA.
    destruct (Cond _ _ MA') as (Nq & kA & rA & srA & WA & EA). destruct (Cond _ _ MB) as (_ & kB & rB & srB & WB & EB).
    cbv beta iota in EA.
    destruct (single_reproduces _ _ _ _ _ _ _ _ _ _ _ T Nq Nqh) as (_ & L1 & (c82 & L2 & L3) & _).
    (* the gross table *)
    destruct (single_shape _ _ _ _ _ _ _ _ _ _ _ T) as (_ & _ & U1 & U2 & U3 & U4).
    assert (Sh : forall t, t = 82 \/ t = 95 -> exists Q P, cooling_capacity net 1 (fr_F t) = Ok Q
      /\ cooling_power net 1 (fr_F t) = Ok P
      /\ cooling_capacity gross 1 (fr_F t) = Ok (Q + wc) /\ cooling_power gross 1 (fr_F t) = Ok (P - wc)
      /\ 0 < Q + wc /\ 0 < P - wc /\ P <> 0).
    { unfold ex in G. intros t Ht.
      destruct (make_gross_shift [wc] [wh] _ _ net U1 U2 U3 U4 (const_linear wc) (const_linear wh))
        as [(Ad & p1 & Ep & Sh)|(_ & p1 & Ep)]; rewrite Ep in G; [|discriminate].
      apply Ok_inj in G. subst p1.
      destruct (single_cells _ _ _ _ _ _ _ _ _ _ _ T (fr_F t)) as (Q & PP & X1 & X2 & X3 & X4).
      { destruct Ht as [-> | ->]; tauto. }
      exists Q, PP. destruct Ad as ((_ & A1) & (_ & A2) & _).
      pose proof (A1 0%nat (- wc) _ _ eq_refl X1) as B1. pose proof (A2 0%nat wc _ _ eq_refl X3) as B2.
      split; [exact X2|]. split; [exact X4|].
      split; [apply (Sh _ _ _), X2|]. split; [apply (Sh _ _ _), X4|]. split; [lra|]. split; [lra|].
      destruct Ht as [-> | ->].
      - unfold cooling_cop in L2. rewrite X2, X4 in L2. cbn [rbind] in L2. apply pydiv_inv in L2. tauto.
      - unfold cooling_cop in L1. rewrite X2, X4 in L1. cbn [rbind] in L1. apply pydiv_inv in L1. tauto. }
    assert (g = gross) by congruence. subst g.
    destruct (Sh 95 (or_intror eq_refl)) as (Q95 & P95 & Y1 & Y2 & Y3 & Y4 & Y5 & Y6 & Y7).
    assert (Cg : 0 < cg).
    { rewrite lit95, lit1' in GC. unfold cooling_cop in GC. rewrite Y3, Y4 in GC. cbn [rbind] in GC.
      apply pydiv_inv in GC. destruct GC as [_ ->]. cbn [ndiv RNum]. apply Rdiv_lt_0_compat; assumption. }
    assert (Qg : 0 < gq + gw).
    { destruct FC8 as (k & f0 & _ & _ & _ & Z & _). unfold entry in GW. rewrite Z in GW. cbn [nth_error] in GW.
      rewrite ON in GQ. cbn [nth_error] in GQ.
      assert (gw = wc) by congruence. assert (gq = q) by congruence. subst gw gq.
      assert (Q95 = q) by congruence. subst Q95. exact Y5. }
    assert (Rate : forall t o k rho srho, t = 82 \/ t = 95 -> ps_db o = fr_F t ->
      power sol f k (Some (p * ((ac / ac) * (ac / ac)) * (1 * 1))) = Ok wc ->
      make_condition psy Cooling u 0 None (Some o) =
        Ok (flow_cond o (default_indoor Cooling) 0 (Some k) (Some (p * ((ac / ac) * (ac / ac)))) rho srho ac q 1 None) ->
      exists v, net_total_cooling_cop sol M u
        (Some (flow_cond o (default_indoor Cooling) 0 (Some k) (Some (p * ((ac / ac) * (ac / ac)))) rho srho ac q 1 None)) = Ok v).
    { intros t o k rho srho Ht Ho W Mk.
      destruct (Sh t Ht) as (Qt & Pt & H1 & H2 & H3 & H4 & H5 & H6 & H7).
      refine (rate_exists u net gross f o k _ rho srho ac q wc Qt Pt (gq + gw) cg t Ht PE Ch Fn N1 N2 N3 W Ho _ H5 _ H6 H7 GQW Qg GE Cg Mk);
        rewrite lit1'; assumption. }
    split.
    - destruct (Rate 95 (default_outdoor Cooling) kA rA srA (or_intror eq_refl)
        ltac:(cbn [default_outdoor psych_wetbulb put_wb ps_db blank]; apply lit95) WA) as (v & Ev).
      { rewrite MA', EA. reflexivity. }
      exists (to_Btu_Wh v). unfold eer.
      replace (net_total_cooling_cop sol M u None) with (net_total_cooling_cop sol M u (Some cA)).
      { rewrite EA, Ev. reflexivity. }
      unfold net_total_cooling_cop, net_total_cooling_capacity, net_cooling_power, both,
          gross_total_cooling_capacity, gross_cooling_power, cooling_fan_power, cooling_conditions.
      rewrite RA. reflexivity.
    - unfold t82, outdoor in MB, EB. cbv beta iota in EB.
      destruct (Rate 82 (psych_wetbulb (fr_F (lit 82)) atm (fr_F (lit 65))) kB rB srB (or_introl eq_refl)
        ltac:(cbn [psych_wetbulb put_wb ps_db blank]; apply lit82) WB) as (v & Ev).
      { rewrite MB, EB. reflexivity. }
      eexists. apply (seer_single sol M u cB v St RB). rewrite EB. exact Ev.
  Qed.

  Lemma single_rated_total a u :
    outdoor_states_exist psy ->
    rated_single_stage a -> DXUnit psy sol M a = Ok u ->
    get_kwarg_value "motor_type" (a_kwargs a) <> KMotor MotorBPM \/ heating_flow_within_cooling u ->
    exists sr er, a_seer a = Some sr /\ default_eer (a_seer a) (a_eer a) = Some er
      /\ eer sol M u None = Ok er /\ seer sol M u = Ok sr.
  Proof.
    intros PE A D Hm.
    destruct (single_rated psy sol a u A D Hm) as (sr & er & E1 & E2 & E3 & E4).
    destruct (rates_exist a u PE A D Hm) as ((v1 & F1) & (v2 & F2)).
    exists sr, er. split; [exact E1|]. split; [exact E2|].
    rewrite (E3 _ F1) in F1. rewrite (E4 _ F2) in F2. split; assumption.
  Qed.

  Lemma rating_args_single r c p : ri_staging r = SINGLE_STAGE -> rated_single_stage (rating_args r c p).
  Proof.
    intros S. unfold rated_single_stage, rating_args.
    cbn [a_staging a_ccap a_hcap a_fan a_kwargs a_charge]. rewrite S.
    split; [left; reflexivity|]. split; [eexists; reflexivity|].
    split; [destruct (ri_q47 r); [right; eexists|left]; reflexivity|].
    split; [reflexivity|]. split; [reflexivity|]. apply lit0_R.
  Qed.

  (** Every staging type. *)
  Lemma rating_meets_seer_any tol r u : newton_finds_roots tol sol ->
    (ri_staging r = SINGLE_STAGE -> outdoor_states_exist psy) ->
    make_rating_unit psy sol r = Ok u ->
    exists v, seer sol M u = Ok v /\ Rabs (v - ri_seer r) <= tol.
  Proof.
    intros N S E. destruct (ri_staging r) eqn:St.
    2,3: apply (rating_meets_seer psy sol tol r u N); [congruence|exact E].
    pose proof E as E0. apply rating_inv in E. destruct E as (c & p & _ & P & E).
    rewrite rating_unit_eq in E.
    destruct (single_rated_total _ u (S eq_refl) (rating_args_single r c (Some p) St) E) as (sr & er & E1 & _ & _ & E4).
    { left. cbn. discriminate. }
    exists sr. split; [exact E4|]. cbn [rating_args a_seer] in E1.
    assert (sr = ri_seer r) by congruence. subst sr.
    destruct (N _ _ _ P) as (e & _ & B). pose proof (Rabs_pos e).
    unfold Rminus. rewrite Rplus_opp_r, Rabs_R0. lra.
  Qed.

  Lemma single_reproduces_ratings a u :
    outdoor_states_exist psy ->
    rated_single_stage a -> DXUnit psy sol M a = Ok u ->
    get_kwarg_value "motor_type" (a_kwargs a) <> KMotor MotorBPM \/ heating_flow_within_cooling u ->
    (forall s, a_seer a = Some s -> seer sol M u = Ok s)
    /\ (forall e, a_eer a = Some e -> eer sol M u None = Ok e).
  Proof.
    intros PE A D Hm. destruct (single_rated_total a u PE A D Hm) as (sr & er & E1 & E2 & E3 & E4).
    split.
    - intros s Hs. rewrite E4. congruence.
    - intros e He. rewrite E3. rewrite He in E2. rewrite E1 in E2. unfold default_eer in E2. congruence.
  Qed.
End Total.
