(** C83: arguments no unit can be built from. *)
From Coq Require Import Reals QArith Lra Lia List Bool String.
From Verif.Base Require Import Num Res Tac.
From Verif.Model Require Import Units Util Psychrometrics Conditions Defrost Fan Curves Tabular Unit NREL BaseModel
  Title24 Resnet DXUnit.
From Verif.Spec Require Import UnitSpec UnitModels TestSpec SettingsSpec BuildSpec.
From Verif.Proofs Require Import Frame UnitProofs UnitProofs2 UnitProofs4 UnitsR RatedFan RatedTable Layout DefaultFan2
  TestProofs SettingsProofs TabInterp SingleFan.
Import ListNotations.
Local Open Scope R_scope.

Lemma rmapM_in {A B} (f : A -> res B) l l' x : rmapM f l = Ok l' -> In x l -> exists y, f x = Ok y.
Proof.
  intros H I. apply rmapM_ok in H. induction H as [|a b l l' F _ IH]; [destruct I|].
  destruct I as [<-|I]; [eauto|exact (IH I)].
Qed.

Section Unbuildable.
  Variable psy : psychro R.
  Variable sol : solvers R.
  Notation U := (dxunit R).

  Lemma finish_steps M a (u : U) : DXUnit psy sol M a = Ok u ->
    exists u0 u1 u2 u3 u4, init_unit M a = Ok u0 /\ set_placeholder_arrays u0 = (u1, Ok tt)
      /\ md_set_net_capacities_and_fan M (a_ccap a) (a_hcap a) (a_fan a) u1 = (u2, Ok tt)
      /\ reset_full_esp u2 = (u3, Ok tt)
      /\ sfold (put_gross_capacity Cooling) (seq 0 (sd_n (u_c u3))) u3 = (u4, Ok tt)
      /\ (a_net_ccop a <> None \/ a_gross_ccop a <> None)
      /\ (a_net_hcop a <> None \/ a_gross_hcop a <> None).
  Proof.
    intros H. unfold DXUnit in H. apply rbind_ok in H. destruct H as (u0 & H0 & H).
    unfold ex in H. destruct (finish_unit psy sol M a u0) as [u' [[]|e]] eqn:E; [|discriminate].
    clear H. unfold finish_unit in E.
    apply sbind_ok in E. destruct E as (s1 & [] & E1 & E).
    apply sbind_ok in E. destruct E as (s2 & [] & E2 & E).
    apply sbind_ok in E. destruct E as (s3 & [] & E3 & E).
    apply sbind_ok in E. destruct E as (s4 & x & E4 & E).
    unfold sget in E4. apply pair_ok_inj in E4. destruct E4 as [<- <-].
    apply sbind_ok in E. destruct E as (s5 & [] & E5 & E).
    apply sbind_ok in E. destruct E as (s6 & [] & E6 & E).
    apply sbind_ok in E. destruct E as (s7 & cr & E7 & E).
    apply sbind_ok in E. destruct E as (s8 & [] & E8 & E).
    apply sbind_ok in E. destruct E as (s9 & [] & E9 & E).
    apply sbind_ok in E. destruct E as (s10 & [] & E10 & E).
    apply sbind_ok in E. destruct E as (s11 & [] & E11 & E).
    apply sbind_ok in E. destruct E as (s12 & [] & E12 & E).
    apply slift_ok in E11. destruct E11 as [_ E11]. apply guard_ok in E11.
    apply slift_ok in E12. destruct E12 as [_ E12]. apply guard_ok in E12.
    exists u0, s1, s2, s3, s5. repeat (split; [assumption|]). split.
    - destruct (a_net_ccop a); [left; discriminate|]. destruct (a_gross_ccop a); [right|]; discriminate.
    - destruct (a_net_hcop a); [left; discriminate|]. destruct (a_gross_hcop a); [right|]; discriminate.
  Qed.

  Lemma first_power n (u u' : U) : (0 < n)%nat ->
    sfold (put_gross_capacity Cooling) (seq 0 n) u = (u', Ok tt) ->
    exists w, nth_error (sd_fan_power (u_c u)) 0 = Some (Some w).
  Proof.
    intros N H. destruct n as [|n]; [lia|]. cbn [seq sfold] in H.
    apply sbind_ok in H. destruct H as (v & [] & H & _). unfold put_gross_capacity in H.
    apply sbind_ok in H. destruct H as (v1 & x & E & H). unfold sget in E.
    apply pair_ok_inj in E. destruct E as [<- <-].
    apply sbind_ok in H. destruct H as (v2 & q & E & H). apply slift_ok in E. destruct E as [-> _].
    apply sbind_ok in H. destruct H as (v3 & w & E & H). apply slift_ok in E. destruct E as [_ E].
    exists w. unfold arr in E. apply rbind_ok in E. destruct E as (o & E & O). apply geti_ok in E.
    apply need_ok in O. cbn [side_of] in E. rewrite E, O. reflexivity.
  Qed.

  Lemma no_cop M a (u : U) : DXUnit psy sol M a = Ok u ->
    (a_net_ccop a <> None \/ a_gross_ccop a <> None)
    /\ (a_net_hcop a <> None \/ a_gross_hcop a <> None).
  Proof.
    intros H. destruct (finish_steps M a u H) as (u0 & u1 & u2 & u3 & u4 & _ & _ & _ & _ & _ & C & D).
    split; assumption.
  Qed.

  Definition pow (u : U) := (sd_fan_power (u_c u), sd_n (u_c u)).

  Lemma nrel_set_fan_none (u u' : U) : nrel_set_fan None u <> (u', Ok tt).
  Proof.
    intros H. unfold nrel_set_fan in H.
    repeat (apply sbind_ok in H; let v := fresh in let x := fresh in let E := fresh in
            destruct H as (v & x & E & H)).
    apply slift_ok in H. destruct H as [_ H]. discriminate.
  Qed.

  Lemma nrel_rejected a (u : U) : DXUnit psy sol (NRELDXModel psy sol) a <> Ok u.
  Proof.
    intros H. destruct (finish_steps _ a u H) as (u0 & u1 & u2 & u3 & u4 & I & P & S & E & F & _).
    cbn [md_set_net_capacities_and_fan NRELDXModel] in S. unfold nrel_set_net_capacities_and_fan in S.
    apply sbind_ok in S. destruct S as (v1 & [] & S1 & S).
    apply sbind_ok in S. destruct S as (v2 & [] & S2 & S).
    apply sbind_ok in S. destruct S as (v3 & [] & S3 & S).
    destruct (a_fan a) as [f|]; [|exact (nrel_set_fan_none _ _ S)].
    unfold nrel_set_rated_fan_characteristics, sret in S1. apply pair_ok_inj in S1. destruct S1 as [<- _].
    assert (K2 : pow v2 = pow u1).
    { refine (keeps_ok pow _ _ _ _ _ S2). unfold nrel_set_rated_net_total_cooling_capacity. keepl. }
    assert (K3 : pow v3 = pow v2).
    { refine (keeps_ok pow _ _ _ _ _ S3). unfold nrel_set_rated_net_heating_capacity. keepl. }
    assert (K4 : pow u2 = pow v3).
    { refine (keeps_ok pow _ _ _ _ _ S). unfold nrel_set_fan. keepl. }
    assert (K5 : pow u3 = pow u2).
    { refine (keeps_ok pow _ _ _ _ _ E). unfold reset_full_esp. keepl. }
    unfold pow in *.
    assert (N3 : sd_n (u_c u3) = sd_n (u_c u1)) by congruence.
    assert (P3 : sd_fan_power (u_c u3) = sd_fan_power (u_c u1)) by congruence.
    assert (N1 : sd_n (u_c u1) = sd_n (u_c u0) /\ sd_fan_power (u_c u1) = repeat None (sd_n (u_c u1))).
    { unfold set_placeholder_arrays, smod in P. apply pair_ok_inj in P. destruct P as [<- _].
      split; reflexivity. }
    destruct (init_settings _ a u0 I) as (_ & _ & _ & _ & _ & _ & _ & _ & _ & _ & _ & _ & _ & (N & _) & _).
    destruct (Nat.eq_dec (sd_n (u_c u0)) 0) as [Z|Z].
    - rewrite N in Z. unfold speeds_asked in Z.
      destruct (a_ccap a) as [x|l]; [destruct (a_staging a) as [[]|]; discriminate|].
      apply length_zero_iff_nil in Z. subst l.
      unfold nrel_set_rated_net_total_cooling_capacity, on_side, smod in S2.
      apply pair_ok_inj in S2. destruct S2 as [<- _].
      unfold nrel_set_rated_net_heating_capacity in S3.
      apply sbind_ok in S3. destruct S3 as (w & y & S4 & S3). unfold sget in S4.
      apply pair_ok_inj in S4. destruct S4 as [<- <-].
      apply sbind_ok in S3. destruct S3 as (w & y & S4 & S3). apply slift_ok in S4. destruct S4 as [_ S4].
      apply geti_ok in S4. discriminate.
    - destruct N1 as [N0 N1]. destruct (first_power (sd_n (u_c u3)) u3 u4 ltac:(lia) F) as (w & W).
      rewrite P3 in W. rewrite N1 in W. apply nth_error_In, repeat_spec in W.
      discriminate.
  Qed.

  (** ** Speeds *)
  Lemma test_speed_exists M a (u : U) t : library_model psy sol M -> DXUnit psy sol M a = Ok u ->
    In t (tests u) ->
    exists i, test_speed t u = Some i /\ (i < sd_n (side_of (test_mode t) u))%nat.
  Proof.
    intros LM D T.
    destruct (constructed_conditions psy sol M a u t LM D T) as (c & _ & i & q & _ & _ & _ & _
      & TS & _ & _ & _ & Q & _).
    exists i. split; [exact TS|].
    destruct (capacities_complete_and_ordered psy sol M a u (test_mode t) 0 0 0 0 D) as [L _].
    rewrite <- L. apply nth_error_Some. congruence.
  Qed.

  Lemma speeds_exist M a (u : U) : library_model psy sol M -> DXUnit psy sol M a = Ok u ->
    forall m, (sd_full (side_of m u) < sd_n (side_of m u))%nat
      /\ (u_staging u <> SINGLE_STAGE ->
          exists l, sd_low (side_of m u) = Some l /\ (l < sd_n (side_of m u))%nat)
      /\ (u_staging u = VARIABLE_SPEED -> (sd_int (side_of m u) < sd_n (side_of m u))%nat).
  Proof.
    intros LM D m. pose proof (test_speed_exists M a u) as K. split; [|split].
    - destruct m; [destruct (K A_full LM D) as (i & E & I)|destruct (K H1_full LM D) as (i & E & I)];
        try (unfold tests; simpl; tauto); cbn in E, I |- *; congruence.
    - intros N. destruct m; [destruct (K A_low LM D) as (i & E & I)|destruct (K H1_low LM D) as (i & E & I)];
        try (exists i; split; [exact E|exact I]);
        unfold tests; destruct (u_staging u); try congruence; rewrite !in_app_iff; right; right; right;
        simpl; tauto.
    - intros N. destruct m; [destruct (K A_int LM D) as (i & E & I)|destruct (K H2_int LM D) as (i & E & I)];
        try (unfold tests; rewrite N; simpl; tauto); cbn in E, I |- *; congruence.
  Qed.

  (** Title 24 units have one speed. *)
  Lemma t24_one_speed a (u : U) : DXUnit psy sol (Title24DXModel sol) a = Ok u ->
    sd_n (u_c u) = 1%nat /\ sd_n (u_h u) = 1%nat.
  Proof.
    intros D. destruct (a_fan a) as [f|] eqn:F.
    - exfalso. refine (given_fan_rejected psy sol _ a f _ F u D). unfold plain_model. simpl. tauto.
    - destruct (t24_default_fan psy sol a u F D) as (q & N & N' & _). split; assumption.
  Qed.

  (** ** RESNET *)
  Lemma init_table a (u0 : U) : init_unit (RESNETDXModel psy sol) a = Ok u0 ->
    rn_map (u_rn u0) = None /\
      match get_kwarg_value "tabular_data" (a_kwargs a) with
      | KTable p => rn_net (u_rn u0) = Some p
      | KNone => rn_net (u_rn u0) = None
      | _ => False
      end.
  Proof.
    intros I. unfold init_unit in I. apply rbind_ok in I. destruct I as (rn & Rn & I).
    cbv zeta in I. apply rbind_ok in I. destruct I as (stg & _ & I). apply Ok_inj in I. subst u0.
    cbn [u_rn]. unfold set_system in Rn. destruct (forallb _ _) in Rn; [|discriminate].
    apply rbind_ok in Rn. destruct Rn as (z & _ & Rn). cbn [md_process RESNETDXModel] in Rn.
    unfold resnet_process_kwargs in Rn.
    apply rbind_ok in Rn. destruct Rn as (tb & Tb & Rn).
    apply rbind_ok in Rn. destruct Rn as (x0 & _ & Rn).
    apply rbind_ok in Rn. destruct Rn as (x1 & _ & Rn). apply rbind_ok in Rn. destruct Rn as (x2 & _ & Rn).
    apply rbind_ok in Rn. destruct Rn as (x3 & _ & Rn). apply Ok_inj in Rn. subst rn.
    cbn [rn_map rn_net]. split; [reflexivity|].
    destruct (get_kwarg_value "tabular_data" (a_kwargs a)); cbn [kw_table] in Tb; congruence.
  Qed.

  Lemma inverse_bound st k i : inverse_speed (T:=R) (speed_map st) k = Ok i ->
    (k <= match st with SINGLE_STAGE => 1 | TWO_STAGE => 2 | VARIABLE_SPEED => 3 end)%nat.
  Proof.
    intros H. unfold inverse_speed in H. apply need_ok in H. apply find_some in H. destruct H as [_ H].
    destruct (nth_error (speed_map st) i) as [s|] eqn:S; [|discriminate].
    change (Reqb s (nZ (Z.of_nat k)) = true) in H.
    apply nth_error_In in S.
    assert (B : s <= INR (match st with SINGLE_STAGE => 1 | TWO_STAGE => 2 | VARIABLE_SPEED => 3 end)%nat).
    { destruct st; cbn [speed_map In] in S;
        repeat (destruct S as [S|S]; [rewrite <- S; unfold lit; rnum; simpl; lra|]); destruct S. }
    apply Reqb_true in H. rewrite TabInterp.nZ_INR in H.
    apply INR_le. rewrite <- H. exact B.
  Qed.

  Lemma powers_bound m n (u : U) st l : rn_map (u_rn u) = Some (speed_map st) ->
    table_fan_powers m n u = Ok l ->
    (n <= match st with SINGLE_STAGE => 1 | TWO_STAGE => 2 | VARIABLE_SPEED => 3 end)%nat.
  Proof.
    intros Mp H. destruct n as [|n]; [lia|]. unfold table_fan_powers in H.
    destruct (rmapM_in _ _ _ (S n) H) as (w & W); [apply in_seq; lia|].
    rewrite Mp in W. cbn [need rbind] in W. apply rbind_ok in W. destruct W as (i & W & _).
    exact (inverse_bound st _ _ W).
  Qed.

  Lemma adopt_staging (u u' : U) p : rn_net (u_rn u) = Some p ->
    adopt_table_staging u = (u', Ok tt) -> staging_of (p_nc p) = Ok (u_staging u').
  Proof.
    intros N E. unfold adopt_table_staging in E. apply sbind_ok in E. destruct E as (s & x & E1 & E).
    unfold sget in E1. apply pair_ok_inj in E1. destruct E1 as [<- <-]. rewrite N in E.
    apply sbind_ok in E. destruct E as (s & st0 & E1 & E). apply slift_ok in E1. destruct E1 as [-> E1].
    apply sbind_ok in E. destruct E as (s & [] & E2 & E). unfold smod in E2. apply pair_ok_inj in E2.
    destruct E2 as [E2 _].
    apply sbind_ok in E. destruct E as (s2 & [] & E3 & E).
    unfold both_sides in E3. apply sbind_ok in E3. destruct E3 as (s3 & [] & E4 & E3).
    apply on_side_inv in E3. apply on_side_inv in E4.
    unfold set_placeholder_arrays, smod in E. apply pair_ok_inj in E. destruct E as [<- _].
    subst s2 s3 s. exact E1.
  Qed.

  Lemma variable_number qc qh (u u' : U) b : capacities_from_table (T:=R) qc qh u = (u', Ok b) ->
    u_staging u = VARIABLE_SPEED -> exists x, qc = Scalar x.
  Proof.
    intros E V. unfold capacities_from_table in E. apply sbind_ok in E. destruct E as (s & x & E1 & E).
    unfold sget in E1. apply pair_ok_inj in E1. destruct E1 as [<- <-]. rewrite V in E.
    apply sbind_ok in E. destruct E as (s & [] & E1 & _).
    apply sbind_ok in E1. destruct E1 as (s' & q & E1 & _). apply slift_ok in E1. destruct E1 as [_ E1].
    destruct qc as [y|l]; [eauto|discriminate].
  Qed.

  Lemma resnet_tables a (u : U) p :
    get_kwarg_value "tabular_data" (a_kwargs a) = KTable p ->
    DXUnit psy sol (RESNETDXModel psy sol) a = Ok u ->
    (1 <= p_nc p <= 3)%nat /\ (p_nh p <= p_nc p)%nat
    /\ (forall l, a_hcap a <> Some (Many l)) /\ (p_nc p = 3%nat -> exists x, a_ccap a = Scalar x).
  Proof.
    intros K D. destruct (finish_steps _ a u D) as (u0 & u1 & u2 & u3 & u4 & I & P & H & _).
    destruct (init_table a u0 I) as [Mp Np]. rewrite K in Np.
    assert (K1 : u_rn u1 = u_rn u0).
    { unfold set_placeholder_arrays, smod in P. apply pair_ok_inj in P. destruct P as [<- _]. reflexivity. }
    cbn [md_set_net_capacities_and_fan RESNETDXModel] in H.
    unfold resnet_set_net_capacities_and_fan in H.
    apply sbind_ok in H. destruct H as (s1 & [] & E1 & H).
    apply sbind_ok in H. destruct H as (s2 & [] & E2 & H).
    apply sbind_ok in H. destruct H as (s3 & [] & E3 & H).
    apply sbind_ok in H. destruct H as (s4 & [] & E4 & H).
    destruct (adopt_inv _ _ _ E1) as (R1 & _ & P1). rewrite K1 in P1. specialize (P1 p Np).
    rewrite <- K1 in Np. pose proof (adopt_staging _ _ _ Np E1) as St.
    pose proof (keeps_ok nview _ _ _ _ (nview_set_fan sol (a_fan a)) E3) as V3. unfold nview in V3.
    assert (Rn1 : rn_net (u_rn s1) = Some p) by congruence.
    assert (Mp1 : rn_map (u_rn s1) = None) by congruence.
    assert (V4 : rn_net (u_rn s3) = rn_net (u_rn s2)) by congruence.
    assert (V5 : rn_map (u_rn s3) = rn_map (u_rn s2)) by congruence.
    assert (NL : forall l, a_hcap a <> Some (Many l)).
    { intros l HL. rewrite HL in E2. apply sbind_ok in E2. destruct E2 as (z & [] & Z & E2).
      destruct (a_ccap a) as [x|lc]; [discriminate|].
      apply on_side_inv in Z. apply on_side_inv in E2. subst s2 z.
      assert (N3 : rn_net (u_rn s3) = Some p) by (rewrite V4, <- Rn1; reflexivity).
      assert (M3 : rn_map (u_rn s3) = None) by (rewrite V5, <- Mp1; reflexivity).
      unfold setup_gross_table in E4. apply sbind_ok in E4. destruct E4 as (z & y & E5 & E4).
      unfold sget in E5. apply pair_ok_inj in E5. destruct E5 as [<- <-]. rewrite N3 in E4.
      apply sbind_ok in E4. destruct E4 as (z & y & E5 & E4). apply slift_ok in E5. destruct E5 as [_ E5].
      destruct (rmapM_in _ _ _ 1%nat E5) as (w & W); [apply in_seq; lia|]. rewrite M3 in W. discriminate. }
    assert (C : exists qh, capacities_from_table (a_ccap a) qh s1 = (s2, Ok tt)).
    { destruct (a_hcap a) as [[x|l]|]; [|exfalso; exact (NL l eq_refl)|]; eexists; exact E2. }
    destruct C as (qh & C). destruct (caps_tabled _ _ _ _ _ C) as (S2 & net & (T1 & T2 & _ & _ & T3) & _).
    assert (net = p) by (destruct T3 as [T3|[T3 _]]; congruence). subst net.
    assert (N3 : rn_net (u_rn s3) = Some p) by congruence.
    assert (M3 : rn_map (u_rn s3) = Some (speed_map (u_staging s1))) by congruence.
    unfold setup_gross_table in E4. apply sbind_ok in E4. destruct E4 as (z & y & E5 & E4).
    unfold sget in E5. apply pair_ok_inj in E5. destruct E5 as [<- <-]. rewrite N3 in E4.
    apply sbind_ok in E4. destruct E4 as (z & fc & E5 & E4). apply slift_ok in E5. destruct E5 as [-> E5].
    apply sbind_ok in E4. destruct E4 as (z & fh & E6 & E4). apply slift_ok in E6. destruct E6 as [_ E6].
    pose proof (powers_bound _ _ _ _ _ M3 E5) as B1. pose proof (powers_bound _ _ _ _ _ M3 E6) as B2.
    pose proof (variable_number _ _ _ _ _ C) as VN.
    unfold staging_of in St. destruct (p_nc p) as [|[|[|n]]]; [discriminate| | |];
      apply Ok_inj in St; rewrite <- St in B1, B2, VN; (split; [lia|]; split; [lia|]; split; [exact NL|]);
      intros Q; try discriminate. exact (VN eq_refl).
  Qed.

  Lemma resnet_lists a (u : U) :
    (forall p, get_kwarg_value "tabular_data" (a_kwargs a) <> KTable p) ->
    DXUnit psy sol (RESNETDXModel psy sol) a = Ok u ->
    is_list (a_ccap a) = match a_hcap a with Some q => is_list q | None => false end.
  Proof.
    intros K D. 
    assert (CL : (exists l, a_hcap a = Some (Many l)) \/ forall l, a_hcap a <> Some (Many l)).
    { destruct (a_hcap a) as [[x|l]|]; [right; congruence|left; eauto|right; congruence]. }
    destruct CL as [[l L]|NL].
    - rewrite L. destruct (finish_steps _ a u D) as (u0 & u1 & u2 & u3 & u4 & I & P & H & _).
      cbn [md_set_net_capacities_and_fan RESNETDXModel] in H.
      unfold resnet_set_net_capacities_and_fan in H.
      apply sbind_ok in H. destruct H as (s1 & [] & E1 & H).
      apply sbind_ok in H. destruct H as (s2 & [] & E2 & H). rewrite L in E2.
      apply sbind_ok in E2. destruct E2 as (z & [] & Z & E2).
      destruct (a_ccap a) as [x|lc]; [discriminate|]. reflexivity.
    - destruct (net_exists psy sol a u D NL) as (net & N).
      assert (KN : get_kwarg_value "tabular_data" (a_kwargs a) = KNone).
      { destruct (finish_steps _ a u D) as (u0 & u1 & u2 & u3 & u4 & I & _).
        destruct (init_table a u0 I) as [_ Np].
        destruct (get_kwarg_value "tabular_data" (a_kwargs a)) as [| | |p| |]; try destruct Np; [reflexivity|].
        exfalso. exact (K p eq_refl). }
      destruct (RatedTable.built psy sol a u net D N) as (_ & _ & _ & _ & _ & _ & B).
      { intros p Q. exfalso. exact (K p Q). }
      destruct (B KN) as (u0 & _ & u1 & q & _ & Q & _). rewrite Q.
      destruct (a_hcap a) as [[x|l]|]; [reflexivity| |reflexivity]. exfalso. exact (NL l eq_refl).
  Qed.
End Unbuildable.
