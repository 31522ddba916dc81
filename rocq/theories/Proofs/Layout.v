(** The speed numbers of a constructed RESNET unit. *)
From Coq Require Import Reals QArith Lra Lia List Bool String.
From Verif.Base Require Import Num Res Tac.
From Verif.Model Require Import Units Util Psychrometrics Conditions Defrost Fan Curves Tabular Unit NREL BaseModel
  Title24 Resnet DXUnit Idf Report.
From Verif.Spec Require Import UnitSpec UnitModels TabularSpec NrelSpec RatedSpec ReportSpec.
From Verif.Proofs Require Import Frame UnitProofs SingleFan SingleUnit RatedFan RatedTable ReportProofs RatedValues RatedEer PsychProofs MakeCond UnitProofs4.
Import ListNotations.
Local Open Scope R_scope.

Definition lay (s : side R) := (sd_n s, sd_full s, sd_boost s, sd_int s, sd_low s).
Definition layout (u : dxunit R) := (u_staging u, lay (u_c u), lay (u_h u)).

Ltac keepl := repeat (first [keep_step
  | match goal with |- keeps _ (on_side ?m _) => destruct m end
  | match goal with |- keeps _ (on_fan _) =>
    let u := fresh in intros u; unfold on_fan; destruct (u_fan u); [|reflexivity];
    match goal with |- context [let (_, _) := ?e in _] => destruct e end; reflexivity end
  | match goal with m : mode |- keeps _ _ => destruct m; progress unfold side_put, set_comp, set_entry end];
  cbv zeta beta); try reflexivity.

Section Layout.
  Variable psy : psychro R.
  Variable sol : solvers R.
  Notation U := (dxunit R).
  Notation M := (RESNETDXModel psy sol).

  Lemma lay_placeholders : keeps layout (set_placeholder_arrays (T:=R)).
  Proof. unfold set_placeholder_arrays, both_sides, on_side. keepl. Qed.
  Lemma lay_set_fan input : keeps layout (resnet_set_fan (T:=R) sol input).
  Proof.
    unfold resnet_set_fan, other_speed, add_rated_speed, add_design_speed, given_fan_speed, put_rated_fan_speed,
      put_fan_speed, last_fan_speed, side_put, put_rn. keepl.
  Qed.
  Lemma lay_table_cops m net gross is : keeps layout (put_table_cops (T:=R) m net gross is).
  Proof. unfold put_table_cops, side_put. destruct m; keepl. Qed.
  Lemma lay_gross : keeps layout (setup_gross_table (T:=R)).
  Proof.
    unfold setup_gross_table, put_rn. repeat (first [apply lay_table_cops | keep_step]; cbv zeta beta).
  Qed.
  Lemma lay_lower m : keeps layout (lower_speed (T:=R) sol m).
  Proof.
    unfold lower_speed, side_put, add_design_speed, put_rated_fan_speed, put_fan_speed, last_fan_speed.
    destruct m; keepl.
  Qed.
  Lemma lay_lower_speeds : keeps layout (set_lower_speed_net_capacities (T:=R) sol).
  Proof.
    unfold set_lower_speed_net_capacities. repeat (first [apply lay_lower | keep_step]; cbv zeta beta).
  Qed.
  Lemma lay_net_cop m v : keeps layout (unless_table (nrel_set_net_cop (T:=R) m v)).
  Proof.
    unfold unless_table, nrel_set_net_cop, derive_from_net_cop, set_comp, set_entry, side_put. destruct m; keepl.
  Qed.
  Lemma lay_gross_cop m v : keeps layout (unless_table (nrel_set_gross_cop (T:=R) m v)).
  Proof.
    unfold unless_table, nrel_set_gross_cop, derive_from_gross_cop, set_comp, set_entry, side_put. destruct m; keepl.
  Qed.
  Lemma lay_put_gross m i : keeps layout (put_gross_capacity (T:=R) m i).
  Proof. unfold put_gross_capacity, side_put. destruct m; keepl. Qed.
  Lemma lay_esp : keeps layout (reset_full_esp (T:=R)).
  Proof. unfold reset_full_esp. keepl. Qed.
  Lemma lay_put_cond set m s o : keeps layout (put_cond (T:=R) psy set m s o).
  Proof. unfold put_cond. keepl. Qed.
  Lemma lay_conditions : keeps layout (set_rating_conditions (T:=R) psy).
  Proof.
    unfold set_rating_conditions. repeat (first [apply lay_esp | apply lay_put_cond | keep_step]).
  Qed.
  Lemma lay_sensible : keeps layout (set_sensible_cooling_variables (T:=R) psy sol M).
  Proof.
    unfold set_sensible_cooling_variables, set_sensible_at, calculate_rated_bypass_factor. keepl.
  Qed.

  (** The speed numbers that a staging type stands for. *)
  Definition numbers (st : staging_type) (s : side R) : nat * nat * option nat * nat * option nat :=
    match st with
    | SINGLE_STAGE => (sd_n s, 0%nat, sd_boost s, sd_int s, sd_low s)
    | TWO_STAGE => (sd_n s, 0%nat, sd_boost s, sd_int s, Some 1%nat)
    | VARIABLE_SPEED => (sd_n s, 1%nat, Some 0%nat, 2%nat, Some 3%nat)
    end.
  Lemma lay_ensure build : keeps layout (ensure_table (T:=R) build).
  Proof. unfold ensure_table, put_rn. keepl. Qed.
  Lemma caps_layout qc qh (u u' : U) b :
    capacities_from_table qc qh u = (u', Ok b) ->
    layout u' = (u_staging u, numbers (u_staging u) (u_c u), numbers (u_staging u) (u_h u)).
  Proof.
    intros H. unfold capacities_from_table in H.
    apply sbind_ok in H. destruct H as (s1 & u0 & E & H). unfold sget in E. apply pair_ok_inj in E.
    destruct E as [<- <-].
    apply sbind_ok in H. destruct H as (s1 & [] & E & H).
    match type of H with ?m s1 = _ => assert (K : keeps layout m) by keepl end.
    rewrite (keeps_ok layout _ _ _ _ K H). clear K H.
    assert (B : forall f (s s' : U) b, both_sides f s = (s', Ok b) ->
      layout s' = (u_staging s, lay (f (u_c s)), lay (f (u_h s)))).
    { intros f s s' b' X. destruct (both_nview _ _ _ _ X) as (V & C & Hh). unfold layout. rewrite C, Hh.
      f_equal. f_equal. unfold nview in V. congruence. }
    assert (Z : forall st (s s2 s3 s4 : U) build g f b1 b2 b3, layout s = layout u -> u_staging u = st ->
      ensure_table build s = (s2, Ok b1) -> both_sides f s2 = (s3, Ok b2) ->
      put_rn (wr_map (Some g)) s3 = (s4, Ok b3) ->
      (forall x y, lay x = lay y -> lay (f x) = numbers st y) ->
      layout s4 = (st, numbers st (u_c u), numbers st (u_h u))).
    { intros st s s2 s3 s4 build g f b1 b2 b3 L S X1 X2 X3 F.
      unfold put_rn, smod in X3. apply pair_ok_inj in X3. destruct X3 as [<- _].
      change (layout s3 = (st, numbers st (u_c u), numbers st (u_h u))). rewrite (B _ _ _ _ X2).
      pose proof (keeps_ok layout _ _ _ _ (lay_ensure build) X1) as L2. rewrite L in L2.
      unfold layout in L2. rewrite S in L2.
      assert (C2 : lay (u_c s2) = lay (u_c u)) by congruence. assert (H2 : lay (u_h s2) = lay (u_h u)) by congruence.
      rewrite (F _ _ C2), (F _ _ H2). f_equal. f_equal. congruence. }
    destruct (u_staging u) eqn:St; cbv zeta in E.
    - apply sbind_ok in E. destruct E as (z1 & [] & Z1 & E). apply on_side_inv in Z1.
      apply sbind_ok in E. destruct E as (z2 & q0 & Z2 & E). apply slift_ok in Z2. destruct Z2 as [-> Q0].
      apply sbind_ok in E. destruct E as (z2 & [] & Z2 & E). apply on_side_inv in Z2.
      apply sbind_ok in E. destruct E as (z3 & [] & Z3 & E).
      apply sbind_ok in E. destruct E as (z4 & [] & Z4 & E).
      refine (Z _ z2 z3 z4 s1 _ _ _ _ _ _ _ eq_refl Z3 Z4 E _); [subst; reflexivity|].
      unfold lay, numbers. intros x y X. cbn. congruence.
    - apply sbind_ok in E. destruct E as (z1 & [] & Z1 & E). apply on_side_inv in Z1.
      apply sbind_ok in E. destruct E as (z2 & q0 & Z2 & E). apply slift_ok in Z2. destruct Z2 as [-> Q0].
      apply sbind_ok in E. destruct E as (z2 & [] & Z2 & E). apply on_side_inv in Z2.
      apply sbind_ok in E. destruct E as (z3 & [] & Z3 & E).
      apply sbind_ok in E. destruct E as (z4 & [] & Z4 & E).
      refine (Z _ z2 z3 z4 s1 _ _ _ _ _ _ _ eq_refl Z3 Z4 E _); [subst; reflexivity|].
      unfold lay, numbers. intros x y X. cbn. congruence.
    - apply sbind_ok in E. destruct E as (z1 & q & Z1 & E). apply slift_ok in Z1. destruct Z1 as [-> Q0].
      apply sbind_ok in E. destruct E as (z2 & [] & Z2 & E).
      apply sbind_ok in E. destruct E as (z3 & [] & Z3 & E).
      apply sbind_ok in E. destruct E as (z4 & [] & Z4 & E).
      refine (Z _ z2 z3 z4 s1 _ _ _ _ _ _ _ eq_refl Z3 Z4 E _).
      + match type of Z2 with ?m u = _ => assert (K : keeps layout m) by (unfold put_rn; keepl) end.
        exact (keeps_ok layout _ _ _ _ K Z2).
      + unfold lay, numbers. intros x y X. cbn. congruence.
  Qed.

  Lemma resnet_layout a (u : U) :
    DXUnit psy sol M a = Ok u -> plain_speeds a ->
    forall m, regular_speeds (side_of m u) /\ sd_n (side_of m u) = speeds_of (u_staging u)
      /\ sd_full (side_of m u) = full_speed (u_staging u).
  Proof.
    intros D ((q & Qc) & Qh & Tb & Fc & Fh & Ic & Ih).
    unfold DXUnit in D. apply rbind_ok in D. destruct D as (u0 & I & D).
    unfold ex in D. destruct (finish_unit psy sol M a u0) as [u1 [b|e]] eqn:E; [|discriminate].
    apply Ok_inj in D. subst u1. unfold finish_unit in E.
    apply sbind_ok in E. destruct E as (s1 & x1 & E1 & E).
    apply sbind_ok in E. destruct E as (s2 & x2 & E2 & E).
    assert (K1 : keeps (fun u : U => u_rn u) (set_placeholder_arrays (T:=R)))
      by (unfold set_placeholder_arrays; repeat (keep_step || (cbv zeta beta)); reflexivity).
    pose proof (keeps_ok _ _ _ _ _ K1 E1) as R1. cbv beta in R1.
    pose proof (keeps_ok layout _ _ _ _ lay_placeholders E1) as L1.
    cbn [md_set_net_cop md_set_gross_cop RESNETDXModel] in E.
    match type of E with ?m s2 = _ => assert (K : keeps layout m) end.
    { repeat (first [ apply lay_esp | apply lay_put_gross | apply lay_conditions | apply lay_sensible
        | apply lay_net_cop | apply lay_gross_cop | keep_step
        | match goal with |- keeps _ (opt_set _ ?o) => destruct o; cbn [opt_set] end ]; cbv zeta beta). }
    pose proof (keeps_ok layout _ _ _ _ K E) as L3. clear K E.
    assert (Rn : rn_net (u_rn u0) = None /\ exists st, u_staging u0 = st
      /\ lay (u_c u0) = (speeds_of st, 0, None, 1, if Nat.ltb 1 (speeds_of st) then Some (Nat.pred (speeds_of st)) else None)%nat
      /\ lay (u_h u0) = (speeds_of st, 0, None, 1, if Nat.ltb 1 (speeds_of st) then Some (Nat.pred (speeds_of st)) else None)%nat).
    { unfold init_unit in I. apply rbind_ok in I. destruct I as (rn & Rn & I).
      cbv zeta in I. apply rbind_ok in I. destruct I as (stg & Sg & I). apply Ok_inj in I. subst u0.
      cbn [u_rn u_staging u_c u_h]. split.
      - unfold set_system in Rn. destruct (forallb _ _) in Rn; [|discriminate].
        apply rbind_ok in Rn. destruct Rn as (z & _ & Rn). cbn [md_process RESNETDXModel] in Rn.
        unfold resnet_process_kwargs in Rn.
        apply rbind_ok in Rn. destruct Rn as (tb & Tb' & Rn). rewrite Tb in Tb'. cbn [kw_table] in Tb'.
        apply rbind_ok in Rn. destruct Rn as (x0 & _ & Rn).
        apply rbind_ok in Rn. destruct Rn as (x3 & _ & Rn). apply rbind_ok in Rn. destruct Rn as (x4 & _ & Rn).
        apply rbind_ok in Rn. destruct Rn as (x5 & _ & Rn). apply Ok_inj in Rn. subst rn. cbn [rn_net]. congruence.
      - exists stg. split; [reflexivity|]. unfold lay, init_side. cbn [sd_n sd_full sd_boost sd_int sd_low].
        rewrite Fc, Fh, Ic, Ih, Qc. cbn [Nat.ltb Nat.leb].
        assert (N1 : count_speeds (Some (Scalar q)) (a_staging a) = speeds_of stg
          /\ count_speeds (a_hcap a) (a_staging a) = speeds_of stg).
        { destruct (a_hcap a) as [[x|l]|] eqn:Hh; [|exfalso; exact (Qh l eq_refl)|];
            unfold count_speeds in *; destruct (a_staging a) as [[| |]|]; apply Ok_inj in Sg; subst stg; split; reflexivity. }
        destruct N1 as [-> ->]. split; reflexivity. }
    destruct Rn as (Nn & st & St & Lc & Lh).
    change (resnet_set_net_capacities_and_fan sol (a_ccap a) (a_hcap a) (a_fan a) s1 = (s2, Ok x2)) in E2.
    unfold resnet_set_net_capacities_and_fan in E2.
    apply sbind_ok in E2. destruct E2 as (t1 & y1 & A1 & E2).
    assert (T1 : t1 = s1).
    { unfold adopt_table_staging in A1. apply sbind_ok in A1. destruct A1 as (w & w' & G & A1).
      unfold sget in G. apply pair_ok_inj in G. destruct G as [<- <-]. rewrite R1, Nn in A1.
      unfold sret in A1. apply pair_ok_inj in A1. symmetry. apply A1. }
    subst t1. apply sbind_ok in E2. destruct E2 as (t2 & y2 & A2 & E2).
    assert (L2 : layout t2 = (u_staging s1, numbers (u_staging s1) (u_c s1), numbers (u_staging s1) (u_h s1))).
    { destruct (a_hcap a) as [[x|l]|]; [|exfalso; exact (Qh l eq_refl)|]; exact (caps_layout _ _ _ _ _ A2). }
    apply sbind_ok in E2. destruct E2 as (t3 & y3 & A3 & E2).
    apply sbind_ok in E2. destruct E2 as (t4 & y4 & A4 & E2).
    pose proof (keeps_ok layout _ _ _ _ (lay_set_fan (a_fan a)) A3) as L4.
    pose proof (keeps_ok layout _ _ _ _ lay_gross A4) as L5.
    pose proof (keeps_ok layout _ _ _ _ lay_lower_speeds E2) as L6.
    rewrite L5, L4, L2 in L6. rewrite L6 in L3. clear L6 L5 L4 L2 A1 A2 A3 A4 E2 E1.
    unfold layout in L1, L3. rewrite St, Lc, Lh in L1.
    assert (S1 : u_staging s1 = st) by congruence. assert (C1 : lay (u_c s1) = (speeds_of st, 0, None, 1,
      if Nat.ltb 1 (speeds_of st) then Some (Nat.pred (speeds_of st)) else None)%nat) by congruence.
    assert (H1 : lay (u_h s1) = (speeds_of st, 0, None, 1,
      if Nat.ltb 1 (speeds_of st) then Some (Nat.pred (speeds_of st)) else None)%nat) by congruence.
    rewrite S1 in L3. assert (Su : u_staging u = st) by congruence. rewrite Su.
    assert (G : forall x y : side R, lay x = numbers st y -> lay y = (speeds_of st, 0, None, 1,
      if Nat.ltb 1 (speeds_of st) then Some (Nat.pred (speeds_of st)) else None)%nat ->
      regular_speeds x /\ sd_n x = speeds_of st /\ sd_full x = full_speed st).
    { clear. intros x y X Y. unfold lay, numbers, regular_speeds in *. destruct st; cbn in *; injection X as -> -> -> -> ->;
        injection Y as Y1 Y2 Y3 Y4 Y5; rewrite ?Y1, ?Y3, ?Y4, ?Y5; cbn; repeat split; lia. }
    intros m. destruct m; cbn [side_of]; [apply (G _ (u_c s1))|apply (G _ (u_h s1))]; [congruence|exact C1|congruence|exact H1].
  Qed.

  Lemma resnet_labels a (u : U) f c :
    DXUnit psy sol M a = Ok u -> plain_speeds a -> plot psy sol M u = Ok f ->
    map s_name (under_legend f c) = map (fun x => (x ++ " Speed")%string) (stage_labels (u_staging u)).
  Proof.
    intros D P F. destruct (resnet_layout a u D P (curve_mode c)) as (Rg & N & Fu).
    destruct (plot_labels psy sol M u f c F Rg) as (labels & L & ->). rewrite N, Fu in L.
    destruct (u_staging u); cbn in L; injection L as <-; reflexivity.
  Qed.

  (** The point of the rated speed at the rating temperature is the rated capacity. *)
  Lemma rated_point a (u : U) f q h :
    DXUnit psy sol M a = Ok u -> rated_unit a (u_staging u) q h -> plain_speeds a ->
    (u_staging u = VARIABLE_SPEED -> u_heating_off u < fr_F 5) ->
    rn_motor (u_rn u) = Some MotorPSC -> plot psy sol M u = Ok f ->
    (exists s, In s (under_legend f (CoolingCurve Net false false)) /\ s_name s = "Rated Speed"%string
       /\ In (deg_F 95, q) (combine (s_x s) (s_values s)))
    /\ (exists s, In s (under_legend f (HeatingCurve Net false Capacity)) /\ s_name s = "Rated Speed"%string
       /\ In (deg_F 47, h) (combine (s_x s) (s_values s))).
  Proof.
    intros D (Qc & Nq & Nh & Qh & Fa & Ch & Tab) PS Off Mo PL.
    assert (LM : library_model psy sol M) by (unfold library_model; simpl; tauto).
    assert (Hp : forall p, get_kwarg_value "tabular_data" (a_kwargs a) = KTable p -> interpolators_set p)
      by (intros p X; congruence).
    destruct (net_exists psy sol a u D) as (net & N); [intros l X; rewrite X in Qh; exact Qh|].
    destruct (built psy sol a u net D N Hp) as (_ & _ & _ & _ & _ & (F1 & F2) & B).
    destruct (B Tab) as (u0 & I & TB). clear B.
    destruct (constructed_config psy sol M LM a u D) as (u0' & I' & K).
    assert (u0' = u0) by congruence. subst u0'. unfold config in K.
    assert (K3 : u_heating_off u = u_heating_off u0) by congruence. rewrite K3 in Off. clear K K3.
    destruct (built_ratings _ _ _ _ _ _ _ TB Qc (heating_R _ _ _ _ Qh) Nq Nh Off)
      as (k & C & L1 & L2 & T1 & (e & E1 & T2) & T3 & x & T4 & X1).
    assert (G : forall c, exists s, nth_error (under_legend f c) (full_speed (u_staging u)) = Some s
      /\ drawn psy sol M u c (full_speed (u_staging u)) s /\ s_name s = "Rated Speed"%string).
    { intros c. pose proof (plot_curves psy sol M u f c PL) as P.
      pose proof (resnet_labels a u f c D PS PL) as Lb.
      destruct (resnet_layout a u D PS (curve_mode c)) as (_ & Nn & _). rewrite Nn in P.
      assert (S : nth_error (seq 0 (speeds_of (u_staging u))) (full_speed (u_staging u)) = Some (full_speed (u_staging u)))
        by (destruct (u_staging u); reflexivity).
      assert (Lg : nth_error (map s_name (under_legend f c)) (full_speed (u_staging u)) = Some "Rated Speed"%string)
        by (rewrite Lb; destruct (u_staging u); reflexivity).
      rewrite nth_error_map in Lg. destruct (nth_error (under_legend f c) (full_speed (u_staging u))) as [s|] eqn:Es; [|discriminate].
      exists s. split; [reflexivity|]. split; [exact (Forall2_nth_error _ _ _ _ _ _ P S Es)|]. cbn in Lg. congruence. }
    assert (V : forall c s i t, drawn psy sol M u c (full_speed (u_staging u)) s ->
      nth_error (axis (curve_mode c) u) i = Some t ->
      exists v, plotted psy sol M c u (full_speed (u_staging u)) t v /\ In (t, v) (combine (s_x s) (s_values s))).
    { intros c s i t (Ax & Fv & _) At. rewrite <- Ax in At. clear - Fv At. revert i At.
      induction Fv as [|t' v' ts vs Pv Fv IH]; intros i At; [destruct i; discriminate|]. destruct i; cbn in At.
      - injection At as ->. exists v'. split; [exact Pv|left; reflexivity].
      - destruct (IH _ At) as (v & A & B). exists v. split; [exact A|right; exact B]. }
    assert (Db : forall t p y (o : psych_state R), PsychState psy t p [("rel_hum"%string, y)] = Ok o -> ps_db o = t).
    { intros t p y o O. apply PsychState_reads_back in O. tauto. }
    split.
    - destruct (G (CoolingCurve Net false false)) as (s & Es & Ds & Ns). exists s.
      split; [exact (nth_error_In _ _ Es)|]. split; [exact Ns|].
      destruct (V _ s 2%nat (deg_F 95) Ds eq_refl) as (v & (o & c & O & Mk & Sv) & Iv).
      unfold shown in Sv. cbn [curve_amount curve_mode capacity_of] in Sv, Mk.
      assert (v = q); [|subst v; exact Iv].
      destruct (cop_parts Cooling _ _ _ _ T2) as (q' & p & Q & P & _).
      assert (q' = q) by (cbn [table_capacity] in Q; congruence). subst q'.
      assert (Oa : ps_db (c_outdoor c) = fr_F 95).
      { destruct (make_condition_facts _ _ _ _ _ _ _ Mk) as (_ & _ & _ & Oc). rewrite Oc, fr_F_deg. exact (Db _ _ _ _ O). }
      rewrite <- Oa in Q, P.
      exact (proj1 (rated_values_exact psy sol a u net Cooling _ k _ c q p D Fa Ch N Hp C L1 (or_introl Mo) Mk Q P) v Sv).
    - destruct (G (HeatingCurve Net false Capacity)) as (s & Es & Ds & Ns). exists s.
      split; [exact (nth_error_In _ _ Es)|]. split; [exact Ns|].
      destruct (V _ s 4%nat (deg_F 47) Ds eq_refl) as (v & (o & c & O & Mk & Sv) & Iv).
      unfold shown in Sv. cbn [curve_amount curve_mode capacity_of] in Sv, Mk.
      assert (v = h); [|subst v; exact Iv].
      destruct (cop_parts Heating _ _ _ _ T4) as (q' & p & Q & P & _).
      assert (q' = h) by (cbn [table_capacity] in Q; congruence). subst q'.
      assert (Oa : ps_db (c_outdoor c) = fr_F 47).
      { destruct (make_condition_facts _ _ _ _ _ _ _ Mk) as (_ & _ & _ & Oc). rewrite Oc, fr_F_deg. exact (Db _ _ _ _ O). }
      rewrite <- Oa in Q, P.
      exact (proj1 (rated_values_exact psy sol a u net Heating _ k _ c h p D Fa Ch N Hp C L2 (or_introl Mo) Mk Q P) v Sv).
  Qed.
End Layout.
