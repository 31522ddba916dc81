(** C25, C72: the net values of a RESNET unit at its rated conditions. *)
From Coq Require Import Reals QArith Lra Lia List Bool String ZArith.
From Verif.Base Require Import Num Res Tac.
From Verif.Model Require Import Units Util Psychrometrics Conditions Defrost Fan Curves Tabular Unit NREL BaseModel
  Title24 Resnet DXUnit.
From Verif.Spec Require Import TabularSpec NrelSpec ModelSpec UnitModels RatedSpec.
From Verif.Proofs Require Import UtilProofs UnitsR FanProofs MakeCond Frame UnitProofs NrelProofs ResnetProofs
  SingleFan SingleUnit TabGross TabMisc TabBuild SeerProofs RatingProofs SingleRating RatedFan RatedTable.
Import ListNotations.
Local Open Scope R_scope.

Lemma column_map st i k : In (i, k) (table_columns st) ->
  nth_error (speed_map st) i = Some (INR k) /\ inverse_speed (speed_map st) k = Ok i /\ (0 < k)%nat.
Proof.
  assert (L1 : lit (T:=R) 1 = 1) by (rnum; lra). assert (L2 : lit (T:=R) 2 = 2) by (rnum; lra).
  assert (L3 : lit (T:=R) 3 = 3) by (rnum; lra). assert (L15 : lit (T:=R) 1.5 = 1.5) by (rnum; lra).
  assert (Z1 : nZ (T:=R) 1 = 1) by (rnum; lra). assert (Z2 : nZ (T:=R) 2 = 2) by (rnum; lra).
  assert (Z3 : nZ (T:=R) 3 = 3) by (rnum; lra).
  unfold inverse_speed. intros H.
  destruct st; cbn [table_columns In] in H; cbn [speed_map nth_error List.length seq List.find];
    rewrite ?L1, ?L2, ?L3, ?L15;
    repeat (destruct H as [H|H]; [injection H as <- <-|]); try contradiction;
    (split; [cbn [nth_error INR]; f_equal; lra|]; split; [|lia]);
    cbn [neqb RNum Z.of_nat Pos.of_succ_nat Pos.succ]; rewrite ?Z1, ?Z2, ?Z3;
    repeat match goal with |- context [Reqb ?a ?b] => destruct (Reqb_spec a b) as [?Q|?Q]; [try (exfalso; lra)|try (exfalso; apply Q; lra)] end;
    reflexivity.
Qed.

Section Values.
  Variable psy : psychro R.
  Variable sol : solvers R.
  Notation U := (dxunit R).
  Notation M := (RESNETDXModel psy sol).

  Lemma powers_nth m n (u : U) st l i k w :
    rn_map (u_rn u) = Some (speed_map st) -> In (i, k) (table_columns st) -> (k <= n)%nat ->
    table_fan_powers m n u = Ok l -> entry (sd_fan_power (side_of m u)) i w ->
    nth_error l (Nat.pred k) = Some w.
  Proof.
    intros Mp C L H W. destruct (column_map _ _ _ C) as (_ & Inv & Pk).
    unfold table_fan_powers in H. pose proof (rmapM_length _ _ _ H) as Len. rewrite seq_length in Len.
    apply rmapM_ok in H.
    destruct (nth_error l (Nat.pred k)) as [v|] eqn:E; [|apply nth_error_None in E; lia].
    assert (Es : nth_error (seq 1 n) (Nat.pred k) = Some k).
    { rewrite nth_error_nth' with (d := 0%nat) by (rewrite seq_length; lia). rewrite seq_nth by lia. f_equal. lia. }
    pose proof (Forall2_nth_error _ _ _ _ _ _ H Es E) as Q. cbv beta in Q.
    rewrite Mp in Q. cbn [need rbind] in Q. rewrite Inv in Q. cbn [rbind] in Q.
    apply arr_ok in Q. unfold entry in W. congruence.
  Qed.

  (** C25 for units. *)
  Theorem unit_gross_table a (u : U) net :
    DXUnit psy sol M a = Ok u -> rn_net (u_rn u) = Some net ->
    (forall p, get_kwarg_value "tabular_data" (a_kwargs a) = KTable p -> interpolators_set p) ->
    (forall p, get_kwarg_value "tabular_data" (a_kwargs a) = KTable p -> net = p)
    /\ exists gross fc fh, rn_gross (u_rn u) = Some gross
       /\ (forall m i k w, In (i, k) (table_columns (u_staging u)) -> (k <= table_speeds m net)%nat ->
             entry (sd_fan_power (side_of m u)) i w ->
             match m with Cooling => fc | Heating => fh end (INR k) = w)
       /\ forall s x v,
          (cooling_capacity net s x = Ok v -> cooling_capacity gross s x = Ok (v + fc s)) /\
          (cooling_power net s x = Ok v -> cooling_power gross s x = Ok (v - fc s)) /\
          (heating_capacity net s x = Ok v -> heating_capacity gross s x = Ok (v - fh s)) /\
          (heating_power net s x = Ok v -> heating_power gross s x = Ok (v - fh s)).
  Proof.
    intros D N Hp. destruct (built psy sol a u net D N Hp) as (Same & (U1 & U2 & U3 & U4) & Mp & Gr & _ & _).
    split; [exact Same|]. destruct Gr as (gross & fc & fh & G1 & Fc & Fh & G).
    exists gross, (fan_at fc), (fan_at fh). split; [exact G1|]. split.
    - intros m i k w C L W. destruct (column_map _ _ _ C) as (_ & _ & Pk).
      replace (INR k) with (INR (S (Nat.pred k))) by (f_equal; lia).
      destruct m; cbn [table_speeds] in L.
      + exact (proj1 (fan_at_linear fc) _ _ (powers_nth Cooling _ _ _ _ _ _ _ Mp C L Fc W)).
      + exact (proj1 (fan_at_linear fh) _ _ (powers_nth Heating _ _ _ _ _ _ _ Mp C L Fh W)).
    - destruct (make_gross_shift fc fh (fan_at fc) (fan_at fh) net U1 U2 U3 U4 (fan_at_linear fc) (fan_at_linear fh))
        as [(_ & p' & E & S)|(_ & p' & E)].
      + assert (p' = gross) by congruence. subst p'. exact S.
      + congruence.
  Qed.

  Lemma table_value_is look (u : U) c st i k gross x y :
    rn_gross (u_rn u) = Some gross -> rn_map (u_rn u) = Some (speed_map st) ->
    In (i, k) (table_columns st) -> c_speed c = i ->
    table_value look u c x -> look gross (INR k) (ps_db (c_outdoor c)) = Ok y -> x = y.
  Proof.
    intros G Mp C Sp (g & mp & s & A1 & A2 & A3 & A4) B. destruct (column_map _ _ _ C) as (E & _ & _).
    rewrite G in A1. injection A1 as <-. rewrite Mp in A2. assert (mp = speed_map st) by congruence. subst mp.
    rewrite Sp, E in A3. assert (s = INR k) by congruence. subst s. congruence.
  Qed.

  Lemma heating_indoor : ps_db (default_indoor (T:=R) Heating) = fr_F 70.
  Proof. cbn [default_indoor psych_wetbulb put_wb ps_db blank]. f_equal. rnum. lra. Qed.
  Lemma cooling_indoor : ps_wb (default_indoor (T:=R) Cooling) = Some (fr_F 67).
  Proof. cbn [default_indoor psych_wetbulb put_wb ps_wb blank]. rewrite <- lit67. reflexivity. Qed.

  (** C72 *)
  Lemma rated_values_each a (u : U) net m i k o c w0 w :
    DXUnit psy sol M a = Ok u -> a_charge a = 0 -> rn_net (u_rn u) = Some net ->
    (forall p, get_kwarg_value "tabular_data" (a_kwargs a) = KTable p -> interpolators_set p) ->
    In (i, k) (table_columns (u_staging u)) -> (k <= table_speeds m net)%nat ->
    make_condition psy m u i None o = Ok c ->
    entry (sd_fan_power (side_of m u)) i w0 -> fan_power sol u c = Ok w ->
    (forall q v, table_capacity m net (INR k) (ps_db (c_outdoor c)) = Ok q ->
       net_capacity sol M m u (Some c) = Ok v -> v = q + fan_heat m (w - w0))
    /\ (forall p v, table_power m net (INR k) (ps_db (c_outdoor c)) = Ok p ->
       net_power sol M m u (Some c) = Ok v -> v = p + (w - w0)).
  Proof.
    intros D Ch N Hp C L Mk W FW.
    destruct (unit_gross_table a u net D N Hp) as (_ & gross & fc & fh & G & Fw & Sh).
    destruct (built psy sol a u net D N Hp) as (_ & _ & Mp & _ & _ & _).
    specialize (Fw m i k w0 C L W).
    assert (Chu : u_charge u = 0).
    { assert (LM : library_model psy sol M) by (unfold library_model; simpl; tauto).
      destruct (constructed_config psy sol M LM a u D) as (u0 & I & K).
      unfold config in K. assert (E : u_charge u = u_charge u0) by congruence. rewrite E, <- Ch.
      unfold init_unit in I. apply rbind_ok in I. destruct I as (rn & _ & I). cbv zeta in I.
      apply rbind_ok in I. destruct I as (stg & _ & I). apply Ok_inj in I. subst u0. reflexivity. }
    destruct (make_condition_facts _ _ _ _ _ _ _ Mk) as (Sp & R1 & Ci & _).
    assert (UT : uses_table u) by (unfold uses_table; rewrite N; discriminate).
    pose proof (rn_rated psy u c) as RR.
    destruct m; cbn [table_capacity table_power net_capacity net_power fan_heat] in *.
    - assert (WB : ps_wb (c_indoor c) = Some (fr_F 67)) by (rewrite Ci; exact cooling_indoor).
      split; [intros q v Q H|intros p v P H]; unfold net_total_cooling_capacity, net_cooling_power, both in H;
        apply rbind_ok in H; destruct H as (x & X & H); apply rbind_ok in H; destruct H as (y & Y & H);
        unfold cooling_fan_power in Y; cbn [cooling_conditions rbind] in Y; rewrite FW in Y; apply Ok_inj in Y; subst y;
        apply Ok_inj in H; cbn [nadd nsub RNum] in H;
        [unfold gross_total_cooling_capacity in X|unfold gross_cooling_power in X]; cbn [cooling_conditions rbind] in X;
        unfold checked_product in X; cbn [md_gtc md_gcp md_f_gtc md_f_gcp RESNETDXModel] in X;
        apply rbind_ok in X; destruct X as (g0 & X0 & X); apply rbind_ok in X; destruct X as (fx & Fx & X);
        [unfold resnet_f_gtc in Fx|unfold resnet_f_gcp in Fx]; rewrite grading_zero in Fx by exact Chu;
        apply Ok_inj in Fx; subst fx; apply limit_check_inv in X; destruct X as [X _]; cbn [nmul RNum] in X;
        destruct (RR g0 UT R1) as [RQ _]; destruct (RQ WB) as [RC RP].
      + pose proof (table_value_is _ _ _ _ _ _ _ _ _ G Mp C Sp (RC X0) (proj1 (Sh _ _ _) Q)) as E. lra.
      + pose proof (table_value_is _ _ _ _ _ _ _ _ _ G Mp C Sp (RP X0) (proj1 (proj2 (Sh _ _ _)) P)) as E. lra.
    - assert (DB : ps_db (c_indoor c) = fr_F 70) by (rewrite Ci; exact heating_indoor).
      split; [intros q v Q H|intros p v P H]; unfold net_steady_state_heating_capacity, net_steady_state_heating_power, both in H;
        apply rbind_ok in H; destruct H as (x & X & H); apply rbind_ok in H; destruct H as (y & Y & H);
        unfold heating_fan_power in Y; cbn [heating_conditions rbind] in Y; rewrite FW in Y; apply Ok_inj in Y; subst y;
        apply Ok_inj in H; cbn [nadd nsub RNum] in H;
        [unfold gross_steady_state_heating_capacity in X|unfold gross_steady_state_heating_power in X]; cbn [heating_conditions rbind] in X;
        unfold product in X; cbn [md_ghc md_ghp md_f_ghc md_f_ghp RESNETDXModel] in X;
        apply rbind_ok in X; destruct X as (g0 & X0 & X); apply rbind_ok in X; destruct X as (fx & Fx & X);
        [unfold resnet_f_ghc in Fx|unfold resnet_f_ghp in Fx]; rewrite grading_zero in Fx by exact Chu;
        apply Ok_inj in Fx; subst fx; apply Ok_inj in X; cbn [nmul RNum] in X;
        destruct (RR g0 UT R1) as [_ RQ]; destruct (RQ DB) as [RC RP].
      + pose proof (table_value_is _ _ _ _ _ _ _ _ _ G Mp C Sp (RC X0) (proj1 (proj2 (proj2 (Sh _ _ _))) Q)) as E. lra.
      + pose proof (table_value_is _ _ _ _ _ _ _ _ _ G Mp C Sp (RP X0) (proj2 (proj2 (proj2 (Sh _ _ _))) P)) as E. lra.
  Qed.

  Theorem rated_values a (u : U) net m i k o c w0 w q p :
    DXUnit psy sol M a = Ok u -> a_charge a = 0 -> rn_net (u_rn u) = Some net ->
    (forall p, get_kwarg_value "tabular_data" (a_kwargs a) = KTable p -> interpolators_set p) ->
    In (i, k) (table_columns (u_staging u)) -> (k <= table_speeds m net)%nat ->
    make_condition psy m u i None o = Ok c ->
    entry (sd_fan_power (side_of m u)) i w0 -> fan_power sol u c = Ok w ->
    table_capacity m net (INR k) (ps_db (c_outdoor c)) = Ok q ->
    table_power m net (INR k) (ps_db (c_outdoor c)) = Ok p ->
    (forall v, net_capacity sol M m u (Some c) = Ok v -> v = q + fan_heat m (w - w0))
    /\ (forall v, net_power sol M m u (Some c) = Ok v -> v = p + (w - w0)).
  Proof.
    intros D Ch N Hp C L Mk W FW Q P.
    destruct (rated_values_each a u net m i k o c w0 w D Ch N Hp C L Mk W FW) as (A & B).
    split; intros v V; [exact (A q v Q V)|exact (B p v P V)].
  Qed.

  (** The fan of a unit without a fan of its own uses the rated power at its rated pressure;
      with a PSC motor, at every pressure. *)
  Theorem rated_fan_power a (u : U) net m i o c w0 w :
    DXUnit psy sol M a = Ok u -> a_fan a = None -> rn_net (u_rn u) = Some net ->
    (forall p, get_kwarg_value "tabular_data" (a_kwargs a) = KTable p -> interpolators_set p) ->
    (rn_motor (u_rn u) = Some MotorPSC
     \/ exists e, entry (sd_esp (side_of m u)) i e /\ c_external_static_pressure c = Some e) ->
    make_condition psy m u i None o = Ok c ->
    entry (sd_fan_power (side_of m u)) i w0 -> fan_power sol u c = Ok w -> w = w0.
  Proof.
    intros D Fa N Hp Mot Mk W FW. destruct (built psy sol a u net D N Hp) as (_ & _ & _ & _ & Fd & _).
    destruct (Fd Fa) as (motor & A & f & B1 & B2 & B3 & B4 & B5).
    apply make_condition_inv in Mk.
    destruct Mk as (q0 & a0 & full & p0 & fl & rho0 & srho0 & _ & _ & _ & _ & (mp & M1 & M2) & _ & _ & _ & _ & _ & _ & Ec).
    subst c. unfold fan_power in FW. rewrite B1 in FW. cbn [need rbind] in FW.
    unfold flow_cond in FW, Mot. cbn [c_external_static_pressure c_fan_speed need rbind] in FW, Mot.
    destruct fl as [kf|]; [|discriminate]. cbn [need rbind] in FW.
    assert (RA : rated_at sol f (side_of m u)) by (destruct m; assumption).
    destruct (RA mp i kf M1 M2) as (p & w1 & P1 & W1 & Pw & _). unfold entry in W.
    assert (w1 = w0) by congruence. subst w1.
    destruct Mot as [Mot|(e & E1 & E2)].
    - assert (motor = MotorPSC) by congruence. subst motor.
      rewrite (psc_power sol f kf _ p) in FW by exact B3. congruence.
    - unfold entry in E1. assert (Ep : p0 * (1 * 1) = p) by congruence. rewrite Ep in FW. congruence.
  Qed.

  Lemma rated_exact_each a (u : U) net m i k o c :
    DXUnit psy sol M a = Ok u -> a_fan a = None -> a_charge a = 0 -> rn_net (u_rn u) = Some net ->
    (forall p, get_kwarg_value "tabular_data" (a_kwargs a) = KTable p -> interpolators_set p) ->
    In (i, k) (table_columns (u_staging u)) -> (k <= table_speeds m net)%nat ->
    (rn_motor (u_rn u) = Some MotorPSC
     \/ exists e, entry (sd_esp (side_of m u)) i e /\ c_external_static_pressure c = Some e) ->
    make_condition psy m u i None o = Ok c ->
    (forall q v, table_capacity m net (INR k) (ps_db (c_outdoor c)) = Ok q -> net_capacity sol M m u (Some c) = Ok v -> v = q)
    /\ (forall p v, table_power m net (INR k) (ps_db (c_outdoor c)) = Ok p -> net_power sol M m u (Some c) = Ok v -> v = p).
  Proof.
    intros D Fa Ch N Hp C L Mot Mk.
    destruct (built psy sol a u net D N Hp) as (_ & _ & _ & _ & Fd & _).
    destruct (Fd Fa) as (motor & _ & f & B1 & _ & _ & B4 & B5).
    assert (G : forall r v, fan_power sol u c = r -> (net_capacity sol M m u (Some c) = Ok v \/ net_power sol M m u (Some c) = Ok v) ->
              exists w w0, r = Ok w /\ entry (sd_fan_power (side_of m u)) i w0).
    { intros r v Er H. assert (Fw : exists w, r = Ok w).
      { destruct m; cbn [net_capacity net_power] in H; destruct H as [H|H];
          [unfold net_total_cooling_capacity in H|unfold net_cooling_power in H
          |unfold net_steady_state_heating_capacity in H|unfold net_steady_state_heating_power in H];
          unfold both in H; apply rbind_ok in H; destruct H as (x & X & H); apply rbind_ok in H; destruct H as (y & Y & H);
          unfold cooling_fan_power, heating_fan_power in Y; cbn [cooling_conditions heating_conditions rbind] in Y;
          exists y; congruence. }
      destruct Fw as (w & ->). exists w.
      pose proof Mk as Mk'. apply make_condition_inv in Mk'.
      destruct Mk' as (q0 & a0 & full & p0 & fl & rho0 & srho0 & _ & _ & _ & _ & (mp & M1 & M2) & _ & _ & _ & _ & _ & _ & Ec).
      rewrite Ec in Er. unfold fan_power in Er. rewrite B1 in Er. unfold flow_cond in Er.
      cbn [c_external_static_pressure c_fan_speed need rbind] in Er.
      destruct fl as [kf|]; [|discriminate].
      assert (RA : rated_at sol f (side_of m u)) by (destruct m; assumption).
      destruct (RA mp i kf M1 M2) as (p1 & w1 & _ & W1 & _). exists w1. split; [reflexivity|exact W1]. }
    split; [intros q v Q H|intros p v P H].
    - destruct (G _ v eq_refl (or_introl H)) as (w & w0 & FW & W).
      pose proof (rated_fan_power a u net m i o c w0 w D Fa N Hp Mot Mk W FW) as ->.
      destruct (rated_values_each a u net m i k o c w0 w0 D Ch N Hp C L Mk W FW) as (A & _).
      rewrite (A q v Q H). destruct m; cbn [fan_heat]; lra.
    - destruct (G _ v eq_refl (or_intror H)) as (w & w0 & FW & W).
      pose proof (rated_fan_power a u net m i o c w0 w D Fa N Hp Mot Mk W FW) as ->.
      destruct (rated_values_each a u net m i k o c w0 w0 D Ch N Hp C L Mk W FW) as (_ & A).
      rewrite (A p v P H). lra.
  Qed.

  Theorem rated_values_exact a (u : U) net m i k o c q p :
    DXUnit psy sol M a = Ok u -> a_fan a = None -> a_charge a = 0 -> rn_net (u_rn u) = Some net ->
    (forall p, get_kwarg_value "tabular_data" (a_kwargs a) = KTable p -> interpolators_set p) ->
    In (i, k) (table_columns (u_staging u)) -> (k <= table_speeds m net)%nat ->
    (rn_motor (u_rn u) = Some MotorPSC
     \/ exists e, entry (sd_esp (side_of m u)) i e /\ c_external_static_pressure c = Some e) ->
    make_condition psy m u i None o = Ok c ->
    table_capacity m net (INR k) (ps_db (c_outdoor c)) = Ok q ->
    table_power m net (INR k) (ps_db (c_outdoor c)) = Ok p ->
    (forall v, net_capacity sol M m u (Some c) = Ok v -> v = q)
    /\ (forall v, net_power sol M m u (Some c) = Ok v -> v = p).
  Proof.
    intros D Fa Ch N Hp C L Mot Mk Q P.
    destruct (rated_exact_each a u net m i k o c D Fa Ch N Hp C L Mot Mk) as (A & B).
    split; intros v V; [exact (A q v Q V)|exact (B p v P V)].
  Qed.
End Values.
