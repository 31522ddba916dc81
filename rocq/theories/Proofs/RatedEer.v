(** C72, C73: the efficiencies of a RESNET unit of any staging at its rating conditions. *)
From Coq Require Import Reals QArith Lra Lia List Bool String ZArith.
From Verif.Base Require Import Num Res Tac.
From Verif.Model Require Import Units Util Psychrometrics Conditions Defrost Fan Curves Tabular Unit NREL BaseModel
  Title24 Resnet DXUnit.
From Verif.Spec Require Import TabularSpec NrelSpec ModelSpec UnitModels UnitSpec TestSpec RatedSpec.
From Verif.Proofs Require Import UtilProofs UnitsR FanProofs MakeCond Frame UnitProofs UnitProofs4 NrelProofs ResnetProofs
  SingleFan SingleUnit TabGross TabMisc TabBuild SeerProofs RatingProofs StandardProofs TestProofs SingleRating RatedFan
  RatedTable RatedValues.
Import ListNotations.
Local Open Scope R_scope.

(** The stored conditions of a constructed unit are what [make_condition] returns on it. *)
Lemma stored_condition psy sol M a (u : dxunit R) t :
  library_model psy sol M -> DXUnit psy sol M a = Ok u -> In t (tests u) ->
  exists s c, test_speed t u = Some s /\ stored t (u_conds u) = Some c
    /\ make_condition psy (test_mode t) u s None (given_outdoor t) = Ok c.
Proof.
  intros L D I.
  assert (H : ex (set_rating_standard psy (u_standard u)) u = Ok u) by (eapply constructed_standard_fixed; eauto).
  unfold ex in H. rewrite set_rating_standard_eq in H.
  replace (wu_standard (u_standard u) u) with u in H by (destruct u; reflexivity).
  destruct (get_rated_full_flow_rated_pressure u) as [p|e]; [|discriminate].
  cbv zeta in H. set (X := wu_full_esp (Some p) u) in *.
  destruct (run psy X (rating_puts u) (u_conds u)) as [cs [[]|e]] eqn:E; cbn [fst snd] in H; [|discriminate].
  apply Ok_inj in H.
  assert (C : u_conds u = cs) by (rewrite <- H; reflexivity).
  assert (P : u_full_esp u = Some p) by (rewrite <- H; reflexivity).
  assert (Xu : X = u) by (unfold X; rewrite <- P; destruct u; reflexivity).
  destruct (stored_made psy u X _ _ t E I) as (s & c & S & St & Mk); [rewrite Xu; reflexivity|].
  rewrite Xu in *. exists s, c. rewrite C. auto.
Qed.

(** The number of speeds of the tables made from ratings. *)
Lemma ex_n (m : st (table R) unit) t t' : keeps (fun t => t_n t) m -> ex m t = Ok t' -> t_n t' = t_n t.
Proof. intros K E. apply ex_ok in E. pose proof (K t) as Q. rewrite E in Q. exact Q. Qed.
Lemma n_put i j (v : option R) : keeps (fun t : table R => t_n t) (put_opt i j v).
Proof. unfold put_opt. repeat (keep_step; cbv zeta beta). Qed.
Ltac n_keep :=
  unfold t_set, set_by_maintenance, set_by_ratio, set_by_interpolation, add_temperature, fill_row, put_cell, set_interpolator;
  repeat (first [keep_step | apply n_put]; cbv zeta beta).
Lemma n_set s x v : keeps (fun t : table R => t_n t) (t_set s x v). Proof. n_keep. Qed.
Lemma n_maint s x y v : keeps (fun t : table R => t_n t) (set_by_maintenance s x y v). Proof. n_keep. Qed.
Lemma n_ratio s x v : keeps (fun t : table R => t_n t) (set_by_ratio s x v). Proof. n_keep. Qed.
Lemma n_interp s x : keeps (fun t : table R => t_n t) (set_by_interpolation s x). Proof. n_keep. Qed.
Lemma n_add x b l : keeps (fun t : table R => t_n t) (add_temperature x b l). Proof. n_keep. Qed.
Lemma n_done : keeps (fun t : table R => t_n t) set_interpolator. Proof. n_keep. Qed.
Ltac n_step := first [apply n_set | apply n_maint | apply n_ratio | apply n_interp | apply n_add | apply n_done].
Ltac drop_n H := repeat match type of H with rbind ?r _ = Ok _ =>
  apply rbind_ok in H;
  lazymatch r with
  | ex _ _ => let E := fresh "N" in destruct H as (? & E & H);
      apply ex_n in E; [|repeat (lazymatch goal with |- keeps _ (sbind _ _) => apply keeps_bind; [|intros] end); n_step]
  | _ => destruct H as (? & _ & H)
  end end.
Lemma finish_n qc pc qh ph (p : perf R) : finish qc pc qh ph = Ok p -> p_nc p = t_n qc /\ p_nh p = t_n qh.
Proof.
  unfold finish. intros H. drop_n H. unfold make_perf in H. inv_ok. subst p. cbn [p_nc p_nh]. split; congruence.
Qed.
Lemma single_n a1 a2 a3 a4 a5 a6 a7 a8 a9 a10 (p : perf R) :
  make_single_speed_model_data a1 a2 a3 a4 a5 a6 a7 a8 a9 a10 = Ok p -> p_nc p = 1%nat /\ p_nh p = 1%nat.
Proof.
  unfold make_single_speed_model_data. cbv zeta. intros H. drop_n H. apply finish_n in H. cbn [new_table t_n] in *.
  split; [rewrite (proj1 H)|rewrite (proj2 H)]; congruence.
Qed.
Lemma two_n a1 a2 a3 a4 a5 a6 a7 a8 a9 a10 (p : perf R) :
  make_two_speed_model_data a1 a2 a3 a4 a5 a6 a7 a8 a9 a10 = Ok p -> p_nc p = 2%nat /\ p_nh p = 2%nat.
Proof.
  unfold make_two_speed_model_data. cbv zeta. intros H. drop_n H. apply finish_n in H. cbn [new_table t_n] in *.
  split; [rewrite (proj1 H)|rewrite (proj2 H)]; congruence.
Qed.
Lemma neep_n a1 a2 a3 a4 a5 a6 a7 a8 a9 a10 a11 (p : perf R) :
  make_neep_statistical_model_data a1 a2 a3 a4 a5 a6 a7 a8 a9 a10 a11 = Ok p -> p_nc p = 3%nat /\ p_nh p = 3%nat.
Proof.
  unfold make_neep_statistical_model_data. cbv zeta. intros H. drop_n H. apply finish_n in H. cbn [new_table t_n] in *.
  split; [rewrite (proj1 H)|rewrite (proj2 H)]; congruence.
Qed.

Section Eer.
  Variable psy : psychro R.
  Variable sol : solvers R.
  Notation U := (dxunit R).
  Notation M := (RESNETDXModel psy sol).

  Lemma cop_parts m net s x v : table_cop m net s x = Ok v ->
    exists q p, table_capacity m net s x = Ok q /\ table_power m net s x = Ok p /\ p <> 0 /\ v = q / p.
  Proof.
    destruct m; cbn [table_cop table_capacity table_power]; unfold cooling_cop, heating_cop; intros H;
      apply rbind_ok in H; destruct H as (q & Q & H); apply rbind_ok in H; destruct H as (p & P & H);
      apply pydiv_inv in H; destruct H as (N & E); exists q, p; auto.
  Qed.
  Lemma net_cop_parts m (u : U) c v : net_cop sol M m u c = Ok v ->
    exists q p, net_capacity sol M m u c = Ok q /\ net_power sol M m u c = Ok p /\ p <> 0 /\ v = q / p.
  Proof.
    destruct m; cbn [net_cop net_capacity net_power]; unfold net_total_cooling_cop, net_steady_state_heating_cop, both at 1;
      intros H; apply rbind_ok in H; destruct H as (q & Q & H); apply rbind_ok in H; destruct H as (p & P & H);
      apply pydiv_inv in H; destruct H as (N & E); exists q, p; auto.
  Qed.

  Theorem rated_values_at_pressure a (u : U) net m i k o c q p :
    DXUnit psy sol M a = Ok u -> a_fan a = None -> a_charge a = 0 -> rn_net (u_rn u) = Some net ->
    (forall p, get_kwarg_value "tabular_data" (a_kwargs a) = KTable p -> interpolators_set p) ->
    In (i, k) (table_columns (u_staging u)) -> (k <= table_speeds m net)%nat ->
    fan_at_rated_pressure u m c ->
    make_condition psy m u i None o = Ok c ->
    table_capacity m net (INR k) (ps_db (c_outdoor c)) = Ok q ->
    table_power m net (INR k) (ps_db (c_outdoor c)) = Ok p ->
    (forall v, net_capacity sol M m u (Some c) = Ok v -> v = q)
    /\ (forall v, net_power sol M m u (Some c) = Ok v -> v = p).
  Proof.
    intros D Fa Ch N Hp C L Mot Mk Q P.
    destruct (make_condition_facts _ _ _ _ _ _ _ Mk) as (Sp & _).
    unfold fan_at_rated_pressure in Mot. rewrite Sp in Mot.
    exact (rated_values_exact psy sol a u net m i k o c q p D Fa Ch N Hp C L Mot Mk Q P).
  Qed.

  Theorem rated_cop a (u : U) net m i k o c x v :
    DXUnit psy sol M a = Ok u -> a_fan a = None -> a_charge a = 0 -> rn_net (u_rn u) = Some net ->
    (forall p, get_kwarg_value "tabular_data" (a_kwargs a) = KTable p -> interpolators_set p) ->
    In (i, k) (table_columns (u_staging u)) -> (k <= table_speeds m net)%nat ->
    make_condition psy m u i None o = Ok c -> fan_at_rated_pressure u m c ->
    table_cop m net (INR k) (ps_db (c_outdoor c)) = Ok x ->
    net_cop sol M m u (Some c) = Ok v -> v = x.
  Proof.
    intros D Fa Ch N Hp C L Mk Mot X V.
    destruct (cop_parts _ _ _ _ _ X) as (q & p & Q & P & Np & ->).
    destruct (net_cop_parts _ _ _ _ V) as (q' & p' & Q' & P' & Np' & ->).
    destruct (make_condition_facts _ _ _ _ _ _ _ Mk) as (Sp & _).
    unfold fan_at_rated_pressure in Mot. rewrite Sp in Mot.
    destruct (rated_values_exact psy sol a u net m i k o c q p D Fa Ch N Hp C L Mot Mk Q P) as (A & B).
    rewrite (A _ Q'), (B _ P'). reflexivity.
  Qed.

  Lemma inputs_inv b (u : U) s e h c : rating_inputs b u = Ok (s, e, h, c) ->
    u_eer u = Some e /\ (forall x, u_hcop u = Some (Scalar x) -> c = Some x).
  Proof.
    unfold rating_inputs. intros H. apply rbind_ok in H. destruct H as (s' & _ & H).
    apply rbind_ok in H. destruct H as (e' & E & H). apply rbind_ok in H. destruct H as (c' & C & H).
    apply rbind_ok in H. destruct H as (h' & _ & H). apply Ok_inj in H.
    assert (e' = e) by congruence. assert (c' = c) by congruence. subst e' c'.
    split; [destruct (u_eer u); cbn [number_if] in E; congruence|].
    intros x X. rewrite X in C. cbn [opt_number number rbind] in C. congruence.
  Qed.

  (** The table speed that stands for the full speed. *)
  Lemma full_column st : exists k, In (full_speed st, k) (table_columns st) /\ (k = 1 \/ k = 2)%nat
    /\ (k = 1%nat <-> st = SINGLE_STAGE).
  Proof.
    destruct st; [exists 1%nat|exists 2%nat|exists 2%nat]; cbn; split; auto; split; auto;
      split; intros; discriminate || reflexivity.
  Qed.
  Lemma heating_R st qh q h :
    match qh with
    | Some (Scalar x) => h = x
    | Some (Many _) => False
    | None => match st with
              | VARIABLE_SPEED => h = 1.022 * q + fr_Btuh 607
              | _ => h = 0.98 * q + fr_Btuh 180
              end
    end -> heating_rating st qh q = h.
  Proof.
    assert (L1 : lit (T:=R) 607 = 607) by (rnum; lra). assert (L2 : lit (T:=R) 180 = 180) by (rnum; lra).
    assert (L3 : lit (T:=R) 1.022 = 1.022) by (rnum; lra). assert (L4 : lit (T:=R) 0.98 = 0.98) by (rnum; lra).
    unfold heating_rating. destruct qh as [[x|l]|]; [auto|contradiction|].
    rewrite L1, L2, L3, L4. cbn [nadd nmul RNum]. destruct st; intros ->; ring.
  Qed.

  (** The full-speed column of a table made from ratings. *)
  Lemma built_ratings qc qh (u0 : U) st net q h :
    table_built qc qh u0 st net -> qc = Scalar q -> heating_rating st qh q = h -> q <> 0 -> h <> 0 ->
    (st = VARIABLE_SPEED -> u_heating_off u0 < fr_F 5) ->
    exists k, In (full_speed st, k) (table_columns st)
      /\ (k <= table_speeds Cooling net)%nat /\ (k <= table_speeds Heating net)%nat
      /\ cooling_capacity net (INR k) (fr_F 95) = Ok q
      /\ (exists e, u_eer u0 = Some e /\ cooling_cop net (INR k) (fr_F 95) = Ok (fr_Btu_Wh e))
      /\ heating_capacity net (INR k) (fr_F 47) = Ok h
      /\ exists x, heating_cop net (INR k) (fr_F 47) = Ok x /\ forall c, u_hcop u0 = Some (Scalar c) -> x = c.
  Proof.
    intros (u1 & q' & (K & _) & Eq & B) Eq' Eh Nq Nh Off. cbv zeta in B. assert (q' = q) by congruence. subst q'.
    rewrite Eh in B. unfold config in K.
    assert (K1 : u_eer u1 = u_eer u0) by congruence. assert (K2 : u_hcop u1 = u_hcop u0) by congruence.
    assert (K3 : u_heating_off u1 = u_heating_off u0) by congruence. rewrite <- K1, <- K2, <- K3 in *. clear K K1 K2 K3.
    destruct st.
    - unfold single_speed_table in B. cbn [number rbind] in B. apply rbind_ok in B. destruct B as ([[[s e] hs] c] & R & B).
      apply inputs_inv in R. destruct R as (R1 & R2).
      destruct (single_n _ _ _ _ _ _ _ _ _ _ _ B) as (N1 & N2).
      destruct (single_reproduces _ _ _ _ _ _ _ _ _ _ _ B Nq Nh) as (A1 & A2 & _ & A3 & _ & A4).
      exists 1%nat. cbn [full_speed table_columns In table_speeds INR]. rewrite N1, N2.
      split; [auto|]. split; [lia|]. split; [lia|]. split; [exact A1|]. split; [exists e; auto|]. split; [exact A3|].
      eexists. split; [exact A4|]. intros x X. rewrite (R2 x X). reflexivity.
    - unfold two_speed_table in B. cbn [number rbind] in B. apply rbind_ok in B. destruct B as ([[[s e] hs] c] & R & B).
      apply inputs_inv in R. destruct R as (R1 & R2).
      destruct (two_n _ _ _ _ _ _ _ _ _ _ _ B) as (N1 & N2).
      destruct (two_reproduces _ _ _ _ _ _ _ _ _ _ _ B Nq Nh) as (A1 & A2 & _ & A3 & _ & A4).
      exists 2%nat. cbn [full_speed table_columns In table_speeds]. rewrite N1, N2. replace (INR 2) with 2 by (cbn; lra).
      split; [auto|]. split; [lia|]. split; [lia|]. split; [exact A1|]. split; [exists e; auto|]. split; [exact A3|].
      eexists. split; [exact A4|]. intros x X. rewrite (R2 x X). reflexivity.
    - unfold variable_speed_table in B. apply rbind_ok in B. destruct B as ([[[s e] hs] c] & R & B).
      apply inputs_inv in R. destruct R as (R1 & R2).
      destruct (neep_n _ _ _ _ _ _ _ _ _ _ _ _ B) as (N1 & N2).
      destruct (statistical_reproduces _ _ _ _ _ _ _ _ _ _ _ _ B (Off eq_refl) Nq Nh) as (A1 & A2 & _ & _ & A3 & _ & A4).
      exists 2%nat. cbn [full_speed table_columns In table_speeds]. rewrite N1, N2. replace (INR 2) with 2 by (cbn; lra).
      split; [auto|]. split; [lia|]. split; [lia|]. split; [exact A1|]. split; [exists e; auto|]. split; [exact A3|].
      eexists. split; [exact A4|]. intros x X. rewrite (R2 x X). reflexivity.
  Qed.

  Lemma outdoor_db m : ps_db (default_outdoor (T:=R) m) = fr_F (match m with Cooling => 95 | Heating => 47 end).
  Proof.
    assert (L1 : lit (T:=R) 95 = 95) by (rnum; lra). assert (L2 : lit (T:=R) 47 = 47) by (rnum; lra).
    destruct m; unfold default_outdoor; cbn [psych_wetbulb put_wb ps_db blank]; [rewrite L1|rewrite L2]; reflexivity.
  Qed.

  (** C73 *)
  Theorem ratings_met a (u : U) q h :
    DXUnit psy sol M a = Ok u -> rated_unit a (u_staging u) q h ->
    (u_staging u = VARIABLE_SPEED -> u_heating_off u < fr_F 5) ->
    exists ca ch, rc_A_full (u_conds u) = Some ca /\ rc_H1_full (u_conds u) = Some ch
    /\ (fan_at_rated_pressure u Cooling ca ->
        (forall v, net_total_cooling_capacity sol M u None = Ok v -> v = q)
        /\ (forall e v, a_eer a = Some e -> eer sol M u None = Ok v -> v = e))
    /\ (fan_at_rated_pressure u Heating ch ->
        (forall v, net_steady_state_heating_capacity sol M u None = Ok v -> v = h)
        /\ (forall c v, a_net_hcop a = Some (Scalar c) -> net_steady_state_heating_cop sol M u None = Ok v -> v = c)).
  Proof.
    intros D (Qc & Nq & Nh & Qh & Fa & Ch & Tab) Off.
    assert (LM : library_model psy sol M) by (unfold library_model; simpl; tauto).
    assert (Hp : forall p, get_kwarg_value "tabular_data" (a_kwargs a) = KTable p -> interpolators_set p)
      by (intros p X; congruence).
    destruct (net_exists psy sol a u D) as (net & N); [intros l X; rewrite X in Qh; exact Qh|].
    destruct (built psy sol a u net D N Hp) as (_ & _ & _ & _ & _ & (F1 & F2) & B).
    destruct (B Tab) as (u0 & I & TB). clear B.
    destruct (constructed_config psy sol M LM a u D) as (u0' & I' & K).
    assert (u0' = u0) by congruence. subst u0'. unfold config in K.
    assert (K3 : u_heating_off u = u_heating_off u0) by congruence. rewrite K3 in Off. clear K K3.
    assert (Ie : u_eer u0 = default_eer (a_seer a) (a_eer a) /\ u_hcop u0 = a_net_hcop a).
    { unfold init_unit in I. apply rbind_ok in I. destruct I as (rn & _ & I). cbv zeta in I.
      apply rbind_ok in I. destruct I as (stg & _ & I). apply Ok_inj in I. subst u0. split; reflexivity. }
    destruct Ie as (Ie & Ih).
    destruct (built_ratings _ _ _ _ _ _ _ TB Qc (heating_R _ _ _ _ Qh) Nq Nh Off)
      as (k & C & L1 & L2 & T1 & (e & E1 & T2) & T3 & x & T4 & X1).
    destruct (stored_condition psy sol M a u A_full LM D) as (s & ca & S1 & S2 & Mk); [cbn; auto|].
    destruct (stored_condition psy sol M a u H1_full LM D) as (s' & ch & S3 & S4 & Mk'); [cbn; auto|].
    cbn [test_speed side_of test_mode] in S1, S3. rewrite F1 in S1. rewrite F2 in S3.
    injection S1 as <-. injection S3 as <-. cbn [stored test_mode given_outdoor] in S2, S4, Mk, Mk'.
    assert (Oa : ps_db (c_outdoor ca) = fr_F 95).
    { destruct (make_condition_facts _ _ _ _ _ _ _ Mk) as (_ & _ & _ & O). rewrite O. exact (outdoor_db Cooling). }
    assert (Oh : ps_db (c_outdoor ch) = fr_F 47).
    { destruct (make_condition_facts _ _ _ _ _ _ _ Mk') as (_ & _ & _ & O). rewrite O. exact (outdoor_db Heating). }
    exists ca, ch. split; [exact S2|]. split; [exact S4|]. split; intros Mot.
    - destruct (cop_parts Cooling _ _ _ _ T2) as (q' & p & Q & P & _).
      assert (q' = q) by (cbn [table_capacity] in Q; congruence). subst q'.
      rewrite <- Oa in Q, P, T2.
      pose proof Mot as Mot'. unfold fan_at_rated_pressure in Mot'.
      destruct (make_condition_facts _ _ _ _ _ _ _ Mk) as (Sp & _). rewrite Sp in Mot'.
      split.
      + intros v V. refine (proj1 (rated_values_exact psy sol a u net Cooling _ k _ ca q p D Fa Ch N Hp C L1 Mot' Mk Q P) v _).
        rewrite <- V. symmetry. unfold net_capacity, net_total_cooling_capacity, both, gross_total_cooling_capacity, cooling_fan_power, cooling_conditions.
        rewrite S2. reflexivity.
      + intros e' v He V. unfold eer in V. apply rbind_ok in V. destruct V as (w & W & V). apply Ok_inj in V.
        assert (Ww : net_cop sol M Cooling u (Some ca) = Ok w).
        { rewrite <- W. unfold net_cop, net_total_cooling_cop, net_total_cooling_capacity, net_cooling_power, both, gross_total_cooling_capacity,
            gross_cooling_power, cooling_fan_power, cooling_conditions. rewrite S2. reflexivity. }
        pose proof (rated_cop a u net Cooling _ k _ ca _ w D Fa Ch N Hp C L1 Mk Mot T2 Ww) as ->.
        rewrite He in Ie. assert (e = e') by (unfold default_eer in Ie; destruct (a_seer a); congruence). subst e'.
        rewrite <- V. rewrite to_Btu_Wh_spec. apply Btu_Wh_fr.
    - destruct (cop_parts Heating _ _ _ _ T4) as (q' & p & Q & P & _).
      assert (q' = h) by (cbn [table_capacity] in Q; congruence). subst q'.
      rewrite <- Oh in Q, P, T4.
      pose proof Mot as Mot'. unfold fan_at_rated_pressure in Mot'.
      destruct (make_condition_facts _ _ _ _ _ _ _ Mk') as (Sp & _). rewrite Sp in Mot'.
      split.
      + intros v V. refine (proj1 (rated_values_exact psy sol a u net Heating _ k _ ch h p D Fa Ch N Hp C L2 Mot' Mk' Q P) v _).
        rewrite <- V. symmetry. unfold net_capacity, net_steady_state_heating_capacity, both, gross_steady_state_heating_capacity, heating_fan_power,
          heating_conditions.
        rewrite S4. reflexivity.
      + intros c v Hc V.
        assert (Ww : net_cop sol M Heating u (Some ch) = Ok v).
        { rewrite <- V. unfold net_cop, net_steady_state_heating_cop, net_steady_state_heating_capacity, net_steady_state_heating_power, both,
            gross_steady_state_heating_capacity, gross_steady_state_heating_power, heating_fan_power, heating_conditions.
          rewrite S4. reflexivity. }
        pose proof (rated_cop a u net Heating _ k _ ch _ v D Fa Ch N Hp C L2 Mk' Mot T4 Ww) as ->.
        apply X1. congruence.
  Qed.
End Eer.
