(** The tables of a constructed RESNET unit. *)
From Coq Require Import Reals QArith Lra Lia List Bool String ZArith.
From Verif.Base Require Import Num Res Tac.
From Verif.Model Require Import Units Util Psychrometrics Conditions Defrost Fan Curves Tabular Unit NREL BaseModel
  Title24 Resnet DXUnit.
From Verif.Spec Require Import TabularSpec NrelSpec ModelSpec UnitModels RatedSpec.
From Verif.Proofs Require Import UtilProofs UnitsR FanProofs MakeCond Frame UnitProofs NrelProofs ResnetProofs
  SingleFan SingleUnit TabGross TabMisc TabBuild RatedFan.
Import ListNotations.
Local Open Scope R_scope.

Definition speed_map (s : staging_type) : list R :=
  match s with
  | SINGLE_STAGE => [lit 1]
  | TWO_STAGE => [lit 2; lit 1]
  | VARIABLE_SPEED => [lit 3; lit 2; lit 1.5; lit 1]
  end.

Lemma finish_ready qc pc qh ph (p : perf R) : finish qc pc qh ph = Ok p -> interpolators_set p.
Proof.
  unfold finish, make_perf. intros H. inv_ok. subst p. apply ex_ok in E, E0, E1, E2.
  unfold interpolators_set. cbn [p_cc p_cp p_hc p_hp].
  split; [exact (interpolated_again _ _ E)|]. split; [exact (interpolated_again _ _ E0)|].
  split; [exact (interpolated_again _ _ E1)|exact (interpolated_again _ _ E2)].
Qed.
Ltac drop H := repeat match type of H with rbind _ _ = Ok _ =>
  apply rbind_ok in H; destruct H as (? & _ & H) end.
Lemma single_ready a1 a2 a3 a4 a5 a6 a7 a8 a9 a10 (p : perf R) :
  make_single_speed_model_data a1 a2 a3 a4 a5 a6 a7 a8 a9 a10 = Ok p -> interpolators_set p.
Proof. unfold make_single_speed_model_data. cbv zeta. intros H. drop H. exact (finish_ready _ _ _ _ _ H). Qed.
Lemma two_ready a1 a2 a3 a4 a5 a6 a7 a8 a9 a10 (p : perf R) :
  make_two_speed_model_data a1 a2 a3 a4 a5 a6 a7 a8 a9 a10 = Ok p -> interpolators_set p.
Proof. unfold make_two_speed_model_data. cbv zeta. intros H. drop H. exact (finish_ready _ _ _ _ _ H). Qed.
Lemma neep_ready a1 a2 a3 a4 a5 a6 a7 a8 a9 a10 a11 (p : perf R) :
  make_neep_statistical_model_data a1 a2 a3 a4 a5 a6 a7 a8 a9 a10 a11 = Ok p -> interpolators_set p.
Proof. unfold make_neep_statistical_model_data. cbv zeta. intros H. drop H. exact (finish_ready _ _ _ _ _ H). Qed.

Section Table.
  Variable psy : psychro R.
  Variable sol : solvers R.
  Notation U := (dxunit R).
  Notation M := (RESNETDXModel psy sol).

  (** ** Capacities *)
  (** The rated heating capacity: given, or estimated from the cooling capacity. *)
  Definition heating_rating (st : staging_type) (qh : option (num_or_list R)) (q : R) : R :=
    match qh with
    | Some (Scalar x) => x
    | _ => match st with
           | VARIABLE_SPEED => (q * lit 1.022 + fr_Btuh (lit 607))%num
           | _ => (q * lit 0.98 + fr_Btuh (lit 180))%num
           end
    end.
  (** The optional ratings of [u1] are those of [u0]; variable-speed units get a capacity at 17 F. *)
  Definition options st h (u0 u1 : U) : Prop :=
    rn_cop82 (u_rn u1) = rn_cop82 (u_rn u0) /\ rn_ratio95 (u_rn u1) = rn_ratio95 (u_rn u0)
    /\ rn_cap17 (u_rn u1) = match rn_cap17 (u_rn u0), st with
         | Some c, _ => Some c
         | None, VARIABLE_SPEED => Some (lit 0.689 * h)%num
         | None, _ => None
         end.
  Lemma options_same st h (u0 u1 : U) : st <> VARIABLE_SPEED -> u_rn u1 = u_rn u0 -> options st h u0 u1.
  Proof. intros S E. unfold options. rewrite E. destruct (rn_cap17 (u_rn u0)), st; auto; congruence. Qed.
  Lemma options_rn st h (u0 u0' u1 : U) : u_rn u0' = u_rn u0 -> options st h u0 u1 -> options st h u0' u1.
  Proof. intros E. unfold options. rewrite E. auto. Qed.
  (** The table was built from the capacities and the ratings of a unit configured like [u0]. *)
  Definition table_built qc qh (u0 : U) (st : staging_type) (net : perf R) : Prop :=
    exists u1 q, (config u1 = config u0 /\ options st (heating_rating st qh q) u0 u1) /\ qc = Scalar q /\
    let h := heating_rating st qh q in
    match st with
    | SINGLE_STAGE => single_speed_table u1 (Scalar q) h = Ok net
    | TWO_STAGE => two_speed_table u1 (Scalar q) h = Ok net
    | VARIABLE_SPEED => variable_speed_table u1 q h = Ok net
    end.
  Definition full_speed (st : staging_type) : nat :=
    match st with VARIABLE_SPEED => 1%nat | _ => 0%nat end.
  Definition tabled qc qh (u0 : U) (old : option (perf R)) (net : perf R) (u : U) : Prop :=
    rn_net (u_rn u) = Some net /\ rn_map (u_rn u) = Some (speed_map (u_staging u))
    /\ sd_full (u_c u) = full_speed (u_staging u) /\ sd_full (u_h u) = full_speed (u_staging u)
    /\ (old = Some net \/ (old = None /\ table_built qc qh u0 (u_staging u) net)).

  Lemma single_built (u : U) qc qh p : single_speed_table u qc qh = Ok p -> interpolators_set p.
  Proof.
    unfold single_speed_table. intros H. apply rbind_ok in H. destruct H as (q & _ & H).
    apply rbind_ok in H. destruct H as ([[[s e] h] c] & _ & H). exact (single_ready _ _ _ _ _ _ _ _ _ _ _ H).
  Qed.
  Lemma two_built (u : U) qc qh p : two_speed_table u qc qh = Ok p -> interpolators_set p.
  Proof.
    unfold two_speed_table. intros H. apply rbind_ok in H. destruct H as (q & _ & H).
    apply rbind_ok in H. destruct H as ([[[s e] h] c] & _ & H). exact (two_ready _ _ _ _ _ _ _ _ _ _ _ H).
  Qed.
  Lemma variable_built (u : U) q qh p : variable_speed_table u q qh = Ok p -> interpolators_set p.
  Proof.
    unfold variable_speed_table. intros H.
    apply rbind_ok in H. destruct H as ([[[s e] h] c] & _ & H). exact (neep_ready _ _ _ _ _ _ _ _ _ _ _ _ H).
  Qed.
  Lemma built_ready qc qh (u0 : U) st net : table_built qc qh u0 st net -> interpolators_set net.
  Proof.
    intros (u1 & q & _ & _ & H). cbv zeta in H. destruct st;
      [exact (single_built _ _ _ _ H)|exact (two_built _ _ _ _ H)|exact (variable_built _ _ _ _ H)].
  Qed.
  Lemma ensure_inv build (u u' : U) b :
    ensure_table build u = (u', Ok b) ->
    u_staging u' = u_staging u /\
    exists net, rn_net (u_rn u') = Some net
      /\ (rn_net (u_rn u) = Some net \/ (rn_net (u_rn u) = None /\ build u = Ok net)).
  Proof.
    intros E. unfold ensure_table in E. apply sbind_ok in E. destruct E as (s & x & E1 & E).
    unfold sget in E1. apply pair_ok_inj in E1. destruct E1 as [<- <-].
    destruct (rn_net (u_rn u)) as [net|] eqn:N.
    - unfold sret in E. apply pair_ok_inj in E. destruct E as [<- _]. split; [reflexivity|]. exists net. auto.
    - apply sbind_ok in E. destruct E as (s & p & E1 & E). apply slift_ok in E1. destruct E1 as [-> E1].
      unfold put_rn, smod in E. apply pair_ok_inj in E. destruct E as [<- _]. split; [reflexivity|].
      exists p. split; [reflexivity|]. right. split; [reflexivity|exact E1].
  Qed.

  Definition capc (u : U) := sd_net_cap (u_c u).
  Lemma both_nview f (u u' : U) b : both_sides f u = (u', Ok b) ->
    nview u' = nview u /\ u_c u' = f (u_c u) /\ u_h u' = f (u_h u).
  Proof.
    intros E. unfold both_sides in E. apply sbind_ok in E. destruct E as (s & [] & E1 & E).
    apply on_side_inv in E1. apply on_side_inv in E. subst u' s. repeat split.
  Qed.

  Lemma caps_tabled qc qh (u u' : U) b :
    capacities_from_table qc qh u = (u', Ok b) ->
    u_staging u' = u_staging u /\
    exists net, tabled qc (option_map Scalar qh) u (rn_net (u_rn u)) net u' /\ List.length (capc u') = List.length (speed_map (u_staging u)).
  Proof.
    intros H. unfold capacities_from_table in H.
    apply sbind_ok in H. destruct H as (s1 & u0 & E & H). unfold sget in E. apply pair_ok_inj in E.
    destruct E as [<- <-].
    apply sbind_ok in H. destruct H as (s1 & [] & E & H).
    assert (G : u_staging s1 = u_staging u /\ exists net, tabled qc (option_map Scalar qh) u (rn_net (u_rn u)) net s1).
    { clear H. assert (D : forall f g (s s2 s3 s4 : U) build b1 b2 b3,
        rn_net (u_rn s) = rn_net (u_rn u) -> u_staging s = u_staging u ->
        (forall p, build s = Ok p -> table_built qc (option_map Scalar qh) u (u_staging u) p) ->
        (forall s, sd_full (f s) = full_speed (u_staging u)) ->
        ensure_table build s = (s2, Ok b1) -> both_sides f s2 = (s3, Ok b2) ->
        put_rn (wr_map (Some g)) s3 = (s4, Ok b3) -> g = speed_map (u_staging u) ->
        u_staging s4 = u_staging u /\ exists net, tabled qc (option_map Scalar qh) u (rn_net (u_rn u)) net s4).
      { intros f g s s2 s3 s4 build b1 b2 b3 N St B Fu A1 A2 A3 ->.
        destruct (ensure_inv _ _ _ _ A1) as (S2 & net & N2 & O2).
        apply both_nview in A2. destruct A2 as (A2 & C3 & H3). unfold put_rn, smod in A3. apply pair_ok_inj in A3. destruct A3 as [<- _].
        unfold nview in A2. assert (S3 : u_staging s3 = u_staging u) by congruence.
        split; [exact S3|]. exists net. split; [|split; [|split; [|split]]].
        - change (rn_net (u_rn s3) = Some net). congruence.
        - change (Some (speed_map (u_staging u)) = Some (speed_map (u_staging s3))). rewrite S3. reflexivity.
        - change (sd_full (u_c s3) = full_speed (u_staging s3)). rewrite S3, C3. apply Fu.
        - change (sd_full (u_h s3) = full_speed (u_staging s3)). rewrite S3, H3. apply Fu.
        - change (rn_net (u_rn u) = Some net \/ rn_net (u_rn u) = None /\ table_built qc (option_map Scalar qh) u (u_staging s3) net).
          rewrite <- N, S3. destruct O2 as [O2|[O2 O3]]; [left; exact O2|right; split; [exact O2|exact (B _ O3)]]. }
      destruct (u_staging u) eqn:St; cbv zeta in E.
      - apply sbind_ok in E. destruct E as (z1 & [] & Z1 & E). apply on_side_inv in Z1.
        apply sbind_ok in E. destruct E as (z2 & q0 & Z2 & E). apply slift_ok in Z2. destruct Z2 as [-> Q0].
        apply sbind_ok in E. destruct E as (z2 & [] & Z2 & E). apply on_side_inv in Z2.
        apply sbind_ok in E. destruct E as (z3 & [] & Z3 & E).
        apply sbind_ok in E. destruct E as (z4 & [] & Z4 & E).
        refine (D _ _ z2 z3 z4 s1 _ _ _ _ _ _ _ _ Z3 Z4 E _);
          [subst; reflexivity|subst; exact St| |intros s; rewrite ?St; reflexivity|rewrite ?St; reflexivity].
        intros p Q. rewrite ?St. destruct qc as [x|l]; [|discriminate Q]. assert (q0 = x) by (cbn in Q0; congruence). subst q0.
        exists z2, x. split; [split; [subst; reflexivity|apply options_same; [discriminate|subst; reflexivity]]|]. split; [reflexivity|]. destruct qh; exact Q.
      - apply sbind_ok in E. destruct E as (z1 & [] & Z1 & E). apply on_side_inv in Z1.
        apply sbind_ok in E. destruct E as (z2 & q0 & Z2 & E). apply slift_ok in Z2. destruct Z2 as [-> Q0].
        apply sbind_ok in E. destruct E as (z2 & [] & Z2 & E). apply on_side_inv in Z2.
        apply sbind_ok in E. destruct E as (z3 & [] & Z3 & E).
        apply sbind_ok in E. destruct E as (z4 & [] & Z4 & E).
        refine (D _ _ z2 z3 z4 s1 _ _ _ _ _ _ _ _ Z3 Z4 E _);
          [subst; reflexivity|subst; exact St| |intros s; rewrite ?St; reflexivity|rewrite ?St; reflexivity].
        intros p Q. rewrite ?St. destruct qc as [x|l]; [|discriminate Q]. assert (q0 = x) by (cbn in Q0; congruence). subst q0.
        exists z2, x. split; [split; [subst; reflexivity|apply options_same; [discriminate|subst; reflexivity]]|]. split; [reflexivity|]. destruct qh; exact Q.
      - apply sbind_ok in E. destruct E as (z1 & q & Z1 & E). apply slift_ok in Z1. destruct Z1 as [-> Q0].
        apply sbind_ok in E. destruct E as (z2 & [] & Z2 & E).
        assert (V : rn_net (u_rn z2) = rn_net (u_rn u) /\ u_staging z2 = VARIABLE_SPEED
                    /\ config z2 = config u /\ options VARIABLE_SPEED (heating_rating VARIABLE_SPEED (option_map Scalar qh) q) u z2).
        { unfold options. destruct (rn_cap17 (u_rn u)) as [c17|] eqn:C17.
          - unfold sret in Z2. apply pair_ok_inj in Z2. destruct Z2 as [<- _]. repeat split; assumption.
          - unfold put_rn, smod in Z2. apply pair_ok_inj in Z2. destruct Z2 as [<- _].
            split; [reflexivity|]. split; [exact St|]. split; [reflexivity|].
            split; [reflexivity|]. split; [reflexivity|]. destruct qh; reflexivity. }
        apply sbind_ok in E. destruct E as (z3 & [] & Z3 & E).
        apply sbind_ok in E. destruct E as (z4 & [] & Z4 & E).
        destruct V as (V1 & V2 & V3).
        refine (D _ _ z2 z3 z4 s1 _ _ _ _ _ _ _ _ Z3 Z4 E _);
          [exact V1|rewrite ?St; exact V2| |intros s; rewrite ?St; reflexivity|rewrite ?St; reflexivity].
        intros p Q. rewrite ?St. destruct qc as [x|l]; [|discriminate Q0]. apply Ok_inj in Q0. subst q.
        exists z2, x. split; [exact V3|]. split; [reflexivity|]. destruct qh; exact Q. }
    clear E. destruct G as (S1 & net & N1 & M1 & FC1 & FH1 & O1).
    apply sbind_ok in H. destruct H as (s2 & u0 & E & H). unfold sget in E. apply pair_ok_inj in E.
    destruct E as [<- <-].
    apply sbind_ok in H. destruct H as (s2 & p & E & H). apply slift_ok in E. destruct E as [-> Ep].
    apply sbind_ok in H. destruct H as (s2 & m & E & H). apply slift_ok in E. destruct E as [-> Em].
    apply need_ok in Em.
    apply sbind_ok in H. destruct H as (s2 & lc & E & H). apply slift_ok in E. destruct E as [-> Ec].
    apply sbind_ok in H. destruct H as (s2 & [] & E & H). apply on_side_inv in E.
    apply sbind_ok in H. destruct H as (s3 & lh & E3 & H). apply slift_ok in E3. destruct E3 as [-> Eh].
    apply on_side_inv in H. subst u' s2. split; [exact S1|]. exists net.
    split; [split; [exact N1|split; [exact M1|split; [exact FC1|split; [exact FH1|exact O1]]]]|].
    change (List.length lc = List.length (speed_map (u_staging u))).
    assert (m = speed_map (u_staging s1)) by congruence. subst m. rewrite (rmapM_length _ _ _ Ec), S1. reflexivity.
  Qed.

  (** ** The gross table *)
  Definition grossed (net : perf R) (u : U) : Prop :=
    exists gross fc fh, rn_gross (u_rn u) = Some gross
      /\ table_fan_powers Cooling (p_nc net) u = Ok fc /\ table_fan_powers Heating (p_nh net) u = Ok fh
      /\ make_gross fc fh net = (gross, Ok tt).

  Lemma fan_powers_same m n (u u' : U) : rn_map (u_rn u') = rn_map (u_rn u) ->
    sd_fan_power (side_of m u') = sd_fan_power (side_of m u) -> table_fan_powers m n u' = table_fan_powers m n u.
  Proof. intros A B. unfold table_fan_powers. rewrite A, B. reflexivity. Qed.

  Lemma gross_inv net (u u' : U) b :
    rn_net (u_rn u) = Some net -> setup_gross_table u = (u', Ok b) ->
    grossed net u' /\ u_fan u' = u_fan u /\ u_staging u' = u_staging u
    /\ sview (u_c u') = sview (u_c u) /\ sview (u_h u') = sview (u_h u)
    /\ rn_net (u_rn u') = Some net /\ rn_map (u_rn u') = rn_map (u_rn u) /\ rn_motor (u_rn u') = rn_motor (u_rn u).
  Proof.
    intros N E. unfold setup_gross_table in E. apply sbind_ok in E. destruct E as (s & x & E1 & E).
    unfold sget in E1. apply pair_ok_inj in E1. destruct E1 as [<- <-]. rewrite N in E.
    apply sbind_ok in E. destruct E as (s & fc & E1 & E). apply slift_ok in E1. destruct E1 as [-> Fc].
    apply sbind_ok in E. destruct E as (s & fh & E1 & E). apply slift_ok in E1. destruct E1 as [-> Fh].
    apply sbind_ok in E. destruct E as (s & gross & E1 & E). apply slift_ok in E1. destruct E1 as [-> G].
    apply sbind_ok in E. destruct E as (s & [] & E1 & E). unfold put_rn, smod in E1. apply pair_ok_inj in E1.
    destruct E1 as [E1 _].
    apply sbind_ok in E. destruct E as (s2 & m & E2 & E). apply slift_ok in E2. destruct E2 as [-> _].
    apply sbind_ok in E. destruct E as (s2 & [] & E2 & E).
    assert (V : rview u' = rview s).
    { rewrite (keeps_ok rview _ _ _ _ (keeps_fold rview _ _ (rview_table_cops Heating net gross)) E).
      exact (keeps_ok rview _ _ _ _ (keeps_fold rview _ _ (rview_table_cops Cooling net gross)) E2). }
    unfold rview in V.
    assert (V1 : u_rn u' = wr_gross (Some gross) (u_rn u)) by (subst s; exact (f_equal (fun x => fst (fst (fst (fst x)))) V)).
    assert (V2 : u_fan u' = u_fan u) by (subst s; exact (f_equal (fun x => snd (fst (fst (fst x)))) V)).
    assert (V3 : u_staging u' = u_staging u) by (subst s; exact (f_equal (fun x => snd (fst (fst x))) V)).
    assert (V4 : sview (u_c u') = sview (u_c u)) by (subst s; exact (f_equal (fun x => snd (fst x)) V)).
    assert (V5 : sview (u_h u') = sview (u_h u)) by (subst s; exact (f_equal snd V)).
    split.
    { exists gross, fc, fh. rewrite V1. split; [reflexivity|].
      split; [rewrite <- Fc; apply fan_powers_same; [rewrite V1; reflexivity|unfold sview in V4; cbn [side_of]; congruence]|].
      split; [rewrite <- Fh; apply fan_powers_same; [rewrite V1; reflexivity|unfold sview in V5; cbn [side_of]; congruence]|].
      unfold ex in G. destruct (make_gross fc fh net) as [g [[]|e]]; congruence. }
    rewrite V1. repeat (split; [first [assumption|reflexivity]|]). reflexivity.
  Qed.

  Lemma capc_set_fan input : keeps capc (resnet_set_fan (T:=R) sol input).
  Proof.
    unfold resnet_set_fan, other_speed, add_rated_speed, add_design_speed, given_fan_speed, put_rated_fan_speed,
      put_fan_speed, last_fan_speed, side_put, put_rn.
    repeat (first [keep_step
      | match goal with |- keeps _ (on_side ?m _) => destruct m end
      | match goal with |- keeps _ (on_fan _) =>
        let u := fresh in intros u; unfold on_fan; destruct (u_fan u); [|reflexivity];
        match goal with |- context [let (_, _) := ?e in _] => destruct e end; reflexivity end ]; cbv zeta beta);
    try reflexivity.
  Qed.

  Definition fullv (u : U) := (sd_full (u_c u), sd_full (u_h u)).
  Lemma full_set_fan input : keeps fullv (resnet_set_fan (T:=R) sol input).
  Proof.
    unfold resnet_set_fan, other_speed, add_rated_speed, add_design_speed, given_fan_speed, put_rated_fan_speed,
      put_fan_speed, last_fan_speed, side_put, put_rn.
    repeat (first [keep_step
      | match goal with |- keeps _ (on_side ?m _) => destruct m end
      | match goal with |- keeps _ (on_fan _) =>
        let u := fresh in intros u; unfold on_fan; destruct (u_fan u); [|reflexivity];
        match goal with |- context [let (_, _) := ?e in _] => destruct e end; reflexivity end ]; cbv zeta beta);
    try reflexivity.
  Qed.

  (** What the construction established. *)
  Definition made qc qh (u0 : U) (old : option (perf R)) (net : perf R) (u : U) : Prop :=
    tabled qc qh u0 old net u /\ grossed net u.
  Definition fanned (u : U) : Prop :=
    exists motor, rn_motor (u_rn u) = Some motor /\ fan_ok sol (motor_class motor) u.

  Lemma adopt_inv (u u' : U) b : adopt_table_staging u = (u', Ok b) ->
    u_rn u' = u_rn u /\ config u' = config u /\ (forall p, rn_net (u_rn u) = Some p -> (0 < p_nc p)%nat).
  Proof.
    intros E. unfold adopt_table_staging in E. apply sbind_ok in E. destruct E as (s & x & E1 & E).
    unfold sget in E1. apply pair_ok_inj in E1. destruct E1 as [<- <-].
    destruct (rn_net (u_rn u)) as [p|] eqn:N.
    - apply sbind_ok in E. destruct E as (s & st0 & E1 & E). apply slift_ok in E1. destruct E1 as [-> E1].
      apply sbind_ok in E. destruct E as (s & [] & E2 & E). unfold smod in E2. apply pair_ok_inj in E2.
      destruct E2 as [E2 _].
      apply sbind_ok in E. destruct E as (s2 & [] & E3 & E).
      split; [|split].
      + assert (K : keeps (fun u : U => u_rn u) (set_placeholder_arrays (T:=R)))
          by (unfold set_placeholder_arrays; repeat (keep_step || (cbv zeta beta)); reflexivity).
        rewrite (keeps_ok _ _ _ _ _ K E).
        unfold both_sides in E3. apply sbind_ok in E3. destruct E3 as (s3 & [] & E4 & E3).
        apply on_side_inv in E3. apply on_side_inv in E4. subst s2 s3 s. reflexivity.
      + rewrite (f_equal fst (keeps_ok configc _ _ _ _ keeps_placeholders E) : config u' = config s2).
        unfold both_sides in E3. apply sbind_ok in E3. destruct E3 as (s3 & [] & E4 & E3).
        apply on_side_inv in E3. apply on_side_inv in E4. subst s2 s3 s. reflexivity.
      + intros p' Hp. assert (p' = p) by congruence. subst p'. unfold staging_of in E1.
        destruct (p_nc p); [discriminate|lia].
    - unfold sret in E. apply pair_ok_inj in E. destruct E as [<- _]. repeat (split; [reflexivity|]). congruence.
  Qed.

  Lemma lower_net : keeps (fun u : U => rn_net (u_rn u)) (set_lower_speed_net_capacities (T:=R) sol).
  Proof.
    unfold set_lower_speed_net_capacities, lower_speed, add_design_speed,
    put_rated_fan_speed, put_fan_speed, last_fan_speed, side_put.
    repeat (first [keep_step | match goal with |- keeps _ (on_fan _) =>
    let u := fresh in intros u; unfold on_fan; destruct (u_fan u); [|reflexivity];
    match goal with |- context [let (_, _) := ?e in _] => destruct e end; reflexivity end ]; cbv zeta beta).
  Qed.

  Lemma made_inv qc qh fo (u u' : U) b net :
    resnet_set_net_capacities_and_fan sol qc qh fo u = (u', Ok b) ->
    rn_map (u_rn u) = None -> rn_net (u_rn u') = Some net ->
    made qc qh u (rn_net (u_rn u)) net u' /\ (fo = None -> fanned u').
  Proof.
    intros H Mp N. unfold resnet_set_net_capacities_and_fan in H.
    apply sbind_ok in H. destruct H as (s1 & [] & E1 & H). destruct (adopt_inv _ _ _ E1) as (R1 & K1 & P1).
    apply sbind_ok in H. destruct H as (s2 & [] & E2 & H).
    apply sbind_ok in H. destruct H as (s3 & [] & E3 & H).
    apply sbind_ok in H. destruct H as (s4 & [] & E4 & H).
    pose proof (keeps_ok nview _ _ _ _ (nview_set_fan sol fo) E3) as V3.
    pose proof (keeps_ok capc _ _ _ _ (capc_set_fan fo) E3) as C3.
    pose proof (keeps_ok fullv _ _ _ _ (full_set_fan fo) E3) as Fv3. unfold fullv in Fv3.
    assert (FK : fo = None -> fanned s3).
    { intros ->. destruct (set_fan_ok sol _ _ _ E3) as (motor & A & B). exists motor. auto. }
    assert (G : (exists net', u_staging s2 = u_staging s1 /\ tabled qc qh s1 (rn_net (u_rn u)) net' s2
                 /\ List.length (capc s2) = List.length (speed_map (u_staging s2)))
                \/ (rn_net (u_rn s2) = rn_net (u_rn u) /\ rn_map (u_rn s2) = None)).
    { rewrite <- R1. destruct qh as [[x|lh]|].
      - left. destruct (caps_tabled _ _ _ _ _ E2) as (A & net' & B & C). exists net'. rewrite A at 2. auto.
      - right. apply sbind_ok in E2. destruct E2 as (z & [] & Z & E2). destruct qc as [x|lc]; [discriminate|].
        apply on_side_inv in Z. apply on_side_inv in E2. subst s2 z.
        split; [reflexivity|]. rewrite <- Mp, <- R1. reflexivity.
      - left. destruct (caps_tabled _ _ _ _ _ E2) as (A & net' & B & C). exists net'. rewrite A at 2. auto. }
    assert (N3 : rn_net (u_rn s3) = rn_net (u_rn s2)) by (unfold nview in V3; congruence).
    assert (M3 : rn_map (u_rn s3) = rn_map (u_rn s2)) by (unfold nview in V3; congruence).
    assert (S3 : u_staging s3 = u_staging s2) by (unfold nview in V3; congruence).
    pose proof (keeps_ok _ _ _ _ _ lower_net H) as N4. cbv beta in N4.
    assert (N2 : rn_net (u_rn s3) = Some net).
    { destruct (rn_net (u_rn s3)) as [net'|] eqn:E.
      - destruct (gross_inv net' _ _ _ E E4) as (_ & _ & _ & _ & _ & Q & _). congruence.
      - unfold setup_gross_table, sbind at 1, sget in E4. rewrite E in E4. unfold sret in E4.
        apply pair_ok_inj in E4. destruct E4 as [<- _]. congruence. }
    destruct (gross_inv net _ _ _ N2 E4) as (Gr & F4 & S4 & Vc & Vh & N4' & M4 & Mo4).
    destruct G as [(net' & S2 & (T1 & T2 & T4 & T5 & T3) & L)|(Na & Ma)].
    2:{ exfalso. destruct Gr as (gross & fc & fh & _ & Fc & _). rewrite N2, Na in N3.
        assert (Np : rn_net (u_rn u) = Some net) by congruence. specialize (P1 net Np).
        unfold table_fan_powers in Fc. rewrite M4, M3, Ma in Fc. destruct (p_nc net); [lia|]. discriminate. }
    assert (net' = net) by congruence. subst net'.
    assert (L4 : List.length (capc s4) = List.length (speed_map (u_staging s4))).
    { rewrite S4, S3. rewrite <- L. unfold sview in Vc. unfold capc in *. f_equal. congruence. }
    assert (E : u' = s4).
    { unfold set_lower_speed_net_capacities, sbind at 1, sget in H. destruct (u_staging s4) eqn:St.
      - unfold sret in H. apply pair_ok_inj in H. destruct H; auto.
      - unfold capc in L4. rewrite L4 in H. cbn [speed_map List.length Nat.eqb] in H.
        unfold sret in H. apply pair_ok_inj in H. destruct H; auto.
      - unfold sret in H. apply pair_ok_inj in H. destruct H; auto. }
    subst u'. split.
    - split; [|exact Gr]. split; [exact N|]. unfold sview in Vc, Vh.
      split; [rewrite M4, M3, T2, S4, S3; reflexivity|].
      split; [rewrite S4, S3; congruence|]. split; [rewrite S4, S3; congruence|].
      rewrite S4, S3. destruct T3 as [T3|[T3 (u1 & h & Ku & T6)]]; [left; exact T3|right].
      split; [exact T3|]. exists u1, h. split; [split; [destruct Ku; congruence|exact (options_rn _ _ _ _ _ (eq_sym R1) (proj2 Ku))]|exact T6].
    - intros Q. destruct (FK Q) as (motor & A & f & B1 & B2 & B3 & B4 & B5). exists motor.
      split; [congruence|]. exists f. unfold sview in Vc, Vh.
      split; [congruence|]. split; [exact B2|]. split; [exact B3|].
      split; [refine (rated_same sol f _ _ _ _ _ B4)|refine (rated_same sol f _ _ _ _ _ B5)]; congruence.
  Qed.

  (** ** The constructor *)
  Lemma rview_made qc qh u0 old net (u u' : U) : rview u' = rview u -> made qc qh u0 old net u -> made qc qh u0 old net u'.
  Proof.
    intros V ((A & B & C1 & C2 & C) & (gross & fc & fh & D & E & F & G)). unfold rview, sview in V.
    assert (V1 : u_rn u' = u_rn u) by congruence. assert (V2 : u_staging u' = u_staging u) by congruence.
    split; [split; [congruence|split; [congruence|split; [congruence|split; [congruence|rewrite V2; exact C]]]]|].
    exists gross, fc, fh. rewrite V1. split; [exact D|].
    split; [rewrite <- E; apply fan_powers_same; cbn [side_of]; congruence|].
    split; [rewrite <- F; apply fan_powers_same; cbn [side_of]; congruence|exact G].
  Qed.
  Lemma rview_fanned (u u' : U) : rview u' = rview u -> fanned u -> fanned u'.
  Proof.
    intros V (motor & A & f & B1 & B2 & B3 & B4 & B5). unfold rview, sview in V. exists motor.
    split; [congruence|]. exists f. split; [congruence|]. split; [exact B2|]. split; [exact B3|].
    split; [refine (rated_same sol f _ _ _ _ _ B4)|refine (rated_same sol f _ _ _ _ _ B5)]; congruence.
  Qed.

  Lemma finish_rview a (u0 u : U) b : finish_unit psy sol M a u0 = (u, Ok b) ->
    exists s1 s2 x, u_rn s1 = u_rn u0 /\ config s1 = config u0
      /\ resnet_set_net_capacities_and_fan sol (a_ccap a) (a_hcap a) (a_fan a) s1 = (s2, Ok x)
      /\ rview u = rview s2.
  Proof.
    intros E. unfold finish_unit in E.
    apply sbind_ok in E. destruct E as (s1 & x1 & E1 & E).
    apply sbind_ok in E. destruct E as (s2 & x2 & E2 & E).
    exists s1, s2, x2.
    assert (K1 : keeps (fun u : U => u_rn u) (set_placeholder_arrays (T:=R)))
      by (unfold set_placeholder_arrays; repeat (keep_step || (cbv zeta beta)); reflexivity).
    split; [exact (keeps_ok _ _ _ _ _ K1 E1)|].
    split; [exact (f_equal fst (keeps_ok configc _ _ _ _ keeps_placeholders E1))|]. split; [exact E2|].
    cbn [md_set_net_cop md_set_gross_cop RESNETDXModel] in E.
    match type of E with ?m s2 = _ => assert (K : keeps rview m) end.
    { repeat (first [ apply rview_esp | apply rview_put_gross | apply rview_conditions | apply rview_sensible
        | apply rview_net_cop | apply rview_gross_cop | keep_step
        | match goal with |- keeps _ (opt_set _ ?o) => destruct o; cbn [opt_set] end ]; cbv zeta beta). }
    exact (keeps_ok rview _ _ _ _ K E).
  Qed.

  Lemma built a (u : U) net :
    DXUnit psy sol M a = Ok u -> rn_net (u_rn u) = Some net ->
    (forall p, get_kwarg_value "tabular_data" (a_kwargs a) = KTable p -> interpolators_set p) ->
    (forall p, get_kwarg_value "tabular_data" (a_kwargs a) = KTable p -> net = p)
    /\ interpolators_set net /\ rn_map (u_rn u) = Some (speed_map (u_staging u)) /\ grossed net u
    /\ (a_fan a = None -> fanned u)
    /\ (sd_full (u_c u) = full_speed (u_staging u) /\ sd_full (u_h u) = full_speed (u_staging u))
    /\ (get_kwarg_value "tabular_data" (a_kwargs a) = KNone ->
        exists u0, init_unit M a = Ok u0 /\ table_built (a_ccap a) (a_hcap a) u0 (u_staging u) net).
  Proof.
    intros D N Hp. unfold DXUnit in D. apply rbind_ok in D. destruct D as (u0 & I & D).
    unfold ex in D. destruct (finish_unit psy sol M a u0) as [u1 [b|e]] eqn:E; [|discriminate].
    apply Ok_inj in D. subst u1.
    destruct (finish_rview _ _ _ _ E) as (s1 & s2 & x & R1 & K1 & E2 & V).
    assert (Rn : rn_map (u_rn u0) = None /\
      match get_kwarg_value "tabular_data" (a_kwargs a) with
      | KTable p => rn_net (u_rn u0) = Some p | _ => rn_net (u_rn u0) = None end).
    { unfold init_unit in I. apply rbind_ok in I. destruct I as (rn & Rn & I).
      cbv zeta in I. apply rbind_ok in I. destruct I as (stg & _ & I). apply Ok_inj in I. subst u0.
      cbn [u_rn]. unfold set_system in Rn. destruct (forallb _ _) in Rn; [|discriminate].
      apply rbind_ok in Rn. destruct Rn as (z & _ & Rn). cbn [md_process RESNETDXModel] in Rn.
      unfold resnet_process_kwargs in Rn.
      apply rbind_ok in Rn. destruct Rn as (tb & Tb & Rn).
      apply rbind_ok in Rn. destruct Rn as (x0 & _ & Rn).
      apply rbind_ok in Rn. destruct Rn as (x1 & _ & Rn). apply rbind_ok in Rn. destruct Rn as (x2 & _ & Rn).
      apply rbind_ok in Rn. destruct Rn as (x3 & _ & Rn). apply Ok_inj in Rn. subst rn.
      cbn [rn_map rn_net]. split; [reflexivity|].
      destruct (get_kwarg_value "tabular_data" (a_kwargs a)); cbn [kw_table] in Tb; congruence. }
    destruct Rn as (Mp & Nt). rewrite <- R1 in Mp, Nt.
    assert (N2 : rn_net (u_rn s2) = Some net) by (unfold rview in V; congruence).
    destruct (made_inv _ _ _ _ _ _ _ E2 Mp N2) as (Md & Fd).
    pose proof (rview_made _ _ _ _ _ _ _ V Md) as ((_ & Mm & Fl1 & Fl2 & Old) & Gr).
    split.
    { intros p Hk. rewrite Hk in Nt. destruct Old as [Old|[Old _]]; congruence. }
    split.
    { destruct Old as [Old|[_ Old]]; [|exact (built_ready _ _ _ _ _ Old)].
      destruct (get_kwarg_value "tabular_data" (a_kwargs a)) as [| | |p| |] eqn:Hk; try congruence.
      assert (p = net) by congruence. subst p. apply Hp. reflexivity. }
    split; [exact Mm|]. split; [exact Gr|]. split; [intros F; exact (rview_fanned _ _ V (Fd F))|].
    split; [split; assumption|]. intros Hk. rewrite Hk in Nt. exists u0. split; [exact I|].
    destruct Old as [Old|[_ (u1 & h & Ku & T6)]]; [congruence|]. exists u1, h.
    split; [split; [destruct Ku; congruence|exact (options_rn _ _ _ _ _ (eq_sym R1) (proj2 Ku))]|exact T6].
  Qed.
  (** Without a list of heating capacities there is a table. *)
  Lemma net_exists a (u : U) :
    DXUnit psy sol M a = Ok u -> (forall l, a_hcap a <> Some (Many l)) -> exists net, rn_net (u_rn u) = Some net.
  Proof.
    intros D Nl. unfold DXUnit in D. apply rbind_ok in D. destruct D as (u0 & I & D).
    unfold ex in D. destruct (finish_unit psy sol M a u0) as [u1 [b|e]] eqn:E; [|discriminate].
    apply Ok_inj in D. subst u1.
    destruct (finish_rview _ _ _ _ E) as (z1 & z2 & x & _ & _ & H & V).
    unfold resnet_set_net_capacities_and_fan in H.
    apply sbind_ok in H. destruct H as (s1 & [] & E1 & H).
    apply sbind_ok in H. destruct H as (s2 & [] & E2 & H).
    apply sbind_ok in H. destruct H as (s3 & [] & E3 & H).
    apply sbind_ok in H. destruct H as (s4 & [] & E4 & H).
    pose proof (keeps_ok nview _ _ _ _ (nview_set_fan sol (a_fan a)) E3) as V3.
    pose proof (keeps_ok _ _ _ _ _ lower_net H) as N4. cbv beta in N4.
    assert (G : exists net', rn_net (u_rn s2) = Some net').
    { destruct (a_hcap a) as [[y|l]|] eqn:Q; [|exfalso; exact (Nl l eq_refl)|];
        destruct (caps_tabled _ _ _ _ _ E2) as (_ & net' & (B & _) & _); exists net'; exact B. }
    destruct G as (net & G). exists net.
    assert (N3 : rn_net (u_rn s3) = Some net) by (unfold nview in V3; congruence).
    destruct (gross_inv net _ _ _ N3 E4) as (_ & _ & _ & _ & _ & Q & _).
    unfold rview in V. congruence.
  Qed.
End Table.
