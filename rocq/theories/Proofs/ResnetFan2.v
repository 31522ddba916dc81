(** The fan of a constructed RESNET unit to which none was given. *)
From Coq Require Import Reals QArith Lra Lia List Bool String.
From Verif.Base Require Import Num Res Tac.
From Verif.Model Require Import Units Util Psychrometrics Conditions Fan Tabular Unit NREL BaseModel Title24 Resnet DXUnit.
From Verif.Spec Require Import NrelSpec DefaultSpec RatedSpec ResnetFanSpec.
From Verif.Proofs Require Import UnitsR FanProofs Frame SingleFan SingleUnit UnitProofs RatedFan RatedTable Unbuildable ResnetFan.
Import ListNotations.
Local Open Scope R_scope.

Definition fside (s : side R) :=
  (sd_full s, sd_net_cap s, sd_fan_power s, sd_airflow s, sd_rated_fan_speed s, sd_esp s, sd_fan_speed s, sd_flow_per_cap s).
Definition tview (u : dxunit R) := (u_fan u, u_staging u, u_ducted u, u_standard u, fside (u_c u), fside (u_h u)).
Definition fquiet {A} (set : A -> side R -> side R) : Prop := forall l s, fside (set l s) = fside s.
Lemma tview_side_put m get set i v : fquiet set -> keeps tview (side_put (T:=R) m get set i v).
Proof.
  intros H. unfold side_put. keep. destruct m; unfold tview; cbn [u_fan u_staging u_ducted u_standard u_c u_h wu_side wu_c wu_h side_of];
    rewrite H; reflexivity.
Qed.
Lemma tview_comp m set g : fquiet set -> keeps tview (set_comp (T:=R) m set g).
Proof.
  intros H. unfold set_comp. keep. destruct m; unfold tview; cbn [u_fan u_staging u_ducted u_standard u_c u_h wu_side wu_c wu_h side_of];
    rewrite H; reflexivity.
Qed.
Lemma tview_entry m get set i g : fquiet set -> keeps tview (set_entry (T:=R) m get set i g).
Proof.
  intros H. unfold set_entry. apply keeps_bind; [keep|]. intros.
  apply keeps_bind; [keep|]. intros. apply tview_side_put. auto.
Qed.
Ltac keept :=
  repeat (first
    [ keep_step
    | apply tview_side_put; intros ? ?; reflexivity
    | apply tview_comp; intros ? ?; reflexivity
    | apply tview_entry; intros ? ?; reflexivity
    | match goal with |- keeps _ (opt_set _ ?o) => destruct o; cbn [opt_set] end ]; cbv zeta beta).

Section Unit.
  Variable psy : psychro R.
  Variable sol : solvers R.
  Notation U := (dxunit R).
  Notation M := (RESNETDXModel psy sol).

  Lemma tview_tail a (s u : U) b :
    (reset_full_esp ;;;
    do u <- sget ;;
    sfold (put_gross_capacity Cooling) (seq 0 (sd_n (u_c u))) ;;;
    sfold (put_gross_capacity Heating) (seq 0 (sd_n (u_h u))) ;;;
    do crank <- match a_crank a with
                | Some x => sret x
                | None => sread (fun u =>
                    let! q := geti (sd_net_cap (u_c u)) (sd_full (u_c u)) in
                    Ok (lit 10 * to_ton q)%num)
                end ;;
    smod (wu_crank (Some crank)) ;;;
    set_rating_conditions psy ;;;
    set_sensible_cooling_variables psy sol M ;;;
    slift (guard RuntimeError
             (negb (absent_kw (a_net_ccop a) && absent_kw (a_gross_ccop a)))) ;;;
    slift (guard RuntimeError
             (negb (absent_kw (a_net_hcop a) && absent_kw (a_gross_hcop a)))) ;;;
    opt_set (md_set_net_cop M Cooling) (a_net_ccop a) ;;;
    opt_set (md_set_gross_cop M Cooling) (a_gross_ccop a) ;;;
    opt_set (md_set_net_cop M Heating) (a_net_hcop a) ;;;
    opt_set (md_set_gross_cop M Heating) (a_gross_hcop a) ;;;
    sread check_array_lengths ;;;
    sread (fun u => check_array_order (sd_net_cap (u_c u))) ;;;
    sread (fun u => check_array_order (sd_net_cap (u_h u)))) s = (u, Ok b) -> tview u = tview s.
  Proof.
    intros E. cbn [md_set_net_cop md_set_gross_cop RESNETDXModel] in E.
    match type of E with ?m s = _ => assert (K : keeps tview m) end.
    { unfold set_rating_conditions, reset_full_esp, put_gross_capacity, put_cond, set_sensible_cooling_variables, set_sensible_at,
        calculate_rated_bypass_factor, unless_table, nrel_set_net_cop, nrel_set_gross_cop, derive_from_net_cop,
        derive_from_gross_cop.
      keept. }
    exact (keeps_ok _ _ _ _ _ K E).
  Qed.
  Lemma tview_gross : keeps tview (setup_gross_table (T:=R)).
  Proof. unfold setup_gross_table, put_table_cops, put_rn. keept. Qed.

  (** Before the fan is set. *)
  Definition flowv (u : U) := (sd_flow_per_cap (u_c u), sd_flow_per_cap (u_h u), rn_motor (u_rn u), u_ducted u, u_standard u).
  Ltac keepv := repeat (first [keep_step
      | match goal with |- keeps _ (on_side ?m _) => destruct m end
      | match goal with |- keeps _ (opt_set _ ?o) => destruct o; cbn [opt_set] end ]; cbv zeta beta); try reflexivity.
  Lemma flowv_place : keeps flowv (set_placeholder_arrays (T:=R)).
  Proof. unfold set_placeholder_arrays. keepv. Qed.
  Lemma flowv_adopt : keeps flowv (adopt_table_staging (T:=R)).
  Proof. unfold adopt_table_staging, both_sides, set_placeholder_arrays. keepv. Qed.
  Lemma flowv_caps qc qh : keeps flowv (capacities_from_table (T:=R) qc qh).
  Proof. unfold capacities_from_table, both_sides, ensure_table, put_rn. keepv. Qed.

  Definition dview (u : U) := (sd_full (u_c u), sd_full (u_h u), u_staging u, u_ducted u, u_standard u).
  Lemma dview_set_fan f : keeps dview (resnet_set_fan (T:=R) sol f).
  Proof.
    unfold resnet_set_fan, other_speed, add_rated_speed, add_design_speed, given_fan_speed, put_rated_fan_speed,
      put_fan_speed, last_fan_speed, side_put, put_rn.
    repeat (first [keep_step
      | match goal with |- keeps _ (on_side ?m _) => destruct m end
      | match goal with |- keeps _ (on_fan _) =>
        let u := fresh in intros u; unfold on_fan; destruct (u_fan u); [|reflexivity];
        match goal with |- context [let (_, _) := ?e in _] => destruct e end; reflexivity end ]; cbv zeta beta);
    try reflexivity.
  Qed.

  (** A second speed cannot be derived from lists of one capacity: the arrays have one entry. *)
  Definition gview (u : U) := (List.length (sd_gross_cap (u_c u)), rn_net (u_rn u)).
  Lemma gview_set_fan f : keeps gview (resnet_set_fan (T:=R) sol f).
  Proof.
    unfold resnet_set_fan, other_speed, add_rated_speed, add_design_speed, given_fan_speed, put_rated_fan_speed,
      put_fan_speed, last_fan_speed, side_put, put_rn.
    repeat (first [keep_step
      | match goal with |- keeps _ (on_side ?m _) => destruct m end
      | match goal with |- keeps _ (on_fan _) =>
        let u := fresh in intros u; unfold on_fan; destruct (u_fan u); [|reflexivity];
        match goal with |- context [let (_, _) := ?e in _] => destruct e end; reflexivity end ]; cbv zeta beta);
    try reflexivity; try (destruct m; reflexivity).
  Qed.
  Lemma lower_dead a (u0 z1 s1 s2 s3 s4 z2 u : U) b x lh f :
    DXUnit psy sol M a = Ok u -> init_unit M a = Ok u0 -> set_placeholder_arrays u0 = (z1, Ok tt) ->
    adopt_table_staging z1 = (s1, Ok tt) -> gview s2 = gview s1 ->
    resnet_set_fan sol f s2 = (s3, Ok tt) -> setup_gross_table s3 = (s4, Ok tt) ->
    a_ccap a = Many [x] -> a_hcap a = Some (Many lh) ->
    (lower_speed sol Cooling ;;; lower_speed sol Heating) s4 = (z2, Ok b) -> False.
  Proof.
    intros D I P A G2 G3 G4 Hc Hh H.
    assert (Nt : rn_net (u_rn u0) = None).
    { destruct (init_table psy sol a u0 I) as [_ Np].
      destruct (get_kwarg_value "tabular_data" (a_kwargs a)) eqn:K; try contradiction; [exact Np|].
      destruct (resnet_tables psy sol a u _ K D) as (_ & _ & NL & _). exfalso. exact (NL lh Hh). }
    assert (N1 : sd_n (u_c u0) = 1%nat).
    { unfold init_unit in I. apply rbind_ok in I. destruct I as (rn & Rn & I).
      cbv zeta in I. apply rbind_ok in I. destruct I as (stg & _ & I). apply Ok_inj in I. subst u0.
      cbn [u_c]. rewrite Hc. reflexivity. }
    assert (V1 : gview z1 = (1%nat, None)).
    { unfold set_placeholder_arrays, smod in P. apply pair_ok_inj in P. destruct P as [<- _].
      unfold gview. cbn. rewrite N1, Nt. reflexivity. }
    assert (V2 : gview s1 = (1%nat, None)).
    { unfold adopt_table_staging in A. apply sbind_ok in A. destruct A as (z & y & Ez & A).
      unfold sget in Ez. apply pair_ok_inj in Ez. destruct Ez as [<- <-].
      assert (Q : rn_net (u_rn z1) = None) by (unfold gview in V1; congruence). rewrite Q in A.
      unfold sret in A. apply pair_ok_inj in A. destruct A as [<- _]. exact V1. }
    assert (V3 : gview s3 = (1%nat, None)).
    { rewrite (keeps_ok gview _ _ _ _ (gview_set_fan f) G3). congruence. }
    assert (V4 : gview s4 = (1%nat, None)).
    { unfold setup_gross_table in G4. apply sbind_ok in G4. destruct G4 as (z & y & Ez & G4).
      unfold sget in Ez. apply pair_ok_inj in Ez. destruct Ez as [<- <-].
      assert (Q : rn_net (u_rn s3) = None) by (unfold gview in V3; congruence). rewrite Q in G4.
      unfold sret in G4. apply pair_ok_inj in G4. destruct G4 as [<- _]. exact V3. }
    apply sbind_ok in H. destruct H as (w0 & y0 & H & _). unfold lower_speed in H. cbv zeta in H.
    apply sbind_ok in H. destruct H as (w1 & fp & E1 & H). unfold sread in E1. apply pair_ok_inj in E1 || (destruct (_ : res R) in E1; [apply pair_ok_inj in E1|discriminate]).
    destruct E1 as [<- _].
    apply sbind_ok in H. destruct H as (w2 & [] & E2 & H). apply side_put_inv in E2. destruct E2 as [E2 _].
    apply sbind_ok in H. destruct H as (w3 & y & E3 & H). unfold sget in E3. apply pair_ok_inj in E3. destruct E3 as [<- <-].
    apply sbind_ok in H. destruct H as (w3 & q0 & E3 & H). apply slift_ok in E3. destruct E3 as [-> E3].
    apply sbind_ok in H. destruct H as (w4 & [] & E4 & H). apply side_put_inv in E4. destruct E4 as [E4 _].
    apply sbind_ok in H. destruct H as (w5 & [] & E5 & _). apply side_put_inv in E5. destruct E5 as [_ E5].
    subst w4 w2. cbn [side_of wu_side wu_c u_c ws_fan_power ws_gross_cap sd_gross_cap] in E5.
    rewrite upd_length in E5. unfold gview in V4. injection V4 as L _. rewrite L in E5. lia.
  Qed.

  Lemma built_fan a (u : U) :
    DXUnit psy sol M a = Ok u -> a_fan a = None ->
    exists s2 s3 b, resnet_set_fan sol None s2 = (s3, Ok b) /\ tview u = tview s3
      /\ sd_flow_per_cap (u_c s2) = a_cflow a /\ sd_flow_per_cap (u_h s2) = a_hflow a
      /\ Ok (rn_motor (u_rn s2)) = kw_motor (get_kwarg_value "motor_type" (a_kwargs a)).
  Proof.
    intros D F. pose proof D as D0. unfold DXUnit in D. apply rbind_ok in D. destruct D as (u0 & I & D).
    unfold ex in D. destruct (finish_unit psy sol M a u0) as [u1 [b|e]] eqn:E; [|discriminate].
    apply Ok_inj in D. subst u1.
    assert (V0 : sd_flow_per_cap (u_c u0) = a_cflow a /\ sd_flow_per_cap (u_h u0) = a_hflow a
      /\ Ok (rn_motor (u_rn u0)) = kw_motor (get_kwarg_value "motor_type" (a_kwargs a))).
    { unfold init_unit in I. apply rbind_ok in I. destruct I as (rn & Rn & I).
      cbv zeta in I. apply rbind_ok in I. destruct I as (stg & _ & I). apply Ok_inj in I. subst u0.
      cbn [u_rn u_c u_h]. split; [reflexivity|]. split; [reflexivity|].
      unfold set_system in Rn. destruct (forallb _ _) in Rn; [|discriminate].
      apply rbind_ok in Rn. destruct Rn as (z & _ & Rn). cbn [md_process RESNETDXModel] in Rn.
      unfold resnet_process_kwargs in Rn.
      apply rbind_ok in Rn. destruct Rn as (tb & Tb & Rn).
      apply rbind_ok in Rn. destruct Rn as (x0 & X0 & Rn).
      apply rbind_ok in Rn. destruct Rn as (x1 & _ & Rn). apply rbind_ok in Rn. destruct Rn as (x2 & _ & Rn).
      apply rbind_ok in Rn. destruct Rn as (x3 & _ & Rn). apply Ok_inj in Rn. subst rn.
      cbn [rn_motor]. symmetry. exact X0. }
    unfold finish_unit in E.
    apply sbind_ok in E. destruct E as (z1 & x1 & E1 & E).
    pose proof (keeps_ok flowv _ _ _ _ flowv_place E1) as V1.
    apply sbind_ok in E. destruct E as (z2 & x2 & E2 & E).
    pose proof (tview_tail a z2 u b E) as T.
    cbn [md_set_net_capacities_and_fan RESNETDXModel] in E2. rewrite F in E2. clear E.
    unfold resnet_set_net_capacities_and_fan in E2. rename E2 into H.
    apply sbind_ok in H. destruct H as (s1 & [] & G1 & H).
    apply sbind_ok in H. destruct H as (s2 & [] & G2 & H).
    apply sbind_ok in H. destruct H as (s3 & [] & G3 & H).
    apply sbind_ok in H. destruct H as (s4 & [] & G4 & H).
    pose proof (keeps_ok flowv _ _ _ _ flowv_adopt G1) as V2.
    pose proof (keeps_ok nview _ _ _ _ (nview_set_fan sol None) G3) as V3.
    pose proof (keeps_ok capc _ _ _ _ (capc_set_fan sol None) G3) as C3.
    pose proof (keeps_ok tview _ _ _ _ tview_gross G4) as T4.
    assert (V4 : flowv s2 = flowv s1 /\ (List.length (capc s2) = List.length (speed_map (u_staging s2)) \/
        exists l lh, a_ccap a = Many l /\ capc s2 = l /\ a_hcap a = Some (Many lh) /\ gview s2 = gview s1)).
    { destruct (a_hcap a) as [[x|lh]|] eqn:Hh.
      - split; [exact (keeps_ok flowv _ _ _ _ (flowv_caps _ _) G2)|left].
        destruct (caps_tabled _ _ _ _ _ G2) as (A & net' & B & C). rewrite A. exact C.
      - apply sbind_ok in G2. destruct G2 as (z & [] & Z & G2). destruct (a_ccap a) as [x|lc]; [discriminate|].
        apply on_side_inv in Z. apply on_side_inv in G2. subst s2 z.
        split; [reflexivity|right]. exists lc, lh. repeat split.
      - split; [exact (keeps_ok flowv _ _ _ _ (flowv_caps _ _) G2)|left].
        destruct (caps_tabled _ _ _ _ _ G2) as (A & net' & B & C). rewrite A. exact C. }
    destruct V4 as [V4 L].
    assert (S4 : u_staging s4 = u_staging s2).
    { unfold tview in T4. unfold nview in V3. congruence. }
    assert (L4 : u_staging s4 = TWO_STAGE -> List.length (sd_net_cap (u_c s4)) <> 1%nat \/ exists x lh, a_ccap a = Many [x] /\ a_hcap a = Some (Many lh) /\ gview s2 = gview s1).
    { intros St. assert (Q : sd_net_cap (u_c s4) = capc s2) by (unfold tview, fside in T4; unfold capc in *; congruence).
      rewrite Q. destruct L as [L|(l & lh & L1 & L2 & L3 & L5)].
      - left. rewrite L, <- S4, St. cbn. lia.
      - rewrite L2. destruct l as [|x [|y l]]; [left; cbn; lia|right; exists x, lh; auto|left; cbn; lia]. }
    assert (Z : z2 = s4).
    { unfold set_lower_speed_net_capacities in H.
      apply sbind_ok in H. destruct H as (z & y & Ez & H). unfold sget in Ez. apply pair_ok_inj in Ez. destruct Ez as [<- <-].
      destruct (u_staging s4) eqn:St;
        try (unfold sret in H; apply pair_ok_inj in H; destruct H; auto; fail).
      destruct (Nat.eqb_spec (List.length (sd_net_cap (u_c s4))) 1) as [Q|Q];
        [|unfold sret in H; apply pair_ok_inj in H; destruct H; auto].
      exfalso. destruct (L4 eq_refl) as [L5|(x & lh & X1 & X2 & X3)]; [contradiction|]. destruct x1.
      exact (lower_dead a u0 z1 s1 s2 s3 s4 z2 u x2 x lh None D0 I E1 G1 X3 G3 G4 X1 X2 H). }
    subst z2. exists s2, s3, tt. split; [exact G3|]. split; [congruence|].
    unfold flowv in *. destruct V0 as (A1 & A2 & A3). split; [congruence|]. split; [congruence|].
    rewrite <- A3. f_equal. congruence.
  Qed.

  Lemma fl400 : fr_cfm_per_ton (T:=R) (lit 400) = per_ton 400.
  Proof. unfold fr_cfm_per_ton, cfm, ton_ref, btu_h, per_ton. rnum. field. Qed.
  Lemma flow_wanted m a (s s' : side R) i x : sd_flow_per_cap s = flow_given m a ->
    sd_flow_per_cap s' = given_flow s -> flow_per_cap s' i = Ok x -> wanted_flow m a i x.
  Proof.
    unfold flow_per_cap, given_flow, wanted_flow, list_default. intros -> ->.
    destruct (flow_given m a) as [[y|l]|]; intros H.
    - apply geti_ok, nth_error_In, repeat_spec in H. exact H.
    - apply geti_ok in H. exact H.
    - apply geti_ok, nth_error_In, repeat_spec in H. rewrite H. exact fl400.
  Qed.
  Lemma done_serves P f (s s' : side R) i ref q : rclass f -> fside s' = fside s -> done sol P f s i ref ->
    nth_error (sd_net_cap s') i = Some q ->
    exists x p w, flow_per_cap s' i = Ok x /\ fan_serves sol f s' i (q * x) p w /\ ref <> 0
      /\ p = P * ((q * x / ref) * (q * x / ref)).
  Proof.
    intros K V (q' & x & k & kd & p & w & l & l' & A1 & A2 & A3 & A4 & A5 & A6 & A7 & A8 & A9 & B1 & B2 & B3 & B4 & B5) Hq.
    unfold fside in V. assert (q' = q) by congruence. subst q'. exists x, p, w.
    assert (Af : forall k v p', geti (f_airflow f) k = Ok v -> airflow sol f k p' = Ok v).
    { intros k0 v p' G. unfold airflow. destruct K as [K|K]; rewrite K; exact G. }
    split; [unfold flow_per_cap in *; assert (Q : sd_flow_per_cap s' = sd_flow_per_cap s) by congruence; rewrite Q; exact A2|].
    split; [|split; [exact B4|exact B5]]. unfold fan_serves, entry.
    split; [congruence|]. split; [congruence|]. split; [congruence|].
    split; [exists l, kd; split; [congruence|split; [exact A5|intros p'; exact (Af _ _ _ B3)]]|].
    exists l', k. split; [congruence|]. split; [exact A7|]. split; [intros p'; exact (Af _ _ _ B2)|exact B1].
  Qed.

  Theorem resnet_fan a (u : U) :
    DXUnit psy sol M a = Ok u -> a_fan a = None ->
    exists f k P ac ah,
      u_fan u = Some f /\ motor_for a u k /\ (f_class f = motor_fan k /\ f_design_esp f = fr_inH2O (lit 0.5))
      /\ get_rated_full_flow_rated_pressure u = Ok P
      /\ entry (sd_airflow (u_c u)) (sd_full (u_c u)) ac /\ entry (sd_airflow (u_h u)) (sd_full (u_h u)) ah
      /\ (forall p, airflow sol f 0 p = Ok (Rmax ac ah))
      /\ forall m i q, nth_error (sd_net_cap (side_of m u)) i = Some q ->
         exists x p w v0, wanted_flow m a i x /\ fan_serves sol f (side_of m u) i (q * x) p w
           /\ entry (sd_airflow (side_of m u)) 0 v0
           /\ let ref := if Nat.eqb i (sd_full (side_of m u)) then Rmax ac ah else v0 in
              ref <> 0 /\ p = P * ((q * x / ref) * (q * x / ref)).
  Proof.
    intros B F. destruct (built_fan a u B F) as (s2 & s3 & b & E & T & Fc & Fh & Mo).
    pose proof (keeps_ok dview _ _ _ _ (dview_set_fan None) E) as Dv.
    destruct (set_fan_done sol _ _ _ E) as (f & P & ac & ah & G). cbv zeta in G.
    destruct G as (G1 & G2 & G3 & G4 & G5 & G6 & G7 & G8 & G9).
    assert (Hm : (if Rle_dec ah ac then ac else ah) = Rmax ac ah).
    { unfold Rmax. destruct (Rle_dec ah ac), (Rle_dec ac ah); lra. }
    rewrite Hm in *.
    assert (Tm : forall m, fside (side_of m u) = fside (side_of m s3)).
    { unfold tview in T. intros [|]; cbn [side_of]; congruence. }
    assert (Tf : u_fan u = u_fan s3) by (unfold tview in T; congruence).
    assert (Fm : forall m, sd_full (side_of m u) = sd_full (side_of m s2)).
    { intros m. specialize (Tm m). unfold fside in Tm. unfold dview in Dv. destruct m; cbn [side_of] in *; congruence. }
    exists f, (the_motor s2), P, ac, ah. split; [congruence|]. split.
    { unfold motor_for, the_motor.
      assert (S : u_staging u = u_staging s2) by (unfold tview in T; unfold dview in Dv; congruence). rewrite S.
      destruct (get_kwarg_value "motor_type" (a_kwargs a)); cbn [kw_motor] in Mo; try discriminate;
        apply Ok_inj in Mo; rewrite Mo; reflexivity. }
    split; [exact G4|]. split.
    { rewrite <- G1. unfold get_rated_full_flow_rated_pressure.
      assert (D1 : u_ducted u = u_ducted s2) by (unfold tview in T; unfold dview in Dv; congruence).
      assert (D2 : u_standard u = u_standard s2) by (unfold tview in T; unfold dview in Dv; congruence).
      assert (D3 : sd_net_cap (u_c u) = sd_net_cap (u_c s2)).
      { pose proof (Tm Cooling) as Tc. unfold fside in Tc. unfold caps in G6. cbn [side_of] in Tc. congruence. }
      rewrite D1, D2, D3. reflexivity. }
    split; [pose proof (Tm Cooling) as Tc; unfold fside in Tc; pose proof (Fm Cooling); cbn [side_of] in *; unfold entry; congruence|].
    split; [pose proof (Tm Heating) as Tc; unfold fside in Tc; pose proof (Fm Heating); cbn [side_of] in *; unfold entry; congruence|].
    split.
    { intros p. unfold airflow. destruct (proj1 G3) as [K|K]; rewrite K; exact G5. }
    intros m i q Hq. destruct (G9 m) as (H1 & v0 & H2 & H3).
    set (ref := if Nat.eqb i (sd_full (side_of m u)) then Rmax ac ah else v0).
    assert (Hd : done sol P f (side_of m s3) i ref).
    { unfold ref. rewrite Fm. destruct (Nat.eqb_spec i (sd_full (side_of m s2))) as [->|Ni]; [exact H1|].
      apply H3; [|exact Ni]. assert (Q : sd_net_cap (side_of m u) = sd_net_cap (side_of m s2)).
      { specialize (Tm m). unfold fside in Tm. unfold caps in G6. destruct m; cbn [side_of] in *; congruence. }
      rewrite <- Q. apply nth_error_Some. congruence. }
    destruct (done_serves P f _ _ i ref q (proj1 G3) (Tm m) Hd Hq) as (x & p & w & J1 & J2 & J3 & J4).
    exists x, p, w, v0. split; [|split; [exact J2|split; [|split; [exact J3|exact J4]]]].
    - apply (flow_wanted m a (side_of m s2) (side_of m u)); [destruct m; assumption| |exact J1].
      specialize (Tm m). unfold fside in Tm. unfold caps in G6. destruct m; cbn [side_of] in *; congruence.
    - unfold entry. specialize (Tm m). unfold fside in Tm. congruence.
  Qed.

  (** The full-flow pressure stored with the unit. *)
  Definition pview (u : U) := (u_full_esp u, u_ducted u, u_standard u, sd_net_cap (u_c u)).
  Definition pquiet {A} (set : A -> side R -> side R) : Prop := forall l s, sd_net_cap (set l s) = sd_net_cap s.
  Lemma pview_side_put m get set i v : pquiet set -> keeps pview (side_put (T:=R) m get set i v).
  Proof.
    intros H. unfold side_put. keep. destruct m; unfold pview;
      cbn [u_full_esp u_ducted u_standard u_c u_h wu_side wu_c wu_h side_of]; rewrite ?H; reflexivity.
  Qed.
  Lemma pview_comp m set g : pquiet set -> keeps pview (set_comp (T:=R) m set g).
  Proof.
    intros H. unfold set_comp. keep. destruct m; unfold pview;
      cbn [u_full_esp u_ducted u_standard u_c u_h wu_side wu_c wu_h side_of]; rewrite ?H; reflexivity.
  Qed.
  Lemma pview_entry m get set i g : pquiet set -> keeps pview (set_entry (T:=R) m get set i g).
  Proof.
    intros H. unfold set_entry. apply keeps_bind; [keep|]. intros.
    apply keeps_bind; [keep|]. intros. apply pview_side_put. auto.
  Qed.
  Ltac keepp :=
    repeat (first
      [ keep_step
      | apply pview_side_put; intros ? ?; reflexivity
      | apply pview_comp; intros ? ?; reflexivity
      | apply pview_entry; intros ? ?; reflexivity
      | match goal with |- keeps _ (opt_set _ ?o) => destruct o; cbn [opt_set] end ]; cbv zeta beta).

  Lemma stored_pressure a (u : U) : DXUnit psy sol M a = Ok u ->
    exists P, u_full_esp u = Some P /\ get_rated_full_flow_rated_pressure u = Ok P.
  Proof.
    intros D. unfold DXUnit in D. apply rbind_ok in D. destruct D as (u0 & I & D).
    unfold ex in D. destruct (finish_unit psy sol M a u0) as [u1 [b|e]] eqn:E; [|discriminate].
    apply Ok_inj in D. subst u1. unfold finish_unit in E.
    do 3 (apply sbind_ok in E; destruct E as (? & ? & _ & E)).
    apply sbind_ok in E; destruct E as (? & ? & _ & E).
    do 2 (apply sbind_ok in E; destruct E as (? & ? & _ & E)).
    do 2 (apply sbind_ok in E; destruct E as (? & ? & _ & E)).
    apply sbind_ok in E. destruct E as (z2 & [] & E1 & E).
    assert (K : pview u = pview z2).
    { cbn [md_set_net_cop md_set_gross_cop RESNETDXModel] in E.
      match type of E with ?m z2 = _ => assert (K : keeps pview m) end.
      { unfold set_sensible_cooling_variables, set_sensible_at,
          calculate_rated_bypass_factor, unless_table, nrel_set_net_cop, nrel_set_gross_cop, derive_from_net_cop,
          derive_from_gross_cop. keepp. }
      exact (keeps_ok _ _ _ _ _ K E). }
    clear E. unfold set_rating_conditions in E1. apply sbind_ok in E1. destruct E1 as (z1 & y & E0 & E1).
    assert (K1 : pview z2 = pview z1).
    { match type of E1 with ?m z1 = _ => assert (K1 : keeps pview m) end.
      { unfold put_cond. keepp. }
      exact (keeps_ok _ _ _ _ _ K1 E1). }
    unfold reset_full_esp in E0. apply sbind_ok in E0. destruct E0 as (z0 & p & E2 & E0).
    apply sread_ok in E2. destruct E2 as [-> E2]. unfold smod in E0. apply pair_ok_inj in E0. destruct E0 as [E0 _].
    exists p. unfold pview in *. split; [subst z1; cbn [u_full_esp wu_full_esp] in *; congruence|].
    rewrite <- E2. unfold get_rated_full_flow_rated_pressure.
    match goal with |- _ = (if negb (u_ducted ?z) then _ else _) =>
      assert (A1 : u_ducted u = u_ducted z) by (subst z1; cbn [u_ducted wu_full_esp] in *; congruence);
      assert (A2 : u_standard u = u_standard z) by (subst z1; cbn [u_standard wu_full_esp] in *; congruence);
      assert (A3 : sd_net_cap (u_c u) = sd_net_cap (u_c z)) by (subst z1; cbn [u_c wu_full_esp] in *; congruence) end.
    rewrite A1, A2, A3. reflexivity.
  Qed.
End Unit.
