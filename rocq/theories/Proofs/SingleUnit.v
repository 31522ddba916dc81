(** A single-stage RESNET unit after [set_net_capacities_and_fan]. *)
From Coq Require Import Reals QArith Lra Lia List Bool String.
From Verif.Base Require Import Num Res Tac.
From Verif.Model Require Import Units Util Psychrometrics Conditions Defrost Fan Tabular Unit NREL BaseModel
  Title24 Resnet DXUnit.
From Verif.Spec Require Import TabularSpec.
From Verif.Proofs Require Import UnitsR FanProofs Frame SingleFan SingleFan2 SingleTable TabBuild TabGross.
Import ListNotations.
Local Open Scope R_scope.

(** What later construction steps leave alone. *)
Definition sview (s : side R) :=
  (sd_n s, sd_full s, sd_low s, sd_net_cap s, sd_fan_power s, sd_airflow s, sd_rated_fan_speed s, sd_esp s).
Definition rview (u : dxunit R) :=
  (u_rn u, u_fan u, u_staging u, sview (u_c u), sview (u_h u)).

Definition squiet {A} (set : A -> side R -> side R) : Prop :=
  forall l s, sview (set l s) = sview s.
Lemma rview_side_put m get set i v :
  squiet set -> keeps rview (side_put (T:=R) m get set i v).
Proof.
  intros H. unfold side_put. keep. destruct m; unfold rview; cbn [u_rn u_fan u_staging u_c u_h wu_side wu_c wu_h side_of];
    rewrite H; reflexivity.
Qed.
Lemma rview_comp m set g : squiet set -> keeps rview (set_comp (T:=R) m set g).
Proof.
  intros H. unfold set_comp. keep. destruct m; unfold rview; cbn [u_rn u_fan u_staging u_c u_h wu_side wu_c wu_h side_of];
    rewrite H; reflexivity.
Qed.
Lemma rview_entry m get set i g : squiet set -> keeps rview (set_entry (T:=R) m get set i g).
Proof.
  intros H. unfold set_entry. apply keeps_bind; [keep|]. intros.
  apply keeps_bind; [keep|]. intros. apply rview_side_put. auto.
Qed.
Ltac keepr :=
  repeat (first
    [ keep_step
    | apply rview_side_put; intros ? ?; reflexivity
    | apply rview_comp; intros ? ?; reflexivity
    | apply rview_entry; intros ? ?; reflexivity ]; cbv zeta beta).

Section Single.
  Variable psy : psychro R.
  Variable sol : solvers R.
  Notation U := (dxunit R).

  Lemma rview_table_cops m net gross is : keeps rview (put_table_cops (T:=R) m net gross is).
  Proof. unfold put_table_cops. keepr. Qed.
  Lemma rview_net_cop m v : keeps rview (unless_table (nrel_set_net_cop (T:=R) m v)).
  Proof. unfold unless_table, nrel_set_net_cop, derive_from_net_cop. keepr. Qed.
  Lemma rview_gross_cop m v : keeps rview (unless_table (nrel_set_gross_cop (T:=R) m v)).
  Proof. unfold unless_table, nrel_set_gross_cop, derive_from_gross_cop. keepr. Qed.
  Lemma rview_put_gross m i : keeps rview (put_gross_capacity (T:=R) m i).
  Proof. unfold put_gross_capacity. keepr. Qed.
  Lemma rview_esp : keeps rview (reset_full_esp (T:=R)).
  Proof. unfold reset_full_esp. keepr. Qed.
  Lemma rview_put_cond set m s o : keeps rview (put_cond (T:=R) psy set m s o).
  Proof. unfold put_cond. keepr. Qed.
  Lemma rview_conditions : keeps rview (set_rating_conditions (T:=R) psy).
  Proof.
    unfold set_rating_conditions. repeat (first [apply rview_esp | apply rview_put_cond | keep_step]).
  Qed.
  Lemma rview_sensible M : keeps rview (set_sensible_cooling_variables (T:=R) psy sol M).
  Proof.
    unfold set_sensible_cooling_variables, set_sensible_at, calculate_rated_bypass_factor. keepr.
  Qed.

  (** * Tables and capacities *)
  Definition heating_default (q : R) (qh : option R) : R :=
    match qh with Some x => x | None => q * lit 0.98 + fr_Btuh (lit 180) end%num.

  (** One entry per array of the side. *)
  Definition one_entry (s : side R) : Prop :=
    sd_n s = 1%nat
    /\ (exists x, sd_airflow s = [x]) /\ (exists x, sd_esp s = [x]) /\ (exists x, sd_fan_power s = [x]).

  Lemma caps_single (u u' : U) b q qh :
    u_staging u = SINGLE_STAGE -> rn_net (u_rn u) = None ->
    one_entry (u_c u) -> one_entry (u_h u) ->
    capacities_from_table (Scalar q) qh u = (u', Ok b) ->
    exists net qc qh',
      single_speed_table u (Scalar q) (heating_default q qh) = Ok net
      /\ cooling_capacity net (lit 1) (fr_F (lit 95)) = Ok qc
      /\ heating_capacity net (lit 1) (fr_F (lit 47)) = Ok qh'
      /\ u_rn u' = wr_map (Some [lit 1]) (wr_net (Some net) (u_rn u))
      /\ one_speed (u_c u') qc /\ one_speed (u_h u') qh'
      /\ u_staging u' = SINGLE_STAGE.
  Proof.
    intros St N0 OC OH H. unfold capacities_from_table in H.
    apply sbind_ok in H. destruct H as (s1 & u0 & E & H). unfold sget in E. apply pair_ok_inj in E.
    destruct E as [<- <-]. rewrite St in H. cbv zeta in H.
    apply sbind_ok in H. destruct H as (s1 & [] & E & H).
    apply sbind_ok in E. destruct E as (s2 & [] & E1 & E). apply on_side_inv in E1. subst s2.
    apply sbind_ok in E. destruct E as (s2 & q0 & E1 & E). apply slift_ok in E1. destruct E1 as [-> E1].
    unfold geti in E1. cbn in E1. apply Ok_inj in E1. subst q0.
    apply sbind_ok in E. destruct E as (s2 & [] & E1 & E). apply on_side_inv in E1. subst s2.
    apply sbind_ok in E. destruct E as (s2 & [] & E1 & E).
    unfold ensure_table in E1. apply sbind_ok in E1. destruct E1 as (s3 & u0 & E2 & E1).
    unfold sget in E2. apply pair_ok_inj in E2. destruct E2 as [<- <-].
    replace (rn_net _) with (@None (perf R)) in E1 by (symmetry; exact N0).
    apply sbind_ok in E1. destruct E1 as (s3 & net & E2 & E1). apply slift_ok in E2. destruct E2 as [-> E2].
    unfold put_rn, smod in E1. apply pair_ok_inj in E1. destruct E1 as [<- _].
    apply sbind_ok in E. destruct E as (s3 & [] & E1 & E). unfold both_sides in E1.
    apply sbind_ok in E1. destruct E1 as (s4 & [] & E3 & E1). apply on_side_inv in E3. apply on_side_inv in E1.
    subst s4 s3. unfold put_rn, smod in E. apply pair_ok_inj in E. destruct E as [<- _].
    destruct u as [x1 x2 x3 x4 x5 x6 x7 x8 x9 x10 x11 x12 x13 x14 x15 C0 H0 x18 x19 x20 x21 x22 x23 x24 x25].
    destruct C0 as [c1 c2 c3 c4 c5 c6 c7 c8 c9 c10 c11 c12 c13 c14 c15 c16 c17 c18 c19].
    destruct H0 as [h1 h2 h3 h4 h5 h6 h7 h8 h9 h10 h11 h12 h13 h14 h15 h16 h17 h18 h19].
    destruct x25 as [r1 r2 r3 r4 r5 r6 r7].
    ucbn_in H. ucbn_in E2. ucbn_in St. ucbn_in N0. subst.
    apply sbind_ok in H. destruct H as (s1 & u0 & E & H). unfold sget in E. apply pair_ok_inj in E.
    destruct E as [<- <-]. ucbn_in H.
    apply sbind_ok in H. destruct H as (s1 & p & E & H). apply slift_ok in E. destruct E as [-> E].
    apply need_ok in E. assert (p = net) by congruence. subst p. clear E.
    apply sbind_ok in H. destruct H as (s1 & m & E & H). apply slift_ok in E. destruct E as [-> E].
    apply need_ok in E. assert (m = [lit 1]) by congruence. subst m. clear E.
    apply sbind_ok in H. destruct H as (s1 & lc & E & H). apply slift_ok in E. destruct E as [-> E].
    cbn [rmapM] in E. apply rbind_ok in E. destruct E as (qc & Ec & E). cbn [rbind] in E. apply Ok_inj in E.
    subst lc.
    apply sbind_ok in H. destruct H as (s1 & [] & E & H). apply on_side_inv in E. ucbn_in E. subst s1.
    apply sbind_ok in H. destruct H as (s1 & lh & E & H). apply slift_ok in E. destruct E as [-> E].
    cbn [rmapM] in E. apply rbind_ok in E. destruct E as (qh' & Eh & E). cbn [rbind] in E. apply Ok_inj in E.
    subst lh. apply on_side_inv in H. ucbn_in H. subst u'.
    exists net, qc, qh'. split; [exact E2|]. split; [exact Ec|]. split; [exact Eh|].
    split; [reflexivity|]. destruct OC as (O1 & O2 & O3 & O4). destruct OH as (P1 & P2 & P3 & P4).
    ucbn_in O1. ucbn_in P1. subst.
    split; [|split]; [| |reflexivity]; (split; [reflexivity|]; split; [reflexivity|];
      split; [reflexivity|]; split; [assumption|]; split; assumption).
  Qed.

  Lemma inverse_one : inverse_speed (T:=R) [lit 1] 1 = Ok 0%nat.
  Proof.
    unfold inverse_speed. cbn [List.find seq List.length nth_error].
    change (Z.of_nat 1) with 1%Z. replace (neqb (T:=R) (lit 1) (nZ 1)) with true; [reflexivity|].
    symmetry. apply Reqb_true. rnum. lra.
  Qed.
  Lemma fan_powers_one m (u : U) l : rn_map (u_rn u) = Some [lit 1] ->
    table_fan_powers m 1 u = Ok l -> exists w, l = [w] /\ arr (sd_fan_power (side_of m u)) 0 = Ok w.
  Proof.
    intros E H. unfold table_fan_powers in H. cbn [seq rmapM] in H. rewrite E in H. cbn [need rbind] in H.
    rewrite inverse_one in H. cbn [rbind] in H. apply rbind_ok in H. destruct H as (w & Hw & H).
    cbn [rbind] in H. apply Ok_inj in H. exists w. auto.
  Qed.

  (** The unit after the gross tables were made. *)
  Definition single_made (u u' : U) (q : R) (qh : option R) : Prop :=
    exists net gross f p qc qh' ac ah wc wh,
      let motor := match rn_motor (u_rn u) with Some k => k | None => MotorPSC end in
      let d := if Rle_dec ah ac then ac else ah in
      single_speed_table u (Scalar q) (heating_default q qh) = Ok net
      /\ cooling_capacity net (lit 1) (fr_F (lit 95)) = Ok qc
      /\ heating_capacity net (lit 1) (fr_F (lit 47)) = Ok qh'
      /\ get_rated_full_flow_rated_pressure u' = Ok p
      /\ u_fan u' = Some f
      /\ f_class f = match motor with MotorPSC => RESNETPSCFan | MotorBPM => RESNETBPMFan end
      /\ fan_side sol f (u_c u') p ac d wc /\ fan_side sol f (u_h u') p ah d wh
      /\ one_speed (u_c u') qc /\ one_speed (u_h u') qh'
      /\ ex (make_gross [wc] [wh]) net = Ok gross
      /\ rn_net (u_rn u') = Some net /\ rn_gross (u_rn u') = Some gross /\ rn_map (u_rn u') = Some [lit 1]
      /\ u_staging u' = SINGLE_STAGE.

  Lemma sview_fan f s s' p a d w : sview s' = sview s -> fan_side sol f s p a d w -> fan_side sol f s' p a d w.
  Proof.
    intros V (k & f0 & A1 & A2 & A3 & A4 & A5). exists k, f0.
    unfold sview in V. injection V as V1 V2 V3 V4 V5 V6 V7 V8.
    rewrite V6, V7, V8, V5. auto.
  Qed.
  Lemma sview_one s s' q : sview s' = sview s -> one_speed s q -> one_speed s' q.
  Proof.
    intros V (A1 & A2 & A3 & A4 & A5 & A6). unfold sview in V. injection V as V1 V2 V3 V4 V5 V6 V7 V8.
    unfold one_speed. rewrite V1, V2, V4, V5, V6, V8. auto 8.
  Qed.
  Lemma rest_one s s' p a d w f q : rest s' = rest s -> fan_side sol f s' p a d w -> one_speed s q -> one_speed s' q.
  Proof.
    intros V (k & f0 & A1 & A2 & A3 & A4 & A5) (B1 & B2 & B3 & _).
    unfold rest in V. injection V as V1 V2 V3 V4 V5 V6 V7 V8 V9 V10 V11 V12 V13.
    unfold one_speed. rewrite V1, V2, V6, A2, A3, A4. repeat (split; [eauto|]). eauto.
  Qed.

  Lemma made_single (u u' : U) b q qh qh0 :
    u_staging u = SINGLE_STAGE -> rn_net (u_rn u) = None ->
    one_entry (u_c u) -> one_entry (u_h u) ->
    qh0 = option_map Scalar qh ->
    resnet_set_net_capacities_and_fan sol (Scalar q) qh0 None u = (u', Ok b) ->
    single_made u u' q qh.
  Proof.
    intros St N0 OC OH -> H. pose proof H as H'. unfold resnet_set_net_capacities_and_fan in H.
    apply sbind_ok in H. destruct H as (s1 & [] & E & H).
    unfold adopt_table_staging in E. apply sbind_ok in E. destruct E as (s2 & u0 & E1 & E).
    unfold sget in E1. apply pair_ok_inj in E1. destruct E1 as [<- <-]. rewrite N0 in E.
    unfold sret in E. apply pair_ok_inj in E. destruct E as [<- _].
    apply sbind_ok in H. destruct H as (u1 & [] & E & H).
    assert (Ec : capacities_from_table (Scalar q) qh u = (u1, Ok tt)) by (destruct qh; exact E). clear E.
    destruct (caps_single _ _ _ _ _ St N0 OC OH Ec) as (net & qc & qh' & T & Q1 & Q2 & R1 & O1 & O2 & S1).
    apply sbind_ok in H. destruct H as (u2 & [] & Ef & H).
    destruct (set_fan_single sol u1 u2 _ qc qh' O1 O2 Ef)
      as (f & p & ac & ah & wc & wh & P & F & K & FC & FH & RC & RH & R2 & S2 & D).
    rewrite S1 in *. rewrite R1 in K, R2. cbv zeta in R2. cbn [rn_motor wr_map wr_net] in K, R2.
    apply sbind_ok in H. destruct H as (u3 & [] & Eg & H).
    unfold set_lower_speed_net_capacities in H. apply sbind_ok in H. destruct H as (u4 & x & E & H).
    unfold sget in E. apply pair_ok_inj in E. destruct E as [<- <-].
    unfold setup_gross_table in Eg. apply sbind_ok in Eg. destruct Eg as (u4 & x & E & Eg).
    unfold sget in E. apply pair_ok_inj in E. destruct E as [<- <-].
    assert (N2 : rn_net (u_rn u2) = Some net) by (rewrite R2; reflexivity).
    assert (M2 : rn_map (u_rn u2) = Some [lit 1]) by (rewrite R2; reflexivity).
    rewrite N2 in Eg.
    assert (Sh : shape 1 net).
    { unfold single_speed_table in T. cbn [number rbind] in T. apply rbind_ok in T. destruct T as ([[[s e] hh] c] & _ & T).
      exact (single_shape _ _ _ _ _ _ _ _ _ _ _ T). }
    destruct Sh as (Sc & Shh & _). rewrite Sc, Shh in Eg.
    apply sbind_ok in Eg. destruct Eg as (u4 & fc & E & Eg). apply slift_ok in E. destruct E as [-> E].
    apply (fan_powers_one Cooling u2) in E; [|exact M2]. destruct E as (wc' & -> & E).
    assert (wc' = wc). { destruct FC as (k & f0 & _ & _ & _ & A & _). cbn [side_of] in E. rewrite A in E. unfold arr, geti in E. cbn in E. congruence. }
    subst wc'. clear E.
    apply sbind_ok in Eg. destruct Eg as (u4 & fh & E & Eg). apply slift_ok in E. destruct E as [-> E].
    apply (fan_powers_one Heating u2) in E; [|exact M2]. destruct E as (wh' & -> & E).
    assert (wh' = wh). { destruct FH as (k & f0 & _ & _ & _ & A & _). cbn [side_of] in E. rewrite A in E. unfold arr, geti in E. cbn in E. congruence. }
    subst wh'. clear E.
    apply sbind_ok in Eg. destruct Eg as (u4 & gross & E & Eg). apply slift_ok in E. destruct E as [-> Eg0].
    apply sbind_ok in Eg. destruct Eg as (u4 & [] & E & Eg). unfold put_rn, smod in E. apply pair_ok_inj in E.
    destruct E as [E _].
    assert (V : rview u3 = rview u4).
    { assert (Kp : keeps rview (do m <- slift (need AttributeError (rn_map (u_rn u2))) ;;
          sfold (put_table_cops Cooling net gross) (enumerate m) ;;;
          sfold (put_table_cops Heating net gross) (enumerate m))).
      { apply keeps_bind; [apply keeps_lift|]. intros m. apply keeps_bind; [|intros _];
          apply keeps_fold; intros is; apply rview_table_cops. }
      specialize (Kp u4). rewrite Eg in Kp. exact Kp. }
    assert (Hs : u_staging u3 = SINGLE_STAGE).
    { rewrite <- S2. rewrite <- E in V. exact (f_equal (fun x => snd (fst (fst x))) V). }
    rewrite Hs in H. unfold sret in H. apply pair_ok_inj in H. destruct H as [H _]. subst u3.
    rewrite <- E in V. unfold rview in V.
    assert (V1 : u_rn u' = wr_gross (Some gross) (u_rn u2)) by (exact (f_equal (fun x => fst (fst (fst (fst x)))) V)).
    assert (V2 : u_fan u' = u_fan u2) by (exact (f_equal (fun x => snd (fst (fst (fst x)))) V)).
    assert (V3 : u_staging u' = u_staging u2) by (exact (f_equal (fun x => snd (fst (fst x))) V)).
    assert (V4 : sview (u_c u') = sview (u_c u2)) by (exact (f_equal (fun x => snd (fst x)) V)).
    assert (V5 : sview (u_h u') = sview (u_h u2)) by (exact (f_equal snd V)). clear V.
    assert (OC2 : one_speed (u_c u2) qc) by (exact (rest_one _ _ _ _ _ _ _ _ RC FC O1)).
    assert (OH2 : one_speed (u_h u2) qh') by (exact (rest_one _ _ _ _ _ _ _ _ RH FH O2)).
    assert (OC3 : one_speed (u_c u') qc) by (exact (sview_one _ _ _ V4 OC2)).
    assert (OH3 : one_speed (u_h u') qh') by (exact (sview_one _ _ _ V5 OH2)).
    assert (P' : get_rated_full_flow_rated_pressure u' = Ok p).
    { rewrite <- P. unfold get_rated_full_flow_rated_pressure.
      rewrite (proj1 (proj2 (proj2 O1))), (proj1 (proj2 (proj2 OC3))).
      assert (C1 : configc u1 = configc u).
      { assert (Kp : keeps configc (capacities_from_table (T:=R) (Scalar q) qh)) by
          (unfold capacities_from_table, ensure_table, both_sides, put_rn; keepc).
        specialize (Kp u). rewrite Ec in Kp. exact Kp. }
      assert (C2 : configc u' = configc u).
      { pose proof (keeps_resnet_set sol (Scalar q) (option_map Scalar qh) None u) as Kp. rewrite H' in Kp. exact Kp. }
      unfold configc, config in C1, C2.
      assert (D1 : u_ducted u' = u_ducted u1) by congruence.
      assert (D2 : u_standard u' = u_standard u1) by congruence.
      rewrite D1, D2. reflexivity. }
    exists net, gross, f, p, qc, qh', ac, ah, wc, wh. cbv zeta.
    split; [exact T|]. split; [exact Q1|]. split; [exact Q2|]. split; [exact P'|].
    split; [rewrite V2; exact F|]. split; [exact K|].
    split; [exact (sview_fan _ _ _ _ _ _ _ V4 FC)|]. split; [exact (sview_fan _ _ _ _ _ _ _ V5 FH)|].
    split; [exact OC3|]. split; [exact OH3|]. split; [exact Eg0|]. rewrite V1.
    split; [exact N2|]. split; [reflexivity|]. split; [exact M2|]. rewrite V3. exact S2.
  Qed.
End Single.
