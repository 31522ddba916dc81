(** A single-stage RESNET unit made from its ratings, for the examples beside the rating
    theorems. *)
From Coq Require Import Reals QArith Lra Psatz Lia List Bool String.
From Verif.Base Require Import Num Res Tac.
From Verif.Model Require Import Units Util Psychrometrics Conditions Defrost Fan Curves
  Tabular Unit NREL BaseModel Title24 Resnet DXUnit RatingSolver.
From Verif.Spec Require Import TabularSpec NrelSpec RatingSpec.
From Verif.Proofs Require Import UnitsR FanProofs FanProofs2 NrelProofs ResnetProofs MakeCond TabBuild TabGross SingleTable SingleUnit
  SingleRating SingleRating2 ToyBuild ToyResnetTable Secant.
Import ListNotations.
Local Open Scope R_scope.

Definition Mr : dxmodel R := RESNETDXModel lin_psy rt_sol.

(** 10 kW cooling and heating, 6.5 kW at 17 F, SEER 14, EER 12. *)
Definition toy_inputs (hs : R) : solver_inputs :=
  mkInputs SINGLE_STAGE 14 hs (Some 12) 10000 (Some 10000) 0.65 None (fr_F (lit 125)) (fr_F (lit 41))
    AHRI_210_240_2023.
Definition toy_args (hs c : R) : dxargs R := rating_args (toy_inputs hs) (lit 3) (Some c).


(** Its state while it is constructed. *)
Definition tside (cap : list R) (gross w ncop gcop air esp : list (option R)) (fs rfs : option (list (option nat)))
    (fpc : option (num_or_list R)) : side R :=
  mkSide 1 0 None 1 None cap gross w ncop [None] [None] gcop air esp fs rfs fpc [] (lit 0.15).
Definition start_side (cap : list R) : side R :=
  tside cap [None] [None] [None] [None] [None] [None] None None None.
Definition trn net gross motor map : resnet_data R :=
  mkRn net gross motor (Some (nmul 10000 0.65)) None (Some (lit 3)) map.
Definition tunit (hs c : R) (sc sh : side R) (coil : list (option R) * list (option R) * list (option R))
    (esp : option R) (f : option (fan R)) (crank : option R) (k : rconds R) (rn : resnet_data R) : dxunit R :=
  mkUnit (a_kwargs (toy_args hs c)) (Some 14) (Some 12) (Some hs) (Some (Scalar c)) BETWEEN_LOW_FULL true
    (fr_F (lit 125)) (default_defrost (fr_F (lit 41))) (fr_F (lit 50)) AHRI_210_240_2023 (lit 0) SINGLE_STAGE
    (fr_F (lit 0)) (Some (fr_F (lit 0))) sc sh (fst (fst coil)) (snd (fst coil)) (snd coil) esp f crank k rn.
Definition nocoil : list (option R) * list (option R) * list (option R) := ([None], [None], [None]).

Lemma toy_start hs c : exists u0, init_unit Mr (toy_args hs c) = Ok u0
  /\ set_placeholder_arrays u0
     = (tunit hs c (start_side []) (start_side []) nocoil None None None no_conds (trn None None None None), Ok tt).
Proof. eexists. split; reflexivity. Qed.

Section Toy.
  Variables (hs c : R) (net : perf R).
  Hypothesis Hc : 3 <= c <= 4.
  Hypothesis Hnet : make_single_speed_model_data 10000 14 12 10000 (Some 6500) hs (fr_F (lit 125)) (fr_F (lit 0))
      (Some c) (lit 0.15) = Ok net.
  Hypothesis Cells : cells_above 1000 net.

  Definition u_caps : dxunit R :=
    tunit hs c (start_side [10000]) (start_side [10000]) nocoil None None None no_conds
      (trn (Some net) None None (Some [lit 1])).

  Lemma toy_caps :
    capacities_from_table (Scalar 10000) (Some 10000)
      (tunit hs c (start_side []) (start_side []) nocoil None None None no_conds (trn None None None None))
    = (u_caps, Ok tt).
  Proof.
    assert (Q1 : cooling_capacity net (lit 1) (fr_F (lit 95)) = Ok 10000).
    { rewrite lit1_R. replace (lit 95) with 95 by (rnum; lra). exact (proj1 (single_caps _ _ _ _ _ _ _ _ _ _ _ Hnet)). }
    assert (Q2 : heating_capacity net (lit 1) (fr_F (lit 47)) = Ok 10000).
    { rewrite lit1_R. replace (lit 47) with 47 by (rnum; lra). exact (proj2 (single_caps _ _ _ _ _ _ _ _ _ _ _ Hnet)). }
    unfold capacities_from_table.
    apply sbind_ok. eexists. eexists. split; [reflexivity|].
    cbn [u_staging tunit].
    apply sbind_ok. eexists. exists tt. split.
    { apply sbind_ok. eexists. eexists. split; [reflexivity|].
      apply sbind_ok. eexists. eexists. split; [reflexivity|].
      apply sbind_ok. eexists. eexists. split; [reflexivity|].
      apply sbind_ok. eexists. exists tt. split.
      { unfold ensure_table. apply sbind_ok. eexists. eexists. split; [reflexivity|].
        cbn [rn_net u_rn tunit trn wu_side wu_c wu_h].
        apply sbind_ok. eexists. exists net. split; [|reflexivity].
        apply slift_ok. split; [reflexivity|].
        assert (E : Some (nmul 10000 0.65) = Some 6500) by (f_equal; cbn [nmul RNum]; lra).
        unfold single_speed_table. cbn [number rbind].
        match goal with |- (let! r := ?x in _) = _ => change x with (Ok (14, 12, hs, Some c)) end.
        cbn [rbind]. rewrite <- Hnet, <- E. reflexivity. }
      apply sbind_ok. eexists. eexists. split; [reflexivity|]. reflexivity. }
    apply sbind_ok. eexists. eexists. split; [reflexivity|].
    apply sbind_ok. eexists. exists net. split; [reflexivity|].
    apply sbind_ok. eexists. exists [lit 1]. split; [reflexivity|].
    apply sbind_ok. eexists. exists [10000]. split.
    { apply slift_ok. split; [reflexivity|]. cbn [rmapM]. rewrite Q1. reflexivity. }
    apply sbind_ok. eexists. eexists. split; [reflexivity|].
    apply sbind_ok. eexists. exists [10000]. split.
    { apply slift_ok. split; [reflexivity|]. cbn [rmapM]. rewrite Q2. reflexivity. }
    reflexivity.
  Qed.

  (** ** Fan *)
  Definition fk : R := fr_cfm_per_ton (lit 400).
  Definition air : R := nmul 10000 fk.
  Definition psi : R := fr_inH2O (lit 0.5).
  Definition e4 : R := fr_W_per_cfm (lit 0.414).
  Lemma fk_val : fk = 400 * (0.028316846592 / 60) / (12000 * (1055.056 / 3600)).
  Proof. unfold fk, fr_cfm_per_ton, cfm, ton_ref, btu_h. rnum. field. Qed.
  Lemma e4_val : e4 = 0.414 / (0.028316846592 / 60).
  Proof. unfold e4, fr_W_per_cfm, cfm. rnum. field. Qed.
  Lemma air_val : 0.53 < air < 0.54.
  Proof. unfold air. cbn [nmul RNum]. rewrite fk_val. lra. Qed.
  Definition tfan (n : nat) : fan R :=
    mkFan RESNETPSCFan psi (EffNum e4) n (repeat air n) (repeat 1 n) (sqrt psi / air) (lit 0) [] [] [] [] [] (lit 0)
      [] None None None.
  Definition fanwt : R := air * nmul e4 (nadd (nmul EFFICACY_SLOPE 1) (nsub (lit 1) EFFICACY_SLOPE)).
  Lemma fanwt_val : 400 < fanwt < 500.
  Proof.
    unfold fanwt, EFFICACY_SLOPE, air. rewrite e4_val, fk_val. rnum. lra.
  Qed.

  Lemma air_nz : air <> 0. Proof. pose proof air_val. lra. Qed.
  Lemma air_ratio : pydiv air air = Ok 1.
  Proof. rewrite pydiv_ok by apply air_nz. f_equal. field. apply air_nz. Qed.

  Lemma toy_add n p : (n = 0 \/ n = 1 \/ n = 2 \/ n = 3)%nat -> add_speed air p (tfan n) = (tfan (S n), Ok tt).
  Proof.
    intros H. unfold add_speed. apply sbind_ok. eexists. eexists. split; [reflexivity|].
    cbn [f_class tfan]. unfold base_add_speed.
    apply sbind_ok. eexists. eexists. split; [reflexivity|].
    apply sbind_ok. eexists. eexists. split; [reflexivity|].
    apply sbind_ok. eexists. eexists. split; [reflexivity|].
    apply sbind_ok. eexists. exists air. split.
    { destruct H as [-> | [-> | [-> | ->]]]; reflexivity. }
    apply sbind_ok. eexists. exists air. split.
    { destruct H as [-> | [-> | [-> | ->]]]; reflexivity. }
    apply sbind_ok. eexists. exists 1. split.
    { apply slift_ok. split; [reflexivity|]. apply air_ratio. }
    destruct H as [-> | [-> | [-> | ->]]]; reflexivity.
  Qed.
  Lemma toy_fan : make_resnet_psc_fan [air] = Ok (tfan 1).
  Proof.
    unfold make_resnet_psc_fan, init_fan.
    change (geti [air] 0) with (Ok air). cbn [rbind].
    assert (P : 0 <= psi) by (unfold psi, fr_inH2O, inH2O; rnum; lra).
    unfold system_curve_constant. fold psi. rewrite pysqrt_ok by exact P. cbn [rbind].
    rewrite pydiv_ok by apply air_nz. cbn [rbind sfold].
    change (blank_fan _ _ _ _ _ _) with (tfan 0).
    match goal with |- match ?x with _ => _ end = _ => assert (E : x = (tfan 1, Ok tt)) end.
    { apply sbind_ok. exists (tfan 1), tt. split; [|reflexivity]. apply toy_add. auto. }
    rewrite E. reflexivity.
  Qed.
  Lemma toy_power n k p : (k < n)%nat -> power rt_sol (tfan n) k p = Ok fanwt.
  Proof.
    intros H2. unfold power. cbn [f_class tfan].
    assert (A : forall i, (i < n)%nat -> airflow rt_sol (tfan n) i p = Ok air).
    { intros i Hi. unfold airflow. cbn [f_class tfan f_airflow]. apply geti_ok. apply nth_error_repeat. exact Hi. }
    rewrite A by exact H2. cbn [rbind]. unfold efficacy. cbn [f_class tfan]. unfold resnet_psc_efficacy.
    cbn [eff_num f_design_efficacy tfan rbind]. unfold airflow_ratio. rewrite !A by lia. cbn [rbind].
    rewrite air_ratio. reflexivity.
  Qed.

  Definition pr : R := nmul psi (nsq 1).
  Definition fan_side (fs rfs : option (list (option nat))) (gross ncop gcop : list (option R)) : side R :=
    tside [10000] gross [Some fanwt] ncop gcop [Some air] [Some pr] fs rfs (Some (Many [fk])).
  Definition side_c := fan_side (Some [Some 0%nat]) (Some [Some 2%nat]).
  Definition side_h := fan_side (Some [Some 1%nat]) (Some [Some 3%nat]).
  Definition u_fanned : dxunit R :=
    tunit hs c (side_c [None] [None] [None]) (side_h [None] [None] [None]) nocoil (Some psi) (Some (tfan 4)) None
      no_conds (trn (Some net) None (Some MotorPSC) (Some [lit 1])).

  Lemma toy_design m (s : dxunit R) n : (n = 1 \/ n = 2 \/ n = 3)%nat -> u_fan s = Some (tfan n) ->
    sd_airflow (side_of m s) = [Some air] -> sd_fan_speed (side_of m s) = Some [None] ->
    add_design_speed m 0 s
    = (wu_side m (ws_fan_speed (Some [Some n]) (side_of m s)) (wu_fan (Some (tfan (S n))) s), Ok tt).
  Proof.
    intros N F A K. unfold add_design_speed.
    apply sbind_ok. eexists. eexists. split; [reflexivity|].
    apply sbind_ok. eexists. exists air. split; [rewrite A; reflexivity|].
    apply sbind_ok. exists (wu_fan (Some (tfan (S n))) s), tt. split.
    { unfold on_fan. rewrite F, toy_add by tauto. reflexivity. }
    apply sbind_ok. exists (wu_fan (Some (tfan (S n))) s), n. split; [reflexivity|].
    unfold put_fan_speed. apply sbind_ok. eexists. eexists. split; [reflexivity|].
    apply sbind_ok. eexists. exists [None]. split.
    { apply slift_ok. split; [reflexivity|]. destruct m; cbn [side_of wu_fan u_c u_h] in *; rewrite K; reflexivity. }
    apply sbind_ok. eexists. eexists. split; [reflexivity|].
    unfold on_side, smod. destruct m; reflexivity.
  Qed.
  Lemma toy_rated m (s : dxunit R) n : (n = 1 \/ n = 2 \/ n = 3)%nat -> u_fan s = Some (tfan n) ->
    u_full_esp s = Some psi ->
    sd_airflow (side_of m s) = [Some air] -> sd_rated_fan_speed (side_of m s) = Some [None] ->
    sd_esp (side_of m s) = [None] -> sd_fan_power (side_of m s) = [None] ->
    add_rated_speed rt_sol m 0 air s
    = (wu_side m (ws_fan_power [Some fanwt] (ws_rated_fan_speed (Some [Some n]) (ws_esp [Some pr] (side_of m s))))
         (wu_fan (Some (tfan (S n))) s), Ok tt).
  Proof.
    intros N F P A K E W. unfold add_rated_speed.
    apply sbind_ok. eexists. eexists. split; [reflexivity|].
    apply sbind_ok. eexists. exists air. split; [rewrite A; reflexivity|].
    apply sbind_ok. eexists. exists pr. split.
    { apply slift_ok. split; [reflexivity|]. unfold calculate_rated_pressure. rewrite P. cbn [need rbind].
      rewrite air_ratio. reflexivity. }
    apply sbind_ok. exists (wu_side m (ws_esp [Some pr] (side_of m s)) s), tt. split.
    { unfold side_put. apply sbind_ok. eexists. eexists. split; [reflexivity|].
      apply sbind_ok. eexists. exists [Some pr]. split; [|reflexivity].
      apply slift_ok. split; [reflexivity|]. rewrite E. reflexivity. }
    apply sbind_ok. exists (wu_fan (Some (tfan (S n))) (wu_side m (ws_esp [Some pr] (side_of m s)) s)), tt. split.
    { unfold on_fan. replace (u_fan _) with (Some (tfan n)) by (destruct m; symmetry; exact F).
      rewrite toy_add by tauto. reflexivity. }
    apply sbind_ok. eexists. exists n. split; [reflexivity|].
    apply sbind_ok.
    exists (wu_side m (ws_rated_fan_speed (Some [Some n]) (ws_esp [Some pr] (side_of m s)))
              (wu_fan (Some (tfan (S n))) s)), tt. split.
    { unfold put_rated_fan_speed. apply sbind_ok. eexists. eexists. split; [reflexivity|].
      apply sbind_ok. eexists. exists [None]. split.
      { apply slift_ok. split; [reflexivity|]. destruct m; cbn in K |- *; rewrite K; reflexivity. }
      apply sbind_ok. eexists. eexists. split; [reflexivity|].
      unfold on_side, smod. destruct m; reflexivity. }
    apply sbind_ok. eexists. exists fanwt. split.
    { apply sread_ok. split; [reflexivity|]. 
      replace (u_fan _) with (Some (tfan (S n))) by (destruct m; reflexivity). cbn [need rbind].
      apply toy_power. lia. }
    unfold side_put. apply sbind_ok. eexists. eexists. split; [reflexivity|].
    apply sbind_ok. eexists. exists [Some fanwt]. split.
    { apply slift_ok. split; [reflexivity|]. destruct m; cbn in W |- *; rewrite W; reflexivity. }
    unfold on_side, smod. destruct m; reflexivity.
  Qed.

  Definition fst_ (a w e : option R) (fs rfs : option (list (option nat))) (fpc : option (num_or_list R)) : side R :=
    tside [10000] [None] [w] [None] [None] [a] [e] fs rfs fpc.
  Definition ust (sc sh : side R) (esp : option R) (f : option (fan R)) (mt : option motor_type) : dxunit R :=
    tunit hs c sc sh nocoil esp f None no_conds (trn (Some net) None mt (Some [lit 1])).
  Ltac to S := apply sbind_ok; exists S, tt; split; [reflexivity|].

  Lemma toy_set_fan : resnet_set_fan rt_sol None u_caps = (u_fanned, Ok tt).
  Proof.
    unfold resnet_set_fan.
    set (fp := Some (Many [fk])).
    set (s0 := fst_ None None None None None None).
    set (s1 := fst_ None None None None None fp).
    set (s2 := fst_ None None None (Some [None]) (Some [None]) fp).
    set (s3 := fst_ (Some air) None None (Some [None]) (Some [None]) fp).
    apply sbind_ok. exists u_caps, psi. split; [reflexivity|].
    to (ust s0 s0 (Some psi) None None). cbv zeta.
    to (ust s1 s0 (Some psi) None None).
    to (ust s1 s1 (Some psi) None None).
    to (ust s2 s1 (Some psi) None None).
    to (ust s2 s2 (Some psi) None None).
    apply sbind_ok. exists (ust s2 s2 (Some psi) None None), (ust s2 s2 (Some psi) None None). split; [reflexivity|].
    apply sbind_ok. exists (ust s2 s2 (Some psi) None None), air. split; [reflexivity|].
    to (ust s3 s2 (Some psi) None None).
    apply sbind_ok. exists (ust s3 s2 (Some psi) None None), air. split; [reflexivity|].
    to (ust s3 s3 (Some psi) None None).
    assert (LE : (air >=? air)%num = true).
    { cbn [nleb RNum]. destruct (Rleb_spec air air); [reflexivity|lra]. }
    rewrite LE.
    to (ust s3 s3 (Some psi) None (Some MotorPSC)).
    apply sbind_ok. exists (ust s3 s3 (Some psi) None (Some MotorPSC)), (tfan 1). split.
    { apply slift_ok. split; [reflexivity|]. exact toy_fan. }
    to (ust s3 s3 (Some psi) (Some (tfan 1)) (Some MotorPSC)).
    apply sbind_ok. exists (ust s3 s3 (Some psi) (Some (tfan 1)) (Some MotorPSC)), 0%nat. split; [reflexivity|].
    set (sc := fst_ (Some air) None None (Some [Some 0%nat]) (Some [None]) fp).
    set (sh := fst_ (Some air) None None (Some [Some 1%nat]) (Some [None]) fp).
    apply sbind_ok. exists (ust sc sh (Some psi) (Some (tfan 2)) (Some MotorPSC)), tt. split.
    { to (ust sc s3 (Some psi) (Some (tfan 1)) (Some MotorPSC)).
      rewrite (toy_design Heating _ 1); [reflexivity|auto|reflexivity|reflexivity|reflexivity]. }
    set (sc1 := fst_ (Some air) (Some fanwt) (Some pr) (Some [Some 0%nat]) (Some [Some 2%nat]) fp).
    set (sh1 := fst_ (Some air) (Some fanwt) (Some pr) (Some [Some 1%nat]) (Some [Some 3%nat]) fp).
    apply sbind_ok. exists (ust sc1 sh (Some psi) (Some (tfan 3)) (Some MotorPSC)), tt. split.
    { rewrite (toy_rated Cooling _ 2); [reflexivity|auto|reflexivity..]. }
    apply sbind_ok. exists (ust sc1 sh1 (Some psi) (Some (tfan 4)) (Some MotorPSC)), tt. split.
    { rewrite (toy_rated Heating _ 3); [reflexivity|auto|reflexivity..]. }
    apply sbind_ok. eexists. eexists. split; [reflexivity|].
    to (ust sc1 sh1 (Some psi) (Some (tfan 4)) (Some MotorPSC)).
    apply sbind_ok. eexists. eexists. split; [reflexivity|].
    reflexivity.
  Qed.

  (** ** Gross table *)
  Definition u_gross (g : perf R) (nc gc nh gh : R) : dxunit R :=
    tunit hs c (side_c [None] [Some nc] [Some gc]) (side_h [None] [Some nh] [Some gh]) nocoil (Some psi)
      (Some (tfan 4)) None no_conds (trn (Some net) (Some g) (Some MotorPSC) (Some [lit 1])).

  Lemma toy_powers : exists P95, 1000 < P95
    /\ cooling_power net (lit 1) (fr_F (lit 95)) = Ok P95
    /\ heating_power net (lit 1) (fr_F (lit 47)) = Ok (10000 / c).
  Proof.
    rewrite lit1_R. replace (lit 95) with 95 by (rnum; lra). replace (lit 47) with 47 by (rnum; lra).
    destruct (single_cells _ _ _ _ _ _ _ _ _ _ _ Hnet (fr_F 95) (or_introl eq_refl)) as (a & b & _ & _ & G & P).
    exists b. split; [apply (proj2 Cells (fr_F 95)); auto|]. split; [exact P|].
    destruct (single_reproduces _ _ _ _ _ _ _ _ _ _ _ Hnet) as (_ & _ & _ & H1 & _ & H2); try lra.
    unfold heating_cop in H2. rewrite H1 in H2. cbn [rbind] in H2. apply rbind_ok in H2. destruct H2 as (w & Hw & H2).
    apply pydiv_inv in H2. destruct H2 as [Z H2]. rewrite Hw. f_equal.
    assert (E : 10000 / w = c) by (symmetry; exact H2).
    assert (W : c * w = 10000) by (rewrite <- E; field; exact Z). rewrite <- W. field. lra.
  Qed.

  Definition shifted (g : perf R) : Prop := forall s x v,
    (cooling_capacity net s x = Ok v -> cooling_capacity g s x = Ok (v + fanwt)) /\
    (cooling_power net s x = Ok v -> cooling_power g s x = Ok (v - fanwt)) /\
    (heating_capacity net s x = Ok v -> heating_capacity g s x = Ok (v - fanwt)) /\
    (heating_power net s x = Ok v -> heating_power g s x = Ok (v - fanwt)).
  Lemma toy_gross : exists g P95, let q := 10000 in let w := fanwt in
    setup_gross_table u_fanned
      = (u_gross g (q / P95) ((q + w) / (P95 - w)) (q / (q / c)) ((q - w) / (q / c - w)), Ok tt)
    /\ shifted g /\ 1000 < P95 /\ cooling_power net (lit 1) (fr_F (lit 95)) = Ok P95.
  Proof.
    destruct (single_caps _ _ _ _ _ _ _ _ _ _ _ Hnet) as (Q1 & Q2).
    destruct toy_powers as (P95 & B & P1 & P2).
    destruct (single_shape _ _ _ _ _ _ _ _ _ _ _ Hnet) as (N1 & N2 & U1 & U2 & U3 & U4).
    pose proof fanwt_val as FW.
    assert (AD : forall w t, w < 1000 -> (forall x v, t_get 1 x t = Ok (Some v) -> 1000 < v) -> t_n t = 1%nat ->
       correctable [w] t).
    { intros w t L Hv Nt. split; [rewrite Nt; reflexivity|]. intros k p x v Hk Hg.
      destruct k as [|k]; [|destruct k; discriminate]. cbn in Hk. inversion Hk; subst p.
      specialize (Hv x v Hg). lra. }
    destruct Cells as ((M1 & M2 & M3 & M4) & CL).
    destruct (make_gross_shift [fanwt] [fanwt] _ _ net U1 U2 U3 U4 (const_linear fanwt) (const_linear fanwt))
      as [(_ & g & Eg & Sh)|(NA & _)].
    2:{ exfalso. apply NA. cbn [map].
        split; [|split; [|split]]; apply AD; auto; try lra; intros x v Hx; apply (CL x v); tauto. }
    destruct (Sh (lit 1) (fr_F (lit 95)) 10000) as (S1 & _).
    destruct (Sh (lit 1) (fr_F (lit 95)) P95) as (_ & S2 & _).
    destruct (Sh (lit 1) (fr_F (lit 47)) 10000) as (_ & _ & S3 & _).
    destruct (Sh (lit 1) (fr_F (lit 47)) (10000 / c)) as (_ & _ & _ & S4).
    specialize (S2 P1). specialize (S4 P2).
    assert (Q1' : cooling_capacity net (lit 1) (fr_F (lit 95)) = Ok 10000).
    { rewrite lit1_R. replace (lit 95) with 95 by (rnum; lra). exact Q1. }
    assert (Q2' : heating_capacity net (lit 1) (fr_F (lit 47)) = Ok 10000).
    { rewrite lit1_R. replace (lit 47) with 47 by (rnum; lra). exact Q2. }
    specialize (S1 Q1'). specialize (S3 Q2').
    assert (PC : 2500 <= 10000 / c).
    { apply (Rmult_le_reg_r c); [lra|]. replace (10000 / c * c) with 10000 by (field; lra). lra. }
    assert (D1 : cooling_cop net (lit 1) (fr_F (lit 95)) = Ok (10000 / P95)).
    { unfold cooling_cop. rewrite Q1', P1. cbn [rbind]. apply pydiv_ok. lra. }
    assert (D2 : cooling_cop g (lit 1) (fr_F (lit 95)) = Ok ((10000 + fanwt) / (P95 - fanwt))).
    { unfold cooling_cop. rewrite S1, S2. cbn [rbind]. apply pydiv_ok. lra. }
    assert (D3 : heating_cop net (lit 1) (fr_F (lit 47)) = Ok (10000 / (10000 / c))).
    { unfold heating_cop. rewrite Q2', P2. cbn [rbind]. apply pydiv_ok. lra. }
    assert (D4 : heating_cop g (lit 1) (fr_F (lit 47)) = Ok ((10000 - fanwt) / (10000 / c - fanwt))).
    { unfold heating_cop. rewrite S3, S4. cbn [rbind]. apply pydiv_ok. lra. }
    exists g, P95. cbv zeta. split; [|split; [exact Sh|split; [exact B|exact P1]]].
    unfold setup_gross_table.
    apply sbind_ok. exists u_fanned, u_fanned. split; [reflexivity|].
    cbv beta. change (rn_net (u_rn u_fanned)) with (Some net). cbv beta iota. rewrite N1, N2.
    assert (PW : forall m, table_fan_powers m 1 u_fanned = Ok [fanwt]).
    { intros m. unfold table_fan_powers. cbn [seq rmapM].
      change (rn_map (u_rn u_fanned)) with (Some [lit (T:=R) 1]). cbn [need rbind]. rewrite inverse_one. cbn [rbind].
      destruct m; reflexivity. }
    apply sbind_ok. exists u_fanned, [fanwt]. split; [apply slift_ok; split; [reflexivity|apply PW]|].
    apply sbind_ok. exists u_fanned, [fanwt]. split; [apply slift_ok; split; [reflexivity|apply PW]|].
    apply sbind_ok. exists u_fanned, g. split.
    { apply slift_ok. split; [reflexivity|]. unfold ex. rewrite Eg. reflexivity. }
    apply sbind_ok.
    exists (tunit hs c (side_c [None] [None] [None]) (side_h [None] [None] [None]) nocoil (Some psi) (Some (tfan 4)) None
      no_conds (trn (Some net) (Some g) (Some MotorPSC) (Some [lit 1]))), tt. split; [reflexivity|].
    apply sbind_ok. eexists. exists [lit 1]. split; [reflexivity|].
    change (enumerate [lit (T:=R) 1]) with [(0%nat, lit (T:=R) 1)]. cbn [sfold].
    apply sbind_ok.
    exists (tunit hs c (side_c [None] [Some (10000 / P95)] [Some ((10000 + fanwt) / (P95 - fanwt))])
       (side_h [None] [None] [None]) nocoil (Some psi) (Some (tfan 4)) None
      no_conds (trn (Some net) (Some g) (Some MotorPSC) (Some [lit 1]))), tt. split.
    { apply sbind_ok. eexists. exists tt. split; [|reflexivity].
      unfold put_table_cops. cbn [fst snd]. rewrite D1, D2.
      apply sbind_ok. eexists. eexists. split; [reflexivity|].
      apply sbind_ok. eexists. eexists. split; [reflexivity|].
      apply sbind_ok. eexists. eexists. split; [reflexivity|]. reflexivity. }
    apply sbind_ok. eexists. exists tt. split; [|reflexivity].
    unfold put_table_cops. cbn [fst snd]. rewrite D3, D4.
    apply sbind_ok. eexists. eexists. split; [reflexivity|].
    apply sbind_ok. eexists. eexists. split; [reflexivity|].
    apply sbind_ok. eexists. eexists. split; [reflexivity|]. reflexivity.
  Qed.
  (** ** Gross capacities and rating conditions *)
  Section Rated.
  Variables (g : perf R) (nc gc nh gh : R).
  Hypothesis G95 : cooling_capacity g (lit 1) (fr_F (lit 95)) = Ok (10000 + fanwt).

  Definition u_full (coil : list (option R) * list (option R) * list (option R)) (crank : option R) (k : rconds R)
      : dxunit R :=
    tunit hs c (side_c [Some (10000 + fanwt)] [Some nc] [Some gc]) (side_h [Some (10000 - fanwt)] [Some nh] [Some gh])
      coil (Some psi) (Some (tfan 4)) crank k (trn (Some net) (Some g) (Some MotorPSC) (Some [lit 1])).
  Definition crk : R := nmul (lit 10) (to_ton 10000).
  Definition pz : R := psi * (air / air * (air / air)).
  Definition rcd (m : mode) (o : option (psych_state R)) : cond R :=
    flow_cond (match o with Some s => s | None => default_outdoor m end) (default_indoor m) 0
      (Some (match m with Cooling => 2%nat | Heating => 3%nat end)) (Some pz) 1.2 1.2 air 10000 1 None.
  Definition kfull : rconds R :=
    mkConds (Some (rcd Cooling None)) (Some (rcd Cooling t82))
      (Some (rcd Heating None)) (Some (rcd Heating t35)) (Some (rcd Heating t17)) (Some (rcd Heating t5))
      None None None None None None None None None None None.

  Lemma rcd_ok m coil crank k o : make_condition lin_psy m (u_full coil crank k) 0 None o = Ok (rcd m o).
  Proof.
    unfold rcd, pz.
    rewrite (make_condition_ok lin_psy m _ 0 None o 10000 air air psi
      [Some (match m with Cooling => 2%nat | Heating => 3%nat end)]
      (Some (match m with Cooling => 2%nat | Heating => 3%nat end)) 1.2 1.2);
      try apply air_nz; try (destruct m; reflexivity); try (apply Rgt_not_eq; lra).
  Qed.
  Lemma toy_put set m o coil crank k :
    put_cond lin_psy set m (Some 0%nat) o (u_full coil crank k)
    = (u_full coil crank (set (Some (rcd m o)) k), Ok tt).
  Proof.
    unfold put_cond, sbind, sget, slift. cbn [need]. rewrite rcd_ok. reflexivity.
  Qed.
  Lemma toy_esp coil crank k : reset_full_esp (u_full coil crank k) = (u_full coil crank k, Ok tt).
  Proof.
    unfold reset_full_esp, sbind, sread. rewrite (full_esp_ok _ psi); [reflexivity|].
    split; [reflexivity|]. exists 10000. split; reflexivity.
  Qed.
  Lemma toy_conditions crank : set_rating_conditions lin_psy (u_full nocoil crank no_conds)
    = (u_full nocoil crank kfull, Ok tt).
  Proof.
    unfold set_rating_conditions.
    apply sbind_ok. eexists. exists tt. split; [apply toy_esp|].
    apply sbind_ok. eexists. eexists. split; [reflexivity|].
    do 6 (apply sbind_ok; eexists; exists tt; split; [apply toy_put|]).
    reflexivity.
  Qed.

  (** ** Coil *)
  Lemma toy_shr u : exists s, t24_gross_shr u (rcd Cooling None) = Ok s /\ 0.7 < s < 0.73.
  Proof.
    assert (V : to_cfm_per_ton (T:=R) (1 * air / 10000) = 400).
    { unfold to_cfm_per_ton, air, ton_ref, cfm, btu_h. cbn [nmul RNum]. rewrite fk_val. rnum. field. }
    assert (W : wb_of (c_indoor (rcd Cooling None)) = Ok (fr_F (lit 67))) by reflexivity.
    unfold t24_gross_shr, t24_inputs. rewrite W. cbn [rbind].
    change (c_standard_volumetric_airflow_per_capacity (rcd Cooling None)) with (Some (1 * air / 10000)).
    cbn [need rbind]. rewrite V.
    change (ps_db (c_outdoor (rcd Cooling None))) with (fr_F (T:=R) (lit 95)).
    change (ps_db (c_indoor (rcd Cooling None))) with (fr_F (T:=R) (lit 80)).
    assert (F : forall x : R, to_F (fr_F x) = x) by (intros; unfold to_F, fr_F; rnum; lra).
    rewrite !F. unfold CA_regression, SHR_COEFFS.
    rewrite pydiv_ok by (apply Rgt_not_eq; lra). cbn [rbind].
    eexists. split; [reflexivity|]. unfold pymin. rnum.
    match goal with |- context [Rltb ?a ?b] => destruct (Rltb_spec a b) end; lra.
  Qed.

  Lemma toy_gtc crank : forall coil,
    gross_total_cooling_capacity Mr (u_full coil crank kfull) (Some (rcd Cooling None)) = Ok (10000 + fanwt).
  Proof.
    intros coil. set (u := u_full coil crank kfull). set (cA := rcd Cooling None).
    pose proof fanwt_val as FW.
    destruct (curves_positive 95 (or_intror eq_refl)) as (Co & C1 & _).
    set (o' := blank (T:=R) (fr_F 95) atm).
    assert (L95 : fr_F (lit (T:=R) 95) = fr_F 95) by (f_equal; rnum; lra).
    assert (Po : exists o, PsychState lin_psy (fr_F 95) atm [("rel_hum"%string, lit 0.4)] = Ok o
               /\ ps_db o = fr_F 95).
    { eexists. split; reflexivity. }
    clear o'. destruct Po as (o' & Po & Do).
    assert (Eq : entry (sd_gross_cap (u_c u)) 0 (10000 + fanwt)) by reflexivity.
    assert (WB : forall o, ps_wb (c_indoor (rcd Cooling o)) = Some (fr_F 67)).
    { intros o. cbn [rcd flow_cond c_indoor default_indoor psych_wetbulb put_wb ps_wb blank]. rewrite <- lit67. reflexivity. }
    destruct flow_one as (F1 & _).
    assert (Hq : forall o, ps_db (c_outdoor (rcd Cooling o)) = fr_F 95 ->
       nrel_gross_total_cooling_capacity u (rcd Cooling o) = Ok (cool_cap_T 67 95 * (10000 + fanwt))).
    { intros o Ho. rewrite (gtc_eq u _ (fr_F 67) 1 (10000 + fanwt) (WB o) eq_refl Eq).
      rewrite Ho, Co, default_curve_wb, F1, Rmult_1_l. reflexivity. }
    unfold gross_total_cooling_capacity. cbn [cooling_conditions rbind Mr md_gtc md_f_gtc RESNETDXModel].
    refine (value_rated lin_psy u net g _ cooling_capacity _ cA (rcd Cooling (Some o')) o' 95 (10000 + fanwt) _
       eq_refl eq_refl eq_refl eq_refl L95 _ Po (rcd_ok Cooling coil crank kfull (Some o')) (Hq None L95) (Hq (Some o') Do) _ _ _).
    - rewrite <- L95. exact G95.
    - apply Rgt_not_eq. apply Rmult_lt_0_compat; [exact C1|lra].
    - lra.
    - apply grading_zero. unfold u, u_full, tunit. cbn [u_charge]. apply lit0_R.
  Qed.

  Definition kcoil (s b n : R) : list (option R) * list (option R) * list (option R) := ([Some s], [Some b], [Some n]).
  Lemma toy_coil crank : exists s b n, 0 < n /\
    set_sensible_cooling_variables lin_psy rt_sol Mr (u_full nocoil crank kfull)
    = (u_full (kcoil s b n) crank kfull, Ok tt).
  Proof.
    pose proof fanwt_val as FW. pose proof air_val as AV.
    set (q := 10000 + fanwt). set (m := 1 * (air * 1.2)).
    assert (M : m <> 0) by (unfold m; lra).
    assert (BK : 16000 < q / m < 16500).
    { assert (MP : 0 < m) by (unfold m; lra).
      split; apply (Rmult_lt_reg_r m); auto; replace (q / m * m) with q by (field; exact M); unfold q, m.
      all: unfold fanwt, EFFICACY_SLOPE, air; rewrite ?e4_val, fk_val; rnum; lra. }
    destruct (toy_shr (u_full nocoil crank kfull)) as (s & Es & Bs).
    destruct (coil_rt (q / m) s (s * q) m q BK Bs M eq_refl eq_refl)
      as (outlet & adp & hi & ho & ha & E1 & E2 & E3 & E4 & E5 & B1 & B2).
    set (cA := rcd Cooling None).
    set (bf := (ho - ha) / (hi - ha)).
    assert (BF : 0 < bf) by (apply Rdiv_lt_0_compat; lra).
    exists s, bf, (- m * ln bf). split.
    { assert (bf < 1).
      { unfold bf. apply (Rmult_lt_reg_r (hi - ha)); [lra|]. replace ((ho - ha) / (hi - ha) * (hi - ha)) with (ho - ha) by (field; lra). lra. }
      assert (LN : ln bf < 0) by (rewrite <- ln_1; apply ln_increasing; assumption).
      assert (MP : 0 < m) by (unfold m; lra). nra. }
    unfold set_sensible_cooling_variables.
    apply sbind_ok. eexists. eexists. split; [reflexivity|]. cbv zeta.
    apply sbind_ok. eexists. exists tt. split; [|reflexivity].
    unfold set_sensible_at.
    apply sbind_ok. exists (u_full nocoil crank kfull), cA. split; [reflexivity|].
    apply sbind_ok. eexists. eexists. split; [reflexivity|].
    apply sbind_ok. exists (u_full nocoil crank kfull), s. split; [apply slift_ok; split; [reflexivity|exact Es]|].
    apply sbind_ok. exists (u_full nocoil crank kfull), 0%nat. split; [reflexivity|].
    apply sbind_ok. exists (u_full nocoil crank kfull), [Some s]. split; [reflexivity|].
    apply sbind_ok. exists (u_full ([Some s], [None], [None]) crank kfull), tt. split; [reflexivity|].
    set (w := u_full ([Some s], [None], [None]) crank kfull).
    unfold calculate_rated_bypass_factor.
    apply sbind_ok. exists w, w. split; [reflexivity|].
    change (c_speed cA) with 0%nat. cbv zeta.
    apply sbind_ok. exists w, bf. split.
    { apply slift_ok. split; [reflexivity|].
      change (arr (u_shr w) 0) with (Ok s). cbn [rbind].
      assert (GT : gross_total_cooling_capacity Mr w (Some cA) = Ok q) by apply toy_gtc.
      rewrite GT. cbn [rbind].
      assert (O : gross_cooling_outlet_state lin_psy Mr w (Some cA) (Some (nmul s q)) = Ok outlet).
      { unfold gross_cooling_outlet_state. cbn [cooling_conditions rbind].
        change (h_of lin_psy (c_indoor cA)) with
          (Ok (1006 * to_C (fr_F (lit 80)) + 2500000 * 0.0112)).
        cbn [rbind]. change (c_mass_airflow cA) with (Some m). cbn [need rbind].
        rewrite GT. cbn [rbind]. rewrite pydiv_ok by auto. cbn [rbind].
        replace (C_p (T:=R)) with 1006 by (unfold C_p; rnum; lra).
        rewrite pydiv_ok by (cbn [nmul RNum]; apply Rmult_integral_contrapositive_currified; [assumption|apply Rgt_not_eq; lra]).
        exact E1. }
      rewrite O. cbn [rbind]. change (c_indoor cA) with inC. rewrite E2. cbn [rbind].
      rewrite E3. cbn [rbind]. rewrite E4. cbn [rbind]. rewrite E5. cbn [rbind].
      cbn [nsub RNum]. apply pydiv_ok. apply Rgt_not_eq. lra. }
    apply sbind_ok. exists w, [Some bf]. split; [reflexivity|].
    apply sbind_ok. eexists. exists tt. split; [reflexivity|].
    apply sbind_ok. eexists. exists (- m * ln bf). split.
    { apply slift_ok. split; [reflexivity|]. change (c_mass_airflow cA) with (Some m).
      cbn [need rbind]. unfold pylog. rewrite lit0_R. cbn [nleb RNum].
      destruct (Rleb_spec bf 0) as [C|_]; [exfalso; lra|]. reflexivity. }
    apply sbind_ok. eexists. exists [Some (- m * ln bf)]. split; [reflexivity|].
    reflexivity.
  Qed.
  End Rated.

  Definition toy_unit (g : perf R) (P95 s b n : R) : dxunit R :=
    u_full g (10000 / P95) ((10000 + fanwt) / (P95 - fanwt)) (10000 / (10000 / c))
      ((10000 - fanwt) / (10000 / c - fanwt)) (kcoil s b n) (Some crk) kfull.

  Theorem toy_built : exists g P95 s b n,
    DXUnit lin_psy rt_sol Mr (toy_args hs c) = Ok (toy_unit g P95 s b n)
    /\ shifted g /\ 1000 < P95 /\ cooling_power net (lit 1) (fr_F (lit 95)) = Ok P95 /\ 0 < n.
  Proof.
    destruct toy_gross as (g & P95 & G & Sh & B & P1). cbv zeta in G.
    set (nc := 10000 / P95) in *. set (gc := (10000 + fanwt) / (P95 - fanwt)) in *.
    set (nh := 10000 / (10000 / c)) in *. set (gh := (10000 - fanwt) / (10000 / c - fanwt)) in *.
    assert (Q1 : cooling_capacity net (lit 1) (fr_F (lit 95)) = Ok 10000).
    { rewrite lit1_R. replace (lit 95) with 95 by (rnum; lra). exact (proj1 (single_caps _ _ _ _ _ _ _ _ _ _ _ Hnet)). }
    destruct (Sh (lit 1) (fr_F (lit 95)) 10000) as (G95 & _). specialize (G95 Q1).
    destruct (toy_coil g nc gc nh gh G95 (Some crk)) as (s & b & n & Pn & Ec).
    exists g, P95, s, b, n. split; [|auto].
    destruct (toy_start hs c) as (u0 & I & Pl).
    unfold DXUnit. rewrite I. cbn [rbind]. unfold ex.
    match goal with |- match ?m with _ => _ end = _ =>
      enough (R : m = (toy_unit g P95 s b n, Ok tt)) by (rewrite R; reflexivity) end.
    set (v := u_full g nc gc nh gh).
    unfold finish_unit.
    apply sbind_ok. eexists. exists tt. split; [exact Pl|].
    apply sbind_ok. exists (u_gross g nc gc nh gh), tt. split.
    { unfold md_set_net_capacities_and_fan, Mr, RESNETDXModel, resnet_set_net_capacities_and_fan.
      cbn [a_ccap a_hcap a_fan toy_args rating_args].
      apply sbind_ok. eexists. exists tt. split; [reflexivity|].
      apply sbind_ok. eexists. exists tt. split; [exact toy_caps|].
      apply sbind_ok. eexists. exists tt. split; [exact toy_set_fan|].
      apply sbind_ok. eexists. exists tt. split; [exact G|].
      reflexivity. }
    apply sbind_ok. exists (u_gross g nc gc nh gh), tt. split.
    { unfold reset_full_esp, sbind, sread. rewrite (full_esp_ok _ psi); [reflexivity|].
      split; [reflexivity|]. exists 10000. split; reflexivity. }
    apply sbind_ok. eexists. eexists. split; [reflexivity|].
    apply sbind_ok. eexists. exists tt. split; [reflexivity|].
    apply sbind_ok. exists (v nocoil None no_conds), tt. split; [reflexivity|].
    apply sbind_ok. exists (v nocoil None no_conds), crk. split; [reflexivity|].
    apply sbind_ok. exists (v nocoil (Some crk) no_conds), tt. split; [reflexivity|].
    apply sbind_ok. eexists. exists tt. split; [apply toy_conditions|].
    apply sbind_ok. eexists. exists tt. split; [exact Ec|].
    set (u := u_full g nc gc nh gh (kcoil s b n) (Some crk) kfull).
    apply sbind_ok. exists u, tt. split; [reflexivity|].
    apply sbind_ok. exists u, tt. split; [reflexivity|].
    apply sbind_ok. exists u, tt. split; [reflexivity|].
    apply sbind_ok. exists u, tt. split; [reflexivity|].
    apply sbind_ok. exists u, tt. split; [reflexivity|].
    apply sbind_ok. exists u, tt. split; [reflexivity|].
    apply sbind_ok. exists u, tt. split; [reflexivity|].
    apply sbind_ok. exists u, tt. split; [reflexivity|].
    reflexivity.
  Qed.
End Toy.
