(** Statements about fans packaged for the property file, constructors that
    cannot fail, and a sound bracketing solver. *)
From Coq Require Import Reals QArith Lra Lia List Bool Permutation Sorted.
From Coq Require Import ClassicalEpsilon.
From Verif.Base Require Import Num Res Tac.
From Verif.Model Require Import Units Util Fan.
From Verif.Spec Require Import FanSpec.
From Verif.Proofs Require Import UnitsR FanProofs FanProofs2 FanProofs3.
Import ListNotations.
Local Open Scope R_scope.

Lemma check_power_value sol (f f' : Fn) a esp w :
  parallel f -> f_class f <> ConstantEfficacyFan ->
  check_power sol a esp f = (f', Ok w) ->
  f' = f /\ exists f1, add_speed a None f = (f1, Ok tt) /\ power sol f1 (f_n f) esp = Ok w.
Proof.
  intros P K H. split; [eapply check_power_neutral; eauto|].
  unfold check_power in H. inv_st.
  repeat match goal with x : unit |- _ => destruct x end.
  eexists. split; [eassumption|].
  match goal with H : add_speed _ _ _ = _ |- _ =>
    apply add_speed_par0 in H as (_ & _ & N1); [|apply parallel_par0; auto] end.
  rewrite N1 in *. cbn [Nat.pred] in *. auto.
Qed.

(** * Constructors *)
Lemma psc_adds_total l : forall (f : Fn) e,
  psc_inv f -> 0 <= f_reduction f -> f_design_efficacy f = EffNum e ->
  Forall (fun a => 0 < a) (f_airflow f ++ l) ->
  exists f', sfold (fun a => add_speed a None) l f = (f', Ok tt).
Proof.
  induction l as [|a l IH]; intros f e P Rd Ef F; simpl.
  - eexists; reflexivity.
  - pose proof AC_pos as AC.
    assert (Pa : 0 < a).
    { apply Forall_app in F as (_ & F). inversion F; auto. }
    assert (A0 : exists a0, geti (f_airflow f ++ [a]) 0 = Ok a0 /\ 0 < a0).
    { destruct (f_airflow f) as [|x y].
      - exists a. split; auto.
      - exists x. split; [reflexivity|]. inversion F; auto. }
    destruct A0 as (a0 & A0 & P0).
    assert (B0 : exists b0, geti (f_free_airflow f ++ [a + f_reduction f]) 0 = Ok b0 /\ 0 < b0).
    { destruct P as (_ & _ & Q & _). rewrite Q.
      destruct (f_airflow f) as [|x y]; simpl in *.
      - eexists; split; [reflexivity|]. lra.
      - eexists; split; [reflexivity|]. inversion F; subst. lra. }
    destruct B0 as (b0 & B0 & Pb).
    assert (L : 0 < (a + f_reduction f) / AIRFLOW_COEFFICIENT + 1).
    { assert (0 < / AIRFLOW_COEFFICIENT (T:=R)) by (apply Rinv_0_lt_compat; auto).
      unfold Rdiv. nra. }
    assert (A : exists f1, add_speed a None f = (f1, Ok tt)).
    { destruct P as (K & _ & Q & _). unfold add_speed, sbind at 1, sget at 1. rewrite K.
      unfold psc_add_speed. unfold sbind at 1, sget at 1. unfold sbind at 1.
      rewrite (base_add_total f a a0) by (auto; lra).
      unfold sbind, sget, slift, smod. cbn [f_free_airflow w_base w_free].
      cbn [nadd RNum]. rewrite B0. rewrite pydiv_ok by lra.
      unfold eff_num. cbn [f_design_efficacy w_base w_free]. rewrite Ef.
      unfold pylog. rewrite lit0_R, lit1_R. cbn [nleb nadd ndiv RNum].
      destruct (Rleb_spec ((a + f_reduction f) / AIRFLOW_COEFFICIENT + 1) 0); [lra|].
      eexists. reflexivity. }
    destruct A as (f1 & A).
    pose proof (add_speed_airflow _ _ _ _ A) as A1.
    pose proof (add_speed_keeps _ _ _ _ _ A) as (K1 & K2 & K3 & K4 & _).
    destruct (IH f1 e) as (f2 & H2).
    + eapply (psc_inv_op (AddSpeed a None)); eauto.
    + rewrite K4. auto.
    + unfold add_speed in A. apply sbind_ok in A. destruct A as (s2 & f0 & E & A).
      unfold sget in E. inv_st. destruct P as (K & _). rewrite K in A.
      apply psc_add_ok in A as (? & ? & ? & _ & _ & _ & _ & _ & _ & ->). auto.
    + rewrite A1, <- app_assoc. auto.
    + exists f2. unfold sbind. rewrite A. auto.
Qed.

Lemma airflow_reduction_nonneg p : 0 <= p -> 0 <= airflow_reduction (T:=R) p.
Proof.
  intros H. pose proof (airflow_reduction_mono 0 p H) as M.
  assert (Z : airflow_reduction (T:=R) 0 = 0).
  { rewrite airflow_reduction_eq, Rmult_0_l, exp_0. lra. }
  lra.
Qed.

Lemma psc_total airflows esp eff :
  airflows <> [] -> Forall (fun a => 0 < a) airflows -> 0 <= esp ->
  exists f : Fn, make_psc_fan airflows esp eff = Ok f.
Proof.
  intros N F P. destruct airflows as [|a0 l]; [congruence|].
  unfold make_psc_fan, init_fan. cbn [geti nth_error need rbind].
  assert (0 < a0) by (inversion F; auto).
  unfold system_curve_constant. rewrite pysqrt_ok by auto. cbn [rbind].
  rewrite pydiv_ok by lra. cbn [rbind].
  destruct (psc_adds_total (a0 :: l)
     (blank_fan PSCFan esp (EffNum eff) (sqrt esp / a0) (airflow_reduction esp) (lit 0)) eff)
     as (f & E); auto.
  - unfold psc_inv. cbn. auto 10.
  - apply airflow_reduction_nonneg; auto.
  - change (sqrt esp) with (nsqrt esp) in *. rewrite E. eauto.
Qed.

Lemma more_adds_total l : forall (f : Fn) a0,
  (f_class f = ConstantEfficacyFan \/ exists m, f_class f = ECMFlowFan m) ->
  geti (f_airflow f ++ l) 0 = Ok a0 -> a0 <> 0 ->
  exists f', sfold (fun a => add_speed a None) l f = (f', Ok tt).
Proof.
  induction l as [|a l IH]; intros f a0 C E Z; simpl.
  - eexists. reflexivity.
  - assert (A : exists f', add_speed a None f = (f', Ok tt)).
    { assert (B : geti (f_airflow f ++ [a]) 0 = Ok a0).
      { destruct (f_airflow f); simpl in *; auto. }
      unfold add_speed, sbind, sget.
      destruct C as [C|(k & C)]; rewrite C.
      - unfold const_add_speed, sbind. rewrite (base_add_total f a a0 B Z).
        eexists. reflexivity.
      - unfold ecm_add_speed, sbind, sget, slift. rewrite (base_add_total f a a0 B Z).
        cbn [f_ratio w_base]. rewrite lasti_app. eexists. unfold smod. reflexivity. }
    destruct A as (f1 & A). pose proof A as A0. pose proof A as A1.
    apply add_speed_airflow in A0. apply add_speed_keeps in A1 as (K & _).
    destruct (IH f1 a0) as (f2 & H2); auto.
    + rewrite K. auto.
    + rewrite A0, <- app_assoc. auto.
    + exists f2. unfold sbind. rewrite A. auto.
Qed.

Lemma more_init_total k l esp e red fe a0 :
  (k = ConstantEfficacyFan \/ exists m, k = ECMFlowFan m) ->
  geti l 0 = Ok a0 -> a0 <> 0 -> 0 <= esp ->
  exists f : Fn, init_fan k l esp e red fe = Ok f.
Proof.
  intros C E Z P. unfold init_fan. rewrite E. cbn [rbind].
  unfold system_curve_constant. rewrite pysqrt_ok by auto. cbn [rbind].
  rewrite pydiv_ok by auto. cbn [rbind].
  destruct (more_adds_total l (blank_fan k esp e (sqrt esp / a0) red fe) a0)
    as (f & H); auto.
  rewrite H. eauto.
Qed.

Lemma const_total airflows esp e a0 :
  geti airflows 0 = Ok a0 -> a0 <> 0 -> 0 <= esp ->
  exists f : Fn, make_constant_efficacy_fan airflows esp e = Ok f.
Proof.
  intros E Z P. unfold make_constant_efficacy_fan.
  destruct (more_init_total ConstantEfficacyFan airflows esp e (lit 0) (lit 0) a0)
    as (f & F); auto.
  rewrite F. cbn [rbind]. destruct (f_design_efficacy f); eauto.
Qed.

Lemma ecm_total airflows esp eff mx a0 :
  geti airflows 0 = Ok a0 -> a0 <> 0 -> 0 <= esp ->
  (forall m, mx = Some m -> a0 * eff <= m) ->
  exists f : Fn, make_ecm_fan airflows esp eff mx = Ok f.
Proof.
  intros E Z P M. unfold make_ecm_fan. rewrite E. cbn [rbind].
  destruct (more_init_total (ECMFlowFan mx) airflows esp (EffNum eff) (lit 0)
     (eff - EFFICACY_SLOPE_ESP * esp) a0) as (f & F); eauto.
  destruct mx as [m|].
  - specialize (M m eq_refl). cbn [nltb nmul RNum]. destruct (Rltb_spec m (a0 * eff)); [lra|].
    cbn [rbind]. cbn [nsub nmul RNum]. eauto.
  - cbn [rbind nsub nmul RNum]. eauto.
Qed.

(** * C15, packaged *)
Lemma psc_fan_laws sol airflows esp eff (f f' : Fn) ops :
  make_psc_fan airflows esp eff = Ok f ->
  sfold run_op ops f = (f', Ok tt) ->
  (forall i, (i < f_n f')%nat ->
    exists (q : R -> R) bp,
      geti (f_block_pressure f') i = Ok bp
      /\ (forall p, airflow sol f' i (Some p) = Ok (q p))
      /\ (forall p, 0 <= q p)
      /\ (forall p p', p <= p' -> q p' <= q p)
      /\ (forall p, q p = 0 <-> bp <= p))
  /\ (forall a x f'', add_speed a x f' = (f'', Ok tt) ->
       f_n f'' = S (f_n f')
       /\ airflow sol f'' (f_n f') (Some (match x with Some p => p | None => esp end))
          = Ok (Rmax a 0)
       /\ forall i p, (i < f_n f')%nat ->
            airflow sol f'' i (Some p) = airflow sol f' i (Some p)).
Proof.
  intros M O. destruct (psc_ops _ _ _ _ _ _ M O) as (I & P). split.
  - intros i Hi. apply psc_curve; auto.
  - intros a x f'' A.
    destruct (psc_added sol _ _ _ _ I P A) as (A1 & A2).
    assert (Ee : f_design_esp f' = esp).
    { unfold make_psc_fan in M. apply init_fan_facts in M as (a1 & M).
      apply ops_keep in O as (_ & O & _). rewrite O. tauto. }
    pose proof (add_speed_par0 _ _ _ _ _ (parallel_par0 _ P) A) as (_ & _ & N).
    rewrite Ee in A1. auto.
Qed.

(** * C16, packaged *)
Lemma ecm_fan_laws sol airflows esp eff mx (f f' : Fn) ops :
  make_ecm_fan airflows esp eff mx = Ok f ->
  sfold run_op ops f = (f', Ok tt) ->
  forall i p, (i < f_n f')%nat ->
  exists a w, geti (f_airflow f') i = Ok a
    /\ power sol f' i (Some p) = Ok w
    /\ (forall m, mx = Some m -> w <= m)
    /\ ((forall m, mx = Some m -> 0 <= m) -> 0 <= a ->
        forall q, airflow sol f' i (Some p) = Ok q ->
          0 <= q <= a /\
          ((mx = None \/ exists m, mx = Some m /\ w < m) -> q = a)).
Proof.
  intros M O i p Hi.
  assert (Md : made f) by (eapply made_ecm; eauto).
  assert (C : f_class f = ECMFlowFan mx).
  { pose proof M as M0. unfold make_ecm_fan in M0. inv_ok. apply init_fan_facts in M0 as (a1 & M0). tauto. }
  assert (G : Forall (efficacy_given (f_class f)) ops).
  { rewrite C. apply Forall_forall. intros o _. destruct o; simpl; auto. }
  destruct (made_ops_parallel _ _ _ Md G O) as (P & K). rewrite C in K.
  destruct (ecm_laws sol f' mx i p P K Hi) as (a & w & A1 & A2 & A3 & A4).
  exists a, w. repeat split; auto; intros.
  - apply (A4 H H0 q H1).
  - apply (A4 H H0 q H1).
  - apply (A4 H H0 q H1).
    destruct (ecm_lookup f' mx i P K Hi) as (a' & e & E1 & E2).
    rewrite (ecm_power_eq sol f' mx i a' e p) in A2 by auto.
    apply Ok_inj in A2. rewrite (ecm_unconstrained f' i a' e p) by auto. f_equal.
    destruct H2 as [-> |(m & -> & L)]; simpl in A2; auto.
    revert A2. unfold Rmin. destruct (Rle_dec _ _); intros; subst; auto; lra.
Qed.

(** * A sound bracketing solver exists *)
Definition ideal_brentq (g : R -> res R) (a b : R) : res R :=
  match excluded_middle_informative
          (exists ya yb, g a = Ok ya /\ g b = Ok yb /\ 0 < ya * yb) with
  | left _ => Err ValueError
  | right _ =>
      match excluded_middle_informative (exists x, a <= x <= b /\ g x = Ok 0) with
      | left H => Ok (proj1_sig (constructive_indefinite_description _ H))
      | right _ => Err ValueError
      end
  end.
Definition ideal_solvers : solvers R :=
  {| brentq := ideal_brentq; newton := fun g => PDone g |}.

Lemma clamp_continuity a b : a <= b ->
  exists c, continuity c /\ (forall x, a <= x <= b -> c x = x) /\ (forall x, a <= c x <= b).
Proof.
  intros H.
  set (c := fun x => (a + (b + x - Rabs (b - x)) / 2
                      + Rabs (a - (b + x - Rabs (b - x)) / 2)) / 2).
  exists c. split; [|split].
  - unfold c.
    assert (C1 : continuity (fun x => (b + x - Rabs (b - x)) / 2)).
    { intros x. apply continuity_pt_mult; [|apply continuity_pt_const; intros ? ?; auto].
      apply continuity_pt_minus.
      - apply continuity_pt_plus; [apply continuity_pt_const; intros ? ?; auto|].
        apply derivable_continuous_pt, derivable_pt_id.
      - apply (continuity_pt_comp (fun x => b - x) Rabs).
        + apply continuity_pt_minus; [apply continuity_pt_const; intros ? ?; auto|].
          apply derivable_continuous_pt, derivable_pt_id.
        + apply Rcontinuity_abs. }
    intros x. apply continuity_pt_mult; [|apply continuity_pt_const; intros ? ?; auto].
    apply continuity_pt_plus.
    + apply continuity_pt_plus; [apply continuity_pt_const; intros ? ?; auto|]. apply C1.
    + apply (continuity_pt_comp (fun x => a - (b + x - Rabs (b - x)) / 2) Rabs).
      * apply continuity_pt_minus; [apply continuity_pt_const; intros ? ?; auto|]. apply C1.
      * apply Rcontinuity_abs.
  - intros x Hx. unfold c. rewrite (Rabs_pos_eq (b - x)) by lra.
    replace ((b + x - (b - x)) / 2) with x by lra.
    rewrite Rabs_left1 by lra. lra.
  - intros x. unfold c. destruct (Rle_dec x b).
    + rewrite (Rabs_pos_eq (b - x)) by lra.
      replace ((b + x - (b - x)) / 2) with x by lra.
      destruct (Rle_dec a x); [rewrite Rabs_left1 by lra|rewrite Rabs_pos_eq by lra]; lra.
    + rewrite (Rabs_left1 (b - x)) by lra.
      replace ((b + x - - (b - x)) / 2) with b by lra.
      rewrite Rabs_left1 by lra. lra.
Qed.

Lemma ideal_sound tol : 0 <= tol -> sound_brentq tol ideal_solvers.
Proof.
  intros Ht. unfold sound_brentq, ideal_solvers, brentq, ideal_brentq. split; [|split].
  - intros g a b x H. destruct (excluded_middle_informative _); [discriminate|].
    destruct (excluded_middle_informative _) as [E|]; [|discriminate].
    apply Ok_inj in H. destruct (constructive_indefinite_description _ E) as (x0 & B & Z).
    simpl in H. subst x0. exists x. split; auto. split; auto.
    rewrite Rminus_diag_eq, Rabs_R0 by auto. auto.
  - intros g a b ya yb A B S.
    destruct (excluded_middle_informative _) as [|N]; auto.
    exfalso. apply N. exists ya, yb. auto.
  - intros g h a b L C S.
    assert (Ea : g a = Ok (h a)) by (apply C; lra).
    assert (Eb : g b = Ok (h b)) by (apply C; lra).
    destruct (excluded_middle_informative _) as [(ya & yb & A & B & P)|_].
    + rewrite Ea in A. rewrite Eb in B. apply Ok_inj in A. apply Ok_inj in B. subst. lra.
    + destruct (excluded_middle_informative _) as [E|N]; [eauto|]. exfalso. apply N.
      destruct (clamp_continuity a b L) as (c & C1 & C2 & C3).
      destruct (IVT_cor (fun x => h (c x)) a b) as (z & Z1 & Z2).
      * intros x. apply (continuity_pt_comp c h); [apply C1|]. apply C; apply C3.
      * auto.
      * rewrite !C2 by lra. auto.
      * exists z. split; auto. rewrite C2 in Z2 by auto.
        destruct (C z Z1) as (G & _). rewrite G, Z2. auto.
Qed.

(** * C18, power comparison *)
Lemma power_times sol (f : Fn) i esp a e :
  (f_class f = RESNETPSCFan \/ f_class f = RESNETBPMFan) ->
  geti (f_airflow f) i = Ok a -> efficacy sol f i esp = Ok e ->
  power sol f i esp = Ok (a * e).
Proof.
  intros C A E. unfold power, airflow. destruct C as [C|C]; rewrite C, A; cbn [rbind];
    rewrite E; reflexivity.
Qed.

Lemma resnet_class_airflow airflows (f : Fn) :
  make_resnet_psc_fan airflows = Ok f \/ make_resnet_bpm_fan airflows = Ok f ->
  (f_class f = RESNETPSCFan \/ f_class f = RESNETBPMFan) /\ f_airflow f = airflows.
Proof.
  intros [M|M]; unfold make_resnet_psc_fan, make_resnet_bpm_fan in M;
    apply init_fan_facts in M as (a0 & M); tauto.
Qed.

Lemma bpm_power_below_psc sol airflows (fp fb : Fn) i a a0 p :
  sound_brentq 0 sol ->
  make_resnet_psc_fan airflows = Ok fp -> make_resnet_bpm_fan airflows = Ok fb ->
  geti airflows i = Ok a -> geti airflows 0 = Ok a0 -> 0 < a <= a0 ->
  0 <= p <= fr_inH2O 0.5 * (a / a0) ^ 2 ->
  exists wp wb, power sol fp i (Some p) = Ok wp /\ power sol fb i (Some p) = Ok wb
    /\ wb < wp.
Proof.
  intros S Mp Mb E E0 Pa Pp.
  destruct (resnet_class_airflow _ _ (or_introl Mp)) as (C1 & A1).
  destruct (resnet_class_airflow _ _ (or_intror Mb)) as (C2 & A2).
  pose proof (resnet_psc_efficacy_eq sol _ _ i _ _ (Some p) Mp E E0) as Ep.
  assert (S3 : 1 <= sqrt 3).
  { rewrite <- sqrt_1. apply sqrt_le_1_alt. lra. }
  destruct (resnet_bpm_efficacy_eq sol _ _ i _ _ (Some p) S Mb E E0) as (D & Eb); [lra| |].
  { split; [lra|]. assert (a0 <= sqrt 3 * a0) by nra. lra. }
  cbv zeta in Eb, D.
  set (dp := fr_inH2O 0.5 * (a / a0) ^ 2) in *.
  do 2 eexists. split; [eapply power_times; [auto|rewrite A1; eassumption|eassumption]|].
  split; [eapply power_times; [auto|rewrite A2; eassumption|eassumption]|].
  apply Rmult_lt_compat_l; [lra|]. apply bpm_below_psc.
  - split; [apply Rdiv_lt_0_compat; lra|]. apply Rmult_le_reg_r with a0; [lra|].
    unfold Rdiv. rewrite Rmult_assoc, Rinv_l; lra.
  - split; [apply Rmult_le_pos; [lra|left; apply Rinv_0_lt_compat; auto]|].
    apply Rmult_le_reg_r with dp; [lra|].
    unfold Rdiv. rewrite Rmult_assoc, Rinv_l; lra.
Qed.

(** * C13, C14 packaged: a constructed fan, after any speed edits. *)
Lemma system_curve_laws (f f' : Fn) ops a0 :
  made f -> geti (f_airflow f) 0 = Ok a0 -> 0 < a0 -> 0 < f_design_esp f ->
  sfold run_op ops f = (f', Ok tt) ->
  (forall q, 0 <= q -> system_flow f' (system_pressure f' q) = Ok q)
  /\ (forall p, 0 <= p -> exists q, system_flow f' p = Ok q /\ 0 <= q
                                    /\ system_pressure f' q = p)
  /\ (forall q q', 0 <= q -> q < q' -> system_pressure f' q < system_pressure f' q')
  /\ (forall p p' q q', 0 <= p -> p < p' ->
        system_flow f' p = Ok q -> system_flow f' p' = Ok q' -> q < q')
  /\ system_pressure f' a0 = f_design_esp f.
Proof.
  intros M E P Q O. destruct (made_system_curve _ _ _ _ M E P Q O) as (K & _ & D).
  repeat split; auto; intros.
  - apply flow_of_pressure; auto.
  - apply pressure_of_flow; auto.
  - apply system_pressure_mono; auto.
  - eapply system_flow_mono with (p := p) (p' := p'); eauto.
Qed.

Lemma operating_pressure_made tol sol (f f' : Fn) ops i a a0 :
  sound_brentq tol sol -> made f -> constant_flow f ->
  geti (f_airflow f) 0 = Ok a0 -> 0 < a0 -> 0 < f_design_esp f ->
  sfold run_op ops f = (f', Ok tt) -> geti (f_airflow f') i = Ok a -> 0 <= a ->
  (a <= sqrt 3 * a0 ->
     exists x, operating_pressure sol f' i = Ok x
       /\ Rabs (x - f_design_esp f * (a / a0) ^ 2) <= tol)
  /\ (sqrt 3 * a0 < a -> operating_pressure sol f' i = Err ValueError).
Proof.
  intros S M C E P Q O A Pa.
  pose proof (ops_keep _ _ _ _ O) as (K1 & K2 & K3 & _).
  destruct (made_facts _ M) as (a1 & E1 & _ & _ & Ks & _).
  rewrite E in E1. apply Ok_inj in E1. subst a1.
  assert (C' : constant_flow f') by (unfold constant_flow in *; rewrite K1; auto).
  assert (Q' : 0 < f_design_esp f') by (rewrite K2; auto).
  assert (Ks' : f_sysk f' = sqrt (f_design_esp f') / a0) by (rewrite K2, K3; auto).
  split; intros L.
  - destruct (operating_pressure_total tol sol f' i a a0) as (x & X1 & X2); auto.
    exists x. split; auto. rewrite system_pressure_eq, Ks', K2 in X2.
    assert (Eq : a * (sqrt (f_design_esp f) / a0) * (a * (sqrt (f_design_esp f) / a0))
                 = f_design_esp f * (a / a0) ^ 2).
    { rewrite <- (sqrt_sqrt (f_design_esp f)) at 3 by lra. field; lra. }
    rewrite <- Eq. auto.
  - apply (operating_pressure_fails tol sol f' i a a0); auto.
Qed.
