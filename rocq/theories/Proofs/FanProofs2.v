From Coq Require Import Reals QArith Lra Lia List Bool Permutation Sorted.
From Verif.Base Require Import Num Res Tac.
From Verif.Model Require Import Units Util Fan.
From Verif.Spec Require Import FanSpec.
From Verif.Proofs Require Import UnitsR FanProofs.
Import ListNotations.
Local Open Scope R_scope.

(** * What no operation changes *)
Definition keeps (f f' : Fn) : Prop :=
  f_class f' = f_class f /\ f_design_esp f' = f_design_esp f
  /\ f_sysk f' = f_sysk f /\ f_reduction f' = f_reduction f
  /\ f_free_eff0 f' = f_free_eff0 f
  /\ f_index f' = f_index f /\ f_weight f' = f_weight f.

Lemma keeps_refl f : keeps f f.
Proof. unfold keeps; auto 10. Qed.
Lemma keeps_trans f g h : keeps f g -> keeps g h -> keeps f h.
Proof. unfold keeps. intuition congruence. Qed.

Lemma add_speed_keeps (f f' : Fn) a x u :
  add_speed a x f = (f', Ok u) -> keeps f f'.
Proof.
  intros H. unfold add_speed in H. apply sbind_ok in H.
  destruct H as (s2 & f0 & E & H). unfold sget in E. inv_st.
  unfold keeps. destruct (f_class f0) eqn:K.
  - apply const_add_ok in H as (a0 & _ & _ & H). destruct x.
    + destruct H as (l & _ & ->). simpl. auto 10.
    + cbv zeta in H. subst f'. simpl. auto 10.
  - apply psc_add_ok in H as (a0 & fa0 & e & _ & _ & _ & _ & _ & _ & ->). simpl. auto 10.
  - apply ecm_add_ok in H as (a0 & _ & _ & ->). simpl. auto 10.
  - apply eere_add_ok in H as (a0 & _ & _ & ->). simpl. auto 10.
  - apply base_add_ok in H as (a0 & _ & _ & ->). simpl. auto 10.
  - apply base_add_ok in H as (a0 & _ & _ & ->). simpl. auto 10.
Qed.

Lemma remove_speed_keeps (f f' : Fn) i u :
  remove_speed i f = (f', Ok u) -> keeps f f'.
Proof.
  intros H. unfold remove_speed in H. apply sbind_ok in H.
  destruct H as (s2 & f0 & E & H). unfold sget in E. inv_st.
  unfold keeps. destruct (f_class f0) eqn:K.
  - apply const_remove_ok in H as (l & _ & _ & ->). simpl. auto 10.
  - apply psc_remove_ok in H as ->. simpl. auto 10.
  - apply ecm_remove_ok in H as ->. simpl. auto 10.
  - apply eere_remove_ok in H as ->. simpl. auto 10.
  - apply base_remove_ok in H as (_ & _ & _ & ->). simpl. auto 10.
  - apply base_remove_ok in H as (_ & _ & _ & ->). simpl. auto 10.
Qed.

Lemma run_op_keeps o (f f' : Fn) u : run_op o f = (f', Ok u) -> keeps f f'.
Proof.
  destruct o; simpl; intros H; [eapply add_speed_keeps|eapply remove_speed_keeps]; eauto.
Qed.

Lemma ops_keep ops : forall (f f' : Fn) u, sfold run_op ops f = (f', Ok u) -> keeps f f'.
Proof.
  induction ops as [|o ops IH]; intros f f' u H; simpl in H.
  - inv_st. apply keeps_refl.
  - inv_st. eapply keeps_trans; [eapply run_op_keeps|eapply IH]; eauto.
Qed.

Lemma sfold_add_keeps l : forall (f f' : Fn) u,
  sfold (fun a => add_speed a None) l f = (f', Ok u) -> keeps f f'.
Proof.
  induction l as [|a l IH]; intros f f' u H; simpl in H.
  - inv_st. apply keeps_refl.
  - inv_st. eapply keeps_trans; [eapply add_speed_keeps|eapply IH]; eauto.
Qed.

(** The airflow list a constructor builds is the list it was given. *)
Lemma add_speed_airflow (f f' : Fn) a u :
  add_speed a None f = (f', Ok u) -> f_airflow f' = f_airflow f ++ [a].
Proof.
  intros H. unfold add_speed in H. apply sbind_ok in H.
  destruct H as (s2 & f0 & E & H). unfold sget in E. inv_st.
  destruct (f_class f0) eqn:K.
  - apply const_add_ok in H as (a0 & _ & _ & H). cbv zeta in H. subst f'. auto.
  - apply psc_add_ok in H as (a0 & fa0 & e & _ & _ & _ & _ & _ & _ & ->). auto.
  - apply ecm_add_ok in H as (a0 & _ & _ & ->). auto.
  - apply eere_add_ok in H as (a0 & _ & _ & ->). auto.
  - apply base_add_ok in H as (a0 & _ & _ & ->). auto.
  - apply base_add_ok in H as (a0 & _ & _ & ->). auto.
Qed.

Lemma sfold_add_airflow l : forall (f f' : Fn) u,
  sfold (fun a => add_speed a None) l f = (f', Ok u) ->
  f_airflow f' = f_airflow f ++ l.
Proof.
  induction l as [|a l IH]; intros f f' u H; simpl in H.
  - inv_st. rewrite app_nil_r. auto.
  - inv_st. apply add_speed_airflow in E. apply IH in H. rewrite H, E.
    rewrite <- app_assoc. auto.
Qed.

Lemma init_fan_facts k l p e red fe (f : Fn) :
  init_fan k l p e red fe = Ok f ->
  exists a0, geti l 0 = Ok a0 /\ 0 <= p /\ a0 <> 0 /\
    f_airflow f = l /\ f_class f = k /\ f_design_esp f = p
    /\ f_sysk f = sqrt p / a0 /\ f_reduction f = red /\ f_free_eff0 f = fe.
Proof.
  unfold init_fan. intros H. inv_ok.
  destruct (sfold _ _ _) as [f1 [u|x]] eqn:Ef; [|discriminate]. inv_ok. subst.
  pose proof Ef as Ea. apply sfold_add_airflow in Ea. simpl in Ea.
  apply sfold_add_keeps in Ef. destruct Ef as (K1 & K2 & K3 & K4 & K5 & _ & _).
  cbn [blank_fan f_class f_design_esp f_sysk f_reduction f_free_eff0] in *.
  unfold system_curve_constant, pysqrt in *. rewrite lit0_R in *.
  destruct (nltb p 0) eqn:Lp; [discriminate|]. cbn [rbind] in *.
  match goal with H : pydiv _ _ = Ok _ |- _ => apply pydiv_inv in H; destruct H as (Hz & ->) end.
  simpl in Lp. apply Rltb_false in Lp.
  eexists. repeat split; eauto.
Qed.

Lemma made_facts f : made f ->
  exists a0, geti (f_airflow f) 0 = Ok a0 /\ a0 <> 0 /\ 0 <= f_design_esp f
    /\ f_sysk f = sqrt (f_design_esp f) / a0
    /\ (f_class f = PSCFan -> f_reduction f = airflow_reduction (f_design_esp f)).
Proof.
  intros M. destruct M as [airflows esp e f L H|airflows esp e f H
                          |airflows esp e mx f H|k airflows esp f H
                          |airflows f H|airflows f H].
  - unfold make_constant_efficacy_fan in H. inv_ok.
    apply init_fan_facts in E as (a0 & A1 & A2 & A3 & A4 & A5 & A6 & A7 & _ & _).
    exists a0. destruct (f_design_efficacy v); inv_ok; subst f; simpl;
      rewrite A4, A6; repeat split; auto; congruence.
  - unfold make_psc_fan in H.
    apply init_fan_facts in H as (a0 & A1 & A2 & A3 & A4 & A5 & A6 & A7 & A8 & _).
    exists a0. rewrite A4, A6; repeat split; auto.
  - unfold make_ecm_fan in H. inv_ok.
    apply init_fan_facts in H as (a0 & A1 & A2 & A3 & A4 & A5 & A6 & A7 & A8 & _).
    exists a0. rewrite A4, A6; repeat split; auto; congruence.
  - unfold make_eere_fan in H. inv_ok. subst.
    apply init_fan_facts in E as (a0 & A1 & A2 & A3 & A4 & A5 & A6 & A7 & A8 & _).
    exists a0. simpl. rewrite A4, A6; repeat split; auto; congruence.
  - apply init_fan_facts in H as (a0 & A1 & A2 & A3 & A4 & A5 & A6 & A7 & A8 & _).
    exists a0. rewrite A4, A6; repeat split; auto; congruence.
  - apply init_fan_facts in H as (a0 & A1 & A2 & A3 & A4 & A5 & A6 & A7 & A8 & _).
    exists a0. rewrite A4, A6; repeat split; auto; congruence.
Qed.

(** * C13 *)
Lemma pysqrt_ok (x : R) : 0 <= x -> pysqrt x = Ok (sqrt x).
Proof.
  intros H. unfold pysqrt. rewrite lit0_R. cbn [nltb nsqrt RNum RNumX].
  destruct (Rltb_spec x 0); [lra|auto].
Qed.

Lemma system_flow_ok (f : Fn) p : 0 <= p -> f_sysk f <> 0 ->
  system_flow f p = Ok (sqrt p / f_sysk f).
Proof.
  intros. unfold system_flow. rewrite pysqrt_ok by auto. simpl. apply pydiv_ok; auto.
Qed.

Lemma system_pressure_eq (f : Fn) q : system_pressure f q = (q * f_sysk f) * (q * f_sysk f).
Proof. reflexivity. Qed.

Lemma flow_of_pressure (f : Fn) q : 0 < f_sysk f -> 0 <= q ->
  system_flow f (system_pressure f q) = Ok q.
Proof.
  intros K Q. rewrite system_pressure_eq.
  assert (0 <= q * f_sysk f) by (apply Rmult_le_pos; lra).
  rewrite system_flow_ok; [|apply Rmult_le_pos; auto|lra].
  rewrite sqrt_square by auto. f_equal. field. lra.
Qed.

Lemma pressure_of_flow (f : Fn) p : 0 < f_sysk f -> 0 <= p ->
  exists q, system_flow f p = Ok q /\ 0 <= q /\ system_pressure f q = p.
Proof.
  intros K P. eexists. split; [apply system_flow_ok; auto; lra|]. split.
  - apply Rmult_le_pos; [apply sqrt_pos|]. left. apply Rinv_0_lt_compat. auto.
  - rewrite system_pressure_eq.
    replace (sqrt p / f_sysk f * f_sysk f) with (sqrt p) by (field; lra).
    apply sqrt_sqrt. auto.
Qed.

Lemma system_flow_mono (f : Fn) p p' q q' : 0 < f_sysk f -> 0 <= p -> p < p' ->
  system_flow f p = Ok q -> system_flow f p' = Ok q' -> q < q'.
Proof.
  intros K P L E E'. rewrite system_flow_ok in E, E' by lra. inv_ok. subst.
  apply Rmult_lt_compat_r; [apply Rinv_0_lt_compat; auto|].
  apply sqrt_lt_1_alt. lra.
Qed.

Lemma system_pressure_mono (f : Fn) q q' : 0 < f_sysk f -> 0 <= q -> q < q' ->
  system_pressure f q < system_pressure f q'.
Proof.
  intros K Q L. rewrite !system_pressure_eq.
  assert (A1 : 0 <= q * f_sysk f) by (apply Rmult_le_pos; lra).
  assert (A2 : q * f_sysk f < q' * f_sysk f) by (apply Rmult_lt_compat_r; auto).
  nra.
Qed.

Lemma made_system_curve (f f' : Fn) ops a0 :
  made f -> geti (f_airflow f) 0 = Ok a0 -> 0 < a0 -> 0 < f_design_esp f ->
  sfold run_op ops f = (f', Ok tt) ->
  0 < f_sysk f' /\ f_design_esp f' = f_design_esp f
  /\ system_pressure f' a0 = f_design_esp f.
Proof.
  intros M E0 P0 Pe H. apply made_facts in M as (a1 & E1 & _ & _ & Ek & _).
  rewrite E0 in E1. apply Ok_inj in E1. subst a1.
  apply ops_keep in H as (_ & K2 & K3 & _).
  assert (0 < f_sysk f').
  { rewrite K3, Ek. apply Rmult_lt_0_compat; [apply sqrt_lt_R0; auto|].
    apply Rinv_0_lt_compat; auto. }
  repeat split; auto.
  rewrite system_pressure_eq, K3, Ek.
  replace (a0 * (sqrt (f_design_esp f) / a0)) with (sqrt (f_design_esp f)) by (field; lra).
  apply sqrt_sqrt. lra.
Qed.

(** * C14 *)
Lemma constant_flow_airflow_at (f : Fn) i p :
  constant_flow f -> airflow_at f i p = geti (f_airflow f) i.
Proof. unfold airflow_at. intros [H|[H|H]]; rewrite H; auto. Qed.

Lemma operating_pressure_sound tol sol (f : Fn) i a x :
  sound_brentq tol sol -> constant_flow f -> 0 < f_sysk f ->
  geti (f_airflow f) i = Ok a -> 0 <= f_design_esp f ->
  operating_pressure sol f i = Ok x ->
  Rabs (x - system_pressure f a) <= tol.
Proof.
  intros (S1 & _ & _) C K Ea Pe H. unfold operating_pressure in H.
  apply S1 in H as (x0 & B & G & T). rewrite constant_flow_airflow_at in G by auto.
  rewrite Ea in G. simpl in G. rewrite lit0_R in B.
  rewrite system_flow_ok in G by (destruct B; lra). simpl in G. apply Ok_inj in G.
  cbn [nsub RNum] in G.
  assert (x0 = system_pressure f a).
  { rewrite system_pressure_eq. assert (E : a = sqrt x0 / f_sysk f) by lra.
    rewrite E. replace (sqrt x0 / f_sysk f * f_sysk f) with (sqrt x0) by (field; lra).
    symmetry. apply sqrt_sqrt. lra. }
  subst. auto.
Qed.

Definition op_residual (f : Fn) (a x : R) : R := a - sqrt x / f_sysk f.

Lemma op_residual_cont f a x : 0 < f_sysk f -> 0 <= x -> continuity_pt (op_residual f a) x.
Proof.
  intros K X. unfold op_residual. apply continuity_pt_minus.
  - apply continuity_pt_const. intros u v. reflexivity.
  - unfold Rdiv.
    apply (continuity_pt_mult sqrt (fun _ => / f_sysk f)).
    + apply continuity_pt_sqrt. auto.
    + apply continuity_pt_const. intros u v. reflexivity.
Qed.

Lemma operating_pressure_total tol sol (f : Fn) i a a0 :
  sound_brentq tol sol -> constant_flow f ->
  0 < a0 -> 0 < f_design_esp f -> f_sysk f = sqrt (f_design_esp f) / a0 ->
  geti (f_airflow f) i = Ok a -> 0 <= a ->
  a <= sqrt 3 * a0 ->
  exists x, operating_pressure sol f i = Ok x
    /\ Rabs (x - system_pressure f a) <= tol.
Proof.
  intros S C P0 Pe Ek Ea A L.
  assert (K : 0 < f_sysk f).
  { rewrite Ek. apply Rmult_lt_0_compat; [apply sqrt_lt_R0; auto|].
    apply Rinv_0_lt_compat; auto. }
  assert (X : exists x, operating_pressure sol f i = Ok x).
  { destruct S as (_ & _ & S3). unfold operating_pressure.
    apply S3 with (op_residual f a).
    - rewrite lit0_R, lit3_R. cbn [nmul RNum]. lra.
    - intros x B. rewrite lit0_R in B. split; [|apply op_residual_cont; auto; lra].
      rewrite constant_flow_airflow_at by auto. rewrite Ea. simpl.
      rewrite system_flow_ok by lra. reflexivity.
    - rewrite lit0_R, lit3_R. cbn [nmul RNum]. unfold op_residual.
      rewrite sqrt_0. replace (0 / f_sysk f) with 0 by (field; lra).
      rewrite Rminus_0_r.
      rewrite sqrt_mult by lra.
      replace (sqrt 3 * sqrt (f_design_esp f) / f_sysk f) with (sqrt 3 * a0).
      + assert (a - sqrt 3 * a0 <= 0) by lra. nra.
      + rewrite Ek. field. split; try lra.
        apply Rgt_not_eq, sqrt_lt_R0. auto. }
  destruct X as (x & X). exists x. split; auto.
  eapply operating_pressure_sound; eauto. lra.
Qed.

Lemma operating_pressure_fails tol sol (f : Fn) i a a0 :
  sound_brentq tol sol -> constant_flow f ->
  0 < a0 -> 0 < f_design_esp f -> f_sysk f = sqrt (f_design_esp f) / a0 ->
  geti (f_airflow f) i = Ok a ->
  sqrt 3 * a0 < a ->
  operating_pressure sol f i = Err ValueError.
Proof.
  intros (_ & S2 & _) C P0 Pe Ek Ea L.
  assert (K : 0 < f_sysk f).
  { rewrite Ek. apply Rmult_lt_0_compat; [apply sqrt_lt_R0; auto|].
    apply Rinv_0_lt_compat; auto. }
  unfold operating_pressure.
  apply S2 with (op_residual f a 0) (op_residual f a (3 * f_design_esp f)).
  - rewrite constant_flow_airflow_at by auto. rewrite Ea, lit0_R. simpl.
    rewrite system_flow_ok by lra. reflexivity.
  - rewrite constant_flow_airflow_at by auto. rewrite Ea, lit3_R. cbn [nmul RNum rbind].
    rewrite system_flow_ok by lra. reflexivity.
  - unfold op_residual. rewrite sqrt_0. replace (0 / f_sysk f) with 0 by (field; lra).
    rewrite sqrt_mult by lra.
    replace (sqrt 3 * sqrt (f_design_esp f) / f_sysk f) with (sqrt 3 * a0).
    2:{ rewrite Ek. field. split; try lra. apply Rgt_not_eq, sqrt_lt_R0. auto. }
    assert (0 < sqrt 3) by (apply sqrt_lt_R0; lra).
    assert (0 < sqrt 3 * a0) by (apply Rmult_lt_0_compat; auto).
    apply Rmult_lt_0_compat; lra.
Qed.

(** * C15 *)
Lemma AC_pos : 0 < AIRFLOW_COEFFICIENT (T:=R).
Proof. unfold AIRFLOW_COEFFICIENT, fr_cfm, cfm. rnum. lra. Qed.
Lemma AE_pos : 0 < AIRFLOW_EXP_COEFFICIENT (T:=R).
Proof. unfold AIRFLOW_EXP_COEFFICIENT, fr_per_inH2O, inH2O. rnum. lra. Qed.

Lemma airflow_reduction_eq (p : R) :
  airflow_reduction p = AIRFLOW_COEFFICIENT * (exp (p * AIRFLOW_EXP_COEFFICIENT) - 1).
Proof. unfold airflow_reduction. rewrite lit1_R. reflexivity. Qed.

Lemma airflow_reduction_mono (p p' : R) : p <= p' -> airflow_reduction p <= airflow_reduction p'.
Proof.
  intros H. rewrite !airflow_reduction_eq.
  apply Rmult_le_compat_l; [left; apply AC_pos|].
  assert (E : p * AIRFLOW_EXP_COEFFICIENT <= p' * AIRFLOW_EXP_COEFFICIENT).
  { apply Rmult_le_compat_r; auto. left; apply AE_pos. }
  destruct E as [E|E].
  - apply exp_increasing in E. lra.
  - rewrite E. lra.
Qed.

Definition block_of (fa : R) : R := ln (fa / AIRFLOW_COEFFICIENT + 1) / AIRFLOW_EXP_COEFFICIENT.

Lemma block_of_spec fa p : 0 < fa / AIRFLOW_COEFFICIENT + 1 ->
  (block_of fa <= p <-> fa <= airflow_reduction p).
Proof.
  intros H. rewrite airflow_reduction_eq. unfold block_of.
  pose proof AC_pos as C. pose proof AE_pos as E.
  set (Cc := AIRFLOW_COEFFICIENT) in *. set (Ee := AIRFLOW_EXP_COEFFICIENT) in *.
  assert (A : ln (fa / Cc + 1) / Ee <= p <-> ln (fa / Cc + 1) <= p * Ee).
  { split; intros L.
    - apply (Rmult_le_compat_r Ee) in L; [|lra]. unfold Rdiv in L.
      rewrite Rmult_assoc, Rinv_l in L by lra. lra.
    - apply (Rmult_le_reg_r Ee); auto. unfold Rdiv. rewrite Rmult_assoc, Rinv_l by lra. lra. }
  assert (B : ln (fa / Cc + 1) <= p * Ee <-> fa / Cc + 1 <= exp (p * Ee)).
  { split; intros L.
    - rewrite <- (exp_ln (fa / Cc + 1)) by auto.
      destruct L as [L|L]; [left; apply exp_increasing; auto|rewrite L; right; auto].
    - rewrite <- (ln_exp (p * Ee)).
      destruct L as [L|L]; [left; apply ln_increasing; auto|rewrite L; right; auto]. }
  assert (D : fa / Cc + 1 <= exp (p * Ee) <-> fa <= Cc * (exp (p * Ee) - 1)).
  { split; intros L.
    - assert (L2 : fa / Cc <= exp (p * Ee) - 1) by lra.
      apply (Rmult_le_compat_l Cc) in L2; [|lra].
      replace (Cc * (fa / Cc)) with fa in L2 by (field; lra). auto.
    - apply (Rmult_le_reg_l Cc); auto.
      replace (Cc * (fa / Cc + 1)) with (fa + Cc) by (field; lra). lra. }
  tauto.
Qed.

Definition psc_inv (f : Fn) : Prop :=
  f_class f = PSCFan
  /\ f_reduction f = airflow_reduction (f_design_esp f)
  /\ f_free_airflow f = map (fun a => a + f_reduction f) (f_airflow f)
  /\ f_block_pressure f = map block_of (f_free_airflow f)
  /\ Forall (fun fa => 0 < fa / AIRFLOW_COEFFICIENT + 1) (f_free_airflow f).

Lemma Forall_del {A} (P : A -> Prop) l i : Forall P l -> Forall P (del l i).
Proof.
  revert i; induction l as [|x l IH]; intros i H; simpl; auto.
  inversion H; subst. destruct i; auto.
Qed.

Lemma psc_inv_op o (f f' : Fn) u : psc_inv f -> run_op o f = (f', Ok u) -> psc_inv f'.
Proof.
  intros (K & R & A & B & P) H.
  destruct o as [a x|i]; simpl in H.
  - unfold add_speed in H. apply sbind_ok in H.
    destruct H as (s2 & f0 & E & H). unfold sget in E. inv_st. rewrite K in H.
    apply psc_add_ok in H as (a0 & fa0 & e & _ & _ & _ & _ & _ & Hp & ->).
    unfold psc_inv. simpl. rewrite A, B, !map_app, A. simpl. repeat split; auto.
    apply Forall_app. split; [rewrite <- A; auto|]. constructor; auto.
  - unfold remove_speed in H. apply sbind_ok in H.
    destruct H as (s2 & f0 & E & H). unfold sget in E. inv_st. rewrite K in H.
    apply psc_remove_ok in H as ->. unfold psc_inv. simpl.
    rewrite B, A, <- !map_del. repeat split; auto.
    rewrite map_del, <- A. apply Forall_del. auto.
Qed.

Lemma psc_inv_adds l : forall (f f' : Fn) u, psc_inv f ->
  sfold (fun a => add_speed a None) l f = (f', Ok u) -> psc_inv f'.
Proof.
  induction l as [|a l IH]; intros f f' u P H; simpl in H; inv_st; auto.
  eapply IH; [|eauto]. eapply (psc_inv_op (AddSpeed a None)); eauto.
Qed.

Lemma psc_made airflows esp eff (f : Fn) :
  make_psc_fan airflows esp eff = Ok f -> psc_inv f.
Proof.
  unfold make_psc_fan, init_fan. intros H. inv_ok.
  destruct (sfold _ _ _) as [f1 [u|x]] eqn:Ef; [|discriminate]. inv_ok. subst.
  apply psc_inv_adds in Ef; auto.
  unfold psc_inv, blank_fan. simpl. repeat split; auto.
Qed.

Lemma psc_ops airflows esp eff (f f' : Fn) ops :
  make_psc_fan airflows esp eff = Ok f ->
  sfold run_op ops f = (f', Ok tt) -> psc_inv f' /\ parallel f'.
Proof.
  intros M H. split.
  - apply psc_made in M. eapply (sfold_inv psc_inv run_op ops); eauto.
    intros a s1 s2 _ I E. eapply psc_inv_op; eauto.
  - eapply (made_ops_parallel f ops); eauto.
    + econstructor 2; eauto.
    + apply psc_made in M as (K & _). rewrite K. apply Forall_forall.
      intros [a [x|]|i] _; simpl; auto.
Qed.

Lemma psc_airflow_eq sol (f : Fn) i p fa :
  f_class f = PSCFan -> geti (f_free_airflow f) i = Ok fa ->
  airflow sol f i (Some p) = Ok (Rmax (fa - airflow_reduction p) 0).
Proof.
  intros K E. unfold airflow, airflow_at. rewrite K, E. cbn [rbind].
  f_equal. unfold pymax. rewrite lit0_R. cbn [nltb nsub RNum].
  unfold Rmax. destruct (Rltb_spec (fa - airflow_reduction p) 0); destruct (Rle_dec _ _); lra.
Qed.

Lemma geti_map {A B} (g : A -> B) l i :
  geti (map g l) i = rmap g (geti l i).
Proof. unfold geti, rmap. rewrite nth_error_map. destruct (nth_error l i); auto. Qed.

Lemma psc_lookup (f : Fn) i : psc_inv f -> parallel f -> (i < f_n f)%nat ->
  exists fa, geti (f_free_airflow f) i = Ok fa /\ 0 < fa / AIRFLOW_COEFFICIENT + 1
    /\ geti (f_block_pressure f) i = Ok (block_of fa).
Proof.
  intros (K & R & A & B & P) Pa I.
  destruct (geti_lt (f_free_airflow f) i) as (fa & E); [solve_parallel; lia|].
  exists fa. split; auto. split.
  - apply geti_ok, nth_error_In in E. eapply Forall_forall in P; eauto.
  - rewrite B, geti_map, E. auto.
Qed.

Lemma psc_curve sol (f : Fn) i :
  psc_inv f -> parallel f -> (i < f_n f)%nat ->
  exists (q : R -> R) bp,
    geti (f_block_pressure f) i = Ok bp
    /\ (forall p, airflow sol f i (Some p) = Ok (q p))
    /\ (forall p, 0 <= q p)
    /\ (forall p p', p <= p' -> q p' <= q p)
    /\ (forall p, q p = 0 <-> bp <= p).
Proof.
  intros I Pa Hi. destruct (psc_lookup f i I Pa Hi) as (fa & E & Pf & Eb).
  exists (fun p => Rmax (fa - airflow_reduction p) 0), (block_of fa).
  split; auto. split; [|split; [|split]].
  - intros p. apply psc_airflow_eq; auto. apply I.
  - intros p. apply Rmax_r.
  - intros p p' L. apply airflow_reduction_mono in L.
    unfold Rmax. repeat destruct (Rle_dec _ _); lra.
  - intros p. rewrite block_of_spec by auto.
    unfold Rmax. destruct (Rle_dec _ _); split; intros; lra.
Qed.

Lemma psc_added sol (f f' : Fn) a x :
  psc_inv f -> parallel f -> add_speed a x f = (f', Ok tt) ->
  let p := match x with Some p => p | None => f_design_esp f end in
  airflow sol f' (f_n f) (Some p) = Ok (Rmax a 0)
  /\ (forall i p', (i < f_n f)%nat ->
        airflow sol f' i (Some p') = airflow sol f i (Some p')).
Proof.
  intros (K & R & A & B & P) Pa H p. split.
  - unfold add_speed in H. apply sbind_ok in H.
    destruct H as (s2 & f0 & E & H). unfold sget in E. inv_st. rewrite K in H.
    apply psc_add_ok in H as (a0 & fa0 & e & _ & _ & _ & _ & _ & Hp & ->).
    erewrite psc_airflow_eq.
    2:{ cbn [f_class w_free w_base]. auto. }
    2:{ cbn [f_free_airflow w_free]. assert (L : length (f_free_airflow f0) = f_n f0) by (solve_parallel; auto).
        rewrite <- L. apply geti_app_last. }
    f_equal. f_equal. subst p. destruct x; rewrite ?R; lra.
  - intros i p' I. apply appended_airflow; auto. eapply add_speed_appends; eauto. congruence.
Qed.

(** * C16 *)
Lemma ecm_lookup (f : Fn) mx i :
  parallel f -> f_class f = ECMFlowFan mx -> (i < f_n f)%nat ->
  exists a e, geti (f_airflow f) i = Ok a /\ geti (f_free_efficacy f) i = Ok e.
Proof.
  intros Pa K I.
  destruct (geti_lt (f_airflow f) i) as (a & E); [solve_parallel; lia|].
  destruct (geti_lt (f_free_efficacy f) i) as (e & E'); [solve_parallel; lia|].
  eauto.
Qed.

(** Uncapped power at a pressure. *)
Definition ecm_u (a e p : R) : R := a * (e + EFFICACY_SLOPE_ESP * p).

Lemma ecm_unconstrained (f : Fn) i a e p :
  geti (f_airflow f) i = Ok a -> geti (f_free_efficacy f) i = Ok e ->
  unconstrained_power f i p = Ok (ecm_u a e p).
Proof.
  intros Ea Ee. unfold unconstrained_power, unconstrained_efficacy.
  rewrite Ea, Ee. reflexivity.
Qed.

Lemma ecm_power_eq sol (f : Fn) mx i a e p :
  f_class f = ECMFlowFan mx ->
  geti (f_airflow f) i = Ok a -> geti (f_free_efficacy f) i = Ok e ->
  power sol f i (Some p) =
    Ok (match mx with Some m => Rmin (ecm_u a e p) m | None => ecm_u a e p end).
Proof.
  intros K Ea Ee. unfold power, esp_or_operating. rewrite K. cbn [rbind].
  unfold ecm_power_at. rewrite (ecm_unconstrained f i a e p) by auto. cbn [rbind].
  f_equal. destruct mx as [m|]; auto.
  unfold pymin, Rmin. cbn [nltb RNum].
  destruct (Rltb_spec m (ecm_u a e p)); destruct (Rle_dec _ _); lra.
Qed.

Lemma ecm_airflow_eq sol (f : Fn) mx i a e p w :
  f_class f = ECMFlowFan mx ->
  geti (f_airflow f) i = Ok a -> geti (f_free_efficacy f) i = Ok e ->
  (forall m, mx = Some m -> 0 <= m) ->
  p <> 0 -> ecm_u a e p <> 0 ->
  power sol f i (Some p) = Ok w ->
  0 <= w / ecm_u a e p <= 1
  /\ airflow sol f i (Some p) = Ok (a * sqrt (w / ecm_u a e p)).
Proof.
  intros K Ea Ee M P U W.
  rewrite (ecm_power_eq sol f mx i a e p) in W by auto. apply Ok_inj in W.
  assert (Q : 0 <= w / ecm_u a e p <= 1).
  { assert (Q1 : ecm_u a e p / ecm_u a e p = 1) by (field; auto).
    destruct mx as [m|]; [|subst w; rewrite Q1; lra].
    specialize (M m eq_refl). unfold Rmin in W. destruct (Rle_dec _ _).
    - subst w. rewrite Q1. lra.
    - assert (0 < / ecm_u a e p) by (apply Rinv_0_lt_compat; lra).
      subst w. split.
      + apply Rmult_le_pos; lra.
      + rewrite <- Q1. apply Rmult_le_compat_r; lra. }
  split; auto.
  unfold airflow, airflow_at. rewrite K. unfold ecm_airflow_at.
  rewrite lit0_R. cbn [neqb RNum]. destruct (Reqb_spec p 0); [contradiction|].
  rewrite Ea. cbn [rbind].
  assert (W' : ecm_power_at mx f i p = Ok w).
  { pose proof (ecm_power_eq sol f mx i a e p K Ea Ee) as W'.
    unfold power, esp_or_operating in W'. rewrite K in W'. cbn [rbind] in W'.
    rewrite W'. subst. auto. }
  rewrite W'. cbn [rbind]. rewrite (ecm_unconstrained f i a e p) by auto. cbn [rbind].
  rewrite pydiv_ok by auto. cbn [rbind]. rewrite pysqrt_ok by lra. cbn [rbind].
  rewrite pydiv_ok by auto. f_equal. cbn [nmul RNum]. field. auto.
Qed.

Lemma ecm_laws sol (f : Fn) mx i p :
  parallel f -> f_class f = ECMFlowFan mx -> (i < f_n f)%nat ->
  exists a w, geti (f_airflow f) i = Ok a
    /\ power sol f i (Some p) = Ok w
    /\ (forall m, mx = Some m -> w <= m)
    /\ ((forall m, mx = Some m -> 0 <= m) -> 0 <= a ->
        forall q, airflow sol f i (Some p) = Ok q ->
          0 <= q <= a /\
          (unconstrained_power f i p = Ok w -> q = a)).
Proof.
  intros Pa K I. destruct (ecm_lookup f mx i Pa K I) as (a & e & Ea & Ee).
  eexists a, _. split; auto. split; [apply ecm_power_eq; eauto|].
  split.
  - intros m ->. apply Rmin_r.
  - intros M A q Q. set (w := match mx with Some _ => _ | None => _ end) in *.
    destruct (Req_dec p 0) as [->|P].
    + unfold airflow, airflow_at in Q. rewrite K in Q. unfold ecm_airflow_at in Q.
      rewrite lit0_R in Q. cbn [neqb RNum] in Q.
      destruct (Reqb_spec 0 0); [|lra]. rewrite Ea in Q. inv_ok. subst. split; auto. lra.
    + assert (W : power sol f i (Some p) = Ok w) by (apply ecm_power_eq; auto).
      destruct (Req_dec (ecm_u a e p) 0) as [U|U].
      { exfalso. unfold airflow, airflow_at in Q. rewrite K in Q. unfold ecm_airflow_at in Q.
        rewrite lit0_R in Q. cbn [neqb RNum] in Q.
        destruct (Reqb_spec p 0); [lra|].
        rewrite (ecm_unconstrained f i a e p) in Q by auto. rewrite U in Q.
        inv_ok. subst. match goal with H : pydiv _ 0 = _ |- _ => rewrite pydiv_zero in H end.
        discriminate. }
      destruct (ecm_airflow_eq sol f mx i a e p w) as (B & Eq); auto.
      rewrite Eq in Q. apply Ok_inj in Q. subst q.
      assert (S1 : sqrt (w / ecm_u a e p) <= 1).
      { rewrite <- sqrt_1. apply sqrt_le_1_alt. lra. }
      pose proof (sqrt_pos (w / ecm_u a e p)).
      split; [split; [apply Rmult_le_pos; auto|]|].
      * apply (Rmult_le_compat_l a) in S1; auto. lra.
      * intros Hu. rewrite (ecm_unconstrained f i a e p) in Hu by auto.
        apply Ok_inj in Hu. rewrite <- Hu.
        replace (ecm_u a e p / ecm_u a e p) with 1 by (field; auto).
        rewrite sqrt_1. lra.
Qed.

Lemma ecm_over_limit airflows esp eff m a0 :
  geti airflows 0 = Ok a0 -> m < a0 * eff ->
  make_ecm_fan (T:=R) airflows esp eff (Some m) = Err RuntimeError.
Proof.
  intros E L. unfold make_ecm_fan. rewrite E. cbn [rbind].
  cbn [nmul nltb RNum]. destruct (Rltb_spec m (a0 * eff)); [reflexivity|lra].
Qed.

Lemma ecm_within_limit airflows esp eff m a0 f :
  geti airflows 0 = Ok a0 -> make_ecm_fan (T:=R) airflows esp eff (Some m) = Ok f ->
  a0 * eff <= m.
Proof.
  intros E H. unfold make_ecm_fan in H. rewrite E in H. cbn [rbind] in H.
  cbn [nmul nltb RNum] in H. destruct (Rltb_spec m (a0 * eff)); [discriminate|lra].
Qed.

(** ECM invariant: the free efficacy of the first speed is the design one. *)
Lemma ecm_first_speed airflows esp eff mx (f : Fn) :
  make_ecm_fan airflows esp eff mx = Ok f ->
  geti (f_free_efficacy f) 0 = Ok (eff - EFFICACY_SLOPE_ESP * esp).
Proof.
  unfold make_ecm_fan. intros H. inv_ok. clear E0.
  unfold init_fan in H. inv_ok.
  destruct (sfold _ _ _) as [f1 [u|x]] eqn:Ef; [|discriminate]. inv_ok. subst.
  destruct airflows as [|a l]; [discriminate|]. cbn [sfold] in Ef. inv_st.
  assert (G : forall l (g g' : Fn) u y, f_class g = ECMFlowFan mx ->
            geti (f_free_efficacy g) 0 = Ok y ->
            sfold (fun a => add_speed a None) l g = (g', Ok u) ->
            geti (f_free_efficacy g') 0 = Ok y).
  { clear. induction l as [|b l IH]; intros g g' u y K E H; simpl in H; inv_st; auto.
    pose proof E0 as E1. apply add_speed_keeps in E1 as (K1 & _).
    unfold add_speed in E0. apply sbind_ok in E0.
    destruct E0 as (s2 & f0 & E2 & H2). unfold sget in E2. inv_st. rewrite K in H2.
    apply ecm_add_ok in H2 as (a0 & _ & _ & ->).
    eapply IH in H; eauto. simpl. rewrite geti_app_l; auto.
    apply geti_Ok_lt in E. auto. }
  eapply G; [| |exact Ef].
  - match goal with H : add_speed _ _ _ = _ |- _ => apply add_speed_keeps in H as (K1 & _) end.
    rewrite K1. reflexivity.
  - match goal with H : add_speed _ _ _ = _ |- _ => unfold add_speed in H; apply sbind_ok in H;
      destruct H as (s2 & f0 & E2 & H2) end.
    unfold sget in E2. inv_st. cbn [blank_fan f_class] in H2.
    apply ecm_add_ok in H2 as (a0 & A1 & A2 & ->).
    cbn [f_airflow blank_fan app] in A1. unfold geti in A1. cbn [nth_error need] in A1.
    apply Ok_inj in A1. subst a0. unfold geti.
    cbn [w_fe f_free_efficacy blank_fan app nth_error need f_free_eff0 nsub nmul RNum].
    f_equal. field. auto.
Qed.

Lemma ecm_design_point sol airflows esp eff mx (f : Fn) a0 :
  make_ecm_fan airflows esp eff mx = Ok f -> geti airflows 0 = Ok a0 ->
  0 < eff -> 0 < esp ->
  power sol f 0 (Some esp) = Ok (a0 * eff) /\ airflow sol f 0 (Some esp) = Ok a0.
Proof.
  intros M E0 He Hp. pose proof (ecm_first_speed _ _ _ _ _ M) as Fe.
  assert (L : forall m, mx = Some m -> a0 * eff <= m).
  { intros m ->. eapply ecm_within_limit; eauto. }
  unfold make_ecm_fan in M. inv_ok.
  apply init_fan_facts in M as (a1 & A1 & A2 & A3 & A4 & A5 & A6 & _).
  rewrite E0 in A1. apply Ok_inj in A1. subst a1. clear E E1.
  assert (Ea : geti (f_airflow f) 0 = Ok a0) by (rewrite A4; auto).
  assert (U : ecm_u a0 (eff - EFFICACY_SLOPE_ESP * esp) esp = a0 * eff)
    by (unfold ecm_u; ring).
  assert (W : power sol f 0 (Some esp) = Ok (a0 * eff)).
  { rewrite (ecm_power_eq sol f mx 0 a0 _ esp A5 Ea Fe). rewrite U. f_equal.
    destruct mx as [m|]; auto. specialize (L m eq_refl).
    unfold Rmin. destruct (Rle_dec _ _); lra. }
  split; auto.
  unfold airflow, airflow_at. rewrite A5. unfold ecm_airflow_at.
  rewrite lit0_R. cbn [neqb RNum]. destruct (Reqb_spec esp 0); [lra|].
  rewrite Ea. cbn [rbind].
  assert (W' : ecm_power_at mx f 0 esp = Ok (a0 * eff)).
  { unfold power, esp_or_operating in W. rewrite A5 in W. auto. }
  rewrite W'. cbn [rbind]. rewrite (ecm_unconstrained f 0 a0 _ esp Ea Fe). rewrite U.
  assert (NZ : a0 * eff <> 0) by (apply Rmult_integral_contrapositive; split; lra).
  cbn [rbind]. rewrite pydiv_ok by auto. cbn [rbind].
  replace (a0 * eff / (a0 * eff)) with 1 by (field; lra).
  rewrite pysqrt_ok by lra. rewrite sqrt_1. cbn [rbind].
  rewrite pydiv_ok by lra. f_equal. cbn [nmul RNum]. field. lra.
Qed.
