From Coq Require Import Reals QArith Lra Lia List Bool.
From Verif.Base Require Import Num Res Tac.
From Verif.Model Require Import Units Util Fan.
From Verif.Spec Require Import FanSpec.
Import ListNotations.
Local Open Scope R_scope.

Notation Fn := (fan R).

(** * Shape of the state after [add_speed] *)

Lemma base_add_ok (f f' : Fn) a u :
  base_add_speed a f = (f', Ok u) ->
  exists a0, geti (f_airflow f ++ [a]) 0 = Ok a0 /\ a0 <> 0 /\
    f' = w_base (S (f_n f)) (f_airflow f ++ [a]) (f_ratio f ++ [a / a0]) f.
Proof.
  unfold base_add_speed. intros H. inv_st. simpl in *.
  rewrite lasti_app in *. inv_ok. subst.
  match goal with H : pydiv _ _ = Ok _ |- _ => apply pydiv_inv in H; destruct H as (Hz & ->) end.
  eexists. split; [eassumption|]. split; auto.
Qed.

Lemma psc_add_ok (f f' : Fn) a x u :
  psc_add_speed a x f = (f', Ok u) ->
  let d := match x with
           | Some p => a - (f_reduction f - airflow_reduction p)
           | None => a end in
  let fa := d + f_reduction f in
  exists a0 fa0 e,
    geti (f_airflow f ++ [d]) 0 = Ok a0 /\ a0 <> 0
    /\ geti (f_free_airflow f ++ [fa]) 0 = Ok fa0 /\ fa0 <> 0
    /\ f_design_efficacy f = EffNum e
    /\ 0 < fa / AIRFLOW_COEFFICIENT + 1
    /\ f' = w_free (f_free_airflow f ++ [fa])
              (f_free_ratio f ++ [fa / fa0])
              (f_speed_efficacy f ++ [e * (1 + EFFICACY_SLOPE * (fa / fa0 - 1))])
              (f_block_pressure f
                 ++ [ln (fa / AIRFLOW_COEFFICIENT + 1) / AIRFLOW_EXP_COEFFICIENT])
              (f_free_speed f ++ [fr_rpm (lit 1040) * (fa / fa0)])
              (w_base (S (f_n f)) (f_airflow f ++ [d]) (f_ratio f ++ [d / a0]) f).
Proof.
  assert (L1 : lit (T:=R) 1 = 1) by (rnum; lra).
  unfold psc_add_speed. intros H.
  apply sbind_ok in H. destruct H as (s & f0 & E & H). unfold sget in E.
  apply pair_ok_inj in E as (<- & <-).
  assert (Ed : match x with
               | Some p => nsub a (nsub (f_reduction f) (airflow_reduction p))
               | None => a end =
               match x with
               | Some p => a - (f_reduction f - airflow_reduction p)
               | None => a end) by (destruct x; reflexivity).
  rewrite Ed in *. clear Ed.
  set (d := match x with Some p => a - (f_reduction f - airflow_reduction p)
            | None => a end) in *.
  apply sbind_ok in H as (s & u0 & E & H).
  apply base_add_ok in E as (a0 & Ea0 & Ha0 & ->).
  inv_st. simpl in *.
  match goal with H : eff_num _ = Ok _ |- _ => unfold eff_num in H; simpl in H end.
  match goal with H : pylog _ = Ok _ |- _ => unfold pylog in H end.
  match goal with H : pydiv _ _ = Ok _ |- _ => apply pydiv_inv in H; destruct H as (Hz & ->) end.
  rewrite L1, ?lit0_R in *.
  destruct (f_design_efficacy f) as [e|] eqn:Ee; inv_ok; subst.
  cbn [nleb nadd ndiv nmul nsub nln RNum RNumX] in *.
  match goal with H : (if Rleb ?u 0 then _ else _) = _ |- _ =>
    destruct (Rleb_spec u 0); [discriminate|] end.
  inv_ok. subst.
  do 3 eexists. repeat split; eauto. lra.
Qed.

Lemma ecm_add_ok (f f' : Fn) a u :
  ecm_add_speed a f = (f', Ok u) ->
  exists a0, geti (f_airflow f ++ [a]) 0 = Ok a0 /\ a0 <> 0
    /\ f' = w_fe (f_free_efficacy f ++ [f_free_eff0 f * (a / a0) * (a / a0)])
              (w_base (S (f_n f)) (f_airflow f ++ [a]) (f_ratio f ++ [a / a0]) f).
Proof.
  unfold ecm_add_speed. intros H. inv_st.
  apply base_add_ok in E as (a0 & Ea0 & Ha0 & ->). simpl in *.
  rewrite lasti_app in *. inv_ok. subst. eauto.
Qed.

Lemma eere_add_ok k (f f' : Fn) a x u :
  eere_add_speed k a x f = (f', Ok u) ->
  let p := match x with Some p => p | None => system_pressure f a end in
  exists a0, geti (f_airflow f ++ [a]) 0 = Ok a0 /\ a0 <> 0
    /\ f' = w_free (f_free_airflow f
                      ++ [a - (fst (e_flow k) * p + snd (e_flow k) * p * p)])
              (f_free_ratio f) (f_speed_efficacy f) (f_block_pressure f) (f_free_speed f)
              (w_base (S (f_n f)) (f_airflow f ++ [a]) (f_ratio f ++ [a / a0]) f).
Proof.
  unfold eere_add_speed. intros H. inv_st.
  match goal with E : base_add_speed _ _ = _ |- _ =>
    apply base_add_ok in E as (a0 & Ea0 & Ha0 & ->) end.
  simpl in *. eauto.
Qed.

Lemma const_add_ok (f f' : Fn) a x u :
  const_add_speed a x f = (f', Ok u) ->
  exists a0, geti (f_airflow f ++ [a]) 0 = Ok a0 /\ a0 <> 0
    /\ let f1 := w_base (S (f_n f)) (f_airflow f ++ [a]) (f_ratio f ++ [a / a0]) f in
       match x with
       | None => f' = f1
       | Some e => exists l, f_design_efficacy f = EffList l
                     /\ f' = w_eff (EffList (l ++ [e])) f1
       end.
Proof.
  unfold const_add_speed. intros H. inv_st.
  match goal with E : base_add_speed _ _ = _ |- _ =>
    apply base_add_ok in E as (a0 & Ea0 & Ha0 & ->) end.
  exists a0. repeat split; auto. destruct x as [e|].
  - inv_st. simpl in *. destruct (f_design_efficacy f) as [|l] eqn:El; [discriminate|].
    inv_st. eauto.
  - inv_st. auto.
Qed.

(** * [remove_speed] *)
Lemma base_remove_ok (f f' : Fn) i u :
  base_remove_speed i f = (f', Ok u) <->
  (i < length (f_airflow f))%nat /\ (i < length (f_ratio f))%nat /\ u = tt /\
    f' = w_base (Nat.pred (f_n f)) (del (f_airflow f) i) (del (f_ratio f) i) f.
Proof.
  unfold base_remove_speed. split; intros H.
  - inv_st. simpl in *.
    repeat match goal with H : popi _ _ = Ok _ |- _ => apply popi_ok in H; destruct H as (? & ->) end.
    auto.
  - destruct H as (H1 & H2 & -> & ->).
    unfold sbind, sget, slift, smod. simpl.
    assert (P1 : popi (f_airflow f) i = Ok (del (f_airflow f) i)) by (apply popi_ok; auto).
    assert (P2 : popi (f_ratio f) i = Ok (del (f_ratio f) i)) by (apply popi_ok; auto).
    rewrite P1, P2. reflexivity.
Qed.

Lemma psc_remove_ok (f f' : Fn) i u :
  psc_remove_speed i f = (f', Ok u) ->
    f' = w_free (del (f_free_airflow f) i) (del (f_free_ratio f) i)
           (del (f_speed_efficacy f) i) (del (f_block_pressure f) i)
           (del (f_free_speed f) i)
           (w_base (Nat.pred (f_n f)) (del (f_airflow f) i) (del (f_ratio f) i) f).
Proof.
  unfold psc_remove_speed. intros H. inv_st.
  match goal with E : base_remove_speed _ _ = _ |- _ =>
    apply base_remove_ok in E as (? & ? & _ & ->) end.
  simpl in *.
  repeat match goal with H : popi _ _ = Ok _ |- _ => apply popi_ok in H; destruct H as (? & ->) end.
  reflexivity.
Qed.

Lemma ecm_remove_ok (f f' : Fn) i u :
  ecm_remove_speed i f = (f', Ok u) ->
    f' = w_fe (del (f_free_efficacy f) i)
           (w_base (Nat.pred (f_n f)) (del (f_airflow f) i) (del (f_ratio f) i) f).
Proof.
  unfold ecm_remove_speed. intros H. inv_st.
  match goal with E : base_remove_speed _ _ = _ |- _ =>
    apply base_remove_ok in E as (? & ? & _ & ->) end.
  simpl in *.
  repeat match goal with H : popi _ _ = Ok _ |- _ => apply popi_ok in H; destruct H as (? & ->) end.
  reflexivity.
Qed.

Lemma eere_remove_ok (f f' : Fn) i u :
  eere_remove_speed i f = (f', Ok u) ->
    f' = w_free (del (f_free_airflow f) i) (f_free_ratio f)
           (f_speed_efficacy f) (f_block_pressure f) (f_free_speed f)
           (w_base (Nat.pred (f_n f)) (del (f_airflow f) i) (del (f_ratio f) i) f).
Proof.
  unfold eere_remove_speed. intros H. inv_st.
  match goal with E : base_remove_speed _ _ = _ |- _ =>
    apply base_remove_ok in E as (? & ? & _ & ->) end.
  simpl in *.
  repeat match goal with H : popi _ _ = Ok _ |- _ => apply popi_ok in H; destruct H as (? & ->) end.
  reflexivity.
Qed.

Lemma const_remove_ok (f f' : Fn) i u :
  const_remove_speed i f = (f', Ok u) ->
  exists l, f_design_efficacy f = EffList l /\ (i < length l)%nat /\
    f' = w_eff (EffList (del l i))
           (w_base (Nat.pred (f_n f)) (del (f_airflow f) i) (del (f_ratio f) i) f).
Proof.
  unfold const_remove_speed. intros H. inv_st.
  match goal with E : base_remove_speed _ _ = _ |- _ =>
    apply base_remove_ok in E as (? & ? & _ & ->) end.
  simpl in *. destruct (f_design_efficacy f) as [|l] eqn:El; [discriminate|]. inv_st.
  match goal with H : popi _ _ = Ok _ |- _ => apply popi_ok in H; destruct H as (? & ->) end.
  eauto.
Qed.

(** * C11 *)

(** The invariant also during construction, when a ConstantEfficacyFan may
    still have a single efficacy. *)
Definition par0 (f : Fn) : Prop :=
  length (f_airflow f) = f_n f /\ length (f_ratio f) = f_n f
  /\ (f_class f <> ConstantEfficacyFan -> parallel f).

Lemma parallel_par0 f : parallel f -> par0 f.
Proof.
  intros (ls & E & H). inversion H as [|? ? H1 H2]; subst.
  inversion H2 as [|? ? H3 H4]; subst. unfold par0. repeat split; auto.
  intros _. exists ls. auto.
Qed.

Ltac solve_parallel :=
  unfold parallel, own_lists in *; simpl in *;
  repeat match goal with
  | H : f_class ?f = _ |- _ => rewrite H in *
  | H : exists _, _ |- _ => destruct H
  | H : _ /\ _ |- _ => destruct H
  | H : Some _ = Some _ |- _ => inversion H; clear H; subst
  | H : Forall _ (_ :: _) |- _ => inversion H; clear H; subst
  | H : Forall _ [] |- _ => clear H
  end.

Lemma add_speed_par0 (f f' : Fn) a x u :
  par0 f -> add_speed a x f = (f', Ok u) ->
  par0 f' /\ f_class f' = f_class f
  /\ f_n f' = S (f_n f).
Proof.
  intros (L1 & L2 & P) H. unfold add_speed in H. apply sbind_ok in H.
  destruct H as (s & f0 & E & H). unfold sget in E. inv_st.
  destruct (f_class f0) eqn:K.
  - apply const_add_ok in H as (a0 & _ & _ & H). destruct x as [e|].
    + destruct H as (l & _ & ->). unfold par0. simpl. rewrite !app_length. simpl.
      rewrite K. repeat split; auto; try lia. congruence.
    + cbv zeta in H; subst f'. unfold par0. simpl. rewrite !app_length. simpl.
      rewrite K. repeat split; auto; try lia. congruence.
  - specialize (P ltac:(congruence)).
    apply psc_add_ok in H as (a0 & fa0 & e & _ & _ & _ & _ & _ & _ & ->).
    unfold par0. simpl. rewrite !app_length. simpl. rewrite K. repeat split; try lia.
    intros _. solve_parallel. eexists. split; [reflexivity|].
    repeat constructor; rewrite ?app_length; simpl; lia.
  - specialize (P ltac:(congruence)).
    apply ecm_add_ok in H as (a0 & _ & _ & ->).
    unfold par0. simpl. rewrite !app_length. simpl. rewrite K. repeat split; try lia.
    intros _. solve_parallel. eexists. split; [reflexivity|].
    repeat constructor; rewrite ?app_length; simpl; lia.
  - specialize (P ltac:(congruence)).
    apply eere_add_ok in H as (a0 & _ & _ & ->).
    unfold par0. simpl. rewrite !app_length. simpl. rewrite K. repeat split; try lia.
    intros _. solve_parallel. eexists. split; [reflexivity|].
    repeat constructor; rewrite ?app_length; simpl; lia.
  - specialize (P ltac:(congruence)).
    apply base_add_ok in H as (a0 & _ & _ & ->).
    unfold par0. simpl. rewrite !app_length. simpl. rewrite K. repeat split; try lia.
    intros _. solve_parallel. eexists. split; [reflexivity|].
    repeat constructor; rewrite ?app_length; simpl; lia.
  - specialize (P ltac:(congruence)).
    apply base_add_ok in H as (a0 & _ & _ & ->).
    unfold par0. simpl. rewrite !app_length. simpl. rewrite K. repeat split; try lia.
    intros _. solve_parallel. eexists. split; [reflexivity|].
    repeat constructor; rewrite ?app_length; simpl; lia.
Qed.

Lemma sfold_add_par0 l : forall (f f' : Fn) u,
  par0 f -> sfold (fun a => add_speed a None) l f = (f', Ok u) ->
  par0 f' /\ f_class f' = f_class f /\ f_n f' = (f_n f + length l)%nat.
Proof.
  induction l as [|a l IH]; intros f f' u P H; simpl in H.
  - inv_st. simpl. repeat split; try apply P; lia.
  - inv_st. apply add_speed_par0 in E as (P1 & K1 & N1); auto.
    apply IH in H as (P2 & K2 & N2); auto.
    repeat split; try apply P2; try congruence. simpl. lia.
Qed.

Lemma init_fan_par0 k l p e red fe (f : Fn) :
  init_fan k l p e red fe = Ok f ->
  par0 f /\ f_class f = k /\ f_n f = length l.
Proof.
  unfold init_fan. intros H. inv_ok.
  destruct (sfold _ _ _) as [f1 [u|x]] eqn:Ef; [|discriminate]. inv_ok. subst.
  apply sfold_add_par0 in Ef; auto.
  unfold par0, blank_fan. simpl. repeat split; auto.
  intros Hk. unfold parallel, own_lists. simpl.
  destruct k; try congruence; eexists; (split; [reflexivity|]); repeat constructor.
Qed.

(** While a ConstantEfficacyFan is constructed its efficacy is not touched. *)
Lemma init_const_eff l : forall (f f' : Fn) u,
  f_class f = ConstantEfficacyFan ->
  sfold (fun a => add_speed a None) l f = (f', Ok u) ->
  f_design_efficacy f' = f_design_efficacy f.
Proof.
  induction l as [|a l IH]; intros f f' u K H; simpl in H.
  - inv_st. auto.
  - inv_st. unfold add_speed in E. apply sbind_ok in E.
    destruct E as (s2 & f0 & E & H0). unfold sget in E. inv_st. rewrite K in H0.
    apply const_add_ok in H0 as (a0 & _ & _ & ->).
    apply IH in H; auto.
Qed.

Lemma par0_parallel_const (f : Fn) l :
  par0 f -> f_class f = ConstantEfficacyFan -> f_design_efficacy f = EffList l ->
  length l = f_n f -> parallel f.
Proof.
  intros (L1 & L2 & _) K E L. unfold parallel, own_lists. rewrite K, E.
  eexists; split; [reflexivity|]. repeat constructor; auto.
Qed.

Lemma made_parallel f : made f -> parallel f.
Proof.
  intros M. destruct M as [airflows esp e f L H|airflows esp e f H
                          |airflows esp e mx f H|k airflows esp f H
                          |airflows f H|airflows f H].
  - unfold make_constant_efficacy_fan in H. inv_ok.
    pose proof E as E0. apply init_fan_par0 in E0 as (P & K & N).
    unfold init_fan in E. inv_ok.
    destruct (sfold _ _ _) as [f1 [u|x]] eqn:E3; [|discriminate]. inv_ok. subst.
    apply init_const_eff in E3; [|reflexivity]. simpl in E3.
    destruct (f_design_efficacy v) as [x|l] eqn:Ev.
    + inv_ok. subst. apply par0_parallel_const with (repeat x (f_n v)); simpl; auto.
      * destruct P as (P1 & P2 & _). unfold par0; simpl. repeat split; auto. congruence.
      * apply repeat_length.
    + inv_ok. subst. apply par0_parallel_const with l; auto.
      rewrite N. apply L. auto.
  - apply init_fan_par0 in H as (P & K & _). apply P. congruence.
  - unfold make_ecm_fan in H. inv_ok. apply init_fan_par0 in H as (P & K & _).
    apply P. congruence.
  - unfold make_eere_fan in H. inv_ok. subst.
    apply init_fan_par0 in E as (P & K & _). destruct P as (P1 & P2 & P3).
    specialize (P3 ltac:(congruence)). solve_parallel.
    eexists; split; [reflexivity|]. repeat constructor; auto.
  - apply init_fan_par0 in H as (P & K & _). apply P. congruence.
  - apply init_fan_par0 in H as (P & K & _). apply P. congruence.
Qed.

Lemma run_op_parallel o (f f' : Fn) :
  parallel f -> efficacy_given (f_class f) o -> run_op o f = (f', Ok tt) ->
  parallel f' /\ f_class f' = f_class f.
Proof.
  intros P G H. destruct o as [a x|i]; simpl in H.
  - pose proof H as H0. apply add_speed_par0 in H0 as (P' & K & N).
    2:{ apply parallel_par0; auto. }
    split; auto.
    destruct (f_class f) eqn:Kf; try (apply P'; congruence).
    simpl in G. destruct x as [e|]; [|contradiction].
    unfold add_speed in H. apply sbind_ok in H.
    destruct H as (s2 & f0 & E & H). unfold sget in E. inv_st. rewrite Kf in H.
    apply const_add_ok in H as (a0 & _ & _ & l & El & ->).
    unfold parallel, own_lists in *. simpl in *. rewrite Kf in *.
    destruct P as (ls & E & P). rewrite El in E. injection E as <-.
    eexists; split; [reflexivity|].
    solve_parallel. repeat constructor; rewrite ?app_length; simpl; lia.
  - unfold remove_speed in H. apply sbind_ok in H.
    destruct H as (s2 & f0 & E & H). unfold sget in E. inv_st.
    assert (I : (i < f_n f0)%nat -> parallel f' /\ f_class f' = f_class f0).
    { intros I.
      assert (DL : forall l : list R, length l = f_n f0 ->
                length (del l i) = Nat.pred (f_n f0)).
      { intros l L. rewrite del_length by (rewrite L; auto). rewrite L. auto. }
      destruct (f_class f0) eqn:K.
      - apply const_remove_ok in H as (l & El & _ & ->).
        unfold parallel, own_lists in *. simpl in *. rewrite K in *. rewrite El in *.
        split; auto. solve_parallel. eexists; split; [reflexivity|].
        repeat constructor; simpl; apply DL; auto.
      - apply psc_remove_ok in H as ->. solve_parallel. split; auto.
        eexists; split; [reflexivity|]. repeat constructor; simpl; apply DL; auto.
      - apply ecm_remove_ok in H as ->. solve_parallel. split; auto.
        eexists; split; [reflexivity|]. repeat constructor; simpl; apply DL; auto.
      - apply eere_remove_ok in H as ->. solve_parallel. split; auto.
        eexists; split; [reflexivity|]. repeat constructor; simpl; apply DL; auto.
      - apply base_remove_ok in H as (_ & _ & _ & ->). solve_parallel. split; auto.
        eexists; split; [reflexivity|]. repeat constructor; simpl; apply DL; auto.
      - apply base_remove_ok in H as (_ & _ & _ & ->). solve_parallel. split; auto.
        eexists; split; [reflexivity|]. repeat constructor; simpl; apply DL; auto. }
    apply I.
    assert (B : exists f1, base_remove_speed i f0 = (f1, Ok tt)).
    { destruct (f_class f0) eqn:K;
        unfold const_remove_speed, psc_remove_speed, ecm_remove_speed, eere_remove_speed in H;
        inv_st; repeat match goal with x : unit |- _ => destruct x end; eauto. }
    destruct B as (f1 & B). apply base_remove_ok in B as (B & _).
    apply parallel_par0 in P. destruct P as (P & _). lia.
Qed.

Lemma ops_parallel ops : forall (f f' : Fn),
  parallel f -> Forall (efficacy_given (f_class f)) ops ->
  sfold run_op ops f = (f', Ok tt) ->
  parallel f' /\ f_class f' = f_class f.
Proof.
  induction ops as [|o ops IH]; intros f f' P G H; simpl in H.
  - inv_st. auto.
  - inv_st. destruct x. inversion G; subst.
    apply run_op_parallel in E as (P1 & K1); auto.
    apply IH in H as (P2 & K2); auto.
    + split; auto. congruence.
    + rewrite K1. auto.
Qed.

Lemma made_ops_parallel f ops f' :
  made f -> Forall (efficacy_given (f_class f)) ops ->
  sfold run_op ops f = (f', Ok tt) ->
  parallel f' /\ f_class f' = f_class f.
Proof. intros M. apply ops_parallel, made_parallel, M. Qed.

Lemma airflow_index sol (f : Fn) i p :
  parallel f -> (airflow sol f i (Some p) = Err IndexError <-> (f_n f <= i)%nat).
Proof.
  intros P. pose proof (parallel_par0 _ P) as (L1 & L2 & _).
  assert (G : forall l : list R, length l = f_n f ->
     (geti l i = Err IndexError <-> (f_n f <= i)%nat)).
  { intros l L. rewrite geti_err, L. intuition. }
  assert (G2 : forall (l : list R) (k : R -> R), length l = f_n f ->
     ((let! a := geti l i in Ok (k a)) = Err IndexError <-> (f_n f <= i)%nat)).
  { intros l k L. rewrite <- (G l L). destruct (geti l i); simpl; intuition congruence. }
  unfold airflow. destruct (f_class f) eqn:K; auto.
  - unfold airflow_at. rewrite K. apply G2. solve_parallel. auto.
  - unfold airflow_at. rewrite K. unfold ecm_airflow_at.
    destruct (neqb p (lit 0)); [apply G; auto|].
    rewrite <- (G (f_airflow f) L1).
    destruct (geti (f_airflow f) i) eqn:Ei; simpl.
    + split; [|discriminate]. intros H. exfalso.
      assert (I : (i < f_n f)%nat) by (apply geti_Ok_lt in Ei; lia).
      destruct (geti_lt (f_free_efficacy f) i) as (e & Ee); [solve_parallel; lia|].
      unfold ecm_power_at, unconstrained_power, unconstrained_efficacy in H.
      rewrite Ei, Ee in H. simpl in H.
      match type of H with rbind ?m _ = _ => destruct m eqn:Em; simpl in H end.
      * match type of H with rbind ?m _ = _ => destruct m eqn:Em2; simpl in H end.
        -- apply pydiv_err in H as (_ & H). discriminate.
        -- unfold pysqrt in Em2. destruct (nltb _ _); congruence.
      * apply pydiv_err in Em as (_ & Em). congruence.
    + intuition congruence.
  - unfold airflow_at. rewrite K. apply G2. solve_parallel. auto.
Qed.

(** Speeds of a ConstantEfficacyFan added without an efficacy have none. *)
Lemma const_missing_efficacy sol (f f' : Fn) a l :
  parallel f -> f_class f = ConstantEfficacyFan -> f_design_efficacy f = EffList l ->
  add_speed a None f = (f', Ok tt) ->
  (f_n f < f_n f')%nat /\ efficacy sol f' (f_n f) None = Err IndexError.
Proof.
  intros P K El H. unfold add_speed in H. apply sbind_ok in H.
  destruct H as (s2 & f0 & E & H). unfold sget in E. inv_st. rewrite K in H.
  apply const_add_ok in H as (a0 & _ & _ & ->). simpl. split; [lia|].
  unfold efficacy. simpl. rewrite K, El. apply geti_err. split; auto.
  solve_parallel. rewrite El in *. solve_parallel. lia.
Qed.

(** * C12 *)
Lemma w_base_same (f : Fn) : w_base (f_n f) (f_airflow f) (f_ratio f) f = f.
Proof. destruct f; reflexivity. Qed.

Lemma del_last {A} (l : list A) n x : length l = n -> del (l ++ [x]) n = l.
Proof. intros <-. apply del_app_last. Qed.

Lemma add_remove_same (f f1 f2 : Fn) a x :
  parallel f -> f_class f <> ConstantEfficacyFan ->
  add_speed a x f = (f1, Ok tt) ->
  remove_speed (Nat.pred (f_n f1)) f1 = (f2, Ok tt) -> f2 = f.
Proof.
  intros P NC H R.
  pose proof H as H0. apply add_speed_par0 in H0 as (_ & K1 & N1);
    [|apply parallel_par0; auto].
  unfold add_speed in H. apply sbind_ok in H.
  destruct H as (s2 & f0 & E & H). unfold sget in E. inv_st.
  unfold remove_speed in R. apply sbind_ok in R.
  destruct R as (s3 & f3 & E & R). unfold sget in E. inv_st.
  rewrite K1, N1 in R. simpl in R.
  pose proof (parallel_par0 _ P) as (L1 & L2 & _).
  destruct (f_class f0) eqn:K; try congruence.
  - apply psc_add_ok in H as (a0 & fa0 & e & _ & _ & _ & _ & _ & _ & ->).
    apply psc_remove_ok in R as ->. solve_parallel.
    rewrite !del_last by auto. destruct f0; reflexivity.
  - apply ecm_add_ok in H as (a0 & _ & _ & ->).
    apply ecm_remove_ok in R as ->. solve_parallel.
    rewrite !del_last by auto. destruct f0; reflexivity.
  - apply eere_add_ok in H as (a0 & _ & _ & ->).
    apply eere_remove_ok in R as ->. solve_parallel.
    rewrite !del_last by auto. destruct f0; reflexivity.
  - apply base_add_ok in H as (a0 & _ & _ & ->).
    apply base_remove_ok in R as (_ & _ & _ & ->). simpl in *.
    rewrite !del_last by auto. destruct f0; reflexivity.
  - apply base_add_ok in H as (a0 & _ & _ & ->).
    apply base_remove_ok in R as (_ & _ & _ & ->). simpl in *.
    rewrite !del_last by auto. destruct f0; reflexivity.
Qed.

Lemma check_power_neutral sol (f f' : Fn) a esp w :
  parallel f -> f_class f <> ConstantEfficacyFan ->
  check_power sol a esp f = (f', Ok w) -> f' = f.
Proof.
  intros P K H. unfold check_power in H. inv_st.
  repeat match goal with x : unit |- _ => destruct x end.
  eapply add_remove_same; eauto.
Qed.

Lemma residual_neutral sol g q full c (f f' : Fn) a y :
  parallel f -> f_class f <> ConstantEfficacyFan ->
  rated_speed_residual sol g q full c a f = (f', Ok y) -> f' = f.
Proof.
  intros P K H. unfold rated_speed_residual in H. inv_st.
  eapply check_power_neutral; eauto.
Qed.

Lemma run_prober_neutral {S} (f : R -> st S R) (I : S -> Prop) p :
  (forall x s s' y, I s -> f x s = (s', Ok y) -> s' = s) ->
  forall s s' y, I s -> run_prober f p s = (s', Ok y) -> s' = s.
Proof.
  intros Hf. induction p as [x|e|x k IH]; intros s s' y Hs H; simpl in H.
  - inv_st. auto.
  - inv_st. discriminate.
  - inv_st. assert (s0 = s) by eauto. subst. eauto.
Qed.

Lemma add_speed_appends (f f' : Fn) a x u :
  parallel f -> f_class f <> ConstantEfficacyFan ->
  add_speed a x f = (f', Ok u) -> one_speed_appended f f'.
Proof.
  intros P NC H. unfold add_speed in H. apply sbind_ok in H.
  destruct H as (s2 & f0 & E & H). unfold sget in E. inv_st.
  unfold one_speed_appended, one_more, own_lists.
  destruct (f_class f0) eqn:K; try congruence.
  - apply psc_add_ok in H as (a0 & fa0 & e & _ & _ & _ & _ & _ & _ & ->). simpl.
    rewrite K. repeat split; eauto.
    eexists _, _. repeat split. repeat constructor; eauto.
  - apply ecm_add_ok in H as (a0 & _ & _ & ->). simpl.
    rewrite K. repeat split; eauto.
    eexists _, _. repeat split. repeat constructor; eauto.
  - apply eere_add_ok in H as (a0 & _ & _ & ->). simpl.
    rewrite K. repeat split; eauto.
    eexists _, _. repeat split. repeat constructor; eauto.
  - apply base_add_ok in H as (a0 & _ & _ & ->). simpl.
    rewrite K. repeat split; eauto.
  - apply base_add_ok in H as (a0 & _ & _ & ->). simpl.
    rewrite K. repeat split; eauto.
Qed.

Lemma find_rated_appends sol g q guess full c (f f' : Fn) a :
  parallel f -> f_class f <> ConstantEfficacyFan ->
  find_rated_fan_speed sol g q guess full c f = (f', Ok a) ->
  exists esp, add_speed a esp f = (f', Ok tt) /\ one_speed_appended f f'.
Proof.
  intros P K H. unfold find_rated_fan_speed in H. apply sbind_ok in H.
  destruct H as (s1 & fu & E & H).
  assert (s1 = f). { destruct full; inv_st; auto. } subst s1.
  inv_st. destruct x1.
  match goal with H : run_prober _ _ _ = _ |- _ =>
    apply (run_prober_neutral _ (fun s => s = f)) in H; auto end.
  2:{ intros x2 s2 s3 y -> Hr. eapply residual_neutral; eauto. }
  subst. eexists. split; [eassumption|]. eapply add_speed_appends; eauto.
Qed.

(** The airflow curves of the earlier speeds are unchanged. *)
Lemma appended_airflow sol (f f' : Fn) i p :
  parallel f -> one_speed_appended f f' -> (i < f_n f)%nat ->
  airflow sol f' i (Some p) = airflow sol f i (Some p).
Proof.
  intros P A I.
  destruct A as (K & A1 & A2 & A3 & A4 & A5 & A6 & A7 & A8 & (x1 & A9) & (x2 & A10) & ls & ls' & B1 & B2 & B3).
  pose proof (parallel_par0 _ P) as (L1 & L2 & _).
  unfold airflow, airflow_at, own_lists in *. rewrite K in *.
  assert (G : geti (f_airflow f') i = geti (f_airflow f) i).
  { rewrite A9. apply geti_app_l. lia. }
  destruct (f_class f) eqn:Kf; auto; solve_parallel;
    repeat match goal with
    | H : Forall2 _ (_ :: _) _ |- _ => inversion H; clear H; subst
    | H : Forall2 _ [] _ |- _ => inversion H; clear H; subst
    | H : one_more _ _ |- _ => destruct H
    end; simpl in *;
    unfold ecm_airflow_at, ecm_power_at, unconstrained_power, unconstrained_efficacy;
    repeat match goal with H : ?l = _ ++ [_] |- context [?l] => rewrite H end;
    rewrite ?geti_app_l by lia; auto.
Qed.

(** ConstantEfficacyFan: the probe fails and leaves the trial speed behind. *)
Lemma const_check_power sol (f : Fn) a esp :
  parallel f -> f_class f = ConstantEfficacyFan -> (0 < f_n f)%nat ->
  (forall a0, geti (f_airflow f) 0 = Ok a0 -> a0 <> 0) ->
  exists f', check_power sol a esp f = (f', Err IndexError)
    /\ f_n f' = S (f_n f) /\ f_airflow f' = f_airflow f ++ [a].
Proof.
  intros P K N Z. pose proof (parallel_par0 _ P) as (L1 & L2 & _).
  destruct (geti_lt (f_airflow f) 0) as (a0 & E0); [lia|].
  specialize (Z _ E0).
  destruct P as (ls & Ep & P). unfold own_lists in Ep. rewrite K in Ep.
  destruct (f_design_efficacy f) as [|l] eqn:El; [discriminate|]. injection Ep as <-.
  assert (Ll : length l = f_n f) by (solve_parallel; auto).
  unfold check_power, add_speed, const_add_speed, base_add_speed.
  unfold sbind, sget, smod, slift, sret, sread. simpl. rewrite K. simpl.
  rewrite lasti_app. rewrite geti_app_l by lia. rewrite E0. rewrite pydiv_ok by auto.
  simpl. unfold power, airflow, efficacy. simpl. rewrite K, El. simpl.
  assert (E9 : geti (f_airflow f ++ [a]) (f_n f) = Ok a) by (rewrite <- L1; apply geti_app_last).
  rewrite ?E9. simpl.
  assert (E : geti l (f_n f) = Err IndexError) by (apply geti_err; split; [lia|auto]).
  rewrite E. simpl. eexists. split; [reflexivity|]. simpl. auto.
Qed.

(** An exception in the probe leaves the trial speed behind (EERE fans need a
    pressure). *)
Lemma eere_check_power_unsafe sol k (f : Fn) a :
  parallel f -> f_class f = EEREFan k -> (0 < f_n f)%nat ->
  (forall a0, geti (f_airflow f) 0 = Ok a0 -> a0 <> 0) ->
  exists f', check_power sol a None f = (f', Err TypeError)
    /\ f_n f' = S (f_n f) /\ f_airflow f' = f_airflow f ++ [a].
Proof.
  intros P K N Z. pose proof (parallel_par0 _ P) as (L1 & L2 & _).
  destruct (geti_lt (f_airflow f) 0) as (a0 & E0); [lia|].
  specialize (Z _ E0).
  assert (Lf : length (f_free_airflow f) = f_n f) by (solve_parallel; auto).
  unfold check_power, add_speed, eere_add_speed, base_add_speed.
  unfold sbind, sget, smod, slift, sret, sread. simpl. rewrite K. simpl.
  rewrite lasti_app. rewrite geti_app_l by lia. rewrite E0. rewrite pydiv_ok by auto.
  simpl. unfold power, airflow, efficacy. simpl. rewrite K. simpl.
  match goal with |- context [geti (f_free_airflow f ++ [?y]) (f_n f)] =>
    assert (E9 : geti (f_free_airflow f ++ [y]) (f_n f) = Ok y)
      by (rewrite <- Lf; apply geti_app_last) end.
  rewrite ?E9. simpl.
  eexists. split; [reflexivity|]. simpl. auto.
Qed.
