From Coq Require Import Reals QArith Lra Lia List Bool.
From Verif.Base Require Import Num Res Tac.
From Verif.Model Require Import Units Psychrometrics Conditions.
From Verif.Spec Require Import CondSpec.
Import ListNotations.
Local Open Scope R_scope.

Section C.
  Variable psy : psychro R.
  Variables (rho srho : R).
  Hypothesis Hrho0 : rho <> 0.
  Hypothesis Hsrho0 : srho <> 0.
  Hypothesis Hsrho : std_rho psy = Ok srho.

  Ltac cstep :=
    cbv [sbind sget sread smod sret slift attr need
         w_rated w_flows w_ratio w_per_capacity w_esp w_fan_speed
         c_outdoor c_indoor c_speed c_rated_airflow_set c_rated_esp c_fan_speed
         c_rated_net_capacity c_rated_standard_volumetric_airflow
         c_rated_volumetric_airflow c_rated_mass_airflow c_volumetric_airflow
         c_mass_airflow c_standard_volumetric_airflow c_mass_airflow_ratio
         c_standard_volumetric_airflow_per_capacity c_external_static_pressure
         update_esp update_per_capacity update_from_mass update_flows_from_mass
         set_volumetric_airflow set_rated_volumetric_airflow
         set_standard_volumetric_airflow set_mass_airflow set_mass_airflow_ratio
         set_new_fan_speed nsq fst snd];
    cbn [nadd nsub nmul ndiv RNum].

  Ltac cgo :=
    repeat (cstep;
            match goal with
            | H : rho_of psy ?i = Ok ?r |- context [rho_of psy ?i] => rewrite H
            | H : std_rho psy = Ok ?r |- context [std_rho psy] => rewrite H
            | |- context [pydiv ?x ?y] => rewrite (pydiv_ok x y) by auto
            end);
    cstep.

  Lemma set_volumetric_ok c rm cap v :
    rho_of psy (c_indoor c) = Ok rho ->
    c_rated_airflow_set c = true ->
    c_rated_mass_airflow c = Some rm -> rm <> 0 ->
    c_rated_net_capacity c = Some cap -> cap <> 0 ->
    exists c', set_volumetric_airflow psy v c = (c', Ok tt)
      /\ airflow_consistent rho srho rm cap c' /\ same_setup c c'
      /\ c_volumetric_airflow c' = Some v
      /\ c_fan_speed c' = c_fan_speed c.
  Proof.
    intros Hr Hset Hrm Hrm0 Hcap Hcap0.
    destruct c as [out ind sp set esp fs cap' rsv rv rm' vv mm sv rat pc ep].
    simpl in *. subst set rm' cap'.
    destruct esp as [p|]; eexists; (split; [cgo; reflexivity|]);
      unfold airflow_consistent, same_setup; simpl;
      repeat split; auto;
      eexists _, _, _, _; repeat split;
        try (intros q Eq; inversion Eq; subst; f_equal); field; auto.
  Qed.

  Lemma set_standard_ok c rm cap sv :
    rho_of psy (c_indoor c) = Ok rho ->
    c_rated_airflow_set c = true ->
    c_rated_mass_airflow c = Some rm -> rm <> 0 ->
    c_rated_net_capacity c = Some cap -> cap <> 0 ->
    exists c', set_standard_volumetric_airflow psy sv c = (c', Ok tt)
      /\ airflow_consistent rho srho rm cap c' /\ same_setup c c'
      /\ c_standard_volumetric_airflow c' = Some sv
      /\ c_fan_speed c' = c_fan_speed c.
  Proof.
    intros Hr Hset Hrm Hrm0 Hcap Hcap0.
    destruct c as [out ind sp set esp fs cap' rsv rv rm' vv mm sv' rat pc ep].
    simpl in *. subst set rm' cap'.
    destruct esp as [p|]; eexists; (split; [cgo; reflexivity|]);
      unfold airflow_consistent, same_setup; simpl;
      repeat split; auto;
      eexists _, _, _, _; repeat split;
        try (intros q Eq; inversion Eq; subst; f_equal); field; auto.
  Qed.

  Lemma set_ratio_ok c rm cap r :
    rho_of psy (c_indoor c) = Ok rho ->
    c_rated_airflow_set c = true ->
    c_rated_mass_airflow c = Some rm -> rm <> 0 ->
    c_rated_net_capacity c = Some cap -> cap <> 0 ->
    exists c', set_mass_airflow_ratio psy r c = (c', Ok tt)
      /\ airflow_consistent rho srho rm cap c' /\ same_setup c c'
      /\ c_mass_airflow_ratio c' = Some r
      /\ c_fan_speed c' = c_fan_speed c.
  Proof.
    intros Hr Hset Hrm Hrm0 Hcap Hcap0.
    destruct c as [out ind sp set esp fs cap' rsv rv rm' vv mm sv' rat pc ep].
    simpl in *. subst set rm' cap'.
    destruct esp as [p|]; eexists; (split; [cgo; reflexivity|]);
      unfold airflow_consistent, same_setup; simpl;
      repeat split; auto;
      eexists _, _, _, _; repeat split;
        try (intros q Eq; inversion Eq; subst; f_equal); field; auto.
  Qed.

  Lemma do_call_ok c rm cap k :
    rho_of psy (c_indoor c) = Ok rho ->
    c_rated_airflow_set c = true ->
    c_rated_mass_airflow c = Some rm -> rm <> 0 ->
    c_rated_net_capacity c = Some cap -> cap <> 0 ->
    exists c', do_call psy k c = (c', Ok tt)
      /\ airflow_consistent rho srho rm cap c' /\ same_setup c c'
      /\ call_honoured k c'.
  Proof.
    intros Hr Hset Hrm Hrm0 Hcap Hcap0. destruct k; simpl.
    - destruct (set_volumetric_ok c rm cap v) as (c' & ? & ? & ? & ? & _); eauto.
    - destruct (set_standard_ok c rm cap sv) as (c' & ? & ? & ? & ? & _); eauto 6.
    - destruct (set_ratio_ok c rm cap r) as (c' & ? & ? & ? & ? & _); eauto 6.
    - destruct (set_standard_ok (w_fan_speed f c) rm cap sv)
        as (c' & ? & ? & ? & ? & Hf); auto.
      exists c'. unfold set_new_fan_speed, sbind, smod.
      repeat split; auto; try apply H1; try apply H0.
  Qed.

  Lemma calls_ok ks : forall c rm cap,
    rho_of psy (c_indoor c) = Ok rho ->
    rm <> 0 -> cap <> 0 ->
    airflow_consistent rho srho rm cap c ->
    exists c', sfold (do_call psy) ks c = (c', Ok tt)
      /\ airflow_consistent rho srho rm cap c' /\ same_setup c c'
      /\ forall k, last (map Some ks) None = Some k -> call_honoured k c'.
  Proof.
    induction ks as [|k ks IH]; intros c rm cap Hr Hrm Hcap Hc.
    - exists c. split; [reflexivity|]. split; auto. split; [unfold same_setup; auto|].
      simpl. discriminate.
    - destruct Hc as (Hset & Erm & Ecap & _).
      destruct (do_call_ok c rm cap k) as (c1 & E1 & H1 & S1 & K1); auto.
      destruct (IH c1 rm cap) as (c2 & E2 & H2 & S2 & K2); auto.
      { destruct S1 as (_ & -> & _). auto. }
      exists c2. split; [|split; [auto|split]].
      + simpl. unfold sbind. rewrite E1. exact E2.
      + unfold same_setup in *. intuition congruence.
      + intros k' Hk. destruct ks as [|k2 ks].
        * simpl in *. injection Hk as <-. injection E2 as <-. auto.
        * apply K2. exact Hk.
  Qed.

  Lemma set_rated_ok c rated cap :
    rho_of psy (c_indoor c) = Ok rho ->
    rated <> 0 -> cap <> 0 ->
    exists c', set_rated_volumetric_airflow psy rated cap c = (c', Ok tt)
      /\ airflow_consistent rho srho (rated * srho) cap c' /\ same_setup c c'
      /\ c_mass_airflow_ratio c' = Some 1
      /\ c_standard_volumetric_airflow c' = Some rated
      /\ c_fan_speed c' = c_fan_speed c.
  Proof.
    intros Hr Hrated Hcap.
    assert (E : rated * srho / rho * rho = rated * srho) by (field; auto).
    assert (Hm : rated * srho <> 0) by (apply Rmult_integral_contrapositive; auto).
    assert (Hm2 : rated * srho / rho * rho <> 0) by (rewrite E; auto).
    destruct c as [out ind sp set esp fs cap' rsv rv rm' vv mm sv' rat pc ep].
    simpl in *.
    destruct esp as [p|]; eexists; (split; [cgo; rewrite ?E; reflexivity|]);
      unfold airflow_consistent, same_setup; simpl;
      (repeat split; auto);
      try (eexists _, _, _, _; repeat split;
        try (intros q Eq; inversion Eq; subst; f_equal); field; auto; fail);
      f_equal; field; auto.
  Qed.

  Lemma rated_then_calls c rated cap ks :
    rho_of psy (c_indoor c) = Ok rho ->
    rated <> 0 -> cap <> 0 ->
    exists c', (set_rated_volumetric_airflow psy rated cap ;;; sfold (do_call psy) ks) c
                 = (c', Ok tt)
      /\ airflow_consistent rho srho (rated * srho) cap c' /\ same_setup c c'
      /\ (forall k, last (map Some ks) None = Some k -> call_honoured k c').
  Proof.
    intros Hr Hrated Hcap.
    destruct (set_rated_ok c rated cap) as (c1 & E1 & H1 & S1 & _); auto.
    assert (Hm : rated * srho <> 0) by (apply Rmult_integral_contrapositive; auto).
    destruct (calls_ok ks c1 (rated * srho) cap) as (c2 & E2 & H2 & S2 & K2); auto.
    { destruct S1 as (_ & -> & _). auto. }
    exists c2. split; [unfold sbind; rewrite E1; exact E2|]. split; auto.
    split; auto. unfold same_setup in *. intuition congruence.
  Qed.

  (** The exact effect of [set_mass_airflow] on a consistent state. *)
  Lemma set_mass_effect c rm cap r0 m :
    rho_of psy (c_indoor c) = Ok rho ->
    airflow_consistent rho srho rm cap c ->
    rm <> 0 -> cap <> 0 -> m <> 0 ->
    c_mass_airflow_ratio c = Some r0 ->
    exists c', set_mass_airflow psy m c = (c', Ok tt)
      /\ same_setup c c'
      /\ c_rated_airflow_set c' = true
      /\ c_rated_mass_airflow c' = Some rm
      /\ c_rated_net_capacity c' = Some cap
      /\ c_mass_airflow c' = Some m
      /\ c_volumetric_airflow c' = Some (m / rho)
      /\ c_standard_volumetric_airflow c' = Some (m / srho)
      /\ c_mass_airflow_ratio c' = Some (rm / m)
      /\ c_standard_volumetric_airflow_per_capacity c' = Some (m / srho / cap)
      /\ (forall p, c_rated_esp c = Some p ->
            c_external_static_pressure c' = Some (p * r0 ^ 2)).
  Proof.
    intros Hr (Hset & Erm & Ecap & _) Hrm Hcap Hm Er0.
    destruct c as [out ind sp set esp fs cap' rsv rv rm' vv mm sv' rat pc ep].
    simpl in *. subst.
    destruct esp as [p|]; eexists; (split; [cgo; reflexivity|]);
      unfold same_setup; simpl; repeat split; auto;
      intros q Eq; inversion Eq; subst; f_equal; ring.
  Qed.

  Lemma set_mass_consistent_iff c rm cap r0 m :
    rho_of psy (c_indoor c) = Ok rho ->
    airflow_consistent rho srho rm cap c ->
    rm <> 0 -> cap <> 0 -> m <> 0 ->
    c_mass_airflow_ratio c = Some r0 ->
    exists c', set_mass_airflow psy m c = (c', Ok tt) /\
      (airflow_consistent rho srho rm cap c' <->
       (m = rm \/ m = - rm) /\
       (forall p, c_rated_esp c = Some p -> p = 0 \/ r0 = 1 \/ r0 = -1)).
  Proof.
    intros Hr Hc Hrm Hcap Hm Er0.
    destruct (set_mass_effect c rm cap r0 m Hr Hc Hrm Hcap Hm Er0)
      as (c' & E & (_ & _ & _ & Eesp) & H1 & H2 & H3 & H4 & H5 & H6 & H7 & H8 & H9).
    exists c'. split; auto. split.
    - intros (_ & _ & _ & m' & v' & sv' & r' & A1 & A2 & A3 & A4 & _ & _ & A5 & _ & A7).
      assert (Em : m' = m) by congruence. subst m'.
      assert (Er : r' = rm / m) by congruence.
      assert (Q : rm * rm = m * m).
      { rewrite Er in A5. apply (f_equal (fun x => x * (m * rm))) in A5.
        field_simplify in A5; auto. lra. }
      assert (D : m = rm \/ m = - rm).
      { assert ((m - rm) * (m + rm) = 0) as Z by lra.
        apply Rmult_integral in Z. destruct Z; [left|right]; lra. }
      split; auto.
      intros p Hp. specialize (A7 p). rewrite Eesp in A7. specialize (A7 Hp).
      specialize (H9 p Hp). rewrite A7 in H9. injection H9 as H9.
      destruct (Req_dec p 0) as [->|Hp0]; auto. right.
      assert (S1 : r' * r' = 1).
      { rewrite Er. replace (rm / m * (rm / m)) with (rm * rm / (m * m)) by (field; auto).
        rewrite Q. field; auto. }
      assert (p * (r0 ^ 2) = p * 1) as Z.
      { rewrite <- S1. lra. }
      apply Rmult_eq_reg_l in Z; auto.
      assert ((r0 - 1) * (r0 + 1) = 0) as Z2 by (ring_simplify; lra).
      apply Rmult_integral in Z2. destruct Z2; [left|right]; lra.
    - intros (Dm & Dp). split; [auto|]. split; [auto|]. split; [auto|].
      exists m, (m / rho), (m / srho), (rm / m).
      repeat split; auto; try (field; auto).
      + destruct Dm; subst m; field; auto.
      + intros p Hp. rewrite Eesp in Hp. rewrite (H9 p Hp). f_equal.
        assert (S1 : (rm / m) ^ 2 = 1).
        { destruct Dm; subst m; field; auto. }
        rewrite S1.
        destruct (Dp p Hp) as [->|[->| ->]]; ring.
  Qed.
End C.

Lemma set_mass_unrated psy c m p :
  c_rated_esp c = Some p -> c_mass_airflow_ratio c = None ->
  snd (set_mass_airflow (T:=R) psy m c) = Err AttributeError.
Proof.
  intros Hp Hr.
  destruct c as [out ind sp set esp fs cap' rsv rv rm' vv mm sv' rat pc ep].
  simpl in *. subst. reflexivity.
Qed.
