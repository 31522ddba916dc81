(** The condition built by [make_condition], in closed form. *)
From Coq Require Import Reals QArith Lra Lia List Bool.
From Verif.Base Require Import Num Res Tac.
From Verif.Model Require Import Units Psychrometrics Conditions Tabular Unit.
From Verif.Proofs Require Import UnitsR.
Import ListNotations.
Local Open Scope R_scope.

(** A condition with rated airflow [a] (standard volumetric), rated capacity [q],
    run at [r] times the rated flow. *)
Definition flow_cond (o i : psych_state R) (speed : nat) (f : option nat)
    (p : option R) (rho srho a q r : R) (ext : option R) : cond R :=
  mkCond o i speed true p f (Some q) (Some a) (Some (a * srho / rho)) (Some (a * srho))
    (Some (r * (a * srho) / rho)) (Some (r * (a * srho))) (Some (r * a)) (Some r)
    (Some (r * a / q))
    (match p with Some p => Some (p * (r * r)) | None => ext end).

Ltac cond_step :=
  cbv [sbind sget sread smod sret slift attr need
       w_rated w_flows w_ratio w_per_capacity w_esp w_fan_speed
       c_outdoor c_indoor c_speed c_rated_airflow_set c_rated_esp c_fan_speed
       c_rated_net_capacity c_rated_standard_volumetric_airflow
       c_rated_volumetric_airflow c_rated_mass_airflow c_volumetric_airflow
       c_mass_airflow c_standard_volumetric_airflow c_mass_airflow_ratio
       c_standard_volumetric_airflow_per_capacity c_external_static_pressure
       update_esp update_per_capacity update_from_mass update_flows_from_mass
       set_volumetric_airflow set_rated_volumetric_airflow
       set_standard_volumetric_airflow set_mass_airflow set_mass_airflow_ratio
       set_new_fan_speed nsq fst snd flow_cond OperatingConditions];
  cbn [nadd nsub nmul ndiv RNum].

Ltac cond_go :=
  repeat (cond_step;
          match goal with
          | H : rho_of ?psy ?i = Ok ?r |- context [rho_of ?psy ?i] => rewrite H
          | H : std_rho ?psy = Ok ?r |- context [std_rho ?psy] => rewrite H
          | |- context [pydiv ?x ?y] => rewrite (pydiv_ok x y) by auto
          end);
  cond_step.

Section MC.
  Variable psy : psychro R.

  Lemma set_rated_inv c a q c' :
    set_rated_volumetric_airflow psy a q c = (c', Ok tt) ->
    exists rho srho, rho_of psy (c_indoor c) = Ok rho /\ std_rho psy = Ok srho
      /\ rho <> 0 /\ srho <> 0 /\ a <> 0 /\ q <> 0
      /\ c' = flow_cond (c_outdoor c) (c_indoor c) (c_speed c) (c_fan_speed c)
                (c_rated_esp c) rho srho a q 1 (c_external_static_pressure c).
  Proof.
    intros H.
    destruct c as [out ind sp set esp fs cap' rsv rv rm' vv mm sv' rat pc ep].
    revert H. cond_step.
    destruct (std_rho psy) as [srho|e] eqn:Es; [|discriminate].
    destruct (rho_of psy ind) as [rho|e] eqn:Er; [|discriminate].
    destruct (pydiv (a * srho) rho) as [v|e] eqn:Ev; [|discriminate].
    apply pydiv_inv in Ev. destruct Ev as [Hr ->].
    assert (E : a * srho / rho * rho = a * srho) by (field; auto).
    rewrite !E.
    destruct (pydiv (a * srho) srho) as [sv|e] eqn:Ev2; [|discriminate].
    apply pydiv_inv in Ev2. destruct Ev2 as [Hs ->].
    destruct (pydiv (a * srho) (a * srho)) as [r|e] eqn:Ev3; [|discriminate].
    apply pydiv_inv in Ev3. destruct Ev3 as [Hm ->].
    assert (Ha : a <> 0) by (intros ->; apply Hm; ring).
    destruct (pydiv (a * srho / srho) q) as [x|e] eqn:Ev4; [|discriminate].
    apply pydiv_inv in Ev4. destruct Ev4 as [Hq ->].
    intros H. exists rho, srho. repeat (split; [auto|]).
    assert (E1 : a * srho / (a * srho) = 1) by (field; auto).
    assert (E2 : a * srho / srho = a) by (field; auto).
    rewrite E1, E2 in H.
    unfold flow_cond. rewrite !Rmult_1_l.
    destruct esp; injection H as <-; rewrite ?Rmult_1_r; reflexivity.
  Qed.

  Lemma set_ratio_flow_cond o i speed f p rho srho a q r ext r' :
    rho_of psy i = Ok rho -> std_rho psy = Ok srho -> rho <> 0 -> srho <> 0 -> q <> 0 ->
    ex (set_mass_airflow_ratio psy r') (flow_cond o i speed f p rho srho a q r ext)
    = Ok (flow_cond o i speed f p rho srho a q r' ext).
  Proof.
    intros Hr Hs H1 H2 H3. unfold ex.
    destruct p as [p|]; cond_go; f_equal;
      (replace (r' * (a * srho) / srho) with (r' * a) by (field; auto)); reflexivity.
  Qed.

  Lemma make_condition_inv m u speed i o c :
    make_condition psy m u speed i o = Ok c ->
    exists q a full p fl rho srho,
      nth_error (sd_net_cap (side_of m u)) speed = Some q
      /\ nth_error (sd_airflow (side_of m u)) speed = Some (Some a)
      /\ nth_error (sd_airflow (side_of m u)) 0 = Some (Some full)
      /\ calculate_rated_pressure u a full = Ok p
      /\ (exists map, sd_rated_fan_speed (side_of m u) = Some map
                      /\ nth_error map speed = Some fl)
      /\ std_rho psy = Ok srho
      /\ rho_of psy (match i with Some s => s | None => default_indoor m end) = Ok rho
      /\ rho <> 0 /\ srho <> 0 /\ a <> 0 /\ q <> 0
      /\ c = flow_cond (match o with Some s => s | None => default_outdoor m end)
               (match i with Some s => s | None => default_indoor m end)
               speed fl (Some p) rho srho a q 1 None.
  Proof.
    unfold make_condition. intros H.
    apply rbind_ok in H. destruct H as (q & Hq & H).
    apply rbind_ok in H. destruct H as (a' & Ha & H).
    apply rbind_ok in H. destruct H as (full' & Hf & H).
    apply rbind_ok in H. destruct H as (mp & Hmp & H).
    apply rbind_ok in H. destruct H as (fl & Hfl & H).
    apply rbind_ok in H. destruct H as (a & Ha' & H).
    apply rbind_ok in H. destruct H as (full & Hf' & H).
    apply rbind_ok in H. destruct H as (p & Hp & H).
    apply need_ok in Ha'. apply need_ok in Hf'. apply need_ok in Hmp. subst a' full'.
    apply geti_ok in Hq. apply geti_ok in Ha. apply geti_ok in Hf. apply geti_ok in Hfl.
    unfold ex in H.
    destruct (set_rated_volumetric_airflow psy a q _) as [c' [[]|e]] eqn:E; [|discriminate].
    injection H as <-.
    apply set_rated_inv in E. destruct E as (rho & srho & Er & Es & H1 & H2 & H3 & H4 & E).
    exists q, a, full, p, fl, rho, srho.
    repeat (split; [solve [eauto]|]). exact E.
  Qed.

  Lemma set_rated_ok o i speed f p a q rho srho :
    rho_of psy i = Ok rho -> std_rho psy = Ok srho ->
    rho <> 0 -> srho <> 0 -> a <> 0 -> q <> 0 ->
    ex (set_rated_volumetric_airflow psy a q) (OperatingConditions o i speed f (Some p))
    = Ok (flow_cond o i speed f (Some p) rho srho a q 1 None).
  Proof.
    intros Hr Hs H1 H2 H3 H4.
    assert (E : a * srho / rho * rho = a * srho) by (field; auto).
    assert (H5 : a * srho <> 0) by (apply Rmult_integral_contrapositive_currified; auto).
    assert (H6 : a * srho / rho * rho <> 0) by (rewrite E; auto).
    unfold ex. cond_go. rewrite !E, !Rmult_1_l.
    replace (a * srho / srho) with a by (field; auto).
    replace (a * srho / (a * srho)) with 1 by (field; auto).
    rewrite ?Rmult_1_l, ?Rmult_1_r. reflexivity.
  Qed.

  Lemma make_condition_ok m u speed i o q a full e mp fl rho srho :
    nth_error (sd_net_cap (side_of m u)) speed = Some q ->
    nth_error (sd_airflow (side_of m u)) speed = Some (Some a) ->
    nth_error (sd_airflow (side_of m u)) 0 = Some (Some full) ->
    u_full_esp u = Some e ->
    sd_rated_fan_speed (side_of m u) = Some mp -> nth_error mp speed = Some fl ->
    std_rho psy = Ok srho ->
    rho_of psy (match i with Some s => s | None => default_indoor m end) = Ok rho ->
    rho <> 0 -> srho <> 0 -> a <> 0 -> full <> 0 -> q <> 0 ->
    make_condition psy m u speed i o
    = Ok (flow_cond (match o with Some s => s | None => default_outdoor m end)
               (match i with Some s => s | None => default_indoor m end)
               speed fl (Some (e * ((a / full) * (a / full)))) rho srho a q 1 None).
  Proof.
    intros Hq Ha Hf He Hmp Hfl Hs Hr H1 H2 H3 H4 H5.
    unfold make_condition, geti. rewrite Hq, Ha, Hf, Hmp. cbn [need rbind].
    rewrite Hfl. cbn [need rbind]. unfold calculate_rated_pressure.
    rewrite He. cbn [need rbind]. rewrite (pydiv_ok a full) by auto. cbn [rbind].
    apply set_rated_ok; auto.
  Qed.

  (** Asking for the rated ratio again changes nothing. *)
  Lemma make_condition_ratio1 m u speed i o c :
    make_condition psy m u speed i o = Ok c ->
    ex (set_mass_airflow_ratio psy 1) c = Ok c.
  Proof.
    intros H. apply make_condition_inv in H.
    destruct H as (q & a & full & p & fl & rho & srho & _ & _ & _ & _ & _ & Hs & Hr
                   & H1 & H2 & H3 & H4 & ->).
    apply set_ratio_flow_cond; auto.
  Qed.

  Lemma make_condition_facts m u speed i o c :
    make_condition psy m u speed i o = Ok c ->
    c_speed c = speed /\ c_mass_airflow_ratio c = Some 1
    /\ c_indoor c = match i with Some s => s | None => default_indoor m end
    /\ c_outdoor c = match o with Some s => s | None => default_outdoor m end.
  Proof.
    intros H. apply make_condition_inv in H.
    destruct H as (q & a & full & p & fl & rho & srho & _ & _ & _ & _ & _ & Hs & Hr
                   & H1 & H2 & H3 & H4 & ->).
    simpl. auto.
  Qed.
End MC.
