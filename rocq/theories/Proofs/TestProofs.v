(** C70: the rating conditions of a unit. *)
From Coq Require Import Reals QArith Lra Lia List Bool.
From Verif.Base Require Import Num Res Tac.
From Verif.Model Require Import Units Psychrometrics Conditions Defrost Fan Tabular Unit
  NREL BaseModel Title24 Resnet DXUnit.
From Verif.Spec Require Import NrelSpec UnitModels UnitSpec TestSpec.
From Verif.Proofs Require Import UnitsR MakeCond Frame StandardProofs UnitProofs UnitProofs4.
Import ListNotations.
Local Open Scope R_scope.

Section T.
  Variable psy : psychro R.
  Notation U := (dxunit R).

  (** The outdoor state passed to [make_condition]. *)
  Definition given_outdoor (t : test) : option (psych_state R) :=
    match t with
    | A_full | A_int | A_boost | A_low | H1_full | H1_low => None
    | B_full | B_low => t82 | E_int => t87 | F_low => t67 | H0_low => t62
    | H2_full | H2_int | H2_low => t35 | H3_full | H3_low => t17 | H4_full => t5
    end.

  (** The run of [set_rating_conditions] stores what [make_condition] returns. *)
  Lemma stored_made (u X : U) cs cs1 t :
    run psy X (rating_puts u) cs = (cs1, Ok tt) -> In t (tests u) ->
    test_speed t X = test_speed t u ->
    exists s c, test_speed t X = Some s /\ stored t cs1 = Some c
      /\ make_condition psy (test_mode t) X s None (given_outdoor t) = Ok c.
  Proof.
    intros H I E. rewrite E. clear E. revert H. unfold rating_puts, tests in *.
    destruct (u_staging u), (sd_boost (u_c u)) eqn:B; cbn [app run p_set] in *;
    repeat match goal with
      | |- context [match make psy X ?p with _ => _ end] =>
          let e := fresh "Q" in destruct (make psy X p) eqn:e; [|discriminate];
          unfold make in e; cbn [p_speed p_mode p_out] in e;
          apply rbind_ok in e; let s := fresh "s" in let N := fresh "N" in
          destruct e as (s & N & e); apply need_ok in N
      end; intros H; injection H as <-;
    repeat (destruct I as [<-|I];
      [eexists; eexists; split; [|split; [reflexivity|eassumption]];
       first [eassumption | etransitivity; [exact B|eassumption]]|]);
    destruct I.
  Qed.

  Lemma atm_R : atm (T:=R) = 101325.
  Proof. unfold atm. rnum. lra. Qed.

  Lemma air_wetbulb d w a b :
    d = a -> w = b -> air (a, b) (psych_wetbulb (fr_F d) atm (fr_F w)).
  Proof.
    intros -> ->. unfold air. rewrite !fr_F_deg, atm_R. repeat split.
  Qed.

  Lemma test_air t :
    air (outdoor_air t) (match given_outdoor t with Some s => s | None => default_outdoor (test_mode t) end)
    /\ air (indoor_air t) (default_indoor (test_mode t)).
  Proof.
    destruct t; split; apply air_wetbulb; unfold lit; rnum; lra.
  Qed.

  Lemma made_condition_of (u : U) t s c :
    test_speed t u = Some s ->
    make_condition psy (test_mode t) u s None (given_outdoor t) = Ok c ->
    condition_of t u c.
  Proof.
    intros S H. apply make_condition_inv in H.
    destruct H as (q & a & full & p & fl & rho & srho & Hq & Ha & Hf & Hp & Hm & _ & _ & _ & _
                   & _ & _ & ->).
    unfold calculate_rated_pressure in Hp.
    apply rbind_ok in Hp. destruct Hp as (p0 & P0 & Hp). apply need_ok in P0.
    apply rbind_ok in Hp. destruct Hp as (r & Hr & Hp). apply pydiv_inv in Hr.
    destruct Hr as (_ & ->). apply Ok_inj in Hp. subst p.
    destruct (test_air t) as (A1 & A2).
    exists s, q, a, full, p0, fl.
    cbn [flow_cond c_speed c_outdoor c_indoor c_rated_net_capacity
         c_rated_standard_volumetric_airflow c_mass_airflow_ratio c_external_static_pressure
         c_fan_speed].
    do 11 (split; [first [assumption | reflexivity]|]).
    split; [|split; [exact Hm|reflexivity]].
    unfold nsq. cbn [nmul RNum]. f_equal. ring.
  Qed.

  (** A unit whose conditions are a fixed point of setting its own standard. *)
  Lemma fixed_conditions (u : U) :
    ex (set_rating_standard psy (u_standard u)) u = Ok u ->
    forall t, In t (tests u) ->
    exists c, stored t (u_conds u) = Some c /\ condition_of t u c.
  Proof.
    intros H t I. unfold ex in H. rewrite set_rating_standard_eq in H.
    replace (wu_standard (u_standard u) u) with u in H by (destruct u; reflexivity).
    destruct (get_rated_full_flow_rated_pressure u) as [p|e]; [|discriminate].
    cbv zeta in H. set (X := wu_full_esp (Some p) u) in *.
    destruct (run psy X (rating_puts u) (u_conds u)) as [cs [[]|e]] eqn:E; cbn [fst snd] in H;
      [|discriminate].
    apply Ok_inj in H.
    assert (C : u_conds u = cs) by (rewrite <- H; reflexivity).
    assert (P : u_full_esp u = Some p) by (rewrite <- H; reflexivity).
    assert (Xu : X = u) by (unfold X; rewrite <- P; destruct u; reflexivity).
    destruct (stored_made u X _ _ t E I) as (s & c & S & St & Mk); [rewrite Xu; reflexivity|].
    rewrite Xu in *. exists c. rewrite C. split; [exact St|].
    apply (made_condition_of u t s c S Mk).
  Qed.

  (** After a successful [set_rating_standard]. *)
  Lemma standard_idempotent s (u u' : U) :
    set_rating_standard psy s u = (u', Ok tt) ->
    ex (set_rating_standard psy (u_standard u')) u' = Ok u'.
  Proof.
    intros H. assert (E : u_standard u' = s).
    { rewrite set_rating_standard_eq in H.
      destruct (get_rated_full_flow_rated_pressure (wu_standard s u)); [|discriminate].
      cbv zeta in H. apply (f_equal fst) in H. cbn [fst] in H. rewrite <- H.
      destruct u; reflexivity. }
    rewrite E.
    rewrite (set_rating_standard_same psy s u u').
    - unfold ex. rewrite H. reflexivity.
    - pose proof (set_rating_standard_sim psy s u) as K. rewrite H in K. exact K.
  Qed.

  Lemma set_conditions s (u u' : U) :
    set_rating_standard psy s u = (u', Ok tt) ->
    tests u' = tests u /\
    forall t, In t (tests u) ->
    exists c, stored t (u_conds u') = Some c /\ condition_of t u' c.
  Proof.
    intros H.
    assert (E : tests u' = tests u).
    { rewrite set_rating_standard_eq in H.
      destruct (get_rated_full_flow_rated_pressure (wu_standard s u)); [|discriminate].
      cbv zeta in H. apply (f_equal fst) in H. cbn [fst] in H. rewrite <- H.
      destruct u; reflexivity. }
    split; [exact E|]. rewrite <- E. apply fixed_conditions.
    eapply standard_idempotent; eauto.
  Qed.
End T.

Lemma constructed_conditions psy sol M a (u : dxunit R) t :
  library_model psy sol M -> DXUnit psy sol M a = Ok u -> In t (tests u) ->
  exists c, stored t (u_conds u) = Some c /\ condition_of t u c.
Proof.
  intros L H I. apply (fixed_conditions psy u); [|exact I].
  eapply constructed_standard_fixed; eauto.
Qed.
