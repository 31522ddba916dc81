From Coq Require Import Reals QArith Lra Lia List Bool.
From Verif.Base Require Import Num Res Tac.
From Verif.Model Require Import Units Psychrometrics Conditions Fan Unit DXUnit.
From Verif.Spec Require Import CondSpec UnratedSpec.
Import ListNotations.
Local Open Scope R_scope.

(** Conditions before a rated flow is given, after the calls [ks]. *)
Definition unrated (rho srho : R) (r0 : option R) (seen : bool) (c : cond R) : Prop :=
  c_rated_airflow_set c = false
  /\ c_rated_mass_airflow c = None /\ c_rated_net_capacity c = None
  /\ c_standard_volumetric_airflow_per_capacity c = None
  /\ c_mass_airflow_ratio c = r0
  /\ c_external_static_pressure c
     = match c_rated_esp c, r0 with Some p, Some r => Some (p * r ^ 2) | _, _ => None end
  /\ (if seen then flows_agree rho srho c else no_flows c).

Definition new_ratio (k : airflow_call) (r0 : option R) : option R :=
  match k with CallRatio r => Some r | _ => r0 end.

Section C.
  Variable psy : psychro R.
  Variables (rho srho : R).
  Hypothesis Hrho0 : rho <> 0.
  Hypothesis Hsrho0 : srho <> 0.
  Hypothesis Hsrho : std_rho psy = Ok srho.

  Ltac cstep :=
    cbv [do_call sbind sget sread smod sret slift attr need
         w_rated w_flows w_ratio w_per_capacity w_esp w_fan_speed
         c_outdoor c_indoor c_speed c_rated_airflow_set c_rated_esp c_fan_speed
         c_rated_net_capacity c_rated_standard_volumetric_airflow
         c_rated_volumetric_airflow c_rated_mass_airflow c_volumetric_airflow
         c_mass_airflow c_standard_volumetric_airflow c_mass_airflow_ratio
         c_standard_volumetric_airflow_per_capacity c_external_static_pressure
         update_esp update_per_capacity update_from_mass update_flows_from_mass
         set_volumetric_airflow set_rated_volumetric_airflow
         set_standard_volumetric_airflow set_mass_airflow set_mass_airflow_ratio
         set_new_fan_speed nsq fst snd];
    cbn [nadd nsub nmul ndiv RNum].
  Ltac cgo :=
    repeat (cstep;
            match goal with
            | H : rho_of psy ?i = Ok ?r |- context [rho_of psy ?i] => rewrite H
            | H : std_rho psy = Ok ?r |- context [std_rho psy] => rewrite H
            | |- context [pydiv ?x ?y] => rewrite (pydiv_ok x y) by auto
            end);
    cstep.

  Lemma call_unrated c r0 seen k :
    rho_of psy (c_indoor c) = Ok rho -> unrated rho srho r0 seen c ->
    exists c', do_call psy k c = (c', Ok tt)
      /\ unrated rho srho (new_ratio k r0) (orb (names_flow k) seen) c'
      /\ same_setup c c' /\ call_honoured k c'.
  Proof.
    intros Hr (A & B & D & E & F & G & I).
    destruct c as [out ind sp set esp fs cap rsv rv rm v m sv rat pc ep].
    simpl in A, B, D, E, F, G, Hr. subst set rm cap pc rat ep.
    destruct k, esp as [p|]; (eexists; split; [cgo; reflexivity|]);
      (split; [|split; [unfold same_setup; simpl; auto|simpl; auto]]);
      unfold unrated; simpl; repeat (split; [reflexivity|]);
      lazymatch goal with
      | |- Some _ = Some _ /\ _ => split; [f_equal; ring|]
      | _ => idtac
      end;
      first [destruct seen; exact I
            |unfold flows_agree; simpl;
             eexists _, _, _; repeat (split; [reflexivity|]); try split; field; auto].
  Qed.

  Lemma calls_unrated ks : forall c r0 seen,
    rho_of psy (c_indoor c) = Ok rho -> unrated rho srho r0 seen c ->
    exists c', sfold (do_call psy) ks c = (c', Ok tt)
      /\ unrated rho srho (match last_ratio ks with Some r => Some r | None => r0 end)
           (orb (existsb names_flow ks) seen) c'
      /\ same_setup c c'
      /\ (forall k, last (map Some ks) None = Some k -> call_honoured k c').
  Proof.
    induction ks as [|k ks IH]; intros c r0 seen Hr U.
    - exists c. split; [reflexivity|]. split; [exact U|]. split; [unfold same_setup; auto|].
      simpl. discriminate.
    - destruct (call_unrated c r0 seen k Hr U) as (c1 & E1 & U1 & S1 & K1).
      destruct (IH c1 _ _ (eq_trans (f_equal (rho_of psy) (proj1 (proj2 S1))) Hr) U1)
        as (c2 & E2 & U2 & S2 & K2).
      exists c2. split; [simpl; unfold sbind; rewrite E1; exact E2|]. split; [|split].
      + replace (match last_ratio (k :: ks) with Some r => Some r | None => r0 end)
          with (match last_ratio ks with Some r => Some r | None => new_ratio k r0 end)
          by (simpl; destruct (last_ratio ks), k; reflexivity).
        replace (existsb names_flow (k :: ks) || seen)%bool
          with (existsb names_flow ks || (names_flow k || seen))%bool; [exact U2|].
        simpl. destruct (existsb names_flow ks), (names_flow k), seen; reflexivity.
      + unfold same_setup in *. intuition congruence.
      + intros k' Hk. destruct ks as [|k2 ks].
        * simpl in *. injection Hk as <-. injection E2 as <-. auto.
        * apply K2. exact Hk.
  Qed.

  Lemma new_unrated o i s f e :
    unrated rho srho None false (OperatingConditions (T:=R) o i s f e).
  Proof.
    unfold unrated, no_flows; simpl. repeat (split; [reflexivity|]).
    split; [destruct e; reflexivity|auto].
  Qed.

  Lemma unrated_after ks o i s f e :
    rho_of psy i = Ok rho ->
    exists c, sfold (do_call psy) ks (OperatingConditions o i s f e) = (c, Ok tt)
      /\ c_mass_airflow_ratio c = last_ratio ks
      /\ c_standard_volumetric_airflow_per_capacity c = None
      /\ c_external_static_pressure c
         = match e, last_ratio ks with Some p, Some r => Some (p * r ^ 2) | _, _ => None end
      /\ (if existsb names_flow ks then flows_agree rho srho c else no_flows c)
      /\ same_setup (OperatingConditions o i s f e) c
      /\ (forall k, last (map Some ks) None = Some k -> call_honoured k c).
  Proof.
    intros Hr.
    destruct (calls_unrated ks (OperatingConditions o i s f e) None false Hr
                (new_unrated o i s f e)) as (c & E & U & S1 & K).
    exists c. split; [exact E|].
    destruct U as (_ & _ & _ & P & F & G & I). rewrite orb_false_r in I.
    assert (L : match last_ratio ks with Some r => Some r | None => None end = last_ratio ks)
      by (destruct (last_ratio ks); reflexivity).
    rewrite L in F, G.
    assert (Ee : c_rated_esp c = e) by apply S1. rewrite Ee in G.
    repeat (split; [assumption|]). exact K.
  Qed.
  (** Giving the rated flow forgets what was set before. *)
  Lemma rated_forgets c c' rated cap p :
    same_setup c c' -> c_fan_speed c' = c_fan_speed c -> c_rated_esp c = Some p ->
    rho_of psy (c_indoor c) = Ok rho -> rated <> 0 -> cap <> 0 ->
    exists k, set_rated_volumetric_airflow psy rated cap c = (k, Ok tt)
      /\ set_rated_volumetric_airflow psy rated cap c' = (k, Ok tt).
  Proof.
    intros (A & B & D & E) F P Hr Hrated Hcap.
    assert (X : rated * srho / rho * rho = rated * srho) by (field; auto).
    assert (Hm : rated * srho <> 0) by (apply Rmult_integral_contrapositive; auto).
    assert (Hm2 : rated * srho / rho * rho <> 0) by (rewrite X; auto).
    destruct c as [out ind sp set esp fs cap' rsv rv rm' vv mm sv' rat pc ep].
    destruct c' as [out2 ind2 sp2 set2 esp2 fs2 cap2 rsv2 rv2 rm2 vv2 mm2 sv2 rat2 pc2 ep2].
    simpl in *. subst. eexists. split; cgo; reflexivity.
  Qed.
End C.

Lemma fan_needs_pressure sol (u : dxunit R) (c : cond R) x :
  c_external_static_pressure c = None -> fan_power sol u c <> Ok x.
Proof.
  intros N. unfold fan_power. rewrite N. destruct (u_fan u); simpl; discriminate.
Qed.
Lemma no_pressure_no_net sol M (u : dxunit R) c :
  c_external_static_pressure c = None -> no_net_performance sol M u c.
Proof.
  intros N x.
  assert (B : forall op (f g : dxunit R -> option (cond R) -> res R),
    (forall y, g u (Some c) <> Ok y) -> both op f g u (Some c) <> Ok x).
  { intros op f g G H. unfold both in H. apply rbind_ok in H. destruct H as (a & _ & H).
    apply rbind_ok in H. destruct H as (b & H & _). exact (G b H). }
  repeat split; apply B; intros y;
    unfold cooling_fan_power, heating_fan_power; cbn [cooling_conditions heating_conditions rbind];
    apply fan_needs_pressure; exact N.
Qed.

Lemma unrated_no_net psy rho srho :
  rho <> 0 -> srho <> 0 -> std_rho psy = Ok srho ->
  forall ks o i s f e, rho_of psy i = Ok rho -> last_ratio ks = None ->
  exists c, sfold (do_call psy) ks (OperatingConditions o i s f e) = (c, Ok tt)
    /\ forall sol M u, no_net_performance sol M u c.
Proof.
  intros H1 H2 H3 ks o i s f e Hr L.
  destruct (unrated_after psy rho srho H1 H2 H3 ks o i s f e Hr) as (c & E & _ & _ & P & _).
  exists c. split; [exact E|]. intros sol M u. apply no_pressure_no_net.
  rewrite P, L. destruct e; reflexivity.
Qed.
