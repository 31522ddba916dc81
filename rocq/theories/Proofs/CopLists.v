(** C48: COPs given as lists. *)
From Coq Require Import Reals List Bool String.
From Verif.Base Require Import Num Res Tac.
From Verif.Model Require Import Units Util Psychrometrics Conditions Defrost Fan Curves
  Tabular Unit NREL BaseModel Title24 Resnet DXUnit.
From Verif.Spec Require Import NrelSpec UnitSpec UnitModels CopListSpec.
From Verif.Proofs Require Import NrelProofs Frame StandardProofs UnitProofs UnitProofs2
  UnitProofs3 CopProofs UnitProofs4.
Import ListNotations.
Local Open Scope R_scope.

Section CopLists.
  Variable psy : psychro R.
  Variable sol : solvers R.
  Notation U := (dxunit R).

  Definition of_side (s : side R) := (sd_n s, sd_gross_cop s, sd_net_cop s, sd_net_power s, sd_gross_power s).
  Definition cops (u : U) := (of_side (u_c u), of_side (u_h u)).
  Definition cquiet {A} (set : A -> side R -> side R) : Prop := forall l s, of_side (set l s) = of_side s.

  Lemma cops_side_put m get set i v : cquiet set -> keeps cops (side_put (T:=R) m get set i v).
  Proof.
    intros H. unfold side_put. keep. unfold cops. destruct m; cbn; rewrite H; reflexivity.
  Qed.
  Lemma cops_comp m set g : cquiet set -> keeps cops (set_comp (T:=R) m set g).
  Proof. intros H. unfold set_comp. keep. unfold cops. destruct m; cbn; rewrite H; reflexivity. Qed.
  Lemma cops_entry m get set i g : cquiet set -> keeps cops (set_entry (T:=R) m get set i g).
  Proof.
    intros H. unfold set_entry. apply keeps_bind; [keep|]. intros.
    apply keeps_bind; [keep|]. intros. apply cops_side_put. auto.
  Qed.
  Lemma cops_on_fan {A} (m : st (fan R) A) : keeps cops (on_fan (T:=R) m).
  Proof. intros u. unfold on_fan. destruct (u_fan u); [|reflexivity]. destruct (m f). reflexivity. Qed.
  Lemma cops_last : keeps cops (last_fan_speed (T:=R)).
  Proof. unfold last_fan_speed. keep. Qed.
  Lemma cops_put_fan m i k : keeps cops (put_fan_speed (T:=R) m i k).
  Proof. unfold put_fan_speed. keep. Qed.
  Lemma cops_put_rated m i k : keeps cops (put_rated_fan_speed (T:=R) m i k).
  Proof. unfold put_rated_fan_speed. keep. Qed.

  Ltac keepp :=
    repeat (first
      [ keep_step
      | apply cops_on_fan | apply cops_last | apply cops_put_fan | apply cops_put_rated
      | apply cops_side_put; intros ? ?; reflexivity
      | apply cops_comp; intros ? ?; reflexivity
      | apply cops_entry; intros ? ?; reflexivity ]; cbv zeta beta).

  Lemma cops_base_set qc qh f : keeps cops (base_set_net_capacities_and_fan (T:=R) qc qh f).
  Proof.
    unfold base_set_net_capacities_and_fan, base_set_net_cooling_capacity, base_set_net_heating_capacity,
      base_set_fan, base_fan_step. keepp.
  Qed.
  Lemma cops_t24_set qc qh f : keeps cops (t24_set_net_capacities_and_fan (T:=R) qc qh f).
  Proof.
    unfold t24_set_net_capacities_and_fan, t24_set_rated_fan_characteristics, base_set_net_cooling_capacity,
      base_set_net_heating_capacity, t24_set_fan, t24_fan_step. keepp.
  Qed.
  Lemma cops_gross m i : keeps cops (put_gross_capacity (T:=R) m i).
  Proof. unfold put_gross_capacity. keepp. Qed.
  Lemma cops_conditions : keeps cops (set_rating_conditions (T:=R) psy).
  Proof. unfold set_rating_conditions, reset_full_esp, put_cond. keepp. Qed.
  Lemma cops_sensible M : keeps cops (set_sensible_cooling_variables psy sol M).
  Proof. unfold set_sensible_cooling_variables, set_sensible_at, calculate_rated_bypass_factor. keepp. Qed.

  Lemma cops_set M qc qh f : plain_model sol M -> keeps cops (md_set_net_capacities_and_fan M qc qh f).
  Proof.
    unfold plain_model. simpl.
    intros [<-|[<-|[<-|[<-|[]]]]]; (apply cops_base_set || apply cops_t24_set).
  Qed.

  Lemma net_stored m v (u u1 : U) : base_set_net_cop m v u = (u1, Ok tt) ->
    sd_net_cop (side_of m u1) = given_cops (sd_n (side_of m u)) v.
  Proof.
    unfold base_set_net_cop. intros H. apply sbind_ok in H. destruct H as (u2 & [] & H1 & H2).
    unfold on_side, smod in H1. injection H1 as <-.
    assert (K : keeps (fun u => sd_net_cop (side_of m u)) (derive_from_net_cop (T:=R) m)).
    { unfold derive_from_net_cop, set_comp. keep; destruct m; reflexivity. }
    rewrite (keeps_ok _ _ _ _ _ K H2). destruct m, v; reflexivity.
  Qed.

  Lemma repeat_none n i (x : R) : ~ entry (repeat None n) i x.
  Proof.
    unfold entry. revert i. induction n as [|n IH]; intros [|i]; cbn; try discriminate. apply IH.
  Qed.

  Lemma cooling_keeps_heating v o :
    keeps u_h (opt_set (base_set_net_cop (T:=R) Cooling) v)
    /\ keeps u_h (opt_set (base_set_gross_cop (T:=R) Cooling) o).
  Proof.
    assert (K : forall set f, keeps u_h (set_comp (T:=R) Cooling set f))
      by (intros; unfold set_comp; keep; reflexivity).
    split; apply opt_keeps; intros x;
      unfold base_set_net_cop, base_set_gross_cop, derive_from_net_cop, derive_from_gross_cop;
      repeat (apply K || keep_step); reflexivity.
  Qed.

  Lemma unset_before M a (u : U) : plain_model sol M -> DXUnit psy sol M a = Ok u ->
    exists v0 v1 v2 v3, unset (u_c v0) /\ unset (u_h v0)
      /\ opt_set (base_set_net_cop Cooling) (a_net_ccop a) v0 = (v1, Ok tt)
      /\ opt_set (base_set_gross_cop Cooling) (a_gross_ccop a) v1 = (v2, Ok tt)
      /\ opt_set (base_set_net_cop Heating) (a_net_hcop a) v2 = (v3, Ok tt)
      /\ opt_set (base_set_gross_cop Heating) (a_gross_hcop a) v3 = (u, Ok tt).
  Proof.
    intros HM H. unfold DXUnit in H. apply rbind_ok in H. destruct H as (u0 & H0 & H).
    destruct (plain_cops sol M HM) as [P1 P2].
    unfold ex in H. destruct (finish_unit psy sol M a u0) as [u' [[]|e]] eqn:E; [|discriminate].
    injection H as ->. unfold finish_unit in E. rewrite P1, P2 in E.
    apply sbind_ok in E. destruct E as (s1 & [] & E1 & E).
    apply sbind_ok in E. destruct E as (s2 & [] & E2 & E).
    apply sbind_ok in E. destruct E as (s3 & [] & E3 & E).
    apply sbind_ok in E. destruct E as (s4 & w & E4 & E).
    apply sbind_ok in E. destruct E as (s5 & [] & E5 & E).
    apply sbind_ok in E. destruct E as (s6 & [] & E6 & E).
    apply sbind_ok in E. destruct E as (s7 & cr & E7 & E).
    apply sbind_ok in E. destruct E as (s8 & [] & E8 & E).
    apply sbind_ok in E. destruct E as (s9 & [] & E9 & E).
    apply sbind_ok in E. destruct E as (s10 & [] & E10 & E).
    apply sbind_ok in E. destruct E as (s11 & [] & E11 & E).
    apply sbind_ok in E. destruct E as (s12 & [] & E12 & E).
    assert (C : cops s12 = cops s1).
    { apply slift_ok in E12. destruct E12 as [-> _]. apply slift_ok in E11. destruct E11 as [-> _].
      rewrite (keeps_ok cops _ _ _ _ (cops_sensible M) E10).
      rewrite (keeps_ok cops _ _ _ _ cops_conditions E9).
      injection E8 as <-. transitivity (cops s7); [reflexivity|].
      assert (S7 : s7 = s6).
      { destruct (a_crank a); [injection E7 as -> _; reflexivity|].
        apply sread_ok in E7. destruct E7 as [-> _]. reflexivity. }
      rewrite S7.
      rewrite (keeps_ok cops _ _ _ _ (keeps_fold _ _ _ (cops_gross Heating)) E6).
      rewrite (keeps_ok cops _ _ _ _ (keeps_fold _ _ _ (cops_gross Cooling)) E5).
      injection E4 as <- _.
      assert (K : keeps cops (reset_full_esp (T:=R))) by (unfold reset_full_esp; keepp).
      rewrite (keeps_ok cops _ _ _ _ K E3).
      exact (keeps_ok cops _ _ _ _ (cops_set M _ _ _ HM) E2). }
    assert (X : unset (u_c s1) /\ unset (u_h s1)).
    { unfold set_placeholder_arrays, smod in E1. injection E1 as <-.
      split; intros i x; repeat split; cbn; apply repeat_none. }
    unfold cops, of_side in C. injection C as _ C1 C2 C3 C4 _ C5 C6 C7 C8.
    apply sbind_ok in E. destruct E as (v1 & [] & F1 & E).
    apply sbind_ok in E. destruct E as (v2 & [] & F2 & E).
    apply sbind_ok in E. destruct E as (v3 & [] & F3 & E).
    apply sbind_ok in E. destruct E as (v4 & [] & F4 & E).
    apply sbind_ok in E. destruct E as (v5 & [] & F5 & E).
    apply sread_ok in F5. destruct F5 as [-> _].
    apply sbind_ok in E. destruct E as (v6 & [] & F6 & E).
    apply sread_ok in F6. destruct F6 as [-> _].
    apply sread_ok in E. destruct E as [-> _].
    exists s12, v1, v2, v3. unfold unset in *.
    rewrite C2, C3, C4, C6, C7, C8. destruct X as [X1 X2]. eauto 10.
  Qed.

  Lemma cop_lists M a (u : U) m l : plain_model sol M -> DXUnit psy sol M a = Ok u ->
    gross_input m a = Some (Many l) ->
    sd_gross_cop (side_of m u) = map Some l
    /\ match net_input m a with
       | Some v => sd_net_cop (side_of m u) = given_cops (sd_n (side_of m u)) v
       | None => unset (side_of m u)
       end.
  Proof.
    intros HM H G. destruct (unset_before M a u HM H) as (v0 & v1 & v2 & v3 & U1 & U2 & H1 & H2 & H3 & H4).
    assert (Ex : exists w0 w1 w2, unset (side_of m w0)
       /\ opt_set (base_set_net_cop m) (net_input m a) w0 = (w1, Ok tt)
       /\ opt_set (base_set_gross_cop m) (gross_input m a) w1 = (w2, Ok tt)
       /\ side_of m u = side_of m w2).
    { destruct m.
      - exists v0, v1, v2. split; [exact U1|]. split; [exact H1|]. split; [exact H2|].
        destruct (heating_keeps_cooling (a_net_hcop a) (a_gross_hcop a)) as [K1 K2].
        cbn [side_of]. rewrite <- (keeps_ok u_c _ _ _ _ K1 H3). exact (keeps_ok u_c _ _ _ _ K2 H4).
      - exists v2, v3, u. split; [|split; [exact H3|]; split; [exact H4|]; reflexivity].
        destruct (cooling_keeps_heating (a_net_ccop a) (a_gross_ccop a)) as [K1 K2].
        cbn [side_of]. rewrite (keeps_ok u_h _ _ _ _ K2 H2), (keeps_ok u_h _ _ _ _ K1 H1). exact U2. }
    destruct Ex as (w0 & w1 & w2 & Un & S1 & S2 & E). rewrite E. clear E.
    rewrite G in S2. cbn [opt_set] in S2. unfold base_set_gross_cop, on_side, smod in S2. injection S2 as <-.
    split; [destruct m; reflexivity|].
    destruct (net_input m a) as [v|]; cbn [opt_set] in S1.
    - pose proof (net_stored m v w0 w1 S1) as N.
      assert (K : keeps (fun u => sd_n (side_of m u)) (base_set_net_cop (T:=R) m v)).
      { unfold base_set_net_cop, derive_from_net_cop, set_comp. keep; destruct m; reflexivity. }
      pose proof (keeps_ok _ _ _ _ _ K S1) as N2. cbv beta in N2. rewrite <- N2 in N.
      destruct m; exact N.
    - injection S1 as <-. destruct m; exact Un.
  Qed.
End CopLists.
