(** Rated pressures and the pressures of the rating conditions. *)
From Coq Require Import Reals QArith Lra Lia List Bool String.
From Verif.Base Require Import Num Res Tac.
From Verif.Model Require Import Units Util Psychrometrics Conditions Fan Tabular Unit NREL BaseModel Title24 Resnet DXUnit.
From Verif.Spec Require Import NrelSpec DefaultSpec RatedSpec ResnetFanSpec.
From Verif.Proofs Require Import MakeCond UnitProofs3 ResnetFan2.
Import ListNotations.
Local Open Scope R_scope.

Section Pressure.
  Variable psy : psychro R.
  Variable sol : solvers R.
  Notation U := (dxunit R).
  Notation M := (RESNETDXModel psy sol).
  Variables (a : dxargs R) (u : U).
  Hypothesis B : DXUnit psy sol M a = Ok u.
  Hypothesis F : a_fan a = None.

  Lemma fan_motor : exists f k ac ah, u_fan u = Some f /\ motor_for a u k /\ f_class f = motor_fan k
      /\ entry (sd_airflow (u_c u)) (sd_full (u_c u)) ac /\ entry (sd_airflow (u_h u)) (sd_full (u_h u)) ah
      /\ forall p, airflow sol f 0 p = Ok (Rmax ac ah).
  Proof.
    destruct (resnet_fan psy sol a u B F) as (f & k & P & ac & ah & H1 & H2 & H3 & H4 & H5 & H6 & H7 & H8).
    destruct H3 as [H3 _]. exists f, k, ac, ah. auto 10.
  Qed.
  Lemma fan_speeds m i q : nth_error (sd_net_cap (side_of m u)) i = Some q ->
    exists f x p w, u_fan u = Some f /\ wanted_flow m a i x /\ fan_serves sol f (side_of m u) i (q * x) p w.
  Proof.
    destruct (resnet_fan psy sol a u B F) as (f & k & P & ac & ah & H1 & H2 & H3 & H4 & H5 & H6 & H7 & H8).
    intros H. destruct (H8 m i q H) as (x & p & w & v0 & G1 & G2 & _). exists f, x, p, w. auto.
  Qed.
  Lemma pressures m i q p c o r : nth_error (sd_net_cap (side_of m u)) i = Some q ->
    entry (sd_esp (side_of m u)) i p -> make_condition psy m u i o r = Ok c ->
    i <> sd_full (side_of m u) -> c_external_static_pressure c = Some p.
  Proof.
    destruct (resnet_fan psy sol a u B F) as (f & k & P & ac & ah & H1 & H2 & H3 & H4 & H5 & H6 & H7 & H8).
    destruct (stored_pressure psy sol a u B) as (P' & E1 & E2).
    assert (P' = P) by congruence. subst P'.
    intros H Hp C Ni. destruct (H8 m i q H) as (x & p' & w & v0 & G1 & (J1 & J2 & _) & G3 & G45). cbv zeta in G45. destruct G45 as [G4 G5].
    destruct (condition_pressure psy m u i o r c P E1 C) as (v & full & A1 & A2 & A3 & A4).
    unfold entry in *. destruct (Nat.eqb_spec i (sd_full (side_of m u))); [contradiction|].
    rewrite A4. f_equal. assert (v = q * x) by congruence. assert (full = v0) by congruence.
    assert (Q : p' = p) by congruence. rewrite <- Q, G5. subst v full. reflexivity.
  Qed.
  Lemma full_pressure m m' v v' v0 p c o r P : m <> m' ->
    let full := sd_full (side_of m u) in
    entry (sd_airflow (side_of m u)) full v -> entry (sd_airflow (side_of m u)) 0 v0 ->
    entry (sd_airflow (side_of m' u)) (sd_full (side_of m' u)) v' ->
    entry (sd_esp (side_of m u)) full p -> make_condition psy m u full o r = Ok c ->
    get_rated_full_flow_rated_pressure u = Ok P -> 0 < P -> 0 < v -> 0 < v0 ->
    exists p', c_external_static_pressure c = Some p' /\ p' = P * ((v / v0) * (v / v0))
      /\ (v0 = Rmax v v' -> p = p') /\ (v0 < Rmax v v' -> p < p') /\ (Rmax v v' < v0 -> p' < p).
  Proof.
    destruct (resnet_fan psy sol a u B F) as (f & k & P0 & ac & ah & H1 & H2 & H3 & H4 & H5 & H6 & H7 & H8).
    destruct (stored_pressure psy sol a u B) as (P' & E1 & E2).
    intros Nm fl V V0 V' Hp C HP P1 V1 V2. assert (P' = P) by congruence. assert (P0 = P) by congruence. subst P' P0.
    destruct (condition_pressure psy m u fl o r c P E1 C) as (v1 & full & A1 & A2 & A3 & A4).
    assert (Hq : exists q, nth_error (sd_net_cap (side_of m u)) fl = Some q).
    { apply make_condition_inv in C. destruct C as (q & _ & _ & _ & _ & _ & _ & Hq & _). exists q. exact Hq. }
    destruct Hq as (q & Hq).
    destruct (H8 m fl q Hq) as (x & p' & w & v2 & G1 & (J1 & J2 & _) & G3 & G45). cbv zeta in G45. destruct G45 as [G4 G5].
    assert (Fl : Nat.eqb fl (sd_full (side_of m u)) = true) by apply Nat.eqb_refl. rewrite Fl in G4, G5. unfold entry in *.
    assert (full = v0) by congruence. assert (v1 = v) by congruence. assert (Qx : q * x = v) by congruence. rewrite Qx in *.
    assert (Qp : p' = p) by congruence. rewrite Qp in G5. clear Qp. subst full v1.
    assert (D : Rmax ac ah = Rmax v v').
    { subst fl. destruct m, m'; try contradiction; cbn [side_of] in *.
      - assert (ac = v) by congruence; assert (ah = v') by congruence; congruence.
      - assert (ah = v) by congruence; assert (ac = v') by congruence. subst. apply Rmax_comm. }
    rewrite D in *. set (x0 := Rmax v v') in *. assert (X : 0 < x0) by (apply Rlt_le_trans with v; [exact V1|apply Rmax_l]).
    exists (P * ((v / v0) * (v / v0))). split; [exact A4|]. split; [reflexivity|].
    rewrite G5. clear - V1 V2 P1 X.
    assert (K : forall y z, 0 < y -> 0 < z -> y < z -> P * ((v / z) * (v / z)) < P * ((v / y) * (v / y))).
    { intros y z Y Z L. apply Rmult_lt_compat_l; [exact P1|].
      assert (A : v / z < v / y).
      { unfold Rdiv. apply Rmult_lt_compat_l; [exact V1|]. apply Rinv_lt_contravar; [apply Rmult_lt_0_compat; assumption|exact L]. }
      assert (A' : 0 < v / z) by (apply Rdiv_lt_0_compat; assumption). apply Rmult_le_0_lt_compat; lra. }
    split; [intros ->; reflexivity|]. split; intros L; apply K; assumption.
  Qed.
End Pressure.
