(** Lemmas for C116: Title 24 heating COP at different outdoor temperatures. *)
From Coq Require Import Reals QArith Lra Psatz Lia List Bool String.
From Verif.Base Require Import Num Res Tac.
From Verif.Model Require Import Units Util Psychrometrics Conditions Defrost Fan Tabular Unit
  NREL BaseModel Title24 DXUnit.
From Verif.Spec Require Import NrelSpec ModelSpec RatingSpec Title24Spec WeatherSpec T24CopSpec.
From Verif.Proofs Require Import UnitsR NrelProofs ToyUnit T24Cache ModelProofs T24Cooling T24Heating ToyT24 T24Lines HeatRatio Weather.
Import ListNotations.
Local Open Scope R_scope.

Lemma lines_order a b g d t1 t2 t t' :
  0 < g + d * t1 -> 0 < g + d * t2 -> 0 < g + d * t -> 0 < g + d * t' -> t1 < t2 -> t < t' ->
  same_order ((a + b * t1) / (g + d * t1)) ((a + b * t2) / (g + d * t2))
             ((a + b * t) / (g + d * t)) ((a + b * t') / (g + d * t')).
Proof.
  intros P1 P2 P P' T T'.
  assert (D : forall x y, 0 < g + d * x -> 0 < g + d * y ->
    (a + b * y) / (g + d * y) - (a + b * x) / (g + d * x)
    = (b * g - a * d) * ((y - x) / ((g + d * x) * (g + d * y)))) by (intros; field; lra).
  assert (S : forall x y, 0 < g + d * x -> 0 < g + d * y -> x < y -> 0 < (y - x) / ((g + d * x) * (g + d * y))).
  { intros. apply Rdiv_lt_0_compat; [lra|apply Rmult_lt_0_compat; assumption]. }
  pose proof (D _ _ P1 P2) as D1. pose proof (D _ _ P P') as D2.
  pose proof (S _ _ P1 P2 T) as S1. pose proof (S _ _ P P' T') as S2.
  set (k1 := (t2 - t1) / _) in *. set (k2 := (t' - t) / _) in *. clearbody k1 k2.
  set (n1 := (a + b * t1) / _) in *. set (n2 := (a + b * t2) / _) in *.
  set (n := (a + b * t) / _) in *. set (n' := (a + b * t') / _) in *. clearbody n1 n2 n n'.
  set (w := b * g - a * d) in *. clearbody w. clear - D1 D2 S1 S2.
  unfold same_order. repeat split; intros H.
  - assert (0 < w) by nra. nra.
  - assert (w = 0) by nra. subst w. lra.
  - assert (w < 0) by nra. nra.
Qed.

Section Lines.
  Variable sol : solvers R.
  Variable u : dxunit R.
  Notation M := (Title24DXModel sol).

  Lemma steady_lines c1 p1 : gross_steady_state_heating_power M u (Some c1) = Ok p1 ->
    exists a b g d, forall c, c_speed c = c_speed c1 ->
      (forall q, gross_steady_state_heating_capacity M u (Some c) = Ok q -> q = a + b * out_F c)
      /\ (forall p, gross_steady_state_heating_power M u (Some c) = Ok p -> p = g + d * out_F c).
  Proof.
    intros H. apply ghp24, steady_inv in H. destruct H as (x & q17 & q47 & k47 & w & X & A & B & K & W & _).
    exists (q17 - (q47 - q17) / 30 * 17 - w), ((q47 - q17) / 30),
      (q17 / x - (q47 / k47 - q17 / x) / 30 * 17 - w), ((q47 / k47 - q17 / x) / 30).
    intros c S. rewrite <- S in *. unfold out_F. rewrite F_of_degF. split.
    - intros q Q. rewrite (t24_steady_line _ _ _ _ _ _ _ Q A B W). unfold clear_line. field.
    - intros p P. apply ghp24, steady_inv in P. destruct P as (x' & r17 & r47 & l47 & w' & X' & A' & B' & K' & W' & ->).
      unfold anchor47, entry in *.
      assert (x' = x) by congruence. assert (r47 = q47) by congruence. assert (l47 = k47) by congruence.
      assert (w' = w) by congruence. assert (r17 = q17) by (eapply anchor17_fun; eauto). subst.
      unfold clear_line. set (e := q17 / x). set (e' := q47 / k47). field.
  Qed.

  Lemma gihp24 c p : gross_integrated_heating_power M u (Some c) = Ok p ->
    fresh (t24_integrated_power sol) u c = Ok p.
  Proof. intros H. exact H. Qed.

  Lemma frost_lines c1 p1 : gross_integrated_heating_power M u (Some c1) = Ok p1 ->
    exists a b g d, forall c, c_speed c = c_speed c1 -> in_defrost (u_defrost u) c = true -> 17 < out_F c < 45 ->
      (forall q, gross_integrated_heating_capacity M u (Some c) = Ok q -> q = a + b * out_F c)
      /\ (forall p, gross_integrated_heating_power M u (Some c) = Ok p -> p = g + d * out_F c).
  Proof.
    intros H. apply gihp24, integrated_inv in H.
    destruct H as (x & y & rest & q17 & q35 & q47 & k47 & e35 & w & X & Y & A & C & B & K & W & I & _).
    exists (q17 - (q35 - q17) / 18 * 17 - w), ((q35 - q17) / 18),
      (q17 / x - (e35 - q17 / x) / 18 * 17 - w), ((e35 - q17 / x) / 18).
    intros c S F T. rewrite <- S in *. unfold out_F in *. rewrite F_of_degF in *. split.
    - intros q Q. rewrite (t24_integrated_line _ _ _ _ _ _ _ _ Q A C B W), F. unfold frosted_line.
      destruct Rlt_dec; [|lra]. destruct Rlt_dec; [|lra]. field.
    - intros p P. apply gihp24, integrated_inv in P.
      destruct P as (x' & y' & rest' & r17 & r35 & r47 & l47 & f35 & w' & X' & Y' & A' & C' & B' & K' & W' & I' & ->).
      unfold anchor47, entry in *.
      assert (x' = x) by congruence. assert (y' = y) by congruence. assert (r47 = q47) by congruence.
      assert (l47 = k47) by congruence. assert (w' = w) by congruence.
      assert (r17 = q17) by (eapply anchor17_fun; eauto). assert (r35 = q35) by (eapply anchor35_fun; eauto). subst.
      assert (f35 = e35) by (eapply input35_fun; eauto). subst.
      rewrite F. unfold frosted_line. destruct Rlt_dec; [|lra]. destruct Rlt_dec; [|lra].
      set (e := q17 / x). field.
  Qed.

  Lemma power_on_line i t1 p1 n1 t2 p2 n2 t3 p3 n3 :
    steady_point M u i t1 p1 n1 -> steady_point M u i t2 p2 n2 -> steady_point M u i t3 p3 n3 ->
    on_one_line t1 p1 t2 p2 t3 p3.
  Proof.
    intros (c1 & S1 & <- & _ & E1 & _) (c2 & S2 & <- & _ & E2 & _) (c3 & S3 & <- & _ & E3 & _).
    destruct (steady_lines c1 p1 E1) as (a & b & g & d & L). subst i.
    rewrite (proj2 (L c1 eq_refl) p1 E1), (proj2 (L c2 S2) p2 E2), (proj2 (L c3 S3) p3 E3).
    unfold on_one_line. ring.
  Qed.

  Lemma steady_direction i t1 p1 n1 t2 p2 n2 t p n t' p' n' :
    steady_point M u i t1 p1 n1 -> steady_point M u i t2 p2 n2 -> t1 < t2 ->
    steady_point M u i t p n -> steady_point M u i t' p' n' -> t < t' -> same_order n1 n2 n n'.
  Proof.
    intros (c1 & S1 & <- & P1 & E1 & N1) (c2 & S2 & <- & P2 & E2 & N2) T
      (c & S & <- & P & E & N) (c' & S' & <- & P' & E' & N') T'.
    destruct (steady_lines c1 p1 E1) as (a & b & g & d & L). subst i.
    assert (V : forall k r m, c_speed k = c_speed c1 -> gross_steady_state_heating_power M u (Some k) = Ok r ->
      gross_steady_state_heating_cop M u (Some k) = Ok m -> r = g + d * out_F k /\ m = (a + b * out_F k) / (g + d * out_F k)).
    { intros k r m Sk R Mk. destruct (L k Sk) as (LQ & LP). split; [apply LP, R|].
      apply ratio_inv in Mk as (q & r' & Q & R' & _ & ->). rewrite (LQ q Q), (LP r' R'). reflexivity. }
    destruct (V _ _ _ eq_refl E1 N1) as (-> & ->). destruct (V _ _ _ S2 E2 N2) as (-> & ->).
    destruct (V _ _ _ S E N) as (-> & ->). destruct (V _ _ _ S' E' N') as (-> & ->).
    apply lines_order; assumption.
  Qed.

  Lemma frost_direction i t1 p1 n1 t2 p2 n2 t p n t' p' n' :
    frost_point M u i t1 p1 n1 -> frost_point M u i t2 p2 n2 -> t1 < t2 ->
    frost_point M u i t p n -> frost_point M u i t' p' n' -> t < t' -> same_order n1 n2 n n'.
  Proof.
    intros (c1 & S1 & <- & B1 & P1 & F1 & E1 & N1) (c2 & S2 & <- & B2 & P2 & F2 & E2 & N2) T
      (c & S & <- & B & P & F & E & N) (c' & S' & <- & B' & P' & F' & E' & N') T'.
    destruct (frost_lines c1 p1 E1) as (a & b & g & d & L). subst i.
    assert (V : forall k r m, c_speed k = c_speed c1 -> in_defrost (u_defrost u) k = true -> 17 < out_F k < 45 ->
      gross_integrated_heating_power M u (Some k) = Ok r ->
      gross_integrated_heating_cop M u (Some k) = Ok m -> r = g + d * out_F k /\ m = (a + b * out_F k) / (g + d * out_F k)).
    { intros k r m Sk Fk Tk R Mk. destruct (L k Sk Fk Tk) as (LQ & LP). split; [apply LP, R|].
      apply ratio_inv in Mk as (q & r' & Q & R' & _ & ->). rewrite (LQ q Q), (LP r' R'). reflexivity. }
    destruct (V _ _ _ eq_refl F1 B1 E1 N1) as (-> & ->). destruct (V _ _ _ S2 F2 B2 E2 N2) as (-> & ->).
    destruct (V _ _ _ S F B E N) as (-> & ->). destruct (V _ _ _ S' F' B' E' N') as (-> & ->).
    apply lines_order; assumption.
  Qed.
End Lines.
