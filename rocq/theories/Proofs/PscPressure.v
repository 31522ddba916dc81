(** Lemmas for C122: PSC fans against pressure. *)
From Coq Require Import Reals QArith Lra Lia List Psatz.
From Verif.Base Require Import Num Res Tac.
From Verif.Model Require Import Units Util Fan.
From Verif.Spec Require Import FanSpec FanRatioSpec FanPointSpec.
From Verif.Proofs Require Import UnitsR FanProofs FanProofs2 FanProofs3 FanRatio FanPoint FanPoint2.
Import ListNotations.
Local Open Scope R_scope.

Lemma loss_rises p p' : p < p' -> psc_loss p < psc_loss p'.
Proof.
  intros L. unfold psc_loss. pose proof cfm_pos. pose proof inH2O_pos.
  assert (C : 0 < fr_cfm (T:=R) 10) by (unfold fr_cfm; cbn [nmul RNum]; nra).
  assert (D : 0 < fr_per_inH2O (T:=R) 5.35) by (unfold fr_per_inH2O; cbn [nmul ndiv RNum]; apply Rdiv_lt_0_compat; lra).
  apply Rmult_lt_compat_l; [exact C|].
  assert (exp (p * fr_per_inH2O 5.35) < exp (p' * fr_per_inH2O 5.35)) by (apply exp_increasing; apply Rmult_lt_compat_r; assumption).
  lra.
Qed.
Lemma loss_0 : psc_loss 0 = 0.
Proof. unfold psc_loss. rewrite Rmult_0_l, exp_0. ring. Qed.
Lemma loss_is p : airflow_reduction (T:=R) p = psc_loss p.
Proof.
  unfold airflow_reduction, psc_loss, AIRFLOW_COEFFICIENT, AIRFLOW_EXP_COEFFICIENT.
  rewrite lit1_R. assert (A : lit (T:=R) 10 = 10) by (rnum; lra).
  assert (B : lit (T:=R) 5.35 = 5.35) by (rnum; lra). rewrite A, B. reflexivity.
Qed.

Section Psc.
  Variables (sol : solvers R) (airflows : list R) (esp eff a0 : R) (f f' : fan R) (ops : list fan_op).
  Hypothesis Mk : make_psc_fan airflows esp eff = Ok f.
  Hypothesis G0 : geti airflows 0 = Ok a0.
  Hypothesis a0_pos : 0 < a0.
  Hypothesis esp_pos : 0 < esp.
  Hypothesis Fk : Forall keeps_first ops.
  Hypothesis O : sfold run_op ops f = (f', Ok tt).

  Notation r a := ((a + psc_loss esp) / (a0 + psc_loss esp)).

  Lemma whole_pos : 0 < a0 + psc_loss esp.
  Proof. pose proof (loss_rises 0 esp esp_pos). rewrite loss_0 in H. lra. Qed.

  (** The rotational speed is a straight line up to the pressure that stops the flow. *)
  Lemma psc_line i a : geti (f_airflow f') i = Ok a -> 0 < a + psc_loss esp ->
    exists bp, 0 < bp /\ psc_loss bp = a + psc_loss esp
      /\ forall p, p <= bp -> rotational_speed sol f' i (Some p)
           = Ok (fr_rpm 1040 * r a + (fr_rpm 1100 - fr_rpm 1040 * r a) * p / bp).
  Proof.
    intros G Pa.
    destruct (psc_speeds sol airflows esp eff f f' ops a0 i a Mk G0 Fk O G) as (_ & X).
    destruct (X Pa) as (S0 & bp & B1 & B2 & B3). exists bp. split; [exact B1|]. split; [exact B2|].
    destruct (psc_ops airflows esp eff f f' ops Mk O) as ((K & _) & _).
    (* the block pressure stored is bp, the free speed stored is that at no pressure *)
    pose proof Mk as H. unfold make_psc_fan in H.
    apply (rel_init _ _ _ _ _ _ _ eff) in H as (a1 & G1 & Z & J & Ne); [|auto].
    rewrite G0 in G1. injection G1 as <-.
    destruct (rel_ops _ _ _ _ _ _ _ _ _ _ J Ne Fk O) as ((K' & D & Rd & E0 & Hh & Hr & He & Hf & Hs & Hb & Hv) & Ne').
    rewrite (loss_is esp) in *.
    set (b := ln ((a + psc_loss esp) / AIRFLOW_COEFFICIENT + 1) / AIRFLOW_EXP_COEFFICIENT).
    assert (Gb : geti (f_block_pressure f') i = Ok b) by (rewrite Hb, (geti_map _ _ _ _ G); reflexivity).
    assert (Gv : geti (f_free_speed f') i = Ok (fr_rpm 1040 * r a)).
    { rewrite Hv, (geti_map _ _ _ _ G).
      assert (A : lit (T:=R) 1040 = 1040) by (rnum; lra). rewrite A. reflexivity. }
    assert (A11 : lit (T:=R) 1100 = 1100) by (rnum; lra).
    assert (C1 : 0 < AIRFLOW_COEFFICIENT (T:=R)).
    { unfold AIRFLOW_COEFFICIENT, fr_cfm. pose proof cfm_pos. cbn [nmul RNum].
      assert (A : lit (T:=R) 10 = 10) by (rnum; lra). rewrite A. nra. }
    assert (C2 : 0 < AIRFLOW_EXP_COEFFICIENT (T:=R)).
    { unfold AIRFLOW_EXP_COEFFICIENT, fr_per_inH2O. pose proof inH2O_pos. cbn [nmul ndiv RNum].
      assert (A : lit (T:=R) 5.35 = 5.35) by (rnum; lra). rewrite A.
      apply Rdiv_lt_0_compat; lra. }
    assert (P1 : 0 < (a + psc_loss esp) / AIRFLOW_COEFFICIENT) by (apply Rdiv_lt_0_compat; lra).
    assert (Lb : psc_loss b = a + psc_loss esp).
    { rewrite <- (loss_is b). rewrite airflow_reduction_eq. unfold b.
      replace (ln ((a + psc_loss esp) / AIRFLOW_COEFFICIENT + 1) / AIRFLOW_EXP_COEFFICIENT * AIRFLOW_EXP_COEFFICIENT)
        with (ln ((a + psc_loss esp) / AIRFLOW_COEFFICIENT + 1)) by (field; lra).
      rewrite exp_ln by lra. field. lra. }
    assert (Eb : b = bp).
    { destruct (Rtotal_order b bp) as [W|[W|W]]; [|exact W|]; pose proof (loss_rises _ _ W); lra. }
    intros p Hp. unfold rotational_speed. rewrite K. unfold esp_or_operating. cbn [rbind].
    rewrite Gb. cbn [rbind]. rewrite Gv, Eb, A11. cbn [rbind].
    match goal with |- context [if ?b then _ else _] => destruct b eqn:Eg end.
    { exfalso. cbn [nltb RNum] in Eg. apply Rltb_true in Eg. lra. }
    rewrite pydiv_ok by lra. cbn [rbind]. reflexivity.
  Qed.

  Lemma psc_values i a p : geti (f_airflow f') i = Ok a ->
    airflow sol f' i (Some p) = Ok (Rmax (a + psc_loss esp - psc_loss p) 0)
    /\ power sol f' i (Some p) = Ok (Rmax (a + psc_loss esp - psc_loss p) 0 * (eff * (0.7 + 0.3 * r a)))
    /\ efficacy sol f' i (Some p) = Ok (eff * (0.7 + 0.3 * r a)).
  Proof.
    intros G. destruct (psc_speeds sol airflows esp eff f f' ops a0 i a Mk G0 Fk O G) as (E & _).
    destruct (psc_ops airflows esp eff f f' ops Mk O) as ((K & _) & _).
    pose proof (fan_curve sol airflows esp eff a0 f f' ops Mk G0 a0_pos esp_pos O i a G) as (_ & A).
    specialize (A p). rewrite !loss_is in A. split; [exact A|]. split; [|apply E].
    unfold power. rewrite K, A, (E (Some p)). reflexivity.
  Qed.

  Lemma against i a : 0 < eff -> geti (f_airflow f') i = Ok a -> 0 < a + psc_loss esp ->
    exists bp, 0 < bp
    /\ (forall p, bp <= p -> airflow sol f' i (Some p) = Ok 0 /\ power sol f' i (Some p) = Ok 0
          /\ efficiency sol f' i (Some p) = Err ZeroDivisionError)
    /\ (forall p p', 0 <= p < p' -> p' <= bp ->
          exists q q' w w' s s', airflow sol f' i (Some p) = Ok q /\ airflow sol f' i (Some p') = Ok q'
          /\ power sol f' i (Some p) = Ok w /\ power sol f' i (Some p') = Ok w'
          /\ rotational_speed sol f' i (Some p) = Ok s /\ rotational_speed sol f' i (Some p') = Ok s'
          /\ 0 <= q' < q /\ 0 <= w' < w
          /\ (1040 * r a < 1100 -> s < s') /\ (1100 < 1040 * r a -> s' < s))
    /\ forall p p', 0 <= p < p' -> p' < bp ->
          exists e e', efficiency sol f' i (Some p) = Ok e /\ efficiency sol f' i (Some p') = Ok e' /\ 0 <= e < e'.
  Proof.
    intros He G Pa. destruct (psc_line i a G Pa) as (bp & B1 & B2 & B3). exists bp. split; [exact B1|].
    pose proof whole_pos as Wp.
    assert (Rp : 0 < r a) by (apply Rdiv_lt_0_compat; assumption).
    assert (Ep : 0 < eff * (0.7 + 0.3 * r a)) by (apply Rmult_lt_0_compat; lra).
    destruct (psc_ops airflows esp eff f f' ops Mk O) as ((K & _) & _).
    set (e0 := eff * (0.7 + 0.3 * r a)) in *.
    assert (Le : forall x y, x <= y -> psc_loss x <= psc_loss y).
    { intros x y [W|W]; [left; apply loss_rises; exact W|subst; lra]. }
    split; [|split].
    - intros p Hp. destruct (psc_values i a p G) as (A & P & _). fold e0 in P.
      rewrite (Rmax_right (a + psc_loss esp - psc_loss p) 0) in A, P by (specialize (Le _ _ Hp); lra).
      rewrite Rmult_0_l in P. split; [exact A|]. split; [exact P|].
      unfold efficiency, fluid_power, esp_or_operating. rewrite A, P. cbn [rbind].
      unfold pydiv. rewrite lit0_R. cbn [neqb RNum]. destruct (Reqb_spec 0 0); [reflexivity|contradiction].
    - intros p p' L Hp. destruct (psc_values i a p G) as (A & P & _). destruct (psc_values i a p' G) as (A' & P' & _).
      fold e0 in P, P'. pose proof (loss_rises p p' ltac:(lra)) as L1. pose proof (Le p' bp Hp) as L2.
      rewrite Rmax_left in A, A', P, P' by lra.
      do 6 eexists. split; [exact A|]. split; [exact A'|]. split; [exact P|]. split; [exact P'|].
      split; [apply B3; lra|]. split; [apply B3; lra|]. split; [lra|]. split; [nra|].
      assert (Rpm : forall x, fr_rpm (T:=R) x = x * fr_rpm 1) by (intros x; unfold fr_rpm; rnum; field; try apply PI_neq0).
      assert (R1 : 0 < fr_rpm (T:=R) 1).
      { unfold fr_rpm. rnum. pose proof PI_RGT_0. nra || lra. }
      rewrite (Rpm 1100), (Rpm 1040). set (k := fr_rpm 1) in *. clearbody k.
      assert (Q : p / bp < p' / bp) by (apply Rmult_lt_compat_r; [apply Rinv_0_lt_compat; exact B1|lra]).
      set (x := r a) in *. clearbody x.
      replace (1040 * k * x + (1100 * k - 1040 * k * x) * p / bp) with (k * (1040 * x + (1100 - 1040 * x) * (p / bp))) by (field; lra).
      replace (1040 * k * x + (1100 * k - 1040 * k * x) * p' / bp) with (k * (1040 * x + (1100 - 1040 * x) * (p' / bp))) by (field; lra).
      split; intros Hx; apply Rmult_lt_compat_l; try exact R1; nra.
    - intros p p' L Hp. destruct (psc_values i a p G) as (A & P & _). destruct (psc_values i a p' G) as (A' & P' & _).
      fold e0 in P, P'. pose proof (loss_rises p p' ltac:(lra)) as L1. pose proof (loss_rises p' bp Hp) as L2.
      rewrite Rmax_left in A, A', P, P' by lra.
      assert (V : forall z q, airflow sol f' i (Some z) = Ok q -> power sol f' i (Some z) = Ok (q * e0) -> 0 < q ->
        efficiency sol f' i (Some z) = Ok (z / e0)).
      { intros z q Hq Hw Pq. unfold efficiency, fluid_power, esp_or_operating. rewrite Hq, Hw. cbn [rbind].
        rewrite pydiv_ok by nra. f_equal. cbn [nmul RNum]. field. split; lra. }
      exists (p / e0), (p' / e0). split; [apply (V p _ A P); lra|]. split; [apply (V p' _ A' P'); lra|].
      assert (Ie : 0 < / e0) by (apply Rinv_0_lt_compat; exact Ep).
      unfold Rdiv. split; [apply Rmult_le_pos; lra|apply Rmult_lt_compat_r; lra].
  Qed.

  (** In the ducts, more air takes more power. *)
  Lemma more_power i j a b x x' w w' : sound_brentq 0 sol -> 0 < eff ->
    geti (f_airflow f') i = Ok a -> geti (f_airflow f') j = Ok b -> 0 <= a < b ->
    operating_pressure sol f' i = Ok x -> operating_pressure sol f' j = Ok x' ->
    power sol f' i None = Ok w -> power sol f' j None = Ok w' -> w < w'.
  Proof.
    intros S He Ga Gb L X X' Wa Wb. pose proof whole_pos as Wp.
    destruct (psc_ops airflows esp eff f f' ops Mk O) as ((K & _) & _).
    destruct (psc_speeds sol airflows esp eff f f' ops a0 i a Mk G0 Fk O Ga) as (E & _).
    destruct (psc_speeds sol airflows esp eff f f' ops a0 j b Mk G0 Fk O Gb) as (E' & _).
    destruct (exact_point sol S airflows esp eff a0 f f' ops Mk G0 a0_pos esp_pos O i a x Ga X) as (q & Q & M).
    destruct (exact_point sol S airflows esp eff a0 f f' ops Mk G0 a0_pos esp_pos O j b x' Gb X') as (q' & Q' & M').
    destruct (runs_higher sol S airflows esp eff a0 f f' ops Mk G0 a0_pos esp_pos O i j a b x x' q q' Ga Gb L X X' Q Q') as (_ & Lq).
    unfold power in Wa, Wb. rewrite K, Q, (E None) in Wa. rewrite K, Q', (E' None) in Wb. cbn [rbind] in Wa, Wb.
    apply Ok_inj in Wa, Wb. subst w w'. cbn [nmul RNum].
    assert (Qp : 0 <= q).
    { destruct M as (_ & A & _). pose proof (fan_curve sol airflows esp eff a0 f f' ops Mk G0 a0_pos esp_pos O i a Ga) as (_ & B).
      rewrite (B x) in A. apply Ok_inj in A. rewrite <- A. apply Rmax_r. }
    assert (Rr : 0 < r a < r b).
    { pose proof (loss_rises 0 esp esp_pos) as Z. rewrite loss_0 in Z. split; [apply Rdiv_lt_0_compat; lra|].
      apply Rmult_lt_compat_r; [apply Rinv_0_lt_compat; exact Wp|lra]. }
    set (ra := r a) in *. set (rb := r b) in *. clearbody ra rb.
    assert (e1 : 0 < eff * (0.7 + 0.3 * ra)) by (apply Rmult_lt_0_compat; lra).
    assert (e2 : eff * (0.7 + 0.3 * ra) < eff * (0.7 + 0.3 * rb)) by (apply Rmult_lt_compat_l; lra).
    set (u := eff * (0.7 + 0.3 * ra)) in *. set (v := eff * (0.7 + 0.3 * rb)) in *. clearbody u v.
    apply Rle_lt_trans with (q * v); [apply Rmult_le_compat_l; lra|apply Rmult_lt_compat_r; lra].
  Qed.
End Psc.
