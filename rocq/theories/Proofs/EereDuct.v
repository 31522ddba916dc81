(** Lemmas for C121: EERE fans in their duct system. *)
From Coq Require Import Reals QArith Lra Lia List Psatz.
From Verif.Base Require Import Num Res Tac.
From Verif.Model Require Import Units Util Fan.
From Verif.Spec Require Import FanSpec EereSpec.
From Verif.Proofs Require Import UnitsR FanProofs FanProofs2 FanProofs3 Eere Eere2.
Import ListNotations.
Local Open Scope R_scope.

(** * The two curves, in cfm, at the pressure esp * t^2 *)
Definition gap (m : motor) (a0 esp r t : R) : R :=
  a0 * r + flow_added m (esp * t ^ 2) - flow_added m (esp * r ^ 2) - a0 * t.

Lemma sqrt3 : 0 <= sqrt 3 <= 1.7321.
Proof.
  split; [apply sqrt_pos|]. rewrite <- (sqrt_pow2 1.7321) by lra. apply sqrt_le_1_alt. lra.
Qed.

Lemma gap_sign m a0 esp r t : 0 < esp <= 9 -> 925 * esp <= a0 -> 0 <= r <= sqrt 3 -> 0 <= t <= sqrt 3 ->
  exists b, b < 0 /\ gap m a0 esp r t = (t - r) * b.
Proof.
  intros He Ha Hr Ht. pose proof sqrt3 as S. pose proof (sqrt_sqrt 3 ltac:(lra)) as S2.
  set (s := sqrt 3) in *. clearbody s.
  assert (Hu : 0 <= t + r <= 3.4642) by lra.
  assert (Hv : 0 <= t ^ 2 + r ^ 2 <= 6) by nra.
  assert (Falls : forall c d, 0 <= c <= 267 -> 0 <= d ->
    (t + r) * (c * esp - d * esp ^ 2 * (t ^ 2 + r ^ 2)) - a0 < 0).
  { intros c d Hc Hd.
    assert (0 <= d * esp ^ 2 * (t ^ 2 + r ^ 2)).
    { apply Rmult_le_pos; [apply Rmult_le_pos; [exact Hd|apply pow2_ge_0]|lra]. }
    set (z := d * esp ^ 2 * (t ^ 2 + r ^ 2)) in *. clearbody z.
    assert (c * esp <= 267 * esp) by (apply Rmult_le_compat_r; lra).
    assert ((t + r) * (c * esp - z) <= (t + r) * (267 * esp)) by (apply Rmult_le_compat_l; lra).
    assert ((t + r) * (267 * esp) <= 3.4642 * (267 * esp)) by (apply Rmult_le_compat_r; lra). lra. }
  destruct m;
    [ exists ((t + r) * (49 * esp - 570 * esp ^ 2 * (t ^ 2 + r ^ 2)) - a0)
    | exists ((t + r) * (49 * esp - 570 * esp ^ 2 * (t ^ 2 + r ^ 2)) - a0)
    | exists ((t + r) * (267 * esp - 338 * esp ^ 2 * (t ^ 2 + r ^ 2)) - a0)
    | exists ((t + r) * esp * (- 456 + 8 * (esp * (t ^ 2 + r ^ 2))) - a0)
    | exists ((t + r) * esp * (- 456 + 8 * (esp * (t ^ 2 + r ^ 2))) - a0)
    | exists ((t + r) * (99 * esp - 103 * esp ^ 2 * (t ^ 2 + r ^ 2)) - a0)
    | exists ((t + r) * (99 * esp - 103 * esp ^ 2 * (t ^ 2 + r ^ 2)) - a0) ];
    (split; [|unfold gap, flow_added; ring]);
    try (apply Falls; lra).
  all: assert (V : esp * (t ^ 2 + r ^ 2) <= 9 * 6) by (apply Rmult_le_compat; lra);
    set (v := esp * (t ^ 2 + r ^ 2)) in *; clearbody v;
    assert (0 <= (t + r) * esp) by (apply Rmult_le_pos; lra); nra.
Qed.

(** * The fan *)
Section Duct.
  Variables (m : motor) (flows : list R) (a0 esp : R) (f : fan R).
  Hypothesis F : fan_of m flows a0 esp f.
  Hypothesis a0_pos : 0 < a0.
  Hypothesis esp_pos : 0 < esp.

  Lemma eere_curve : 0 < f_sysk f /\ f_design_esp f = fr_inH2O esp /\ f_class f = EEREFan (class_of m)
    /\ forall x, 0 <= x -> system_flow f x = Ok (fr_cfm (a0 * sqrt (x / fr_inH2O esp))).
  Proof.
    destruct F as (M & E0). pose proof cfm_pos as C. pose proof inH2O_pos as I.
    pose proof (geti_map fr_cfm flows 0 a0 E0) as G0.
    assert (Q : 0 < fr_cfm a0) by (unfold fr_cfm; cbn [nmul RNum]; nra).
    assert (P : 0 < fr_inH2O esp) by (unfold fr_inH2O; cbn [nmul RNum]; nra).
    assert (D : f_design_esp f = fr_inH2O esp /\ geti (f_airflow f) 0 = Ok (fr_cfm a0)).
    { pose proof M as H. unfold make_eere_fan in H. inv_ok.
      match goal with H : init_fan _ _ _ _ _ _ = Ok _ |- _ =>
        apply init_fan_facts in H as (a1 & A1 & A2 & A3 & A4 & A5 & A6 & _) end.
      subst f. cbn [w_size f_design_esp f_airflow]. split; [assumption|]. rewrite A4. exact G0. }
    destruct D as (D1 & D2).
    destruct (made_system_curve f f [] (fr_cfm a0) (made_eere _ _ _ _ M) D2 Q ltac:(rewrite D1; exact P) eq_refl) as (K & _ & S).
    split; [exact K|]. split; [exact D1|].
    split; [destruct (make_eere_ok _ _ _ _ _ M G0) as (l & w & _ & _ & _ & _ & X & _); exact X|].
    intros x Hx.
    assert (S1 : system_flow f (fr_inH2O esp) = Ok (fr_cfm a0)).
    { rewrite <- D1, <- S. apply flow_of_pressure; [exact K|lra]. }
    rewrite system_flow_ok in S1 |- * by lra. apply Ok_inj in S1. f_equal.
    rewrite sqrt_div_alt by exact P. pose proof (sqrt_lt_R0 _ P) as SP.
    replace (fr_cfm (a0 * (sqrt x / sqrt (fr_inH2O esp)))) with (fr_cfm a0 * (sqrt x / sqrt (fr_inH2O esp)))
      by (unfold fr_cfm, Rdiv; cbn [nmul RNum]; ring).
    rewrite <- S1. field. split; lra.
  Qed.

  (** The pressure at which the curves are compared, and the comparison. *)
  Lemma eere_gap sol i a x : geti flows i = Ok a -> 0 <= x ->
    airflow_at f i x = Ok (fr_cfm (flow_at m a a0 esp (x / inH2O)))
    /\ fr_cfm (flow_at m a a0 esp (x / inH2O)) - fr_cfm (a0 * sqrt (x / fr_inH2O esp))
       = fr_cfm (gap m a0 esp (a / a0) (sqrt (x / fr_inH2O esp)))
    /\ airflow sol f i (Some x) = Ok (fr_cfm (flow_at m a a0 esp (x / inH2O))).
  Proof.
    intros Ea Hx. pose proof cfm_pos as C. pose proof inH2O_pos as I.
    destruct eere_curve as (_ & _ & K & _).
    destruct (fan_numbers sol m flows esp f a0 i a (x / inH2O) F Ea) as (A & _).
    replace (fr_inH2O (x / inH2O)) with x in A by (unfold fr_inH2O; cbn [nmul RNum]; field; lra).
    split; [unfold airflow in A; rewrite K in A; exact A|]. split; [|exact A].
    assert (P : 0 < fr_inH2O esp) by (unfold fr_inH2O; cbn [nmul RNum]; nra).
    assert (T : esp * sqrt (x / fr_inH2O esp) ^ 2 = x / inH2O).
    { replace (sqrt (x / fr_inH2O esp) ^ 2) with (sqrt (x / fr_inH2O esp) * sqrt (x / fr_inH2O esp)) by ring.
      rewrite sqrt_sqrt by (apply Rmult_le_pos; [exact Hx|left; apply Rinv_0_lt_compat; exact P]).
      unfold fr_inH2O. cbn [nmul RNum]. field. lra. }
    unfold gap. rewrite T. replace (a0 * (a / a0)) with a by (field; lra).
    unfold flow_at, fr_cfm. cbn [nmul RNum]. ring.
  Qed.

  Lemma ratio_of x r : 0 <= r -> 0 <= x -> sqrt (x / fr_inH2O esp) = r -> x = fr_inH2O (esp * r ^ 2).
  Proof.
    intros Hr Hx E. pose proof inH2O_pos as I.
    assert (P : 0 < fr_inH2O esp) by (unfold fr_inH2O; cbn [nmul RNum]; nra).
    assert (Q : 0 <= x / fr_inH2O esp) by (apply Rmult_le_pos; [exact Hx|left; apply Rinv_0_lt_compat; exact P]).
    pose proof (sqrt_sqrt _ Q) as S. rewrite E in S.
    assert (x = r * r * fr_inH2O esp) by (rewrite S; field; lra).
    rewrite H. unfold fr_inH2O. cbn [nmul RNum]. ring.
  Qed.

  Lemma eere_point tol sol i a : sound_brentq tol sol -> esp <= 9 -> 925 * esp <= a0 ->
    geti flows i = Ok a -> 0 <= a <= sqrt 3 * a0 ->
    exists x, operating_pressure sol f i = Ok x /\ Rabs (x - fr_inH2O (esp * (a / a0) ^ 2)) <= tol.
  Proof.
    intros (S1 & _ & S3) He Ha Ea La. pose proof cfm_pos as C. pose proof inH2O_pos as I. pose proof sqrt3 as T3.
    destruct eere_curve as (K & D & Kc & Sf).
    assert (P : 0 < fr_inH2O esp) by (unfold fr_inH2O; cbn [nmul RNum]; nra).
    set (E := fr_inH2O esp) in *.
    assert (Hr : 0 <= a / a0 <= sqrt 3).
    { split; [apply Rmult_le_pos; [lra|left; apply Rinv_0_lt_compat; exact a0_pos]|].
      apply Rmult_le_reg_r with a0; [exact a0_pos|]. replace (a / a0 * a0) with a by (field; lra). lra. }
    set (r := a / a0) in *.
    assert (Tb : forall x, 0 <= x <= 3 * E -> 0 <= sqrt (x / E) <= sqrt 3).
    { intros x Hx. split; [apply sqrt_pos|]. apply sqrt_le_1_alt.
      apply Rmult_le_reg_r with E; [exact P|]. replace (x / E * E) with x by (field; lra). lra. }
    assert (Val : forall x, 0 <= x ->
      (let! q := airflow_at f i x in let! s := system_flow f x in Ok (q - s)) = Ok (fr_cfm (gap m a0 esp r (sqrt (x / E))))).
    { intros x Hx. destruct (eere_gap sol i a x Ea Hx) as (A & B & _). rewrite A, (Sf x Hx). cbn [rbind nsub RNum].
      f_equal. exact B. }
    assert (Found : exists x, operating_pressure sol f i = Ok x).
    { unfold operating_pressure. rewrite D, lit0_R, lit3_R.
      apply (S3 _ (fun x => fr_cfm (gap m a0 esp r (sqrt (x / E))))).
      - cbn [nmul RNum]. lra.
      - cbn [nmul RNum]. intros x Hx. split; [apply Val; lra|].
        apply (continuity_pt_comp (fun x => sqrt (x / E)) (fun t => fr_cfm (gap m a0 esp r t))).
        + apply (continuity_pt_comp (fun x => x / E) sqrt).
          * apply derivable_continuous_pt. unfold Rdiv. reg.
          * apply continuity_pt_sqrt. apply Rmult_le_pos; [lra|left; apply Rinv_0_lt_compat; exact P].
        + apply derivable_continuous_pt. unfold fr_cfm, gap. cbn [nmul RNum]. generalize (cfm (T:=R)). intros k.
          unfold flow_added. destruct m; reg.
      - cbn [nmul RNum].
        destruct (gap_sign m a0 esp r (sqrt (0 / E)) ltac:(lra) Ha Hr ltac:(apply Tb; lra)) as (b & B1 & B2).
        destruct (gap_sign m a0 esp r (sqrt (3 * E / E)) ltac:(lra) Ha Hr ltac:(apply Tb; lra)) as (b' & B1' & B2').
        rewrite B2, B2'. replace (3 * E / E) with 3 by (field; lra). replace (0 / E) with 0 by (field; lra). rewrite sqrt_0.
        unfold fr_cfm. cbn [nmul RNum].
        assert (0 <= (0 - r) * b) by nra. assert ((sqrt 3 - r) * b' <= 0) by nra.
        assert (0 <= (0 - r) * b * cfm) by (apply Rmult_le_pos; lra).
        assert ((sqrt 3 - r) * b' * cfm <= 0) by nra. nra. }
    destruct Found as (x & X). exists x. split; [exact X|].
    unfold operating_pressure in X. apply S1 in X as (p & B & Z & T). rewrite lit0_R, lit3_R, D in B. cbn [nmul RNum] in B.
    pose proof (eq_trans (eq_sym (Val p ltac:(lra))) Z) as Z0. clear Z. rename Z0 into Z. apply Ok_inj in Z.
    destruct (gap_sign m a0 esp r (sqrt (p / E)) ltac:(lra) Ha Hr ltac:(apply Tb; lra)) as (b & B1 & B2).
    assert (Eq : sqrt (p / E) = r).
    { rewrite B2 in Z. unfold fr_cfm in Z. cbn [nmul RNum] in Z.
      apply Rmult_integral in Z as [Z|Z]; [|lra]. apply Rmult_integral in Z as [Z|Z]; lra. }
    rewrite <- (ratio_of p r) by (try apply Hr; try lra; exact Eq). exact T.
  Qed.
End Duct.

(** * A small fan *)
Lemma small_fan tol sol (f : fan R) : sound_brentq tol sol -> fan_of PSCWithControls [50] 50 0.39 f ->
  operating_pressure sol f 0 = Err ValueError.
Proof.
  intros (_ & S2 & _) F. pose proof cfm_pos as C. pose proof inH2O_pos as I.
  destruct (eere_curve _ _ _ _ _ F ltac:(lra) ltac:(lra)) as (K & D & Kc & Sf).
  assert (P : 0 < fr_inH2O (T:=R) 0.39) by (unfold fr_inH2O; cbn [nmul RNum]; nra).
  set (E := fr_inH2O 0.39) in *.
  assert (Val : forall x, 0 <= x ->
    (let! q := airflow_at f 0 x in let! s := system_flow f x in Ok (q - s)) = Ok (fr_cfm (gap PSCWithControls 50 0.39 (50 / 50) (sqrt (x / E))))).
  { intros x Hx. destruct (eere_gap _ _ _ _ _ F ltac:(lra) ltac:(lra) sol 0 50 x eq_refl Hx) as (A & B & _). rewrite A, (Sf x Hx). cbn [rbind nsub RNum].
    f_equal. exact B. }
  unfold operating_pressure. eapply S2.
  - rewrite lit0_R. apply Val. lra.
  - rewrite lit3_R, D. cbn [nmul RNum]. apply Val. lra.
  - replace (3 * E / E) with 3 by (field; lra). replace (0 / E) with 0 by (field; lra). rewrite sqrt_0.
    replace (50 / 50) with 1 by lra. unfold fr_cfm. cbn [nmul RNum].
    assert (A : gap PSCWithControls 50 0.39 1 0 < 0) by (unfold gap, flow_added; lra).
    assert (B : gap PSCWithControls 50 0.39 1 (sqrt 3) < 0).
    { unfold gap, flow_added. pose proof (sqrt_sqrt 3 ltac:(lra)) as Q. pose proof (sqrt_pos 3).
      replace (sqrt 3 ^ 2) with (sqrt 3 * sqrt 3) by ring. rewrite Q. nra. }
    set (u := gap _ _ _ _ 0) in *. set (v := gap _ _ _ _ (sqrt 3)) in *. clearbody u v.
    assert (u * cfm < 0) by nra. assert (v * cfm < 0) by nra. nra.
Qed.
