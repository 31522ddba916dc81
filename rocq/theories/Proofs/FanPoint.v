(** Lemmas for C119: operating point of PSC fans. *)
From Coq Require Import Reals QArith Lra Lia List Psatz.
From Verif.Base Require Import Num Res Tac.
From Verif.Model Require Import Units Util Fan.
From Verif.Spec Require Import FanSpec FanPointSpec.
From Verif.Proofs Require Import UnitsR FanProofs FanProofs2.
Import ListNotations.
Local Open Scope R_scope.

Section Point.
  Variable tol : R.
  Variable sol : solvers R.
  Hypothesis sound : sound_brentq tol sol.
  Variables (airflows : list R) (esp eff a0 : R) (f f' : fan R) (ops : list fan_op).
  Hypothesis built : make_psc_fan airflows esp eff = Ok f.
  Hypothesis first : geti airflows 0 = Ok a0.
  Hypothesis a0_pos : 0 < a0.
  Hypothesis esp_pos : 0 < esp.
  Hypothesis ran : sfold run_op ops f = (f', Ok tt).

  Lemma psc_design : f_design_esp f = esp /\ geti (f_airflow f) 0 = Ok a0.
  Proof.
    unfold make_psc_fan in built. apply init_fan_facts in built as (a1 & A1 & A2 & A3 & A4 & A5 & A6 & _).
    split; [assumption|]. rewrite A4. exact first.
  Qed.

  Lemma curve : 0 < f_sysk f' /\ f_design_esp f' = esp /\ system_flow f' esp = Ok a0
    /\ system_flow f' (3 * esp) = Ok (sqrt 3 * a0) /\ (forall p, 0 <= p -> system_flow f' p = Ok (sqrt p / f_sysk f')).
  Proof.
    destruct psc_design as (D1 & D2).
    assert (M : made f) by (econstructor 2; eauto).
    destruct (made_system_curve f f' ops a0 M D2 a0_pos ltac:(rewrite D1; exact esp_pos) ran) as (K & E & P).
    rewrite D1 in *. split; [exact K|]. split; [exact E|].
    assert (S : system_flow f' esp = Ok a0) by (rewrite <- P; apply flow_of_pressure; lra).
    split; [exact S|]. split; [|intros p Hp; apply system_flow_ok; lra].
    rewrite system_flow_ok in S |- * by lra. apply Ok_inj in S. f_equal.
    rewrite sqrt_mult by lra. rewrite <- S. field. lra.
  Qed.

  Lemma fan_curve i a : geti (f_airflow f') i = Ok a ->
    (forall p, airflow_at f' i p = Ok (Rmax (a + airflow_reduction esp - airflow_reduction p) 0))
    /\ forall p, airflow sol f' i (Some p) = Ok (Rmax (a + airflow_reduction esp - airflow_reduction p) 0).
  Proof.
    intros E. destruct (psc_ops airflows esp eff f f' ops built ran) as ((K & R1 & A & _) & _).
    destruct curve as (_ & D & _).
    assert (Ef : geti (f_free_airflow f') i = Ok (a + airflow_reduction esp)).
    { rewrite A, geti_map, E. cbn. rewrite R1, D. reflexivity. }
    assert (X : forall p, airflow sol f' i (Some p) = Ok (Rmax (a + airflow_reduction esp - airflow_reduction p) 0))
      by (intros p; apply psc_airflow_eq; assumption).
    split; [|exact X]. intros p. specialize (X p). unfold airflow in X. rewrite K in X. exact X.
  Qed.

  Lemma red0 : airflow_reduction (T:=R) 0 = 0.
  Proof. rewrite airflow_reduction_eq. rewrite Rmult_0_l, exp_0. ring. Qed.

  Lemma red_pos : 0 <= airflow_reduction (T:=R) esp.
  Proof. rewrite <- red0. apply airflow_reduction_mono. lra. Qed.

  (** At most one meeting point for each speed, ordered by the airflow asked for. *)
  Lemma meets_order i j a b p q p' q' : geti (f_airflow f') i = Ok a -> geti (f_airflow f') j = Ok b ->
    meets sol f' i p q -> meets sol f' j p' q' -> a <= b -> p <= p' /\ q <= q' /\ (a < b -> 0 < q' -> p < p' /\ q < q').
  Proof.
    intros Ea Eb (P & Q & S) (P' & Q' & S') L.
    destruct curve as (K & _ & _ & _ & Sf).
    rewrite (proj2 (fan_curve i a Ea)) in Q. rewrite (proj2 (fan_curve j b Eb)) in Q'.
    apply Ok_inj in Q, Q'.
    assert (Lt : forall x y u v, 0 <= x -> x < y -> system_flow f' x = Ok u -> system_flow f' y = Ok v -> u < v)
      by (intros x y u v H1 H2; apply (system_flow_mono f' x y u v K H1 H2)).
    assert (A : p <= p').
    { destruct (Rle_lt_dec p p') as [X|X]; [exact X|exfalso].
      pose proof (Lt p' p q' q P' X S' S) as Y.
      assert (Z : airflow_reduction p' <= airflow_reduction p) by (apply airflow_reduction_mono; lra).
      revert Q Q'. unfold Rmax. repeat destruct Rle_dec; lra. }
    split; [exact A|].
    assert (B : q <= q').
    { destruct A as [A|A]; [pose proof (Lt p p' q q' P A S S'); lra|].
      subst p'. rewrite S in S'. apply Ok_inj in S'. lra. }
    split; [exact B|]. intros Ls Pq.
    destruct A as [A|A]; [split; [exact A|apply (Lt p p' q q' P A S S')]|]. exfalso.
    subst p'. rewrite S in S'. apply Ok_inj in S'. subst q'.
    revert Q Q'. unfold Rmax. repeat destruct Rle_dec; lra.
  Qed.

  Lemma point i a x : geti (f_airflow f') i = Ok a -> operating_pressure sol f' i = Ok x ->
    exists p q, meets sol f' i p q /\ Rabs (x - p) <= tol
      /\ forall p' q', meets sol f' i p' q' -> p' = p /\ q' = q.
  Proof.
    intros Ea H. pose proof H as H0. unfold operating_pressure in H.
    destruct sound as (S1 & _). apply S1 in H as (p & B & G & T). rewrite lit0_R in B.
    destruct curve as (K & D & _ & _ & Sf).
    rewrite (proj1 (fan_curve i a Ea)) in G. rewrite (Sf p) in G by lra. cbn [rbind nsub RNum] in G. apply Ok_inj in G.
    exists p, (sqrt p / f_sysk f').
    assert (M : meets sol f' i p (sqrt p / f_sysk f')).
    { split; [lra|]. split; [rewrite (proj2 (fan_curve i a Ea)); f_equal; lra|apply Sf; lra]. }
    split; [exact M|]. split; [exact T|]. intros p' q' M'.
    destruct (meets_order i i a a _ _ _ _ Ea Ea M M' (Rle_refl a)) as (X1 & X2 & _).
    destruct (meets_order i i a a _ _ _ _ Ea Ea M' M (Rle_refl a)) as (Y1 & Y2 & _). split; lra.
  Qed.

  Lemma red_cont x : continuity_pt (airflow_reduction (T:=R)) x.
  Proof.
    assert (E : forall y, airflow_reduction (T:=R) y = AIRFLOW_COEFFICIENT * (exp (y * AIRFLOW_EXP_COEFFICIENT) - 1))
      by (intros y; apply airflow_reduction_eq).
    assert (C : continuity_pt (fun y => AIRFLOW_COEFFICIENT * (exp (y * AIRFLOW_EXP_COEFFICIENT) - 1)) x).
    { apply continuity_pt_mult; [apply continuity_pt_const; intros ? ?; reflexivity|].
      apply continuity_pt_minus; [|apply continuity_pt_const; intros ? ?; reflexivity].
      apply (continuity_pt_comp (fun y => y * AIRFLOW_EXP_COEFFICIENT) exp).
      - apply continuity_pt_mult; [apply derivable_continuous_pt, derivable_pt_id|apply continuity_pt_const; intros ? ?; reflexivity].
      - apply derivable_continuous_pt, derivable_pt_exp. }
    intros eps He. destruct (C eps He) as (d & Hd & Hx). exists d. split; [exact Hd|].
    intros y Hy. rewrite !E. apply Hx. exact Hy.
  Qed.

  Lemma residual_cont a x : 0 <= x ->
    continuity_pt (fun p => Rmax (a + airflow_reduction esp - airflow_reduction p) 0 - sqrt p / f_sysk f') x.
  Proof.
    intros Hx. destruct curve as (K & _).
    apply (continuity_pt_minus (fun p => Rmax (a + airflow_reduction esp - airflow_reduction p) 0) (fun p => sqrt p / f_sysk f')).
    - set (g := fun p => a + airflow_reduction esp - airflow_reduction p).
      assert (Cg : continuity_pt g x).
      { unfold g. apply continuity_pt_minus; [apply continuity_pt_const; intros ? ?; reflexivity|apply red_cont]. }
      assert (C2 : continuity_pt (fun p => (g p + Rabs (g p)) * (1 / 2)) x).
      { apply continuity_pt_mult; [|apply continuity_pt_const; intros ? ?; reflexivity].
        apply continuity_pt_plus; [exact Cg|].
        apply (continuity_pt_comp g Rabs); [exact Cg|apply Rcontinuity_abs]. }
      assert (E : forall p, Rmax (g p) 0 = (g p + Rabs (g p)) * (1 / 2)).
      { intros p. unfold Rmax, Rabs. destruct Rle_dec, Rcase_abs; lra. }
      intros eps He. destruct (C2 eps He) as (d & Hd & Hy). exists d. split; [exact Hd|].
      intros y Y. specialize (Hy y Y). fold (g y) (g x). rewrite !E. exact Hy.
    - unfold Rdiv. apply (continuity_pt_mult sqrt (fun _ => / f_sysk f')).
      + apply continuity_pt_sqrt. exact Hx.
      + apply continuity_pt_const. intros ? ?. reflexivity.
  Qed.

  Lemma found i a : geti (f_airflow f') i = Ok a -> 0 <= a <= sqrt 3 * a0 ->
    exists x, operating_pressure sol f' i = Ok x.
  Proof.
    intros Ea La. destruct curve as (K & D & _ & S3 & Sf). destruct sound as (_ & _ & S). unfold operating_pressure.
    apply S with (fun p => Rmax (a + airflow_reduction esp - airflow_reduction p) 0 - sqrt p / f_sysk f').
    - rewrite lit0_R, lit3_R, D. cbn [nmul RNum]. lra.
    - intros x B. rewrite lit0_R in B. split; [|apply residual_cont; lra].
      rewrite (proj1 (fan_curve i a Ea)), (Sf x) by lra. reflexivity.
    - rewrite lit0_R, lit3_R, D. cbn [nmul RNum]. rewrite sqrt_0, red0.
      rewrite (Sf (3 * esp)) in S3 by lra. apply Ok_inj in S3. rewrite S3.
      pose proof red_pos. replace (0 / f_sysk f') with 0 by (field; lra).
      assert (U : 0 <= Rmax (a + airflow_reduction esp - 0) 0) by apply Rmax_r.
      assert (Z : airflow_reduction esp <= airflow_reduction (3 * esp)) by (apply airflow_reduction_mono; lra).
      assert (V : Rmax (a + airflow_reduction esp - airflow_reduction (3 * esp)) 0 <= sqrt 3 * a0).
      { assert (0 <= sqrt 3) by apply sqrt_pos. assert (0 <= sqrt 3 * a0) by nra. unfold Rmax. destruct Rle_dec; lra. }
      nra.
  Qed.

  (** Compared with the design point. *)
  Lemma design_side i a p q : geti (f_airflow f') i = Ok a -> meets sol f' i p q -> 0 <= a ->
    (a <= a0 -> p <= esp /\ a <= q <= a0) /\ (a0 <= a -> esp <= p /\ a0 <= q <= a).
  Proof.
    intros Ea (P & Q & S) Pa. destruct curve as (K & _ & S0 & _ & _).
    rewrite (proj2 (fan_curve i a Ea)) in Q. apply Ok_inj in Q.
    split; intros L.
    - assert (A : p <= esp).
      { destruct (Rle_lt_dec p esp) as [X|X]; [exact X|exfalso].
        pose proof (system_flow_mono f' esp p a0 q K ltac:(lra) X S0 S).
        assert (Z : airflow_reduction esp <= airflow_reduction p) by (apply airflow_reduction_mono; lra).
        revert Q. unfold Rmax. destruct Rle_dec; lra. }
      split; [exact A|].
      assert (Z : airflow_reduction p <= airflow_reduction esp) by (apply airflow_reduction_mono; lra).
      split; [revert Q; unfold Rmax; destruct Rle_dec; lra|].
      destruct A as [A|A]; [pose proof (system_flow_mono f' p esp q a0 K P A S S0); lra|].
      subst p. rewrite S in S0. apply Ok_inj in S0. lra.
    - assert (A : esp <= p).
      { destruct (Rle_lt_dec esp p) as [X|X]; [exact X|exfalso].
        pose proof (system_flow_mono f' p esp q a0 K P X S S0).
        assert (Z : airflow_reduction p <= airflow_reduction esp) by (apply airflow_reduction_mono; lra).
        revert Q. unfold Rmax. destruct Rle_dec; lra. }
      split; [exact A|].
      assert (Z : airflow_reduction esp <= airflow_reduction p) by (apply airflow_reduction_mono; lra).
      split; [|revert Q; unfold Rmax; destruct Rle_dec; lra].
      destruct A as [A|A]; [pose proof (system_flow_mono f' esp p a0 q K ltac:(lra) A S0 S); lra|].
      subst p. rewrite S in S0. apply Ok_inj in S0. lra.
  Qed.
End Point.
