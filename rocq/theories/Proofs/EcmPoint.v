(** Lemmas for C120: ECM fans against pressure and in their duct system. *)
From Coq Require Import Reals QArith Lra Lia List Psatz.
From Verif.Base Require Import Num Res Tac.
From Verif.Model Require Import Units Util Fan.
From Verif.Spec Require Import FanSpec FanRatioSpec FanSpeedSpec FanPointSpec.
From Verif.Proofs Require Import UnitsR FanProofs FanProofs2 FanProofs3 FanProofs4 FanRatio FanSpeed.
Import ListNotations.
Local Open Scope R_scope.

Section Ecm.
  Variables (sol : solvers R) (airflows : list R) (esp eff : R) (mx : option R) (f f' : fan R) (ops : list fan_op)
    (a0 : R).
  Hypothesis Mk : make_ecm_fan airflows esp eff mx = Ok f.
  Hypothesis G0 : geti airflows 0 = Ok a0.
  Hypothesis F : Forall keeps_first ops.
  Hypothesis O : sfold run_op ops f = (f', Ok tt).
  Hypothesis Pe : fr_W_per_cfm_inH2O 0.235 * esp <= eff.
  Hypothesis Pm : forall m, mx = Some m -> 0 < m.

  Notation U a p := (ecm_wanted eff esp a a0 p).
  Notation W a p := (ecm_drawn eff esp a a0 p mx).

  Lemma slope_pos : 0 < fr_W_per_cfm_inH2O (T:=R) 0.235.
  Proof. unfold fr_W_per_cfm_inH2O, cfm, inH2O. rnum. lra. Qed.

  Lemma wanted_rises a p p' : 0 < a -> p < p' -> U a p < U a p'.
  Proof.
    intros Ha L. unfold ecm_wanted, ecm_law. pose proof slope_pos as S. set (s := fr_W_per_cfm_inH2O 0.235) in *. clearbody s.
    apply Rmult_lt_compat_l; [exact Ha|]. apply Rplus_lt_compat_l. apply Rmult_lt_compat_l; assumption.
  Qed.
  Lemma wanted_0 a : 0 < a -> 0 <= U a 0.
  Proof.
    intros Ha. unfold ecm_wanted, ecm_law. set (s := fr_W_per_cfm_inH2O 0.235) in *.
    assert (0 <= (eff - s * esp) * (a / a0) ^ 2) by (apply Rmult_le_pos; [lra|apply pow2_ge_0]). nra.
  Qed.
  Lemma wanted_pos a p : 0 < a -> 0 < p -> 0 < U a p.
  Proof. intros Ha Hp. pose proof (wanted_0 a Ha). pose proof (wanted_rises a 0 p Ha Hp). lra. Qed.

  (** The power drawn. *)
  Lemma drawn_le a p : W a p <= U a p.
  Proof. unfold ecm_drawn. destruct mx; [apply Rmin_l|lra]. Qed.
  Lemma drawn_pos a p : 0 < U a p -> 0 < W a p.
  Proof. intros H. unfold ecm_drawn. destruct mx as [m|]; [apply Rmin_pos; auto|exact H]. Qed.
  Lemma drawn_rises a p p' : 0 < a -> p < p' -> W a p <= W a p'.
  Proof.
    intros Ha L. pose proof (wanted_rises a p p' Ha L). unfold ecm_drawn. destruct mx as [m|]; [|lra].
    unfold Rmin. repeat destruct Rle_dec; lra.
  Qed.

  (** The airflow as a function of the pressure. *)
  Definition moved (a p : R) : R := if Req_EM_T p 0 then a else a * sqrt (W a p / U a p).

  Lemma moved_is i a p : geti (f_airflow f') i = Ok a -> 0 < a -> 0 <= p ->
    airflow_at f' i p = Ok (moved a p) /\ airflow sol f' i (Some p) = Ok (moved a p)
    /\ power sol f' i (Some p) = Ok (W a p).
  Proof.
    intros G Ha Hp.
    destruct (ecm_state airflows esp eff mx f f' ops a0 a p i Mk G0 F O G) as (K & _ & _ & Y & _ & Z).
    assert (X : airflow sol f' i (Some p) = Ok (moved a p)).
    { unfold moved. destruct (Req_EM_T p 0) as [E|E].
      - unfold airflow, airflow_at. rewrite K. unfold ecm_airflow_at. rewrite lit0_R. cbn [neqb RNum].
        destruct (Reqb_spec p 0); [exact G|contradiction].
      - pose proof (wanted_pos a p Ha ltac:(lra)) as HU.
        apply (ecm_flow sol airflows esp eff mx f f' ops a0 a p i Mk G0 F O G E HU).
        left. apply drawn_pos. exact HU. }
    split; [|split; [exact X|]].
    - unfold airflow in X. rewrite K in X. exact X.
    - unfold power, esp_or_operating. rewrite K. cbn [rbind]. exact Z.
  Qed.

  Lemma share a p : 0 < U a p -> 0 < W a p / U a p <= 1.
  Proof.
    intros H. pose proof (drawn_pos a p H). pose proof (drawn_le a p).
    assert (E : W a p / U a p * U a p = W a p) by (field; lra).
    split; [apply Rdiv_lt_0_compat; assumption|]. set (z := W a p / U a p) in *. clearbody z. nra.
  Qed.
  Lemma share_falls a p p' : 0 < a -> 0 < p < p' -> W a p' / U a p' <= W a p / U a p
    /\ (forall m, mx = Some m -> m < U a p' -> W a p' / U a p' < W a p / U a p).
  Proof.
    intros Ha L. pose proof (wanted_pos a p Ha ltac:(lra)) as H. pose proof (wanted_pos a p' Ha ltac:(lra)) as H'.
    pose proof (wanted_rises a p p' Ha ltac:(lra)) as R1.
    assert (E : W a p / U a p - W a p' / U a p' = (W a p * U a p' - W a p' * U a p) * (1 / (U a p * U a p'))) by (field; lra).
    assert (I : 0 < 1 / (U a p * U a p')) by (apply Rdiv_lt_0_compat; nra).
    set (z := 1 / (U a p * U a p')) in *. clearbody z.
    assert (A : W a p' * U a p <= W a p * U a p' /\ forall m, mx = Some m -> m < U a p' -> W a p' * U a p < W a p * U a p').
    { unfold ecm_drawn. destruct mx as [m|]; [|split; [lra|discriminate]].
      specialize (Pm m eq_refl). split.
      - unfold Rmin. repeat destruct Rle_dec; nra.
      - intros m' M1 M2. injection M1 as <-. unfold Rmin. repeat destruct Rle_dec; nra. }
    destruct A as (A1 & A2). split; [nra|]. intros m M1 M2. specialize (A2 m M1 M2). nra.
  Qed.

  Lemma moved_bounds a p : 0 < a -> 0 <= p -> 0 < moved a p <= a.
  Proof.
    intros Ha Hp. unfold moved. destruct (Req_EM_T p 0); [lra|].
    destruct (share a p (wanted_pos a p Ha ltac:(lra))) as (S1 & S2).
    assert (0 < sqrt (W a p / U a p)) by (apply sqrt_lt_R0; exact S1).
    assert (sqrt (W a p / U a p) <= 1) by (rewrite <- sqrt_1; apply sqrt_le_1_alt; exact S2). nra.
  Qed.
  Lemma moved_falls a p p' : 0 < a -> 0 <= p < p' -> moved a p' <= moved a p
    /\ (0 < p -> forall m, mx = Some m -> m < U a p' -> moved a p' < moved a p).
  Proof.
    intros Ha L. destruct (Req_dec p 0) as [E|E].
    - subst p. unfold moved at 2 4. destruct (Req_EM_T 0 0); [|contradiction].
      split; [apply moved_bounds; lra|lra].
    - unfold moved. destruct (Req_EM_T p 0), (Req_EM_T p' 0); try lra.
      destruct (share_falls a p p' Ha ltac:(lra)) as (S1 & S2).
      split.
      + apply Rmult_le_compat_l; [lra|]. apply sqrt_le_1_alt. exact S1.
      + intros _ m M1 M2. apply Rmult_lt_compat_l; [exact Ha|]. apply sqrt_lt_1_alt. split; [|apply (S2 m M1 M2)].
        destruct (share a p' (wanted_pos a p' Ha ltac:(lra))). lra.
  Qed.
  Lemma moved_full a p : 0 < a -> 0 <= p -> W a p = U a p -> moved a p = a.
  Proof.
    intros Ha Hp E. unfold moved. destruct (Req_EM_T p 0); [reflexivity|].
    pose proof (wanted_pos a p Ha ltac:(lra)). rewrite E. replace (U a p / U a p) with 1 by (field; lra). rewrite sqrt_1. ring.
  Qed.

  Lemma harder i a p p' w w' q q' : geti (f_airflow f') i = Ok a -> 0 < a -> 0 <= p < p' ->
    power sol f' i (Some p) = Ok w -> power sol f' i (Some p') = Ok w' ->
    airflow sol f' i (Some p) = Ok q -> airflow sol f' i (Some p') = Ok q' ->
    w <= w' /\ q' <= q
    /\ ((forall m, mx = Some m -> U a p' <= m) -> w < w' /\ q' = a /\ q = a)
    /\ (forall m, mx = Some m -> m < U a p' -> w' = m /\ (0 < p -> q' < q))
    /\ forall x x', efficacy sol f' i (Some p) = Ok x -> efficacy sol f' i (Some p') = Ok x' -> x < x'.
  Proof.
    intros G Ha L Hw Hw' Hq Hq'.
    destruct (moved_is i a p G Ha ltac:(lra)) as (X1 & X2 & X3). destruct (moved_is i a p' G Ha ltac:(lra)) as (Y1 & Y2 & Y3).
    rewrite X3 in Hw. rewrite Y3 in Hw'. rewrite X2 in Hq. rewrite Y2 in Hq'. apply Ok_inj in Hw, Hw', Hq, Hq'. subst w w' q q'.
    pose proof (wanted_rises a p p' Ha ltac:(lra)) as R1. pose proof (drawn_rises a p p' Ha ltac:(lra)) as R2.
    destruct (moved_falls a p p' Ha L) as (M1 & M2).
    assert (Free : (forall m, mx = Some m -> U a p' <= m) -> W a p = U a p /\ W a p' = U a p').
    { intros B. unfold ecm_drawn. destruct mx as [m|]; [|split; reflexivity]. specialize (B m eq_refl).
      unfold Rmin. repeat destruct Rle_dec; lra. }
    split; [exact R2|]. split; [exact M1|]. split; [|split].
    - intros B. destruct (Free B) as (E1 & E2). split; [lra|].
      split; apply moved_full; try assumption; lra.
    - intros m B1 B2. split; [|intros P; apply (M2 P m B1 B2)].
      unfold ecm_drawn. rewrite B1. unfold Rmin. destruct Rle_dec; lra.
    - intros x x' E E'.
      assert (K : f_class f' = ECMFlowFan mx) by apply (ecm_state airflows esp eff mx f f' ops a0 a p i Mk G0 F O G).
      assert (Ef : forall z v, 0 <= z -> airflow_at f' i z = Ok (moved a z) -> power sol f' i (Some z) = Ok (W a z) ->
        efficacy sol f' i (Some z) = Ok v -> v = W a z / moved a z).
      { intros z v Hz A B V. unfold efficacy, esp_or_operating in V. unfold power, esp_or_operating in B.
        rewrite K in *. cbn [rbind] in *. rewrite A, B in V. cbn [rbind] in V.
        apply pydiv_inv in V. destruct V as (_ & V). exact V. }
      rewrite (Ef p x ltac:(lra) X1 X3 E), (Ef p' x' ltac:(lra) Y1 Y3 E').
      destruct (moved_bounds a p Ha ltac:(lra)) as (B1 & B2). destruct (moved_bounds a p' Ha ltac:(lra)) as (B3 & B4).
      pose proof (drawn_pos a p' (wanted_pos a p' Ha ltac:(lra))) as Wp.
      assert (W0 : 0 <= W a p).
      { destruct (Req_dec p 0) as [->|N].
        - pose proof (wanted_0 a Ha). unfold ecm_drawn. destruct mx as [m|]; [|lra]. specialize (Pm m eq_refl). unfold Rmin. destruct Rle_dec; lra.
        - left. apply drawn_pos, wanted_pos; [exact Ha|lra]. }
      assert (St : W a p < W a p' \/ moved a p' < moved a p).
      { destruct mx as [m|] eqn:Em.
        - destruct (Rle_lt_dec (U a p') m) as [Z|Z].
          + left. destruct Free as (E1 & E2); [intros m0 H; injection H as <-; exact Z|]. rewrite E1, E2. exact R1.
          + destruct (Req_dec p 0) as [->|N].
            * right. unfold moved at 2. destruct (Req_EM_T 0 0); [|contradiction]. unfold moved. destruct (Req_EM_T p' 0); [lra|].
              rewrite Em. unfold ecm_drawn. rewrite Rmin_right by lra.
              pose proof (Pm m eq_refl) as Pm0.
              assert (S1 : sqrt (m / U a p') < 1).
              { rewrite <- sqrt_1. apply sqrt_lt_1_alt. split; [left; apply Rdiv_lt_0_compat; lra|].
                apply Rmult_lt_reg_r with (U a p'); [lra|]. replace (m / U a p' * U a p') with m by (field; lra). lra. }
              nra.
            * right. apply (M2 ltac:(lra) m eq_refl Z).
        - left. destruct Free as (E1 & E2); [discriminate|]. rewrite E1, E2. exact R1. }
      assert (Q : W a p' / moved a p' - W a p / moved a p
        = (W a p' * moved a p - W a p * moved a p') * (1 / (moved a p * moved a p'))) by (field; lra).
      assert (I : 0 < 1 / (moved a p * moved a p')) by (apply Rdiv_lt_0_compat; nra).
      set (z := 1 / (moved a p * moved a p')) in *. clearbody z.
      assert (N : W a p * moved a p' < W a p' * moved a p).
      { destruct St as [St|St].
        - apply Rle_lt_trans with (W a p * moved a p); [apply Rmult_le_compat_l; lra|apply Rmult_lt_compat_r; lra].
        - apply Rle_lt_trans with (W a p' * moved a p'); [apply Rmult_le_compat_r; lra|apply Rmult_lt_compat_l; lra]. }
      nra.
  Qed.

  (** * In the duct system *)
  Hypothesis a0_pos : 0 < a0.
  Hypothesis esp_pos : 0 < esp.

  Lemma ecm_curve : 0 < f_sysk f' /\ f_design_esp f' = esp /\ system_flow f' esp = Ok a0
    /\ system_flow f' (3 * esp) = Ok (sqrt 3 * a0) /\ (forall p, 0 <= p -> system_flow f' p = Ok (sqrt p / f_sysk f')).
  Proof.
    assert (D : f_design_esp f = esp /\ geti (f_airflow f) 0 = Ok a0).
    { pose proof Mk as H. unfold make_ecm_fan in H. inv_ok.
      apply init_fan_facts in H as (a1 & A1 & A2 & A3 & A4 & A5 & A6 & _). split; [assumption|]. rewrite A4. exact G0. }
    destruct D as (D1 & D2). assert (M : made f) by (econstructor 3; exact Mk).
    destruct (made_system_curve f f' ops a0 M D2 a0_pos ltac:(rewrite D1; exact esp_pos) O) as (K & E & P).
    rewrite D1 in *. split; [exact K|]. split; [exact E|].
    assert (S : system_flow f' esp = Ok a0) by (rewrite <- P; apply flow_of_pressure; lra).
    split; [exact S|]. split; [|intros p Hp; apply system_flow_ok; lra].
    rewrite system_flow_ok in S |- * by lra. apply Ok_inj in S. f_equal.
    rewrite sqrt_mult by lra. rewrite <- S. field. lra.
  Qed.

  Lemma ecm_meets_once i a p q p' q' : geti (f_airflow f') i = Ok a -> 0 < a ->
    meets sol f' i p q -> meets sol f' i p' q' -> p' = p /\ q' = q.
  Proof.
    intros G Ha (P & Q & S) (P' & Q' & S'). destruct ecm_curve as (K & _).
    assert (X : forall x y u v, 0 <= x -> 0 <= y -> airflow sol f' i (Some x) = Ok u -> system_flow f' x = Ok u ->
      airflow sol f' i (Some y) = Ok v -> system_flow f' y = Ok v -> ~ x < y).
    { intros x y u v Hx Hy A1 A2 B1 B2 L.
      pose proof (system_flow_mono f' x y u v K Hx L A2 B2).
      destruct (moved_is i a x G Ha Hx) as (_ & C1 & _). destruct (moved_is i a y G Ha Hy) as (_ & C2 & _).
      rewrite A1 in C1. rewrite B1 in C2. apply Ok_inj in C1, C2. destruct (moved_falls a x y Ha ltac:(lra)). lra. }
    assert (p' = p).
    { pose proof (X p p' q q' P P' Q S Q' S'). pose proof (X p' p q' q P' P Q' S' Q S). lra. }
    split; [assumption|]. subst p'. rewrite S in S'. apply Ok_inj in S'. lra.
  Qed.

  Lemma ecm_point tol i a x : sound_brentq tol sol -> geti (f_airflow f') i = Ok a -> 0 < a ->
    operating_pressure sol f' i = Ok x ->
    exists p q, meets sol f' i p q /\ Rabs (x - p) <= tol
      /\ forall p' q', meets sol f' i p' q' -> p' = p /\ q' = q.
  Proof.
    intros (S1 & _) G Ha H. unfold operating_pressure in H. apply S1 in H as (p & B & E & T). rewrite lit0_R in B.
    destruct ecm_curve as (K & D & _ & _ & Sf). destruct (moved_is i a p G Ha ltac:(lra)) as (X1 & X2 & _).
    rewrite X1 in E. rewrite (Sf p) in E by lra. cbn [rbind nsub RNum] in E. apply Ok_inj in E.
    exists p, (sqrt p / f_sysk f').
    assert (M : meets sol f' i p (sqrt p / f_sysk f')).
    { split; [lra|]. split; [rewrite X2; f_equal; lra|apply Sf; lra]. }
    split; [exact M|]. split; [exact T|]. intros p' q' M'. exact (ecm_meets_once i a _ _ _ _ G Ha M M').
  Qed.

  (** A speed that moves its airflow against the pressure it meets in the ducts runs there. *)
  Lemma ecm_unlimited_point tol i a x : sound_brentq tol sol -> geti (f_airflow f') i = Ok a -> 0 < a ->
    (forall m, mx = Some m -> U a (esp * (a / a0) ^ 2) <= m) ->
    operating_pressure sol f' i = Ok x -> Rabs (x - esp * (a / a0) ^ 2) <= tol.
  Proof.
    intros S G Ha Lim H. destruct (ecm_point tol i a x S G Ha H) as (p & q & M & T & Un).
    destruct ecm_curve as (K & _ & S0 & _ & Sf).
    assert (R0 : 0 < a / a0) by (apply Rdiv_lt_0_compat; assumption).
    set (y := esp * (a / a0) ^ 2) in *.
    assert (Hy : 0 <= y) by (unfold y; apply Rmult_le_pos; [lra|apply pow2_ge_0]).
    assert (M' : meets sol f' i y a).
    { split; [exact Hy|]. split.
      - destruct (moved_is i a y G Ha Hy) as (_ & X & _). rewrite X. f_equal. apply moved_full; [exact Ha|exact Hy|].
        unfold ecm_drawn. destruct mx as [m|]; [|reflexivity]. specialize (Lim m eq_refl). unfold Rmin. destruct Rle_dec; lra.
      - rewrite (Sf y Hy). f_equal. rewrite (Sf esp) in S0 by lra. apply Ok_inj in S0.
        unfold y. rewrite sqrt_mult; [|lra|apply pow2_ge_0]. rewrite sqrt_pow2 by lra.
        replace (sqrt esp * (a / a0) / f_sysk f') with (sqrt esp / f_sysk f' * (a / a0)) by (field; lra).
        rewrite S0. field. lra. }
    destruct (Un _ _ M') as (E & _). rewrite <- E in T. exact T.
  Qed.

  (** A speed within the limit against no pressure, of up to sqrt 3 times the design airflow,
      has an operating point. *)
  Lemma wanted_continuous a x : continuity_pt (fun p => U a p) x.
  Proof.
    unfold ecm_wanted, ecm_law. apply derivable_continuous_pt.
    set (s := fr_W_per_cfm_inH2O 0.235). set (c := (eff - s * esp) * (a / a0) ^ 2). clearbody c s. reg.
  Qed.
  Lemma drawn_continuous a x : continuity_pt (fun p => W a p) x.
  Proof.
    unfold ecm_drawn. destruct mx as [m|]; [|apply wanted_continuous].
    assert (E : forall p, Rmin (U a p) m = (U a p + m - Rabs (U a p - m)) * (/ 2)).
    { intros p. unfold Rmin, Rabs. destruct Rle_dec, Rcase_abs; lra. }
    intros eps He.
    assert (C : continuity_pt (fun p => (U a p + m - Rabs (U a p - m)) * (/ 2)) x).
    { apply (continuity_pt_mult (fun p => U a p + m - Rabs (U a p - m)) (fun _ => / 2));
        [|apply continuity_pt_const; intros y z; reflexivity].
      apply (continuity_pt_minus (fun p => U a p + m) (fun p => Rabs (U a p - m))).
      - apply (continuity_pt_plus (fun p => U a p) (fun _ => m)); [apply wanted_continuous|apply continuity_pt_const; intros y z; reflexivity].
      - apply (continuity_pt_comp (fun p => U a p - m) Rabs); [|apply Rcontinuity_abs].
        apply (continuity_pt_minus (fun p => U a p) (fun _ => m)); [apply wanted_continuous|apply continuity_pt_const; intros y z; reflexivity]. }
    destruct (C eps He) as (d & D1 & D2). exists d. split; [exact D1|]. intros y Hy. rewrite !E. exact (D2 y Hy).
  Qed.

  Lemma ecm_found tol i a : sound_brentq tol sol -> geti (f_airflow f') i = Ok a -> 0 < a <= sqrt 3 * a0 ->
    fr_W_per_cfm_inH2O 0.235 * esp < eff -> (forall m, mx = Some m -> U a 0 <= m) ->
    exists x, operating_pressure sol f' i = Ok x.
  Proof.
    intros (_ & _ & S3) G (Ha & La) Pe' Lim. destruct ecm_curve as (K & D & _ & S3e & Sf).
    unfold operating_pressure. rewrite D, lit0_R, lit3_R.
    assert (U0 : 0 < U a 0).
    { unfold ecm_wanted, ecm_law. set (s := fr_W_per_cfm_inH2O 0.235) in *.
      assert (0 < a / a0) by (apply Rdiv_lt_0_compat; assumption).
      assert (0 < (eff - s * esp) * (a / a0) ^ 2) by (apply Rmult_lt_0_compat; [lra|apply pow_lt; assumption]).
      nra. }
    assert (Eq : forall x, 0 <= x -> moved a x = a * sqrt (W a x / U a x)).
    { intros x Hx. unfold moved. destruct (Req_EM_T x 0) as [->|]; [|reflexivity].
      assert (W a 0 = U a 0) as ->.
      { unfold ecm_drawn. destruct mx as [m|]; [|reflexivity]. specialize (Lim m eq_refl). unfold Rmin. destruct Rle_dec; lra. }
      replace (U a 0 / U a 0) with 1 by (field; lra). rewrite sqrt_1. ring. }
    apply (S3 _ (fun x => a * sqrt (W a x / U a x) - sqrt x / f_sysk f')).
    - cbn [nmul RNum]. lra.
    - cbn [nmul RNum]. intros x Hx. split.
      + destruct (moved_is i a x G Ha ltac:(lra)) as (X & _). rewrite X, (Sf x) by lra. cbn [rbind nsub RNum].
        rewrite Eq by lra. reflexivity.
      + assert (Ux : 0 < U a x).
        { destruct (Req_dec x 0) as [->|]; [exact U0|apply wanted_pos; [exact Ha|lra]]. }
        apply (continuity_pt_minus (fun x => a * sqrt (W a x / U a x)) (fun x => sqrt x / f_sysk f')).
        * apply (continuity_pt_mult (fun _ => a) (fun x => sqrt (W a x / U a x))); [apply continuity_pt_const; intros y z; reflexivity|].
          apply (continuity_pt_comp (fun x => W a x / U a x) sqrt).
          -- apply (continuity_pt_div (fun x => W a x) (fun x => U a x)); [apply drawn_continuous|apply wanted_continuous|lra].
          -- apply continuity_pt_sqrt. destruct (share a x Ux). lra.
        * apply (continuity_pt_mult sqrt (fun _ => / f_sysk f')); [apply continuity_pt_sqrt; lra|apply continuity_pt_const; intros y z; reflexivity].
    - cbn [nmul RNum]. rewrite <- !Eq by lra. rewrite (Sf (3 * esp)) in S3e by lra. apply Ok_inj in S3e. rewrite S3e.
      rewrite sqrt_0. unfold moved at 1. destruct (Req_EM_T 0 0); [|contradiction].
      destruct (moved_bounds a (3 * esp) Ha ltac:(lra)). unfold Rdiv. rewrite Rmult_0_l. nra.
  Qed.
End Ecm.

(** The first speed. *)
Lemma ecm_as_designed sol airflows esp eff mx a0 (f : fan R) : sound_brentq 0 sol ->
  make_ecm_fan airflows esp eff mx = Ok f -> geti airflows 0 = Ok a0 -> 0 < a0 -> 0 < esp ->
  fr_W_per_cfm_inH2O 0.235 * esp < eff ->
  operating_pressure sol f 0 = Ok esp /\ airflow sol f 0 None = Ok a0 /\ power sol f 0 None = Ok (a0 * eff).
Proof.
  intros S B G Ha He Hs.
  assert (Ea : geti (f_airflow f) 0 = Ok a0 /\ f_class f = ECMFlowFan mx /\ forall m, mx = Some m -> a0 * eff <= m).
  { pose proof B as H. unfold make_ecm_fan in H. rewrite G in H. cbn [rbind] in H.
    assert (M : forall m, mx = Some m -> a0 * eff <= m).
    { intros m ->. revert H. cbn [nltb nmul RNum]. destruct (Rltb_spec m (a0 * eff)); [discriminate|intros _; lra]. }
    assert (H' : init_fan (ECMFlowFan mx) airflows esp (EffNum eff) (lit 0) (eff - EFFICACY_SLOPE_ESP * esp) = Ok f).
    { revert H. destruct mx as [m|]; [|intros H; exact H]. cbn [nltb nmul RNum]. destruct (Rltb_spec m (a0 * eff)); [discriminate|intros H; exact H]. }
    pose proof (init_fan_facts _ _ _ _ _ _ _ H') as (a1 & A1 & A2 & A3 & A4 & A5 & A6 & _).
    split; [rewrite A4; exact G|]. split; [|exact M]. first [exact A2 | exact A3 | exact A5 | exact A6 | exact A1]. }
  destruct Ea as (Ea & K & Lim).
  assert (Ps : 0 < fr_W_per_cfm_inH2O (T:=R) 0.235 * esp) by (apply Rmult_lt_0_compat; [apply slope_pos|exact He]).
  assert (Un : ecm_wanted eff esp a0 a0 esp = a0 * eff).
  { unfold ecm_wanted, ecm_law. replace (a0 / a0) with 1 by (field; lra). ring. }
  assert (Pm : forall m, mx = Some m -> 0 < m) by (intros m E; specialize (Lim m E); nra).
  assert (T : 1 <= sqrt 3) by (rewrite <- sqrt_1; apply sqrt_le_1_alt; lra).
  pose proof (ecm_found sol airflows esp eff mx f f [] a0 B G (Forall_nil _) eq_refl ltac:(lra) Pm Ha He 0 0 a0 S Ea ltac:(nra) Hs) as Fd.
  destruct Fd as (x & X).
  { intros m E. specialize (Lim m E). pose proof (wanted_rises esp eff a0 a0 0 esp Ha He). lra. }
  pose proof (ecm_unlimited_point sol airflows esp eff mx f f [] a0 B G (Forall_nil _) eq_refl ltac:(lra) Pm Ha He 0 0 a0 x S Ea Ha) as P.
  replace (esp * (a0 / a0) ^ 2) with esp in P by (field; lra).
  specialize (P ltac:(intros m E; rewrite Un; apply Lim; exact E) X).
  assert (x = esp) by (revert P; unfold Rabs; destruct Rcase_abs; lra). subst x.
  destruct (moved_is sol airflows esp eff mx f f [] a0 B G (Forall_nil _) eq_refl ltac:(lra) Pm 0 a0 esp Ea Ha ltac:(lra)) as (M1 & M2 & M3).
  assert (Wd : ecm_drawn eff esp a0 a0 esp mx = a0 * eff).
  { unfold ecm_drawn. rewrite Un. destruct mx as [m|]; [|reflexivity]. apply Rmin_left. apply Lim. reflexivity. }
  rewrite moved_full in M1 by (try assumption; try lra; rewrite Wd, Un; reflexivity).
  split; [exact X|]. split.
  - unfold airflow. rewrite K, X. cbn [rbind]. exact M1.
  - unfold power, esp_or_operating in *. rewrite K, X in *. cbn [rbind] in *. rewrite <- Wd. exact M3.
Qed.
