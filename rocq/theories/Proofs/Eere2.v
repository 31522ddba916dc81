(** Consequences of the EERE fan data. *)
From Coq Require Import QArith Reals Lra Lia List.
From Verif.Base Require Import Num Res Tac.
From Verif.Model Require Import Units Util Fan.
From Verif.Spec Require Import FanSpec EereSpec.
From Verif.Proofs Require Import UnitsR FanProofs FanProofs2 FanProofs3 Eere.
Import ListNotations.
Local Open Scope R_scope.

Ltac sizes := unfold watts_per_cfm, by_size, free_watts, watts_added;
  repeat match goal with |- context[Rle_dec ?a ?b] => destruct (Rle_dec a b) end.

Lemma improved_less t p : watts_per_cfm ImprovedPSC t p < watts_per_cfm BaselinePSC t p <-> t < 10.
Proof. sizes; lra. Qed.
Lemma multi_less t p : watts_per_cfm MultiStageTorque t p < watts_per_cfm SingleStageTorque t p.
Proof. sizes; lra. Qed.
Lemma curved_less t p : watts_per_cfm BackwardCurved t p < watts_per_cfm ConstantAirflow t p.
Proof. sizes; lra. Qed.

Section Built.
  Variables (sol : solvers R) (flows : list R) (esp a0 : R).
  Hypothesis E0 : geti flows 0 = Ok a0.
  Definition is_fan (m : motor) (f : fan R) : Prop :=
    make_eere_fan (class_of m) (map fr_cfm flows) (fr_inH2O esp) = Ok f.

  Lemma better_power m m' f f' i a p w : is_fan m f -> is_fan m' f' -> geti flows i = Ok a ->
    (forall x, flow_added m x = flow_added m' x) ->
    airflow sol f i (Some (fr_inH2O p)) = Ok w -> 0 < w ->
    exists w1 w2, power sol f i (Some (fr_inH2O p)) = Ok w1 /\ power sol f' i (Some (fr_inH2O p)) = Ok w2
      /\ airflow sol f' i (Some (fr_inH2O p)) = Ok w
      /\ (w2 < w1 <-> watts_per_cfm m' (a0 / 400) p < watts_per_cfm m (a0 / 400) p).
  Proof.
    intros F F' E S A W. pose proof cfm_pos as C.
    rewrite (eere_airflow sol m flows esp f a0 i a p F E0 E) in A. apply Ok_inj in A.
    assert (G : flow_at m' a a0 esp p = flow_at m a a0 esp p).
    { unfold flow_at. rewrite !S. reflexivity. }
    do 2 eexists. split; [apply (eere_power sol m flows esp f a0 i a p F E0 E)|].
    split; [apply (eere_power sol m' flows esp f' a0 i a p F' E0 E)|].
    split; [rewrite (eere_airflow sol m' flows esp f' a0 i a p F' E0 E), G, A; reflexivity|].
    rewrite G. assert (0 < flow_at m a a0 esp p).
    { subst w. unfold fr_cfm in W. cbn [nmul RNum] in W. nra. }
    set (g := flow_at m a a0 esp p) in *. split; intros; nra.
  Qed.
End Built.

Lemma watts_positive : forall m t p, 0 < t <= 20 -> 0 <= p <= 25 -> 0 < watts_per_cfm m t p.
Proof.
  intros m t p T P.
  assert (0 <= p * (25 - p)) by (apply Rmult_le_pos; lra).
  assert (0 <= p ^ 2) by apply pow2_ge_0.
  assert (0 <= (p - 1/2) ^ 2) by apply pow2_ge_0.
  assert (H2 : p ^ 2 = p * p) by ring.
  assert (H3 : (p - 1/2) ^ 2 = p * p - p + 1/4) by field.
  destruct m; sizes; lra.
Qed.

Lemma watts_by_size : forall m t t' p, m <> MultiStageTorque -> t < t' ->
  watts_per_cfm m t p < watts_per_cfm m t' p.
Proof. intros m t t' p M T. destruct m; try congruence; sizes; lra. Qed.

Lemma torque_by_size : forall t t' p, 4 <= t < t' ->
  watts_per_cfm MultiStageTorque t' p < watts_per_cfm MultiStageTorque t p.
Proof. intros t t' p T. sizes; try lra. Qed.

Lemma watts_order : forall t p, 2 <= t < 10 -> 0 <= p <= 0.8 ->
  watts_per_cfm ImprovedPSC t p < watts_per_cfm BaselinePSC t p
  /\ watts_per_cfm PSCWithControls t p < watts_per_cfm ImprovedPSC t p
  /\ watts_per_cfm SingleStageTorque t p < watts_per_cfm PSCWithControls t p
  /\ watts_per_cfm MultiStageTorque t p < watts_per_cfm SingleStageTorque t p.
Proof.
  intros t p T P.
  assert (H2 : p ^ 2 = p * p) by ring.
  assert (H3 : (p - 4/5) ^ 2 = p * p - 8/5 * p + 16/25) by field.
  assert (0 <= (p - 4/5) ^ 2) by apply pow2_ge_0.
  assert (0 <= p * (0.8 - p)) by (apply Rmult_le_pos; lra).
  repeat split; sizes; lra.
Qed.

Lemma flow_peak : forall m p p', 0 <= p < p' ->
  (p' <= peak m -> flow_added m p < flow_added m p')
  /\ (peak m <= p -> p' <= 28 -> flow_added m p' < flow_added m p).
Proof.
  intros m p p' L.
  assert (D : forall k c, (k * p' + c * p' ^ 2) - (k * p + c * p ^ 2) = (p' - p) * (k + c * (p + p')))
    by (intros; ring).
  assert (D' : forall k c, (k * p' - c * p' ^ 2) - (k * p - c * p ^ 2) = (p' - p) * (k - c * (p + p')))
    by (intros; ring).
  destruct m; cbn [flow_added peak]; split; intros; try lra;
    first [ pose proof (D (-456) 8); nra | pose proof (D' 49 570); nra
          | pose proof (D' 267 338); nra | pose proof (D' 99 103); nra ].
Qed.

(** * The statements about fans *)
Lemma fan_numbers : forall sol m flows esp (f : fan R) a0 i a p,
  fan_of m flows a0 esp f -> geti flows i = Ok a ->
  airflow sol f i (Some (fr_inH2O p)) = Ok (fr_cfm (flow_at m a a0 esp p))
  /\ efficacy sol f i (Some (fr_inH2O p)) = Ok (fr_W_per_cfm (watts_per_cfm m (a0 / 400) p))
  /\ power sol f i (Some (fr_inH2O p)) = Ok (flow_at m a a0 esp p * watts_per_cfm m (a0 / 400) p).
Proof.
  intros sol m flows esp f a0 i a p (F & E0) E. split; [|split].
  - apply (eere_airflow sol m flows); auto.
  - apply (eere_watts sol m flows esp); auto.
  - apply (eere_power sol m flows esp f a0 i a p); auto.
Qed.

Lemma improved_power : forall sol flows esp (f f' : fan R) a0 i a p q,
  fan_of BaselinePSC flows a0 esp f -> fan_of ImprovedPSC flows a0 esp f' -> geti flows i = Ok a ->
  airflow sol f i (Some (fr_inH2O p)) = Ok q -> 0 < q ->
  airflow sol f' i (Some (fr_inH2O p)) = Ok q
  /\ exists w w', power sol f i (Some (fr_inH2O p)) = Ok w /\ power sol f' i (Some (fr_inH2O p)) = Ok w'
      /\ (w' < w <-> a0 < 4000).
Proof.
  intros sol flows esp f f' a0 i a p q (F & E0) (F' & _) E A Q.
  destruct (better_power sol flows esp a0 E0 BaselinePSC ImprovedPSC f f' i a p q F F' E)
    as (w & w' & P & P' & A' & I); auto.
  split; [exact A'|]. exists w, w'. split; [exact P|]. split; [exact P'|].
  rewrite I, improved_less. split; lra.
Qed.

Lemma bpm_power : forall sol flows esp (f f' : fan R) a0 i a p q m m',
  (m, m') = (SingleStageTorque, MultiStageTorque) \/ (m, m') = (ConstantAirflow, BackwardCurved) ->
  fan_of m flows a0 esp f -> fan_of m' flows a0 esp f' -> geti flows i = Ok a ->
  airflow sol f i (Some (fr_inH2O p)) = Ok q -> 0 < q ->
  airflow sol f' i (Some (fr_inH2O p)) = Ok q
  /\ exists w w', power sol f i (Some (fr_inH2O p)) = Ok w /\ power sol f' i (Some (fr_inH2O p)) = Ok w'
      /\ w' < w.
Proof.
  intros sol flows esp f f' a0 i a p q m m' M (F & E0) (F' & _) E A Q.
  destruct (better_power sol flows esp a0 E0 m m' f f' i a p q F F' E)
    as (w & w' & P & P' & A' & I); auto.
  - destruct M as [M|M]; injection M as -> ->; reflexivity.
  - split; [exact A'|]. exists w, w'. split; [exact P|]. split; [exact P'|]. apply I.
    destruct M as [M|M]; injection M as -> ->; [apply multi_less|apply curved_less].
Qed.

Lemma airflow_peak : forall sol m flows esp (f : fan R) a0 i a p p',
  fan_of m flows a0 esp f -> geti flows i = Ok a -> 0 <= p < p' ->
  exists q q', airflow sol f i (Some (fr_inH2O p)) = Ok q /\ airflow sol f i (Some (fr_inH2O p')) = Ok q'
    /\ (p' <= peak m -> q < q') /\ (peak m <= p -> p' <= 28 -> q' < q).
Proof.
  intros sol m flows esp f a0 i a p p' F E L. pose proof cfm_pos as C.
  do 2 eexists. split; [apply (fan_numbers sol m flows esp f a0 i a p F E)|].
  split; [apply (fan_numbers sol m flows esp f a0 i a p' F E)|].
  destruct (flow_peak m p p' L) as (U & D). unfold fr_cfm, flow_at. cbn [nmul RNum].
  split; intros; apply Rmult_lt_compat_r; try exact C; [specialize (U H)|specialize (D H H0)]; lra.
Qed.

Lemma design_airflow : forall sol m flows esp (f : fan R) a0 i a,
  fan_of m flows a0 esp f -> geti flows i = Ok a ->
  airflow sol f i (Some (fr_inH2O (esp * (a / a0) ^ 2))) = Ok (fr_cfm a).
Proof.
  intros sol m flows esp f a0 i a F E.
  rewrite (proj1 (fan_numbers sol m flows esp f a0 i a _ F E)). f_equal. f_equal.
  unfold flow_at. ring.
Qed.

Lemma fan_exists : forall m flows a0 esp, geti flows 0 = Ok a0 -> 0 <= esp -> a0 <> 0 -> a0 <> 800 ->
  exists f, fan_of m flows a0 esp f.
Proof.
  intros m flows a0 esp E P Z N. pose proof cfm_pos as C. pose proof inH2O_pos as I.
  destruct (make_eere_fails (class_of m) (map fr_cfm flows) (fr_inH2O esp) (fr_cfm a0)) as (X & _).
  - apply (geti_map _ _ _ _ E).
  - unfold fr_inH2O. cbn [nmul RNum]. nra.
  - unfold fr_cfm. cbn [nmul RNum]. nra.
  - destruct (proj2 X) as (f & F).
    + unfold fr_cfm. cbn [nmul RNum]. intros H. apply N. nra.
    + exists f. split; auto.
Qed.

Lemma eff_of : forall sol m flows esp (f : fan R) a0 i p, fan_of m flows a0 esp f ->
  efficacy sol f i (Some (fr_inH2O p)) = Ok (fr_W_per_cfm (watts_per_cfm m (a0 / 400) p)).
Proof. intros sol m flows esp f a0 i p (F & E0). apply (eere_watts sol m flows esp); auto. Qed.

Lemma per_cfm_lt (x y : R) : x < y -> fr_W_per_cfm x < fr_W_per_cfm y.
Proof.
  intros H. pose proof cfm_pos. unfold fr_W_per_cfm. cbn [ndiv RNum]. unfold Rdiv.
  apply Rmult_lt_compat_r; [apply Rinv_0_lt_compat|]; assumption.
Qed.

Lemma fan_positive : forall sol m flows esp (f : fan R) a0 i p,
  fan_of m flows a0 esp f -> 0 < a0 <= 8000 -> 0 <= p <= 25 ->
  exists e, efficacy sol f i (Some (fr_inH2O p)) = Ok e /\ 0 < e.
Proof.
  intros sol m flows esp f a0 i p F A P. eexists. split; [apply (eff_of sol m flows esp f a0 i p F)|].
  pose proof (watts_positive m (a0 / 400) p) as W. pose proof cfm_pos.
  unfold fr_W_per_cfm. cbn [ndiv RNum]. apply Rdiv_lt_0_compat; [apply W; lra|assumption].
Qed.

Lemma fan_order : forall sol flows esp a0 i p (fans : motor -> fan R),
  (forall m, fan_of m flows a0 esp (fans m)) -> 800 <= a0 < 4000 -> 0 <= p <= 0.8 ->
  exists e, (forall m, efficacy sol (fans m) i (Some (fr_inH2O p)) = Ok (e m))
    /\ e ImprovedPSC < e BaselinePSC /\ e PSCWithControls < e ImprovedPSC
    /\ e SingleStageTorque < e PSCWithControls /\ e MultiStageTorque < e SingleStageTorque.
Proof.
  intros sol flows esp a0 i p fans F A P.
  exists (fun m => fr_W_per_cfm (watts_per_cfm m (a0 / 400) p)).
  split; [intros m; apply (eff_of sol m flows esp _ a0 i p (F m))|].
  destruct (watts_order (a0 / 400) p) as (O1 & O2 & O3 & O4); try lra.
  repeat split; apply per_cfm_lt; assumption.
Qed.

Lemma fan_size : forall sol m flows flows' esp esp' (f f' : fan R) a0 a0' i i' p,
  fan_of m flows a0 esp f -> fan_of m flows' a0' esp' f' -> a0 < a0' ->
  exists e e', efficacy sol f i (Some (fr_inH2O p)) = Ok e
    /\ efficacy sol f' i' (Some (fr_inH2O p)) = Ok e'
    /\ (m <> MultiStageTorque -> e < e') /\ (m = MultiStageTorque -> 1600 <= a0 -> e' < e).
Proof.
  intros sol m flows flows' esp esp' f f' a0 a0' i i' p F F' A. do 2 eexists.
  split; [apply (eff_of sol m flows esp f a0 i p F)|].
  split; [apply (eff_of sol m flows' esp' f' a0' i' p F')|].
  split.
  - intros M. apply per_cfm_lt, watts_by_size; [exact M|lra].
  - intros -> G. apply per_cfm_lt, torque_by_size. lra.
Qed.
