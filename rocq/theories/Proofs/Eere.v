(** The EERE fans in the units of their source (fan.py:634-794). *)
From Coq Require Import QArith Reals Lra Lia List.
From Verif.Base Require Import Num Res Tac.
From Verif.Model Require Import Units Util Fan.
From Verif.Spec Require Import FanSpec EereSpec.
From Verif.Proofs Require Import UnitsR FanProofs FanProofs2 FanProofs3.
Import ListNotations.
Local Open Scope R_scope.

Definition offset (k : eere_class R) (p : R) : R := fst (e_flow k) * p + snd (e_flow k) * p * p.

Lemma eere_adds k l : forall (f : fan R) a0, f_class f = EEREFan k ->
  geti (f_airflow f ++ l) 0 = Ok a0 -> a0 <> 0 ->
  exists f', sfold (fun a => add_speed a None) l f = (f', Ok tt) /\ f_class f' = EEREFan k
    /\ f_free_airflow f' = f_free_airflow f ++ map (fun a => a - offset k (nsq (a * f_sysk f))) l.
Proof.
  induction l as [|a l IH]; intros f a0 C E Z.
  - exists f. cbn [sfold map]. rewrite app_nil_r. auto.
  - assert (B : geti (f_airflow f ++ [a]) 0 = Ok a0).
    { destruct (f_airflow f); simpl in *; auto. }
    cbn [sfold]. unfold sbind at 1. unfold add_speed at 1, sbind at 1, sget at 1. rewrite C.
    unfold eere_add_speed, sbind, sget. rewrite (base_add_total f a a0) by auto. unfold smod.
    set (f1 := w_free _ _ _ _ _ _).
    destruct (IH f1 a0) as (f' & H & K & F).
    + exact C.
    + subst f1. cbn. rewrite <- app_assoc. exact E.
    + exact Z.
    + exists f'. split; [exact H|]. split; [exact K|]. rewrite F. subst f1. cbn.
      rewrite <- app_assoc. reflexivity.
Qed.

Lemma eere_free k airflows esp (f : fan R) a0 :
  make_eere_fan k airflows esp = Ok f -> geti airflows 0 = Ok a0 ->
  0 <= esp /\ a0 <> 0 /\ f_class f = EEREFan k
  /\ f_free_airflow f = map (fun a => a - offset k (nsq (a * (sqrt esp / a0)))) airflows.
Proof.
  intros M E. unfold make_eere_fan, init_fan in M. rewrite E in M. cbn [rbind] in M.
  unfold system_curve_constant in M.
  destruct (Rlt_dec esp 0) as [N|N].
  { exfalso. unfold pysqrt in M. cbn in M. revert M.
    match goal with |- context[if ?b then _ else _] => destruct b eqn:Eb end; try discriminate.
    intros _. revert Eb. rcases; lra. }
  rewrite pysqrt_ok in M by lra. cbn [rbind] in M.
  destruct (Req_dec a0 0) as [Z|Z].
  { subst a0. exfalso. unfold pydiv in M. cbn in M. revert M. rcases; try discriminate; lra. }
  rewrite pydiv_ok in M by auto. cbn [rbind] in M.
  destruct (eere_adds k airflows (blank_fan (EEREFan k) esp (EffNum (fr_W_per_cfm (lit 0.365))) (sqrt esp / a0) (lit 0) (lit 0)) a0)
    as (f1 & H & K & F); auto.
  rewrite H in M. cbn [rbind] in M.
  repeat (apply rbind_ok in M as (? & ? & M)). apply Ok_inj in M. subst f.
  split; [lra|]. split; [exact Z|]. cbn. auto.
Qed.

Lemma offset_of m p : offset (class_of m) (fr_inH2O p) = fr_cfm (flow_added m p).
Proof.
  pose proof inH2O_pos as I.
  destruct m; unfold offset, class_of, EEREImprovedPSC, EEREBPMMultiStageConstantTorque,
    EEREBPMMultiStageBackwardCurved, EEREBaselinePSC, EEREPSCWithControls,
    EEREBPMSingleStageConstantTorque, EEREBPMMultiStageConstantAirflow, flow_added;
    cbn [e_flow fst snd]; unfold fr_cfm_per_inH2O, fr_cfm_per_inH2O2, fr_inH2O, fr_cfm;
    rewrite !litR; cbn [Qnum Qden nmul ndiv RNum]; field; lra.
Qed.

Lemma geti_map {A B} (g : A -> B) l i x : geti l i = Ok x -> geti (map g l) i = Ok (g x).
Proof.
  unfold geti. destruct (nth_error l i) eqn:E; cbn; [|discriminate]. intros H.
  apply Ok_inj in H. subst. rewrite (map_nth_error g i l E). reflexivity.
Qed.

Lemma eere_airflow : forall sol m flows esp (f : fan R) a0 i a p,
  make_eere_fan (class_of m) (map fr_cfm flows) (fr_inH2O esp) = Ok f ->
  geti flows 0 = Ok a0 -> geti flows i = Ok a ->
  airflow sol f i (Some (fr_inH2O p)) = Ok (fr_cfm (flow_at m a a0 esp p)).
Proof.
  intros sol m flows esp f a0 i a p M E0 E. pose proof inH2O_pos as I. pose proof cfm_pos as C.
  destruct (eere_free _ _ _ _ (fr_cfm a0) M (geti_map _ _ _ _ E0)) as (P & Z & K & F).
  unfold airflow, airflow_at. rewrite K, F, map_map.
  rewrite (geti_map _ _ _ _ E). cbn [rbind]. f_equal. unfold calc_quad.
  assert (Z0 : a0 <> 0). { intros ->. apply Z. unfold fr_cfm. cbn [nmul RNum]. ring. }
  replace (nsq (fr_cfm a * (sqrt (fr_inH2O esp) / fr_cfm a0))) with (fr_inH2O (esp * (a / a0) ^ 2)).
  - rewrite offset_of. unfold flow_at.
    transitivity (fr_cfm a - fr_cfm (flow_added m (esp * (a / a0) ^ 2))
      + offset (class_of m) (fr_inH2O p)).
    + unfold offset. rnum. cbn. ring.
    + rewrite offset_of. unfold fr_cfm. cbn [nmul RNum]. ring.
  - unfold nsq, fr_cfm. cbn [nmul RNum].
    transitivity ((a / a0) ^ 2 * (sqrt (fr_inH2O esp) * sqrt (fr_inH2O esp))).
    + rewrite sqrt_sqrt by exact P. unfold fr_inH2O. cbn [nmul RNum]. ring.
    + field. lra.
Qed.

Lemma eere_watts : forall sol m flows esp (f : fan R) a0 i p,
  make_eere_fan (class_of m) (map fr_cfm flows) (fr_inH2O esp) = Ok f ->
  geti flows 0 = Ok a0 ->
  efficacy sol f i (Some (fr_inH2O p)) = Ok (fr_W_per_cfm (watts_per_cfm m (a0 / 400) p)).
Proof.
  intros sol m flows esp f a0 i p M E0. pose proof inH2O_pos as I. pose proof cfm_pos as C.
  pose proof ton_pos as T.
  destruct (make_eere_ok _ _ _ _ _ M (geti_map _ _ _ _ E0)) as (l & w & L & Ix & W & Ew & K & N2 & S0 & S3 & Sm).
  cbv zeta in *. unfold nominal_of, table_size in *.
  replace (fr_cfm a0 * ton_ref / (400 * cfm)) with (a0 / 400 * ton_ref) in *
    by (unfold fr_cfm; cbn [nmul RNum]; field; lra).
  assert (Ew' : w = a0 / 400 - (2 + INR l)) by (rewrite Ew, S_INR; field; lra).
  clear Ew. set (t := a0 / 400) in *.
  assert (Q : (t <= 3 -> l = 0%nat) /\ (3 < t <= 4 -> l = 1%nat) /\ (4 < t -> l = 2%nat)).
  { destruct (Rlt_dec t 2) as [H2|H2].
    { assert (l = 0%nat) as ->. { apply S0. cbn [INR]. nra. } repeat split; try lra; auto. }
    destruct (Rlt_dec 5 t) as [H5|H5].
    { assert (l = 2%nat) as ->. { apply S3. cbn [INR]. nra. } repeat split; try lra; auto. }
    destruct (Req_dec t 2) as [H|H]; [exfalso; apply N2; rewrite H; cbn [INR]; ring|].
    assert (Y : (2 + INR l) * ton_ref < t * ton_ref <= (2 + INR (S l)) * ton_ref)
      by (apply Sm; cbn [INR]; split; nra).
    rewrite S_INR in Y. assert (2 + INR l < t <= 2 + (INR l + 1)) by (split; nra).
    assert (l = 0 \/ l = 1 \/ l = 2)%nat as [->|[->| ->]] by lia; cbn [INR] in *;
      repeat split; intros; try lra; auto. }
  unfold watts_per_cfm. destruct Q as (Q0 & Q1 & Q2).
  assert (B : exists lo hi, nth_error (e_base (class_of m)) l = Some lo
     /\ nth_error (e_base (class_of m)) (S l) = Some hi
     /\ (1 - w) * lo + w * hi = fr_W_per_cfm (by_size (free_watts m) t)).
  { unfold by_size. destruct (Rle_dec t 3) as [H3|H3];
    [rewrite Q0 in * by lra | destruct (Rle_dec t 4) as [H4|H4];
      [rewrite Q1 in * by lra | rewrite Q2 in * by lra]];
    destruct m; do 2 eexists; split; try reflexivity; split; try reflexivity;
    rewrite Ew'; unfold free_watts, fr_W_per_cfm; rewrite !litR;
    cbn [Qnum Qden nmul ndiv RNum INR]; field; lra. }
  destruct B as (lo & hi & B1 & B2 & B3).
  rewrite (eere_efficacy_interp sol _ f l w i _ lo hi K Ix W B1 B2). f_equal.
  transitivity ((1 - w) * lo + w * hi
     + (fst (e_eff (class_of m)) * fr_inH2O p + snd (e_eff (class_of m)) * (fr_inH2O p) ^ 2)).
  { unfold eere_law. ring. }
  rewrite B3.
  replace (fst (e_eff (class_of m)) * fr_inH2O p + snd (e_eff (class_of m)) * (fr_inH2O p) ^ 2)
    with (fr_W_per_cfm (watts_added m p)).
  - unfold fr_W_per_cfm. cbn [ndiv RNum]. set (b := by_size _ _). clearbody b. field. lra.
  - destruct m; unfold class_of, EEREImprovedPSC, EEREBPMMultiStageConstantTorque,
      EEREBPMMultiStageBackwardCurved, EEREBaselinePSC, EEREPSCWithControls,
      EEREBPMSingleStageConstantTorque, EEREBPMMultiStageConstantAirflow, watts_added;
      cbn [e_eff fst snd]; unfold fr_W_per_cfm_inH2O, fr_W_per_cfm_inH2O2, fr_inH2O, fr_W_per_cfm;
      rewrite !litR; cbn [Qnum Qden nmul ndiv RNum]; field; lra.
Qed.

Lemma eere_power : forall sol m flows esp (f : fan R) a0 i a p,
  make_eere_fan (class_of m) (map fr_cfm flows) (fr_inH2O esp) = Ok f ->
  geti flows 0 = Ok a0 -> geti flows i = Ok a ->
  power sol f i (Some (fr_inH2O p)) = Ok (flow_at m a a0 esp p * watts_per_cfm m (a0 / 400) p).
Proof.
  intros sol m flows esp f a0 i a p M E0 E. pose proof cfm_pos as C.
  destruct (eere_free _ _ _ _ (fr_cfm a0) M (geti_map _ _ _ _ E0)) as (_ & _ & K & _).
  pose proof (eere_airflow sol m flows esp f a0 i a p M E0 E) as A.
  pose proof (eere_watts sol m flows esp f a0 i p M E0) as W.
  unfold power. rewrite K. rewrite A, W. cbn [rbind]. f_equal.
  unfold fr_cfm, fr_W_per_cfm. cbn [nmul ndiv RNum]. field. lra.
Qed.
