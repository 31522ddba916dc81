(** Concrete cases for C116. *)
From Coq Require Import Reals QArith Lra Psatz Lia List Bool String.
From Verif.Base Require Import Num Res Tac.
From Verif.Model Require Import Units Util Psychrometrics Conditions Defrost Fan Tabular Unit
  NREL BaseModel Title24 DXUnit.
From Verif.Spec Require Import NrelSpec ModelSpec RatingSpec Title24Spec WeatherSpec T24CopSpec.
From Verif.Proofs Require Import UnitsR NrelProofs ToyUnit T24Cache ModelProofs T24Cooling T24Heating ToyT24 T24Lines HeatRatio Weather T24Cop.
Import ListNotations.
Local Open Scope R_scope.

(** A 10 kW unit, 7 kW at 17 F, rated at the HSPF it has with a COP of [k] at 17 F, and a
    root finder that stops at [k] if that is a root. *)
Definition heater24 (k : R) : dxunit R := wu_hspf (Some (base_hspf k)) t24_base.
Definition stop_sol (k : R) : solvers R :=
  {| brentq := fun _ a _ => Ok a;
     newton := fun _ => PAsk k (fun e => if Req_EM_T e 0 then PDone k else PFail RuntimeError) |}.

Lemma stop_sound k : newton_finds_roots 0 (stop_sol k).
Proof.
  intros f g x H. cbn in H. apply rbind_ok in H. destruct H as (e & E & H).
  destruct (Req_EM_T e 0) as [->|N]; [|discriminate]. cbn in H. apply Ok_inj in H. subst x.
  exists 0. split; [exact E|]. rewrite Rabs_R0. lra.
Qed.

Lemma pair24 k : k = 3 \/ k = 5 -> exists k35, pair_of (heater24 k) 0 k = Ok (0, k35) /\ k35 <> 0.
Proof.
  intros K. assert (H : exists k35, pair_of (heater24 k) 0 k = Ok (base_hspf k - base_hspf k, k35) /\ k35 <> 0).
  { unfold heater24. generalize (base_hspf k) at 1 3. intros target.
    apply pair_val; try reflexivity; try assumption.
    - left. exists [7000]. split; reflexivity.
    - left. exists [8000]. split; reflexivity.
    - intros v [X|[X|[]]]; discriminate X.
    - discriminate. }
  destruct H as (k35 & H & N). exists k35. split; [|exact N]. rewrite H. do 2 f_equal. lra.
Qed.

Lemma runs24 k : k = 3 \/ k = 5 ->
  run_prober_pure (error_of (heater24 k) 0) (newton (stop_sol k) 3) = Ok k
  /\ rev (trials (error_of (heater24 k) 0) (newton (stop_sol k) 3)) = [k].
Proof.
  intros K. destruct (pair24 k K) as (k35 & E & N).
  assert (F : error_of (heater24 k) 0 k = Ok 0) by (unfold error_of; rewrite E; reflexivity).
  unfold stop_sol. cbn [newton run_prober_pure trials]. rewrite F. cbn [rbind].
  destruct (Req_EM_T 0 0) as [_|X]; [|destruct (X eq_refl)]. cbn [run_prober_pure trials]. auto.
Qed.

Lemma out24 t : out_F (heater_cond t) = t.
Proof. unfold out_F. rewrite F_of_degF. apply heater_temp. Qed.

Lemma caps24 sol k t : (exists s, gross_steady_state_heating_capacity (Title24DXModel sol) (heater24 k) (Some (heater_cond t)) = Ok s)
  /\ exists s, gross_integrated_heating_capacity (Title24DXModel sol) (heater24 k) (Some (heater_cond t)) = Ok s.
Proof.
  unfold heater24. generalize (base_hspf k). intros h.
  unfold gross_steady_state_heating_capacity, gross_integrated_heating_capacity, product.
  cbn [heating_conditions rbind md_ghc md_gihc Title24DXModel]. unfold fresh, t24_integrated_capacity.
  set (c := heater_cond t).
  split; repeat match goal with |- context [if ?b then _ else _] => destruct b end;
    eexists; reflexivity.
Qed.

Lemma facts24 k : (0 < sd_n (u_h (heater24 k)))%nat /\ p17 (heater24 k) 0 = Ok 7000
  /\ p35 (heater24 k) 0 = Ok 8000
  /\ geti (sd_net_cap (u_h (heater24 k))) 0 = Ok 10000
  /\ geti (sd_net_cop (u_h (heater24 k))) 0 = Ok (Some 4)
  /\ arr (sd_fan_power (u_h (heater24 k))) 0 = Ok 300
  /\ anchor17 (heater24 k) 0 7000 /\ anchor35 (heater24 k) 0 8000 /\ anchor47 (heater24 k) 0 10000
  /\ not_supplied (heater24 k) "cop35".
Proof.
  unfold heater24. generalize (base_hspf k). intros h. split; [cbn; lia|].
  repeat (split; [reflexivity|]). split; [left; exists [7000]; split; reflexivity|].
  split; [left; exists [8000]; split; reflexivity|]. split; [reflexivity|].
  intros v [X|[X|[]]]; discriminate X.
Qed.

Lemma powers24k k t : k = 3 \/ k = 5 ->
  (exists p, gross_steady_state_heating_power (Title24DXModel (stop_sol k)) (heater24 k) (Some (heater_cond t)) = Ok p)
  /\ exists p, gross_integrated_heating_power (Title24DXModel (stop_sol k)) (heater24 k) (Some (heater_cond t)) = Ok p.
Proof.
  intros K. destruct (facts24 k) as (I & A & B & C & D & E & _). destruct (runs24 k K) as (X & Y).
  destruct (pair24 k K) as (k35 & P & N).
  split.
  - eapply (steady_runs (stop_sol k) (heater24 k) (heater_cond t)) with (k35 := k35) (x := k); try eassumption; lra.
  - eapply (integrated_runs (stop_sol k) (heater24 k) (heater_cond t)) with (k35 := k35) (x := k); try eassumption; lra.
Qed.

Lemma point24 k t : k = 3 \/ k = 5 -> 17 <= t <= 47 ->
  steady_point (Title24DXModel (stop_sol k)) (heater24 k) 0 t
    (clear_line (7000 / k) (10000 / 4) t - 300)
    ((clear_line 7000 10000 t - 300) / (clear_line (7000 / k) (10000 / 4) t - 300)).
Proof.
  intros K T. destruct (facts24 k) as (_ & _ & _ & _ & D & E & A17 & _ & A47 & _).
  destruct (proj1 (powers24k k t K)) as (p & P). destruct (proj1 (caps24 (stop_sol k) k t)) as (s & S).
  pose proof (t24_steady_line _ _ (heater_cond t) _ _ _ _ S A17 A47 eq_refl) as ES. rewrite heater_temp in ES.
  pose proof P as P'. apply ghp24, steady_inv in P'. destruct P' as (x & q17 & q47 & k47 & w & X & A & B & KK & W & EP).
  change (c_speed (heater_cond t)) with 0%nat in *.
  assert (x = k) by (rewrite (proj1 (runs24 k K)) in X; apply Ok_inj in X; congruence).
  assert (q17 = 7000) by (eapply anchor17_fun; eassumption).
  assert (q47 = 10000) by (unfold anchor47 in *; congruence).
  assert (k47 = 4) by (apply geti_ok in D; unfold entry in KK; congruence).
  assert (w = 300) by (apply arr_ok in E; unfold entry in *; congruence). subst.
  rewrite heater_temp in *.
  assert (Pos : 0 < clear_line (7000 / k) (10000 / 4) t - 300).
  { unfold clear_line. assert (1400 <= 7000 / k <= 2400) by (destruct K as [-> | ->]; lra). nra. }
  exists (heater_cond t). split; [reflexivity|]. split; [apply out24|]. split; [exact Pos|].
  split; [exact P|]. unfold gross_steady_state_heating_cop, both. rewrite S, P. cbn [rbind].
  apply pydiv_ok. lra.
Qed.

Lemma frost24 t : 20 <= t <= 40 -> exists n,
  frost_point (Title24DXModel (stop_sol 3)) (heater24 3) 0 t
    (7000 / 3 + (base_e35 3 - 7000 / 3) / (35 - 17) * (t - 17) - 300) n.
Proof.
  intros T. assert (K : 3 = 3 \/ 3 = 5) by auto.
  destruct (facts24 3) as (_ & _ & _ & _ & D & E & A17 & A35 & A47 & N35).
  destruct (proj2 (powers24k 3 t K)) as (p & P). destruct (proj2 (caps24 (stop_sol 3) 3 t)) as (s & S).
  pose proof P as P'. apply gihp24, integrated_inv in P'.
  destruct P' as (x & y & rest & q17 & q35 & q47 & k47 & e35 & w & X & Y & A & C & B & KK & W & I & EP).
  change (c_speed (heater_cond t)) with 0%nat in *.
  assert (x = 3) by (rewrite (proj1 (runs24 3 K)) in X; apply Ok_inj in X; congruence).
  assert (y = 3) by (rewrite (proj2 (runs24 3 K)) in Y; injection Y; congruence).
  assert (q17 = 7000) by (eapply anchor17_fun; eassumption).
  assert (q35 = 8000) by (eapply anchor35_fun; eassumption).
  assert (q47 = 10000) by (unfold anchor47 in *; congruence).
  assert (k47 = 4) by (apply geti_ok in D; unfold entry in KK; congruence).
  assert (w = 300) by (apply arr_ok in E; unfold entry in *; congruence). subst x y q17 q35 q47 k47 w.
  assert (e35 = base_e35 3).
  { destruct I as [(z & Z & _)|[_ ->]]; [exfalso; eapply supplied_absent; eassumption|reflexivity]. }
  subst e35.
  assert (F : in_defrost (u_defrost (heater24 3)) (heater_cond t) = true).
  { unfold heater24. generalize (base_hspf 3). intros h. unfold in_defrost. cbn.
    rewrite (proj2 (Rltb_true _ _)) by lra. reflexivity. }
  rewrite F, heater_temp in EP. unfold frosted_line in EP. destruct (Rlt_dec 17 t); [|lra]. destruct (Rlt_dec t 45); [|lra].
  assert (Pos : 0 < p) by (rewrite EP; unfold base_e35; lra).
  exists (s / p). rewrite <- EP. exists (heater_cond t). split; [reflexivity|]. split; [apply out24|]. split; [lra|].
  split; [exact Pos|]. split; [exact F|]. split; [exact P|].
  unfold gross_integrated_heating_cop, both. rewrite S, P. cbn [rbind]. apply pydiv_ok. lra.
Qed.

Lemma cops24 k : k = 3 \/ k = 5 -> exists p p' n n',
  steady_point (Title24DXModel (stop_sol k)) (heater24 k) 0 17 p n
  /\ steady_point (Title24DXModel (stop_sol k)) (heater24 k) 0 47 p' n'
  /\ (k = 3 -> n < 3.3 /\ 4.4 < n') /\ (k = 5 -> 6 < n /\ n' < 4.5).
Proof.
  intros K. eexists _, _, _, _. split; [apply (point24 k 17 K); lra|]. split; [apply (point24 k 47 K); lra|].
  unfold clear_line. split; intros ->.
  - split.
    + match goal with |- ?a / ?b < _ => assert (a / b * b = a) by (field; lra); set (z := a / b) in *; clearbody z end. nra.
    + match goal with |- _ < ?a / ?b => assert (a / b * b = a) by (field; lra); set (z := a / b) in *; clearbody z end. nra.
  - split.
    + match goal with |- _ < ?a / ?b => assert (a / b * b = a) by (field; lra); set (z := a / b) in *; clearbody z end. nra.
    + match goal with |- ?a / ?b < _ => assert (a / b * b = a) by (field; lra); set (z := a / b) in *; clearbody z end. nra.
Qed.

Lemma warmer_cop24_false : ~ (forall sol u i t p n t' p' n', newton_finds_roots 0 sol ->
  steady_point (Title24DXModel sol) u i t p n -> steady_point (Title24DXModel sol) u i t' p' n' ->
  t < t' -> n <= n').
Proof.
  intros H. destruct (cops24 5 (or_intror eq_refl)) as (p & p' & n & n' & A & B & _ & C).
  pose proof (H _ _ _ _ _ _ _ _ _ (stop_sound 5) A B ltac:(lra)). specialize (C eq_refl). lra.
Qed.
