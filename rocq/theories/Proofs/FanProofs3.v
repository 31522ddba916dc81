From Coq Require Import Reals QArith Lra Lia List Bool Permutation Sorted.
From Verif.Base Require Import Num Res Tac.
From Verif.Model Require Import Units Util Fan.
From Verif.Spec Require Import FanSpec.
From Verif.Proofs Require Import UnitsR FanProofs FanProofs2.
Import ListNotations.
Local Open Scope R_scope.

(** * Constructors that only divide by the first airflow cannot fail. *)
Lemma base_add_total (f : Fn) a a0 :
  geti (f_airflow f ++ [a]) 0 = Ok a0 -> a0 <> 0 ->
  base_add_speed a f =
    (w_base (S (f_n f)) (f_airflow f ++ [a]) (f_ratio f ++ [a / a0]) f, Ok tt).
Proof.
  intros E Z. unfold base_add_speed, sbind, smod, sget, slift. simpl.
  rewrite lasti_app, E, pydiv_ok by auto. reflexivity.
Qed.

Lemma simple_adds_total l : forall (f : Fn) a0,
  (f_class f = RESNETPSCFan \/ f_class f = RESNETBPMFan \/ exists k, f_class f = EEREFan k) ->
  geti (f_airflow f ++ l) 0 = Ok a0 -> a0 <> 0 ->
  exists f', sfold (fun a => add_speed a None) l f = (f', Ok tt).
Proof.
  induction l as [|a l IH]; intros f a0 C E Z; simpl.
  - eexists. reflexivity.
  - assert (A : exists f', add_speed a None f = (f', Ok tt)).
    { assert (B : geti (f_airflow f ++ [a]) 0 = Ok a0).
      { destruct (f_airflow f); simpl in *; auto. }
      unfold add_speed, sbind, sget.
      destruct C as [C|[C|(k & C)]]; rewrite C.
      - eexists. exact (base_add_total f a a0 B Z).
      - eexists. exact (base_add_total f a a0 B Z).
      - unfold eere_add_speed, sbind, sget. rewrite (base_add_total f a a0) by auto.
        eexists. unfold smod. reflexivity. }
    destruct A as (f1 & A). pose proof A as A0. pose proof A as A1.
    apply add_speed_airflow in A0. apply add_speed_keeps in A1 as (K & _).
    destruct (IH f1 a0) as (f2 & H2); auto.
    + rewrite K. auto.
    + rewrite A0, <- app_assoc. auto.
    + exists f2. unfold sbind. rewrite A. auto.
Qed.

Lemma simple_init_total k l esp e red fe a0 :
  (k = RESNETPSCFan \/ k = RESNETBPMFan \/ exists c, k = EEREFan c) ->
  geti l 0 = Ok a0 -> a0 <> 0 -> 0 <= esp ->
  exists f : Fn, init_fan k l esp e red fe = Ok f.
Proof.
  intros C E Z P. unfold init_fan. rewrite E. cbn [rbind].
  unfold system_curve_constant. rewrite pysqrt_ok by auto. cbn [rbind].
  rewrite pydiv_ok by auto. cbn [rbind].
  destruct (simple_adds_total l (blank_fan k esp e (sqrt esp / a0) red fe) a0)
    as (f & H); auto.
  rewrite H. eauto.
Qed.

(** * C17 *)
Lemma tsize j : table_size j = (2 + INR j) * ton_ref. Proof. reflexivity. Qed.

Lemma nominal_caps : NOMINAL_CAPACITIES (T:=R) = map table_size [0; 1; 2; 3]%nat.
Proof.
  unfold NOMINAL_CAPACITIES, table_size, fr_ton. cbn [map].
  generalize (ton_ref (T:=R)) as t. intros t. cbn [INR nmul RNum].
  repeat (apply f_equal2; [rnum; lra|]). auto.
Qed.

Lemma caps_geti j : (j <= 3)%nat -> geti (NOMINAL_CAPACITIES (T:=R)) j = Ok (table_size j).
Proof.
  intros H. rewrite nominal_caps.
  destruct j as [|[|[|[|j]]]]; try reflexivity. lia.
Qed.

Lemma select_size_none nominal :
  select_size (T:=R) nominal = None <-> nominal = table_size 0.
Proof.
  unfold select_size, select_loop. rewrite nominal_caps. unfold table_size.
  pose proof ton_pos as T. set (t := ton_ref) in *.
  cbn -[INR ton_ref]. fold t. cbn [INR].
  repeat (rcase1; try (split; intros; [discriminate|lra])); split; intros; lra || auto; try discriminate; lra.
Qed.

Lemma select_size_some nominal l u :
  select_size (T:=R) nominal = Some (l, u) ->
  u = S l /\ (l <= 2)%nat
  /\ (nominal < table_size 0 -> l = 0%nat)
  /\ (table_size 3 < nominal -> l = 2%nat)
  /\ (table_size 0 < nominal <= table_size 3 -> table_size l < nominal <= table_size (S l)).
Proof.
  unfold select_size, select_loop. rewrite nominal_caps. unfold table_size.
  pose proof ton_pos as T. set (t := ton_ref) in *.
  cbn -[INR ton_ref]. fold t.
  replace (INR 0) with 0 by reflexivity.
  replace (INR 1) with 1 by reflexivity. replace (INR 2) with 2 by reflexivity.
  replace (INR 3) with 3 by (simpl; lra).
  intros H.
  repeat (rcase_in H); try discriminate; injection H as <- <-;
    repeat split; try lia; intros; try lra; simpl INR; lra.
Qed.

Definition nominal_of (a0 : R) : R := a0 * ton_ref / (400 * cfm).

Lemma nominal_eq (a0 : R) : ndiv a0 (fr_cfm_per_ton (lit 400)) = nominal_of a0.
Proof.
  unfold nominal_of, fr_cfm_per_ton. cbn [ndiv nmul RNum].
  pose proof ton_pos. pose proof cfm_pos.
  replace (lit (T:=R) 400) with 400 by (rnum; lra). field. lra.
Qed.

Lemma make_eere_ok k airflows esp (f : Fn) a0 :
  make_eere_fan k airflows esp = Ok f -> geti airflows 0 = Ok a0 ->
  let nominal := nominal_of a0 in
  exists l w, (l <= 2)%nat
    /\ f_index f = Some (l, S l) /\ f_weight f = Some w
    /\ w = (nominal - table_size l) / (table_size (S l) - table_size l)
    /\ f_class f = EEREFan k
    /\ nominal <> table_size 0
    /\ (nominal < table_size 0 -> l = 0%nat)
    /\ (table_size 3 < nominal -> l = 2%nat)
    /\ (table_size 0 < nominal <= table_size 3 ->
          table_size l < nominal <= table_size (S l)).
Proof.
  intros M E0 nominal. unfold make_eere_fan in M. inv_ok.
  apply init_fan_facts in E as (a1 & A1 & A2 & A3 & A4 & A5 & A6 & A7 & A8 & A9).
  rewrite A4, E0 in E1. apply Ok_inj in E1. subst v0.
  rewrite nominal_eq in *. subst nominal.
  apply need_ok in E2. destruct v1 as [l u].
  pose proof (select_size_some _ _ _ E2) as (-> & L & S1 & S2 & S3).
  cbn [fst snd] in *.
  rewrite caps_geti in E3 by lia. rewrite caps_geti in E4 by lia. inv_ok. subst v2 v3.
  apply pydiv_inv in E5 as (Z & ->). subst f. cbn [w_size f_index f_weight f_class].
  exists l. eexists. rewrite E2. repeat split; auto.
  - intros N. apply select_size_none in N. congruence.
  - apply S3; auto.
  - apply S3; auto.
Qed.

Lemma nominal_800 : nominal_of (fr_cfm 800) = table_size 0.
Proof.
  unfold nominal_of, table_size, fr_cfm. pose proof cfm_pos. cbn [INR nmul RNum].
  field. lra.
Qed.

Lemma nominal_iff a0 : nominal_of a0 = table_size 0 <-> a0 = fr_cfm 800.
Proof.
  pose proof cfm_pos. pose proof ton_pos.
  split; [|intros ->; apply nominal_800].
  rewrite <- nominal_800. unfold nominal_of. intros H1.
  apply (f_equal (fun x => x * (400 * cfm) / ton_ref)) in H1.
  set (b := fr_cfm 800) in *.
  replace (a0 * ton_ref / (400 * cfm) * (400 * cfm) / ton_ref) with a0 in H1 by (field; lra).
  replace (b * ton_ref / (400 * cfm) * (400 * cfm) / ton_ref) with b in H1 by (field; lra).
  auto.
Qed.

Lemma make_eere_fails k airflows esp a0 :
  geti airflows 0 = Ok a0 -> 0 <= esp -> a0 <> 0 ->
  ((exists f, make_eere_fan k airflows esp = Ok f) <-> a0 <> fr_cfm 800)
  /\ (a0 = fr_cfm 800 -> make_eere_fan k airflows esp = Err AttributeError).
Proof.
  intros E P Z.
  destruct (simple_init_total (EEREFan k) airflows esp
              (EffNum (fr_W_per_cfm (lit 0.365))) (lit 0) (lit 0) a0) as (f & F); eauto.
  pose proof F as FF. apply init_fan_facts in FF as (a1 & A1 & A2 & A3 & A4 & _).
  assert (X : a0 = fr_cfm 800 -> make_eere_fan k airflows esp = Err AttributeError).
  { intros Ea. unfold make_eere_fan. rewrite F. cbn [rbind]. rewrite A4, E. cbn [rbind].
    rewrite nominal_eq. destruct (select_size_none (nominal_of a0)) as (_ & N).
    rewrite N by (subst a0; apply nominal_800). reflexivity. }
  split; auto. split.
  - intros (g & G) Ea. specialize (X Ea). congruence.
  - intros Ea. unfold make_eere_fan. rewrite F. cbn [rbind]. rewrite A4, E. cbn [rbind].
    rewrite nominal_eq.
    destruct (select_size (nominal_of a0)) as [[l u]|] eqn:S.
    + cbn [need rbind fst snd].
      apply select_size_some in S as (-> & L & _).
      rewrite !caps_geti by lia. cbn [rbind]. rewrite pydiv_ok.
      * cbn [rbind]. eauto.
      * unfold table_size. cbn [nsub RNum]. rewrite S_INR. pose proof ton_pos. nra.
    + apply select_size_none, nominal_iff in S. contradiction.
Qed.

Lemma eere_efficacy_interp sol k (f : Fn) l w i p lo hi :
  f_class f = EEREFan k -> f_index f = Some (l, S l) -> f_weight f = Some w ->
  nth_error (e_base k) l = Some lo -> nth_error (e_base k) (S l) = Some hi ->
  efficacy sol f i (Some p) = Ok ((1 - w) * eere_law k lo p + w * eere_law k hi p).
Proof.
  intros K I W L H. unfold efficacy. rewrite K. unfold eere_efficacy_at.
  rewrite I, W. cbn [need rbind fst snd]. unfold geti. rewrite L, H. cbn [need rbind].
  f_equal. unfold calc_quad, eere_law. cbn [nadd nsub nmul RNum]. ring.
Qed.

Lemma eere_efficacy_at_table_size sol k airflows esp (f : Fn) a0 j i p b :
  make_eere_fan k airflows esp = Ok f -> geti airflows 0 = Ok a0 ->
  length (e_base k) = 4%nat ->
  (1 <= j <= 3)%nat -> a0 = fr_cfm (400 * (2 + INR j)) ->
  nth_error (e_base k) j = Some b ->
  efficacy sol f i (Some p) = Ok (eere_law k b p).
Proof.
  intros M E0 Lb J Ea B.
  destruct (make_eere_ok _ _ _ _ _ M E0) as (l & w & L & I & W & Ew & K & _ & _ & _ & S3).
  assert (N : nominal_of a0 = table_size j).
  { subst a0. unfold nominal_of, table_size, fr_cfm. pose proof cfm_pos.
    cbn [nmul RNum]. field. lra. }
  rewrite N in *. pose proof ton_pos as T.
  assert (S0 : table_size 0 < table_size j <= table_size 3).
  { rewrite !tsize. change (INR 0) with 0.
    assert (1 <= INR j) by (apply (le_INR 1); lia).
    assert (INR j <= INR 3) by (apply le_INR; lia). split; nra. }
  specialize (S3 S0).
  assert (Lj : j = S l).
  { rewrite !tsize in S3. rewrite S_INR in S3.
    assert (A1 : INR l < INR j) by nra. assert (A2 : INR j <= INR l + 1) by nra.
    apply INR_lt in A1. rewrite <- S_INR in A2. apply INR_le in A2. lia. }
  subst j.
  assert (Ew1 : w = 1).
  { subst w. field. rewrite !tsize, S_INR. nra. }
  assert (Hl : exists lo, nth_error (e_base k) l = Some lo).
  { destruct (nth_error (e_base k) l) eqn:X; eauto. apply nth_error_None in X. lia. }
  destruct Hl as (lo & Hl).
  rewrite (eere_efficacy_interp sol k f l w i p lo b) by auto.
  f_equal. rewrite Ew1. ring.
Qed.

(** * C18 *)
Lemma resnet_ratio sol (f : Fn) i a a0 esp :
  (f_class f = RESNETPSCFan \/ f_class f = RESNETBPMFan) ->
  geti (f_airflow f) i = Ok a -> geti (f_airflow f) 0 = Ok a0 -> a0 <> 0 ->
  airflow_ratio sol f i 0 esp = Ok (a / a0).
Proof.
  intros C E E0 Z. unfold airflow_ratio, airflow.
  destruct C as [C|C]; rewrite C, E, E0; cbn [rbind]; apply pydiv_ok; auto.
Qed.

Lemma sfold_add_eff l : forall (f f' : Fn) u,
  (f_class f = RESNETPSCFan \/ f_class f = RESNETBPMFan) ->
  sfold (fun a => add_speed a None) l f = (f', Ok u) ->
  f_design_efficacy f' = f_design_efficacy f.
Proof.
  induction l as [|a l IH]; intros f f' u K H; simpl in H; inv_st; auto.
  pose proof E as E1. apply add_speed_keeps in E1 as (K1 & _).
  unfold add_speed in E. apply sbind_ok in E.
  destruct E as (s2 & f0 & E2 & H2). unfold sget in E2. inv_st.
  assert (B : base_add_speed a f0 = (s, Ok x)) by (destruct K as [K|K]; rewrite K in H2; auto).
  apply base_add_ok in B as (a0 & _ & _ & ->).
  apply IH in H; auto.
Qed.

Lemma resnet_psc_efficacy_eq sol airflows (f : Fn) i a a0 esp :
  make_resnet_psc_fan airflows = Ok f ->
  geti airflows i = Ok a -> geti airflows 0 = Ok a0 ->
  efficacy sol f i esp = Ok (psc_law (a / a0)).
Proof.
  intros M E E0. unfold make_resnet_psc_fan in M. pose proof M as M0.
  apply init_fan_facts in M as (a1 & A1 & A2 & A3 & A4 & A5 & A6 & _).
  rewrite E0 in A1. apply Ok_inj in A1. subst a1.
  unfold init_fan in M0. inv_ok.
  destruct (sfold _ _ _) as [f1 [u|x]] eqn:Ef; [|discriminate]. inv_ok. subst f1.
  apply sfold_add_eff in Ef; [|left; reflexivity].
  cbn [blank_fan f_design_efficacy] in Ef.
  unfold efficacy. rewrite A5. unfold resnet_psc_efficacy, eff_num. rewrite Ef. cbn [rbind].
  rewrite (resnet_ratio sol f i a a0 esp) by (rewrite ?A4; auto). cbn [rbind].
  f_equal. unfold psc_law, EFFICACY_SLOPE, fr_W_per_cfm. cbn [nadd nsub nmul ndiv RNum].
  replace (lit (T:=R) 0.414) with 0.414 by (rnum; lra).
  replace (lit (T:=R) 0.3) with 0.3 by (rnum; lra). rewrite lit1_R. 
  f_equal. lra.
Qed.

Lemma psc_law_1 : psc_law 1 = fr_W_per_cfm 0.414.
Proof. unfold psc_law. lra. Qed.
Lemma fr_W_mono x y : x <= y -> fr_W_per_cfm (T:=R) x <= fr_W_per_cfm y.
Proof.
  intros H. unfold fr_W_per_cfm. cbn [ndiv RNum]. pose proof cfm_pos.
  apply Rmult_le_compat_r; auto. left. apply Rinv_0_lt_compat; auto.
Qed.
Lemma fr_W_pos x : 0 < x -> 0 < fr_W_per_cfm (T:=R) x.
Proof.
  intros H. unfold fr_W_per_cfm. cbn [ndiv RNum]. pose proof cfm_pos.
  apply Rmult_lt_0_compat; auto. apply Rinv_0_lt_compat; auto.
Qed.
Lemma psc_law_mono r r' : r < r' -> psc_law r < psc_law r'.
Proof.
  intros H. unfold psc_law. apply Rmult_lt_compat_l; [apply fr_W_pos; lra|lra].
Qed.

Lemma Rpower_mono_base r r' y : 0 < r -> r < r' -> 0 < y -> Rpower r y < Rpower r' y.
Proof.
  intros P L Y. unfold Rpower. apply exp_increasing. apply Rmult_lt_compat_l; auto.
  apply ln_increasing; auto.
Qed.
Lemma ducted_law_mono r r' : 0 < r -> r < r' -> ducted_law r < ducted_law r'.
Proof.
  intros P H. unfold ducted_law. apply Rmult_lt_compat_l; [apply fr_W_pos; lra|].
  apply Rpower_mono_base; lra.
Qed.
Lemma ductless_law_mono r r' : 0 <= r -> r < r' -> ductless_law r < ductless_law r'.
Proof.
  intros P H. unfold ductless_law. apply Rmult_lt_compat_l; [apply fr_W_pos; lra|]. nra.
Qed.
Lemma ducted_law_1 : ducted_law 1 = fr_W_per_cfm 0.281.
Proof.
  unfold ducted_law, Rpower. rewrite ln_1, Rmult_0_r, exp_0. lra.
Qed.

Lemma Rpower_175_le r : 0 < r <= 1 -> r ^ 2 <= Rpower r 1.75 <= r.
Proof.
  intros (P & L).
  assert (Ln : ln r <= 0).
  { rewrite <- ln_1. destruct L as [L| ->]; [left; apply ln_increasing; lra|lra]. }
  assert (M : forall x y, x <= y -> exp x <= exp y).
  { intros x y [H| ->]; [left; apply exp_increasing; auto|lra]. }
  split.
  - replace (r ^ 2) with (Rpower r 2).
    + unfold Rpower. apply M. nra.
    + change 2 with (INR 2). rewrite Rpower_pow; auto.
  - rewrite <- (exp_ln r) at 2 by auto. unfold Rpower. apply M. nra.
Qed.

Lemma bpm_below_psc r s : 0 < r <= 1 -> 0 <= s <= 1 ->
  (1 - s) * ductless_law r + s * ducted_law r < psc_law r.
Proof.
  intros Hr Hs. pose proof (Rpower_175_le r Hr) as (B1 & B2).
  unfold ductless_law, ducted_law, psc_law, fr_W_per_cfm. cbn [ndiv RNum].
  pose proof cfm_pos as C. set (z := / cfm).
  assert (Z : 0 < z) by (apply Rinv_0_lt_compat; auto).
  unfold Rdiv. fold z.
  assert (A1 : r ^ 2 <= r) by (simpl; nra).
  assert (A2 : (1 - s) * (0.171 * r ^ 2) + s * (0.281 * Rpower r 1.75) < 0.414 * (0.3 * r + 0.7)).
  { assert ((1 - s) * (0.171 * r ^ 2) <= (1 - s) * (0.171 * r)) by nra.
    assert (s * (0.281 * Rpower r 1.75) <= s * (0.281 * r)) by nra.
    assert (s * r <= 1) by nra. nra. }
  apply (Rmult_lt_compat_l z) in A2; auto. lra.
Qed.

Lemma half_inH2O_pos : 0 < fr_inH2O (T:=R) (lit 0.5).
Proof. unfold fr_inH2O, inH2O. rnum. lra. Qed.
Lemma half_inH2O : fr_inH2O (T:=R) (lit 0.5) = fr_inH2O 0.5.
Proof. unfold fr_inH2O, inH2O. rnum. lra. Qed.

Lemma resnet_bpm_pressure sol airflows (f : Fn) i a a0 :
  sound_brentq 0 sol -> make_resnet_bpm_fan airflows = Ok f ->
  geti airflows i = Ok a -> geti airflows 0 = Ok a0 -> 0 < a0 -> 0 <= a <= sqrt 3 * a0 ->
  operating_pressure sol f i = Ok (fr_inH2O 0.5 * (a / a0) ^ 2).
Proof.
  intros S M E E0 P0 Pa. unfold make_resnet_bpm_fan in M.
  apply init_fan_facts in M as (a1 & A1 & A2 & A3 & A4 & A5 & A6 & A7 & _).
  rewrite E0 in A1. apply Ok_inj in A1. subst a1.
  destruct (operating_pressure_total 0 sol f i a a0) as (x & X & T); auto.
  - right; right; auto.
  - rewrite A6. apply half_inH2O_pos.
  - rewrite A7, A6. auto.
  - rewrite A4. auto.
  - tauto.
  - tauto.
  - rewrite X. f_equal.
    assert (Z : x - system_pressure f a = 0).
    { pose proof (Rabs_pos (x - system_pressure f a)).
      destruct (Req_dec (x - system_pressure f a) 0); auto.
      apply Rabs_pos_lt in H0. lra. }
    assert (Ex : x = system_pressure f a) by lra. rewrite Ex.
    rewrite system_pressure_eq, A7.
    pose proof half_inH2O_pos as Q. rewrite half_inH2O in *.
    set (h := fr_inH2O 0.5) in *.
    replace (a * (sqrt h / a0) * (a * (sqrt h / a0))) with ((sqrt h * sqrt h) * (a / a0) ^ 2)
      by (field; lra).
    rewrite sqrt_sqrt by lra. auto.
Qed.

Lemma resnet_bpm_efficacy_eq sol airflows (f : Fn) i a a0 esp :
  sound_brentq 0 sol -> make_resnet_bpm_fan airflows = Ok f ->
  geti airflows i = Ok a -> geti airflows 0 = Ok a0 -> 0 < a0 -> 0 < a <= sqrt 3 * a0 ->
  let r := a / a0 in
  let dp := fr_inH2O 0.5 * r ^ 2 in
  let s := match esp with Some p => p / dp | None => 1 end in
  0 < dp /\
  efficacy sol f i esp = Ok ((1 - s) * ductless_law r + s * ducted_law r).
Proof.
  intros S M E E0 P0 Pa r dp s.
  assert (Rp : 0 < r) by (apply Rmult_lt_0_compat; [lra|apply Rinv_0_lt_compat; auto]).
  assert (D : 0 < dp).
  { unfold dp. apply Rmult_lt_0_compat; [rewrite <- half_inH2O; apply half_inH2O_pos|].
    apply pow_lt; auto. }
  split; auto.
  pose proof (resnet_bpm_pressure sol airflows f i a a0 S M E E0 P0 ltac:(lra)) as OP.
  fold r in OP. fold dp in OP.
  unfold make_resnet_bpm_fan in M.
  apply init_fan_facts in M as (a1 & A1 & A2 & A3 & A4 & A5 & A6 & A7 & _).
  unfold efficacy. rewrite A5. unfold resnet_bpm_efficacy. rewrite OP. cbn [rbind].
  rewrite !(resnet_ratio sol f i a a0) by (rewrite ?A4; auto; lra). cbn [rbind]. fold r.
  unfold pypow. rewrite lit0_R. cbn [nltb neqb RNum].
  destruct (Rltb_spec r 0); [lra|]. destruct (Reqb_spec r 0); [lra|]. cbn [rbind].
  rewrite pydiv_ok by lra. cbn [rbind]. f_equal.
  cbn [nadd nsub nmul npow RNum RNumX].
  replace (lit (T:=R) 1.75) with 1.75 by (rnum; lra).
  replace (DUCTED_DESIGN_EFFICACY (T:=R)) with (fr_W_per_cfm (T:=R) 0.281)
    by (unfold DUCTED_DESIGN_EFFICACY; f_equal; rnum; lra).
  replace (DUCTLESS_DESIGN_EFFICACY (T:=R)) with (fr_W_per_cfm (T:=R) 0.171)
    by (unfold DUCTLESS_DESIGN_EFFICACY; f_equal; rnum; lra).
  unfold ducted_law, ductless_law.
  set (U := fr_W_per_cfm 0.281 * Rpower r 1.75). set (V := fr_W_per_cfm 0.171).
  subst s. destruct esp as [p|]; field; lra.
Qed.

(** * C19 *)
Lemma insert_by_perm key i l : Permutation (i :: l) (insert_by (T:=R) key i l).
Proof.
  induction l as [|j l IH]; simpl; auto.
  destruct (Rltb _ _); auto.
  eapply Permutation_trans; [apply perm_swap|]. constructor. auto.
Qed.

Lemma insert_by_sorted key i l :
  StronglySorted (fun a b => key a <= key b) l ->
  StronglySorted (fun a b => key a <= key b) (insert_by (T:=R) key i l).
Proof.
  induction l as [|j l IH]; intros H; simpl.
  - repeat constructor.
  - inversion H; subst. destruct (Rltb_spec (key i) (key j)).
    + constructor; auto. constructor; [lra|].
      eapply Forall_impl; [|eassumption]. simpl. intros; lra.
    + constructor; auto.
      eapply Permutation_Forall; [apply insert_by_perm|]. constructor; auto. lra.
Qed.

Lemma argsort_spec (l : list R) :
  orders_by (fun i => nth i l 0) (length l) (argsort l).
Proof.
  unfold orders_by, argsort. rewrite lit0_R.
  set (key := fun k => nth k l 0).
  assert (G : forall xs acc,
    StronglySorted (fun i j => key i <= key j) acc ->
    let o := fold_left (fun acc i => insert_by (T:=R) key i acc) xs acc in
    Permutation (xs ++ acc) o /\ StronglySorted (fun i j => key i <= key j) o).
  { induction xs as [|x xs IH]; intros acc H; simpl; auto.
    destruct (IH (insert_by (T:=R) key x acc)) as (P & S); [apply insert_by_sorted; auto|].
    split; auto. eapply Permutation_trans; [|exact P].
    simpl. eapply Permutation_trans; [apply Permutation_middle|].
    apply Permutation_app_head. apply insert_by_perm. }
  specialize (G (seq 0 (length l)) []). rewrite app_nil_r in G. apply G. constructor.
Qed.

Lemma StronglySorted_ext_in {A} (P Q : A -> A -> Prop) l :
  (forall a b, In a l -> In b l -> P a b -> Q a b) ->
  StronglySorted P l -> StronglySorted Q l.
Proof.
  induction l as [|x l IH]; intros H S; constructor; inversion S; subst.
  - apply IH; auto. intros; apply H; simpl; auto.
  - apply Forall_forall. intros y Y. apply H; simpl; auto.
    eapply Forall_forall in H3; eauto.
Qed.

Lemma speed_order_map_spec sol (f : Fn) order :
  get_speed_order_map sol f = Ok order ->
  exists q : nat -> R,
    (forall i, (i < f_n f)%nat -> airflow sol f i (Some 0) = Ok (q i))
    /\ orders_by q (f_n f) order.
Proof.
  unfold get_speed_order_map. intros H. inv_ok. subst order. rewrite lit0_R in E.
  exists (fun i => nth i v 0).
  assert (L : length v = f_n f). { apply rmapM_length in E. rewrite seq_length in E. auto. }
  split.
  - intros i Hi. apply rmapM_ok in E.
    assert (N : nth_error v i = Some (nth i v 0)) by (apply nth_error_nth'; lia).
    assert (M : nth_error (seq 0 (f_n f)) i = Some i).
    { rewrite nth_error_nth' with (d := 0%nat) by (rewrite seq_length; auto).
      rewrite seq_nth by auto. reflexivity. }
    exact (Forall2_nth_error _ _ _ i _ _ E M N).
  - pose proof (argsort_spec v) as A. rewrite L in A. auto.
Qed.

(** The map exists whenever every airflow can be evaluated. *)
Lemma speed_order_map_total sol (f : Fn) :
  (forall i, (i < f_n f)%nat -> exists q, airflow sol f i (Some 0) = Ok q) ->
  exists order, get_speed_order_map sol f = Ok order.
Proof.
  intros H. unfold get_speed_order_map. rewrite lit0_R.
  assert (G : forall l, (forall i, In i l -> exists q, airflow sol f i (Some 0) = Ok q) ->
     exists v, rmapM (fun i => airflow sol f i (Some 0)) l = Ok v).
  { induction l as [|x l IH]; intros HH; simpl; [eauto|].
    destruct (HH x) as (q & Q); [left; auto|]. rewrite Q. simpl.
    destruct IH as (v & V); [intros; apply HH; right; auto|]. rewrite V. simpl. eauto. }
  destruct (G (seq 0 (f_n f))) as (v & V).
  - intros i I. apply H. apply in_seq in I. lia.
  - rewrite V. simpl. eauto.
Qed.
