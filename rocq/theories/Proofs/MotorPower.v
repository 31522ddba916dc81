(** The maximum power of the motor in the ASHRAE 205 export (fan.py:227-246). *)
From Coq Require Import QArith Reals Lra Psatz Lia List Permutation Sorted.
From Verif.Base Require Import Num Res Tac.
From Verif.Model Require Import Units Util Fan Repr205.
From Verif.Spec Require Import FanSpec FanRatioSpec Repr205Spec.
From Verif.Proofs Require Import UnitsR FanProofs FanProofs2 FanProofs3 FanProofs4 FanRatio Repr205Proofs2.
Import ListNotations.
Local Open Scope R_scope.

Lemma lit12 : lit (T:=R) 1.2 = 1.2.
Proof. rnum. lra. Qed.

Lemma lasti_in {A} (l : list A) x : lasti l = Ok x -> exists l', l = l' ++ [x].
Proof.
  unfold lasti. destruct (rev l) as [|y r] eqn:E; [discriminate|]. intros H. apply Ok_inj in H. subst y.
  exists (rev r). rewrite <- (rev_involutive l), E. reflexivity.
Qed.

Lemma sorted_last (q : nat -> R) l x : StronglySorted (fun i j => q i <= q j) (l ++ [x]) ->
  forall y, In y (l ++ [x]) -> q y <= q x.
Proof.
  induction l as [|z l IH]; cbn [app]; intros S y I.
  - destruct I as [->|[]]. lra.
  - inversion S; subst. destruct I as [<-|I]; [|apply IH; auto].
    eapply Forall_forall in H2; [exact H2|]. apply in_or_app. right. left. reflexivity.
Qed.

Lemma spaced_range a b n l p : evenly_spaced a b n l -> (1 < n)%nat -> a <= b -> In p l -> a <= p <= b.
Proof.
  intros (L & S) N AB I. apply In_nth_error in I as (i & Hi).
  assert (Hn : (i < n)%nat) by (rewrite <- L; apply nth_error_Some; congruence).
  rewrite S in Hi by exact Hn. injection Hi as <-.
  assert (0 <= INR i) by apply pos_INR.
  assert (INR i <= INR (n - 1)) by (apply le_INR; lia).
  assert (1 <= INR (n - 1)) by (apply (le_INR 1); lia).
  assert (0 <= INR i * ((b - a) / INR (n - 1)) <= b - a); [|lra].
  replace (INR i * ((b - a) / INR (n - 1))) with ((INR i / INR (n - 1)) * (b - a)) by (field; lra).
  assert (0 <= INR i / INR (n - 1)) by (apply Rmult_le_pos; [lra|apply Rlt_le, Rinv_0_lt_compat; lra]).
  assert (INR i / INR (n - 1) <= 1) by (apply Rmult_le_reg_r with (INR (n - 1)); [lra|]; unfold Rdiv; rewrite Rmult_assoc, Rinv_l; lra).
  split; nra.
Qed.

(** What the export says of the motor, and of the powers in the map. *)
Lemma motor_number : forall sol (f : fan R) r, fan_205 sol f = Ok r ->
  exists i q, (i < f_n f)%nat
    /\ (forall j, (j < f_n f)%nat -> airflow sol f j (Some 0) = Ok (q j) /\ q j <= q i)
    /\ match f_class f with
       | ECMFlowFan (Some w) => fr_max_power r = w
       | ECMFlowFan None => exists w, power sol f i (Some (fr_inH2O 1.2)) = Ok w /\ fr_max_power r = 1.2 * w
       | _ => exists w, power sol f i (Some 0) = Ok w /\ fr_max_power r = 1.2 * w
       end.
Proof.
  intros sol f r E. unfold fan_205 in E.
  apply rbind_ok in E. destruct E as (order & Eo & E).
  apply rbind_ok in E. destruct E as (mx & Em & E).
  apply rbind_ok in E. destruct E as (mp & Ep & E).
  apply rbind_ok in E. destruct E as (m & Ef & E).
  apply rbind_ok in E. destruct E as (nom & En & E).
  apply Ok_inj in E. subst r. cbn [fr_max_power].
  destruct (speed_order_map_spec _ _ _ Eo) as (q & Hq & Perm & Srt).
  apply lasti_in in Em as (l & ->).
  exists mx, q. split; [|split].
  - assert (I : In mx (seq 0 (f_n f))).
    { apply (Permutation_in mx (Permutation_sym Perm)). apply in_or_app. right. left. reflexivity. }
    apply in_seq in I. lia.
  - intros j J. split; [apply Hq; exact J|]. apply (sorted_last q l mx Srt).
    apply (Permutation_in j Perm). apply in_seq. lia.
  - unfold fan_max_power in Ep. rewrite lit12, lit0_R in Ep.
    destruct (f_class f) as [| |[w|]|k| |];
      try (apply rbind_ok in Ep as (w & W & Ep); apply Ok_inj in Ep; subst mp; exists w; split; [exact W|cbn [nmul RNum]; ring]).
    apply Ok_inj in Ep. auto.
Qed.

Lemma map_powers : forall sol (f : fan R) r, fan_205 sol f = Ok r ->
  exists top, evenly_spaced 0 top 6 (fr_pressure r)
  /\ (match f_class f with PSCFan => False | _ => True end -> top = fr_inH2O 1.2)
  /\ (forall w, In w (fr_power r) <->
       exists i p, (i < f_n f)%nat /\ In p (fr_pressure r) /\ power sol f i (Some p) = Ok w).
Proof.
  intros sol f r E. pose proof E as E'.
  destruct (fan_map_layout _ _ _ E) as (_ & (top & Sp & Top) & _ & _ & _ & _ & order & Eo & H & _).
  exists top. split; [exact Sp|]. split; [exact Top|]. intros w.
  destruct (speed_order_map_spec _ _ _ Eo) as (q & _ & Perm & _). split.
  - intros I. unfold fan_205 in E'.
    apply rbind_ok in E'. destruct E' as (order' & Eo' & E').
    assert (order' = order) as -> by (rewrite Eo in Eo'; apply Ok_inj in Eo'; auto).
    apply rbind_ok in E'. destruct E' as (mx & Em & E').
    apply rbind_ok in E'. destruct E' as (mp & Ep & E').
    apply rbind_ok in E'. destruct E' as (m & Ef & E').
    apply rbind_ok in E'. destruct E' as (nom & En & E').
    apply Ok_inj in E'. subst r. cbn [fr_power fr_pressure] in *.
    unfold fan_205_map in Ef. rewrite Eo in Ef. cbn [rbind] in Ef. rewrite Em in Ef. cbn [rbind] in Ef.
    apply rbind_ok in Ef. destruct Ef as (tp & Et & Ef).
    apply rbind_ok in Ef. destruct Ef as (rows & Er & Ef). apply Ok_inj in Ef. subst m.
    cbn [fst snd] in *. apply in_map_iff in I as (e & <- & I). apply in_concat in I as (row & Ir & I).
    apply rmapM_ok in Er.
    assert (G : forall {A B} (P : A -> B -> Prop) l l' y, Forall2 P l l' -> In y l' -> exists x, In x l /\ P x y).
    { clear. induction 1; intros I; [destruct I|]. destruct I as [<-|I]; [exists x; split; [left|]; auto|].
      destruct (IHForall2 I) as (x' & X & Y). exists x'. split; [right|]; auto. }
    destruct (G _ _ _ _ _ _ Er Ir) as (s & Is & Es). apply rmapM_ok in Es.
    destruct (G _ _ _ _ _ _ Es I) as (p & Ip & Ee).
    apply fan_map_entry_inv in Ee as (i & w & a & x & Ni & Ew & _ & _ & ->).
    exists i, p. cbn [fst]. split; [|split; assumption].
    apply nth_error_In in Ni. apply (Permutation_in i (Permutation_sym Perm)), in_seq in Ni. lia.
  - intros (i & p & Hi & Ip & Ew).
    assert (Io : In i order) by (apply (Permutation_in i Perm), in_seq; lia).
    apply In_nth_error in Io as (n & Nn). apply In_nth_error in Ip as (j & Nj).
    assert (Hn : (n < f_n f)%nat).
    { rewrite <- (seq_length (f_n f) 0), (Permutation_length Perm). apply nth_error_Some. congruence. }
    destruct (H (S n) p j) as (i' & w' & a & x & Ni & Ew' & Vw & _); [lia|exact Nj|].
    replace (S n - 1)%nat with n in * by lia. rewrite Nn in Ni. injection Ni as <-.
    rewrite Ew in Ew'. apply Ok_inj in Ew'. subst w'.
    unfold value_at in Vw.
    match type of Vw with context[match ?x with Some _ => _ | None => _ end] => destruct x as [k|]; [|discriminate] end.
    eapply nth_error_In. exact Vw.
Qed.

Lemma geti_lt {A} (l : list A) i : (i < length l)%nat -> exists x, geti l i = Ok x.
Proof.
  intros H. unfold geti. destruct (nth_error l i) eqn:E; cbn; [eauto|].
  apply nth_error_None in E. lia.
Qed.

Lemma geti_forall {A} (P : A -> Prop) l i x : Forall P l -> geti l i = Ok x -> P x.
Proof. intros F E. apply geti_ok in E. eapply Forall_forall; [exact F|]. eapply nth_error_In. exact E. Qed.

Lemma ratio_le a b c : 0 < c -> a <= b -> a / c <= b / c.
Proof. intros C H. unfold Rdiv. apply Rmult_le_compat_r; [left; apply Rinv_0_lt_compat; exact C|exact H]. Qed.

Lemma slope_pos : 0 < fr_W_per_cfm_inH2O (T:=R) 0.235.
Proof.
  pose proof cfm_pos. pose proof inH2O_pos. unfold fr_W_per_cfm_inH2O. cbn [ndiv RNum].
  apply Rdiv_lt_0_compat; [apply Rdiv_lt_0_compat; lra|assumption].
Qed.

Lemma ecm_covers : forall sol airflows esp eff mx (f : fan R) r,
  make_ecm_fan airflows esp eff mx = Ok f -> fan_205 sol f = Ok r ->
  Forall (fun a => 0 < a) airflows -> fr_W_per_cfm_inH2O 0.235 * esp <= eff ->
  forall w, In w (fr_power r) -> w <= fr_max_power r.
Proof.
  intros sol airflows esp eff mx f r M E F S w I. pose proof slope_pos as SP. pose proof inH2O_pos as IP.
  destruct (motor_number _ _ _ E) as (i & q & Hi & Hq & Mx).
  destruct (map_powers _ _ _ E) as (top & Sp & Top & H). apply H in I as (j & p & Hj & Ip & Ew).
  pose proof M as M'. unfold make_ecm_fan in M'. apply rbind_ok in M' as (a0 & E0 & M').
  apply rbind_ok in M' as (? & _ & M').
  pose proof (init_fan_facts _ _ _ _ _ _ _ M') as (a0' & E0' & P0 & Z0 & A & C & _).
  rewrite E0 in E0'. apply Ok_inj in E0'. subst a0'.
  pose proof (init_fan_par0 _ _ _ _ _ _ _ M') as (_ & _ & N).
  pose proof (geti_forall _ _ _ _ F E0) as PA0. cbv beta in PA0.
  destruct (geti_lt airflows i) as (a & Ea); [lia|]. destruct (geti_lt airflows j) as (b & Eb); [lia|].
  pose proof (geti_forall _ _ _ _ F Ea) as PA. pose proof (geti_forall _ _ _ _ F Eb) as PB. cbv beta in PA, PB.
  assert (Sx : forall j b p, geti airflows j = Ok b -> power sol f j (Some p)
    = Ok (match mx with Some m => Rmin (ecm_law eff esp b (b / a0) p) m | None => ecm_law eff esp b (b / a0) p end)).
  { intros j' b' p' G. apply (ecm_speeds sol airflows esp eff mx f f [] a0 j' b' p' M E0); auto.
    rewrite A. exact G. }
  rewrite (Sx j b p Eb) in Ew. apply Ok_inj in Ew. subst w. rewrite C in Mx, Top. specialize (Top Logic.I). subst top.
  destruct mx as [m|].
  - rewrite Mx. apply Rmin_r.
  - destruct Mx as (w & Ew & ->). rewrite (Sx i a _ Ea) in Ew. apply Ok_inj in Ew. subst w.
    assert (Q : forall j b, (j < f_n f)%nat -> geti airflows j = Ok b -> q j = b).
    { intros j' b' Hj' G. destruct (Hq j' Hj') as (Q & _). unfold airflow, airflow_at, ecm_airflow_at in Q.
      rewrite C, A, G in Q. rewrite lit0_R in Q. cbn [neqb RNum] in Q.
      destruct (Reqb_spec 0 0) as [_|X]; [apply Ok_inj in Q; auto|congruence]. }
    destruct (Hq j Hj) as (_ & L). rewrite (Q i a Hi Ea), (Q j b Hj Eb) in L.
    assert (P12 : 0 <= fr_inH2O 1.2) by (unfold fr_inH2O; cbn [nmul RNum]; nra).
    pose proof (spaced_range _ _ _ _ _ Sp ltac:(lia) P12 Ip) as (P1 & P2).
    unfold ecm_law. set (k := fr_W_per_cfm_inH2O 0.235) in *. set (t := fr_inH2O 1.2) in *.
    assert (R0 : 0 < b / a0) by (apply Rdiv_lt_0_compat; lra).
    assert (R1 : b / a0 <= a / a0) by (apply ratio_le; lra).
    assert (R2 : (b / a0) ^ 2 <= (a / a0) ^ 2) by (apply pow_incr; lra).
    assert (R3 : 0 <= (b / a0) ^ 2) by apply pow2_ge_0.
    set (xb := (b / a0) ^ 2) in *. set (xa := (a / a0) ^ 2) in *. clearbody xb xa k t.
    assert (G1 : (eff - k * esp) * xb + k * p <= (eff - k * esp) * xa + k * t).
    { assert ((eff - k * esp) * xb <= (eff - k * esp) * xa) by (apply Rmult_le_compat_l; lra).
      assert (k * p <= k * t) by (apply Rmult_le_compat_l; lra). lra. }
    assert (G0 : 0 <= (eff - k * esp) * xb + k * p).
    { assert (0 <= (eff - k * esp) * xb) by (apply Rmult_le_pos; lra).
      assert (0 <= k * p) by (apply Rmult_le_pos; lra). lra. }
    set (g := (eff - k * esp) * xb + k * p) in *. set (h := (eff - k * esp) * xa + k * t) in *. clearbody g h.
    assert (b * g <= a * h) by (apply Rmult_le_compat; lra).
    assert (0 <= a * h) by (apply Rmult_le_pos; lra). lra.
Qed.

Lemma resnet_psc_covers : forall sol airflows (f : fan R) r,
  make_resnet_psc_fan airflows = Ok f -> fan_205 sol f = Ok r ->
  Forall (fun a => 0 < a) airflows ->
  forall w, In w (fr_power r) -> w <= fr_max_power r.
Proof.
  intros sol airflows f r M E F w I.
  destruct (motor_number _ _ _ E) as (i & q & Hi & Hq & Mx).
  destruct (map_powers _ _ _ E) as (top & Sp & Top & H). apply H in I as (j & p & Hj & Ip & Ew).
  pose proof M as M'. unfold make_resnet_psc_fan in M'.
  pose proof (init_fan_facts _ _ _ _ _ _ _ M') as (a0 & E0 & P0 & Z0 & A & C & _).
  pose proof (init_fan_par0 _ _ _ _ _ _ _ M') as (_ & _ & N).
  pose proof (geti_forall _ _ _ _ F E0) as PA0. cbv beta in PA0.
  destruct (geti_lt airflows i) as (a & Ea); [lia|]. destruct (geti_lt airflows j) as (b & Eb); [lia|].
  pose proof (geti_forall _ _ _ _ F Ea) as PA. pose proof (geti_forall _ _ _ _ F Eb) as PB. cbv beta in PA, PB.
  rewrite C in Mx. destruct Mx as (w' & Ew' & ->).
  rewrite (power_times sol f i (Some 0) a (psc_law (a / a0))) in Ew'; auto;
    [|rewrite A; exact Ea|eapply resnet_psc_efficacy_eq; eauto].
  rewrite (power_times sol f j (Some p) b (psc_law (b / a0))) in Ew; auto;
    [|rewrite A; exact Eb|eapply resnet_psc_efficacy_eq; eauto].
  apply Ok_inj in Ew, Ew'. subst w w'.
  assert (Q : forall j b, (j < f_n f)%nat -> geti airflows j = Ok b -> q j = b).
  { intros j' b' Hj' G. destruct (Hq j' Hj') as (Q & _). unfold airflow in Q.
    rewrite C, A, G in Q. apply Ok_inj in Q. auto. }
  destruct (Hq j Hj) as (_ & L). rewrite (Q i a Hi Ea), (Q j b Hj Eb) in L.
  assert (R0 : 0 < b / a0) by (apply Rdiv_lt_0_compat; lra).
  assert (R1 : b / a0 <= a / a0) by (apply ratio_le; lra).
  assert (P : 0 <= psc_law (b / a0) <= psc_law (a / a0)).
  { pose proof cfm_pos. unfold psc_law, fr_W_per_cfm. cbn [ndiv RNum].
    assert (0 < 0.414 / cfm) by (apply Rdiv_lt_0_compat; lra). split; nra. }
  assert (b * psc_law (b / a0) <= a * psc_law (a / a0)) by (apply Rmult_le_compat; lra).
  assert (0 <= a * psc_law (a / a0)) by (apply Rmult_le_pos; lra). lra.
Qed.

Lemma fourth_root (x : R) : 1 <= x <= sqrt 3 -> 0.77 <= Rpower x 1.75 / x ^ 2.
Proof.
  intros (L & U).
  assert (S3 : sqrt 3 <= 1.7321).
  { apply Rsqr_incr_0_var; [|lra]. unfold Rsqr. rewrite sqrt_sqrt by lra. lra. }
  assert (P2 : x ^ 2 = Rpower x 2) by (rewrite <- (Rpower_pow 2) by lra; f_equal; cbn; lra).
  assert (Rq : Rpower x 1.75 / x ^ 2 = / Rpower x 0.25).
  { rewrite P2. unfold Rdiv. rewrite <- !Rpower_Ropp, <- Rpower_plus. f_equal. lra. }
  rewrite Rq. set (y := Rpower x 0.25).
  assert (Py : 0 < y) by apply exp_pos.
  assert (Y4 : y ^ 4 = x).
  { rewrite <- (Rpower_pow 4 y) by exact Py. unfold y. rewrite Rpower_mult.
    replace (0.25 * INR 4) with 1 by (cbn; lra). apply Rpower_1. lra. }
  assert (Yu : y <= 1.29).
  { destruct (Rle_dec y 1.29); [assumption|]. exfalso. assert (1.29 ^ 4 <= y ^ 4) by (apply pow_incr; lra). lra. }
  apply Rmult_le_reg_r with y; [exact Py|]. rewrite Rinv_l by lra. lra.
Qed.

Lemma resnet_bpm_exceeds : forall sol airflows (f : fan R) r a0,
  sound_brentq 0 sol -> make_resnet_bpm_fan airflows = Ok f -> fan_205 sol f = Ok r ->
  geti airflows 0 = Ok a0 -> 0 < a0 ->
  exists w, In w (fr_power r) /\ fr_max_power r < w.
Proof.
  intros sol airflows f r a0 S M E E0 PA0. pose proof inH2O_pos as IP. pose proof cfm_pos as CP.
  destruct (motor_number _ _ _ E) as (i & q & Hi & Hq & Mx).
  destruct (map_powers _ _ _ E) as (top & Sp & Top & H).
  pose proof M as M'. unfold make_resnet_bpm_fan in M'.
  pose proof (init_fan_facts _ _ _ _ _ _ _ M') as (a0' & E0' & P0 & Z0 & A & C & Ed & _).
  rewrite E0 in E0'. apply Ok_inj in E0'. subst a0'.
  pose proof (init_fan_par0 _ _ _ _ _ _ _ M') as (_ & _ & N).
  destruct (geti_lt airflows i) as (a & Ea); [lia|].
  rewrite C in Mx, Top. specialize (Top Logic.I). subst top. destruct Mx as (w0 & Ew0 & Emx).
  assert (Q : forall j b, (j < f_n f)%nat -> geti airflows j = Ok b -> q j = b).
  { intros j' b' Hj' G. destruct (Hq j' Hj') as (Q & _). unfold airflow in Q.
    rewrite C, A, G in Q. apply Ok_inj in Q. auto. }
  assert (H0 : (0 < f_n f)%nat) by lia.
  destruct (Hq 0%nat H0) as (_ & L). rewrite (Q i a Hi Ea), (Q 0%nat a0 H0 E0) in L.
  assert (Half : fr_inH2O (T:=R) (lit 0.5) = fr_inH2O 0.5) by (f_equal; rnum; lra).
  assert (Le : a <= sqrt 3 * a0).
  { destruct (Rle_dec a (sqrt 3 * a0)) as [Y|Y]; [exact Y|]. exfalso.
    destruct (operating_pressure_made 0 sol f f [] i a a0) as (_ & Bad); auto.
    - apply made_resnet_bpm with airflows. exact M.
    - unfold constant_flow. auto.
    - rewrite A. exact E0.
    - rewrite Ed, Half. unfold fr_inH2O. cbn [nmul RNum]. nra.
    - rewrite A. exact Ea.
    - lra.
    - unfold power in Ew0. rewrite C in Ew0. apply rbind_ok in Ew0 as (? & _ & Ew0).
      apply rbind_ok in Ew0 as (? & X & _). unfold efficacy in X. rewrite C in X.
      unfold resnet_bpm_efficacy in X. rewrite Bad in X by lra. discriminate. }
  assert (Ip : In (fr_inH2O 1.2) (fr_pressure r)).
  { destruct Sp as (Ln & Sx). apply (nth_error_In _ 5). rewrite Sx by lia. f_equal.
    cbn [Nat.sub INR]. field. }
  destruct (resnet_bpm_efficacy_eq sol _ _ i _ _ (Some 0) S M Ea E0 PA0) as (D & Ef0); [lra|].
  destruct (resnet_bpm_efficacy_eq sol _ _ i _ _ (Some (fr_inH2O 1.2)) S M Ea E0 PA0) as (_ & Ef1); [lra|].
  cbv zeta in *.
  rewrite (power_times sol f i (Some 0) a _ (or_intror C) ltac:(rewrite A; exact Ea) Ef0) in Ew0.
  apply Ok_inj in Ew0. subst w0.
  eexists. split.
  { apply H. exists i, (fr_inH2O 1.2). split; [exact Hi|]. split; [exact Ip|].
    rewrite (power_times sol f i (Some (fr_inH2O 1.2)) a _ (or_intror C) ltac:(rewrite A; exact Ea) Ef1).
    reflexivity. }
  rewrite Emx. set (x := a / a0) in *.
  assert (X : 1 <= x <= sqrt 3).
  { unfold x. split; apply Rmult_le_reg_r with a0; try exact PA0; unfold Rdiv; rewrite Rmult_assoc, Rinv_l; lra. }
  pose proof (fourth_root x X) as G.
  assert (X2 : 1 <= x ^ 2 <= 3).
  { split; [nra|]. replace 3 with (sqrt 3 * sqrt 3) by (apply sqrt_sqrt; lra). nra. }
  unfold ductless_law, ducted_law, fr_W_per_cfm, fr_inH2O. cbn [nmul ndiv RNum].
  set (z := Rpower x 1.75) in *. set (y := x ^ 2) in *.
  set (c := cfm) in *. set (h := inH2O) in *. clearbody c h.
  replace 1.2 with (6 / 5) by lra. replace 0.5 with (1 / 2) by lra.
  replace 0.171 with (171 / 1000) by lra. replace 0.281 with (281 / 1000) by lra.
  match goal with |- ?l < ?r =>
    replace l with (a / c * (6 / 5 * (171 / 1000) * y)) by (field; repeat split; lra);
    replace r with (a / c * (171 / 1000 * y - 12 / 5 * (171 / 1000) + 12 / 5 * (281 / 1000) * (z / y)))
      by (field; repeat split; lra)
  end.
  apply Rmult_lt_compat_l; [apply Rdiv_lt_0_compat; lra|]. lra.
Qed.

(** * A constant efficacy, a PSC fan *)
Lemma constant_power : forall sol airflows esp eff (f : fan R),
  make_constant_efficacy_fan airflows esp (EffNum eff) = Ok f ->
  f_class f = ConstantEfficacyFan /\ f_airflow f = airflows /\ f_n f = length airflows /\ f_design_esp f = esp
  /\ (forall k a p, (k < f_n f)%nat -> geti airflows k = Ok a -> power sol f k p = Ok (a * eff)).
Proof.
  intros sol airflows esp eff f M.
  unfold make_constant_efficacy_fan in M. apply rbind_ok in M as (f0 & M0 & M).
  pose proof (init_fan_facts _ _ _ _ _ _ _ M0) as (a0 & E0 & P0 & Z0 & A & C & Ed & _).
  pose proof (init_fan_par0 _ _ _ _ _ _ _ M0) as (_ & _ & N).
  assert (D : f_design_efficacy f0 = EffNum eff).
  { revert M0. clear. unfold init_fan. intros M. inv_ok.
    destruct (sfold _ _ _) as [f1 [u|x]] eqn:Ef; [|discriminate]. inv_ok. subst f1.
    assert (G : forall l (f f' : fan R) u, f_class f = ConstantEfficacyFan ->
      sfold (fun a => add_speed a None) l f = (f', Ok u) -> f_design_efficacy f' = f_design_efficacy f).
    { clear. induction l as [|a l IH]; intros f f' u C S; cbn [sfold] in S; [inv_st; auto|].
      apply sbind_ok in S as (f1 & u1 & S1 & S). pose proof S1 as S2.
      apply add_speed_keeps in S2 as (K & _). rewrite (IH f1 f' u); [|congruence|exact S].
      unfold add_speed, sbind, sget in S1. rewrite C in S1. unfold const_add_speed in S1.
      apply sbind_ok in S1 as (f2 & u2 & S1 & S3). unfold sret in S3. injection S3 as <- _.
      revert S1. unfold base_add_speed, sbind, smod, sget, slift.
      destruct (lasti _); [|discriminate]. destruct (geti _ _); [|discriminate].
      destruct (pydiv _ _); [|discriminate]. intros S1. injection S1 as <- _. reflexivity. }
    apply G in Ef; [exact Ef|reflexivity]. }
  rewrite D in M. apply Ok_inj in M.
  assert (Cf : f_class f = ConstantEfficacyFan) by (subst f; exact C).
  assert (Af : f_airflow f = airflows) by (subst f; exact A).
  assert (Nf : f_n f = length airflows) by (subst f; exact N).
  assert (Df : f_design_efficacy f = EffList (repeat eff (f_n f0))) by (subst f; reflexivity).
  assert (Pw : forall k a p, (k < f_n f)%nat -> geti airflows k = Ok a -> power sol f k p = Ok (a * eff)).
  { intros k a p' Hk G. unfold power, airflow, efficacy. rewrite Cf, Af, G, Df. cbn [rbind].
    unfold geti. rewrite (nth_error_nth' _ eff) by (rewrite repeat_length; lia).
    rewrite nth_repeat. reflexivity. }
  assert (Edf : f_design_esp f = esp) by (subst f; exact Ed).
  repeat split; auto.
Qed.

Lemma constant_covers : forall sol airflows esp eff (f : fan R) r,
  make_constant_efficacy_fan airflows esp (EffNum eff) = Ok f -> fan_205 sol f = Ok r ->
  Forall (fun a => 0 < a) airflows -> 0 <= eff ->
  forall w, In w (fr_power r) -> w <= fr_max_power r.
Proof.
  intros sol airflows esp eff f r M E F P w I.
  destruct (motor_number _ _ _ E) as (i & q & Hi & Hq & Mx).
  destruct (map_powers _ _ _ E) as (top & Sp & Top & H). apply H in I as (j & p & Hj & Ip & Ew).
  destruct (constant_power sol _ _ _ _ M) as (Cf & Af & Nf & _ & Pw).
  destruct (geti_lt airflows i) as (a & Ea); [lia|]. destruct (geti_lt airflows j) as (b & Eb); [lia|].
  pose proof (geti_forall _ _ _ _ F Ea) as PA. pose proof (geti_forall _ _ _ _ F Eb) as PB. cbv beta in PA, PB.
  rewrite Cf in Mx. destruct Mx as (w' & Ew' & ->).
  rewrite (Pw i a) in Ew' by auto. rewrite (Pw j b) in Ew by auto. apply Ok_inj in Ew, Ew'. subst w w'.
  assert (Q : forall j b, (j < f_n f)%nat -> geti airflows j = Ok b -> q j = b).
  { intros j' b' Hj' G. destruct (Hq j' Hj') as (Q & _). unfold airflow in Q.
    rewrite Cf, Af, G in Q. apply Ok_inj in Q. auto. }
  destruct (Hq j Hj) as (_ & L). rewrite (Q i a Hi Ea), (Q j b Hj Eb) in L.
  assert (b * eff <= a * eff) by (apply Rmult_le_compat_r; lra).
  assert (0 <= a * eff) by (apply Rmult_le_pos; lra). lra.
Qed.

Lemma psc_top : forall sol (f : fan R) r, fan_205 sol f = Ok r -> f_class f = PSCFan ->
  exists i bp, geti (f_block_pressure f) i = Ok bp /\ evenly_spaced 0 bp 6 (fr_pressure r).
Proof.
  intros sol f r E C. unfold fan_205 in E.
  apply rbind_ok in E. destruct E as (order & Eo & E).
  apply rbind_ok in E. destruct E as (mx & Em & E).
  apply rbind_ok in E. destruct E as (mp & Ep & E).
  apply rbind_ok in E. destruct E as (m & Ef & E).
  apply rbind_ok in E. destruct E as (nom & En & E).
  apply Ok_inj in E. subst r. cbn [fr_pressure].
  unfold fan_205_map in Ef. rewrite Eo in Ef. cbn [rbind] in Ef. rewrite Em, C in Ef. cbn [rbind] in Ef.
  apply rbind_ok in Ef. destruct Ef as (tp & Et & Ef).
  apply rbind_ok in Ef. destruct Ef as (rows & Er & Ef). apply Ok_inj in Ef. subst m. cbn [fst snd].
  exists mx, tp. split; [exact Et|].
  assert (Z : fr_inH2O (lit (T:=R) 0) = 0) by (rewrite lit0_R; unfold fr_inH2O; rnum; lra).
  rewrite Z. apply linspace_spaced. lia.
Qed.

Lemma psc_covers : forall sol airflows esp eff (f : fan R) r,
  make_psc_fan airflows esp eff = Ok f -> fan_205 sol f = Ok r ->
  Forall (fun a => 0 < a) airflows -> 0 <= eff ->
  forall w, In w (fr_power r) -> w <= fr_max_power r.
Proof.
  intros sol airflows esp eff f r M E F P w I.
  destruct (motor_number _ _ _ E) as (i & q & Hi & Hq & Mx).
  destruct (map_powers _ _ _ E) as (top & Sp & _ & H).
  pose proof M as M'. unfold make_psc_fan in M'.
  pose proof (init_fan_facts _ _ _ _ _ _ _ M') as (a0 & E0 & P0 & Z0 & A & C & _).
  pose proof (init_fan_par0 _ _ _ _ _ _ _ M') as (_ & _ & N).
  pose proof (airflow_reduction_nonneg esp P0) as Rn.
  pose proof (geti_forall _ _ _ _ F E0) as PA0. cbv beta in PA0.
  apply (rel_init _ _ _ _ _ _ _ eff) in M' as (a1 & G1 & _ & J & _); [|auto].
  rewrite E0 in G1. apply Ok_inj in G1. subst a1.
  destruct J as (_ & _ & _ & _ & _ & _ & _ & Hf & Hs & Hb & _). rewrite A in Hf, Hs, Hb.
  set (red := airflow_reduction esp) in *.
  assert (Rz : airflow_reduction (T:=R) 0 = 0).
  { rewrite airflow_reduction_eq, Rmult_0_l, exp_0. ring. }
  assert (Pw : forall k a p, geti airflows k = Ok a -> power sol f k (Some p)
    = Ok (Rmax (a + red - airflow_reduction p) 0 * (eff * (1 + EFFICACY_SLOPE * ((a + red) / (a0 + red) - 1))))
    /\ airflow sol f k (Some p) = Ok (Rmax (a + red - airflow_reduction p) 0)).
  { intros k a p G. unfold power, airflow, airflow_at, efficacy. rewrite C, Hf, Hs.
    rewrite (geti_map _ _ _ _ G). cbn [rbind]. rewrite (geti_map _ _ _ _ G). cbn [rbind].
    rewrite lit0_R. assert (X : pymax (a + red - airflow_reduction p) 0 = Rmax (a + red - airflow_reduction p) 0).
    { unfold pymax. cbn [nltb RNum]. unfold Rmax. destruct (Rltb_spec (a + red - airflow_reduction p) 0); destruct (Rle_dec (a + red - airflow_reduction p) 0); lra. }
    change (nsub (a + red) (airflow_reduction p)) with (a + red - airflow_reduction p).
    rewrite X. split; reflexivity. }
  clear top Sp. destruct (psc_top _ _ _ E C) as (n & top & Tp & Sp).
  assert (C1 : 0 < AIRFLOW_COEFFICIENT (T:=R)).
  { unfold AIRFLOW_COEFFICIENT, fr_cfm. pose proof cfm_pos. cbn [nmul RNum].
    assert (L : lit (T:=R) 10 = 10) by (rnum; lra). rewrite L. nra. }
  assert (C2 : 0 < AIRFLOW_EXP_COEFFICIENT (T:=R)).
  { unfold AIRFLOW_EXP_COEFFICIENT, fr_per_inH2O. pose proof inH2O_pos. cbn [nmul ndiv RNum].
    assert (L : lit (T:=R) 5.35 = 5.35) by (rnum; lra). rewrite L. apply Rdiv_lt_0_compat; lra. }
  assert (Top : 0 <= top).
  { rewrite Hb in Tp. apply geti_ok in Tp. apply nth_error_In, in_map_iff in Tp as (a & <- & Ia).
    rewrite Forall_forall in F. specialize (F a Ia). left.
    apply Rdiv_lt_0_compat; [|exact C2]. rewrite <- ln_1. apply ln_increasing; [lra|].
    assert (0 < (a + red) / AIRFLOW_COEFFICIENT) by (apply Rdiv_lt_0_compat; lra). lra. }
  apply H in I as (j & p & Hj & Ip & Ew).
  pose proof (spaced_range _ _ _ _ _ Sp ltac:(lia) Top Ip) as (Pp & _).
  destruct (geti_lt airflows i) as (a & Ea); [lia|]. destruct (geti_lt airflows j) as (b & Eb); [lia|].
  pose proof (geti_forall _ _ _ _ F Ea) as PA. pose proof (geti_forall _ _ _ _ F Eb) as PB. cbv beta in PA, PB.
  rewrite C in Mx. destruct Mx as (w' & Ew' & ->).
  destruct (Pw i a 0 Ea) as (W1 & A1). destruct (Pw j b p Eb) as (W2 & _). destruct (Pw j b 0 Eb) as (_ & A2).
  rewrite W1 in Ew'. rewrite W2 in Ew. apply Ok_inj in Ew, Ew'. subst w w'.
  destruct (Hq i Hi) as (Q1 & _). destruct (Hq j Hj) as (Q2 & L).
  rewrite A1 in Q1. rewrite A2 in Q2. apply Ok_inj in Q1, Q2. rewrite <- Q1, <- Q2 in L. rewrite Rz in *.
  pose proof (airflow_reduction_mono 0 p Pp) as Mo. rewrite Rz in Mo.
  assert (M1 : Rmax (b + red - airflow_reduction p) 0 <= Rmax (a + red - 0) 0).
  { apply Rle_trans with (2 := L). apply Rmax_case; [apply Rle_trans with (b + red - 0); [lra|apply Rmax_l]|apply Rmax_r]. }
  assert (M0 : 0 <= Rmax (b + red - airflow_reduction p) 0) by apply Rmax_r.
  rewrite (Rmax_left (a + red - 0) 0), (Rmax_left (b + red - 0) 0) in L by lra.
  assert (Es : EFFICACY_SLOPE (T:=R) = 0.3) by (unfold EFFICACY_SLOPE; rnum; lra). rewrite Es.
  assert (R1 : (b + red) / (a0 + red) <= (a + red) / (a0 + red)) by (apply ratio_le; lra).
  assert (R0 : 0 < (b + red) / (a0 + red)) by (apply Rdiv_lt_0_compat; lra).
  set (x1 := (a + red) / (a0 + red)) in *. set (x2 := (b + red) / (a0 + red)) in *.
  assert (E1 : eff * (1 + 0.3 * (x2 - 1)) <= eff * (1 + 0.3 * (x1 - 1))) by (apply Rmult_le_compat_l; lra).
  assert (E2 : 0 <= eff * (1 + 0.3 * (x2 - 1))) by (apply Rmult_le_pos; lra).
  set (g1 := eff * (1 + 0.3 * (x1 - 1))) in *. set (g2 := eff * (1 + 0.3 * (x2 - 1))) in *.
  set (m1 := Rmax (a + red - 0) 0) in *. set (m2 := Rmax (b + red - airflow_reduction p) 0) in *.
  assert (m2 * g2 <= m1 * g1) by (apply Rmult_le_compat; lra).
  assert (0 <= m1 * g1) by (apply Rmult_le_pos; lra). lra.
Qed.

(** * An export exists *)
Lemma fan_205_total : forall sol (f : fan R), (0 < f_n f)%nat ->
  (f_class f = PSCFan -> forall i, (i < f_n f)%nat -> exists b, geti (f_block_pressure f) i = Ok b /\ 0 <= b) ->
  (forall i p, (i < f_n f)%nat -> 0 <= p -> exists w a x, power sol f i (Some p) = Ok w
     /\ airflow sol f i (Some p) = Ok a /\ rotational_speed sol f i (Some p) = Ok x) ->
  0 <= f_design_esp f -> exists r, fan_205 sol f = Ok r.
Proof.
  intros sol f N K T P. pose proof inH2O_pos as IP.
  destruct (speed_order_map_total sol f) as (order & Eo).
  { intros i Hi. destruct (T i 0 Hi ltac:(lra)) as (w & a & x & _ & A & _). eauto. }
  destruct (speed_order_map_spec _ _ _ Eo) as (q & _ & Perm & _).
  assert (Io : forall i, In i order -> (i < f_n f)%nat).
  { intros i I. apply (Permutation_in i (Permutation_sym Perm)), in_seq in I. lia. }
  assert (Lo : length order = f_n f) by (rewrite <- (Permutation_length Perm); apply seq_length).
  assert (M : exists mx, lasti order = Ok mx /\ In mx order).
  { unfold lasti. destruct (rev order) as [|y l] eqn:Er.
    - apply (f_equal (@length nat)) in Er. rewrite rev_length in Er. cbn in Er. lia.
    - exists y. split; [reflexivity|]. apply in_rev. rewrite Er. left. reflexivity. }
  destruct M as (mx & Em & Imx). unfold fan_205. rewrite Eo. cbn [rbind]. rewrite Em. cbn [rbind].
  assert (P12 : 0 <= fr_inH2O (T:=R) 1.2) by (unfold fr_inH2O; cbn [nmul RNum]; nra).
  destruct (T mx 0 (Io _ Imx) ltac:(lra)) as (w0 & _ & _ & W0 & _ & _).
  destruct (T mx (fr_inH2O 1.2) (Io _ Imx) P12) as (w1 & _ & _ & W1 & _ & _).
  assert (Fm : exists w, fan_max_power sol f mx = Ok w).
  { unfold fan_max_power. rewrite lit0_R, lit12, W0, W1. destruct (f_class f) as [| |[m|]| | |]; cbn [rbind]; eauto. }
  destruct Fm as (w & Fm). rewrite Fm. cbn [rbind]. unfold fan_205_map. rewrite Eo. cbn [rbind]. rewrite Em. cbn [rbind].
  assert (Tp : exists top, match f_class f with PSCFan => geti (f_block_pressure f) mx | _ => Ok (fr_inH2O (lit 1.2)) end
     = Ok top /\ 0 <= top).
  { rewrite lit12. destruct (f_class f) eqn:Cf; eauto. }
  destruct Tp as (top & Tp & Ptop). rewrite Tp. cbn [rbind].
  assert (Z : fr_inH2O (lit (T:=R) 0) = 0) by (rewrite lit0_R; unfold fr_inH2O; rnum; lra). rewrite Z.
  assert (G : forall {A B} (g : A -> res B) l, (forall x, In x l -> exists y, g x = Ok y) -> exists l', rmapM g l = Ok l').
  { clear. intros A B g l. induction l as [|x l IH]; intros H; [exists []; reflexivity|].
    destruct (H x (or_introl eq_refl)) as (y & Y). destruct IH as (l' & L'); [intros z I; apply H; right; exact I|].
    exists (y :: l'). cbn [rmapM]. rewrite Y. cbn [rbind]. rewrite L'. reflexivity. }
  match goal with |- context[rmapM ?g (seq 1 (f_n f))] =>
    destruct (G _ _ g (seq 1 (f_n f))) as (rows & Er) end.
  { intros s Is. apply in_seq in Is. apply G. intros p Ip.
    assert (P0 : 0 <= p).
    { eapply (spaced_range 0 top 6); [apply linspace_spaced; lia|lia|exact Ptop|exact Ip]. }
    unfold fan_map_entry. destruct (geti_lt order (s - 1)) as (i & Ei); [lia|]. rewrite Ei. cbn [rbind].
    destruct (T i p) as (w2 & a & x & W & A & X); [apply Io; apply geti_ok in Ei; eapply nth_error_In; exact Ei|exact P0|].
    rewrite W, A, X. cbn [rbind]. eauto. }
  rewrite Er. cbn [rbind fst snd].
  destruct (T mx (f_design_esp f) (Io _ Imx) P) as (_ & a & _ & _ & A & _). rewrite A. cbn [rbind]. eauto.
Qed.

Lemma bpm_export_exists : forall sol, sound_brentq 0 sol -> exists (f : fan R) r,
  make_resnet_bpm_fan [0.5; 0.3] = Ok f /\ fan_205 sol f = Ok r.
Proof.
  intros sol S. pose proof inH2O_pos as IP.
  destruct (simple_init_total RESNETBPMFan [0.5; 0.3] (fr_inH2O (lit 0.5)) (EffNum DUCTED_DESIGN_EFFICACY)
     (lit 0) (lit 0) 0.5) as (f & F); try reflexivity; auto; try lra.
  { unfold fr_inH2O. replace (lit (T:=R) 0.5) with 0.5 by (rnum; lra). cbn [nmul RNum]. nra. }
  assert (M : make_resnet_bpm_fan [0.5; 0.3] = Ok f) by exact F.
  exists f. pose proof (init_fan_facts _ _ _ _ _ _ _ F) as (a0 & E0 & P0 & Z0 & A & C & Ed & _).
  pose proof (init_fan_par0 _ _ _ _ _ _ _ F) as (_ & _ & N). cbn [length] in N.
  assert (S3 : 1 <= sqrt 3) by (rewrite <- sqrt_1; apply sqrt_le_1_alt; lra).
  destruct (fan_205_total sol f) as (r & Hr).
  - lia.
  - rewrite C. discriminate.
  - intros i p Hi Pp.
    assert (Ga : exists a, geti (f_airflow f) i = Ok a /\ 0 < a <= 0.5).
    { rewrite A. destruct i as [|[|i]]; [exists 0.5|exists 0.3|lia]; split; try reflexivity; lra. }
    destruct Ga as (a & Ga & Pa). pose proof Ga as Ga'. rewrite A in Ga'.
    destruct (resnet_bpm_efficacy_eq sol _ _ i a 0.5 (Some p) S M Ga' eq_refl) as (_ & Ef); [lra|split; [lra|nra]|].
    cbv zeta in Ef. do 3 eexists. split; [apply (power_times sol f i (Some p) a _ (or_intror C) Ga Ef)|].
    split; [unfold airflow; rewrite C; exact Ga|].
    unfold rotational_speed, airflow_ratio, airflow. rewrite C, Ga. cbn [rbind].
    replace (geti (f_airflow f) 0) with (Ok (A:=R) 0.5) by (rewrite A; reflexivity). cbn [rbind].
    rewrite pydiv_ok by lra. reflexivity.
  - rewrite Ed. exact P0.
  - exists r. split; [exact M|exact Hr].
Qed.
