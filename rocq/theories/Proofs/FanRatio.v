(** Airflow ratios relative to the first speed (C87). *)
From Coq Require Import Reals QArith Lra Lia List Bool.
From Verif.Base Require Import Num Res Tac.
From Verif.Model Require Import Units Util Fan.
From Verif.Spec Require Import FanSpec FanRatioSpec.
From Verif.Proofs Require Import UnitsR FanProofs FanProofs2.
Import ListNotations.
Local Open Scope R_scope.

Definition rel (k : fan_class R) (d red : R) (e : R) (e0 a0 : R) (f : Fn) : Prop :=
  f_class f = k /\ f_design_esp f = d /\ f_reduction f = red /\ f_free_eff0 f = e0
  /\ hd a0 (f_airflow f) = a0
  /\ f_ratio f = map (fun a => a / a0) (f_airflow f)
  /\ match k with
     | PSCFan => let g a := (a + red) / (a0 + red) in
         f_design_efficacy f = EffNum e
         /\ f_free_airflow f = map (fun a => a + red) (f_airflow f)
         /\ f_speed_efficacy f = map (fun a => e * (1 + EFFICACY_SLOPE * (g a - 1))) (f_airflow f)
         /\ f_block_pressure f = map (fun a => ln ((a + red) / AIRFLOW_COEFFICIENT + 1)
                                               / AIRFLOW_EXP_COEFFICIENT) (f_airflow f)
         /\ f_free_speed f = map (fun a => fr_rpm (lit 1040) * g a) (f_airflow f)
     | ECMFlowFan _ =>
         f_free_efficacy f = map (fun a => e0 * (a / a0) * (a / a0)) (f_airflow f)
     | _ => True
     end.

Lemma hd_app (l : list R) a a0 b :
  hd a0 l = a0 -> (l = [] -> a = a0) -> geti (l ++ [a]) 0 = Ok b ->
  b = a0 /\ hd a0 (l ++ [a]) = a0.
Proof.
  intros Hh Hn G. destruct l as [|x l]; simpl in *.
  - injection G as <-. auto.
  - unfold geti in G. simpl in G. injection G as <-. auto.
Qed.

Lemma hd_map_app (l : list R) a a0 b (g : R -> R) :
  hd a0 l = a0 -> (l = [] -> a = a0) -> geti (map g l ++ [g a]) 0 = Ok b -> b = g a0.
Proof.
  intros Hh Hn G. destruct l as [|x l]; simpl in *.
  - injection G as <-. rewrite Hn; auto.
  - unfold geti in G. simpl in G. injection G as <-. congruence.
Qed.

Lemma rel_add k d red e e0 a0 (f f' : Fn) a x u :
  rel k d red e e0 a0 f ->
  (f_airflow f = [] -> a = a0 /\ x = None) -> add_speed a x f = (f', Ok u) ->
  rel k d red e e0 a0 f' /\ f_airflow f' <> [].
Proof.
  intros (K & D & Rd & E0 & Hh & Hr & Hk) Hn H.
  assert (Ne : forall y : R, f_airflow f ++ [y] <> []) by (intros y; destruct (f_airflow f); discriminate).
  unfold add_speed in H. apply sbind_ok in H. destruct H as (s & f0 & E & H). unfold sget in E.
  apply pair_ok_inj in E as (<- & <-).
  assert (Hn' : f_airflow f = [] -> a = a0) by (intros; apply Hn; auto).
  rewrite K in H. destruct k.
  - apply const_add_ok in H as (a1 & G & Z & H).
    destruct (hd_app _ _ _ _ Hh Hn' G) as (-> & Hd).
    destruct x as [y|]; [destruct H as (l & _ & ->)|cbv zeta in H; subst f'];
      (split; [|apply Ne]); unfold rel; cbn [f_class f_design_esp f_reduction f_free_eff0 f_airflow f_ratio w_base w_eff];
      rewrite Hr, map_app; cbn [map]; auto 10.
  - destruct Hk as (He & Hf & Hs & Hb & Hv).
    apply psc_add_ok in H as (a1 & fa0 & e1 & G & Z & Gf & Zf & Ee & Pos & ->).
    set (dd := match x with Some p => a - (f_reduction f - airflow_reduction p) | None => a end) in *.
    assert (Hn2 : f_airflow f = [] -> dd = a0).
    { intros W. destruct (Hn W) as (-> & ->). reflexivity. }
    destruct (hd_app _ _ _ _ Hh Hn2 G) as (-> & Hd).
    rewrite Rd in *. rewrite He in Ee. injection Ee as <-.
    rewrite Hf in Gf. apply (hd_map_app _ dd a0 fa0 (fun a => a + red)) in Gf; auto. subst fa0.
    split; [|apply Ne]. unfold rel.
    cbn [f_class f_design_esp f_reduction f_free_eff0 f_airflow f_ratio f_design_efficacy f_free_airflow
         f_speed_efficacy f_block_pressure f_free_speed w_base w_free].
    rewrite Hr, Hf, Hs, Hb, Hv, !map_app. cbn [map]. auto 12.
  - apply ecm_add_ok in H as (a1 & G & Z & ->).
    destruct (hd_app _ _ _ _ Hh Hn' G) as (-> & Hd).
    split; [|apply Ne]. unfold rel.
    cbn [f_class f_design_esp f_reduction f_free_eff0 f_airflow f_ratio f_free_efficacy w_base w_fe].
    rewrite Hr, Hk, !map_app, E0. cbn [map]. auto 10.
  - apply eere_add_ok in H as (a1 & G & Z & ->).
    destruct (hd_app _ _ _ _ Hh Hn' G) as (-> & Hd).
    split; [|apply Ne]. unfold rel.
    cbn [f_class f_design_esp f_reduction f_free_eff0 f_airflow f_ratio w_base w_free].
    rewrite Hr, !map_app. cbn [map]. auto 10.
  - apply base_add_ok in H as (a1 & G & Z & ->).
    destruct (hd_app _ _ _ _ Hh Hn' G) as (-> & Hd).
    split; [|apply Ne]. unfold rel.
    cbn [f_class f_design_esp f_reduction f_free_eff0 f_airflow f_ratio w_base].
    rewrite Hr, !map_app. cbn [map]. auto 10.
  - apply base_add_ok in H as (a1 & G & Z & ->).
    destruct (hd_app _ _ _ _ Hh Hn' G) as (-> & Hd).
    split; [|apply Ne]. unfold rel.
    cbn [f_class f_design_esp f_reduction f_free_eff0 f_airflow f_ratio w_base].
    rewrite Hr, !map_app. cbn [map]. auto 10.
Qed.

Lemma hd_del (l : list R) a0 i : hd a0 l = a0 -> hd a0 (del l (S i)) = a0.
Proof. destruct l; simpl; auto. Qed.

Lemma del_ne (l : list R) i : l <> [] -> del l (S i) <> [].
Proof. destruct l; simpl; congruence. Qed.

Lemma rel_remove k d red e e0 a0 (f f' : Fn) i u :
  rel k d red e e0 a0 f -> f_airflow f <> [] -> remove_speed (S i) f = (f', Ok u) ->
  rel k d red e e0 a0 f' /\ f_airflow f' <> [].
Proof.
  intros (K & D & Rd & E0 & Hh & Hr & Hk) Ne H.
  pose proof (hd_del _ a0 i Hh) as Hd. pose proof (del_ne _ i Ne) as Nd.
  unfold remove_speed in H. apply sbind_ok in H. destruct H as (s & f0 & E & H). unfold sget in E.
  apply pair_ok_inj in E as (<- & <-).
  rewrite K in H. destruct k.
  - apply const_remove_ok in H as (l & _ & _ & ->).
    split; [|exact Nd]. unfold rel.
    cbn [f_class f_design_esp f_reduction f_free_eff0 f_airflow f_ratio w_base w_eff].
    rewrite Hr, map_del. auto 10.
  - destruct Hk as (He & Hf & Hs & Hb & Hv).
    apply psc_remove_ok in H as ->.
    split; [|exact Nd]. unfold rel.
    cbn [f_class f_design_esp f_reduction f_free_eff0 f_airflow f_ratio f_design_efficacy f_free_airflow
         f_speed_efficacy f_block_pressure f_free_speed w_base w_free].
    rewrite Hr, Hf, Hs, Hb, Hv, !map_del. auto 12.
  - apply ecm_remove_ok in H as ->.
    split; [|exact Nd]. unfold rel.
    cbn [f_class f_design_esp f_reduction f_free_eff0 f_airflow f_ratio f_free_efficacy w_base w_fe].
    rewrite Hr, Hk, !map_del. auto 10.
  - apply eere_remove_ok in H as ->.
    split; [|exact Nd]. unfold rel.
    cbn [f_class f_design_esp f_reduction f_free_eff0 f_airflow f_ratio w_base w_free].
    rewrite Hr, !map_del. auto 10.
  - apply base_remove_ok in H as (_ & _ & _ & ->).
    split; [|exact Nd]. unfold rel.
    cbn [f_class f_design_esp f_reduction f_free_eff0 f_airflow f_ratio w_base].
    rewrite Hr, !map_del. auto 10.
  - apply base_remove_ok in H as (_ & _ & _ & ->).
    split; [|exact Nd]. unfold rel.
    cbn [f_class f_design_esp f_reduction f_free_eff0 f_airflow f_ratio w_base].
    rewrite Hr, !map_del. auto 10.
Qed.

Lemma rel_ops k d red e e0 a0 ops : forall (f f' : Fn) u,
  rel k d red e e0 a0 f -> f_airflow f <> [] -> Forall keeps_first ops ->
  sfold run_op ops f = (f', Ok u) -> rel k d red e e0 a0 f' /\ f_airflow f' <> [].
Proof.
  induction ops as [|o ops IH]; intros f f' u I Ne F H; simpl in H.
  - inv_st. auto.
  - apply sbind_ok in H as (s & u0 & E & H). inversion F; subst.
    assert (J : rel k d red e e0 a0 s /\ f_airflow s <> []).
    { destruct o as [a x|[|i]]; cbn [run_op] in E.
      - eapply rel_add; try eassumption. intros W. contradiction.
      - contradiction.
      - eapply rel_remove; eauto. }
    destruct J. eapply IH; eauto.
Qed.

Lemma rel_adds k d red e e0 a0 l : forall (f f' : Fn) u,
  rel k d red e e0 a0 f -> f_airflow f <> [] ->
  sfold (fun a => add_speed a None) l f = (f', Ok u) ->
  rel k d red e e0 a0 f' /\ f_airflow f' <> [].
Proof.
  induction l as [|a l IH]; intros f f' u I Ne H; simpl in H.
  - inv_st. auto.
  - apply sbind_ok in H as (s & u0 & E & H).
    assert (J : rel k d red e e0 a0 s /\ f_airflow s <> []).
    { eapply rel_add; try eassumption. intros W. contradiction. }
    destruct J. eapply IH; eauto.
Qed.

Lemma rel_init k l d ef red e0 (f : Fn) e :
  (k = PSCFan -> ef = EffNum e) -> init_fan k l d ef red e0 = Ok f ->
  exists a0, geti l 0 = Ok a0 /\ a0 <> 0 /\ rel k d red e e0 a0 f /\ f_airflow f <> [].
Proof.
  unfold init_fan. intros Hk H. inv_ok.
  destruct l as [|a l]; [discriminate|]. unfold geti in E. simpl in E. injection E as <-.
  destruct (sfold _ _ _) as [f1 [u|x]] eqn:Ef; [|discriminate]. inv_ok. subst f1.
  exists a. split; [reflexivity|]. simpl in Ef. apply sbind_ok in Ef as (s & u0 & E & Ef).
  assert (B : rel k d red e e0 a (blank_fan k d ef v0 red e0)).
  { unfold rel, blank_fan.
    cbn [f_class f_design_esp f_reduction f_free_eff0 f_airflow f_ratio f_design_efficacy f_free_airflow
         f_speed_efficacy f_block_pressure f_free_speed f_free_efficacy hd map].
    repeat split. destruct k; auto. }
  assert (J : rel k d red e e0 a s /\ f_airflow s <> []) by (eapply rel_add; eauto).
  assert (Z : a <> 0).
  { intros ->. clear - E0. unfold system_curve_constant in E0. inv_ok.
    match goal with H : pydiv _ _ = Ok _ |- _ => apply pydiv_inv in H; tauto end. }
  destruct J as (J1 & J2). destruct (rel_adds _ _ _ _ _ _ _ _ _ _ J1 J2 Ef). auto.
Qed.

Lemma geti_map {A B} (g : A -> B) l i a : geti l i = Ok a -> geti (map g l) i = Ok (g a).
Proof.
  unfold geti. rewrite nth_error_map. destruct (nth_error l i); simpl; [|discriminate].
  injection 1 as <-. auto.
Qed.

Lemma hd_geti (l : list R) a0 : hd a0 l = a0 -> l <> [] -> geti l 0 = Ok a0.
Proof. destruct l; simpl; [congruence|]. intros -> _. reflexivity. Qed.

Lemma made_rel (f : Fn) : made f ->
  exists k d red e e0 a0, a0 <> 0 /\ rel k d red e e0 a0 f /\ f_airflow f <> [].
Proof.
  intros M. destruct M as [airflows esp e f L H|airflows esp e f H
                          |airflows esp e mx f H|k airflows esp f H
                          |airflows f H|airflows f H].
  - unfold make_constant_efficacy_fan in H. inv_ok.
    apply (rel_init _ _ _ _ _ _ _ 0) in E as (a0 & _ & Z & J & Ne); [|discriminate].
    exists ConstantEfficacyFan, esp, (lit 0), 0, (lit 0), a0. split; auto.
    destruct (f_design_efficacy v); inv_ok; subst; [|auto]. split; auto.
  - apply (rel_init _ _ _ _ _ _ _ e) in H as (a0 & _ & Z & J & Ne); [|auto]. eauto 12.
  - unfold make_ecm_fan in H. inv_ok.
    apply (rel_init _ _ _ _ _ _ _ 0) in H as (a0 & _ & Z & J & Ne); [|discriminate]. eauto 12.
  - unfold make_eere_fan in H. inv_ok. subst.
    apply (rel_init _ _ _ _ _ _ _ 0) in E as (a0 & _ & Z & J & Ne); [|discriminate].
    exists (EEREFan k), esp, (lit 0), 0, (lit 0), a0. split; auto.
  - apply (rel_init _ _ _ _ _ _ _ 0) in H as (a0 & _ & Z & J & Ne); [|discriminate]. eauto 12.
  - apply (rel_init _ _ _ _ _ _ _ 0) in H as (a0 & _ & Z & J & Ne); [|discriminate]. eauto 12.
Qed.

Lemma ratios_right (f f' : Fn) ops :
  made f -> Forall keeps_first ops -> sfold run_op ops f = (f', Ok tt) ->
  exists a0, a0 <> 0 /\ geti (f_airflow f) 0 = Ok a0 /\ geti (f_airflow f') 0 = Ok a0
    /\ length (f_ratio f') = length (f_airflow f')
    /\ forall i a, geti (f_airflow f') i = Ok a -> geti (f_ratio f') i = Ok (a / a0).
Proof.
  intros M F H. destruct (made_rel f M) as (k & d & red & e & e0 & a0 & Z & J & Ne).
  destruct (rel_ops _ _ _ _ _ _ _ _ _ _ J Ne F H) as (J' & Ne').
  exists a0. destruct J as (_ & _ & _ & _ & Hh & _). destruct J' as (_ & _ & _ & _ & Hh' & Hr' & _).
  rewrite Hr'. split; [auto|]. split; [apply hd_geti; auto|]. split; [apply hd_geti; auto|].
  split; [apply map_length|]. intros i a G. apply (geti_map (fun a => a / a0) _ _ _ G).
Qed.

Lemma psc_speeds sol airflows esp eff (f f' : Fn) ops a0 i a :
  make_psc_fan airflows esp eff = Ok f -> geti airflows 0 = Ok a0 ->
  Forall keeps_first ops -> sfold run_op ops f = (f', Ok tt) ->
  geti (f_airflow f') i = Ok a ->
  let r := (a + psc_loss esp) / (a0 + psc_loss esp) in
  (forall p, efficacy sol f' i p = Ok (eff * (0.7 + 0.3 * r)))
  /\ (0 < a + psc_loss esp ->
      rotational_speed sol f' i (Some 0) = Ok (fr_rpm 1040 * r)
      /\ exists bp, 0 < bp /\ psc_loss bp = a + psc_loss esp
         /\ forall p, bp <= p -> rotational_speed sol f' i (Some p) = Ok (fr_rpm 1100)).
Proof.
  intros H G0 F O G r. unfold make_psc_fan in H.
  apply (rel_init _ _ _ _ _ _ _ eff) in H as (a1 & G1 & Z & J & Ne); [|auto].
  rewrite G0 in G1. injection G1 as <-.
  destruct (rel_ops _ _ _ _ _ _ _ _ _ _ J Ne F O) as ((K & D & Rd & E0 & Hh & Hr & He & Hf & Hs & Hb & Hv) & Ne').
  assert (L : airflow_reduction esp = psc_loss esp).
  { unfold airflow_reduction, psc_loss, AIRFLOW_COEFFICIENT, AIRFLOW_EXP_COEFFICIENT.
    rewrite lit1_R. assert (A : lit (T:=R) 10 = 10) by (rnum; lra).
    assert (B : lit (T:=R) 5.35 = 5.35) by (rnum; lra). rewrite A, B. reflexivity. }
  rewrite L in *. split.
  - intros p. unfold efficacy. rewrite K, Hs.
    rewrite (geti_map _ _ _ _ G). f_equal. fold r. unfold EFFICACY_SLOPE.
    assert (B : lit (T:=R) 0.3 = 0.3) by (rnum; lra). rewrite B. clearbody r. lra.
  - intros Pa.
    set (bp := ln ((a + psc_loss esp) / AIRFLOW_COEFFICIENT + 1) / AIRFLOW_EXP_COEFFICIENT).
    assert (C1 : 0 < AIRFLOW_COEFFICIENT (T:=R)).
    { unfold AIRFLOW_COEFFICIENT, fr_cfm. pose proof cfm_pos. cbn [nmul RNum].
      assert (A : lit (T:=R) 10 = 10) by (rnum; lra). rewrite A. nra. }
    assert (C2 : 0 < AIRFLOW_EXP_COEFFICIENT (T:=R)).
    { unfold AIRFLOW_EXP_COEFFICIENT, fr_per_inH2O. pose proof inH2O_pos. cbn [nmul ndiv RNum].
      assert (A : lit (T:=R) 5.35 = 5.35) by (rnum; lra). rewrite A.
      apply Rdiv_lt_0_compat; lra. }
    assert (P1 : 0 < (a + psc_loss esp) / AIRFLOW_COEFFICIENT) by (apply Rdiv_lt_0_compat; lra).
    assert (Pb : 0 < bp).
    { apply Rdiv_lt_0_compat; auto. rewrite <- ln_1. apply ln_increasing; lra. }
    assert (Gb : geti (f_block_pressure f') i = Ok bp)
      by (rewrite Hb, (geti_map _ _ _ _ G); reflexivity).
    assert (Gv : geti (f_free_speed f') i = Ok (fr_rpm 1040 * r)).
    { rewrite Hv, (geti_map _ _ _ _ G). fold r.
      assert (A : lit (T:=R) 1040 = 1040) by (rnum; lra). rewrite A. reflexivity. }
    assert (A11 : lit (T:=R) 1100 = 1100) by (rnum; lra).
    split.
    + unfold rotational_speed. rewrite K. unfold esp_or_operating. cbn [rbind].
      rewrite Gb. cbn [rbind]. rewrite Gv. cbn [rbind].
      match goal with |- context [if ?b then _ else _] => destruct b eqn:Eg end.
      { exfalso. cbn [nltb RNum] in Eg. apply Rltb_true in Eg. lra. }
      rewrite pydiv_ok by lra. cbn [rbind]. f_equal. cbn [nadd nsub nmul ndiv RNum].
      field. lra.
    + exists bp. split; [auto|]. split.
      * transitivity (AIRFLOW_COEFFICIENT * (exp (bp * AIRFLOW_EXP_COEFFICIENT) - 1)).
        { unfold psc_loss, AIRFLOW_COEFFICIENT, AIRFLOW_EXP_COEFFICIENT.
          assert (A : lit (T:=R) 10 = 10) by (rnum; lra).
          assert (B : lit (T:=R) 5.35 = 5.35) by (rnum; lra). rewrite A, B. reflexivity. }
        unfold bp.
        replace (ln ((a + psc_loss esp) / AIRFLOW_COEFFICIENT + 1) / AIRFLOW_EXP_COEFFICIENT
                 * AIRFLOW_EXP_COEFFICIENT)
          with (ln ((a + psc_loss esp) / AIRFLOW_COEFFICIENT + 1)) by (field; lra).
        rewrite exp_ln by lra. field. lra.
      * intros p Hp. unfold rotational_speed. rewrite K. unfold esp_or_operating. cbn [rbind].
        rewrite Gb. cbn [rbind]. rewrite A11.
        match goal with |- context [if ?b then _ else _] => destruct b eqn:Eg end; [reflexivity|].
        assert (p = bp).
        { cbn [nltb RNum] in Eg. apply Rltb_false in Eg. lra. }
        subst p. rewrite Gv. cbn [rbind]. rewrite pydiv_ok by lra. cbn [rbind]. f_equal.
        cbn [nadd nsub nmul ndiv RNum]. field. lra.
Qed.

Lemma ecm_speeds sol airflows esp eff mx (f f' : Fn) ops a0 i a p :
  make_ecm_fan airflows esp eff mx = Ok f -> geti airflows 0 = Ok a0 ->
  Forall keeps_first ops -> sfold run_op ops f = (f', Ok tt) ->
  geti (f_airflow f') i = Ok a ->
  power sol f' i (Some p)
    = Ok (match mx with
          | Some m => Rmin (ecm_law eff esp a (a / a0) p) m
          | None => ecm_law eff esp a (a / a0) p
          end).
Proof.
  intros H G0 F O G. unfold make_ecm_fan in H. inv_ok.
  apply (rel_init _ _ _ _ _ _ _ 0) in H as (a1 & G1 & Z & J & Ne); [|discriminate].
  rewrite G0 in G1. injection G1 as <-.
  destruct (rel_ops _ _ _ _ _ _ _ _ _ _ J Ne F O) as ((K & D & Rd & E0' & Hh & Hr & Hk) & Ne').
  unfold power. rewrite K. unfold esp_or_operating. cbn [rbind].
  unfold ecm_power_at, unconstrained_power, unconstrained_efficacy. rewrite G. cbn [rbind].
  rewrite Hk, (geti_map _ _ _ _ G). cbn [rbind].
  assert (A : lit (T:=R) 0.235 = 0.235) by (rnum; lra).
  assert (X : nmul a (nadd (nsub eff (nmul EFFICACY_SLOPE_ESP esp) * (a / a0) * (a / a0))
                        (nmul EFFICACY_SLOPE_ESP p)) = ecm_law eff esp a (a / a0) p).
  { unfold ecm_law, EFFICACY_SLOPE_ESP. rewrite A. cbn [nmul nadd nsub RNum].
    generalize (fr_W_per_cfm_inH2O (T:=R) 0.235). intros. ring. }
  rewrite X. destruct mx as [m|]; auto. f_equal.
  unfold pymin. cbn [nltb RNum].
  match goal with |- context [Rltb ?u ?v] => destruct (Rltb_spec u v) end;
    unfold Rmin; destruct (Rle_dec _ _); lra.
Qed.

(** Removing the first speed. *)
Lemma remove_first (f f' : Fn) a0 a1 :
  made f -> geti (f_airflow f) 0 = Ok a0 -> geti (f_airflow f) 1 = Ok a1 -> a1 <> a0 ->
  remove_speed 0 f = (f', Ok tt) ->
  geti (f_airflow f') 0 = Ok a1
  /\ exists r, geti (f_ratio f') 0 = Ok r /\ r = a1 / a0 /\ r <> 1.
Proof.
  intros M G0 G1 N H.
  destruct (ratios_right f f [] M (Forall_nil _) eq_refl) as (b & Z & G & _ & _ & Hr).
  rewrite G0 in G. injection G as <-. specialize (Hr _ _ G1).
  assert (X : f_airflow f' = del (f_airflow f) 0 /\ f_ratio f' = del (f_ratio f) 0).
  { unfold remove_speed in H. apply sbind_ok in H. destruct H as (s & f0 & E & H). unfold sget in E.
    apply pair_ok_inj in E as (<- & <-). destruct (f_class f).
    - apply const_remove_ok in H as (l & _ & _ & ->). auto.
    - apply psc_remove_ok in H as ->. auto.
    - apply ecm_remove_ok in H as ->. auto.
    - apply eere_remove_ok in H as ->. auto.
    - apply base_remove_ok in H as (_ & _ & _ & ->). auto.
    - apply base_remove_ok in H as (_ & _ & _ & ->). auto. }
  destruct X as (-> & ->).
  assert (D : forall l : list R, geti (del l 0) 0 = geti l 1).
  { intros l. unfold geti. rewrite nth_error_del. reflexivity. }
  rewrite !D. split; auto. exists (a1 / a0). repeat split; auto.
  intros Q. apply N. apply Rmult_eq_reg_r with (/ a0); [|apply Rinv_neq_0_compat; auto].
  rewrite Rinv_r by auto. exact Q.
Qed.
