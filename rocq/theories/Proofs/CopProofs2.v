(** C56: one COP for a two-speed unit of the NREL model. *)
From Coq Require Import Reals QArith Lra Lia Psatz List Bool String.
From Verif.Base Require Import Num Res Tac.
From Verif.Model Require Import Units Util Psychrometrics Conditions Defrost Fan Curves
  Tabular Unit NREL BaseModel Title24 Resnet DXUnit.
From Verif.Spec Require Import NrelSpec UnitModels CopSpec.
From Verif.Proofs Require Import UnitsR NrelProofs Frame CopProofs ToyUnit ToyIdf.
Import ListNotations.
Local Open Scope R_scope.

Lemma seti_two {A} (l l' : list A) a b i x : l = [a; b] -> seti l i x = Ok l' ->
  (i = 0%nat /\ l' = [x; b]) \/ (i = 1%nat /\ l' = [a; x]).
Proof.
  intros -> H. unfold seti in H. destruct i as [| [| i]]; cbn in H; try discriminate;
    apply Ok_inj in H; subst; auto.
Qed.

Lemma set_entry_run m get set i (f : side R -> res R) (u u' : U) :
  set_entry m get set i f u = (u', Ok tt) <->
  exists v l, f (side_of m u) = Ok v /\ seti (get (side_of m u)) i (Some v) = Ok l /\
    u' = wu_side m (set l (side_of m u)) u.
Proof.
  unfold set_entry, side_put. split.
  - intros H. apply sbind_ok in H. destruct H as (s1 & x1 & H1 & H).
    apply pair_ok_inj in H1. destruct H1 as [<- <-].
    apply sbind_ok in H. destruct H as (s2 & v & H2 & H). apply slift_ok in H2.
    destruct H2 as [-> H2].
    apply sbind_ok in H. destruct H as (s3 & x3 & H3 & H).
    apply pair_ok_inj in H3. destruct H3 as [<- <-].
    apply sbind_ok in H. destruct H as (s4 & l & H4 & H). apply slift_ok in H4.
    destruct H4 as [-> H4]. apply pair_ok_inj in H. destruct H as [<- _]. eauto.
  - intros (v & l & H1 & H2 & ->).
    apply sbind_ok. exists u, u. split; [reflexivity |].
    apply sbind_ok. exists u, v. split; [apply slift_ok; auto |].
    apply sbind_ok. exists u, u. split; [reflexivity |].
    apply sbind_ok. exists u, l. split; [apply slift_ok; auto |]. reflexivity.
Qed.

Lemma side_put_run m get set i v (u u' : U) :
  side_put m get set i v u = (u', Ok tt) <->
  exists l, seti (get (side_of m u)) i (Some v) = Ok l /\
    u' = wu_side m (set l (side_of m u)) u.
Proof.
  unfold side_put. split.
  - intros H. apply sbind_ok in H. destruct H as (s3 & x3 & H3 & H).
    apply pair_ok_inj in H3. destruct H3 as [<- <-].
    apply sbind_ok in H. destruct H as (s4 & l & H4 & H). apply slift_ok in H4.
    destruct H4 as [-> H4]. apply pair_ok_inj in H. destruct H as [<- _]. eauto.
  - intros (l & H2 & ->). apply sbind_ok. exists u, u. split; [reflexivity |].
    apply sbind_ok. exists u, l. split; [apply slift_ok; auto |]. reflexivity.
Qed.

Lemma two_inv {A} (l : list A) : two l -> exists a b, l = [a; b].
Proof.
  unfold two. destruct l as [| a [| b [| c l]]]; cbn; try discriminate. intros _. eauto.
Qed.

Lemma cop_low_R m x : cop_low m x = x / low_share m.
Proof. destruct m; unfold cop_low, lit, low_share; rnum; f_equal; lra. Qed.

Lemma entry_inj (l : list (option R)) i x y : entry l i x -> entry l i y -> x = y.
Proof. unfold entry. congruence. Qed.

Ltac step_in H :=
  apply sbind_ok in H; let u' := fresh "u'" in let H1 := fresh "K" in
  destruct H as (u' & [] & H1 & H).

Lemma nrel_net_two m x (u u1 : U) :
  let s := side_of m u in
  sd_n s = 2%nat -> two (sd_net_cop s) -> two (sd_net_power s) -> two (sd_gross_power s) ->
  two (sd_gross_cop s) ->
  nrel_set_net_cop m (Scalar x) u = (u1, Ok tt) ->
  two_speed_values m (side_of m u1) x /\
  exists c0, entry (sd_gross_cop (side_of m u1)) 0 c0 /\
  (caps_nonzero s -> nrel_set_gross_cop m (Scalar c0) u = (u1, Ok tt)).
Proof.
  intros s N T1 T2 T3 T4 H. unfold nrel_set_net_cop in H.
  destruct (two_inv _ T1) as (n0 & n1 & E1). destruct (two_inv _ T2) as (np0 & np1 & E2).
  destruct (two_inv _ T3) as (gp0 & gp1 & E3). destruct (two_inv _ T4) as (gc0 & gc1 & E4).
  step_in H. apply side_put_run in K. destruct K as (l1 & S1 & ->). fold s in S1, H.
  destruct (seti_two _ _ _ _ _ _ E1 S1) as [[_ ->] | [X _]]; [| discriminate]. clear S1.
  step_in H. apply set_entry_run in K. rewrite side_wu in K.
  destruct K as (p0 & l2 & V1 & S2 & ->). rewrite wu_wu in H. cbn [sd_net_power ws_net_cop] in S2.
  destruct (seti_two _ _ _ _ _ _ E2 S2) as [[_ ->] | [X _]]; [| discriminate]. clear S2.
  step_in H. apply set_entry_run in K. rewrite side_wu in K.
  destruct K as (b0 & l3 & V2 & S3 & ->). rewrite wu_wu in H. cbn [sd_gross_power ws_net_cop ws_net_power] in S3.
  destruct (seti_two _ _ _ _ _ _ E3 S3) as [[_ ->] | [X _]]; [| discriminate]. clear S3.
  step_in H. apply set_entry_run in K. rewrite side_wu in K.
  destruct K as (c0 & l4 & V3 & S4 & ->). rewrite wu_wu in H.
  cbn [sd_gross_cop ws_net_cop ws_net_power ws_gross_power] in S4.
  destruct (seti_two _ _ _ _ _ _ E4 S4) as [[_ ->] | [X _]]; [| discriminate]. clear S4.
  apply sbind_ok in H. destruct H as (u'' & v & Hg & H). apply pair_ok_inj in Hg.
  destruct Hg as [<- <-]. rewrite side_wu in H.
  cbn [sd_n ws_net_cop ws_net_power ws_gross_power ws_gross_cop] in H. rewrite N in H.
  cbn [Nat.eqb] in H.
  step_in H. apply set_entry_run in K. rewrite side_wu in K.
  destruct K as (c1 & l5 & V4 & S5 & ->). rewrite wu_wu in H. cbn [sd_gross_cop ws_gross_cop] in S5.
  destruct (seti_two _ _ _ _ _ _ eq_refl S5) as [[X _] | [_ ->]]; [discriminate |]. clear S5.
  step_in H. apply set_entry_run in K. rewrite side_wu in K.
  destruct K as (b1 & l6 & V5 & S6 & ->). rewrite wu_wu in H. cbn [sd_gross_power ws_gross_cop ws_gross_power] in S6.
  destruct (seti_two _ _ _ _ _ _ eq_refl S6) as [[X _] | [_ ->]]; [discriminate |]. clear S6.
  step_in H. apply set_entry_run in K. rewrite side_wu in K.
  destruct K as (p1 & l7 & V6 & S7 & ->). rewrite wu_wu in H.
  cbn [sd_net_power ws_gross_cop ws_gross_power ws_net_power] in S7.
  destruct (seti_two _ _ _ _ _ _ eq_refl S7) as [[X _] | [_ ->]]; [discriminate |]. clear S7.
  apply set_entry_run in H. rewrite side_wu in H.
  destruct H as (x1 & l8 & V7 & S8 & ->). rewrite wu_wu.
  cbn [sd_net_cop ws_gross_cop ws_gross_power ws_net_power ws_net_cop] in S8.
  destruct (seti_two _ _ _ _ _ _ eq_refl S8) as [[X _] | [_ ->]]; [discriminate |]. clear S8.
  rewrite side_wu.
  unfold net_over in V1, V7. unfold minus_at in V2. unfold plus_at in V6. unfold ratio_at in V3, V5.
  cbn [sd_net_cap sd_net_cop sd_gross_cap sd_fan_power sd_net_power sd_gross_power sd_gross_cop
       ws_gross_cop ws_gross_power ws_net_power ws_net_cop] in V1, V2, V3, V4, V5, V6, V7.
  apply rbind_ok in V1. destruct V1 as (q0 & Q0 & V1).
  apply rbind_ok in V1. destruct V1 as (y & Y & V1). apply arr_ok in Y. injection Y as <-.
  apply pydiv_inv in V1. destruct V1 as (Z0 & ->).
  apply rbind_ok in V2. destruct V2 as (y & Y & V2). apply arr_ok in Y. injection Y as <-.
  apply rbind_ok in V2. destruct V2 as (w0 & W0 & V2). apply Ok_inj in V2. subst b0.
  apply rbind_ok in V3. destruct V3 as (g0 & G0 & V3).
  apply rbind_ok in V3. destruct V3 as (y & Y & V3). apply arr_ok in Y. injection Y as <-.
  apply pydiv_inv in V3. destruct V3 as (Z1 & ->).
  apply rbind_ok in V4. destruct V4 as (y & Y & V4). apply arr_ok in Y. injection Y as <-.
  apply Ok_inj in V4. rewrite cop_low_R in V4. subst c1.
  apply rbind_ok in V5. destruct V5 as (g1 & G1 & V5).
  apply rbind_ok in V5. destruct V5 as (y & Y & V5). apply arr_ok in Y. injection Y as <-.
  apply pydiv_inv in V5. destruct V5 as (Z2 & ->).
  apply rbind_ok in V6. destruct V6 as (y & Y & V6). apply arr_ok in Y. injection Y as <-.
  apply rbind_ok in V6. destruct V6 as (w1 & W1 & V6). apply Ok_inj in V6. subst p1.
  apply rbind_ok in V7. destruct V7 as (q1 & Q1 & V7).
  apply rbind_ok in V7. destruct V7 as (y & Y & V7). apply arr_ok in Y. injection Y as <-.
  apply pydiv_inv in V7. destruct V7 as (Z3 & ->).
  cbn [nadd nsub RNum] in Z1, Z2, Z3 |- *.
  apply geti_ok in Q0. apply geti_ok in Q1. apply arr_ok in W0. apply arr_ok in W1.
  apply arr_ok in G0. apply arr_ok in G1.
  split.
  - exists q0, q1, g0, g1, w0, w1.
    cbn [sd_net_cap sd_net_cop sd_gross_cap sd_fan_power sd_net_power sd_gross_power sd_gross_cop
       ws_gross_cop ws_gross_power ws_net_power ws_net_cop].
    rewrite !map_some_entry. repeat split; assumption.
  - eexists. split; [reflexivity |]. intros [C1 C2].
    pose proof (C1 _ _ Q0) as Nq0. pose proof (C2 _ _ G0) as Ng0.
    unfold nrel_set_gross_cop. apply sbind_ok.
    set (c0 := g0 / (q0 / x - w0)) in *.
    exists (wu_side m (ws_gross_cop [Some c0; Some (c0 / low_share m)] s) u), tt. split.
    { apply sbind_ok. exists (wu_side m (ws_gross_cop [Some c0; gc1] s) u), tt. split.
      { apply side_put_run. exists [Some c0; gc1]. fold s. rewrite E4. split; reflexivity. }
      apply sbind_ok. eexists _, _. split; [reflexivity |].
      rewrite side_wu. cbn [sd_n ws_gross_cop]. rewrite N. cbn [Nat.eqb].
      apply set_entry_run. rewrite side_wu. cbn [sd_gross_cop ws_gross_cop].
      exists (c0 / low_share m), [Some c0; Some (c0 / low_share m)].
      rewrite <- cop_low_R, wu_wu. repeat split; reflexivity. }
    set (c1 := c0 / low_share m) in *.
    pose proof (gross_run m (wu_side m (ws_gross_cop [Some c0; Some c1] s) u)
      [q0 / x - w0; g1 / c1] [q0 / x; g1 / c1 + w1] [x; q1 / (g1 / c1 + w1)]) as Run.
    cbv zeta in Run. rewrite side_wu, wu_wu in Run. cbn [sd_n ws_gross_cop] in Run. rewrite N in Run.
    rewrite Run; try reflexivity; clear Run.
    assert (NC : c0 <> 0) by (unfold c0; apply div_nz; auto).
    intros [| [| i]] Hi; [| | lia].
    + exists q0, g0, w0, x, (q0 / x), (q0 / x - w0), c0.
      split; [repeat split; assumption |].
      split; [exact NC |]. split; [unfold c0; clear - Z1 Ng0; generalize dependent (q0 / x - w0); intros d Z1; field; auto |]. split; [lra |].
      split; [apply div_nz; auto | field; auto].
    + exists q1, g1, w1, (q1 / (g1 / c1 + w1)), (g1 / c1 + w1), (g1 / c1), c1.
      split; [repeat split; assumption |].
      repeat split; assumption.
Qed.

Lemma two_speed_example : exists (u u1 : U),
  sd_n (side_of Cooling u) = 2%nat /\ two (sd_net_cop (side_of Cooling u)) /\
  two (sd_net_power (side_of Cooling u)) /\ two (sd_gross_power (side_of Cooling u)) /\
  two (sd_gross_cop (side_of Cooling u)) /\ caps_nonzero (side_of Cooling u) /\
  nrel_set_net_cop Cooling (Scalar 4) u = (u1, Ok tt).
Proof.
  exists (idf_unit 255). eexists. do 5 (split; [reflexivity |]). split.
  { split; intros [| [| [|]]] q; cbn; intros H; try discriminate; injection H as <-; lra. }
  unfold nrel_set_net_cop.
  apply sbind_ok. eexists _, tt. split; [apply side_put_run; eexists; split; reflexivity |].
  apply sbind_ok. eexists _, tt. split.
  { apply set_entry_run. do 2 eexists. split; [| split; reflexivity].
    apply (pydiv_ok 10000 4); lra. }
  apply sbind_ok. eexists _, tt. split.
  { apply set_entry_run. do 2 eexists. split; [reflexivity | split; reflexivity]. }
  apply sbind_ok. eexists _, tt. split.
  { apply set_entry_run. do 2 eexists. split; [| split; reflexivity].
    apply (pydiv_ok 10300 (10000 / 4 - 300)); lra. }
  apply sbind_ok. eexists _, _. split; [reflexivity |].
  apply sbind_ok. eexists _, tt. split.
  { apply set_entry_run. do 2 eexists. split; [reflexivity | split; reflexivity]. }
  apply sbind_ok. eexists _, tt. split.
  { apply set_entry_run. do 2 eexists. split; [| split; reflexivity].
    apply (pydiv_ok 6150 (cop_low Cooling (10300 / (10000 / 4 - 300)))).
    rewrite cop_low_R. unfold low_share. lra. }
  apply sbind_ok. eexists _, tt. split.
  { apply set_entry_run. do 2 eexists. split; [reflexivity | split; reflexivity]. }
  apply set_entry_run. do 2 eexists. split; [| split; reflexivity].
  apply (pydiv_ok 6000 (6150 / cop_low Cooling (10300 / (10000 / 4 - 300)) + 150)).
  rewrite cop_low_R. unfold low_share. lra.
Qed.
