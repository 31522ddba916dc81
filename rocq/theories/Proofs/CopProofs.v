(** C48, C56: the rated COP setters. *)
From Coq Require Import Reals QArith Lra Lia Psatz List Bool String.
From Verif.Base Require Import Num Res Tac.
From Verif.Model Require Import Units Util Psychrometrics Conditions Defrost Fan Curves
  Tabular Unit NREL BaseModel Title24 Resnet DXUnit.
From Verif.Spec Require Import NrelSpec.
From Verif.Spec Require Import UnitModels.
From Verif.Proofs Require Import UnitsR NrelProofs Frame.
Import ListNotations.
Local Open Scope R_scope.
Notation U := (dxunit R).

Lemma nth_error_ext {A} (l l' : list A) :
  (forall i, nth_error l i = nth_error l' i) -> l = l'.
Proof.
  revert l'. induction l as [|x l IH]; intros [|y l'] H; auto.
  - specialize (H 0%nat). discriminate.
  - specialize (H 0%nat). discriminate.
  - f_equal; [specialize (H 0%nat); simpl in H; congruence|].
    apply IH. intros i. exact (H (S i)).
Qed.

Lemma list_eq_upto {A} (l l' : list A) n :
  List.length l = n -> List.length l' = n ->
  (forall i, (i < n)%nat -> nth_error l i = nth_error l' i) -> l = l'.
Proof.
  intros L L' H. apply nth_error_ext. intros i. destruct (Nat.lt_ge_cases i n) as [K|K]; auto.
  rewrite (proj2 (nth_error_None l i)) by lia. rewrite (proj2 (nth_error_None l' i)) by lia.
  reflexivity.
Qed.

Lemma rmapM_seq {B} (f : nat -> res B) n l a :
  rmapM f (seq a n) = Ok l <->
  List.length l = n /\ forall i x, nth_error l i = Some x -> f (a + i)%nat = Ok x.
Proof.
  revert a l. induction n as [|n IH]; intros a l; simpl.
  - split.
    + intros H. apply Ok_inj in H. subst l. split; [reflexivity|]. intros [|i] x; discriminate.
    + intros [H _]. destruct l; [reflexivity|discriminate].
  - split.
    + intros H. apply rbind_ok in H. destruct H as (y & Hy & H).
      apply rbind_ok in H. destruct H as (m & Hm & H). apply Ok_inj in H. subst l.
      apply IH in Hm. destruct Hm as [L Hm]. split; [simpl; lia|].
      intros [|i] x Hx; simpl in Hx.
      * rewrite Nat.add_0_r. congruence.
      * apply Hm in Hx. rewrite <- Nat.add_succ_comm. exact Hx.
    + intros [L H]. destruct l as [|y l]; [discriminate|].
      pose proof (H 0%nat y eq_refl) as H0. rewrite Nat.add_0_r in H0. rewrite H0. cbn [rbind].
      assert (K : rmapM f (seq (S a) n) = Ok l).
      { apply IH. split; [simpl in L; lia|]. intros i x Hx.
        rewrite Nat.add_succ_comm. apply H. exact Hx. }
      rewrite K. reflexivity.
Qed.

Lemma set_comp_run m set (f : side R -> nat -> res R) (u u' : U) :
  set_comp m set f u = (u', Ok tt) <->
  exists l, List.length l = sd_n (side_of m u)
    /\ (forall i x, nth_error l i = Some x -> f (side_of m u) i = Ok x)
    /\ u' = wu_side m (set (map Some l) (side_of m u)) u.
Proof.
  unfold set_comp, comp. split.
  - intros H. apply sbind_ok in H. destruct H as (s1 & x1 & H1 & H).
    apply pair_ok_inj in H1. destruct H1 as [<- <-].
    apply sbind_ok in H. destruct H as (s2 & l & H2 & H).
    apply slift_ok in H2. destruct H2 as [-> H2].
    apply rbind_ok in H2. destruct H2 as (l' & H2 & H3). apply Ok_inj in H3. subst l.
    apply rmapM_seq in H2. destruct H2 as [L H2].
    apply pair_ok_inj in H. destruct H as [<- _].
    exists l'. split; [exact L|]. split; [exact H2|reflexivity].
  - intros (l & L & H & ->). apply sbind_ok. exists u, u. split; [reflexivity|].
    apply sbind_ok. exists u, (map Some l). split; [|reflexivity].
    apply slift_ok. split; [reflexivity|].
    assert (K : rmapM (f (side_of m u)) (seq 0 (sd_n (side_of m u))) = Ok l)
      by (apply rmapM_seq; split; auto).
    rewrite K. reflexivity.
Qed.

Lemma side_wu m s (u : U) : side_of m (wu_side m s u) = s.
Proof. destruct m; reflexivity. Qed.
Lemma wu_wu m s s' (u : U) : wu_side m s (wu_side m s' u) = wu_side m s u.
Proof. destruct m; reflexivity. Qed.

(** The rated values at one speed. *)
Definition rated_at (s : side R) (X : list (option R)) (np gp gc : list R) (i : nat)
    (cap gcap w x a b c : R) : Prop :=
  nth_error (sd_net_cap s) i = Some cap /\ entry (sd_gross_cap s) i gcap
  /\ entry (sd_fan_power s) i w /\ entry X i x
  /\ nth_error np i = Some a /\ nth_error gp i = Some b /\ nth_error gc i = Some c.

Definition with_cops (s : side R) (X np gp gc : list (option R)) : side R :=
  ws_gross_cop gc (ws_gross_power gp (ws_net_power np (ws_net_cop X s))).

Lemma map_some_entry l i (x : R) : entry (map Some l) i x <-> nth_error l i = Some x.
Proof.
  unfold entry. rewrite nth_error_map. destruct (nth_error l i); simpl; split; intros H; congruence.
Qed.

Lemma net_inv m (u u' : U) :
  derive_from_net_cop m u = (u', Ok tt) ->
  let s := side_of m u in
  exists np gp gc, List.length np = sd_n s /\ List.length gp = sd_n s
    /\ List.length gc = sd_n s
    /\ u' = wu_side m (with_cops s (sd_net_cop s) (map Some np) (map Some gp) (map Some gc)) u
    /\ forall i, (i < sd_n s)%nat -> exists cap gcap w x a b c,
         rated_at s (sd_net_cop s) np gp gc i cap gcap w x a b c
         /\ x <> 0 /\ a = cap / x /\ b = a - w /\ b <> 0 /\ c = gcap / b.
Proof.
  intros H s. unfold derive_from_net_cop in H.
  apply sbind_ok in H. destruct H as (u1 & [] & H1 & H).
  apply sbind_ok in H. destruct H as (u2 & [] & H2 & H3).
  apply set_comp_run in H1. destruct H1 as (np & L1 & F1 & ->).
  apply set_comp_run in H2. rewrite side_wu in H2. destruct H2 as (gp & L2 & F2 & ->).
  rewrite wu_wu in H3.
  apply set_comp_run in H3. rewrite side_wu in H3. destruct H3 as (gc & L3 & F3 & ->).
  rewrite wu_wu. fold s in L1, F1, L2, F2, L3, F3 |- *.
  cbn [sd_n ws_net_power ws_gross_power] in L1, L2, L3.
  exists np, gp, gc. do 3 (split; [assumption|]). split.
  { destruct s; reflexivity. }
  intros i Hi.
  destruct (nth_error np i) as [a|] eqn:Ea; [|apply nth_error_None in Ea; lia].
  destruct (nth_error gp i) as [b|] eqn:Eb; [|apply nth_error_None in Eb; lia].
  destruct (nth_error gc i) as [c|] eqn:Ec; [|apply nth_error_None in Ec; lia].
  pose proof (F1 i a Ea) as G1. pose proof (F2 i b Eb) as G2. pose proof (F3 i c Ec) as G3.
  unfold net_over in G1. apply rbind_ok in G1. destruct G1 as (cap & Hcap & G1).
  apply rbind_ok in G1. destruct G1 as (x & Hx & G1). apply pydiv_inv in G1.
  unfold minus_at in G2. apply rbind_ok in G2. destruct G2 as (a' & Ha' & G2).
  apply rbind_ok in G2. destruct G2 as (w & Hw & G2). apply Ok_inj in G2.
  unfold ratio_at in G3. apply rbind_ok in G3. destruct G3 as (gcap & Hg & G3).
  apply rbind_ok in G3. destruct G3 as (b' & Hb' & G3). apply pydiv_inv in G3.
  apply arr_ok in Ha'. apply arr_ok in Hb'. apply arr_ok in Hw. apply arr_ok in Hg.
  apply arr_ok in Hx. apply geti_ok in Hcap.
  cbn [sd_net_power sd_fan_power sd_gross_cap sd_gross_power ws_net_power ws_gross_power]
    in Ha', Hb', Hw, Hg.
  apply map_some_entry in Ha'. apply map_some_entry in Hb'.
  assert (a' = a) by congruence. assert (b' = b) by congruence. subst a' b'.
  exists cap, gcap, w, x, a, b, c.
  split; [repeat split; auto|]. destruct G1 as [G1 ->], G3 as [G3 ->].
  cbn [nsub RNum] in G2. auto.
Qed.

Lemma net_run m (u : U) np gp gc :
  let s := side_of m u in
  List.length np = sd_n s -> List.length gp = sd_n s -> List.length gc = sd_n s ->
  (forall i, (i < sd_n s)%nat -> exists cap gcap w x a b c,
         rated_at s (sd_net_cop s) np gp gc i cap gcap w x a b c
         /\ x <> 0 /\ a = cap / x /\ b = a - w /\ b <> 0 /\ c = gcap / b) ->
  derive_from_net_cop m u
  = (wu_side m (with_cops s (sd_net_cop s) (map Some np) (map Some gp) (map Some gc)) u, Ok tt).
Proof.
  intros s L1 L2 L3 F. unfold derive_from_net_cop.
  assert (T : forall i x, nth_error np i = Some x \/ nth_error gp i = Some x
                \/ nth_error gc i = Some x -> (i < sd_n s)%nat).
  { intros i x [K|[K|K]]; [rewrite <- L1|rewrite <- L2|rewrite <- L3];
      apply nth_error_Some; congruence. }
  apply sbind_ok. exists (wu_side m (ws_net_power (map Some np) s) u), tt. split.
  { apply set_comp_run. exists np. split; [exact L1|]. split; [|reflexivity].
    intros i x Hx. destruct (F i (T i x (or_introl Hx)))
      as (cap & gcap & w & y & a & b & c & (E1 & E2 & E3 & E4 & E5 & E6 & E7) & N1 & Ea & Eb & N2 & Ec).
    unfold net_over. fold s. apply geti_ok in E1. rewrite E1. cbn [rbind].
    apply arr_ok in E4. rewrite E4. cbn [rbind]. apply pydiv_inv. split; congruence. }
  apply sbind_ok.
  exists (wu_side m (ws_gross_power (map Some gp) (ws_net_power (map Some np) s)) u), tt. split.
  { apply set_comp_run.
    exists gp. rewrite side_wu, wu_wu. split; [exact L2|]. split; [|reflexivity].
    intros i x Hx. destruct (F i (T i x (or_intror (or_introl Hx))))
      as (cap & gcap & w & y & a & b & c & (E1 & E2 & E3 & E4 & E5 & E6 & E7) & N1 & Ea & Eb & N2 & Ec).
    unfold minus_at. cbn [sd_net_power sd_fan_power ws_net_power].
    apply map_some_entry in E5. apply arr_ok in E5. rewrite E5. cbn [rbind].
    apply arr_ok in E3. rewrite E3. cbn [rbind nsub RNum]. f_equal. congruence. }
  apply set_comp_run.
  exists gc. rewrite side_wu, wu_wu. split; [exact L3|]. split.
  { intros i x Hx. destruct (F i (T i x (or_intror (or_intror Hx))))
      as (cap & gcap & w & y & a & b & c & (E1 & E2 & E3 & E4 & E5 & E6 & E7) & N1 & Ea & Eb & N2 & Ec).
    unfold ratio_at. cbn [sd_gross_cap sd_gross_power ws_net_power ws_gross_power].
    apply arr_ok in E2. rewrite E2. cbn [rbind].
    apply map_some_entry in E6. apply arr_ok in E6. rewrite E6. cbn [rbind].
    apply pydiv_inv. split; congruence. }
  destruct s; reflexivity.
Qed.

(** The same for the other direction; here [gp np nc] are computed from the gross
    COPs [G]. *)
Definition grossed (s : side R) (X np gp G : list (option R)) : side R :=
  ws_net_cop X (ws_net_power np (ws_gross_power gp (ws_gross_cop G s))).

Lemma gross_inv m (u u' : U) :
  derive_from_gross_cop m u = (u', Ok tt) ->
  let s := side_of m u in
  exists gp np nc, List.length gp = sd_n s /\ List.length np = sd_n s
    /\ List.length nc = sd_n s
    /\ u' = wu_side m (grossed s (map Some nc) (map Some np) (map Some gp) (sd_gross_cop s)) u
    /\ forall i, (i < sd_n s)%nat -> exists cap gcap w x a b c,
         rated_at s (sd_gross_cop s) np gp nc i cap gcap w c a b x
         /\ c <> 0 /\ b = gcap / c /\ a = b + w /\ a <> 0 /\ x = cap / a.
Proof.
  intros H s. unfold derive_from_gross_cop in H.
  apply sbind_ok in H. destruct H as (u1 & [] & H1 & H).
  apply sbind_ok in H. destruct H as (u2 & [] & H2 & H3).
  apply set_comp_run in H1. destruct H1 as (gp & L1 & F1 & ->).
  apply set_comp_run in H2. rewrite side_wu in H2. destruct H2 as (np & L2 & F2 & ->).
  rewrite wu_wu in H3.
  apply set_comp_run in H3. rewrite side_wu in H3. destruct H3 as (nc & L3 & F3 & ->).
  rewrite wu_wu. fold s in L1, F1, L2, F2, L3, F3 |- *.
  cbn [sd_n ws_net_power ws_gross_power] in L1, L2, L3.
  exists gp, np, nc. do 3 (split; [assumption|]). split.
  { destruct s; reflexivity. }
  intros i Hi.
  destruct (nth_error np i) as [a|] eqn:Ea; [|apply nth_error_None in Ea; lia].
  destruct (nth_error gp i) as [b|] eqn:Eb; [|apply nth_error_None in Eb; lia].
  destruct (nth_error nc i) as [x|] eqn:Ec; [|apply nth_error_None in Ec; lia].
  pose proof (F1 i b Eb) as G1. pose proof (F2 i a Ea) as G2. pose proof (F3 i x Ec) as G3.
  unfold ratio_at in G1. apply rbind_ok in G1. destruct G1 as (gcap & Hg & G1).
  apply rbind_ok in G1. destruct G1 as (c & Hc & G1). apply pydiv_inv in G1.
  unfold plus_at in G2. apply rbind_ok in G2. destruct G2 as (b' & Hb' & G2).
  apply rbind_ok in G2. destruct G2 as (w & Hw & G2). apply Ok_inj in G2.
  unfold net_over in G3. apply rbind_ok in G3. destruct G3 as (cap & Hcap & G3).
  apply rbind_ok in G3. destruct G3 as (a' & Ha' & G3). apply pydiv_inv in G3.
  apply arr_ok in Ha'. apply arr_ok in Hb'. apply arr_ok in Hw. apply arr_ok in Hg.
  apply arr_ok in Hc. apply geti_ok in Hcap.
  cbn [sd_net_power sd_fan_power sd_gross_cap sd_gross_power sd_net_cap ws_net_power
    ws_gross_power] in Ha', Hb', Hw, Hg, Hcap.
  apply map_some_entry in Ha'. apply map_some_entry in Hb'.
  assert (a' = a) by congruence. assert (b' = b) by congruence. subst a' b'.
  exists cap, gcap, w, x, a, b, c.
  split; [repeat split; auto|]. destruct G1 as [G1 ->], G3 as [G3 ->].
  cbn [nadd RNum] in G2. auto.
Qed.

Lemma gross_run m (u : U) gp np nc :
  let s := side_of m u in
  List.length gp = sd_n s -> List.length np = sd_n s -> List.length nc = sd_n s ->
  (forall i, (i < sd_n s)%nat -> exists cap gcap w x a b c,
         rated_at s (sd_gross_cop s) np gp nc i cap gcap w c a b x
         /\ c <> 0 /\ b = gcap / c /\ a = b + w /\ a <> 0 /\ x = cap / a) ->
  derive_from_gross_cop m u
  = (wu_side m (grossed s (map Some nc) (map Some np) (map Some gp) (sd_gross_cop s)) u, Ok tt).
Proof.
  intros s L1 L2 L3 F. unfold derive_from_gross_cop.
  assert (T : forall i x, nth_error gp i = Some x \/ nth_error np i = Some x
                \/ nth_error nc i = Some x -> (i < sd_n s)%nat).
  { intros i x [K|[K|K]]; [rewrite <- L1|rewrite <- L2|rewrite <- L3];
      apply nth_error_Some; congruence. }
  apply sbind_ok. exists (wu_side m (ws_gross_power (map Some gp) s) u), tt. split.
  { apply set_comp_run. exists gp. split; [exact L1|]. split; [|reflexivity].
    intros i z Hz. destruct (F i (T i z (or_introl Hz)))
      as (cap & gcap & w & x & a & b & c & (E1 & E2 & E3 & E4 & E5 & E6 & E7) & N1 & Ea & Eb & N2 & Ec).
    unfold ratio_at. fold s. apply arr_ok in E2. rewrite E2. cbn [rbind].
    apply arr_ok in E4. rewrite E4. cbn [rbind]. apply pydiv_inv. split; congruence. }
  apply sbind_ok.
  exists (wu_side m (ws_net_power (map Some np) (ws_gross_power (map Some gp) s)) u), tt. split.
  { apply set_comp_run.
    exists np. rewrite side_wu, wu_wu. split; [exact L2|]. split; [|reflexivity].
    intros i z Hz. destruct (F i (T i z (or_intror (or_introl Hz))))
      as (cap & gcap & w & x & a & b & c & (E1 & E2 & E3 & E4 & E5 & E6 & E7) & N1 & Ea & Eb & N2 & Ec).
    unfold plus_at. cbn [sd_gross_power sd_fan_power ws_gross_power].
    apply map_some_entry in E6. apply arr_ok in E6. rewrite E6. cbn [rbind].
    apply arr_ok in E3. rewrite E3. cbn [rbind nadd RNum]. f_equal. congruence. }
  apply set_comp_run.
  exists nc. rewrite side_wu, wu_wu. split; [exact L3|]. split.
  { intros i z Hz. destruct (F i (T i z (or_intror (or_intror Hz))))
      as (cap & gcap & w & x & a & b & c & (E1 & E2 & E3 & E4 & E5 & E6 & E7) & N1 & Ea & Eb & N2 & Ec).
    unfold net_over. cbn [sd_net_cap sd_net_power ws_net_power ws_gross_power].
    apply geti_ok in E1. rewrite E1. cbn [rbind].
    apply map_some_entry in E5. apply arr_ok in E5. rewrite E5. cbn [rbind].
    apply pydiv_inv. split; congruence. }
  destruct s; reflexivity.
Qed.

(** ** Round trips *)

Lemma div_nz x y : x <> 0 -> y <> 0 -> x / y <> 0.
Proof.
  intros H1 H2. unfold Rdiv. apply Rmult_integral_contrapositive_currified; auto.
  apply Rinv_neq_0_compat. auto.
Qed.

(** From net COPs [X] to gross COPs and back. *)
Lemma net_gross_net m (u u1 : U) X :
  let s := side_of m u in
  caps_nonzero s -> List.length X = sd_n s ->
  derive_from_net_cop m (wu_side m (ws_net_cop (map Some X) s) u) = (u1, Ok tt) ->
  derive_from_gross_cop m (wu_side m (ws_gross_cop (sd_gross_cop (side_of m u1)) s) u)
  = (u1, Ok tt).
Proof.
  intros s [C1 C2] LX H.
  apply net_inv in H. rewrite side_wu in H. cbn [sd_n ws_net_cop] in H.
  destruct H as (np & gp & gc & L1 & L2 & L3 & Hu & F). rewrite wu_wu in Hu. subst u1.
  rewrite side_wu.
  pose proof (gross_run m (wu_side m (ws_gross_cop (map Some gc) s) u) gp np X) as G.
  cbv zeta in G. rewrite side_wu, wu_wu in G. cbn [sd_n ws_gross_cop] in G.
  change (sd_gross_cop (with_cops (ws_net_cop (map Some X) s) (sd_net_cop (ws_net_cop (map Some X) s))
    (map Some np) (map Some gp) (map Some gc))) with (map Some gc).
  rewrite G; auto.
  intros i Hi. destruct (F i Hi)
      as (cap & gcap & w & x & a & b & c & (E1 & E2 & E3 & E4 & E5 & E6 & E7) & N1 & Ea & Eb & N2 & Ec).
    exists cap, gcap, w, x, a, b, c. cbn [sd_net_cap sd_gross_cap sd_fan_power ws_net_cop] in *.
    pose proof (C1 i cap E1) as Z1. pose proof (C2 i gcap E2) as Z2.
    apply map_some_entry in E4.
    split.
    { unfold rated_at. repeat split; auto.
      cbn [sd_gross_cop ws_gross_cop]. apply map_some_entry. exact E7. }
    split; [rewrite Ec; apply div_nz; auto|].
    split; [rewrite Ec; field; auto|]. split; [lra|].
    split; [rewrite Ea; apply div_nz; auto|rewrite Ea; field; auto].
Qed.

Lemma gross_net_gross m (u u1 : U) G :
  let s := side_of m u in
  caps_nonzero s -> List.length G = sd_n s ->
  derive_from_gross_cop m (wu_side m (ws_gross_cop (map Some G) s) u) = (u1, Ok tt) ->
  derive_from_net_cop m (wu_side m (ws_net_cop (sd_net_cop (side_of m u1)) s) u)
  = (u1, Ok tt).
Proof.
  intros s [C1 C2] LX H.
  apply gross_inv in H. rewrite side_wu in H. cbn [sd_n ws_gross_cop] in H.
  destruct H as (gp & np & nc & L1 & L2 & L3 & Hu & F). rewrite wu_wu in Hu. subst u1.
  rewrite side_wu.
  pose proof (net_run m (wu_side m (ws_net_cop (map Some nc) s) u) np gp G) as K.
  cbv zeta in K. rewrite side_wu, wu_wu in K. cbn [sd_n ws_net_cop] in K.
  change (sd_net_cop (grossed (ws_gross_cop (map Some G) s) (map Some nc) (map Some np)
    (map Some gp) (sd_gross_cop (ws_gross_cop (map Some G) s)))) with (map Some nc).
  rewrite K; auto.
  intros i Hi. destruct (F i Hi)
      as (cap & gcap & w & x & a & b & c & (E1 & E2 & E3 & E4 & E5 & E6 & E7) & N1 & Eb & Ea & N2 & Ex).
    exists cap, gcap, w, x, a, b, c. cbn [sd_net_cap sd_gross_cap sd_fan_power ws_gross_cop] in *.
    pose proof (C1 i cap E1) as Z1. pose proof (C2 i gcap E2) as Z2.
    apply map_some_entry in E4.
    split.
    { unfold rated_at. repeat split; auto.
      cbn [sd_net_cop ws_net_cop]. apply map_some_entry. exact E7. }
    assert (B : b <> 0) by (rewrite Eb; apply div_nz; auto).
    split; [rewrite Ex; apply div_nz; auto|].
    split; [rewrite Ex; field; auto|]. split; [lra|].
    split; [exact B|rewrite Eb; field; auto].
Qed.

(** Public setters. *)
Lemma all_equal_repeat (l : list (option R)) n x :
  List.length l = n -> (forall i y, nth_error l i = Some y -> y = Some x) ->
  l = repeat (Some x) n.
Proof.
  intros <- H. induction l as [|y l IH]; [reflexivity|]. simpl. f_equal.
  - exact (H 0%nat y eq_refl).
  - apply IH. intros i z Hz. exact (H (S i) z Hz).
Qed.
Lemma map_repeat_some n (x : R) : map Some (repeat x n) = repeat (Some x) n.
Proof. induction n; simpl; congruence. Qed.

Lemma base_net_then_gross m x g (u u1 : U) :
  caps_nonzero (side_of m u) ->
  base_set_net_cop m (Scalar x) u = (u1, Ok tt) ->
  (forall i y, nth_error (sd_gross_cop (side_of m u1)) i = Some y -> y = Some g) ->
  base_set_gross_cop m (Scalar g) u = (u1, Ok tt).
Proof.
  intros C H E. set (s := side_of m u) in *.
  assert (H' : derive_from_net_cop m
     (wu_side m (ws_net_cop (map Some (repeat x (sd_n s))) s) u) = (u1, Ok tt)).
  { rewrite map_repeat_some. exact H. }
  pose proof (net_inv _ _ _ H') as K. rewrite side_wu in K. cbn [sd_n ws_net_cop] in K.
  destruct K as (np & gp & gc & _ & _ & L & Hu & _).
  assert (Lg : List.length (sd_gross_cop (side_of m u1)) = sd_n s).
  { rewrite Hu, side_wu. change (List.length (map (@Some R) gc) = sd_n s). rewrite map_length. exact L. }
  pose proof (net_gross_net m u u1 (repeat x (sd_n s)) C (repeat_length _ _) H') as R1.
  rewrite (all_equal_repeat _ _ g Lg E) in R1. exact R1.
Qed.

Lemma base_gross_then_net m x g (u u1 : U) :
  caps_nonzero (side_of m u) ->
  base_set_gross_cop m (Scalar g) u = (u1, Ok tt) ->
  (forall i y, nth_error (sd_net_cop (side_of m u1)) i = Some y -> y = Some x) ->
  base_set_net_cop m (Scalar x) u = (u1, Ok tt).
Proof.
  intros C H E. set (s := side_of m u) in *.
  assert (H' : derive_from_gross_cop m
     (wu_side m (ws_gross_cop (map Some (repeat g (sd_n s))) s) u) = (u1, Ok tt)).
  { rewrite map_repeat_some. exact H. }
  pose proof (gross_inv _ _ _ H') as K. rewrite side_wu in K. cbn [sd_n ws_gross_cop] in K.
  destruct K as (gp & np & nc & _ & _ & L & Hu & _).
  assert (Lg : List.length (sd_net_cop (side_of m u1)) = sd_n s).
  { rewrite Hu, side_wu. change (List.length (map (@Some R) nc) = sd_n s). rewrite map_length. exact L. }
  pose proof (gross_net_gross m u u1 (repeat g (sd_n s)) C (repeat_length _ _) H') as R1.
  rewrite (all_equal_repeat _ _ x Lg E) in R1. exact R1.
Qed.

Lemma nrel_net_then_gross m X G (u u1 : U) :
  caps_nonzero (side_of m u) -> List.length X = sd_n (side_of m u) ->
  nrel_set_net_cop m (Many X) u = (u1, Ok tt) ->
  sd_gross_cop (side_of m u1) = map Some G ->
  nrel_set_gross_cop m (Many G) u = (u1, Ok tt).
Proof.
  intros C L H E. pose proof (net_gross_net m u u1 X C L H) as R1. rewrite E in R1. exact R1.
Qed.
Lemma nrel_gross_then_net m X G (u u1 : U) :
  caps_nonzero (side_of m u) -> List.length G = sd_n (side_of m u) ->
  nrel_set_gross_cop m (Many G) u = (u1, Ok tt) ->
  sd_net_cop (side_of m u1) = map Some X ->
  nrel_set_net_cop m (Many X) u = (u1, Ok tt).
Proof.
  intros C L H E. pose proof (gross_net_gross m u u1 G C L H) as R1. rewrite E in R1. exact R1.
Qed.

(** Values left by the base setters. *)
Lemma base_net_values m x (u u1 : U) :
  base_set_net_cop m (Scalar x) u = (u1, Ok tt) ->
  let s := side_of m u1 in
  sd_net_cop s = repeat (Some x) (sd_n s)
  /\ forall i, (i < sd_n s)%nat -> exists q g w,
       nth_error (sd_net_cap s) i = Some q /\ entry (sd_gross_cap s) i g
       /\ entry (sd_fan_power s) i w
       /\ entry (sd_net_power s) i (q / x) /\ entry (sd_gross_power s) i (q / x - w)
       /\ entry (sd_gross_cop s) i (g / (q / x - w)).
Proof.
  intros H s. subst s. apply net_inv in H. rewrite side_wu in H.
  cbn [sd_n ws_net_cop sd_net_cop] in H.
  destruct H as (np & gp & gc & L1 & L2 & L3 & Hu & F). rewrite wu_wu in Hu. subst u1. rewrite side_wu.
  split; [reflexivity|]. intros i Hi. destruct (F i Hi)
      as (cap & gcap & w & y & a & b & c & (E1 & E2 & E3 & E4 & E5 & E6 & E7) & N1 & Ea & Eb & N2 & Ec).
  exists cap, gcap, w. split; [exact E1|]. split; [exact E2|]. split; [exact E3|].
  assert (y = x).
  { unfold entry in E4. apply nth_error_In in E4. apply repeat_spec in E4. congruence. }
  subst y.
  split; [apply (proj2 (map_some_entry np i _)); congruence|].
  split; [apply (proj2 (map_some_entry gp i _)); congruence|].
  apply (proj2 (map_some_entry gc i _)). congruence.
Qed.

Lemma base_gross_values m g (u u1 : U) :
  base_set_gross_cop m (Scalar g) u = (u1, Ok tt) ->
  let s := side_of m u1 in
  sd_gross_cop s = repeat (Some g) (sd_n s)
  /\ forall i, (i < sd_n s)%nat -> exists q gq w,
       nth_error (sd_net_cap s) i = Some q /\ entry (sd_gross_cap s) i gq
       /\ entry (sd_fan_power s) i w
       /\ entry (sd_gross_power s) i (gq / g) /\ entry (sd_net_power s) i (gq / g + w)
       /\ entry (sd_net_cop s) i (q / (gq / g + w)).
Proof.
  intros H s. subst s. apply gross_inv in H. rewrite side_wu in H.
  cbn [sd_n ws_gross_cop sd_gross_cop] in H.
  destruct H as (gp & np & nc & L1 & L2 & L3 & Hu & F). rewrite wu_wu in Hu. subst u1. rewrite side_wu.
  split; [reflexivity|]. intros i Hi. destruct (F i Hi)
      as (cap & gcap & w & y & a & b & c & (E1 & E2 & E3 & E4 & E5 & E6 & E7) & N1 & Ea & Eb & N2 & Ec).
  exists cap, gcap, w. split; [exact E1|]. split; [exact E2|]. split; [exact E3|].
  assert (c = g).
  { unfold entry in E4. apply nth_error_In in E4. apply repeat_spec in E4. congruence. }
  subst c.
  split; [apply (proj2 (map_some_entry gp i _)); congruence|].
  split; [apply (proj2 (map_some_entry np i _)); congruence|].
  apply (proj2 (map_some_entry nc i _)). congruence.
Qed.
