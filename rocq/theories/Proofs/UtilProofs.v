From Coq Require Import Reals QArith Lra Lia List Bool.
From Verif.Base Require Import Num Res Tac.
From Verif.Model Require Import Util.
From Verif.Spec Require Import UtilSpec.
Import ListNotations.
Local Open Scope R_scope.

Lemma nabs_R (x : R) : nabs x = Rabs x.
Proof.
  rnum. unfold Rabs. destruct (Rcase_abs x); rcases; lra.
Qed.

Lemma bracket_spec v mn mx :
  (exists x, in_range mn mx x) ->
  in_range mn mx (bracket v mn mx)
  /\ (forall x, in_range mn mx x -> Rabs (bracket v mn mx - v) <= Rabs (x - v))
  /\ (in_range mn mx v -> bracket v mn mx = v).
Proof.
  intros (x0 & L0 & U0). unfold bracket. rnum. unfold in_range.
  destruct mn as [a|], mx as [b|];
    repeat match goal with
    | H : forall m, Some ?a = Some m -> _ |- _ => specialize (H a eq_refl)
    | H : forall m, None = Some m -> _ |- _ => clear H
    end; rcases;
    (split; [split; intros m Em; inversion Em; subst; lra|]); split;
    try (intros x (L & U);
         repeat match goal with
         | H : forall m, Some ?a = Some m -> _ |- _ => specialize (H a eq_refl)
         end; unfold Rabs; repeat destruct Rcase_abs; lra);
    try (intros (L & U);
         repeat match goal with
         | H : forall m, Some ?a = Some m -> _ |- _ => specialize (H a eq_refl)
         end; lra).
Qed.

Lemma bracket_monotone v w mn mx :
  (exists x, in_range mn mx x) ->
  v <= w -> bracket v mn mx <= bracket w mn mx.
Proof.
  intros (x0 & L0 & U0) Hvw. unfold bracket. rnum.
  destruct mn as [a|], mx as [b|];
    repeat match goal with
    | H : forall m, Some ?a = Some m -> _ |- _ => specialize (H a eq_refl)
    end; rcases; lra.
Qed.

Lemma limit_check_ok_iff v mn mx r :
  limit_check v mn mx = Ok r <-> r = v /\ in_range mn mx v.
Proof.
  unfold limit_check, in_range. rnum.
  destruct mn as [a|], mx as [b|]; rcases; simpl; split; intros H;
    repeat match goal with
    | H : Ok _ = Ok _ |- _ => apply Ok_inj in H; subst
    | H : Err _ = Ok _ |- _ => discriminate H
    | H : _ /\ _ |- _ => destruct H
    | H : forall m, Some ?a = Some m -> _ |- _ => specialize (H a eq_refl)
    end; subst; try lra; try reflexivity;
    repeat split; auto; intros m Em; inversion Em; subst; lra.
Qed.

Lemma limit_check_err_iff v mn mx e :
  limit_check v mn mx = Err e <-> e = PyException /\ ~ in_range mn mx v.
Proof.
  unfold limit_check, in_range. rnum.
  destruct mn as [a|], mx as [b|]; rcases; simpl; split; intros H;
    try discriminate;
    try (injection H as <-; split; [reflexivity|intros (L & U);
         repeat match goal with
         | H : forall m, Some ?a = Some m -> _ |- _ => specialize (H a eq_refl)
         end; lra]);
    try (destruct H as (-> & H); reflexivity);
    exfalso; destruct H as (_ & H); apply H;
    split; intros m Em; inversion Em; subst; lra.
Qed.

(** The loop of [find_nearest]: the accumulator holds the nearest element seen
    so far. *)
Lemma find_nearest_fold v l d c :
  d = Rabs (c - v) ->
  let r := fold_left (find_nearest_step v) l (d, c) in
  fst r = Rabs (snd r - v) /\
  ((snd r = c /\ forall x, In x l -> d <= Rabs (x - v))
   \/ (exists i, nth_error l i = Some (snd r)
       /\ Rabs (snd r - v) < d
       /\ (forall x, In x l -> Rabs (snd r - v) <= Rabs (x - v))
       /\ (forall j x, (j < i)%nat -> nth_error l j = Some x ->
             Rabs (snd r - v) < Rabs (x - v)))).
Proof.
  revert d c; induction l as [|a l IH]; intros d c Hd; simpl.
  - split; auto. left. split; auto. intros x [].
  - unfold find_nearest_step at 2 4 6 8 10 12 14.
    change (nabs (nsub a v)) with (nabs (a - v)). rewrite nabs_R.
    cbn [fst snd nltb RNum].
    destruct (Rltb_spec (Rabs (a - v)) d) as [Hlt|Hge].
    + specialize (IH (Rabs (a - v)) a eq_refl). cbn zeta in IH.
      destruct IH as (Hf & [(Hs & Hmin)|(i & Hi & Hlt2 & Hmin & Hfirst)]).
      * split; auto. right. exists 0%nat. rewrite Hs. simpl.
        repeat split; auto.
        -- intros x [->|Hx]; [lra|auto].
        -- intros j x Hj. lia.
      * split; auto. right. exists (S i). simpl. repeat split; auto.
        -- lra.
        -- intros x [->|Hx]; [lra|auto].
        -- intros [|j] x Hj Hx.
           ++ simpl in Hx. injection Hx as <-. lra.
           ++ simpl in Hx. apply (Hfirst j); auto. lia.
    + specialize (IH d c Hd). cbn zeta in IH.
      destruct IH as (Hf & [(Hs & Hmin)|(i & Hi & Hlt2 & Hmin & Hfirst)]).
      * split; auto. left. split; auto. intros x [->|Hx]; [lra|auto].
      * split; auto. right. exists (S i). simpl. repeat split; auto.
        -- intros x [->|Hx]; [lra|auto].
        -- intros [|j] x Hj Hx.
           ++ simpl in Hx. injection Hx as <-. lra.
           ++ simpl in Hx. apply (Hfirst j); auto. lia.
Qed.

Lemma find_nearest_first v l :
  l <> [] -> exists r, find_nearest l v = Ok r /\ first_nearest l v r.
Proof.
  destruct l as [|a l]; [congruence|]. intros _.
  unfold find_nearest.
  change (nabs (nsub a v)) with (nabs (a - v)). rewrite nabs_R.
  pose proof (find_nearest_fold v (a :: l) (Rabs (a - v)) a eq_refl) as H.
  cbn zeta in H. eexists; split; [reflexivity|].
  destruct H as (Hf & [(Hs & Hmin)|(i & Hi & Hlt2 & Hmin & Hfirst)]).
  - exists 0%nat. rewrite Hs. simpl. repeat split; auto.
    intros j x Hj. lia.
  - exists i. auto.
Qed.
