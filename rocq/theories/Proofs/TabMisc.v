(** Corollaries used by the property file. *)
From Coq Require Import Reals QArith Lra Lia List Bool Sorted ZArith.
From Verif.Base Require Import Num Res Tac.
From Verif.Model Require Import Units Util Curves Tabular.
From Verif.Spec Require Import TabularSpec.
From Verif.Proofs Require Import UnitsR TabCells TabAdd TabInterp TabBuild TabTotal TabNeep.
Import ListNotations.
Local Open Scope R_scope.

Lemma absent_raises s x v (t : table R) : ~ In x (t_temps t) ->
  t_set s x v t = (t, Err ValueError) /\ t_get s x t = Err ValueError
  /\ forall m, setter s x m -> exists e, m t = (t, Err e).
Proof.
  intros H. destruct (set_absent s x v t H). split; auto. split; auto.
  intros m S. eapply setter_absent; eauto.
Qed.

Lemma bad_speed_raises s x v (t : table R) : wf_table t -> In x (t_temps t) -> (Z.of_nat (t_n t) < s)%Z ->
  t_set s x v t = (t, Err IndexError) /\ t_get s x t = Err IndexError
  /\ forall m, setter s x m -> exists e, m t = (t, Err e).
Proof.
  intros W H L. destruct (set_bad_speed s x v t W H L). split; auto. split; auto.
  intros m S. eapply setter_bad_speed; eauto.
Qed.

Lemma between_succeeds (t : table R) x u0 u1 l l' ext lim : wf_table t -> filled t ->
  t_temps t = l ++ u0 :: u1 :: l' -> u0 < x -> x < u1 -> length l <> 1%nat ->
  exists t1, add_temperature x ext lim t = (t1, Ok tt).
Proof.
  intros W F ET H0 H1 L.
  destruct (add_between t l u0 u1 l' x ext lim W F ET H0 H1) as (A & _).
  assert (N : nth 1 (l ++ u0 :: x :: u1 :: l') 0 <> u0).
  { destruct l as [|a [|b l]]; simpl; [lra|simpl in L; congruence|].
    destruct W as (W & _). rewrite ET in W. simpl in W.
    apply StronglySorted_inv in W. destruct W as (W & _). apply StronglySorted_inv in W. destruct W as (_ & W).
    rewrite Forall_forall in W. assert (b < u0) by (apply W; apply in_app_iff; simpl; auto). lra. }
  destruct (A N) as (d1 & d2 & _ & _ & _ & E). eauto.
Qed.

Lemma add_filled_below (t t1 : table R) x u1 u2 l lim : wf_table t -> filled t ->
  t_temps t = u1 :: u2 :: l -> x < u1 -> t_n t <> 0%nat -> add_temperature x true lim t = (t1, Ok tt) ->
  wf_table t1 /\ filled t1 /\ t_temps t1 <> [] /\ t_n t1 <> 0%nat.
Proof.
  intros W F ET Hx Hn E. destruct (add_wf t t1 x true lim _ W E) as (W1 & N1 & _ & _ & I & _).
  split; auto. rewrite (add_below t u1 u2 l x true lim W F ET Hx) in E.
  inversion E. split; [|split].
  - unfold filled, put_row. cbn [t_data w_data].
    apply Forall_forall. intros row Hr. simpl in Hr. destruct Hr as [<-|Hr].
    + clear. induction (seq 0 (t_n t)) as [|j js IH]; cbn [map]; [constructor|].
      constructor; [discriminate|exact IH].
    + unfold filled in F. rewrite Forall_forall in F. auto.
  - cbn. discriminate.
  - cbn. auto.
Qed.

Lemma interpolated_again (t t' : table R) : interpolated t t' -> up_to_date t'.
Proof.
  unfold up_to_date, interpolated, set_interpolator, sbind, sget, slift, smod.
  destruct t as [k T n d i]. cbn [t_kind t_temps t_n t_data t_interp w_interp].
  intros H. destruct (values_of d) eqn:Ev; [|inversion H].
  match type of H with context [guard _ ?b] => destruct b eqn:Eb end; [|inversion H].
  cbn [guard] in H. inversion H. cbn [t_kind t_temps t_n t_data t_interp w_interp].
  rewrite Ev, Eb. reflexivity.
Qed.

Lemma interpolated_get (t t' : table R) : interpolated t t' -> forall s x, t_get s x t' = t_get s x t.
Proof. intros I s x. destruct (interpolated_inv t t' I) as (vals & _ & ->). reflexivity. Qed.
Lemma interpolated_n (t t' : table R) : interpolated t t' -> t_n t' = t_n t.
Proof. intros I. destruct (interpolated_inv t t' I) as (vals & _ & ->). reflexivity. Qed.

Lemma neep_changes lct tmax tmin (a a' : neep_args (T:=R)) p :
  make_neep_model_data lct tmax tmin a = (a', Ok p) -> a' <> a.
Proof. intros H E. apply neep_rows in H. subst. lia. Qed.

Lemma neep_second lct tmax tmin (a a' : neep_args (T:=R)) p lct' tmax' tmin' (a'' : neep_args (T:=R)) q :
  make_neep_model_data lct tmax tmin a = (a', Ok p) ->
  make_neep_model_data lct' tmax' tmin' a' <> (a'', Ok q).
Proof. intros H E. apply neep_rows in H. apply neep_rows in E. lia. Qed.

Lemma tidx_In (t : table R) x : wf_table t -> In x (t_temps t) -> exists i, tidx t x = Ok (Z.of_nat i) /\ (i < length (t_data t))%nat.
Proof.
  intros W H. assert (W' := W). destruct W' as (W1 & W2 & W3).
  apply In_nth_error in H. destruct H as (i & Hi). exists i. split.
  - unfold tidx. rewrite (proj2 (index_of_sorted _ _ _ W1) Hi). reflexivity.
  - rewrite W2. apply nth_error_Some. congruence.
Qed.

Lemma row_of (t : table R) i : wf_table t -> (i < length (t_data t))%nat ->
  exists row, nth_error (t_data t) i = Some row /\ length row = t_n t.
Proof.
  intros (_ & _ & W) H. destruct (nth_error (t_data t) i) as [row|] eqn:E; [|apply nth_error_None in E; lia].
  exists row. split; auto. rewrite Forall_forall in W. apply W. eapply nth_error_In; eauto.
Qed.

Lemma pyindex_nat {A} (l : list A) i : (i < length l)%nat -> pyindex l (Z.of_nat i) = Ok i.
Proof.
  intros H. unfold pyindex. cbv zeta. rewrite (proj2 (Z.ltb_ge (Z.of_nat i) 0)) by lia.
  rewrite (proj2 (Z.ltb_lt (Z.of_nat i) (Z.of_nat (length l)))) by lia. rewrite Nat2Z.id. reflexivity.
Qed.

Lemma pyindex_last {A} (l : list A) : (1 <= length l)%nat -> pyindex l (-1) = Ok (length l - 1)%nat.
Proof.
  intros H. unfold pyindex. change (-1 <? 0)%Z with true. cbv zeta iota.
  rewrite (proj2 (Z.ltb_ge (-1 + Z.of_nat (length l)) 0)) by lia. f_equal. lia.
Qed.

Lemma speed_zero x (t : table R) : wf_table t -> In x (t_temps t) -> (1 <= t_n t)%nat ->
  t_get 0 x t = t_get (Z.of_nat (t_n t)) x t
  /\ (exists o, t_get 0 x t = Ok o)
  /\ forall v, exists t', t_set 0 x v t = (t', Ok tt)
       /\ t_get (Z.of_nat (t_n t)) x t' = Ok (Some v).
Proof.
  intros W H Hn. destruct (tidx_In t x W H) as (i & Hi & Li).
  destruct (row_of t i W Li) as (row & Hr & Lr).
  assert (P1 : pyindex (t_data t) (Z.of_nat i) = Ok i) by (apply pyindex_nat; auto).
  assert (P2 : pyindex row (0 - 1) = Ok (t_n t - 1)%nat) by (rewrite <- Lr; apply pyindex_last; lia).
  assert (P3 : pyindex row (Z.of_nat (t_n t) - 1) = Ok (t_n t - 1)%nat).
  { replace (Z.of_nat (t_n t) - 1)%Z with (Z.of_nat (t_n t - 1)) by lia. apply pyindex_nat. lia. }
  assert (EQ : t_get 0 x t = t_get (Z.of_nat (t_n t)) x t).
  { unfold t_get. rewrite Hi. cbn [rbind]. unfold cell_opt, pyget, geti. rewrite P1. cbn [rbind].
    rewrite Hr. cbn [rbind need]. rewrite P2, P3. reflexivity. }
  split; [exact EQ|]. split.
  - unfold t_get. rewrite Hi. cbn [rbind]. unfold cell_opt, pyget, geti. rewrite P1. cbn [rbind].
    rewrite Hr. cbn [rbind need]. rewrite P2. cbn [rbind].
    destruct (nth_error row (t_n t - 1)) eqn:E; [eexists; reflexivity|apply nth_error_None in E; lia].
  - intros v. destruct (set_total (Z.of_nat (t_n t)) x v t W H) as (t' & E); [unfold valid_speed; lia|].
    exists t'. split; [|eapply set_get; eauto]. rewrite <- E.
    unfold t_set, sbind, sget, slift. rewrite Hi. unfold put_cell, put_opt, sbind, sget, slift, put_data, geti.
    rewrite P1. cbn [rbind]. rewrite Hr. cbn [rbind need]. rewrite P2, P3. reflexivity.
Qed.

Lemma ratio_single_one x r (t t' : table R) m : t_n t = 1%nat -> wf_table t ->
  set_by_ratio 1 x r t = (t', Ok tt) -> t_get 1 x t = Ok (Some m) -> m <> 0 ->
  t_get 1 x t' = Ok (Some (m / r)) /\ get_ratio 1 x t' = Ok 1.
Proof.
  intros Hn W E G Hm. pose proof (ratio_single x r t t' m Hn W E G) as G'. split; auto.
  assert (Hr : r <> 0).
  { intros ->. unfold set_by_ratio, sbind, sget, slift in E.
    destruct (tidx t x) as [z|]; [|inversion E]. rewrite Hn in E.
    change ((1 - 1 =? Z.of_nat 1 - 1)%Z) with true in E. cbv iota in E.
    destruct (cell t z (1 - 1 - 1)) as [w|]; [|inversion E]. rewrite pydiv_zero in E. inversion E. }
  assert (N' : t_n t' = 1%nat).
  { destruct (setter_frame 1 x _ t t' _ W ltac:(unfold valid_speed; lia) (set_ratio 1 x r) E) as (_ & _ & Q & _). congruence. }
  unfold t_get in G'. unfold get_ratio, cell. destruct (tidx t' x); [|discriminate]. cbn [rbind] in *.
  rewrite N'. change (Z.of_nat 1 - 1)%Z with (1 - 1)%Z. rewrite G'. cbn [rbind need].
  rewrite pydiv_ok.
  - f_equal. field. split; auto.
  - intros Q. apply (f_equal (fun z => z * r)) in Q. unfold Rdiv in Q.
    rewrite Rmult_assoc, Rinv_l, Rmult_0_l in Q by auto. lra.
Qed.
