(** Lemmas for C53: table entries are the unit's performance. *)
From Coq Require Import ZArith QArith Reals Lra List String Ascii Bool Lia.
From Verif.Base Require Import Num Res Tac.
From Verif.Model Require Import Units Util Psychrometrics Conditions Defrost Fan Tabular Unit
  DXUnit Idf.
From Verif.Spec Require Import IdfSpec IdfPerfSpec.
From Verif.Proofs Require Import IdfText IdfStruct IdfNames IdfRefs IdfTables MakeCond UnitsR.
Import ListNotations.
Local Open Scope string_scope.
Local Open Scope R_scope.

(** * Nested loops *)

Lemma Forall2_nth_l : forall {A B} (P : A -> B -> Prop) l l' i x, Forall2 P l l' ->
  nth_error l i = Some x -> exists y, nth_error l' i = Some y /\ P x y.
Proof.
  intros A B P l l' i x H. revert i x. induction H as [| a b l l' Q _ IH]; intros i x E.
  - destruct i; discriminate.
  - destruct i as [| i]; cbn [nth_error] in *; [injection E as <-; eauto | apply IH, E].
Qed.

Lemma Forall2_len : forall {A B} (P : A -> B -> Prop) l l', Forall2 P l l' ->
  List.length l = List.length l'.
Proof. intros A B P l l' H. induction H; cbn [List.length]; [reflexivity | f_equal; assumption]. Qed.

Lemma concat_len : forall {A} (ls : list (list A)) m, Forall (fun l => List.length l = m) ls ->
  List.length (List.concat ls) = (List.length ls * m)%nat.
Proof.
  intros A ls m H. induction H as [| l ls E _ IH]; [reflexivity |].
  cbn [List.concat List.length]. rewrite app_length, IH, E. reflexivity.
Qed.

Lemma concat_nth : forall {A} (ls : list (list A)) m, Forall (fun l => List.length l = m) ls ->
  forall i j l, nth_error ls i = Some l -> (j < m)%nat ->
  nth_error (List.concat ls) (i * m + j) = nth_error l j.
Proof.
  intros A ls m H. induction H as [| l0 ls E _ IH]; intros i j l N J.
  - destruct i; discriminate.
  - destruct i as [| i]; cbn [nth_error List.concat] in *.
    + injection N as ->. rewrite nth_error_app1 by lia. reflexivity.
    + rewrite nth_error_app2 by lia. rewrite <- (IH i j l N J). f_equal. lia.
Qed.

Section Rows.
  Variable psy : psychro R.
  Variable M : dxmodel R.

  Lemma temperature_rows_entries : forall m perf indoor u speed ts_i ts_o temp,
    temperature_rows psy m perf indoor u speed ts_i ts_o = Ok temp ->
    List.length temp = (List.length ts_i * List.length ts_o)%nat /\
    forall i j ti tj, nth_error ts_i i = Some ti -> nth_error ts_o j = Some tj ->
    exists si so c r, indoor ti = Ok si /\ rel_hum_state psy tj = Ok so /\
      make_condition psy m u speed (Some si) (Some so) = Ok c /\ perf c = Ok r /\
      nth_error temp (i * List.length ts_o + j) = Some r.
  Proof.
    intros m perf indoor u speed ts_i ts_o temp E. unfold temperature_rows in E.
    apply rbind_ok in E. destruct E as (rows & E & F). apply Ok_inj in F. subst temp.
    apply rmapM_ok in E.
    assert (L : Forall (fun l => List.length l = List.length ts_o) rows).
    { apply Forall_forall. intros l I. apply In_nth_error in I. destruct I as [i I].
      assert (X : exists x, nth_error ts_i i = Some x).
      { destruct (nth_error ts_i i) eqn:N; [eauto |]. apply nth_error_None in N.
        rewrite (Forall2_len _ _ _ E) in N. apply nth_error_None in N. congruence. }
      destruct X as [x X]. destruct (Forall2_nth_l _ _ _ i x E X) as (y & Y & Q).
      rewrite I in Y. injection Y as <-. apply rmapM_length in Q. exact Q. }
    split; [rewrite (concat_len rows _ L), (Forall2_len _ _ _ E); reflexivity |].
    intros i j ti tj Hi Hj.
    destruct (Forall2_nth_l _ _ _ i ti E Hi) as (row & Hrow & Q). apply rmapM_ok in Q.
    destruct (Forall2_nth_l _ _ _ j tj Q Hj) as (r & Hr & P). cbv beta in P.
    apply rbind_ok in P. destruct P as (si & Es & P).
    apply rbind_ok in P. destruct P as (so & Eo & P).
    apply rbind_ok in P. destruct P as (c & Ec & P).
    exists si, so, c, r. repeat (split; [assumption |]).
    rewrite (concat_nth rows _ L i j row Hrow); [exact Hr |].
    apply nth_error_Some. congruence.
  Qed.

  (** One condition object is changed in turn, which is the same as starting from the
      rated condition each time. *)
  Lemma flow_rows_entries : forall m u speed c perf l rows,
    make_condition psy m u speed None None = Ok c ->
    flow_rows psy perf c l = Ok rows ->
    Forall2 (fun ff r => exists c' : cond R, ex (set_mass_airflow_ratio psy ff) c = Ok c' /\ perf c' = Ok r)
      l rows.
  Proof.
    intros m u speed c perf l rows Ec.
    apply make_condition_inv in Ec.
    destruct Ec as (q & a & full & p & fl & rho & srho & _ & _ & _ & _ & _ & Hs & Hr
                    & H1 & H2 & H3 & H4 & ->).
    assert (G : forall r0, flow_rows psy perf
        (flow_cond (default_outdoor m) (default_indoor m) speed fl (Some p) rho srho a q r0 None) l
        = Ok rows ->
      Forall2 (fun ff r => exists c' : cond R,
        ex (set_mass_airflow_ratio psy ff)
          (flow_cond (default_outdoor m) (default_indoor m) speed fl (Some p) rho srho a q 1 None) = Ok c'
        /\ perf c' = Ok r) l rows); [| apply G].
    revert rows. induction l as [| ff l IH]; intros rows r0 E.
    - apply Ok_inj in E. subst rows. constructor.
    - cbn [flow_rows] in E. rewrite set_ratio_flow_cond in E by assumption. cbn [rbind] in E.
      apply rbind_ok in E. destruct E as (r & Er & E).
      apply rbind_ok in E. destruct E as (rs & Ers & E). apply Ok_inj in E. subst rows.
      constructor; [| apply (IH rs ff), Ers].
      eexists. split; [apply set_ratio_flow_cond; assumption | exact Er].
  Qed.

  (** Normalisation. *)
  Lemma outputs_entry : forall (nz : bool) (r0 : R) (l l' : list R) i v,
    outputs_of (if nz then Some r0 else None) l = Ok l' -> nth_error l i = Some v ->
    nth_error l' i = Some (written nz v r0).
  Proof.
    intros nz r0 l l' i v E N. destruct nz; cbn [outputs_of] in E.
    - apply rmapM_ok in E. destruct (Forall2_nth_l _ _ _ i v E N) as (y & Y & Q).
      apply pydiv_inv in Q. destruct Q as [_ ->]. exact Y.
    - apply Ok_inj in E. subst l'. exact N.
  Qed.
  Lemma outputs_len : forall (r0 : option R) l l', outputs_of r0 l = Ok l' ->
    List.length l' = List.length l.
  Proof.
    intros [r0 |] l l' E; cbn [outputs_of] in E.
    - apply rmapM_length in E. exact E.
    - apply Ok_inj in E. subst. reflexivity.
  Qed.

  Lemma fr_C_F_to_C : forall x : R, fr_C (F_to_C x) = fr_F x.
  Proof. intros x. unfold F_to_C, fr_C, to_C. rnum. lra. Qed.

  Lemma cooling_performance_inv : forall u c r, cooling_performance M u c = Ok r ->
    exists cop, performs M Cooling u c (fst r) cop /\ snd r = 1 / cop.
  Proof.
    intros u c r E. unfold cooling_performance in E.
    apply rbind_ok in E. destruct E as (q & Eq & E).
    apply rbind_ok in E. destruct E as (cop & Ecop & E).
    apply rbind_ok in E. destruct E as (eir & Eeir & E). apply Ok_inj in E. subst r.
    exists cop. apply pydiv_inv in Eeir. destruct Eeir as [_ ->].
    split; [split; assumption |]. cbn [snd]. rewrite lit1_R. reflexivity.
  Qed.
  Lemma heating_performance_inv : forall u c r, heating_performance M u c = Ok r ->
    exists cop, performs M Heating u c (fst r) cop /\ snd r = 1 / cop.
  Proof.
    intros u c r E. unfold heating_performance in E.
    apply rbind_ok in E. destruct E as (q & Eq & E).
    apply rbind_ok in E. destruct E as (cop & Ecop & E).
    apply rbind_ok in E. destruct E as (eir & Eeir & E). apply Ok_inj in E. subst r.
    exists cop. apply pydiv_inv in Eeir. destruct Eeir as [_ ->].
    split; [split; assumption |]. cbn [snd]. rewrite lit1_R. reflexivity.
  Qed.
End Rows.
