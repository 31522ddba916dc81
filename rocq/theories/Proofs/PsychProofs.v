From Coq Require Import Reals QArith Lra Lia List Bool String.
From Verif.Base Require Import Num Res Tac.
From Verif.Model Require Import Units Psychrometrics.
From Verif.Spec Require Import PsychSpec.
Import ListNotations.
Local Open Scope R_scope.

Section P.
  Variable psy : psychro R.
  Notation S := (psych_state R).

  (** What the lazily computed attributes are, as functions of a state. *)
  Definition hr_val (s : S) : res R :=
    match ps_hr s with
    | Some v => Ok v
    | None => let! w := need RuntimeError (ps_wb s) in
              GetHumRatioFromTWetBulb psy (to_C (ps_db s)) (to_C w) (ps_p s)
    end.
  Definition rh_val (s : S) : res R :=
    match ps_rh s with
    | Some v => Ok v
    | None => let! w := need RuntimeError (ps_wb s) in
              GetHumRatioFromTWetBulb psy (to_C (ps_db s)) (to_C w) (ps_p s)
    end.
  Definition h_val (s : S) : res R :=
    match ps_h s with
    | Some v => Ok v
    | None => let! x := hr_val s in GetMoistAirEnthalpy psy (to_C (ps_db s)) x
    end.
  Definition rho_val (s : S) : res R :=
    match ps_rho s with
    | Some v => Ok v
    | None => let! x := hr_val s in GetMoistAirDensity psy (to_C (ps_db s)) x (ps_p s)
    end.

  Definition attr_val (a : psych_attr) (s : S) : res R :=
    match a with
    | A_db => Ok (ps_db s)
    | A_wb => need RuntimeError (ps_wb s)
    | A_wb_C => let! w := need RuntimeError (ps_wb s) in Ok (to_C w)
    | A_hr => hr_val s
    | A_rh => rh_val s
    | A_h => h_val s
    | A_rho => rho_val s
    end.

  (** Reading an attribute returns [attr_val] and changes no [attr_val]. *)
  Lemma read_attr_val a s :
    ps_wb s <> None ->
    snd (read_attr psy a s) = attr_val a s
    /\ ps_wb (fst (read_attr psy a s)) <> None
    /\ forall b, attr_val b (fst (read_attr psy a s)) = attr_val b s.
  Proof.
    intros Hwb.
    destruct s as [db p [w|] hr rh h rho]; [clear Hwb|simpl in Hwb; congruence].
    destruct a, hr as [hr|], rh as [rh|], h as [h|], rho as [rho|];
      repeat (cbv [read_attr get_wb get_wb_C get_hr get_rh get_h get_rho set_hr set_rh
                 set_h set_rho set_wb sread sbind sget sret slift smod db_C
                 put_wb put_hr put_rh put_h put_rho attr_val hr_val rh_val h_val
                 rho_val need rbind fst snd
                 ps_db ps_p ps_wb ps_hr ps_rh ps_h ps_rho];
      try match goal with
          | |- context [match ?f psy ?a ?b ?c with _ => _ end] =>
              destruct (f psy a b c) eqn:?
          | |- context [match ?f psy ?a ?b with _ => _ end] =>
              destruct (f psy a b) eqn:?
          end);
      (repeat split; try congruence);
      intros b; destruct b; cbv -[GetHumRatioFromTWetBulb GetMoistAirEnthalpy GetMoistAirDensity to_C RNum];
      try congruence;
      repeat match goal with H : _ = _ |- _ => rewrite H end; congruence.
  Qed.

  Lemma after_reads_val hist s :
    ps_wb s <> None ->
    ps_wb (after_reads psy hist s) <> None /\
    forall b, attr_val b (after_reads psy hist s) = attr_val b s.
  Proof.
    revert s; induction hist as [|a hist IH]; intros s Hs; simpl; auto.
    destruct (read_attr_val a s Hs) as (_ & Hwb & Hv).
    destruct (IH _ Hwb) as (H1 & H2). split; auto.
    intros b. rewrite H2. apply Hv.
  Qed.

  Lemma has_kw_single k (k' : string) (v : R) :
    has_kw k [(k', v)] = if String.eqb k k' then Some v else None.
  Proof. unfold has_kw. simpl. destruct (String.eqb k k'); reflexivity. Qed.

  Ltac kwcase k :=
    repeat match goal with
    | |- context [String.eqb ?a k] =>
        let E := fresh "E" in
        destruct (String.eqb a k) eqn:E; [apply String.eqb_eq in E|apply String.eqb_neq in E]
    end.

  (** Construction succeeds only with exactly one known keyword. *)
  Lemma PsychState_ok_kw db p kwargs s :
    PsychState psy db p kwargs = Ok s ->
    exists k v, kwargs = [(k, v)] /\ In k humidity_keywords.
  Proof.
    unfold PsychState. destruct kwargs as [|[k v] [|kv l]]; simpl; try discriminate.
    intros H. exists k, v. split; auto.
    rewrite !has_kw_single in H. unfold humidity_keywords.
    revert H. kwcase k; intros H; try discriminate; subst; simpl; auto.
  Qed.

  Lemma PsychState_bad_kw db p kwargs :
    ~ (exists k v, kwargs = [(k, v)] /\ In k humidity_keywords) ->
    PsychState psy db p kwargs = Err RuntimeError.
  Proof.
    intros Hn. unfold PsychState. destruct kwargs as [|[k v] [|kv l]]; simpl; auto.
    rewrite !has_kw_single.
    kwcase k; subst; auto;
      exfalso; apply Hn; eexists _, v; split; eauto; unfold humidity_keywords; simpl; auto.
  Qed.

  (** A constructed state has a wet bulb, and reads back what it was built from. *)
  Lemma PsychState_reads_back db p k v s :
    PsychState psy db p [(k, v)] = Ok s ->
    ps_db s = db /\ ps_p s = p /\ ps_wb s <> None /\
    exists a, keyword_attr k = Some a /\ attr_val a s = Ok v.
  Proof.
    unfold PsychState, keyword_attr. simpl. rewrite !has_kw_single.
    rewrite !(String.eqb_sym k).
    kwcase k; intros H; try discriminate;
      (subst k || idtac); cbv [set_wb set_hr set_rh set_h blank smod sbind sget sret slift
        ps_wb ps_hr put_wb put_hr put_rh put_h ps_db ps_p ps_rh ps_h ps_rho db_C] in H.
    - apply Ok_inj in H. subst s. simpl. repeat split; try congruence.
      eexists; split; reflexivity.
    - destruct (GetTWetBulbFromHumRatio _ _ _ _); try discriminate.
      apply Ok_inj in H. subst s. simpl. repeat split; try congruence.
      eexists; split; reflexivity.
    - destruct (GetTWetBulbFromRelHum _ _ _ _); try discriminate.
      apply Ok_inj in H. subst s. simpl. repeat split; try congruence.
      eexists; split; reflexivity.
    - destruct (GetHumRatioFromEnthalpyAndTDryBulb _ _ _); try discriminate.
      destruct (GetTWetBulbFromHumRatio _ _ _ _); try discriminate.
      apply Ok_inj in H. subst s. simpl. repeat split; try congruence.
      eexists; split; reflexivity.
  Qed.

  Lemma PsychState_wb_set db p kwargs s :
    PsychState psy db p kwargs = Ok s -> ps_wb s <> None.
  Proof.
    intros H. destruct (PsychState_ok_kw _ _ _ _ H) as (k & v & -> & _).
    apply PsychState_reads_back in H. tauto.
  Qed.

  Lemma PsychState_read_history_free db p kwargs s hist a :
    PsychState psy db p kwargs = Ok s ->
    snd (read_attr psy a (after_reads psy hist s)) = snd (read_attr psy a s).
  Proof.
    intros H. apply PsychState_wb_set in H.
    destruct (after_reads_val hist s H) as (Hwb & Hv).
    rewrite (proj1 (read_attr_val a _ Hwb)), (proj1 (read_attr_val a _ H)). apply Hv.
  Qed.

  Lemma PsychState_wb_readable db p kwargs s hist :
    PsychState psy db p kwargs = Ok s ->
    exists w, snd (read_attr psy A_wb (after_reads psy hist s)) = Ok w
           /\ snd (read_attr psy A_wb_C (after_reads psy hist s)) = Ok (w - 273.15).
  Proof.
    intros H. rewrite !(PsychState_read_history_free _ _ _ _ _ _ H).
    apply PsychState_wb_set in H. destruct s as [? ? [w|] ? ? ? ?]; simpl in H; [|congruence].
    exists w. cbv [read_attr get_wb get_wb_C sread snd need ps_wb rbind to_C]. split; auto.
  Qed.

  Lemma PsychState_reads_back_hist db p k v s hist :
    PsychState psy db p [(k, v)] = Ok s ->
    exists a, keyword_attr k = Some a /\
      snd (read_attr psy a (after_reads psy hist s)) = Ok v.
  Proof.
    intros H. destruct (PsychState_reads_back _ _ _ _ _ H) as (_ & _ & Hwb & a & Ha & Hv).
    exists a. split; auto.
    rewrite (PsychState_read_history_free _ _ _ _ _ _ H).
    rewrite (proj1 (read_attr_val a s Hwb)). auto.
  Qed.

  (** [rh] of a state not built from a relative humidity is the humidity ratio
      computed from the wet bulb. *)
  Lemma rh_is_humidity_ratio db p k v s :
    PsychState psy db p [(k, v)] = Ok s -> k <> "rel_hum"%string ->
    exists w, wb_of s = Ok w /\
      rh_of psy s = GetHumRatioFromTWetBulb psy (to_C db) (to_C w) p.
  Proof.
    intros H Hk. pose proof (PsychState_reads_back _ _ _ _ _ H) as (Hdb & Hp & Hwb & _).
    assert (Hrh : ps_rh s = None).
    { revert H. unfold PsychState. simpl. rewrite !has_kw_single.
      kwcase k; intros H; try discriminate; try (subst; congruence);
        cbv [set_wb set_hr set_rh set_h blank smod sbind sget sret slift
        ps_wb ps_hr put_wb put_hr put_rh put_h ps_db ps_p ps_rh ps_h ps_rho db_C] in H.
      - apply Ok_inj in H; subst s; reflexivity.
      - destruct (GetTWetBulbFromHumRatio _ _ _ _); try discriminate.
        apply Ok_inj in H; subst s; reflexivity.
      - destruct (GetHumRatioFromEnthalpyAndTDryBulb _ _ _); try discriminate.
        destruct (GetTWetBulbFromHumRatio _ _ _ _); try discriminate.
        apply Ok_inj in H; subst s; reflexivity. }
    destruct s as [db' p' [w|] hr rh h rho]; simpl in *; [|congruence]. subst.
    exists w. split; [reflexivity|].
    match goal with |- rh_of psy ?s = _ =>
      change (rh_of psy s) with (snd (read_attr psy A_rh s));
      rewrite (proj1 (read_attr_val A_rh s Hwb)); reflexivity end.
  Qed.

  (** Assigning the wet bulb after the humidity ratio is known does not update
      the humidity ratio. *)
  Lemma wb_assignment_leaves_hr s w v :
    ps_hr s = Some v ->
    hr_of psy (fst (set_wb w s)) = Ok v /\ wb_of (fst (set_wb w s)) = Ok w.
  Proof.
    destruct s as [db p wb hr rh h rho]. simpl. intros ->. split; reflexivity.
  Qed.

  Lemma rho_of_ok_same s : ps_wb s <> None ->
    rho_of psy s = attr_val A_rho s.
  Proof. intros H. exact (proj1 (read_attr_val A_rho s H)). Qed.
End P.
