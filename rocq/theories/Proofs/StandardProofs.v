(** C40: setting rating standards. *)
From Coq Require Import Reals QArith Lra Lia List Bool.
From Verif.Base Require Import Num Res Tac.
From Verif.Model Require Import Units Psychrometrics Conditions Defrost Fan Tabular Unit
  NREL BaseModel Title24 Resnet DXUnit.
From Verif.Spec Require Import UnitModels.
From Verif.Proofs Require Import UnitsR MakeCond Frame.
Import ListNotations.
Local Open Scope R_scope.

Section Std.
  Variable psy : psychro R.
  Notation U := (dxunit R).
  Notation C := (cond R).

  Record put := mkPut { p_set : option C -> rconds R -> rconds R; p_mode : mode;
                        p_speed : option nat; p_out : option (psych_state R) }.
  Definition do_put (p : put) : st U unit :=
    put_cond psy (p_set p) (p_mode p) (p_speed p) (p_out p).

  (** The rating conditions of a unit as a list. *)
  Definition rating_puts (u : U) : list put :=
    let cf := Some (sd_full (u_c u)) in
    let hf := Some (sd_full (u_h u)) in
    let cl := sd_low (u_c u) in
    let hl := sd_low (u_h u) in
    [mkPut wc_A_full Cooling cf None; mkPut wc_B_full Cooling cf t82;
     mkPut wc_H1_full Heating hf None; mkPut wc_H2_full Heating hf t35;
     mkPut wc_H3_full Heating hf t17; mkPut wc_H4_full Heating hf t5]
    ++ match u_staging u with
       | SINGLE_STAGE => []
       | staging =>
           match staging with
           | VARIABLE_SPEED =>
               [mkPut wc_A_int Cooling (Some (sd_int (u_c u))) None;
                mkPut wc_E_int Cooling (Some (sd_int (u_c u))) t87;
                mkPut wc_H2_int Heating (Some (sd_int (u_h u))) t35]
           | _ => []
           end
           ++ match sd_boost (u_c u) with
              | Some b => [mkPut wc_A_boost Cooling (Some b) None]
              | None => []
              end
           ++ [mkPut wc_A_low Cooling cl None; mkPut wc_B_low Cooling cl t82;
               mkPut wc_F_low Cooling cl t67; mkPut wc_H0_low Heating hl t62;
               mkPut wc_H1_low Heating hl None; mkPut wc_H2_low Heating hl t35;
               mkPut wc_H3_low Heating hl t17]
       end.

  Lemma set_rating_conditions_puts u :
    set_rating_conditions psy u
    = sbind reset_full_esp (fun _ => sbind sget (fun u => sfold do_put (rating_puts u))) u.
  Proof.
    unfold set_rating_conditions.
    match goal with |- sbind _ ?k u = sbind _ ?k' u =>
      change ((match reset_full_esp u with (s, Ok a) => k a s | (s, Err e) => (s, Err e) end)
              = (match reset_full_esp u with (s, Ok a) => k' a s | (s, Err e) => (s, Err e) end))
    end.
    destruct (reset_full_esp u) as [u1 [[]|e]]; [|reflexivity].
    unfold rating_puts, do_put, sget, sbind, sret.
    destruct (u_staging u1), (sd_boost (u_c u1)); cbn [app sfold p_set p_mode p_speed p_out];
    unfold sbind, sret;
    repeat match goal with
      | |- context [match put_cond ?a ?b ?c ?d ?e ?f with _ => _ end] =>
          destruct (put_cond a b c d e f) as [? [[]|?]]; try reflexivity
      end.
  Qed.

  Definition make (X : U) (p : put) : res C :=
    let! s := need TypeError (p_speed p) in make_condition psy (p_mode p) X s None (p_out p).
  Fixpoint run (X : U) (l : list put) (cs : rconds R) : rconds R * res unit :=
    match l with
    | [] => (cs, Ok tt)
    | p :: l' => match make X p with
                 | Ok c => run X l' (p_set p (Some c) cs)
                 | Err e => (cs, Err e)
                 end
    end.

  Lemma make_ext X X' p :
    u_c X = u_c X' -> u_h X = u_h X' -> u_full_esp X = u_full_esp X' -> make X p = make X' p.
  Proof.
    intros H1 H2 H3. unfold make, make_condition, calculate_rated_pressure.
    destruct (p_speed p); [|reflexivity]. cbn [need rbind].
    destruct (p_mode p); simpl side_of; rewrite ?H1, ?H2, ?H3; reflexivity.
  Qed.
  Lemma run_ext X X' l cs :
    u_c X = u_c X' -> u_h X = u_h X' -> u_full_esp X = u_full_esp X' ->
    run X l cs = run X' l cs.
  Proof.
    intros H1 H2 H3. revert cs. induction l as [|p l IH]; intros cs; simpl; auto.
    rewrite (make_ext X X') by auto. destruct (make X' p); auto.
  Qed.

  Lemma wu_conds_conds cs cs' (u : U) : wu_conds cs (wu_conds cs' u) = wu_conds cs u.
  Proof. destruct u; reflexivity. Qed.
  Lemma wu_conds_same (u : U) : wu_conds (u_conds u) u = u.
  Proof. destruct u; reflexivity. Qed.

  Lemma do_put_run p X cs :
    do_put p (wu_conds cs X)
    = match make X p with
      | Ok c => (wu_conds (p_set p (Some c) cs) X, Ok tt)
      | Err e => (wu_conds cs X, Err e)
      end.
  Proof.
    unfold do_put, put_cond, make, sbind, sget, slift, smod.
    destruct (p_speed p) as [s|]; cbn [need rbind]; [|reflexivity].
    assert (E : make_condition psy (p_mode p) (wu_conds cs X) s None (p_out p)
                = make_condition psy (p_mode p) X s None (p_out p)).
    { unfold make_condition, calculate_rated_pressure.
      destruct (p_mode p), X; reflexivity. }
    rewrite E. destruct (make_condition psy (p_mode p) X s None (p_out p)); [|reflexivity].
    rewrite wu_conds_conds. destruct X; reflexivity.
  Qed.

  Lemma sfold_run l X cs :
    sfold do_put l (wu_conds cs X)
    = (wu_conds (fst (run X l cs)) X, snd (run X l cs)).
  Proof.
    revert cs. induction l as [|p l IH]; intros cs; simpl; [reflexivity|].
    unfold sbind. rewrite do_put_run. destruct (make X p); [|reflexivity].
    apply IH.
  Qed.

  (** The conditions that [set_rating_conditions] will not write. *)
  Definition blank (l : list put) (cs : rconds R) : rconds R :=
    fold_left (fun cs p => p_set p None cs) l cs.

  Ltac each_put :=
    repeat match goal with
      | |- context [match make ?X ?p with _ => _ end] => destruct (make X p)
      end.

  Lemma run_blank (u X : U) cs :
    blank (rating_puts u) (fst (run X (rating_puts u) cs)) = blank (rating_puts u) cs.
  Proof.
    unfold rating_puts. destruct cs, (u_staging u), (sd_boost (u_c u));
      cbn [app run fst p_set]; each_put; reflexivity.
  Qed.

  Lemma run_snd X l cs cs' : snd (run X l cs) = snd (run X l cs').
  Proof.
    revert cs cs'. induction l as [|p l IH]; intros; simpl; auto.
    destruct (make X p); auto.
  Qed.

  Lemma run_equal (u X : U) cs cs' cs1 :
    blank (rating_puts u) cs = blank (rating_puts u) cs' ->
    run X (rating_puts u) cs = (cs1, Ok tt) -> run X (rating_puts u) cs' = (cs1, Ok tt).
  Proof.
    unfold rating_puts. destruct cs, cs', (u_staging u), (sd_boost (u_c u));
      cbn [app run fst p_set blank fold_left]; intros Hb E; simpl in Hb;
      try (injection Hb; clear Hb; intros; subst); revert E; each_put;
      intros E; first [exact E | discriminate E].
  Qed.

  (** Same unit up to what the rating standard determines. *)
  Definition sim (u u' : U) : Prop :=
    exists s e cs, u' = wu_conds cs (wu_full_esp e (wu_standard s u))
      /\ blank (rating_puts u) cs = blank (rating_puts u) (u_conds u).

  Lemma sim_refl u : sim u u.
  Proof.
    exists (u_standard u), (u_full_esp u), (u_conds u). split; [destruct u|]; reflexivity.
  Qed.
  Lemma sim_trans u u' u'' : sim u u' -> sim u' u'' -> sim u u''.
  Proof.
    intros (s & e & cs & -> & H1) (s' & e' & cs' & -> & H2).
    exists s', e', cs'. split; [destruct u; reflexivity|].
    destruct u; simpl in *. unfold rating_puts in *; simpl in *. congruence.
  Qed.

  Lemma set_rating_standard_eq s (u : U) :
    set_rating_standard psy s u =
    match get_rated_full_flow_rated_pressure (wu_standard s u) with
    | Ok p => let X := wu_full_esp (Some p) (wu_standard s u) in
              let r := run X (rating_puts u) (u_conds u) in
              (wu_conds (fst r) X, snd r)
    | Err e => (wu_standard s u, Err e)
    end.
  Proof.
    unfold set_rating_standard, sbind at 1, smod. rewrite set_rating_conditions_puts.
    unfold sbind at 1, reset_full_esp, sbind at 1, sread.
    destruct (get_rated_full_flow_rated_pressure (wu_standard s u)) as [p|e]; [|reflexivity].
    cbv beta iota. unfold smod, sbind, sget.
    set (X := wu_full_esp (Some p) (wu_standard s u)).
    rewrite <- (wu_conds_same X) at 2. rewrite sfold_run.
    replace (rating_puts X) with (rating_puts u) by (destruct u; reflexivity).
    replace (u_conds X) with (u_conds u) by (destruct u; reflexivity).
    reflexivity.
  Qed.

  Lemma set_rating_standard_sim s u : sim u (fst (set_rating_standard psy s u)).
  Proof.
    rewrite set_rating_standard_eq.
    destruct (get_rated_full_flow_rated_pressure (wu_standard s u)) as [p|e]; cbn [fst].
    - exists s, (Some p), (fst (run (wu_full_esp (Some p) (wu_standard s u))
                                  (rating_puts u) (u_conds u))).
      split; [reflexivity|]. apply run_blank.
    - exists s, (u_full_esp u), (u_conds u). split; [destruct u|]; reflexivity.
  Qed.

  Lemma set_rating_standard_same s u u' :
    sim u u' -> ex (set_rating_standard psy s) u' = ex (set_rating_standard psy s) u.
  Proof.
    intros (s' & e & cs & -> & Hb). unfold ex. rewrite !set_rating_standard_eq.
    set (u1 := wu_conds cs (wu_full_esp e (wu_standard s' u))).
    replace (get_rated_full_flow_rated_pressure (wu_standard s u1))
      with (get_rated_full_flow_rated_pressure (wu_standard s u)) by (destruct u; reflexivity).
    destruct (get_rated_full_flow_rated_pressure (wu_standard s u)) as [p|x]; [|reflexivity].
    cbv zeta.
    replace (rating_puts u1) with (rating_puts u) by (destruct u; reflexivity).
    replace (u_conds u1) with cs by (destruct u; reflexivity).
    rewrite (run_ext (wu_full_esp (Some p) (wu_standard s u1))
               (wu_full_esp (Some p) (wu_standard s u))) by (destruct u; reflexivity).
    set (X := wu_full_esp (Some p) (wu_standard s u)).
    destruct (run X (rating_puts u) (u_conds u)) as [cs1 r] eqn:E.
    pose proof (run_snd X (rating_puts u) cs (u_conds u)) as Es. rewrite E in Es.
    cbn [snd] in Es. rewrite Es. cbn [fst snd]. destruct r as [[]|]; [|reflexivity].
    rewrite (run_equal u X (u_conds u) cs cs1) by auto. cbn [fst].
    subst X u1. destruct u; reflexivity.
  Qed.

  (** After a list of calls, whether they succeed or raise. *)
  Local Notation after_standards := (after_standards psy).

  Lemma after_sim l u : sim u (after_standards l u).
  Proof.
    unfold after_standards. revert u. induction l as [|s l IH]; intros u; simpl.
    - apply sim_refl.
    - eapply sim_trans; [apply set_rating_standard_sim|apply IH].
  Qed.

  Lemma last_standard_wins l s u :
    ex (set_rating_standard psy s) (after_standards l u) = ex (set_rating_standard psy s) u.
  Proof. apply set_rating_standard_same, after_sim. Qed.

  (** What the rating conditions are computed from. *)
  Definition cinp_side (s : side R) :=
    (sd_full s, sd_boost s, sd_int s, sd_low s, sd_net_cap s, sd_airflow s, sd_rated_fan_speed s).
  Definition cinp (u : U) :=
    (cinp_side (u_c u), cinp_side (u_h u), u_full_esp u, u_ducted u, u_standard u, u_staging u,
     u_conds u).

  Lemma make_cinp X X' p :
    cinp_side (u_c X) = cinp_side (u_c X') -> cinp_side (u_h X) = cinp_side (u_h X') ->
    u_full_esp X = u_full_esp X' -> make X p = make X' p.
  Proof.
    unfold cinp_side. intros H1 H2 H3. injection H1. injection H2. intros.
    unfold make, make_condition, calculate_rated_pressure.
    destruct (p_speed p); [|reflexivity]. cbn [need rbind].
    destruct (p_mode p); simpl side_of;
    repeat match goal with H : ?f X = _ |- _ => rewrite H; clear H
           | H : ?f (?g X) = _ |- _ => rewrite H; clear H end; reflexivity.
  Qed.
  Lemma run_cinp X X' l cs :
    cinp_side (u_c X) = cinp_side (u_c X') -> cinp_side (u_h X) = cinp_side (u_h X') ->
    u_full_esp X = u_full_esp X' -> run X l cs = run X' l cs.
  Proof.
    intros H1 H2 H3. revert cs. induction l as [|p l IH]; intros cs; simpl; auto.
    rewrite (make_cinp X X') by auto. destruct (make X' p); auto.
  Qed.
  Lemma puts_cinp X X' :
    cinp_side (u_c X) = cinp_side (u_c X') -> cinp_side (u_h X) = cinp_side (u_h X') ->
    u_staging X = u_staging X' -> rating_puts X = rating_puts X'.
  Proof.
    unfold cinp_side. intros H1 H2 H3. injection H1. injection H2. intros.
    unfold rating_puts.
    repeat match goal with H : ?f X = _ |- _ => rewrite H; clear H
           | H : ?f (?g X) = _ |- _ => rewrite H; clear H end. reflexivity.
  Qed.

  (** A unit whose conditions were computed from the same inputs is a fixed point. *)
  Lemma standard_fixed u0 u1 u :
    set_rating_conditions psy u0 = (u1, Ok tt) -> cinp u = cinp u1 ->
    ex (set_rating_standard psy (u_standard u)) u = Ok u.
  Proof.
    intros H Hc.
    assert (H' : set_rating_standard psy (u_standard u0) u0 = (u1, Ok tt)).
    { unfold set_rating_standard, sbind, smod.
      replace (wu_standard (u_standard u0) u0) with u0 by (destruct u0; reflexivity). exact H. }
    rewrite set_rating_standard_eq in H'.
    replace (wu_standard (u_standard u0) u0) with u0 in H' by (destruct u0; reflexivity).
    destruct (get_rated_full_flow_rated_pressure u0) as [p|e] eqn:Ep; [|discriminate].
    cbv zeta in H'. set (X := wu_full_esp (Some p) u0) in *.
    destruct (run X (rating_puts u0) (u_conds u0)) as [cs r] eqn:Er.
    cbn [fst snd] in H'. apply pair_equal_spec in H'. destruct H' as [<- ->].
    unfold cinp in Hc. apply pair_equal_spec in Hc. destruct Hc as [Hc Hcs].
    do 5 (apply pair_equal_spec in Hc; destruct Hc as [Hc ?]).
    change (cinp_side (u_c u) = cinp_side (u_c u0)) in Hc.
    change (u_conds u = cs) in Hcs.
    repeat match goal with
      | K : ?f u = ?f (wu_conds cs X) |- _ => let t := eval simpl in (f (wu_conds cs X)) in
                                              change (f u = t) in K
      | K : cinp_side (u_h u) = cinp_side (u_h (wu_conds cs X)) |- _ =>
          change (cinp_side (u_h u) = cinp_side (u_h u0)) in K
      end.
    unfold ex. rewrite set_rating_standard_eq.
    replace (wu_standard (u_standard u) u) with u by (destruct u; reflexivity).
    assert (Ep' : get_rated_full_flow_rated_pressure u = Ok p).
    { rewrite <- Ep. unfold get_rated_full_flow_rated_pressure.
      replace (sd_net_cap (u_c u)) with (sd_net_cap (u_c u0))
        by (unfold cinp_side in Hc; congruence).
      repeat match goal with H : ?f u = _ |- _ => rewrite H; clear H end. reflexivity. }
    rewrite Ep'. cbv zeta.
    assert (EX : wu_full_esp (Some p) u = u).
    { replace (Some p) with (u_full_esp u) by auto. destruct u; reflexivity. }
    rewrite EX.
    rewrite (run_cinp u X) by auto.
    rewrite (puts_cinp u u0) by auto.
    rewrite (run_equal u0 X (u_conds u0) (u_conds u) cs); [|rewrite Hcs|exact Er].
    - cbn [fst snd]. f_equal. rewrite <- Hcs. apply wu_conds_same.
    - pose proof (run_blank u0 X (u_conds u0)) as Hb. rewrite Er in Hb. cbn [fst] in Hb.
      symmetry. exact Hb.
  Qed.
End Std.
