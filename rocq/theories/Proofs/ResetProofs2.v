(** C89, continued: what the conditions become, and when the reset succeeds. *)
From Coq Require Import Reals QArith Lra Lia List Bool.
From Verif.Base Require Import Num Res Tac.
From Verif.Model Require Import Units Util Psychrometrics Conditions Defrost Fan Curves Tabular Unit NREL BaseModel
  Title24 Resnet DXUnit.
From Verif.Spec Require Import FanSpec CondSpec UnitModels TestSpec ResetSpec.
From Verif.Proofs Require Import UnitsR FanProofs MakeCond Frame UnitProofs2 TestProofs RatedEer ResetProofs.
Import ListNotations.
Local Open Scope R_scope.

Section Conds.
  Variable psy : psychro R.
  Variable sol : solvers R.
  Notation U := (dxunit R).

  Lemma new_speed_moved k a c c' : set_new_fan_speed psy k a c = (c', Ok tt) -> moved k a c c'.
  Proof.
    destruct c as [out ind sp set esp fs cap' rsv rv rm' vv mm sv' rat pc ep].
    cond_step.
    destruct (std_rho psy) as [srho|]; [|discriminate].
    destruct (rho_of psy ind) as [rho|]; [|discriminate].
    destruct (pydiv (a * srho) rho) as [v|]; [|discriminate].
    destruct set.
    - destruct rm' as [rm|]; [|discriminate]. cond_step.
      destruct (pydiv (v * rho) rm) as [r|]; [|discriminate].
      destruct cap' as [q|]; [|discriminate]. cond_step.
      destruct (pydiv a q) as [x|]; [|discriminate].
      destruct esp as [p|]; intros H; injection H as <-; unfold moved, same_setup; cbn; auto 10.
    - intros H. injection H as <-. unfold moved, same_setup; cbn; auto 10.
  Qed.

  Lemma new_speed_flow o i speed f p rho srho a q r k a' :
    rho_of psy i = Ok rho -> std_rho psy = Ok srho -> rho <> 0 -> srho <> 0 -> a <> 0 -> q <> 0 ->
    set_new_fan_speed psy k a' (flow_cond o i speed f (Some p) rho srho a q r None)
    = (flow_cond o i speed (Some k) (Some p) rho srho a q (a' / a) None, Ok tt).
  Proof.
    intros Hr Hs H1 H2 H3 H4.
    assert (H5 : a * srho <> 0) by (apply Rmult_integral_contrapositive_currified; auto).
    cond_go.
    replace (a' * srho / rho * rho / (a * srho)) with (a' / a) by (field; auto).
    replace (a' * srho / rho * rho) with (a' / a * (a * srho)) by (field; auto).
    replace (a' * srho / rho) with (a' / a * (a * srho) / rho) by (field; auto).
    replace (a' / a * a) with a' by (field; auto).
    reflexivity.
  Qed.

  (** A condition made for a constructed unit, possibly moved to another fan speed. *)
  Definition ready (t : test) (u : U) : Prop :=
    exists o i speed f p rho srho a q r,
      stored t (u_conds u) = Some (flow_cond o i speed f (Some p) rho srho a q r None)
      /\ rho_of psy i = Ok rho /\ std_rho psy = Ok srho
      /\ rho <> 0 /\ srho <> 0 /\ a <> 0 /\ q <> 0.

  Lemma constructed_ready M a (u : U) t :
    library_model psy sol M -> DXUnit psy sol M a = Ok u -> In t (tests u) -> ready t u.
  Proof.
    intros L D I. destruct (stored_condition psy sol M a u t L D I) as (s & c & _ & St & Mk).
    apply make_condition_inv in Mk.
    destruct Mk as (q & b & full & p & fl & rho & srho & _ & _ & _ & _ & _ & Hs & Hr & H1 & H2 & H3 & H4 & ->).
    do 10 eexists. split; [exact St|]. auto 10.
  Qed.

  (** ** Running it *)
  Lemma move_run k air t (u : U) : ready t u ->
    exists u', move psy k air t u = (u', Ok tt) /\ u_fan u' = u_fan u /\ rest u' = rest u
      /\ forall t', ready t' u -> ready t' u'.
  Proof.
    intros (o & i & speed & f & p & rho & srho & a & q & r & St & Hr & Hs & H1 & H2 & H3 & H4).
    set (c' := flow_cond o i speed (Some k) (Some p) rho srho a q (air / a) None).
    exists (wu_conds (store t (Some c') (u_conds u)) u).
    split; [|split; [reflexivity|split; [destruct u; reflexivity|]]].
    - unfold move, cond_fan_speed, sbind, sread, rating. rewrite getter_eq, St. cbn [need].
      rewrite new_speed_flow by auto. reflexivity.
    - intros t' H. destruct (test_eq_dec t' t) as [->|N].
      + unfold c'. do 10 eexists. cbn [u_conds wu_conds]. rewrite stored_store. split; [reflexivity|]. auto 10.
      + destruct H as (o' & i' & speed' & f' & p' & rho' & srho' & a' & q' & r' & St' & H).
        do 10 eexists. cbn [u_conds wu_conds]. rewrite stored_other by exact N. split; [exact St'|]. exact H.
  Qed.

  Lemma moves_run k air l : forall (u : U), (forall t, In t l -> ready t u) ->
    exists u', sfold (move psy k air) l u = (u', Ok tt) /\ u_fan u' = u_fan u /\ rest u' = rest u
      /\ forall t', ready t' u -> ready t' u'.
  Proof.
    induction l as [|t l IH]; intros u H; cbn [sfold].
    - exists u. unfold sret. auto.
    - destruct (move_run k air t u) as (u1 & E1 & F1 & R1 & K1); [apply H; left; reflexivity|].
      destruct (IH u1) as (u2 & E2 & F2 & R2 & K2); [intros t' I; apply K1, H; right; exact I|].
      exists u2. split; [unfold sbind; rewrite E1; exact E2|]. repeat split; try congruence. auto.
  Qed.

  Lemma step_run m full i x (u : U) f f1 q e :
    nth_error (sd_net_cap (side_of m u)) i = Some q -> u_full_esp u = Some e -> full <> 0 ->
    u_fan u = Some f -> add_speed (q * x) (Some (e * (q * x / full) ^ 2)) f = (f1, Ok tt) ->
    (forall t, test_mode t = m -> t <> A_boost -> test_speed t u = Some i -> ready t u) ->
    exists u', reset_step psy m full (i, x) u = (u', Ok tt) /\ u_fan u' = Some f1 /\ rest u' = rest u
      /\ forall t, ready t u -> ready t u'.
  Proof.
    intros Q Ee F0 F A H. set (w := wu_fan (Some f1) u).
    destruct (moves_run (f_n f) (q * x) (filter (runs w i) (side_tests m)) w) as (u' & E & Fu & Rt & K).
    { intros t I. apply filter_In in I. destruct I as [I1 I2]. apply in_side_tests in I1. apply runs_iff in I2.
      destruct I1 as [I0 I1].
      assert (K4 : test_speed t w = test_speed t u) by (destruct t; reflexivity). rewrite K4 in I2.
      exact (H t I0 I1 I2). }
    exists u'. split; [|split; [exact Fu|split; [rewrite Rt; destruct u; reflexivity|exact K]]].
    unfold reset_step, sbind, sget, slift. cbn [fst snd]. rewrite (proj2 (geti_ok _ _ _) Q). cbv zeta.
    unfold calculate_rated_pressure. rewrite Ee. cbn [need rbind]. rewrite pydiv_ok by exact F0. cbn [rbind].
    unfold on_fan. rewrite F.
    match goal with |- context [add_speed ?a (Some ?p) f] =>
      replace (add_speed a (Some p) f) with (f1, @Ok unit tt) by
        (rewrite <- A; do 3 f_equal; unfold nsq; rnum; ring) end.
    unfold last_fan_speed, sread. cbn [u_fan wu_fan need rbind].
    destruct (add_n _ _ _ _ _ A) as [N _]. rewrite N. cbn [Nat.pred].
    rewrite update_moves. exact E.
  Qed.

  Lemma loop_run m full l : forall j f f' e (u : U) airs,
    u_fan u = Some f -> u_full_esp u = Some e -> full <> 0 -> length airs = length l ->
    (forall i x, nth_error l i = Some x ->
       exists q, nth_error (sd_net_cap (side_of m u)) (j + i) = Some q /\ nth_error airs i = Some (q * x)) ->
    with_speeds f (map (fun a => (a, e * (a / full) ^ 2)) airs) f' ->
    (forall t i, test_mode t = m -> t <> A_boost -> test_speed t u = Some (j + i)%nat -> (i < length l)%nat ->
       ready t u) ->
    exists u', sfold (reset_step psy m full) (combine (seq j (length l)) l) u = (u', Ok tt)
      /\ u_fan u' = Some f' /\ rest u' = rest u /\ forall t, ready t u -> ready t u'.
  Proof.
    induction l as [|x l IH]; intros j f f' e u airs F Ee F0 L Air W Rd; cbn [length seq combine sfold].
    - destruct airs; [|discriminate]. cbn [map] in W. inversion W; subst. exists u. unfold sret. auto.
    - destruct airs as [|a airs]; [discriminate|]. cbn [map] in W. inversion W as [|f0 f1 f2 a0 p0 l0 A W' ]; subst.
      destruct (Air 0%nat x eq_refl) as (q & Q & Qa). cbn in Qa. injection Qa as ->. rewrite Nat.add_0_r in Q.
      destruct (step_run m full j x u f f1 q e Q Ee F0 F A) as (u1 & E1 & F1 & R1 & K1).
      { intros t M1 M2 M3. apply (Rd t 0%nat M1 M2); [rewrite Nat.add_0_r; exact M3|cbn; lia]. }
      destruct (side_rest m _ _ R1) as [Sd Es].
      destruct (IH (S j) f1 f' e u1 airs) as (u2 & E2 & F2 & R2 & K2); auto.
      + congruence.
      + intros i y Hy. destruct (Air (S i) y Hy) as (q' & Q1 & Q2). exists q'. rewrite Sd.
        split; [rewrite <- Q1; f_equal; lia|exact Q2].
      + intros t i M1 M2 M3 I. apply K1. apply (Rd t (S i) M1 M2); [|cbn; lia].
        rewrite <- (test_speed_rest t _ _ R1), M3. f_equal. lia.
      + exists u2. split; [unfold sbind; rewrite E1; exact E2|]. repeat split; try congruence. auto.
  Qed.

  Lemma side_run m x (u : U) f f' e :
    let s := side_of m u in
    let l := flow_list x (sd_n s) in
    let airs := map (fun qx => fst qx * snd qx) (combine (sd_net_cap s) l) in
    u_fan u = Some f -> u_full_esp u = Some e -> hd 0 airs <> 0 -> length airs = length l ->
    with_speeds f (map (fun a => (a, e * (a / hd 0 airs) ^ 2)) airs) f' ->
    (forall t i, test_mode t = m -> t <> A_boost -> test_speed t u = Some i -> (i < length l)%nat -> ready t u) ->
    exists u', reset_side_flow psy m x u = (u', Ok tt)
      /\ u_fan u' = Some f' /\ rest u' = rest u /\ forall t, ready t u -> ready t u'.
  Proof.
    intros s l airs F Ee Hd L W Rd.
    assert (Air : forall i y, nth_error l i = Some y ->
       exists q, nth_error (sd_net_cap s) (0 + i) = Some q /\ nth_error airs i = Some (q * y)).
    { intros i y Hy. assert (I : (i < length l)%nat) by (apply nth_error_Some; congruence).
      unfold airs in L. rewrite map_length, combine_length in L.
      destruct (nth_error (sd_net_cap s) i) as [q|] eqn:Q;
        [|apply nth_error_None in Q; exfalso; lia].
      exists q. split; [exact Q|]. unfold airs. apply (map_nth_error (fun qx => fst qx * snd qx) i _ (d := (q, y))).
      apply nth_combine; auto. }
    destruct (loop_run m (hd 0 airs) l 0 f f' e u airs F Ee Hd L Air W) as (u' & E & F' & R' & K).
    { intros t i M1 M2 M3 I. exact (Rd t i M1 M2 M3 I). }
    exists u'. split; [|auto].
    unfold reset_side_flow. unfold sbind at 1, sget at 1. cbv zeta.
    change (match x with Scalar v => repeat v (sd_n (side_of m u)) | Many l => l end) with l.
    change (side_of m u) with s.
    assert (X : exists q0 x0, nth_error (sd_net_cap s) 0 = Some q0 /\ nth_error l 0 = Some x0 /\ hd 0 airs = q0 * x0).
    { destruct (nth_error l 0) as [x0|] eqn:X0.
      - destruct (Air 0%nat x0 X0) as (q0 & Q0 & Qa). exists q0, x0. repeat split; auto.
        destruct airs; [discriminate|]. cbn in Qa. injection Qa as ->. reflexivity.
      - exfalso. apply nth_error_None in X0. destruct airs; [apply Hd; reflexivity|]. cbn in L. lia. }
    destruct X as (q0 & x0 & Q0 & X0 & Hq).
    unfold sbind at 1, slift at 1. rewrite (proj2 (geti_ok _ _ _) Q0), (proj2 (geti_ok _ _ _) X0). cbn [rbind].
    change (nmul q0 x0) with (q0 * x0). rewrite <- Hq. exact E.
  Qed.

  Lemma reset_run fc fh (u : U) f f' e :
    u_fan u = Some f -> u_full_esp u = Some e ->
    (forall m, hd 0 (new_airflows m u fc fh) <> 0
               /\ length (new_airflows m u fc fh) = length (flows m u fc fh)) ->
    with_speeds f (new_speeds Cooling u fc fh e ++ new_speeds Heating u fc fh e) f' ->
    (forall t i, t <> A_boost -> test_speed t u = Some i -> (i < length (flows (test_mode t) u fc fh))%nat ->
       ready t u) ->
    exists u', ex (reset_rated_flow_rates psy fc fh) u = Ok u'.
  Proof.
    intros F Ee Hm W Rd.
    assert (Sp : exists f1, with_speeds f (new_speeds Cooling u fc fh e) f1
                   /\ with_speeds f1 (new_speeds Heating u fc fh e) f').
    { revert W. generalize (new_speeds Heating u fc fh e) as l2. generalize (new_speeds Cooling u fc fh e) as l1.
      clear. intros l1 l2. revert f. induction l1 as [|[a p] l1 IH]; intros f W; cbn [app] in W.
      - exists f. split; [constructor|exact W].
      - inversion W as [|f0 f1 f2 a0 p0 l0 A W']; subst. destruct (IH f1 W') as (g & G1 & G2).
        exists g. split; [econstructor; eauto|exact G2]. }
    destruct Sp as (f1 & W1 & W2).
    destruct (side_run Cooling fc u f f1 e F Ee (proj1 (Hm Cooling)) (proj2 (Hm Cooling)) W1) as (u1 & E1 & F1 & R1 & K1).
    { intros t i M1 M2 M3 I. apply (Rd t i M2 M3). rewrite M1. exact I. }
    destruct (side_rest Heating _ _ R1) as [Sd Es].
    destruct (side_run Heating fh u1 f1 f' e) as (u2 & E2 & F2 & R2 & K2); auto.
    - congruence.
    - rewrite Sd. exact (proj1 (Hm Heating)).
    - rewrite Sd. exact (proj2 (Hm Heating)).
    - rewrite Sd. exact W2.
    - rewrite Sd. intros t i M1 M2 M3 I. apply K1. apply (Rd t i M2); [|rewrite M1; exact I].
      rewrite <- M3. symmetry. apply test_speed_rest. exact R1.
    - exists u2. unfold ex, reset_rated_flow_rates, sbind. rewrite E1, E2. reflexivity.
  Qed.
End Conds.
