(** A unit that is at least as efficient everywhere is rated at least as high (C86). *)
From Coq Require Import Reals QArith Lra Psatz Lia List Bool.
From Verif.Base Require Import Num Res Tac.
From Verif.Model Require Import Units Util Psychrometrics Conditions Defrost Fan Curves
  Tabular Unit DXUnit.
From Verif.Spec Require Import UtilSpec UnitSpec SeasonSpec CompareSpec.
From Verif.Proofs Require Import UnitsR UtilProofs UnitProofs3 UnitProofs4 SeerProofs
  HspfProofs HspfProofs2.
Import ListNotations.
Local Open Scope R_scope.
Local Notation U := (dxunit R).

(** * Arithmetic *)
Lemma quot_le a b c d : 0 < b -> 0 < d -> a * d <= c * b -> a / b <= c / d.
Proof.
  intros B D H. apply (Rmult_le_reg_r (b * d)); [apply Rmult_lt_0_compat; assumption|].
  replace (a / b * (b * d)) with (a * d) by (field; lra).
  replace (c / d * (b * d)) with (c * b) by (field; lra). exact H.
Qed.
Lemma quot_lt a b c d : 0 < b -> 0 < d -> a * d < c * b -> a / b < c / d.
Proof.
  intros B D H. apply (Rmult_lt_reg_r (b * d)); [apply Rmult_lt_0_compat; assumption|].
  replace (a / b * (b * d)) with (a * d) by (field; lra).
  replace (c / d * (b * d)) with (c * b) by (field; lra). exact H.
Qed.

Lemma cycling_mono cd cd' x p p' : 0 <= cd' <= cd -> cd < 1 -> 0 <= x <= 1 -> 0 <= p' <= p ->
  cycling cd' x p' <= cycling cd x p.
Proof.
  intros D C X P. unfold cycling. apply quot_le; try nra.
  assert (A : x * p' <= x * p) by nra. assert (Z : 0 <= x * p') by nra.
  assert (E : 1 - cd * (1 - x) <= 1 - cd' * (1 - x)) by nra.
  assert (F : 0 < 1 - cd * (1 - x)) by nra. nra.
Qed.
Lemma cycling_strict cd cd' x p p' : 0 <= cd' < cd -> cd < 1 -> 0 < x < 1 -> 0 < p' <= p ->
  cycling cd' x p' < cycling cd x p.
Proof.
  intros D C X P. unfold cycling. apply quot_lt; try nra.
  assert (A : x * p' <= x * p) by nra. assert (Z : 0 < x * p') by nra.
  assert (E : 1 - cd * (1 - x) < 1 - cd' * (1 - x)) by nra.
  assert (F : 0 < 1 - cd * (1 - x)) by nra. nra.
Qed.
Lemma line_mono x0 x1 y0 y1 z0 z1 x : x0 < x1 -> x0 <= x <= x1 -> z0 <= y0 -> z1 <= y1 ->
  line x0 z0 x1 z1 x <= line x0 y0 x1 y1 x.
Proof.
  intros X [A B] C D. unfold line.
  pose (k := (x - x0) / (x1 - x0)).
  assert (K : 0 <= k <= 1).
  { unfold k. split; [apply Rle_mult_inv_pos; lra|].
    apply (Rmult_le_reg_r (x1 - x0)); [lra|].
    replace ((x - x0) / (x1 - x0) * (x1 - x0)) with (x - x0) by (field; lra). lra. }
  replace (z0 + (z1 - z0) / (x1 - x0) * (x - x0)) with (z0 * (1 - k) + z1 * k)
    by (unfold k; field; lra).
  replace (y0 + (y1 - y0) / (x1 - x0) * (x - x0)) with (y0 * (1 - k) + y1 * k)
    by (unfold k; field; lra).
  nra.
Qed.
Lemma line_pos x0 x1 y0 y1 x : x0 < x1 -> x0 <= x <= x1 -> 0 < y0 -> 0 < y1 ->
  0 < line x0 y0 x1 y1 x.
Proof.
  intros X I A B. apply Rlt_le_trans with (Rmin y0 y1); [apply Rmin_glb_lt; assumption|].
  apply (line_between x0 y0 x1 y1 x (Rmin y0 y1) (Rmax y0 y1)); auto.
  - split; [apply Rmin_l|apply Rmax_l].
  - split; [apply Rmin_r|apply Rmax_r].
Qed.
Lemma line_id a b x : a < b -> line a a b b x = x.
Proof. intros H. unfold line. field. lra. Qed.
Lemma cop_mono q p p' : 0 <= q -> 0 < p' <= p -> q / p <= q / p'.
Proof. intros Q P. apply quot_le; nra. Qed.

Lemma over_lt n f g k : (k < n)%nat -> (forall i, (i < n)%nat -> f i <= g i) -> f k < g k ->
  over n f < over n g.
Proof.
  revert k. induction n as [|n IH]; intros k K H S; [lia|]. rewrite !over_S.
  pose proof (H n ltac:(lia)) as N.
  destruct (Nat.eq_dec k n) as [->|E].
  - assert (over n f <= over n g) by (apply over_le; intros; apply H; lia). lra.
  - assert (over n f < over n g) by (apply (IH k); [lia|intros; apply H; lia|exact S]). lra.
Qed.

Lemma finite_range n (f : nat -> R) : (forall i, (i < n)%nat -> 0 < f i) ->
  exists lo hi, 0 < lo /\ forall i, (i < n)%nat -> lo <= f i <= hi.
Proof.
  induction n as [|n IH]; intros H.
  - exists 1, 1. split; [lra|]. intros; lia.
  - destruct IH as (lo & hi & L & F); [intros; apply H; lia|].
    exists (Rmin lo (f n)), (Rmax hi (f n)). split.
    + apply Rmin_glb_lt; [exact L|apply H; lia].
    + intros i I. destruct (Nat.eq_dec i n) as [->|E].
      * split; [apply Rmin_r|apply Rmax_r].
      * specialize (F i ltac:(lia)).
        pose proof (Rmin_l lo (f n)). pose proof (Rmax_l hi (f n)). lra.
Qed.

Lemma Btu_Wh_lt a b : a < b -> Btu_Wh a < Btu_Wh b.
Proof. unfold Btu_Wh. lra. Qed.

(** * Energy in one bin *)
Lemma part_unit bl q : 0 < q -> 0 <= bl <= q -> 0 <= bl / q <= 1.
Proof. intros. apply part; assumption. Qed.

Lemma two_energy_mono cyc cd cd' bl ql pl pl' qf pf pf' :
  0 <= cd' <= cd -> cd < 1 -> 0 <= bl -> 0 < ql <= qf -> 0 < pl' <= pl -> 0 < pf' <= pf ->
  two_stage_energy cyc cd' bl ql pl' qf pf' <= two_stage_energy cyc cd bl ql pl qf pf.
Proof.
  intros D C B Q Pl Pf. unfold two_stage_energy. destruct (Rle_dec bl ql) as [L|L].
  - apply cycling_mono; try lra. apply part_unit; lra.
  - destruct (Rlt_dec bl qf) as [F|F]; [|lra]. destruct cyc.
    + apply line_mono; lra.
    + apply cycling_mono; try lra. apply part_unit; lra.
Qed.
Lemma two_energy_strict cyc cd cd' bl ql pl pl' qf pf pf' :
  0 <= cd' < cd -> cd < 1 -> 0 < bl < ql -> 0 < pl' <= pl ->
  two_stage_energy cyc cd' bl ql pl' qf pf' < two_stage_energy cyc cd bl ql pl qf pf.
Proof.
  intros D C B Pl. unfold two_stage_energy. destruct (Rle_dec bl ql) as [L|L]; [|lra].
  apply cycling_strict; try lra. split; [apply Rdiv_lt_0_compat; lra|].
  apply (Rmult_lt_reg_r ql); [lra|]. replace (bl / ql * ql) with bl by (field; lra). lra.
Qed.

Lemma at_cop_mono bl c c' : 0 <= bl -> 0 < c <= c' -> bl / c' <= bl / c.
Proof. intros. apply quot_le; nra. Qed.
Lemma variable_energy_mono cd cd' bl ql pl pl' qi pi pi' qf pf pf' :
  0 <= cd' <= cd -> cd < 1 -> 0 <= bl -> 0 < ql <= qi -> qi < qf ->
  0 < pl' <= pl -> 0 < pi' <= pi -> 0 < pf' <= pf ->
  variable_energy cd' bl ql pl' qi pi' qf pf' <= variable_energy cd bl ql pl qi pi qf pf.
Proof.
  intros D C B Q F Pl Pi Pf. unfold variable_energy.
  assert (Cl : 0 < ql / pl <= ql / pl') by (split; [apply div_pos; lra|apply cop_mono; lra]).
  assert (Ci : 0 < qi / pi <= qi / pi') by (split; [apply div_pos; lra|apply cop_mono; lra]).
  assert (Cf : 0 < qf / pf <= qf / pf') by (split; [apply div_pos; lra|apply cop_mono; lra]).
  destruct (Rle_dec bl ql) as [L|L].
  - apply cycling_mono; try lra. apply part_unit; lra.
  - destruct (Rlt_dec bl qi) as [I|I].
    + apply at_cop_mono; [exact B|]. split; [apply line_pos; lra|apply line_mono; lra].
    + destruct (Rle_dec bl qf) as [G|G]; [|lra].
      apply at_cop_mono; [exact B|]. split; [apply line_pos; lra|apply line_mono; lra].
Qed.

(** Same numerator, less energy. *)
Lemma ratio_le S D D' : 0 <= S -> 0 < D' <= D -> Btu_Wh (S / D) <= Btu_Wh (S / D').
Proof. intros. apply Btu_Wh_le, quot_le; nra. Qed.
Lemma ratio_lt S D D' : 0 < S -> 0 < D' < D -> Btu_Wh (S / D) < Btu_Wh (S / D').
Proof. intros. apply Btu_Wh_lt, quot_lt; nra. Qed.

(** * Lines through tests of the same capacity *)
Lemma same_line a b a' b' t : same_capacity a a' -> same_capacity b b' ->
  q_at a' b' t = q_at a b t.
Proof. intros [A1 A2] [B1 B2]. unfold q_at. congruence. Qed.
Lemma same_full a b c a' b' c' t : same_capacity a a' -> same_capacity b b' ->
  same_capacity c c' -> full_line q_at a' b' c' t = full_line q_at a b c t.
Proof.
  intros A B C. unfold full_line. rewrite (same_line c a c' a'), (same_line c b c' b') by assumption.
  reflexivity.
Qed.

(** * SEER *)
Section Seer.
  Variables sol sol' : solvers R.
  Variables M M' : dxmodel R.

  Lemma net_cop_of (s : solvers R) (m : dxmodel R) (u : U) c B :
    cooling_test s m u (Some c) B -> pt_p B <> 0 ->
    net_total_cooling_cop s m u (Some c) = Ok (pt_q B / pt_p B).
  Proof.
    intros (c0 & E & _ & Q & P) N. injection E as <-. unfold net_total_cooling_cop, both.
    rewrite Q. cbn [rbind]. rewrite P. cbn [rbind]. rewrite pydiv_ok by exact N. reflexivity.
  Qed.

  Lemma dominates_single (u u' : U) B B' :
    u_staging u = SINGLE_STAGE -> u_staging u' = SINGLE_STAGE ->
    cooling_test sol M u (rc_B_full (u_conds u)) B ->
    cooling_test sol' M' u' (rc_B_full (u_conds u')) B' ->
    same_capacity B B' -> 0 < pt_q B -> 0 < pt_p B' <= pt_p B ->
    0 <= sd_cd (u_c u') <= sd_cd (u_c u) -> sd_cd (u_c u) < 1 ->
    exists v v', seer sol M u = Ok v /\ seer sol' M' u' = Ok v' /\ v <= v'
      /\ (sd_cd (u_c u') < sd_cd (u_c u) -> v < v').
  Proof.
    intros S S' T T' [_ Q] Q0 P D C.
    pose proof T as (c & Ec & _). pose proof T' as (c' & Ec' & _).
    pose proof T as K. rewrite Ec in K. apply net_cop_of in K; [|lra].
    pose proof T' as K'. rewrite Ec' in K'. apply net_cop_of in K'; [|lra].
    rewrite (seer_single sol M u c _ S Ec K), (seer_single sol' M' u' c' _ S' Ec' K').
    eexists. eexists. split; [reflexivity|]. split; [reflexivity|]. rewrite Q.
    pose proof (cop_mono (pt_q B) (pt_p B) (pt_p B') ltac:(lra) P) as X.
    assert (Y : 0 < pt_q B / pt_p B) by (apply div_pos; lra).
    set (a := pt_q B / pt_p B) in *. set (b := pt_q B / pt_p B') in *.
    split; [apply Btu_Wh_le; nra|]. intros Z. apply Btu_Wh_lt. nra.
  Qed.

  Lemma cool_pos (A : point R) (qf : nat -> R) : 0 < pt_q A ->
    (forall i, (i < 8)%nat -> 0 < qf i) ->
    0 < over 8 (fun i => cool_hours i * Rmin (cool_load (pt_q A) (cool_t i)) (qf i)).
  Proof.
    intros Q H. apply over_pos; [lia|]. intros i I. apply Rmult_lt_0_compat.
    - apply cool_hours_pos, I.
    - apply Rmin_glb_lt; [apply cool_load_pos, Q|apply H, I].
  Qed.

  Lemma dominates_two (u u' : U) A B Bl Fl A' B' Bl' Fl' :
    u_staging u = TWO_STAGE -> u_staging u' = TWO_STAGE -> u_cycling u' = u_cycling u ->
    cooling_tests sol M u A B Bl Fl -> cooling_tests sol' M' u' A' B' Bl' Fl' ->
    same_capacity A A' -> same_capacity B B' -> same_capacity Bl Bl' -> same_capacity Fl Fl' ->
    pt_t Bl <> pt_t Fl -> pt_t A <> pt_t B -> 0 < pt_q A ->
    0 <= sd_cd (u_c u') <= sd_cd (u_c u) -> sd_cd (u_c u) < 1 ->
    (forall i, (i < 8)%nat ->
       let t := cool_t i in
       0 < q_at Fl Bl t <= q_at B A t
       /\ 0 < p_at Fl' Bl' t <= p_at Fl Bl t /\ 0 < p_at B' A' t <= p_at B A t) ->
    exists v v', seer sol M u = Ok v /\ seer sol' M' u' = Ok v' /\ v <= v'
      /\ (sd_cd (u_c u') < sd_cd (u_c u) ->
          (exists i, (i < 8)%nat /\ cool_load (pt_q A) (cool_t i) < q_at Fl Bl (cool_t i)) ->
          v < v').
  Proof.
    intros S S' Cy (TA & TB & TBl & TFl) (TA' & TB' & TBl' & TFl') CA CB CBl CFl N1 N2 Q D C K.
    assert (Ql : forall t, q_at Fl' Bl' t = q_at Fl Bl t) by (intros; apply same_line; assumption).
    assert (Qf : forall t, q_at B' A' t = q_at B A t) by (intros; apply same_line; assumption).
    assert (QA : pt_q A' = pt_q A) by apply CA.
    destruct (finite_range 8 (fun i => q_at Fl Bl (cool_t i) / p_at Fl Bl (cool_t i)))
      as (l1 & h1 & L1 & F1).
    { intros i I. destruct (K i I) as (? & ? & ?). apply div_pos; lra. }
    destruct (finite_range 8 (fun i => q_at B A (cool_t i) / p_at B A (cool_t i)))
      as (l2 & h2 & L2 & F2).
    { intros i I. destruct (K i I) as (? & ? & ?). apply div_pos; lra. }
    destruct (finite_range 8 (fun i => q_at Fl Bl (cool_t i) / p_at Fl' Bl' (cool_t i)))
      as (l3 & h3 & L3 & F3).
    { intros i I. destruct (K i I) as (? & ? & ?). apply div_pos; lra. }
    destruct (finite_range 8 (fun i => q_at B A (cool_t i) / p_at B' A' (cool_t i)))
      as (l4 & h4 & L4 & F4).
    { intros i I. destruct (K i I) as (? & ? & ?). apply div_pos; lra. }
    destruct (seer_two_bounds sol M u A B Bl Fl (Rmin l1 l2) (Rmax h1 h2))
      as (v & Hv & Ep & Ev & _); try assumption; try lra.
    { apply Rmin_glb_lt; assumption. }
    { intros i I. cbv zeta. destruct (K i I) as (A1 & A2 & A3). cbv zeta in *.
      specialize (F1 i I). specialize (F2 i I).
      pose proof (Rmin_l l1 l2). pose proof (Rmin_r l1 l2).
      pose proof (Rmax_l h1 h2). pose proof (Rmax_r h1 h2). repeat split; lra. }
    destruct (seer_two_bounds sol' M' u' A' B' Bl' Fl' (Rmin l3 l4) (Rmax h3 h4))
      as (v' & Hv' & Ep' & Ev' & _); try assumption; try lra.
    { destruct CBl as [-> _], CFl as [-> _]. exact N1. }
    { destruct CA as [-> _], CB as [-> _]. exact N2. }
    { apply Rmin_glb_lt; assumption. }
    { intros i I. cbv zeta. rewrite Ql, Qf. destruct (K i I) as (A1 & A2 & A3). cbv zeta in *.
      specialize (F3 i I). specialize (F4 i I).
      pose proof (Rmin_l l3 l4). pose proof (Rmin_r l3 l4).
      pose proof (Rmax_l h3 h4). pose proof (Rmax_r h3 h4). repeat split; lra. }
    exists v, v'. split; [exact Hv|]. split; [exact Hv'|].
    rewrite QA in Ev'.
    set (E := two_energy (u_cycling u) (sd_cd (u_c u)) A B Bl Fl) in *.
    set (E' := two_energy (u_cycling u') (sd_cd (u_c u')) A' B' Bl' Fl') in *.
    assert (Es : over 8 (fun i => cool_hours i * Rmin (cool_load (pt_q A) (cool_t i))
                                                   (q_at B' A' (cool_t i)))
               = over 8 (fun i => cool_hours i * Rmin (cool_load (pt_q A) (cool_t i))
                                                   (q_at B A (cool_t i))))
      by (apply over_ext; intros; rewrite Qf; reflexivity).
    rewrite Es in Ev'. subst v v'.
    pose proof (cool_pos A (fun i => q_at B A (cool_t i)) Q) as SP. cbv beta in SP.
    specialize (SP ltac:(intros i I; destruct (K i I); lra)).
    assert (DP : 0 < over 8 (fun i => cool_hours i * E' i)).
    { apply over_pos; [lia|]. intros i I. apply Rmult_lt_0_compat; [apply cool_hours_pos, I|].
      apply Ep', I. }
    assert (Le : forall i, (i < 8)%nat -> cool_hours i * E' i <= cool_hours i * E i).
    { intros i I. apply Rmult_le_compat_l; [left; apply cool_hours_pos, I|].
      destruct (K i I) as (A1 & A2 & A3). cbv zeta in *.
      unfold E, E', two_energy. rewrite Cy, QA, Ql, Qf.
      apply two_energy_mono; try lra. left. apply cool_load_pos, Q. }
    split.
    - apply ratio_le; [lra|]. split; [exact DP|apply over_le, Le].
    - intros Z (k & Kk & B0). apply ratio_lt; [exact SP|]. split; [exact DP|].
      apply (over_lt 8 _ _ k Kk Le). cbv beta. apply Rmult_lt_compat_l; [apply cool_hours_pos, Kk|].
      destruct (K k Kk) as (A1 & A2 & A3). cbv zeta in *.
      unfold E, E', two_energy. rewrite Cy, QA, Ql, Qf.
      apply two_energy_strict; try lra. split; [apply cool_load_pos, Q|exact B0].
  Qed.

  Lemma dominates_variable (u u' : U) A B Bl Fl E A' B' Bl' Fl' E' :
    u_staging u = VARIABLE_SPEED -> u_staging u' = VARIABLE_SPEED ->
    cooling_tests sol M u A B Bl Fl -> cooling_tests sol' M' u' A' B' Bl' Fl' ->
    cooling_test sol M u (rc_E_int (u_conds u)) E ->
    cooling_test sol' M' u' (rc_E_int (u_conds u')) E' ->
    same_capacity A A' -> same_capacity B B' -> same_capacity Bl Bl' -> same_capacity Fl Fl' ->
    same_capacity E E' ->
    pt_t Bl <> pt_t Fl -> pt_t A <> pt_t B -> 0 < pt_q A ->
    p_at B A (deg_F 87) <> p_at Fl Bl (deg_F 87) ->
    p_at B' A' (deg_F 87) <> p_at Fl' Bl' (deg_F 87) ->
    0 <= sd_cd (u_c u') <= sd_cd (u_c u) -> sd_cd (u_c u) < 1 ->
    (forall i, (i < 8)%nat ->
       let t := cool_t i in
       0 < q_at Fl Bl t <= q_int_cool A B Bl Fl E t
       /\ q_int_cool A B Bl Fl E t < q_at B A t
       /\ 0 < p_at Fl' Bl' t <= p_at Fl Bl t
       /\ 0 < p_int_cool A' B' Bl' Fl' E' t <= p_int_cool A B Bl Fl E t
       /\ 0 < p_at B' A' t <= p_at B A t) ->
    exists v v', seer sol M u = Ok v /\ seer sol' M' u' = Ok v' /\ v <= v'
      /\ (sd_cd (u_c u') < sd_cd (u_c u) ->
          (exists i, (i < 8)%nat /\ cool_load (pt_q A) (cool_t i) < q_at Fl Bl (cool_t i)) ->
          v < v').
  Proof.
    intros S S' (TA & TB & TBl & TFl) (TA' & TB' & TBl' & TFl') TE TE' CA CB CBl CFl CE
      N1 N2 Q N3 N4 D C K.
    assert (Ql : forall t, q_at Fl' Bl' t = q_at Fl Bl t) by (intros; apply same_line; assumption).
    assert (Qf : forall t, q_at B' A' t = q_at B A t) by (intros; apply same_line; assumption).
    assert (QA : pt_q A' = pt_q A) by apply CA.
    assert (Qi : forall t, q_int_cool A' B' Bl' Fl' E' t = q_int_cool A B Bl Fl E t).
    { intros t. unfold q_int_cool. rewrite Ql, Qf. destruct CA as [_ ->], CB as [_ ->],
        CBl as [_ ->], CFl as [_ ->], CE as [_ ->]. reflexivity. }
    destruct (finite_range 8 (fun i => q_at Fl Bl (cool_t i) / p_at Fl Bl (cool_t i)))
      as (l1 & h1 & L1 & F1).
    { intros i I. destruct (K i I) as (? & ? & ? & ? & ?). apply div_pos; lra. }
    destruct (finite_range 8 (fun i => q_at B A (cool_t i) / p_at B A (cool_t i)))
      as (l2 & h2 & L2 & F2).
    { intros i I. destruct (K i I) as (? & ? & ? & ? & ?). apply div_pos; lra. }
    destruct (finite_range 8 (fun i => q_int_cool A B Bl Fl E (cool_t i)
                                       / p_int_cool A B Bl Fl E (cool_t i)))
      as (l5 & h5 & L5 & F5).
    { intros i I. destruct (K i I) as (? & ? & ? & ? & ?). apply div_pos; lra. }
    destruct (finite_range 8 (fun i => q_at Fl Bl (cool_t i) / p_at Fl' Bl' (cool_t i)))
      as (l3 & h3 & L3 & F3).
    { intros i I. destruct (K i I) as (? & ? & ? & ? & ?). apply div_pos; lra. }
    destruct (finite_range 8 (fun i => q_at B A (cool_t i) / p_at B' A' (cool_t i)))
      as (l4 & h4 & L4 & F4).
    { intros i I. destruct (K i I) as (? & ? & ? & ? & ?). apply div_pos; lra. }
    destruct (finite_range 8 (fun i => q_int_cool A B Bl Fl E (cool_t i)
                                       / p_int_cool A' B' Bl' Fl' E' (cool_t i)))
      as (l6 & h6 & L6 & F6).
    { intros i I. destruct (K i I) as (? & ? & ? & ? & ?). apply div_pos; lra. }
    destruct (seer_variable_bounds sol M u A B Bl Fl E (Rmin (Rmin l1 l2) l5)
        (Rmax (Rmax h1 h2) h5))
      as (v & Hv & Ep & Ev & _); try assumption; try lra.
    { repeat apply Rmin_glb_lt; assumption. }
    { intros i I. cbv zeta. destruct (K i I) as (A1 & A2 & A3 & A4 & A5). cbv zeta in *.
      specialize (F1 i I). specialize (F2 i I). specialize (F5 i I).
      pose proof (Rmin_l l1 l2). pose proof (Rmin_r l1 l2).
      pose proof (Rmin_l (Rmin l1 l2) l5). pose proof (Rmin_r (Rmin l1 l2) l5).
      pose proof (Rmax_l h1 h2). pose proof (Rmax_r h1 h2).
      pose proof (Rmax_l (Rmax h1 h2) h5). pose proof (Rmax_r (Rmax h1 h2) h5).
      repeat split; lra. }
    destruct (seer_variable_bounds sol' M' u' A' B' Bl' Fl' E' (Rmin (Rmin l3 l4) l6)
        (Rmax (Rmax h3 h4) h6))
      as (v' & Hv' & Ep' & Ev' & _); try assumption; try lra.
    { destruct CBl as [-> _], CFl as [-> _]. exact N1. }
    { destruct CA as [-> _], CB as [-> _]. exact N2. }
    { repeat apply Rmin_glb_lt; assumption. }
    { intros i I. cbv zeta. rewrite Ql, Qf, Qi. destruct (K i I) as (A1 & A2 & A3 & A4 & A5).
      cbv zeta in *. specialize (F3 i I). specialize (F4 i I). specialize (F6 i I).
      pose proof (Rmin_l l3 l4). pose proof (Rmin_r l3 l4).
      pose proof (Rmin_l (Rmin l3 l4) l6). pose proof (Rmin_r (Rmin l3 l4) l6).
      pose proof (Rmax_l h3 h4). pose proof (Rmax_r h3 h4).
      pose proof (Rmax_l (Rmax h3 h4) h6). pose proof (Rmax_r (Rmax h3 h4) h6).
      repeat split; lra. }
    exists v, v'. split; [exact Hv|]. split; [exact Hv'|].
    rewrite QA in Ev'.
    set (En := var_energy (sd_cd (u_c u)) A B Bl Fl E) in *.
    set (En' := var_energy (sd_cd (u_c u')) A' B' Bl' Fl' E') in *.
    assert (Es : over 8 (fun i => cool_hours i * Rmin (cool_load (pt_q A) (cool_t i))
                                                   (q_at B' A' (cool_t i)))
               = over 8 (fun i => cool_hours i * Rmin (cool_load (pt_q A) (cool_t i))
                                                   (q_at B A (cool_t i))))
      by (apply over_ext; intros; rewrite Qf; reflexivity).
    rewrite Es in Ev'. subst v v'.
    pose proof (cool_pos A (fun i => q_at B A (cool_t i)) Q) as SP. cbv beta in SP.
    specialize (SP ltac:(intros i I; destruct (K i I) as (? & ? & _); lra)).
    assert (DP : 0 < over 8 (fun i => cool_hours i * En' i)).
    { apply over_pos; [lia|]. intros i I. apply Rmult_lt_0_compat; [apply cool_hours_pos, I|].
      apply Ep', I. }
    assert (Le : forall i, (i < 8)%nat -> cool_hours i * En' i <= cool_hours i * En i).
    { intros i I. apply Rmult_le_compat_l; [left; apply cool_hours_pos, I|].
      destruct (K i I) as (A1 & A2 & A3 & A4 & A5). cbv zeta in *.
      unfold En, En', var_energy. rewrite QA, Ql, Qf, Qi.
      apply variable_energy_mono; try lra. left. apply cool_load_pos, Q. }
    split.
    - apply ratio_le; [lra|]. split; [exact DP|apply over_le, Le].
    - intros Z (k & Kk & B0). apply ratio_lt; [exact SP|]. split; [exact DP|].
      apply (over_lt 8 _ _ k Kk Le). cbv beta. apply Rmult_lt_compat_l; [apply cool_hours_pos, Kk|].
      destruct (K k Kk) as (A1 & A2 & A3 & A4 & A5). cbv zeta in *.
      unfold En, En', var_energy. rewrite QA, Ql, Qf, Qi. unfold variable_energy.
      destruct (Rle_dec _ _) as [G|G]; [|lra].
      pose proof (cool_load_pos (pt_q A) k Q) as BP.
      apply cycling_strict; try lra. split; [apply Rdiv_lt_0_compat; lra|].
      apply (Rmult_lt_reg_r (q_at Fl Bl (cool_t k))); [lra|].
      replace (cool_load (pt_q A) (cool_t k) / q_at Fl Bl (cool_t k) * q_at Fl Bl (cool_t k))
        with (cool_load (pt_q A) (cool_t k)) by (field; lra). lra.
  Qed.
End Seer.

(** * HSPF *)
Lemma run_mono off on off' on' t c c' : off' <= off -> on' <= on -> c <= c' ->
  run_fraction off on t c <= run_fraction off' on' t c'.
Proof.
  intros A B C. unfold run_fraction.
  destruct (Rle_dec t off), (Rle_dec t off'), (Rlt_dec c 1), (Rlt_dec c' 1), (Rlt_dec on t),
    (Rlt_dec on' t); lra.
Qed.

(** Running more often helps when a running unit uses no more than the heat it delivers. *)
Lemma bin_mono run run' e e' h bl : 0 <= run <= run' -> e' <= e -> e' <= h ->
  run' * e' + (bl - run' * h) <= run * e + (bl - run * h).
Proof. intros A B C. nra. Qed.

Lemma season_mono (n bl E RH E' RH' : nat -> R) credit m :
  (forall i, (i < 18)%nat -> 0 <= n i) -> 0 < credit -> 0 < m ->
  0 < over 18 (fun i => n i * bl i) ->
  (forall i, (i < 18)%nat -> E' i + RH' i <= E i + RH i) ->
  Btu_Wh (m * credit) <= seasonal_heating n bl E' RH' credit ->
  seasonal_heating n bl E RH credit <= seasonal_heating n bl E' RH' credit.
Proof.
  intros N C M0 P K Low. unfold seasonal_heating in *.
  set (S := over 18 (fun i => n i * bl i)) in *.
  set (D := over 18 (fun i => n i * E i) + over 18 (fun i => n i * RH i)).
  set (D' := over 18 (fun i => n i * E' i) + over 18 (fun i => n i * RH' i)) in *.
  assert (X : D' <= D).
  { unfold D, D'. rewrite <- !over_add. apply over_le. intros i I. specialize (N i I).
    specialize (K i I). nra. }
  assert (Y : 0 < D').
  { assert (Z : m * credit <= S / D' * credit) by (unfold Btu_Wh in Low; lra).
    assert (Z' : 0 < S / D') by nra.
    destruct (Rtotal_order D' 0) as [W|[W|W]]; [|rewrite W in Z'|lra].
    - exfalso. pose proof (Rinv_lt_0_compat D' W). unfold Rdiv in Z'. nra.
    - exfalso. unfold Rdiv in Z'. rewrite Rinv_0 in Z'. lra. }
  apply Btu_Wh_le. apply Rmult_le_compat_r; [lra|]. apply quot_le; nra.
Qed.

Section Hspf.
  Variables sol sol' : solvers R.
  Variables M M' : dxmodel R.

  Lemma dominates_hspf_single (u u' : U) region on on' d L credit H1 H2 H3 H1' H2' H3' lo hi lo' hi' :
    u_staging u = SINGLE_STAGE -> u_staging u' = SINGLE_STAGE ->
    runs_as_often u u' on on' ->
    rated_in sol M u region d L credit -> rated_in sol' M' u' region d L credit ->
    0 < over 18 (fun i => hours_of d i * L (heat_t i)) -> 0 < credit ->
    single_tests sol M u H1 H2 H3 -> single_tests sol' M' u' H1' H2' H3' ->
    same_capacity H1 H1' -> same_capacity H2 H2' -> same_capacity H3 H3' ->
    pt_t H1 <> pt_t H3 -> pt_t H2 <> pt_t H3 ->
    0 < lo -> 1 <= (1 - sd_cd (u_h u')) * lo' ->
    (forall i, (i < 18)%nat ->
       let q := full_line q_at H1 H2 H3 (heat_t i) in
       let p := full_line p_at H1 H2 H3 (heat_t i) in
       let p' := full_line p_at H1' H2' H3' (heat_t i) in
       0 < q /\ 0 < p' <= p /\ lo <= q / p <= hi /\ lo' <= q / p' <= hi') ->
    exists v v', hspf sol M u region = Ok v /\ hspf sol' M' u' region = Ok v' /\ v <= v'.
  Proof.
    intros S S' (On & On' & Of & Oo & D & C) (Hd & HL & Cr) (Hd' & HL' & Cr') P C0
      (T1 & T2 & T3) (T1' & T2' & T3') C1 C2 C3 N1 N2 L0 L1 K.
    assert (L0' : 0 < lo') by nra.
    pose proof (heat_load_pos sol M u d L HL) as LP.
    assert (Qs : forall t, full_line q_at H1' H2' H3' t = full_line q_at H1 H2 H3 t)
      by (intros; apply same_full; assumption).
    destruct (hspf_single_total sol M u region on d H1 H2 H3 L credit lo hi)
      as (v & Hv & Ev & _); try assumption; try lra.
    { intros i I. destruct (K i I) as (A1 & A2 & A3 & A4). cbv zeta in *. repeat split; lra. }
    destruct (hspf_single_total sol' M' u' region on' d H1' H2' H3' L credit lo' hi')
      as (v' & Hv' & Ev' & Bd' & _); try assumption; try lra.
    { destruct C1 as [-> _], C3 as [-> _]. exact N1. }
    { destruct C2 as [-> _], C3 as [-> _]. exact N2. }
    { intros i I. destruct (K i I) as (A1 & A2 & A3 & A4). cbv zeta in *. rewrite Qs.
      repeat split; lra. }
    exists v, v'. split; [exact Hv|]. split; [exact Hv'|]. rewrite Ev, Ev'.
    rewrite Ev' in Bd'.
    eapply season_mono; try exact Bd'; try assumption.
    - intros i _. apply (climate_hours u region d Hd).
    - apply Rmin_glb_lt; lra.
    - intros i I. destruct (K i I) as (A1 & A2 & A3 & A4). cbv zeta in *.
      unfold single_resistance, single_energy, single_heat. rewrite !Qs.
      set (q := full_line q_at H1 H2 H3 (heat_t i)) in *.
      set (p := full_line p_at H1 H2 H3 (heat_t i)) in *.
      set (p' := full_line p_at H1' H2' H3' (heat_t i)) in *.
      apply bin_mono.
      + split; [apply run_bounds|]. unfold single_run. rewrite !Qs. fold q p p'.
        apply run_mono; [assumption..|apply cop_mono; lra].
      + apply cycling_mono; try lra. unfold load_factor. destruct Rlt_dec; [|lra].
        apply part_unit; [exact A1|]. specialize (LP (heat_t i)). lra.
      + destruct (factor_bounds (sd_cd (u_h u')) (L (heat_t i)) q p' lo' hi'
          ltac:(lra) (LP _) A1 ltac:(lra) L0' A4) as (X & Y & _).
        apply Rle_trans with (2 := Y). nra.
  Qed.

  Lemma latest_mono bl ql (d d' : nat -> R) i :
    (forall j, (j < i)%nat -> d j <= d' j) ->
    match latest_low bl ql d i, latest_low bl ql d' i with
    | Some x, Some y => x <= y
    | None, None => True
    | _, _ => False
    end.
  Proof.
    induction i as [|i IH]; intros H; cbn [latest_low]; [exact I|].
    destruct (Rle_dec (bl i) (ql i)); [apply H; lia|]. apply IH. intros; apply H; lia.
  Qed.
  Lemma latest_ext bl ql ql' (d : nat -> R) i : (forall j, ql' j = ql j) ->
    latest_low bl ql' d i = latest_low bl ql d i.
  Proof.
    intros E. induction i as [|i IH]; cbn [latest_low]; [reflexivity|]. rewrite E, IH.
    reflexivity.
  Qed.

  Lemma dominates_hspf_two (u u' : U) region on on' d L credit s s' lo hi lo' hi' :
    u_staging u = TWO_STAGE -> u_staging u' = TWO_STAGE ->
    u_cycling u = BETWEEN_LOW_FULL -> u_cycling u' = BETWEEN_LOW_FULL ->
    runs_as_often u u' on on' ->
    rated_in sol M u region d L credit -> rated_in sol' M' u' region d L credit ->
    0 < over 18 (fun i => hours_of d i * L (heat_t i)) -> 0 < credit ->
    two_stage_tests sol M u s -> two_stage_tests sol' M' u' s' -> same_stages s s' ->
    L (heat_t 0) <= low_of q_at s 0 ->
    0 < lo -> 1 <= (1 - sd_cd (u_h u')) * lo' -> stages_ok lo hi s -> stages_ok lo' hi' s' ->
    (forall i, (i < 18)%nat ->
       low_of p_at s' i <= low_of p_at s i /\ full_of p_at s' i <= full_of p_at s i) ->
    exists v v', hspf sol M u region = Ok v /\ hspf sol' M' u' region = Ok v' /\ v <= v'.
  Proof.
    intros S S' Cy Cy' (On & On' & Of & Oo & D & C) (Hd & HL & Cr) (Hd' & HL' & Cr') P C0
      (T0l & T1l & T2l & T3l & T1 & T2 & T3) (T0l' & T1l' & T2l' & T3l' & T1' & T2' & T3')
      (C0l & C1l & C2l & C3l & C1 & C2 & C3) First L0 L1 Sk Sk' K.
    assert (L0' : 0 < lo') by nra.
    pose proof (heat_load_pos sol M u d L HL) as LP.
    assert (Qf : forall i, full_of q_at s' i = full_of q_at s i)
      by (intros; apply same_full; assumption).
    assert (Ql : forall i, low_of q_at s' i = low_of q_at s i).
    { intros i. unfold low_of, low_line.
      rewrite (same_line (s_H0l s) (s_H1l s) (s_H0l s') (s_H1l s')),
        (same_line (s_H1l s) (s_H3l s) (s_H1l s') (s_H3l s')),
        (same_line (s_H2l s) (s_H3l s) (s_H2l s') (s_H3l s')) by assumption. reflexivity. }
    destruct (hspf_two_total sol M u region on d s L credit lo hi)
      as (v & Hv & Ev & _); try assumption; try lra.
    destruct (hspf_two_total sol' M' u' region on' d s' L credit lo' hi')
      as (v' & Hv' & Ev' & Bd' & _); try assumption; try lra.
    { rewrite Ql. exact First. }
    exists v, v'. split; [exact Hv|]. split; [exact Hv'|]. rewrite Ev, Ev'.
    rewrite Ev' in Bd'.
    destruct Sk as (_ & _ & _ & _ & _ & Sk). destruct Sk' as (_ & _ & _ & _ & _ & Sk').
    assert (Lr : forall i, (i < 18)%nat ->
       low_run (u_heating_off u) on s i <= low_run (u_heating_off u') on' s' i).
    { intros i I. destruct (Sk i I) as (A1 & A2 & A3 & A4 & _).
      destruct (Sk' i I) as (B1 & B2 & B3 & B4 & _). destruct (K i I) as [K1 K2].
      unfold low_run. rewrite Ql. apply run_mono; [assumption..|apply cop_mono; lra]. }
    eapply season_mono; try exact Bd'; try assumption.
    - intros i _. apply (climate_hours u region d Hd).
    - apply Rmin_glb_lt; lra.
    - intros i I. destruct (Sk i I) as (A1 & A2 & A3 & A4 & _).
      destruct (Sk' i I) as (B1 & B2 & B3 & B4 & B5 & B6). destruct (K i I) as [K1 K2].
      rewrite Ql in B1, B5. rewrite Qf in B3, B6. specialize (LP (heat_t i)).
      unfold two_stage_bin, two_stage_heat. rewrite Cy, Cy', Ql, Qf.
      pose proof (run_bounds (u_heating_off u) on (heat_t i)
        (low_of q_at s i / low_of p_at s i)) as Rl.
      fold (low_run (u_heating_off u) on s i) in Rl.
      specialize (Lr i I) as Lri.
      assert (Fr : full_run (u_heating_off u) on s i <= full_run (u_heating_off u') on' s' i).
      { unfold full_run. rewrite Qf. apply run_mono; [assumption..|apply cop_mono; lra]. }
      pose proof (run_bounds (u_heating_off u) on (heat_t i)
        (full_of q_at s i / full_of p_at s i)) as Rf.
      fold (full_run (u_heating_off u) on s i) in Rf.
      pose proof (latest_mono (fun j => L (heat_t j)) (low_of q_at s)
        (low_run (u_heating_off u) on s) (low_run (u_heating_off u') on' s') i
        ltac:(intros j J; apply Lr; lia)) as La.
      rewrite <- (latest_ext (fun j => L (heat_t j)) (low_of q_at s) (low_of q_at s')
        (low_run (u_heating_off u') on' s') i Ql) in La.
      fold (carried (u_heating_off u) on L s i) in La.
      fold (carried (u_heating_off u') on' L s' i) in La.
      assert (Ol : 0 <= match carried (u_heating_off u) on L s i with Some x => x | None => 0 end
                   <= match carried (u_heating_off u') on' L s' i with Some x => x | None => 0 end).
      { pose proof (carried_some (u_heating_off u) on L s i) as Ca.
        destruct (carried (u_heating_off u) on L s i) as [x|],
          (carried (u_heating_off u') on' L s' i) as [y|]; try contradiction; [|lra].
        specialize (Ca x eq_refl). lra. }
      set (ol := match carried (u_heating_off u) on L s i with Some x => x | None => 0 end) in *.
      set (ol' := match carried (u_heating_off u') on' L s' i with Some x => x | None => 0 end) in *.
      set (cd := sd_cd (u_h u)) in *. set (cd' := sd_cd (u_h u')) in *.
      set (bl := L (heat_t i)) in *. set (ql := low_of q_at s i) in *.
      set (pl := low_of p_at s i) in *. set (qf := full_of q_at s i) in *.
      set (pf := full_of p_at s i) in *. set (pl' := low_of p_at s' i) in *.
      set (pf' := full_of p_at s' i) in *.
      set (rl := low_run (u_heating_off u) on s i) in *.
      set (rl' := low_run (u_heating_off u') on' s' i) in *.
      set (rf := full_run (u_heating_off u) on s i) in *.
      set (rf' := full_run (u_heating_off u') on' s' i) in *.
      assert (Lo1 : 1 <= lo') by nra.
      assert (Pl : pl' <= ql) by (apply (cop_of ql pl' lo' hi' B2) in B5; nra).
      assert (Pf : pf' <= qf) by (apply (cop_of qf pf' lo' hi' B4) in B6; nra).
      destruct (Rle_dec bl ql) as [G|G]; cbn [fst snd].
      + replace ((1 - rl') * bl) with (bl - rl' * bl) by ring.
        replace ((1 - rl) * bl) with (bl - rl * bl) by ring.
        apply bin_mono; [lra| |].
        * apply cycling_mono; try lra. apply part_unit; lra.
        * destruct (cycling_bounds0 cd' bl ql pl' lo' hi' ltac:(lra) ltac:(lra) A1 B2 L0' B5)
            as (X & Y & _). nra.
      + destruct (Rlt_dec bl qf) as [F|F]; cbn [fst snd].
        * replace ((1 - ol') * bl) with (bl - ol' * bl) by ring.
          replace ((1 - ol) * bl) with (bl - ol * bl) by ring.
          apply bin_mono; [exact Ol| |].
          -- apply line_mono; lra.
          -- rewrite <- (line_id ql qf bl ltac:(lra)) at 2. apply line_mono; lra.
        * apply bin_mono; lra.
  Qed.

  Lemma speed_cop_mono bl ql pl pl' qi pi pi' qf pf pf' :
    ql < bl < qf -> 0 < pl' <= pl -> 0 < pi' <= pi -> 0 < pf' <= pf ->
    0 < ql -> 0 <= qi -> 0 < qf ->
    speed_cop bl ql pl qi pi qf pf <= speed_cop bl ql pl' qi pi' qf pf'.
  Proof.
    intros B Pl Pi Pf Q I F. unfold speed_cop. destruct (Rle_dec bl qi);
      apply line_mono; try lra; apply cop_mono; lra.
  Qed.

  Lemma dominates_hspf_variable (u u' : U) region on on' d L credit
      H0l H1l H2i H1 H2 H3 H4 H0l' H1l' H2i' H1' H2' H3' H4' lo hi lo' hi' :
    u_staging u = VARIABLE_SPEED -> u_staging u' = VARIABLE_SPEED ->
    runs_as_often u u' on on' ->
    rated_in sol M u region d L credit -> rated_in sol' M' u' region d L credit ->
    0 < over 18 (fun i => hours_of d i * L (heat_t i)) -> 0 < credit ->
    variable_tests sol M u H0l H1l H2i H1 H2 H3 H4 ->
    variable_tests sol' M' u' H0l' H1l' H2i' H1' H2' H3' H4' ->
    same_capacity H0l H0l' -> same_capacity H1l H1l' -> same_capacity H2i H2i' ->
    same_capacity H1 H1' -> same_capacity H2 H2' -> same_capacity H3 H3' ->
    same_capacity H4 H4' ->
    0 < lo -> 1 <= (1 - sd_cd (u_h u')) * lo' ->
    speeds_ok lo hi H0l H1l H2i H1 H2 H3 H4 ->
    speeds_ok lo' hi' H0l' H1l' H2i' H1' H2' H3' H4' ->
    (forall i, (i < 18)%nat ->
       let t := heat_t i in
       p_at H0l' H1l' t <= p_at H0l H1l t
       /\ p_int_heat H0l' H1l' H2i' H2' H3' t <= p_int_heat H0l H1l H2i H2 H3 t
       /\ full_line p_at H1' H2' H3' t <= full_line p_at H1 H2 H3 t
       /\ (full_line q_at H1 H2 H3 t <= L t ->
           0 < p_at H4' H3' t <= p_at H4 H3 t /\ q_at H4 H3 t <= L t
           /\ lo <= q_at H4 H3 t / p_at H4 H3 t <= hi
           /\ lo' <= q_at H4 H3 t / p_at H4' H3' t <= hi')) ->
    exists v v', hspf sol M u region = Ok v /\ hspf sol' M' u' region = Ok v' /\ v <= v'.
  Proof.
    intros S S' (On & On' & Of & Oo & D & C) (Hd & HL & Cr) (Hd' & HL' & Cr') P C0
      (T0l & T1l & T2i & (T1 & T2 & T3) & T4) (T0l' & T1l' & T2i' & (T1' & T2' & T3') & T4')
      C0l C1l C2i C1 C2 C3 C4 L0 L1 Sk Sk' K.
    assert (L0' : 0 < lo') by nra.
    pose proof (heat_load_pos sol M u d L HL) as LP.
    assert (Qf : forall t, full_line q_at H1' H2' H3' t = full_line q_at H1 H2 H3 t)
      by (intros; apply same_full; assumption).
    assert (Ql : forall t, q_at H0l' H1l' t = q_at H0l H1l t)
      by (intros; apply same_line; assumption).
    assert (Q4 : forall t, q_at H4' H3' t = q_at H4 H3 t)
      by (intros; apply same_line; assumption).
    assert (Qi : forall t, q_int_heat H0l' H1l' H2i' H2' H3' t = q_int_heat H0l H1l H2i H2 H3 t).
    { intros t. unfold q_int_heat. rewrite Ql. destruct C0l as [_ ->], C1l as [_ ->],
        C2i as [_ ->], C2 as [_ ->], C3 as [_ ->]. reflexivity. }
    destruct (hspf_variable_total sol M u region on d H0l H1l H2i H1 H2 H3 H4 L credit lo hi)
      as (v & Hv & Ev & _); try assumption; try lra.
    { intros i I t A. destruct (K i I) as (_ & _ & _ & B). fold t in B. specialize (B A).
      repeat split; lra. }
    destruct (hspf_variable_total sol' M' u' region on' d H0l' H1l' H2i' H1' H2' H3' H4' L
      credit lo' hi') as (v' & Hv' & Ev' & Bd' & _); try assumption; try lra.
    { intros i I t A. rewrite Qf in A. rewrite Q4.
      destruct (K i I) as (_ & _ & _ & B). fold t in B. specialize (B A). repeat split; lra. }
    exists v, v'. split; [exact Hv|]. split; [exact Hv'|].
    rewrite Ev, Ev'. rewrite Ev' in Bd'.
    destruct Sk as (_ & _ & _ & _ & _ & _ & Sk). destruct Sk' as (_ & _ & _ & _ & _ & _ & Sk').
    eapply season_mono; try exact Bd'; try assumption.
    - intros i _. apply (climate_hours u region d Hd).
    - apply Rmin_glb_lt; lra.
    - intros i I. destruct (Sk i I) as (A1 & A2 & A3 & A4 & A5 & _ & A6 & _).
      destruct (Sk' i I) as (B1 & B2 & B3 & B4 & B5 & B6 & B7 & B8).
      destruct (K i I) as (K1 & K2 & K3 & K4). cbv zeta in *.
      rewrite Ql in B1, B6. rewrite Qf in B4, B8. rewrite Qi in B7. specialize (LP (heat_t i)).
      unfold variable_bin, variable_heat. rewrite Ql, Qf, Qi, Q4. clear Bd' Ev Ev' Hv Hv'.
      assert (Rm : forall c c', c <= c' ->
         0 <= run_fraction (u_heating_off u) on (heat_t i) c
         <= run_fraction (u_heating_off u') on' (heat_t i) c').
      { intros c c' X. split; [apply run_bounds|apply run_mono; assumption]. }
      set (run := run_fraction (u_heating_off u) on (heat_t i)) in *.
      set (run' := run_fraction (u_heating_off u') on' (heat_t i)) in *.
      set (cd := sd_cd (u_h u)) in *. set (cd' := sd_cd (u_h u')) in *.
      set (bl := L (heat_t i)) in *. set (ql := q_at H0l H1l (heat_t i)) in *.
      set (pl := p_at H0l H1l (heat_t i)) in *. set (pl' := p_at H0l' H1l' (heat_t i)) in *.
      set (qf := full_line q_at H1 H2 H3 (heat_t i)) in *.
      set (pf := full_line p_at H1 H2 H3 (heat_t i)) in *.
      set (pf' := full_line p_at H1' H2' H3' (heat_t i)) in *.
      set (qi := q_int_heat H0l H1l H2i H2 H3 (heat_t i)) in *.
      set (pi := p_int_heat H0l H1l H2i H2 H3 (heat_t i)) in *.
      set (pi' := p_int_heat H0l' H1l' H2i' H2' H3' (heat_t i)) in *.
      set (q4 := q_at H4 H3 (heat_t i)) in *. set (p4 := p_at H4 H3 (heat_t i)) in *.
      set (p4' := p_at H4' H3' (heat_t i)) in *.
      assert (Lo1 : 1 <= lo') by nra.
      assert (I0 : 0 < qi).
      { apply (cop_of qi pi lo hi A3) in A6. nra. }
      destruct (Rle_dec bl ql) as [G|G]; cbn [fst snd].
      + replace ((1 - run' (ql / pl')) * bl) with (bl - run' (ql / pl') * bl) by ring.
        replace ((1 - run (ql / pl)) * bl) with (bl - run (ql / pl) * bl) by ring.
        apply bin_mono; [apply Rm, cop_mono; lra| |].
        * apply cycling_mono; try lra. apply part_unit; lra.
        * destruct (cycling_bounds0 cd' bl ql pl' lo' hi' ltac:(lra) ltac:(lra) A1 B2 L0' B6)
            as (X & Y & _). nra.
      + destruct (Rlt_dec bl qf) as [F|F]; cbv zeta; cbn [fst snd].
        * assert (SC' := speed_cop_bounds bl ql pl' qi pi' qf pf' lo' hi' ltac:(lra) L0' B6 B7 B8).
          assert (SM := speed_cop_mono bl ql pl pl' qi pi pi' qf pf pf' ltac:(lra) ltac:(lra)
            ltac:(lra) ltac:(lra) A1 ltac:(lra) A4).
          assert (SP : 0 < speed_cop bl ql pl qi pi qf pf).
          { unfold speed_cop. destruct (Rle_dec bl qi); apply line_pos; try lra; apply div_pos; lra. }
          set (c := speed_cop bl ql pl qi pi qf pf) in *.
          set (c' := speed_cop bl ql pl' qi pi' qf pf') in *.
          replace ((1 - run' c') * bl) with (bl - run' c' * bl) by ring.
          replace ((1 - run c) * bl) with (bl - run c * bl) by ring.
          apply bin_mono; [apply Rm, SM| |].
          -- apply at_cop_mono; lra.
          -- assert (E : c' * (bl / c') = bl) by (field; lra).
             assert (X : 0 <= bl / c') by (apply Rle_mult_inv_pos; lra). nra.
        * destruct (K4 ltac:(lra)) as (X & Y & Z & W). apply (cop_of q4 p4' lo' hi') in W; [|lra].
          apply bin_mono; [apply Rm, cop_mono; lra|lra|nra].
  Qed.
End Hspf.
