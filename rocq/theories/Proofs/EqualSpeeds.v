(** Lemmas for C104: seasonal ratings of variable-speed units whose speeds agree. *)
From Coq Require Import Reals QArith Lra List.
From Verif.Base Require Import Num Res Tac.
From Verif.Model Require Import Units Util Psychrometrics Conditions Defrost Fan Unit BaseModel DXUnit.
From Verif.Spec Require Import UtilSpec UnitSpec SeasonSpec.
From Verif.Proofs Require Import UnitsR UnitProofs4 SeerProofs HspfProofs HspfProofs2 ToyBuild ToySeason ToySeason2.
Import ListNotations.
Local Open Scope R_scope.

Lemma along_cases (f : point R -> R) a b t :
  along f a b t = Err ZeroDivisionError
  \/ along f a b t = Ok (UnitSpec.line (pt_t a) (f a) (pt_t b) (f b) t).
Proof.
  unfold along, UnitSpec.line. cbn [nsub RNum].
  destruct (Req_dec (pt_t b - pt_t a) 0) as [E|E].
  - left. rewrite E, pydiv_zero. reflexivity.
  - right. rewrite pydiv_ok by exact E. reflexivity.
Qed.

Lemma lit87 : fr_F (T:=R) (lit 87) = deg_F 87.
Proof. rewrite fr_F_deg. f_equal. rnum. lra. Qed.
Lemma lit35 : fr_F (T:=R) (lit 35) = deg_F 35.
Proof. rewrite fr_F_deg. f_equal. rnum. lra. Qed.

Lemma slope_equal (f : point R -> R) A B Bl Fl E :
  UnitSpec.line (pt_t B) (f B) (pt_t A) (f A) (deg_F 87) = UnitSpec.line (pt_t Fl) (f Fl) (pt_t Bl) (f Bl) (deg_F 87) ->
  seer_slope f A B Bl Fl E = Err ZeroDivisionError.
Proof.
  intros H. unfold seer_slope. rewrite lit87.
  destruct (along_cases f Fl Bl (deg_F 87)) as [->| ->]; [reflexivity|]. cbn [rbind].
  destruct (along_cases f B A (deg_F 87)) as [->| ->]; [reflexivity|]. cbn [rbind].
  rewrite H. cbn [nsub RNum]. match goal with |- context [pydiv _ (?x - ?x)] => rewrite (Rminus_diag_eq x x) by reflexivity end.
  rewrite pydiv_zero. reflexivity.
Qed.

Lemma slope_zero_err (f : point R -> R) A B Bl Fl E e :
  seer_slope f A B Bl Fl E = Err e -> e = ZeroDivisionError.
Proof.
  unfold seer_slope. rewrite lit87.
  destruct (along_cases f Fl Bl (deg_F 87)) as [->| ->]; [cbn; congruence|]. cbn [rbind].
  destruct (along_cases f B A (deg_F 87)) as [->| ->]; [cbn; congruence|]. cbn [rbind].
  intros H. match type of H with rbind ?x _ = _ => destruct x eqn:D end; [discriminate|].
  cbn [rbind] in H. apply pydiv_err in D as [_ ->]. congruence.
Qed.

Lemma seer_equal sol M (u : dxunit R) A B Bl Fl E :
  u_staging u = VARIABLE_SPEED ->
  cooling_test sol M u (rc_A_full (u_conds u)) A -> cooling_test sol M u (rc_B_full (u_conds u)) B ->
  cooling_test sol M u (rc_B_low (u_conds u)) Bl -> cooling_test sol M u (rc_F_low (u_conds u)) Fl ->
  cooling_test sol M u (rc_E_int (u_conds u)) E ->
  q_at B A (deg_F 87) = q_at Fl Bl (deg_F 87) \/ p_at B A (deg_F 87) = p_at Fl Bl (deg_F 87) ->
  seer sol M u = Err ZeroDivisionError.
Proof.
  intros S TA TB TBl TFl TE H. unfold seer. rewrite S. unfold cooling_point.
  rewrite (proj1 (tested_point _ _ _ _ _) TA). cbn [rbind].
  rewrite (proj1 (tested_point _ _ _ _ _) TB). cbn [rbind].
  rewrite (proj1 (tested_point _ _ _ _ _) TBl). cbn [rbind].
  rewrite (proj1 (tested_point _ _ _ _ _) TFl). cbn [rbind].
  rewrite (proj1 (tested_point _ _ _ _ _) TE). cbn [rbind].
  destruct H as [H|H].
  - rewrite (slope_equal pt_q) by exact H. reflexivity.
  - destruct (seer_slope pt_q A B Bl Fl E) as [m|e] eqn:Q; cbn [rbind].
    + rewrite (slope_equal pt_p) by exact H. reflexivity.
    + apply slope_zero_err in Q. subst e. reflexivity.
Qed.

Lemma hslope_distinct (f : point R -> R) H0 H1l H2i H2 H3 m :
  hspf_slope f H0 H1l H2i H2 H3 = Ok m ->
  UnitSpec.line (pt_t H0) (f H0) (pt_t H1l) (f H1l) (deg_F 35) <> f H2.
Proof.
  unfold hspf_slope. rewrite lit35.
  destruct (along_cases f H0 H1l (deg_F 35)) as [->| ->]; [discriminate|]. cbn [rbind].
  intros H E. rewrite E in H. cbn [nsub RNum] in H. rewrite (Rminus_diag_eq (f H2) (f H2)) in H by reflexivity.
  rewrite pydiv_zero in H. discriminate.
Qed.

Lemma hspf_equal sol M (u : dxunit R) region H0l H1l H2 :
  u_staging u = VARIABLE_SPEED ->
  heating_test sol M u (rc_H0_low (u_conds u)) H0l -> heating_test sol M u (rc_H1_low (u_conds u)) H1l ->
  frost_test sol M u (rc_H2_full (u_conds u)) H2 ->
  q_at H0l H1l (deg_F 35) = pt_q H2 \/ p_at H0l H1l (deg_F 35) = pt_p H2 ->
  forall v, hspf sol M u region <> Ok v.
Proof.
  intros S T0 T1l T2 E v H. apply hspf_common in H.
  destruct H as (d & H1 & H2' & H3 & load & Hd & T1 & T2' & T3 & Hl & H).
  pose proof (tested_unique _ _ _ _ _ _ T2 T2'). subst H2'.
  unfold hspf_with in H. unfold heating_point, frost_point in H.
  rewrite (proj1 (tested_point _ _ _ _ _) T1) in H. cbn [rbind] in H.
  rewrite (proj1 (tested_point _ _ _ _ _) T2) in H. cbn [rbind] in H.
  rewrite (proj1 (tested_point _ _ _ _ _) T3) in H. cbn [rbind] in H.
  rewrite Hl in H. cbn [rbind] in H. rewrite S in H.
  apply rbind_ok in H. destruct H as (s & Hs & H).
  rewrite (proj1 (tested_point _ _ _ _ _) T0) in Hs. cbn [rbind] in Hs.
  rewrite (proj1 (tested_point _ _ _ _ _) T1l) in Hs. cbn [rbind] in Hs.
  apply rbind_ok in Hs. destruct Hs as (H2i & T2i & Hs).
  apply rbind_ok in Hs. destruct Hs as (H4 & T4 & Hs).
  apply rbind_ok in Hs. destruct Hs as (mq & Hmq & Hs).
  apply rbind_ok in Hs. destruct Hs as (mp & Hmp & Hs).
  apply hslope_distinct in Hmq. apply hslope_distinct in Hmp. destruct E as [E|E]; auto.
Qed.

Lemma toy_equal : exists u A B Bl Fl E H0l H1l H2,
  unit_of VARIABLE_SPEED AHRI_210_240_2023 [10000; 10000; 10000] [9000; 9000; 9000] 4 4 u
  /\ u_staging u = VARIABLE_SPEED
  /\ cooling_test lin_sol K u (rc_A_full (u_conds u)) A /\ cooling_test lin_sol K u (rc_B_full (u_conds u)) B
  /\ cooling_test lin_sol K u (rc_B_low (u_conds u)) Bl /\ cooling_test lin_sol K u (rc_F_low (u_conds u)) Fl
  /\ cooling_test lin_sol K u (rc_E_int (u_conds u)) E
  /\ q_at B A (deg_F 87) = q_at Fl Bl (deg_F 87)
  /\ heating_test lin_sol K u (rc_H0_low (u_conds u)) H0l /\ heating_test lin_sol K u (rc_H1_low (u_conds u)) H1l
  /\ frost_test lin_sol K u (rc_H2_full (u_conds u)) H2 /\ q_at H0l H1l (deg_F 35) = pt_q H2.
Proof.
  destruct (toy_3 AHRI_210_240_2023 10000 10000 10000 9000 9000 9000 4 4)
    as (u & E & (S & _) & (TA & TB & T1 & T2 & _) & (TBl & TFl & T0l & T1l & _) & (TE & _)); try lra.
  exists u. do 8 eexists. split; [exact E|]. split; [exact S|].
  split; [exact TA|]. split; [exact TB|]. split; [exact TBl|]. split; [exact TFl|]. split; [exact TE|].
  split; [rewrite !q_flat; reflexivity|]. split; [exact T0l|]. split; [exact T1l|]. split; [exact T2|].
  rewrite q_flat. reflexivity.
Qed.

Lemma staging_refuted : exists single variable v,
  unit_of SINGLE_STAGE AHRI_210_240_2023 [10000] [9000] 4 4 single
  /\ unit_of VARIABLE_SPEED AHRI_210_240_2023 [10000; 10000; 10000] [9000; 9000; 9000] 4 4 variable
  /\ seer lin_sol K single = Ok v /\ seer lin_sol K variable = Err ZeroDivisionError
  /\ (forall region w, hspf lin_sol K variable region <> Ok w).
Proof.
  destruct toy_seer_single as (u & c & cop & v & U & _ & _ & _ & _ & _ & V).
  destruct toy_equal as (u' & A & B & Bl & Fl & E & H0l & H1l & H2 & U' & S & TA & TB & TBl & TFl & TE & Q & T0 & T1 & T2 & Q').
  exists u, u', v. split; [exact U|]. split; [exact U'|]. split; [exact V|].
  split; [eapply seer_equal; eauto|]. intros region. eapply hspf_equal; eauto.
Qed.
