(** Seasonal ratings of the units of ToyBuild.v: cases that meet the hypotheses of the
    theorems, and counterexamples. *)
From Coq Require Import Reals QArith Qreals Lra Psatz Lia List Bool String.
From Verif.Base Require Import Num Res Tac.
From Verif.Model Require Import Units Util Psychrometrics Conditions Defrost Fan Curves
  Tabular Unit NREL BaseModel Title24 Resnet DXUnit.
From Verif.Spec Require Import UtilSpec UnitModels UnitSpec SeasonSpec.
From Verif.Proofs Require Import UnitsR UnitProofs3 UnitProofs4 ToyBuild ToyBuild2 SeerProofs
  ScaleProofs HspfProofs HspfProofs2 HspfProofs3 ToySeason.
Import ListNotations.
Local Open Scope R_scope.

Ltac ifs := repeat match goal with |- context [if ?b then _ else _] => destruct b end; reflexivity.

(** * Horizontal lines *)
Lemma q_flat t1 t2 q w t : q_at (at_F t1 q w) (at_F t2 q w) t = q.
Proof. unfold q_at, UnitSpec.line, at_F. cbn [pt_q pt_t]. unfold Rdiv. ring. Qed.
Lemma p_flat t1 t2 q w t : p_at (at_F t1 q w) (at_F t2 q w) t = q * w.
Proof. unfold p_at, UnitSpec.line, at_F. cbn [pt_p pt_t]. unfold Rdiv. ring. Qed.
Lemma full_q_flat a b c q w t : full_line q_at (at_F a q w) (at_F b q w) (at_F c q w) t = q.
Proof. unfold full_line. rewrite !q_flat. ifs. Qed.
Lemma full_p_flat a b c q w t :
  full_line p_at (at_F a q w) (at_F b q w) (at_F c q w) t = q * w.
Proof. unfold full_line. rewrite !p_flat. ifs. Qed.
Lemma low_q_flat a b c e q w t :
  low_line q_at (at_F a q w) (at_F b q w) (at_F c q w) (at_F e q w) t = q.
Proof. unfold low_line. rewrite !q_flat. ifs. Qed.
Lemma low_p_flat a b c e q w t :
  low_line p_at (at_F a q w) (at_F b q w) (at_F c q w) (at_F e q w) t = q * w.
Proof. unfold low_line. rewrite !p_flat. ifs. Qed.
Lemma q_int_cool_flat q1 q2 q3 w t :
  q_int_cool (at_F 95 q1 w) (at_F 82 q1 w) (at_F 82 q3 w) (at_F 67 q3 w) (at_F 87 q2 w) t = q2.
Proof. unfold q_int_cool, mixed_slope, at_F. cbn [pt_q pt_t]. unfold Rdiv. ring. Qed.
Lemma p_int_cool_flat q1 q2 q3 w t :
  p_int_cool (at_F 95 q1 w) (at_F 82 q1 w) (at_F 82 q3 w) (at_F 67 q3 w) (at_F 87 q2 w) t
  = q2 * w.
Proof. unfold p_int_cool, mixed_slope, at_F. cbn [pt_p pt_t]. unfold Rdiv. ring. Qed.
Lemma q_int_heat_flat h1 h2 h3 w t :
  q_int_heat (at_F 62 h3 w) (at_F 47 h3 w) (at_F 35 h2 w) (at_F 35 h1 w) (at_F 17 h1 w) t = h2.
Proof. unfold q_int_heat, mixed_slope, at_F. cbn [pt_q pt_t]. unfold Rdiv. ring. Qed.
Lemma p_int_heat_flat h1 h2 h3 w t :
  p_int_heat (at_F 62 h3 w) (at_F 47 h3 w) (at_F 35 h2 w) (at_F 35 h1 w) (at_F 17 h1 w) t
  = h2 * w.
Proof. unfold p_int_heat, mixed_slope, at_F. cbn [pt_p pt_t]. unfold Rdiv. ring. Qed.

Lemma at_F_neq a b q w q' w' : a <> b -> pt_t (at_F a q w) <> pt_t (at_F b q' w').
Proof. intros N C. apply N. unfold at_F, deg_F in C. cbn [pt_t] in C. lra. Qed.
Lemma cop_flat q w : 0 < q -> 0 < w -> q / (q * w) = 1 / w.
Proof. intros. field. lra. Qed.
Lemma heat_t_le i x : heat_t i <= deg_F x <-> 62 - 5 * INR i <= x.
Proof. unfold heat_t, deg_F. lra. Qed.
Lemma heat_t_lt i x : deg_F x < heat_t i <-> x < 62 - 5 * INR i.
Proof. unfold heat_t, deg_F. lra. Qed.

(** * Climates *)
Definition mille (l : list R) (k : R) (d : heating_distribution R) : Prop :=
  forall i, hours_of d i = k * nth i l 0.

Lemma HD_ok design (h : list R) c cv z : List.length h = 18%nat -> 0 < nsum h ->
  exists d k, HeatingDistribution design h c cv z = Ok d /\ 0 < k
    /\ hd_design d = design /\ hd_c d = c /\ hd_c_vs d = cv /\ hd_zero_load d = z
    /\ forall i, hours_of d i = k * nth i h 0.
Proof.
  intros Len P. unfold HeatingDistribution.
  destruct (orb _ _).
  - assert (E : rmapM (fun n => pydiv n (nsum h)) h = Ok (map (fun n => n / nsum h) h)).
    { apply rmapM_map. intros x _. apply pydiv_ok. lra. }
    rewrite E. cbn [rbind]. rewrite map_length, Len. cbn [Nat.eqb].
    eexists _, (/ nsum h). split; [reflexivity|]. split; [apply Rinv_0_lt_compat, P|].
    do 4 (split; [reflexivity|]). intros i. unfold hours_of. cbn [hd_hours].
    replace (nth i (map (fun n => n / nsum h) h) 0)
      with (nth i (map (fun n => n / nsum h) h) (0 / nsum h)) by (f_equal; unfold Rdiv; ring).
    rewrite (map_nth (fun n => n / nsum h)). unfold Rdiv. ring.
  - cbn [rbind]. rewrite Len. cbn [Nat.eqb]. eexists _, 1. split; [reflexivity|].
    split; [lra|]. do 4 (split; [reflexivity|]). intros i. unfold hours_of. cbn [hd_hours]. ring.
Qed.

Definition raw4 : list R :=
  [0.132; 0.111; 0.103; 0.093; 0.1; 0.109; 0.126; 0.087; 0.055; 0.036; 0.026; 0.013; 0.006;
   0.002; 0.001; 0; 0; 0].
Lemma hours_nth l i : nth i (hours (T:=R) l) 0 = nth i (map (fun q => Q2R q / 1000) l) 0.
Proof.
  unfold hours. revert i. induction l as [|a l IH]; intros [|i]; cbn [map nth]; auto.
  unfold lit. cbn [nq RNum]. unfold Qdiv. rewrite Q2R_mult. unfold Rdiv. f_equal.
  unfold Q2R. simpl. lra.
Qed.

Lemma nsum_hours l : nsum (hours (T:=R) l) = fold_left Rplus (map (fun q => Q2R q / 1000) l) 0.
Proof.
  unfold nsum, hours. rewrite lit0_R. generalize 0. induction l as [|a l IH]; intros x;
    cbn [map fold_left]; [reflexivity|]. rewrite IH. f_equal. cbn [nadd RNum]. f_equal.
  unfold lit. cbn [nq RNum]. unfold Qdiv. rewrite Q2R_mult. unfold Rdiv. f_equal.
  unfold Q2R. simpl. lra.
Qed.
Ltac pos_sum := rewrite nsum_hours; cbn [map fold_left]; unfold Q2R; simpl; lra.
Lemma region4_2023 (u : dxunit R) : u_standard u = AHRI_210_240_2023 ->
  exists d k, climate u 4 = Ok d /\ 0 < k /\ hd_design d = deg_F 5
    /\ hd_c d = Some 1.15 /\ hd_c_vs d = Some 1.07 /\ hd_zero_load d = Some (deg_F 55)
    /\ forall i, (2 <= i)%nat -> hours_of d i = k * nth i raw4 0.
Proof.
  intros S. unfold climate. rewrite S. unfold distribution_2023.
  match goal with |- context [HeatingDistribution ?t ?h ?c ?cv ?z] =>
    destruct (HD_ok t h c cv z eq_refl) as (d & k & E & K & E1 & E2 & E3 & E4 & E5) end.
  { pos_sum. }
  exists d, k. split; [exact E|]. split; [exact K|].
  rewrite E1, E2, E3, E4, !fr_F_deg.
  split; [f_equal; rnum; lra|]. split; [f_equal; rnum; lra|]. split; [f_equal; rnum; lra|].
  split; [do 2 f_equal; rnum; lra|]. intros i I. rewrite E5, hours_nth. f_equal.
  do 18 (destruct i as [|i]; [try lia; cbn [nth map raw4]; unfold Q2R; simpl; lra|]).
  cbn [nth map raw4]. destruct i; reflexivity.
Qed.
Lemma region4_2017 (u : dxunit R) : u_standard u = AHRI_210_240_2017 ->
  exists d k, climate u 4 = Ok d /\ 0 < k /\ hd_design d = deg_F 5
    /\ forall i, hours_of d i = k * nth i raw4 0.
Proof.
  intros S. unfold climate. rewrite S. unfold distribution_2017.
  match goal with |- context [HeatingDistribution ?t ?h ?c ?cv ?z] =>
    destruct (HD_ok t h c cv z eq_refl) as (d & k & E & K & E1 & E2 & E3 & E4 & E5) end.
  { pos_sum. }
  exists d, k. split; [exact E|]. split; [exact K|].
  rewrite E1, !fr_F_deg.
  split; [f_equal; rnum; lra|]. intros i. rewrite E5, hours_nth. f_equal.
  do 18 (destruct i as [|i]; [cbn [nth map raw4]; unfold Q2R; simpl; lra|]).
  cbn [nth map raw4]. destruct i; reflexivity.
Qed.
Lemma region1_2017 (u : dxunit R) : u_standard u = AHRI_210_240_2017 ->
  exists d k, climate u 1 = Ok d /\ 0 < k /\ hd_design d = deg_F 37.
Proof.
  intros S. unfold climate. rewrite S. unfold distribution_2017.
  match goal with |- context [HeatingDistribution ?t ?h ?c ?cv ?z] =>
    destruct (HD_ok t h c cv z eq_refl) as (d & k & E & K & E1 & E2 & E3 & E4 & E5) end.
  { pos_sum. }
  exists d, k. split; [exact E|]. split; [exact K|].
  rewrite E1, !fr_F_deg. f_equal; rnum; lra.
Qed.

(** * Loads *)
Definition load23 (c qA t : R) : R := Rmax (c * qA * ((deg_F 55 - t) / (deg_F 55 - deg_F 5))) 0.
Lemma load23_bin c qA i : load23 c qA (heat_t i) = Rmax (c * qA * ((5 * INR i - 7) / 50)) 0.
Proof. unfold load23, heat_t, deg_F. f_equal. field; lra. Qed.
Lemma has_load23 (u : dxunit R) st off q h gc gh d c :
  plain st AHRI_210_240_2023 off u -> full_tests u q h gc gh ->
  hd_design d = deg_F 5 -> hd_zero_load d = Some (deg_F 55) ->
  match st with VARIABLE_SPEED => hd_c_vs d | _ => hd_c d end = Some c ->
  heat_load lin_sol K u d (load23 c q).
Proof.
  intros (S & _ & Std & _) (A & _) D Z C. unfold heat_load. rewrite Std, S.
  destruct A as (cA & CA & _ & QA & _).
  exists c, (deg_F 55), cA, q. split; [exact C|]. split; [exact Z|]. split; [exact CA|].
  split; [exact QA|]. split; [rewrite D; unfold deg_F; lra|]. intros t. rewrite D. reflexivity.
Qed.

Lemma nearest_first v : v <= Btu_h 5000 -> first_nearest design_requirements v (Btu_h 5000).
Proof.
  intros V. exists 0%nat. split; [reflexivity|]. split; [|intros; lia].
  intros x X. unfold design_requirements in X. apply in_map_iff in X.
  destruct X as (y & <- & Y).
  assert (5000 <= y) by (cbn [In] in Y; repeat (destruct Y as [<-|Y]; [lra|]); contradiction).
  assert (Btu_h 5000 <= Btu_h y) by (unfold Btu_h; lra).
  rewrite !Rabs_pos_eq by lra. lra.
Qed.
Definition load17 (tod t : R) : R :=
  Rmax (0.77 * Btu_h 5000 * ((deg_F 65 - t) / (deg_F 65 - deg_F tod))) 0.
Lemma load17_bin tod i : tod <> 65 ->
  load17 tod (heat_t i) = Rmax (0.77 * Btu_h 5000 * ((3 + 5 * INR i) / (65 - tod))) 0.
Proof. intros N. unfold load17, heat_t, deg_F. f_equal. field. lra. Qed.
Lemma has_load17 (u : dxunit R) st off q h gc gh d tod :
  plain st AHRI_210_240_2017 off u -> full_tests u q h gc gh -> tod <> 65 ->
  hd_design d = deg_F tod -> h * (65 - tod) / 60 <= Btu_h 5000 ->
  heat_load lin_sol K u d (load17 tod).
Proof.
  intros (S & _ & Std & _) (_ & _ & H1 & _) N D Hh. unfold heat_load. rewrite Std.
  exists (at_F 47 h (wh gh)), (Btu_h 5000). split; [exact H1|].
  split; [|split; [rewrite D; unfold deg_F; lra|]].
  - apply nearest_first. cbn [pt_q at_F]. rewrite D. 
    replace (h * (deg_F 65 - deg_F tod) / (deg_F 60 - deg_F 0)) with (h * (65 - tod) / 60);
      [exact Hh|unfold deg_F; field; lra].
  - intros t. rewrite D. reflexivity.
Qed.

(** * Cooling season *)
Notation unit_of st std qc qh gc gh u :=
  (DXUnit lin_psy lin_sol K (toy_args st std qc qh gc gh) = Ok u).

Lemma toy_seer_single : exists u c cop v,
  unit_of SINGLE_STAGE AHRI_210_240_2023 [10000] [9000] 4 4 u
  /\ u_staging u = SINGLE_STAGE /\ rc_B_full (u_conds u) = Some c
  /\ net_total_cooling_cop lin_sol K u (Some c) = Ok cop /\ 0 < cop
  /\ 0 < sd_cd (u_c u) <= 1 /\ seer lin_sol K u = Ok v.
Proof.
  destruct (toy_1 AHRI_210_240_2023 10000 9000 4 4) as (u & E & (S & _ & _ & _ & _ & Cd & _)
    & (_ & (c & C & _ & QB & PB) & _) & _); try lra.
  destruct (wc_bounds 4 ltac:(lra)) as [W1 W2].
  cbn [pt_q pt_p at_F] in QB, PB.
  assert (N : net_total_cooling_cop lin_sol K u (Some c) = Ok (10000 / (10000 * wc 4))).
  { unfold net_total_cooling_cop, both. rewrite QB. cbn [rbind]. rewrite PB. cbn [rbind].
    apply pydiv_ok. apply Rgt_not_eq. lra. }
  exists u, c, (10000 / (10000 * wc 4)). eexists.
  split; [exact E|]. split; [exact S|]. split; [exact C|]. split; [exact N|].
  split; [apply Rdiv_lt_0_compat; lra|]. split; [rewrite Cd; lra|].
  apply (seer_single lin_sol K u c _ S C N).
Qed.

Lemma flat_range q w : 0 < q -> 0 < w -> 1 / w <= q / (q * w) <= 1 / w.
Proof. intros. rewrite cop_flat by assumption. lra. Qed.

Lemma toy_seer_two : exists u A B Bl Fl lo hi,
  unit_of TWO_STAGE AHRI_210_240_2023 [10000; 7000] [9000; 6000] 4 4 u
  /\ u_staging u = TWO_STAGE
  /\ cooling_test lin_sol K u (rc_A_full (u_conds u)) A
  /\ cooling_test lin_sol K u (rc_B_full (u_conds u)) B
  /\ cooling_test lin_sol K u (rc_B_low (u_conds u)) Bl
  /\ cooling_test lin_sol K u (rc_F_low (u_conds u)) Fl
  /\ pt_t Bl <> pt_t Fl /\ pt_t A <> pt_t B
  /\ 0 <= sd_cd (u_c u) < 1 /\ 0 < pt_q A /\ 0 < lo
  /\ (forall i, (i < 8)%nat ->
       let t := cool_t i in
       0 < q_at Fl Bl t <= q_at B A t /\ 0 < p_at Fl Bl t /\ 0 < p_at B A t
       /\ lo <= q_at Fl Bl t / p_at Fl Bl t <= hi
       /\ lo <= q_at B A t / p_at B A t <= hi).
Proof.
  destruct (toy_2 AHRI_210_240_2023 10000 7000 9000 6000 4 4) as (u & E
    & (S & _ & _ & _ & _ & Cd & _) & (TA & TB & _) & (TBl & TFl & _)); try lra.
  destruct (wc_bounds 4 ltac:(lra)) as [W1 W2].
  exists u, (at_F 95 10000 (wc 4)), (at_F 82 10000 (wc 4)), (at_F 82 7000 (wc 4)),
    (at_F 67 7000 (wc 4)), (1 / wc 4), (1 / wc 4).
  split; [exact E|]. split; [exact S|]. do 4 (split; [assumption|]).
  do 2 (split; [apply at_F_neq; lra|]). split; [rewrite Cd; lra|].
  split; [cbn [pt_q at_F]; lra|]. split; [apply Rdiv_lt_0_compat; lra|].
  intros i I. cbv zeta. rewrite !q_flat, !p_flat.
  split; [lra|]. split; [lra|]. split; [lra|]. split; apply flat_range; lra.
Qed.

Lemma toy_seer_variable : exists u A B Bl Fl E lo hi,
  unit_of VARIABLE_SPEED AHRI_210_240_2023 [10000; 7000; 4000] [9000; 6000; 3000] 4 4 u
  /\ u_staging u = VARIABLE_SPEED
  /\ cooling_test lin_sol K u (rc_A_full (u_conds u)) A
  /\ cooling_test lin_sol K u (rc_B_full (u_conds u)) B
  /\ cooling_test lin_sol K u (rc_B_low (u_conds u)) Bl
  /\ cooling_test lin_sol K u (rc_F_low (u_conds u)) Fl
  /\ cooling_test lin_sol K u (rc_E_int (u_conds u)) E
  /\ pt_t Bl <> pt_t Fl /\ pt_t A <> pt_t B
  /\ p_at B A (deg_F 87) <> p_at Fl Bl (deg_F 87)
  /\ 0 <= sd_cd (u_c u) < 1 /\ 0 < pt_q A /\ 0 < lo
  /\ (forall i, (i < 8)%nat ->
       let t := cool_t i in
       let ql := q_at Fl Bl t in let pl := p_at Fl Bl t in
       let qi := q_int_cool A B Bl Fl E t in let pi := p_int_cool A B Bl Fl E t in
       let qf := q_at B A t in let pf := p_at B A t in
       0 < ql <= qi /\ qi < qf /\ 0 < pl /\ 0 < pi /\ 0 < pf
       /\ lo <= ql / pl <= hi /\ lo <= qi / pi <= hi /\ lo <= qf / pf <= hi).
Proof.
  destruct (toy_3 AHRI_210_240_2023 10000 7000 4000 9000 6000 3000 4 4) as (u & E
    & (S & _ & _ & _ & _ & Cd & _) & (TA & TB & _) & (TBl & TFl & _) & (TE & _)); try lra.
  destruct (wc_bounds 4 ltac:(lra)) as [W1 W2].
  exists u, (at_F 95 10000 (wc 4)), (at_F 82 10000 (wc 4)), (at_F 82 4000 (wc 4)),
    (at_F 67 4000 (wc 4)), (at_F 87 7000 (wc 4)), (1 / wc 4), (1 / wc 4).
  split; [exact E|]. split; [exact S|]. do 5 (split; [assumption|]).
  do 2 (split; [apply at_F_neq; lra|]). split; [rewrite !p_flat; apply Rgt_not_eq; lra|].
  split; [rewrite Cd; lra|].
  split; [cbn [pt_q at_F]; lra|]. split; [apply Rdiv_lt_0_compat; lra|].
  intros i I. cbv zeta. rewrite q_int_cool_flat, p_int_cool_flat, !q_flat, !p_flat.
  do 5 (split; [lra|]). split; [|split]; apply flat_range; lra.
Qed.

(** * Scaling *)
Lemma flat_scaled k cap pow cap' pow' (u u' : dxunit R) get t q q' w :
  tested cap pow u (get (u_conds u)) (at_F t q w) ->
  tested cap' pow' u' (get (u_conds u')) (at_F t q' w) -> q' = k * q ->
  scaled_test k cap pow cap' pow' u u' get.
Proof.
  intros (c & C & T & Q & P) (c' & C' & T' & Q' & P') ->. unfold scaled_test.
  rewrite C, C', Q, Q', P, P'. cbn [scaled pt_q pt_p pt_t at_F] in *.
  split; [congruence|]. split; ring.
Qed.
Lemma none_scaled k cap pow cap' pow' (u u' : dxunit R) get :
  get (u_conds u) = None -> get (u_conds u') = None ->
  scaled_test k cap pow cap' pow' u u' get.
Proof. intros A B. unfold scaled_test. rewrite A, B. exact I. Qed.

Ltac fs := solve [eapply flat_scaled; [eassumption|eassumption|lra]].
Lemma toy_scale : exists u u',
  unit_of VARIABLE_SPEED AHRI_210_240_2023 [10000; 7000; 4000] [9000; 6000; 3000] 4 4 u
  /\ unit_of VARIABLE_SPEED AHRI_210_240_2023 [5000; 3500; 2000] [4500; 3000; 1500] 4 4 u'
  /\ u_staging u' = u_staging u /\ u_cycling u' = u_cycling u
  /\ sd_cd (u_c u') = sd_cd (u_c u) /\ sd_cd (u_h u') = sd_cd (u_h u)
  /\ u_heating_off u' = u_heating_off u /\ u_heating_on u' = u_heating_on u
  /\ u_standard u = AHRI_210_240_2023 /\ u_standard u' = AHRI_210_240_2023
  /\ demand_credit (u_defrost u') = demand_credit (u_defrost u)
  /\ scaled_test (1 / 2) (net_total_cooling_capacity lin_sol K) (net_cooling_power lin_sol K)
      (net_total_cooling_capacity lin_sol K) (net_cooling_power lin_sol K) u u' rc_A_full
  /\ scaled_cooling (1 / 2) lin_sol K u lin_sol K u'
  /\ scaled_heating (1 / 2) lin_sol K u lin_sol K u'.
Proof.
  destruct (toy_3 AHRI_210_240_2023 10000 7000 4000 9000 6000 3000 4 4) as (u & E
    & (S1 & S2 & S3 & S4 & S5 & S6 & S7 & S8) & (TA & TB & T1 & T2 & T3 & T4)
    & (TBl & TFl & T0l & T1l & T2l & T3l) & (TE & T2i)); try lra.
  destruct (toy_3 AHRI_210_240_2023 5000 3500 2000 4500 3000 1500 4 4) as (u' & E'
    & (S1' & S2' & S3' & S4' & S5' & S6' & S7' & S8') & (TA' & TB' & T1' & T2' & T3' & T4')
    & (TBl' & TFl' & T0l' & T1l' & T2l' & T3l') & (TE' & T2i')); try lra.
  exists u, u'. split; [exact E|]. split; [exact E'|].
  split; [congruence|]. split; [congruence|]. split; [congruence|]. split; [congruence|].
  split; [congruence|]. split; [congruence|]. split; [exact S3|]. split; [exact S3'|].
  split; [congruence|]. split; [fs|].
  split; [repeat (constructor; [fs|]); constructor|].
  split; repeat (constructor; [fs|]); constructor.
Qed.

(** ** 2017: the design requirement does not scale *)
Lemma over_sub n f g : over n (fun i => f i - g i) = over n f - over n g.
Proof. induction n; [unfold over, total; simpl; lra|]. rewrite !over_S, IHn. lra. Qed.
Lemma load17_big i : 10 < load17 5 (heat_t i).
Proof.
  rewrite load17_bin by lra. apply Rlt_le_trans with (0.77 * Btu_h 5000 * ((3 + 5 * INR i) / (65 - 5)));
    [|apply Rmax_l].
  pose proof (pos_INR i). unfold Btu_h. lra.
Qed.
Definition run0 (i : nat) : R := run_fraction (deg_F (Q2R 0)) (deg_F (Q2R 0)) (heat_t i) (1 / wh 4).
Lemma toy_2017 d q : distribution_2017 (T:=R) 4 = Ok d -> hd_design d = deg_F 5 ->
  (forall i, 0 <= hours_of d i) -> 0 < hours_of d 0 -> 0 < q <= 10 ->
  let Q := over 18 (fun i => hours_of d i * load17 5 (heat_t i)) in
  let D := over 18 (fun i => hours_of d i * run0 i) in
  exists u,
    unit_of SINGLE_STAGE AHRI_210_240_2017 [q] [q] 4 4 u
    /\ plain SINGLE_STAGE AHRI_210_240_2017 (Q2R 0) u /\ full_tests u q q 4 4
    /\ one_speed (u_conds u)
    /\ hspf lin_sol K u 4 = Ok (Btu_Wh (Q / (Q - q * (1 - wh 4) * D))).
Proof.
  intros Hd Dd Hp H0 Bq Q D.
  destruct (toy_1 AHRI_210_240_2017 q q 4 4) as (u & E & Pl & Ft & Os); try lra.
  exists u. do 4 (split; [assumption|]).
  destruct (wh_bounds 4 ltac:(lra)) as [W1 W2]. set (w := wh 4) in *.
  pose proof Pl as (S1 & S2 & S3 & S4 & S5 & S6 & S7 & S8).
  pose proof Ft as (TA & TB & T1 & T2 & T3 & T4). fold w in T1, T2, T3.
  assert (Cl : climate u 4 = Ok d) by (unfold climate; rewrite S3; exact Hd).
  assert (HL : heat_load lin_sol K u d (load17 5)).
  { apply (has_load17 u SINGLE_STAGE (Q2R 0) q q 4 4); auto; try lra. unfold Btu_h. lra. }
  assert (Qp : 0 < Q).
  { apply (over_some 18 _ 0%nat); [lia| |].
    - pose proof (load17_big 0). nra.
    - intros i _. pose proof (load17_big i). specialize (Hp i). nra. }
  destruct (hspf_single_total lin_sol K u 4 (deg_F (Q2R 0)) d _ _ _ (load17 5) 1 (1 / w) (1 / w)
    S1 S5 Cl T1 T2 T3) as (v & V1 & V2 & _); auto; try lra;
    try (apply at_F_neq; lra).
  { apply Rdiv_lt_0_compat; lra. }
  { intros i _. cbv zeta. rewrite full_q_flat, full_p_flat. split; [lra|]. split; [nra|].
    apply flat_range; lra. }
  rewrite V1, V2. unfold seasonal_heating. fold Q. do 2 f_equal.
  replace (over 18 (fun i => hours_of d i * single_energy _ _ _ _ _ _ _ i)
     + over 18 (fun i => hours_of d i * single_resistance _ _ _ _ _ _ i))
    with (Q - q * (1 - w) * D); [lra|].
  rewrite <- over_add. unfold Q, D.
  replace (q * (1 - w) * over 18 (fun i => hours_of d i * run0 i))
    with (over 18 (fun i => q * (1 - w) * (hours_of d i * run0 i))) by apply over_scale.
  rewrite <- over_sub. apply over_ext. intros i _.
  unfold single_energy, single_resistance, single_heat, single_run.
  rewrite full_q_flat, full_p_flat, S4, cop_flat by lra.
  pose proof (load17_big i) as B. unfold load_factor, cycling.
  destruct (Rlt_dec (load17 5 (heat_t i)) q); [lra|].
  rewrite Rmin_right by lra. unfold run0. fold w. field.
Qed.

Lemma toy_2017_differ : exists u u' v v',
  unit_of SINGLE_STAGE AHRI_210_240_2017 [10] [10] 4 4 u
  /\ unit_of SINGLE_STAGE AHRI_210_240_2017 [1] [1] 4 4 u'
  /\ u_standard u = AHRI_210_240_2017 /\ u_standard u' = AHRI_210_240_2017
  /\ u_staging u' = u_staging u /\ u_cycling u' = u_cycling u
  /\ sd_cd (u_h u') = sd_cd (u_h u)
  /\ u_heating_off u' = u_heating_off u /\ u_heating_on u' = u_heating_on u
  /\ demand_credit (u_defrost u') = demand_credit (u_defrost u)
  /\ scaled_cooling (1 / 10) lin_sol K u lin_sol K u'
  /\ scaled_heating (1 / 10) lin_sol K u lin_sol K u'
  /\ hspf lin_sol K u 4 = Ok v /\ hspf lin_sol K u' 4 = Ok v' /\ v <> v'.
Proof.
  destruct (toy_1 AHRI_210_240_2017 10 10 4 4) as (u0 & _ & (_ & _ & S3 & _) & _); try lra.
  destruct (region4_2017 u0 S3) as (d & k & Cl & Kp & Dd & Hh).
  assert (Hp : forall i, 0 <= hours_of d i) by (apply (climate_hours u0 4 d Cl)).
  assert (Hd : distribution_2017 (T:=R) 4 = Ok d) by (unfold climate in Cl; rewrite S3 in Cl; exact Cl).
  assert (H0 : 0 < hours_of d 0) by (rewrite Hh; cbn [nth raw4]; lra).
  destruct (wh_bounds 4 ltac:(lra)) as [W1 W2].
  assert (R0 : run0 0 = 1).
  { unfold run0, run_fraction.
    destruct (Rle_dec (heat_t 0) (deg_F (Q2R 0))) as [A|A];
      [apply heat_t_le in A; unfold Q2R in A; simpl in A; lra|].
    destruct (Rlt_dec (1 / wh 4) 1) as [B|B].
    - exfalso. apply (Rmult_lt_compat_r (wh 4)) in B; [|lra].
      replace (1 / wh 4 * wh 4) with 1 in B by (field; lra). lra.
    - destruct (Rlt_dec (deg_F (Q2R 0)) (heat_t 0)) as [C|C]; [reflexivity|].
      exfalso. apply C, heat_t_lt. unfold Q2R. simpl. lra. }
  assert (Rb : forall i, 0 <= run0 i <= 1) by (intros i; apply run_bounds).
  destruct (toy_2017 d 10 Hd Dd Hp H0) as (u & E & Pl & Ft & Os & V); [lra|].
  destruct (toy_2017 d 1 Hd Dd Hp H0) as (u' & E' & Pl' & Ft' & Os' & V'); [lra|].
  set (Q := over 18 (fun i => hours_of d i * load17 5 (heat_t i))) in *.
  set (D := over 18 (fun i => hours_of d i * run0 i)) in *.
  destruct Pl as (S1 & S2 & St & S4 & S5 & S6 & S7 & S8).
  destruct Pl' as (S1' & S2' & St' & S4' & S5' & S6' & S7' & S8').
  destruct Ft as (TA & TB & T1 & T2 & T3 & T4). destruct Ft' as (TA' & TB' & T1' & T2' & T3' & T4').
  destruct Os as (O1 & O2 & O3 & O4 & O5 & O6 & O7 & O8).
  destruct Os' as (O1' & O2' & O3' & O4' & O5' & O6' & O7' & O8').
  eexists u, u', _, _. split; [exact E|]. split; [exact E'|]. split; [exact St|]. split; [exact St'|].
  do 6 (split; [congruence|]).
  split; [repeat (constructor; [first [fs|apply none_scaled; assumption]|]); constructor|].
  split; [split; repeat (constructor; [first [fs|apply none_scaled; assumption]|]); constructor|].
  split; [exact V|]. split; [exact V'|].
  assert (Dp : 0 < D).
  { apply (over_some 18 _ 0%nat); [lia|rewrite R0; lra|]. intros i _.
    specialize (Hp i). specialize (Rb i). nra. }
  assert (Big : 10 * D < Q).
  { unfold Q, D. rewrite <- over_scale. apply Rminus_gt_0_lt.
    replace (over 18 (fun i => hours_of d i * load17 5 (heat_t i))
             - over 18 (fun i => 10 * (hours_of d i * run0 i)))
      with (over 18 (fun i => hours_of d i * (load17 5 (heat_t i) - 10 * run0 i))).
    - apply (over_some 18 _ 0%nat); [lia| |].
      + rewrite R0. pose proof (load17_big 0). nra.
      + intros i _. pose proof (load17_big i). specialize (Hp i). specialize (Rb i). nra.
    - rewrite <- over_sub. apply over_ext. intros. ring. }
  set (a := (1 - wh 4) * D).
  assert (Ap : 0 < a) by (unfold a; nra). assert (A10 : a < D) by (unfold a; nra).
  replace (10 * (1 - wh 4) * D) with (10 * a) by (unfold a; ring).
  replace (1 * (1 - wh 4) * D) with a by (unfold a; ring).
  intros C.
  assert (C1 : Q / (Q - 10 * a) = Q / (Q - a)) by (unfold Btu_Wh in C; lra).
  assert (C2 : Q * (Q - a) = Q * (Q - 10 * a)).
  { apply (f_equal (fun z => z * (Q - 10 * a) * (Q - a))) in C1.
    replace (Q / (Q - 10 * a) * (Q - 10 * a) * (Q - a)) with (Q * (Q - a)) in C1 by (field; lra).
    replace (Q / (Q - a) * (Q - 10 * a) * (Q - a)) with (Q * (Q - 10 * a)) in C1 by (field; lra).
    exact C1. }
  nra.
Qed.

(** * Heating season *)
Lemma wh_cop g : 2 <= g -> 1 < 1 / wh g.
Proof.
  intros G. destruct (wh_bounds g G) as [W1 W2]. apply (Rmult_lt_reg_r (wh g)); [lra|].
  replace (1 / wh g * wh g) with 1 by (field; lra). lra.
Qed.
Lemma load_sum d k c qA : 0 < k -> (forall i, (2 <= i)%nat -> hours_of d i = k * nth i raw4 0) ->
  (forall i, 0 <= hours_of d i) -> 0 < c -> 0 < qA ->
  0 < over 18 (fun i => hours_of d i * load23 c qA (heat_t i)).
Proof.
  intros Kp Hh Hp C Q. apply (over_some 18 _ 4%nat); [lia| |].
  - rewrite Hh by lia. cbn [nth raw4]. rewrite load23_bin.
    apply Rmult_lt_0_compat; [lra|]. eapply Rlt_le_trans; [|apply Rmax_l].
    apply Rmult_lt_0_compat; [nra|]. cbn [INR]. lra.
  - intros i _. apply Rmult_le_pos; [apply Hp|apply Rmax_r].
Qed.

Lemma toy_hspf_single : exists u on d H1 H2 H3 L credit lo hi,
  unit_of SINGLE_STAGE AHRI_210_240_2023 [10000] [9000] 4 4 u
  /\ u_staging u = SINGLE_STAGE /\ u_heating_on u = Some on
  /\ climate u 4 = Ok d
  /\ heating_test lin_sol K u (rc_H1_full (u_conds u)) H1
  /\ frost_test lin_sol K u (rc_H2_full (u_conds u)) H2
  /\ heating_test lin_sol K u (rc_H3_full (u_conds u)) H3
  /\ pt_t H1 <> pt_t H3 /\ pt_t H2 <> pt_t H3
  /\ heat_load lin_sol K u d L /\ 0 < over 18 (fun i => hours_of d i * L (heat_t i))
  /\ demand_credit (u_defrost u) = Ok credit /\ 0 < credit
  /\ 0 <= sd_cd (u_h u) < 1 /\ 1 < lo
  /\ (forall i, (i < 18)%nat ->
       let q := full_line q_at H1 H2 H3 (heat_t i) in
       let p := full_line p_at H1 H2 H3 (heat_t i) in
       0 < q /\ 0 < p /\ lo <= q / p <= hi)
  /\ heat_t 14 <= u_heating_off u /\ 0 < hours_of d 14.
Proof.
  destruct (toy_1 AHRI_210_240_2023 10000 9000 4 4) as (u & E & Pl & Ft & _); try lra.
  destruct (wh_bounds 4 ltac:(lra)) as [W1 W2].
  pose proof Pl as (S1 & S2 & S3 & S4 & S5 & S6 & S7 & S8).
  pose proof Ft as (TA & TB & T1 & T2 & T3 & T4).
  destruct (region4_2023 u S3) as (d & k & Cl & Kp & Dd & C1 & C2 & Z & Hh).
  exists u, (deg_F (Q2R 0)), d, (at_F 47 9000 (wh 4)), (at_F 35 9000 (wh 4)),
    (at_F 17 9000 (wh 4)), (load23 1.15 10000), 1, (1 / wh 4), (1 / wh 4).
  split; [exact E|]. split; [exact S1|]. split; [exact S5|]. split; [exact Cl|].
  split; [exact T1|]. split; [exact T2|]. split; [exact T3|].
  split; [apply at_F_neq; lra|]. split; [apply at_F_neq; lra|].
  split; [apply (has_load23 u SINGLE_STAGE (Q2R 0) 10000 9000 4 4); auto|].
  split; [apply (load_sum d k); auto; try lra; apply (climate_hours u 4 d Cl)|].
  split; [exact S8|]. split; [lra|]. split; [rewrite S7; lra|]. split; [apply wh_cop; lra|].
  split; [|split].
  - intros i _. cbv zeta. rewrite full_q_flat, full_p_flat. split; [lra|]. split; [lra|].
    apply flat_range; lra.
  - rewrite S4. apply heat_t_le. unfold Q2R. cbn [INR]. simpl. lra.
  - rewrite Hh by lia. cbn [nth raw4]. lra.
Qed.

Definition stages_F (h1 h2 w : R) : stage_tests :=
  mkStages (at_F 62 h2 w) (at_F 47 h2 w) (at_F 35 h2 w) (at_F 17 h2 w)
    (at_F 47 h1 w) (at_F 35 h1 w) (at_F 17 h1 w).
Lemma low_q_F h1 h2 w i : low_of q_at (stages_F h1 h2 w) i = h2.
Proof. apply low_q_flat. Qed.
Lemma low_p_F h1 h2 w i : low_of p_at (stages_F h1 h2 w) i = h2 * w.
Proof. apply low_p_flat. Qed.
Lemma full_q_F h1 h2 w i : full_of q_at (stages_F h1 h2 w) i = h1.
Proof. apply full_q_flat. Qed.
Lemma full_p_F h1 h2 w i : full_of p_at (stages_F h1 h2 w) i = h1 * w.
Proof. apply full_p_flat. Qed.
Lemma stages_F_ok h1 h2 w : 0 < h1 -> 0 < h2 -> 0 < w -> stages_ok (1 / w) (1 / w) (stages_F h1 h2 w).
Proof.
  intros. unfold stages_ok. cbn [s_H1 s_H2 s_H3 s_H0l s_H1l s_H2l s_H3l stages_F].
  do 5 (split; [apply at_F_neq; lra|]). intros i _.
  rewrite low_q_F, low_p_F, full_q_F, full_p_F.
  split; [lra|]. split; [nra|]. split; [lra|]. split; [nra|]. split; apply flat_range; assumption.
Qed.

(** The common part of the two-stage examples. *)
Lemma two_tests (u : dxunit R) q1 q2 h1 h2 gc gh :
  full_tests u q1 h1 gc gh -> low_tests u q2 h2 gc gh ->
  let s := stages_F h1 h2 (wh gh) in
  heating_test lin_sol K u (rc_H0_low (u_conds u)) (s_H0l s)
  /\ heating_test lin_sol K u (rc_H1_low (u_conds u)) (s_H1l s)
  /\ frost_test lin_sol K u (rc_H2_low (u_conds u)) (s_H2l s)
  /\ heating_test lin_sol K u (rc_H3_low (u_conds u)) (s_H3l s)
  /\ heating_test lin_sol K u (rc_H1_full (u_conds u)) (s_H1 s)
  /\ frost_test lin_sol K u (rc_H2_full (u_conds u)) (s_H2 s)
  /\ heating_test lin_sol K u (rc_H3_full (u_conds u)) (s_H3 s).
Proof.
  intros (TA & TB & T1 & T2 & T3 & T4) (TBl & TFl & T0l & T1l & T2l & T3l) s.
  cbn [s_H1 s_H2 s_H3 s_H0l s_H1l s_H2l s_H3l stages_F s]. do 6 (split; [assumption|]). assumption.
Qed.

(** A two-stage unit whose bin at -3 F, below the cut-out, is between the stages. *)
Lemma toy_hspf_two : exists u on d s L credit lo hi,
  unit_of TWO_STAGE AHRI_210_240_2023 [5000; 3500] [9000; 4000] 4 4 u
  /\ u_staging u = TWO_STAGE /\ u_cycling u = BETWEEN_LOW_FULL /\ u_heating_on u = Some on
  /\ climate u 4 = Ok d
  /\ heating_test lin_sol K u (rc_H0_low (u_conds u)) (s_H0l s)
  /\ heating_test lin_sol K u (rc_H1_low (u_conds u)) (s_H1l s)
  /\ frost_test lin_sol K u (rc_H2_low (u_conds u)) (s_H2l s)
  /\ heating_test lin_sol K u (rc_H3_low (u_conds u)) (s_H3l s)
  /\ heating_test lin_sol K u (rc_H1_full (u_conds u)) (s_H1 s)
  /\ frost_test lin_sol K u (rc_H2_full (u_conds u)) (s_H2 s)
  /\ heating_test lin_sol K u (rc_H3_full (u_conds u)) (s_H3 s)
  /\ heat_load lin_sol K u d L /\ 0 < over 18 (fun i => hours_of d i * L (heat_t i))
  /\ L (heat_t 0) <= low_of q_at s 0
  /\ demand_credit (u_defrost u) = Ok credit /\ 0 < credit
  /\ 0 <= sd_cd (u_h u) < 1 /\ 1 < lo /\ stages_ok lo hi s
  /\ heat_t 13 <= u_heating_off u /\ 0 < hours_of d 13
  /\ low_of q_at s 13 < L (heat_t 13) < full_of q_at s 13
  /\ let bin := two_stage_bin (u_cycling u) (u_heating_off u) on (sd_cd (u_h u)) L s in
     0 < fst (bin 13%nat) /\ snd (bin 13%nat) = 0.
Proof.
  destruct (toy_2 AHRI_210_240_2023 5000 3500 9000 4000 4 4) as (u & E & Pl & Ft & Lt); try lra.
  destruct (wh_bounds 4 ltac:(lra)) as [W1 W2].
  pose proof Pl as (S1 & S2 & S3 & S4 & S5 & S6 & S7 & S8).
  destruct (two_tests u 5000 3500 9000 4000 4 4 Ft Lt) as (T0l & T1l & T2l & T3l & T1 & T2 & T3).
  destruct (region4_2023 u S3) as (d & k & Cl & Kp & Dd & C1 & C2 & Z & Hh).
  exists u, (deg_F (Q2R 0)), d, (stages_F 9000 4000 (wh 4)), (load23 1.15 5000), 1,
    (1 / wh 4), (1 / wh 4).
  split; [exact E|]. split; [exact S1|]. split; [exact S2|]. split; [exact S5|].
  split; [exact Cl|]. do 7 (split; [assumption|]).
  split; [apply (has_load23 u TWO_STAGE (Q2R 0) 5000 9000 4 4); auto|].
  split; [apply (load_sum d k); auto; try lra; apply (climate_hours u 4 d Cl)|].
  assert (Lv : forall i, load23 1.15 5000 (heat_t i) = Rmax (115 * (5 * INR i - 7)) 0).
  { intros i. rewrite load23_bin. f_equal. lra. }
  assert (L13 : load23 1.15 5000 (heat_t 13) = 6670).
  { rewrite Lv. cbn [INR]. rewrite Rmax_left; lra. }
  split.
  { rewrite Lv, low_q_F. cbn [INR]. rewrite Rmax_right; lra. }
  split; [exact S8|]. split; [lra|]. split; [rewrite S7; lra|]. split; [apply wh_cop; lra|].
  split; [apply stages_F_ok; lra|].
  split; [rewrite S4; apply heat_t_le; unfold Q2R; cbn [INR]; simpl; lra|].
  split; [rewrite Hh by lia; cbn [nth raw4]; lra|].
  split; [rewrite low_q_F, full_q_F, L13; lra|].
  cbv zeta. unfold two_stage_bin, two_stage_heat. rewrite S2, S4, low_q_F, low_p_F, full_q_F, full_p_F, L13.
  destruct (Rle_dec 6670 4000); [lra|]. destruct (Rlt_dec 6670 9000); [|lra].
  assert (Ca : carried (deg_F (Q2R 0)) (deg_F (Q2R 0)) (load23 1.15 5000)
                 (stages_F 9000 4000 (wh 4)) 13 = Some 1).
  { unfold carried.
    assert (No : forall j, (9 <= j)%nat -> ~ load23 1.15 5000 (heat_t j)
               <= low_of q_at (stages_F 9000 4000 (wh 4)) j).
    { intros j J. rewrite Lv, low_q_F. apply le_INR in J. cbn [INR] in J.
      rewrite Rmax_left; lra. }
    do 4 (cbn [latest_low];
      match goal with |- context [Rle_dec ?a ?b] => destruct (Rle_dec a b) as [X|X];
        [exfalso; refine (No _ _ X); lia|clear X] end).
    cbn [latest_low].
    match goal with |- context [Rle_dec ?a ?b] => destruct (Rle_dec a b) as [X|X] end.
    - f_equal. unfold low_run. rewrite low_q_F, low_p_F, cop_flat by lra.
      unfold run_fraction.
      destruct (Rle_dec (heat_t 8) (deg_F (Q2R 0))) as [A|A];
        [apply heat_t_le in A; unfold Q2R in A; cbn [INR] in A; simpl in A; lra|].
      pose proof (wh_cop 4 ltac:(lra)).
      destruct (Rlt_dec (1 / wh 4) 1) as [B|B]; [lra|].
      destruct (Rlt_dec (deg_F (Q2R 0)) (heat_t 8)) as [C|C]; [reflexivity|].
      exfalso. apply C, heat_t_lt. unfold Q2R. cbn [INR]. simpl. lra.
    - exfalso. apply X. rewrite Lv, low_q_F. cbn [INR]. rewrite Rmax_left; lra. }
  rewrite Ca. cbn [fst snd]. split; [|lra]. unfold UnitSpec.line. nra.
Qed.

(** A two-stage unit whose first bin is between the stages. *)
Lemma toy_unbound : exists u on d s L lo hi,
  unit_of TWO_STAGE AHRI_210_240_2017 [200; 100] [200; 100] 4 4 u
  /\ u_staging u = TWO_STAGE /\ u_heating_on u = Some on
  /\ climate u 1 = Ok d
  /\ heating_test lin_sol K u (rc_H0_low (u_conds u)) (s_H0l s)
  /\ heating_test lin_sol K u (rc_H1_low (u_conds u)) (s_H1l s)
  /\ frost_test lin_sol K u (rc_H2_low (u_conds u)) (s_H2l s)
  /\ heating_test lin_sol K u (rc_H3_low (u_conds u)) (s_H3l s)
  /\ heating_test lin_sol K u (rc_H1_full (u_conds u)) (s_H1 s)
  /\ frost_test lin_sol K u (rc_H2_full (u_conds u)) (s_H2 s)
  /\ heating_test lin_sol K u (rc_H3_full (u_conds u)) (s_H3 s)
  /\ heat_load lin_sol K u d L
  /\ 0 <= sd_cd (u_h u) < 1 /\ stages_ok lo hi s
  /\ low_of q_at s 0 < L (heat_t 0) < full_of q_at s 0
  /\ carried (u_heating_off u) on L s 0 = None.
Proof.
  destruct (toy_2 AHRI_210_240_2017 200 100 200 100 4 4) as (u & E & Pl & Ft & Lt); try lra.
  destruct (wh_bounds 4 ltac:(lra)) as [W1 W2].
  pose proof Pl as (S1 & S2 & S3 & S4 & S5 & S6 & S7 & S8).
  destruct (two_tests u 200 100 200 100 4 4 Ft Lt) as (T0l & T1l & T2l & T3l & T1 & T2 & T3).
  destruct (region1_2017 u S3) as (d & k & Cl & Kp & Dd).
  exists u, (deg_F (Q2R 0)), d, (stages_F 200 100 (wh 4)), (load17 37), (1 / wh 4), (1 / wh 4).
  split; [exact E|]. split; [exact S1|]. split; [exact S5|].
  split; [exact Cl|]. do 7 (split; [assumption|]).
  split; [apply (has_load17 u TWO_STAGE (Q2R 0) 200 200 4 4); auto; try lra; unfold Btu_h; lra|].
  split; [rewrite S7; lra|]. split; [apply stages_F_ok; lra|].
  split; [|reflexivity]. rewrite low_q_F, full_q_F, load17_bin by lra.
  cbn [INR]. unfold Btu_h. rewrite Rmax_left; lra.
Qed.

Lemma speeds_F_ok h1 h2 h3 w : 0 < h3 < h1 -> 0 < h2 -> 0 < w ->
  speeds_ok (1 / w) (1 / w) (at_F 62 h3 w) (at_F 47 h3 w) (at_F 35 h2 w)
    (at_F 47 h1 w) (at_F 35 h1 w) (at_F 17 h1 w) (at_F 5 h1 w).
Proof.
  intros H H' W. unfold speeds_ok.
  do 4 (split; [apply at_F_neq; lra|]). rewrite q_flat, p_flat. cbn [pt_q pt_p at_F].
  split; [lra|]. split; [apply Rlt_not_eq, Rmult_lt_compat_r; lra|]. intros i _. cbv zeta.
  rewrite q_int_heat_flat, p_int_heat_flat, full_q_flat, full_p_flat, q_flat, p_flat.
  split; [lra|]. split; [nra|]. split; [nra|]. split; [lra|]. split; [nra|].
  split; [|split]; apply flat_range; lra.
Qed.

Lemma toy_hspf_variable : exists u on d H0l H1l H2i H1 H2 H3 H4 L credit lo hi,
  unit_of VARIABLE_SPEED AHRI_210_240_2023 [10000; 7000; 4000] [9000; 6000; 3000] 4 4 u
  /\ u_staging u = VARIABLE_SPEED /\ u_heating_on u = Some on
  /\ climate u 4 = Ok d
  /\ heating_test lin_sol K u (rc_H0_low (u_conds u)) H0l
  /\ heating_test lin_sol K u (rc_H1_low (u_conds u)) H1l
  /\ frost_test lin_sol K u (rc_H2_int (u_conds u)) H2i
  /\ heating_test lin_sol K u (rc_H1_full (u_conds u)) H1
  /\ frost_test lin_sol K u (rc_H2_full (u_conds u)) H2
  /\ heating_test lin_sol K u (rc_H3_full (u_conds u)) H3
  /\ heating_test lin_sol K u (rc_H4_full (u_conds u)) H4
  /\ heat_load lin_sol K u d L /\ 0 < over 18 (fun i => hours_of d i * L (heat_t i))
  /\ demand_credit (u_defrost u) = Ok credit /\ 0 < credit
  /\ 0 <= sd_cd (u_h u) < 1 /\ 1 < lo /\ speeds_ok lo hi H0l H1l H2i H1 H2 H3 H4
  /\ (forall i, (i < 18)%nat -> let t := heat_t i in full_line q_at H1 H2 H3 t <= L t ->
       0 < p_at H4 H3 t /\ lo <= q_at H4 H3 t / p_at H4 H3 t <= hi /\ q_at H4 H3 t <= L t)
  /\ heat_t 17 <= u_heating_off u.
Proof.
  destruct (toy_3 AHRI_210_240_2023 10000 7000 4000 9000 6000 3000 4 4)
    as (u & E & Pl & Ft & (TBl & TFl & T0l & T1l & T2l & T3l) & (TE & T2i)); try lra.
  destruct (wh_bounds 4 ltac:(lra)) as [W1 W2].
  pose proof Pl as (S1 & S2 & S3 & S4 & S5 & S6 & S7 & S8).
  pose proof Ft as (TA & TB & T1 & T2 & T3 & T4).
  destruct (region4_2023 u S3) as (d & k & Cl & Kp & Dd & C1 & C2 & Z & Hh).
  exists u, (deg_F (Q2R (-20))), d, (at_F 62 3000 (wh 4)), (at_F 47 3000 (wh 4)),
    (at_F 35 6000 (wh 4)), (at_F 47 9000 (wh 4)), (at_F 35 9000 (wh 4)), (at_F 17 9000 (wh 4)),
    (at_F 5 9000 (wh 4)), (load23 1.07 10000), 1, (1 / wh 4), (1 / wh 4).
  split; [exact E|]. split; [exact S1|]. split; [exact S5|]. split; [exact Cl|].
  do 7 (split; [assumption|]).
  split; [apply (has_load23 u VARIABLE_SPEED (Q2R (-20)) 10000 9000 4 4); auto|].
  split; [apply (load_sum d k); auto; try lra; apply (climate_hours u 4 d Cl)|].
  split; [exact S8|]. split; [lra|]. split; [rewrite S7; lra|]. split; [apply wh_cop; lra|].
  split; [apply speeds_F_ok; lra|].
  split.
  - intros i _. cbv zeta. rewrite full_q_flat, q_flat, p_flat. intros B.
    split; [lra|]. split; [apply flat_range; lra|exact B].
  - rewrite S4. apply heat_t_le. unfold Q2R. cbn [INR]. simpl. lra.
Qed.
