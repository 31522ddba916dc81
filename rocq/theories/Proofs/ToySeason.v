(** Seasonal ratings of the units of ToyBuild.v, for the examples beside the theorems. *)
From Coq Require Import Reals QArith Lra Psatz Lia List Bool String.
From Verif.Base Require Import Num Res Tac.
From Verif.Model Require Import Units Util Psychrometrics Conditions Defrost Fan Curves
  Tabular Unit NREL BaseModel Title24 Resnet DXUnit.
From Verif.Spec Require Import UtilSpec UnitModels UnitSpec SeasonSpec.
From Verif.Proofs Require Import UnitsR UnitProofs3 UnitProofs4 ToyBuild ToyBuild2 SeerProofs
  ScaleProofs HspfProofs HspfProofs2.
Import ListNotations.
Local Open Scope R_scope.

(** Net power per net capacity. *)
Definition wc (g : R) : R := (1 + fl * ef) / g + fl * ef.
Definition wh (g : R) : R := (1 - fl * ef) / g + fl * ef.

Lemma wc_bounds g : 2 <= g -> 0 < wc g < 1.
Proof.
  intros G. pose proof kfan as [A B]. unfold wc. set (k := fl * ef) in *.
  assert (X : 0 < (1 + k) / g) by (apply Rdiv_lt_0_compat; lra).
  assert (Y : (1 + k) / g <= 0.52).
  { apply (Rmult_le_reg_r g); [lra|]. replace ((1 + k) / g * g) with (1 + k) by (field; lra). lra. }
  lra.
Qed.
Lemma wh_bounds g : 2 <= g -> 0 < wh g < 1.
Proof.
  intros G. pose proof kfan as [A B]. unfold wh. set (k := fl * ef) in *.
  assert (X : 0 < (1 - k) / g) by (apply Rdiv_lt_0_compat; lra).
  assert (Y : (1 - k) / g <= 0.52).
  { apply (Rmult_le_reg_r g); [lra|]. replace ((1 - k) / g * g) with (1 - k) by (field; lra). lra. }
  lra.
Qed.

Definition at_F (t q w : R) : point R := mkPoint (deg_F t) q (q * w).

Lemma db_F (t : Q) : fr_F (T:=R) (lit t) = deg_F (Q2R t).
Proof. rewrite fr_F_deg. reflexivity. Qed.

Section Tests.
  Variables (u : dxunit R) (qs : list R) (k : nat) (g : R).
  Variables (f : fan R) (all : list R) (i : nat) (q full p : R) (o : option (psych_state R)) (t : R).
  Hypotheses (F : u_fan u = Some f) (K : f_class f = ConstantEfficacyFan)
    (A : f_airflow f = map (fun q => q * fl) all)
    (D : f_design_efficacy f = EffList (repeat ef (List.length all)))
    (Q : nth_error qs i = Some q) (QA : nth_error all (k + i) = Some q)
    (P : 0 < q) (G : 0 < g).

  Lemma cool_pt : u_c u = by_gross Cooling qs k g ->
    ps_db (match o with Some s => s | None => default_outdoor Cooling end) = deg_F t ->
    cooling_test lin_sol ConstantDXModel u (Some (rc Cooling k q full p i o)) (at_F t q (wc g)).
  Proof.
    intros S T. destruct (cooling_vals lin_sol u qs k g f all i q full p o S F K A D Q QA P G)
      as (_ & _ & _ & _ & V1 & V2).
    exists (rc Cooling k q full p i o). split; [reflexivity|]. split; [symmetry; exact T|].
    split; [exact V1|]. rewrite V2. f_equal. cbn [pt_p at_F]. unfold wc, fanw. field. lra.
  Qed.
  Lemma heats : u_h u = by_gross Heating qs k g ->
    ps_db (match o with Some s => s | None => default_outdoor Heating end) = deg_F t ->
    heating_test lin_sol ConstantDXModel u (Some (rc Heating k q full p i o)) (at_F t q (wh g))
    /\ frost_test lin_sol ConstantDXModel u (Some (rc Heating k q full p i o)) (at_F t q (wh g)).
  Proof.
    intros S T. destruct (heating_vals lin_sol u qs k g f all i q full p o S F K A D Q QA G)
      as (_ & V1 & V2 & V3 & V4).
    assert (E : (q - fanw q) / g + fanw q = q * wh g) by (unfold wh, fanw; field; lra).
    rewrite E in V2, V4.
    split; exists (rc Heating k q full p i o); split; auto.
  Qed.
  Lemma heat_pt : u_h u = by_gross Heating qs k g ->
    ps_db (match o with Some s => s | None => default_outdoor Heating end) = deg_F t ->
    heating_test lin_sol ConstantDXModel u (Some (rc Heating k q full p i o)) (at_F t q (wh g)).
  Proof. intros. apply heats; auto. Qed.
  Lemma frost_pt : u_h u = by_gross Heating qs k g ->
    ps_db (match o with Some s => s | None => default_outdoor Heating end) = deg_F t ->
    frost_test lin_sol ConstantDXModel u (Some (rc Heating k q full p i o)) (at_F t q (wh g)).
  Proof. intros. apply heats; auto. Qed.
End Tests.

(** What the built units have in common. *)
Definition plain (st : staging_type) (std : ahri_version) (off : R) (u : dxunit R) : Prop :=
  u_staging u = st /\ u_cycling u = BETWEEN_LOW_FULL /\ u_standard u = std
  /\ u_heating_off u = deg_F off /\ u_heating_on u = Some (deg_F off)
  /\ sd_cd (u_c u) = 1 / 4 /\ sd_cd (u_h u) = 1 / 4
  /\ demand_credit (u_defrost u) = Ok 1.

Notation K := ConstantDXModel.
Notation cool_at u get := (cooling_test lin_sol K u (get (u_conds u))).
Notation heat_at u get := (heating_test lin_sol K u (get (u_conds u))).
Notation frost_at u get := (frost_test lin_sol K u (get (u_conds u))).
Definition toy_args st std qc qh gc gh : dxargs R :=
  args st std qc qh (Some gc) None (Some gh) None None.

Definition full_tests (u : dxunit R) (q h gc gh : R) : Prop :=
  cool_at u rc_A_full (at_F 95 q (wc gc)) /\ cool_at u rc_B_full (at_F 82 q (wc gc))
  /\ heat_at u rc_H1_full (at_F 47 h (wh gh)) /\ frost_at u rc_H2_full (at_F 35 h (wh gh))
  /\ heat_at u rc_H3_full (at_F 17 h (wh gh)) /\ heat_at u rc_H4_full (at_F 5 h (wh gh)).
Definition low_tests (u : dxunit R) (q h gc gh : R) : Prop :=
  cool_at u rc_B_low (at_F 82 q (wc gc)) /\ cool_at u rc_F_low (at_F 67 q (wc gc))
  /\ heat_at u rc_H0_low (at_F 62 h (wh gh)) /\ heat_at u rc_H1_low (at_F 47 h (wh gh))
  /\ frost_at u rc_H2_low (at_F 35 h (wh gh)) /\ heat_at u rc_H3_low (at_F 17 h (wh gh)).
Definition int_tests (u : dxunit R) (q h gc gh : R) : Prop :=
  cool_at u rc_E_int (at_F 87 q (wc gc)) /\ frost_at u rc_H2_int (at_F 35 h (wh gh)).

Ltac temp := etransitivity; [apply db_F|]; f_equal; unfold Q2R; simpl; field.
Ltac cpt u qs g f all i q full p o t Kf A D :=
  apply (cool_pt u qs 0%nat g f all i q full p o t);
  [reflexivity|exact Kf|exact A|exact D|reflexivity|reflexivity|lra|lra|reflexivity|temp].
Ltac hpt lem u qs k g f all i q full p o t Kf A D :=
  apply (lem u qs k g f all i q full p o t);
  [reflexivity|exact Kf|exact A|exact D|reflexivity|reflexivity|lra|reflexivity|temp].
Ltac plainly u off := 
    let X := fresh in let Y := fresh in
    assert (X : fr_F (T:=R) (lit off) = deg_F (Q2R off)) by apply db_F;
    assert (Y : lit (T:=R) 0.25 = 1 / 4) by (rnum; lra);
    unfold plain; split; [reflexivity|]; split; [reflexivity|]; split; [reflexivity|];
    split; [rewrite <- X; reflexivity|]; split; [rewrite <- X; reflexivity|];
    split; [exact Y|]; split; [exact Y|]; change (demand_credit (u_defrost u)) with (Ok (lit (T:=R) 1));
    rewrite lit1_R; reflexivity.

(** No rating conditions at low and intermediate speed. *)
Definition one_speed (k : rconds R) : Prop :=
  rc_B_low k = None /\ rc_F_low k = None /\ rc_E_int k = None /\ rc_H0_low k = None
  /\ rc_H1_low k = None /\ rc_H2_low k = None /\ rc_H3_low k = None /\ rc_H2_int k = None.

Lemma toy_1 std q h gc gh : 0 < q -> 0 < h -> 2 <= gc -> 2 <= gh ->
  exists u, DXUnit lin_psy lin_sol K (toy_args SINGLE_STAGE std [q] [h] gc gh) = Ok u
    /\ plain SINGLE_STAGE std (Q2R 0) u /\ full_tests u q h gc gh /\ one_speed (u_conds u).
Proof.
  intros Q H GC GH.
  destruct (built_1 std (Some gc) None (Some gh) None None
     ltac:(apply good_gross; lra) ltac:(apply good_gross; lra) q h Q H)
    as (f & p & cr & s & b & t & B & Kf & A & D & E).
  eexists. split; [exact B|].
  set (u := built _ _ _ _ _ _ _ _ _ _ _ _ _ _ _).
  split; [plainly u 0%Q|]. split; [|repeat split]. unfold full_tests.
  set (all := [q] ++ [h]) in *. pose (n := @None (psych_state R)).
  split; [cpt u [q] gc f all 0%nat q q p n 95 Kf A D|].
  split; [cpt u [q] gc f all 0%nat q q p (t82 (T:=R)) 82 Kf A D|].
  split; [hpt heat_pt u [h] 1%nat gh f all 0%nat h h p n 47 Kf A D|].
  split; [hpt frost_pt u [h] 1%nat gh f all 0%nat h h p (t35 (T:=R)) 35 Kf A D|].
  split; [hpt heat_pt u [h] 1%nat gh f all 0%nat h h p (t17 (T:=R)) 17 Kf A D|].
  hpt heat_pt u [h] 1%nat gh f all 0%nat h h p (t5 (T:=R)) 5 Kf A D.
Qed.
Lemma toy_2 std q1 q2 h1 h2 gc gh : 0 < q2 <= q1 -> 0 < h2 <= h1 -> 2 <= gc -> 2 <= gh ->
  exists u, DXUnit lin_psy lin_sol K (toy_args TWO_STAGE std [q1; q2] [h1; h2] gc gh) = Ok u
    /\ plain TWO_STAGE std (Q2R 0) u /\ full_tests u q1 h1 gc gh /\ low_tests u q2 h2 gc gh.
Proof.
  intros Q H GC GH.
  destruct (built_2 std (Some gc) None (Some gh) None None
     ltac:(apply good_gross; lra) ltac:(apply good_gross; lra) q1 q2 h1 h2 Q H)
    as (f & p & cr & s & b & t & B & Kf & A & D & E).
  eexists. split; [exact B|].
  set (u := built _ _ _ _ _ _ _ _ _ _ _ _ _ _ _).
  split; [plainly u 0%Q|]. unfold full_tests, low_tests.
  set (all := [q1; q2] ++ [h1; h2]) in *. pose (n := @None (psych_state R)).
  split.
  - split; [cpt u [q1; q2] gc f all 0%nat q1 q1 p n 95 Kf A D|].
    split; [cpt u [q1; q2] gc f all 0%nat q1 q1 p (t82 (T:=R)) 82 Kf A D|].
    split; [hpt heat_pt u [h1; h2] 2%nat gh f all 0%nat h1 h1 p n 47 Kf A D|].
    split; [hpt frost_pt u [h1; h2] 2%nat gh f all 0%nat h1 h1 p (t35 (T:=R)) 35 Kf A D|].
    split; [hpt heat_pt u [h1; h2] 2%nat gh f all 0%nat h1 h1 p (t17 (T:=R)) 17 Kf A D|].
    hpt heat_pt u [h1; h2] 2%nat gh f all 0%nat h1 h1 p (t5 (T:=R)) 5 Kf A D.
  - split; [cpt u [q1; q2] gc f all 1%nat q2 q1 p (t82 (T:=R)) 82 Kf A D|].
    split; [cpt u [q1; q2] gc f all 1%nat q2 q1 p (t67 (T:=R)) 67 Kf A D|].
    split; [hpt heat_pt u [h1; h2] 2%nat gh f all 1%nat h2 h1 p (t62 (T:=R)) 62 Kf A D|].
    split; [hpt heat_pt u [h1; h2] 2%nat gh f all 1%nat h2 h1 p n 47 Kf A D|].
    split; [hpt frost_pt u [h1; h2] 2%nat gh f all 1%nat h2 h1 p (t35 (T:=R)) 35 Kf A D|].
    hpt heat_pt u [h1; h2] 2%nat gh f all 1%nat h2 h1 p (t17 (T:=R)) 17 Kf A D.
Qed.
Lemma toy_3 std q1 q2 q3 h1 h2 h3 gc gh :
  0 < q3 <= q2 -> q2 <= q1 -> 0 < h3 <= h2 -> h2 <= h1 -> 2 <= gc -> 2 <= gh ->
  exists u, DXUnit lin_psy lin_sol K (toy_args VARIABLE_SPEED std [q1; q2; q3] [h1; h2; h3] gc gh)
      = Ok u
    /\ plain VARIABLE_SPEED std (Q2R (-20)) u /\ full_tests u q1 h1 gc gh
    /\ low_tests u q3 h3 gc gh /\ int_tests u q2 h2 gc gh.
Proof.
  intros Q Q' H H' GC GH.
  destruct (built_3 std (Some gc) None (Some gh) None None
     ltac:(apply good_gross; lra) ltac:(apply good_gross; lra) q1 q2 q3 h1 h2 h3 Q Q' H H')
    as (f & p & cr & s & b & t & B & Kf & A & D & E).
  eexists. split; [exact B|].
  set (u := built _ _ _ _ _ _ _ _ _ _ _ _ _ _ _).
  split; [plainly u (-20)%Q|]. unfold full_tests, low_tests, int_tests.
  set (all := [q1; q2; q3] ++ [h1; h2; h3]) in *. pose (n := @None (psych_state R)).
  split; [|split].
  - split; [cpt u [q1; q2; q3] gc f all 0%nat q1 q1 p n 95 Kf A D|].
    split; [cpt u [q1; q2; q3] gc f all 0%nat q1 q1 p (t82 (T:=R)) 82 Kf A D|].
    split; [hpt heat_pt u [h1; h2; h3] 3%nat gh f all 0%nat h1 h1 p n 47 Kf A D|].
    split; [hpt frost_pt u [h1; h2; h3] 3%nat gh f all 0%nat h1 h1 p (t35 (T:=R)) 35 Kf A D|].
    split; [hpt heat_pt u [h1; h2; h3] 3%nat gh f all 0%nat h1 h1 p (t17 (T:=R)) 17 Kf A D|].
    hpt heat_pt u [h1; h2; h3] 3%nat gh f all 0%nat h1 h1 p (t5 (T:=R)) 5 Kf A D.
  - split; [cpt u [q1; q2; q3] gc f all 2%nat q3 q1 p (t82 (T:=R)) 82 Kf A D|].
    split; [cpt u [q1; q2; q3] gc f all 2%nat q3 q1 p (t67 (T:=R)) 67 Kf A D|].
    split; [hpt heat_pt u [h1; h2; h3] 3%nat gh f all 2%nat h3 h1 p (t62 (T:=R)) 62 Kf A D|].
    split; [hpt heat_pt u [h1; h2; h3] 3%nat gh f all 2%nat h3 h1 p n 47 Kf A D|].
    split; [hpt frost_pt u [h1; h2; h3] 3%nat gh f all 2%nat h3 h1 p (t35 (T:=R)) 35 Kf A D|].
    hpt heat_pt u [h1; h2; h3] 3%nat gh f all 2%nat h3 h1 p (t17 (T:=R)) 17 Kf A D.
  - split; [cpt u [q1; q2; q3] gc f all 1%nat q2 q1 p (t87 (T:=R)) 87 Kf A D|].
    hpt frost_pt u [h1; h2; h3] 3%nat gh f all 1%nat h2 h1 p (t35 (T:=R)) 35 Kf A D.
Qed.
