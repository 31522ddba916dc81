(** A two-speed unit whose EnergyPlus export succeeds, for the examples. *)
From Coq Require Import ZArith QArith Reals Lra Psatz Lia List Bool String.
From Verif.Base Require Import Num Res Tac.
From Verif.Model Require Import Units Util Psychrometrics Conditions Defrost Fan Curves
  Tabular Unit BaseModel DXUnit Idf.
From Verif.Proofs Require Import UnitsR MakeCond ToyUnit ToyBuild.
Import ListNotations.
Local Open Scope string_scope.
Local Open Scope R_scope.

Definition idf_conds : rconds R :=
  let c := Some (toy_cond 300 292 308 1) in
  mkConds c c c c None None None None None None None None None None None None None.

(** 10 kW and 6 kW in both modes; the compressor stops heating at [off]. *)
Definition idf_unit (off : R) : dxunit R :=
  mkUnit [] (Some 14) (Some 12) (Some 8) None BETWEEN_LOW_FULL true 325
    (toy_defrost DCDemand DSReverseCycle) 283 AHRI_210_240_2023 1 TWO_STAGE off (Some off)
    (toy_side [10000; 6000] [10300; 6150] [300; 150] [4; 5] [2500; 1200] [2200; 1050]
       [103 / 22; 615 / 105] [1; 1 / 2])
    (toy_side [10000; 6000] [9700; 5850] [300; 150] [4; 5] [2500; 1200] [2200; 1050]
       [97 / 22; 585 / 105] [1; 1 / 2])
    [None; None] [None; None] [None; None] (Some 125) (Some toy_fan) (Some 20) idf_conds toy_rn.

Definition works {A} (x : res A) : Prop := exists v, x = Ok v.

Lemma works_bind {A B} (x : res A) (k : A -> res B) v : x = Ok v -> works (k v) ->
  works (let! y := x in k y).
Proof. intros ->. exact (fun w => w). Qed.
Lemma works_bind' {A B} (x : res A) (k : A -> res B) : works x -> (forall v, works (k v)) ->
  works (let! y := x in k y).
Proof. intros [v ->] H. exact (H v). Qed.
Lemma works_ok {A} (v : A) : works (Ok v).
Proof. exists v. reflexivity. Qed.
Lemma works_map {A B} (f : A -> res B) l : (forall x, In x l -> works (f x)) ->
  works (rmapM f l).
Proof.
  induction l as [| a l IH]; intros H; cbn [rmapM].
  - apply works_ok.
  - apply works_bind'; [apply H; left; reflexivity |]. intros y.
    apply works_bind'; [apply IH; intros x I; apply H; right; exact I |].
    intros ys. apply works_ok.
Qed.
Lemma works_div (x y : R) : y <> 0 -> works (pydiv x y).
Proof. intros N. exists (x / y). apply pydiv_ok. exact N. Qed.

Lemma limit_fine (x : R) : 0 <= x -> limit_check x (Some (lit 0)) None = Ok x.
Proof.
  intros P. unfold limit_check. rewrite lit0_R. rnum. 
  destruct (Rltb_spec x 0); [lra | reflexivity].
Qed.

Section Perf.
  Variable off : R.
  Let u := idf_unit off.
  Let M := ConstantDXModel (T:=R).

  Definition gross (m : mode) (s : nat) : R :=
    match m, s with Cooling, O => 10300 | Cooling, _ => 6150 | Heating, O => 9700 | _, _ => 5850 end.
  Definition gpow (m : mode) (s : nat) : R :=
    match s with O => 2200 | _ => 1050 end.

  Lemma cool_at c : (c_speed c < 2)%nat ->
    gross_total_cooling_capacity M u (Some c) = Ok (gross Cooling (c_speed c)) /\
    gross_cooling_power M u (Some c) = Ok (gpow Cooling (c_speed c)).
  Proof.
    intros L. unfold gross_total_cooling_capacity, gross_cooling_power, cooling_conditions.
    cbn [rbind].
    change (md_gtc M) with (constant_capacity (T:=R) Cooling).
    change (md_gcp M) with (constant_power (T:=R) Cooling).
    change (md_f_gtc M) with (unit_factor (T:=R)). change (md_f_gcp M) with (unit_factor (T:=R)).
    unfold checked_product, constant_capacity, constant_power, unit_factor, NREL.ratio_at.
    destruct (c_speed c) as [| [|]]; [| | lia];
      cbn [u idf_unit side_of u_c sd_gross_cap sd_gross_cop toy_side map arr geti nth_error
           rbind need gross gpow];
      rewrite ?(pydiv_ok _ (103 / 22)), ?(pydiv_ok _ (615 / 105)) by lra;
      cbn [rbind]; rewrite lit1_R; rnum; rewrite !limit_fine by lra; split; f_equal; lra.
  Qed.
  Lemma cool_perf c : (c_speed c < 2)%nat -> works (cooling_performance M u c).
  Proof.
    intros L. destruct (cool_at c L) as [Q P].
    unfold cooling_performance, gross_total_cooling_cop, both. rewrite Q, P. cbn [rbind].
    rewrite lit1_R.
    destruct (c_speed c) as [| [|]]; [| | lia]; cbn [gross gpow];
    (rewrite pydiv_ok by lra; cbn [rbind]; rewrite pydiv_ok by lra; cbn [rbind]; apply works_ok).
  Qed.
  Lemma cool_shr c : (c_speed c < 2)%nat -> works (gross_shr M u (Some c)).
  Proof.
    intros L. destruct (cool_at c L) as [Q _].
    assert (Qs : gross_sensible_cooling_capacity M u (Some c)
                 = Ok (gross Cooling (c_speed c) * 0.7)).
    { unfold gross_sensible_cooling_capacity, cooling_conditions. cbn [rbind].
      change (md_gsc M u c) with
        (let! q := gross_total_cooling_capacity M u (Some c) in Ok (q * lit 0.7)).
      rewrite Q. cbn [rbind].
      replace (lit (T:=R) 0.7) with 0.7 by (unfold lit; rnum; lra).
      destruct (c_speed c) as [| [|]]; [| | lia]; cbn [gross]; apply limit_fine; lra. }
    unfold gross_shr, both. rewrite Q, Qs. cbn [rbind].
    destruct (c_speed c) as [| [|]]; [| | lia]; cbn [gross];
    (rewrite pydiv_ok by lra; cbn [rbind]; unfold limit_check; rewrite lit0_R, lit1_R; rnum;
     match goal with |- context [Rltb ?a ?b] => destruct (Rltb_spec a b); [lra |] end;
     match goal with |- context [Rltb ?a ?b] => destruct (Rltb_spec a b); [lra |] end;
     apply works_ok).
  Qed.

  Lemma heat_at c : (c_speed c < 2)%nat ->
    gross_steady_state_heating_capacity M u (Some c) = Ok (gross Heating (c_speed c)) /\
    gross_steady_state_heating_power M u (Some c) = Ok (gpow Heating (c_speed c)).
  Proof.
    intros L.
    unfold gross_steady_state_heating_capacity, gross_steady_state_heating_power, heating_conditions.
    cbn [rbind].
    change (md_ghc M) with (constant_capacity (T:=R) Heating).
    change (md_ghp M) with (constant_power (T:=R) Heating).
    change (md_f_ghc M) with (unit_factor (T:=R)). change (md_f_ghp M) with (unit_factor (T:=R)).
    unfold product, constant_capacity, constant_power, unit_factor, NREL.ratio_at.
    destruct (c_speed c) as [| [|]]; [| | lia];
      cbn [u idf_unit side_of u_h sd_gross_cap sd_gross_cop toy_side map arr geti nth_error
           rbind need gross gpow];
      rewrite ?(pydiv_ok _ (97 / 22)), ?(pydiv_ok _ (585 / 105)) by lra;
      cbn [rbind]; rewrite lit1_R; rnum; split; f_equal; lra.
  Qed.
  Lemma heat_perf c : (c_speed c < 2)%nat -> works (heating_performance M u c).
  Proof.
    intros L. destruct (heat_at c L) as [Q P].
    unfold heating_performance, gross_steady_state_heating_cop, both. rewrite Q, P. cbn [rbind].
    rewrite lit1_R.
    destruct (c_speed c) as [| [|]]; [| | lia]; cbn [gross gpow];
    (rewrite pydiv_ok by lra; cbn [rbind]; rewrite pydiv_ok by lra; cbn [rbind]; apply works_ok).
  Qed.

  (** A condition at any given states. *)
  Lemma cond_at m s i o : (s < 2)%nat ->
    rho_of lin_psy (match i with Some x => x | None => default_indoor m end) = Ok 1.2 ->
    exists o' i' f p a q, make_condition lin_psy m u s i o
      = Ok (flow_cond o' i' s f p 1.2 1.2 a q 1 None) /\ q <> 0 /\ rho_of lin_psy i' = Ok 1.2.
  Proof.
    intros L Hr.
    assert (Hq : nth_error (sd_net_cap (side_of m u)) s = Some (nth s [10000; 6000] 0)).
    { destruct m, s as [| [|]]; try lia; reflexivity. }
    assert (Ha : nth_error (sd_airflow (side_of m u)) s = Some (Some (nth s [1; 1 / 2] 0))).
    { destruct m, s as [| [|]]; try lia; reflexivity. }
    assert (Hf : nth_error (sd_airflow (side_of m u)) 0 = Some (Some 1)).
    { destruct m; reflexivity. }
    do 6 eexists. split; [| split].
    - eapply (make_condition_ok lin_psy m u s i o _ _ 1 125 _ (Some s) 1.2 1.2 Hq Ha Hf);
        try reflexivity; try exact Hr; try lra.
      + destruct m; reflexivity.
      + destruct m, s as [| [|]]; try lia; reflexivity.
      + destruct s as [| [|]]; try lia; cbn [nth]; lra.
      + destruct s as [| [|]]; try lia; cbn [nth]; lra.
    - destruct s as [| [|]]; try lia; cbn [nth]; lra.
    - exact Hr.
  Qed.

  Lemma flows perf s : (forall c, c_speed c = s -> works (perf c)) ->
    forall l o i f p a q r, rho_of lin_psy i = Ok 1.2 -> q <> 0 ->
    works (flow_rows lin_psy perf (flow_cond o i s f p 1.2 1.2 a q r None) l).
  Proof.
    intros W. induction l as [| x l IH]; intros o i f p a q r Hr Hq; cbn [flow_rows].
    - apply works_ok.
    - rewrite (set_ratio_flow_cond lin_psy) by (auto; lra). cbn [rbind].
      apply works_bind'; [apply W; reflexivity |]. intros v.
      apply works_bind'; [apply IH; assumption |]. intros vs. apply works_ok.
  Qed.

  Lemma temps m perf s indoor l l' : (s < 2)%nat -> (forall c, c_speed c = s -> works (perf c)) ->
    (forall t, exists i, indoor t = Ok i /\ rho_of lin_psy i = Ok 1.2) ->
    works (temperature_rows lin_psy m perf indoor u s l l').
  Proof.
    intros L W I. unfold temperature_rows.
    apply works_bind'; [| intros rows; apply works_ok].
    apply works_map. intros ti _. apply works_map. intros to _.
    destruct (I ti) as (i & -> & Hi). cbn [rbind].
    eapply works_bind; [reflexivity |].
    match goal with |- works (let! c := make_condition _ _ _ _ _ (Some ?o) in _) =>
      destruct (cond_at m s (Some i) (Some o) L Hi) as (o' & i' & f & p & a & q & E & Hq & _) end.
    eapply works_bind; [exact E |]. apply W. reflexivity.
  Qed.

  Lemma lookup_works name ln ty values p (rated : option R) :
    match rated with Some r => r <> 0 | None => True end ->
    works (make_lookup_table name ln ty values p rated).
  Proof.
    intros N. unfold make_lookup_table. apply works_bind'; [| intros v; apply works_ok].
    destruct rated; [| apply works_ok]. apply works_map. intros x _. apply works_div, N.
  Qed.

  Lemma tables_work sys side tl k nz (q cop : R) flow temp : q <> 0 -> cop <> 0 ->
    works (speed_tables sys side tl k nz q cop flow temp).
  Proof.
    intros Nq Nc. unfold speed_tables.
    assert (Ne : 1 / cop <> 0).
    { intros E. apply R1_neq_R0. replace 1 with (1 / cop * cop) by (field; exact Nc).
      rewrite E. ring. }
    destruct nz.
    - rewrite lit1_R, pydiv_ok by exact Nc. cbn [rbind].
      repeat (apply works_bind'; [apply lookup_works; assumption | intros ?]). apply works_ok.
    - cbn [rbind].
      repeat (apply works_bind'; [apply lookup_works; exact I | intros ?]). apply works_ok.
  Qed.

  Lemma cooling_speed_works sys nz s : (s < 2)%nat ->
    works (cooling_speed lin_psy M u sys nz s).
  Proof.
    intros L. unfold cooling_speed.
    destruct (cond_at Cooling s None None L eq_refl)
      as (o & i & f & p & a & q & E & Hq & Hr).
    eapply works_bind; [exact E |]. set (c := flow_cond _ _ _ _ _ _ _ _ _ _ _).
    assert (Lc : (c_speed c < 2)%nat) by exact L.
    destruct (cool_at c Lc) as [Q P].
    eapply works_bind; [exact Q |]. unfold gross_total_cooling_cop, both at 1.
    rewrite Q, P. cbn [rbind].
    assert (Ng : gross Cooling (c_speed c) <> 0)
      by (destruct (c_speed c) as [| [|]]; cbn [gross]; lra).
    assert (Np : gpow Cooling (c_speed c) <> 0)
      by (destruct (c_speed c) as [| [|]]; cbn [gpow]; lra).
    rewrite pydiv_ok by exact Np. cbn [rbind].
    apply works_bind'; [apply cool_shr, Lc | intros shr].
    eapply works_bind; [reflexivity |].
    apply works_bind'; [apply flows; auto; intros c' Ec'; apply cool_perf; lia | intros fl].
    apply works_bind'.
    { apply temps; auto.
      - intros c' Ec'. apply cool_perf. lia.
      - intros t. eexists. split; reflexivity. }
    intros tm. apply works_bind'; [apply tables_work; [exact Ng |] | intros ?; apply works_ok].
    intros Z. apply Ng. replace (gross Cooling (c_speed c))
      with (gross Cooling (c_speed c) / gpow Cooling (c_speed c) * gpow Cooling (c_speed c))
      by (field; exact Np). rewrite Z. ring.
  Qed.

  Lemma heating_speed_works sys nz s : (s < 2)%nat ->
    works (heating_speed lin_psy M u sys nz s).
  Proof.
    intros L. unfold heating_speed.
    destruct (cond_at Heating s None None L eq_refl)
      as (o & i & f & p & a & q & E & Hq & Hr).
    eapply works_bind; [exact E |]. set (c := flow_cond _ _ _ _ _ _ _ _ _ _ _).
    assert (Lc : (c_speed c < 2)%nat) by exact L.
    destruct (heat_at c Lc) as [Q P].
    eapply works_bind; [exact Q |]. unfold gross_steady_state_heating_cop, both at 1.
    rewrite Q, P. cbn [rbind].
    assert (Ng : gross Heating (c_speed c) <> 0)
      by (destruct (c_speed c) as [| [|]]; cbn [gross]; lra).
    assert (Np : gpow Heating (c_speed c) <> 0)
      by (destruct (c_speed c) as [| [|]]; cbn [gpow]; lra).
    rewrite pydiv_ok by exact Np. cbn [rbind].
    eapply works_bind; [reflexivity |].
    apply works_bind'; [apply flows; auto; intros c' Ec'; apply heat_perf; lia | intros fl].
    apply works_bind'.
    { apply temps; auto.
      - intros c' Ec'. apply heat_perf. lia.
      - intros t. eexists. split; reflexivity. }
    intros tm. apply works_bind'; [apply tables_work; [exact Ng |] | intros ?; apply works_ok].
    intros Z. apply Ng. replace (gross Heating (c_speed c))
      with (gross Heating (c_speed c) / gpow Heating (c_speed c) * gpow Heating (c_speed c))
      by (field; exact Np). rewrite Z. ring.
  Qed.

  Lemma order_toy : get_speed_order_map lin_sol toy_fan = Ok [1%nat; 0%nat].
  Proof.
    unfold get_speed_order_map.
    change (rmapM _ _) with (Ok [1; 0.5]). cbn [rbind].
    change (argsort [1; 0.5]) with (if Rltb 0.5 1 then [1%nat; 0%nat] else [0%nat; 1%nat]).
    destruct (Rltb_spec 0.5 1); [reflexivity | lra].
  Qed.

  Lemma fan_works sys t autosize : works (fan_object lin_sol u sys t autosize).
  Proof.
    unfold fan_object. eapply works_bind; [reflexivity |]. rewrite order_toy. cbn [rbind].
    change (lasti [1%nat; 0%nat]) with (Ok 0%nat). cbn [rbind].
    change (geti [1%nat; 0%nat] 0) with (Ok 1%nat). cbn [rbind].
    eapply works_bind; [reflexivity |].
    assert (A : forall i, (i < 2)%nat -> airflow lin_sol toy_fan i None = Ok (nth i [1; 0.5] 0)).
    { intros [| [|]] Hi; [reflexivity | reflexivity | lia]. }
    assert (W : forall i, (i < 2)%nat ->
      power lin_sol toy_fan i None = Ok (nth i [1; 0.5] 0 * 300)).
    { intros [| [|]] Hi; [reflexivity | reflexivity | lia]. }
    assert (A1 : forall i, (i < 2)%nat -> works (airflow_ratio lin_sol toy_fan i 0 None)).
    { intros i Hi. unfold airflow_ratio. rewrite (A i Hi), (A 0%nat) by lia. cbn [rbind nth].
      apply works_div. lra. }
    apply works_bind'.
    { destruct autosize; [apply works_ok |]. unfold sized. rewrite (A 0%nat) by lia. apply works_ok. }
    intros ?. apply works_bind'; [apply A1; lia |]. intros ?. apply works_bind'.
    { destruct autosize; [apply works_ok |]. unfold sized. rewrite (W 0%nat) by lia. apply works_ok. }
    intros ?. apply works_bind'.
    { unfold efficiency, fluid_power. rewrite (A 0%nat), (W 0%nat) by lia. cbn [rbind nth].
      eapply works_bind; [reflexivity |]. apply works_div. lra. }
    intros ?. apply works_bind'; [| intros ?; apply works_ok].
    apply works_map. intros [j i] I.
    assert (Hi : (i < 2)%nat).
    { cbn [enumerate] in I. apply in_combine_r in I. cbn [In] in I. lia. }
    cbn [snd]. apply works_bind'; [apply A1, Hi |]. intros ?.
    apply works_bind'; [| intros ?; apply works_ok].
    unfold power_ratio. rewrite (W i Hi), (W 0%nat) by lia. cbn [rbind nth].
    apply works_div. lra.
  Qed.

  Lemma idf_works name t autosize nz : t <> OTHER_SYSTEM ->
    works (idf_objects lin_psy lin_sol M u name t autosize nz None).
  Proof.
    intros Nt. unfold idf_objects.
    set (c0 := toy_cond 300 292 308 1).
    assert (L0 : (c_speed c0 < 2)%nat) by (cbn; lia).
    destruct (cool_at c0 L0) as [Q0 _]. destruct (heat_at c0 L0) as [H0 _].
    assert (Q0' : gross_total_cooling_capacity M u None = Ok 10300) by exact Q0.
    assert (H0' : gross_steady_state_heating_capacity M u None = Ok 9700) by exact H0.
    assert (I0' : gross_integrated_heating_capacity M u None = Ok 9700) by exact H0.
    apply works_bind'.
    { destruct t; [| apply works_ok | contradiction]. unfold system_objects.
      rewrite I0', Q0'. cbn [rbind]. apply works_bind'; [apply works_div; lra | intros ?; apply works_ok]. }
    intros system. apply works_bind'; [apply fan_works |]. intros f.
    apply works_bind'.
    { unfold cooling_objects. rewrite Q0'.
      apply works_bind'; [destruct autosize; apply works_ok |]. intros ?.
      apply works_bind'; [destruct autosize; apply works_ok |]. intros ?.
      eapply works_bind; [reflexivity |].
      apply works_bind'; [| intros ?; apply works_ok].
      apply works_map. intros s I. apply cooling_speed_works.
      apply in_rev, in_seq in I. change (sd_n (u_c u)) with 2%nat in I. lia. }
    intros objects. unfold heating_objects. rewrite H0'.
    apply works_bind'; [destruct autosize; apply works_ok |]. intros ?.
    apply works_bind'; [destruct autosize; apply works_ok |]. intros ?.
    eapply works_bind; [reflexivity |].
    eapply works_bind; [reflexivity |].
    eapply works_bind; [reflexivity |].
    unfold get_cooling_cop60.
    match goal with |- context [make_condition lin_psy Cooling u 0 (Some ?i) (Some ?o)] =>
      destruct (cond_at Cooling 0 (Some i) (Some o) Nat.lt_0_2 eq_refl)
        as (o' & i' & f' & p' & a' & q' & E & Hq & _) end.
    rewrite E. cbn [rbind]. set (c := flow_cond _ _ _ _ _ _ _ _ _ _ _).
    destruct (cool_at c (Nat.lt_0_2)) as [Q P].
    unfold gross_total_cooling_cop, both. rewrite Q, P. cbn [rbind].
    change (c_speed c) with 0%nat. cbn [gross gpow]. rewrite pydiv_ok by lra. cbn [rbind].
    apply works_bind'; [apply works_div; lra |]. intros ?.
    apply works_bind'; [| intros ?; apply works_ok].
    apply works_map. intros s I. apply heating_speed_works.
    apply in_rev, in_seq in I. change (sd_n (u_h u)) with 2%nat in I. lia.
  Qed.
End Perf.

(** * Facts used by the examples *)
From Verif.Spec Require Import IdfSpec IdfPerfSpec.
From Verif.Proofs Require Import IdfFinal2.
From Coq Require Import Sorting.

Definition sample_objects : list (string * list (string * string)) :=
  [("Curve:Linear", [("Cooling fPLR", "Name"); ("0.75", "Coefficient1 Constant");
                     ("0.25", "Coefficient2 x"); ("", "Minimum Value of x")]);
   ("Schedule:Compact", [("Schedule", "Name"); ("Until: 24:00", ""); ("1", "Value")])].

Lemma sample_readable : Forall readable sample_objects.
Proof.
  repeat (apply Forall_cons || apply Forall_nil);
    repeat split; try discriminate;
    repeat (apply Forall_cons || apply Forall_nil); repeat split; reflexivity.
Qed.

Lemma sample_printed : exists t, write_idf_objects sample_objects = Ok t /\
  read_idf t = sample_objects /\ List.length (lines t) = 12%nat.
Proof. eexists. split; [reflexivity |]. split; reflexivity. Qed.

Lemma toy_export : exists objects,
  idf_objects lin_psy lin_sol ConstantDXModel (idf_unit 255) (Some "HP") UNITARY_SYSTEM false
    true None = Ok objects /\ clean "HP" /\ 255 < fr_F 5 /\
  (1 <= 2 <= sd_n (side_of Heating (idf_unit 255)))%nat.
Proof.
  destruct (idf_works 255 (Some "HP") UNITARY_SYSTEM false true) as [o E]; [discriminate |].
  exists o. split; [exact E |]. split; [split; reflexivity |]. split; [| cbn; lia].
  unfold fr_F. rnum. lra.
Qed.

Lemma axis_can_decrease : exists u objects l,
  idf_objects lin_psy lin_sol ConstantDXModel u (Some "HP") ZONEHVAC_PTHP true true None
    = Ok objects /\
  axis objects ("HP " ++ "Heating Outdoor Drybulb") = Some l /\ ~ StronglySorted Rlt l.
Proof.
  destruct (idf_works 264 (Some "HP") ZONEHVAC_PTHP true true) as [o E]; [discriminate |].
  destruct (idf_axes_increasing lin_psy lin_sol ConstantDXModel _ _ _ _ _ _ _ E)
    as (_ & l & A & S).
  exists (idf_unit 264), o, l. split; [exact E |]. split; [exact A |].
  rewrite S. unfold fr_F. rnum. cbn [idf_unit u_heating_off]. lra.
Qed.
