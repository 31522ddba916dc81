(** C52 and C53 for everything [write_idf] exports. *)
From Coq Require Import ZArith QArith Reals Lra List String Ascii Bool Lia.
From Verif.Base Require Import Num Res Tac.
From Verif.Model Require Import Units Util Psychrometrics Conditions Defrost Fan Tabular Unit
  DXUnit Idf.
From Verif.Spec Require Import IdfSpec IdfPerfSpec.
From Verif.Proofs Require Import IdfText IdfStruct IdfNames IdfRefs IdfTables IdfPerf UnitsR.
Import ListNotations.
Local Open Scope string_scope.
Local Open Scope R_scope.

Lemma idf_references : forall {T} {NT : Num T} {NX : NumX T} (psy : psychro T) sol M u name t
    autosize normalize cached objects,
  idf_objects psy sol M u name t autosize normalize cached = Ok objects ->
  no_dangling_references objects.
Proof.
  intros T NT NX psy sol M u name t autosize normalize cached objects E.
  apply idf_objects_inv in E. cbv zeta in E.
  destruct E as (system & a & w & r & p & eff & n & fs & qc & ac & crank & xs & qh & ah & on
    & dmax & crank' & strategy & control & period & heater & eir & ys & Hsys & Hxs & _ & Hys
    & _ & _ & ->).
  apply (objs_references u (system_prefix name) t normalize system a w r p eff n fs qc ac crank
    xs qh ah on dmax crank' strategy control period heater eir ys Hsys Hxs Hys).
Qed.

Lemma F_to_C_celsius : forall x : R, F_to_C x = celsius x.
Proof. intros x. unfold F_to_C, celsius, to_C, fr_F. rnum. lra. Qed.

Lemma to_F_to_C : forall x : R, F_to_C (to_F x) = x - 273.15.
Proof. intros x. unfold F_to_C. rewrite fr_to_F. unfold to_C. rnum. lra. Qed.


Lemma indoor_cooling : map F_to_C (cooling_indoor_wet_bulbs (T:=R)) = indoor_axis Cooling.
Proof.
  unfold cooling_indoor_wet_bulbs, indoor_axis. cbn [map].
  rewrite !F_to_C_celsius. repeat (f_equal; try (rnum; lra)).
Qed.
Lemma outdoor_cooling : forall u, map F_to_C (cooling_outdoor_dry_bulbs (T:=R)) = outdoor_axis Cooling u.
Proof.
  intros u. unfold cooling_outdoor_dry_bulbs, outdoor_axis. cbn [map].
  rewrite !F_to_C_celsius. repeat (f_equal; try (rnum; lra)).
Qed.
Lemma indoor_heating : map F_to_C (heating_indoor_dry_bulbs (T:=R)) = indoor_axis Heating.
Proof.
  unfold heating_indoor_dry_bulbs, indoor_axis. cbn [map].
  rewrite !F_to_C_celsius. repeat (f_equal; try (rnum; lra)).
Qed.
Lemma outdoor_heating : forall u : dxunit R,
  map F_to_C (heating_outdoor_dry_bulbs u) = outdoor_axis Heating u.
Proof.
  intros u. unfold heating_outdoor_dry_bulbs, outdoor_axis. cbn [map].
  rewrite to_F_to_C. f_equal.
  rewrite !F_to_C_celsius. repeat (f_equal; try (rnum; lra)).
Qed.
Lemma flow_axis_R : flow_fractions (T:=R) = flow_axis.
Proof. unfold flow_fractions, flow_axis. repeat (f_equal; try (rnum; lra)). Qed.

Lemma entry2 : forall (objects : list (idf_object R)) tab A B outs i j x y v,
  table_axes objects tab = Some [A; B] -> table_outputs objects tab = Some outs ->
  nth_error A i = Some x -> nth_error B j = Some y ->
  nth_error outs (i * List.length B + j) = Some v ->
  table_entry objects tab [i; j] = Some ([x; y], v).
Proof.
  intros objects tab A B outs i j x y v HA HO Hx Hy Hv. unfold table_entry. rewrite HA, HO.
  cbn [map combine fst snd all_some]. rewrite Hx, Hy. cbn [all_some option_map].
  cbn [position fold_right]. rewrite Nat.mul_1_r.
  assert (i < List.length A)%nat by (apply nth_error_Some; congruence).
  assert (j < List.length B)%nat by (apply nth_error_Some; congruence).
  rewrite (proj2 (Nat.ltb_lt _ _) H), (proj2 (Nat.ltb_lt _ _) H0). cbn [option_map].
  replace (i * List.length B + (j * 1 + 0))%nat with (i * List.length B + j)%nat by lia.
  rewrite Hv. reflexivity.
Qed.
Lemma entry1 : forall (objects : list (idf_object R)) tab A outs i x v,
  table_axes objects tab = Some [A] -> table_outputs objects tab = Some outs ->
  nth_error A i = Some x -> nth_error outs i = Some v ->
  table_entry objects tab [i] = Some ([x], v).
Proof.
  intros objects tab A outs i x v HA HO Hx Hv. unfold table_entry. rewrite HA, HO.
  cbn [map combine fst snd all_some]. rewrite Hx. cbn [all_some option_map].
  cbn [position fold_right].
  assert (i < List.length A)%nat by (apply nth_error_Some; congruence).
  rewrite (proj2 (Nat.ltb_lt _ _) H). cbn [option_map].
  replace (i * 1 + 0)%nat with i by lia. rewrite Hv. reflexivity.
Qed.

Section Tables.
  Variable psy : psychro R.
  Variable M : dxmodel R.

  (** Tables of one speed, whatever the objects around them. *)
  Lemma grid_of : forall m (u : dxunit R) speed objects cap eir (nz : bool) (q0 cop0 : R) temp vq ve ts_i ts_o perf indoor,
    temperature_rows psy m perf indoor u speed ts_i ts_o = Ok temp ->
    (forall t s, indoor t = Ok s -> indoor_air psy m (F_to_C t) = Ok s) ->
    (forall c r, perf c = Ok r -> exists cop, performs M m u c (fst r) cop /\ snd r = 1 / cop) ->
    outputs_of (if nz then Some q0 else None) (map fst temp) = Ok vq ->
    outputs_of (if nz then Some (1 / cop0) else None) (map snd temp) = Ok ve ->
    table_axes objects cap = Some [map F_to_C ts_i; map F_to_C ts_o] ->
    table_axes objects eir = Some [map F_to_C ts_i; map F_to_C ts_o] ->
    table_outputs objects cap = Some vq -> table_outputs objects eir = Some ve ->
    grid_table objects cap (map F_to_C ts_i) (map F_to_C ts_o) (fun t_i t_o v =>
      exists q cop, performs_at_temperatures psy M m u speed t_i t_o q cop /\ v = written nz q q0) /\
    grid_table objects eir (map F_to_C ts_i) (map F_to_C ts_o) (fun t_i t_o v =>
      exists q cop, performs_at_temperatures psy M m u speed t_i t_o q cop /\
        v = written nz (1 / cop) (1 / cop0)).
  Proof.
    intros m u speed objects cap eir nz q0 cop0 temp vq ve ts_i ts_o perf indoor Et Hin Hperf
      Eq Ee Aq Ae Oq Oe.
    destruct (temperature_rows_entries psy m perf indoor u speed ts_i ts_o temp Et) as [L N].
    assert (P : forall i j x y, nth_error (map F_to_C ts_i) i = Some x ->
      nth_error (map F_to_C ts_o) j = Some y ->
      exists r cop, performs_at_temperatures psy M m u speed x y (fst r) cop /\ snd r = 1 / cop /\
        nth_error temp (i * List.length (map F_to_C ts_o) + j) = Some r).
    { intros i j x y Hx Hy. rewrite nth_error_map in Hx, Hy.
      destruct (nth_error ts_i i) as [ti |] eqn:Ei; [| discriminate Hx].
      destruct (nth_error ts_o j) as [tj |] eqn:Ej; [| discriminate Hy].
      cbn [option_map] in Hx, Hy.
      assert (x = F_to_C ti) by congruence. assert (y = F_to_C tj) by congruence. subst x y.
      destruct (N i j ti tj Ei Ej) as (si & so & c & r & S1 & S2 & S3 & S4 & S5).
      destruct (Hperf c r S4) as (cop & Q1 & Q2).
      exists r, cop. split; [| split; [exact Q2 | rewrite map_length; exact S5]].
      exists si, so, c. split; [apply Hin, S1 |]. split; [| split; assumption].
      rewrite fr_C_F_to_C. exact S2. }
    split; (split; [assumption | split]).
    - exists vq. split; [assumption |]. rewrite (outputs_len _ _ _ Eq), !map_length. exact L.
    - intros i j x y Hx Hy. destruct (P i j x y Hx Hy) as (r & cop & P1 & P2 & P3).
      exists (written nz (fst r) q0). split; [| exists (fst r), cop; auto].
      apply (entry2 _ _ _ _ vq _ _ _ _ _ Aq Oq Hx Hy).
      apply (outputs_entry nz q0 _ _ _ _ Eq). rewrite nth_error_map, P3. reflexivity.
    - exists ve. split; [assumption |]. rewrite (outputs_len _ _ _ Ee), !map_length. exact L.
    - intros i j x y Hx Hy. destruct (P i j x y Hx Hy) as (r & cop & P1 & P2 & P3).
      exists (written nz (snd r) (1 / cop0)). split; [| exists (fst r), cop; rewrite P2; auto].
      apply (entry2 _ _ _ _ ve _ _ _ _ _ Ae Oe Hx Hy).
      apply (outputs_entry nz (1 / cop0) _ _ _ _ Ee). rewrite nth_error_map, P3. reflexivity.
  Qed.

  Lemma line_of : forall m (u : dxunit R) speed objects cap eir (nz : bool) (q0 cop0 : R) c flow vq ve l perf,
    make_condition psy m u speed None None = Ok c ->
    flow_rows psy perf c l = Ok flow ->
    (forall c r, perf c = Ok r -> exists cop, performs M m u c (fst r) cop /\ snd r = 1 / cop) ->
    outputs_of (if nz then Some q0 else None) (map fst flow) = Ok vq ->
    outputs_of (if nz then Some (1 / cop0) else None) (map snd flow) = Ok ve ->
    table_axes objects cap = Some [l] -> table_axes objects eir = Some [l] ->
    table_outputs objects cap = Some vq -> table_outputs objects eir = Some ve ->
    line_table objects cap l (fun ff v =>
      exists q cop, performs_at_flow psy M m u speed ff q cop /\ v = written nz q q0) /\
    line_table objects eir l (fun ff v =>
      exists q cop, performs_at_flow psy M m u speed ff q cop /\
        v = written nz (1 / cop) (1 / cop0)).
  Proof.
    intros m u speed objects cap eir nz q0 cop0 c flow vq ve l perf Ec Ef Hperf Eq Ee Aq Ae Oq Oe.
    pose proof (flow_rows_entries psy m u speed c perf l flow Ec Ef) as F.
    pose proof (Forall2_len _ _ _ F) as L.
    assert (P : forall i x, nth_error l i = Some x -> exists r cop,
      performs_at_flow psy M m u speed x (fst r) cop /\ snd r = 1 / cop /\ nth_error flow i = Some r).
    { intros i x Hx. destruct (Forall2_nth_l _ _ _ i x F Hx) as (r & Hr & c' & E1 & E2).
      destruct (Hperf c' r E2) as (cop & Q1 & Q2). exists r, cop.
      split; [| split; assumption]. exists c, c'. auto. }
    split; (split; [assumption | split]).
    - exists vq. split; [assumption |]. rewrite (outputs_len _ _ _ Eq), !map_length. auto.
    - intros i x Hx. destruct (P i x Hx) as (r & cop & P1 & P2 & P3).
      exists (written nz (fst r) q0). split; [| exists (fst r), cop; auto].
      apply (entry1 _ _ _ vq _ _ _ Aq Oq Hx).
      apply (outputs_entry nz q0 _ _ _ _ Eq). rewrite nth_error_map, P3. reflexivity.
    - exists ve. split; [assumption |]. rewrite (outputs_len _ _ _ Ee), !map_length. auto.
    - intros i x Hx. destruct (P i x Hx) as (r & cop & P1 & P2 & P3).
      exists (written nz (snd r) (1 / cop0)). split; [| exists (fst r), cop; rewrite P2; auto].
      apply (entry1 _ _ _ ve _ _ _ Ae Oe Hx).
      apply (outputs_entry nz (1 / cop0) _ _ _ _ Ee). rewrite nth_error_map, P3. reflexivity.
  Qed.

  Lemma eir_outputs : forall (nz : bool) (cop eir : R) (l v : list R),
    (nz = true -> pydiv (lit 1) cop = Ok eir) ->
    outputs_of (if nz then Some eir else None) l = Ok v ->
    outputs_of (if nz then Some (1 / cop) else None) l = Ok v.
  Proof.
    intros nz cop eir l v H E. destruct nz; [| exact E].
    specialize (H eq_refl). apply pydiv_inv in H. destruct H as [_ H].
    rewrite lit1_R in H. subst eir. exact E.
  Qed.

  Lemma divisors_nonzero : forall (nz : bool) (q cop e : R) perf c flow v,
    (nz = true -> pydiv (lit 1) cop = Ok e) ->
    flow_rows psy perf c flow_fractions = Ok flow ->
    outputs_of (if nz then Some q else None) (map fst flow) = Ok v ->
    nz = true -> q <> 0 /\ cop <> 0.
  Proof.
    intros nz q cop e perf c flow v He Ef Ev ->. specialize (He eq_refl).
    apply pydiv_inv in He. destruct He as [Hc _]. split; [| exact Hc].
    unfold flow_fractions in Ef. cbn [flow_rows] in Ef.
    apply rbind_ok in Ef. destruct Ef as (c1 & _ & Ef).
    apply rbind_ok in Ef. destruct Ef as (r1 & _ & Ef).
    apply rbind_ok in Ef. destruct Ef as (rs & _ & Ef). apply Ok_inj in Ef. subst flow.
    cbn [map outputs_of rmapM] in Ev. apply rbind_ok in Ev. destruct Ev as (y & Ey & _).
    apply pydiv_inv in Ey. tauto.
  Qed.

  Variable sol : solvers R.

  Lemma idf_tables : forall u name t autosize nz cached objects,
    idf_objects psy sol M u name t autosize nz cached = Ok objects ->
    forall m k, (1 <= k <= sd_n (side_of m u))%nat ->
    let speed := (sd_n (side_of m u) - k)%nat in
    let table s := system_prefix name ++ mode_name m ++ s ++ show k in
    exists q0 cop0, performs_rated psy M m u speed q0 cop0 /\
      (nz = true -> q0 <> 0 /\ cop0 <> 0) /\
      (grid_table objects (table " CapfT ") (indoor_axis m) (outdoor_axis m u)
        (fun t_i t_o v => exists q cop,
           performs_at_temperatures psy M m u speed t_i t_o q cop /\ v = written nz q q0) /\
       grid_table objects (table " EIRfT ") (indoor_axis m) (outdoor_axis m u)
        (fun t_i t_o v => exists q cop,
           performs_at_temperatures psy M m u speed t_i t_o q cop /\
           v = written nz (1 / cop) (1 / cop0))) /\
      line_table objects (table " CapfFF ") flow_axis
        (fun ff v => exists q cop,
           performs_at_flow psy M m u speed ff q cop /\ v = written nz q q0) /\
      line_table objects (table " EIRfFF ") flow_axis
        (fun ff v => exists q cop,
           performs_at_flow psy M m u speed ff q cop /\ v = written nz (1 / cop) (1 / cop0)).
  Proof.
    intros u name t autosize nz cached objects E m k K speed table.
    apply idf_objects_inv in E. cbv zeta in E.
    set (sys := system_prefix name) in *.
    destruct E as (system & a & w & r & p & eff & n & fs & qc & ac & crank & xs & qh & ah & on
      & dmax & crank' & strategy & control & period & heater & eir & ys & Hsys & Hxs & Cxs & Hys
      & Hhs & _ & ->).
    destruct m; cbn [side_of] in *.
    - destruct (pick (fun x => fst (fst x)) xs _ k Hxs K) as (x & Ix & Ek).
      pose proof (proj1 (Forall_forall _ _) Cxs x Ix) as Ok_x.
      destruct x as [[k' [[[q shr] cop] air]] v]. cbn [fst] in Ek. subst k'.
      pose proof (ctables_found u sys t nz system a w r p eff n fs qc ac crank xs qh ah on dmax
        crank' strategy control period heater eir ys _ Ix) as F.
      unfold cspeed_tables, four_tables in F. cbn [fst snd] in F. cbv zeta in F.
      destruct Ok_x as (c & flow & temp & e & Ec & Eq & Ecop & Eshr & Eair & Eflow & Etemp & He & V).
      cbv zeta in V. destruct V as (V1 & V2 & V3 & V4).
      exists q, cop. split; [exists c; split; [exact Ec | split; assumption] |].
      split; [exact (divisors_nonzero nz q cop e _ _ flow _ He Eflow V1) |].
      unfold table. cbn [mode_name].
      rewrite <- indoor_cooling, <- (outdoor_cooling u), <- flow_axis_R.
      split.
      + eapply (grid_of Cooling u speed _ _ _ nz q cop temp _ _ _ _ _ _ Etemp).
        * intros ti s Hs. cbn [indoor_air]. rewrite fr_C_F_to_C. exact Hs.
        * apply cooling_performance_inv.
        * exact V3.
        * exact (eir_outputs nz cop e _ _ He V4).
        * eapply cooling_axes; [eassumption .. |]. apply F. cbn [In]. tauto.
        * eapply cooling_axes; [eassumption .. |]. apply F. cbn [In]. tauto.
        * eapply outputs_found; [eassumption .. |]. apply F. cbn [In]. tauto.
        * eapply outputs_found; [eassumption .. |]. apply F. cbn [In]. tauto.
      + eapply (line_of Cooling u speed _ _ _ nz q cop c flow _ _ _ _ Ec Eflow).
        * apply cooling_performance_inv.
        * exact V1.
        * exact (eir_outputs nz cop e _ _ He V2).
        * eapply flow_axes; [eassumption .. |]. apply F. cbn [In]. tauto.
        * eapply flow_axes; [eassumption .. |]. apply F. cbn [In]. tauto.
        * eapply outputs_found; [eassumption .. |]. apply F. cbn [In]. tauto.
        * eapply outputs_found; [eassumption .. |]. apply F. cbn [In]. tauto.
    - destruct (pick (fun x => fst (fst x)) ys _ k Hys K) as (x & Ix & Ek).
      pose proof (proj1 (Forall_forall _ _) Hhs x Ix) as Ok_x.
      destruct x as [[k' [[q cop] air]] v]. cbn [fst] in Ek. subst k'.
      pose proof (htables_found u sys t nz system a w r p eff n fs qc ac crank xs qh ah on dmax
        crank' strategy control period heater eir ys _ Ix) as F.
      unfold hspeed_tables, four_tables in F. cbn [fst snd] in F. cbv zeta in F.
      destruct Ok_x as (c & flow & temp & e & Ec & Eq & Ecop & Eair & Eflow & Etemp & He & V).
      cbv zeta in V. destruct V as (V1 & V2 & V3 & V4).
      exists q, cop. split; [exists c; split; [exact Ec | split; assumption] |].
      split; [exact (divisors_nonzero nz q cop e _ _ flow _ He Eflow V1) |].
      unfold table. cbn [mode_name].
      rewrite <- indoor_heating, <- (outdoor_heating u), <- flow_axis_R.
      split.
      + eapply (grid_of Heating u speed _ _ _ nz q cop temp _ _ _ _ _ _ Etemp).
        * intros ti s Hs. cbn [indoor_air]. rewrite fr_C_F_to_C. exact Hs.
        * apply heating_performance_inv.
        * exact V3.
        * exact (eir_outputs nz cop e _ _ He V4).
        * eapply heating_axes; [eassumption .. |]. apply F. cbn [In]. tauto.
        * eapply heating_axes; [eassumption .. |]. apply F. cbn [In]. tauto.
        * eapply outputs_found; [eassumption .. |]. apply F. cbn [In]. tauto.
        * eapply outputs_found; [eassumption .. |]. apply F. cbn [In]. tauto.
      + eapply (line_of Heating u speed _ _ _ nz q cop c flow _ _ _ _ Ec Eflow).
        * apply heating_performance_inv.
        * exact V1.
        * exact (eir_outputs nz cop e _ _ He V2).
        * eapply flow_axes; [eassumption .. |]. apply F. cbn [In]. tauto.
        * eapply flow_axes; [eassumption .. |]. apply F. cbn [In]. tauto.
        * eapply outputs_found; [eassumption .. |]. apply F. cbn [In]. tauto.
        * eapply outputs_found; [eassumption .. |]. apply F. cbn [In]. tauto.
  Qed.
End Tables.

Section Fields.
  Context {T : Type} {NT : Num T} {NX : NumX T}.
  Variable psy : psychro T.
  Variable sol : solvers T.
  Variable M : dxmodel T.

  Lemma idf_cooling_speed : forall u name t autosize nz cached objects,
    idf_objects psy sol M u name t autosize nz cached = Ok objects ->
    forall k, (1 <= k <= sd_n (u_c u))%nat ->
    let field := fun s v => exported objects "Coil:Cooling:DX:VariableSpeed"
      (system_prefix name ++ "Cooling Coil") ("Speed " ++ show k ++ s) v in
    let table s := VText (system_prefix name ++ "Cooling " ++ s ++ show k) in
    exists c q shr cop air,
      make_condition psy Cooling u (sd_n (u_c u) - k) None None = Ok c /\
      gross_total_cooling_capacity M u (Some c) = Ok q /\
      gross_shr M u (Some c) = Ok shr /\
      gross_total_cooling_cop M u (Some c) = Ok cop /\
      c_rated_volumetric_airflow c = Some air /\
      field " Reference Unit Gross Rated Total Cooling Capacity" (VNum 1 q) /\
      field " Reference Unit Gross Rated Sensible Heat Ratio" (VNum 3 shr) /\
      field " Reference Unit Gross Rated Cooling COP" (VNum 3 cop) /\
      field " Reference Unit Rated Air Flow Rate" (VNum 4 air) /\
      field " Total Cooling Capacity Function of Temperature Curve Name" (table "CapfT ") /\
      field " Total Cooling Capacity Function of Air Flow Fraction Curve Name" (table "CapfFF ") /\
      field " Energy Input Ratio Function of Temperature Curve Name" (table "EIRfT ") /\
      field " Energy Input Ratio Function of Air Flow Fraction Curve Name" (table "EIRfFF ").
  Proof.
    intros u name t autosize nz cached objects E k K field table.
    apply idf_objects_inv in E. cbv zeta in E.
    set (sys := system_prefix name) in *.
    destruct E as (system & a & w & r & p & eff & n & fs & qc & ac & crank & xs & qh & ah & on
      & dmax & crank' & strategy & control & period & heater & eir & ys & Hsys & Hxs & Cxs & Hys
      & Hhs & _ & ->).
    destruct (pick (fun x => fst (fst x)) xs _ k Hxs K) as (x & Ix & Ek).
    pose proof (proj1 (Forall_forall _ _) Cxs x Ix) as Ok_x.
    pose proof (cfield_found u sys t nz system a w r p eff n fs qc ac crank xs qh ah on dmax crank'
      strategy control period heater eir ys Hsys Hxs x Ix) as F.
    destruct x as [[k' [[[q shr] cop] air]] v]. cbn [fst] in Ek. subst k'. cbn [fst] in F.
    destruct Ok_x as (c & flow & temp & e & Ec & Eq & Ecop & Eshr & Eair & _).
    exists c, q, shr, cop, air. repeat (split; [assumption |]).
    assert (G : forall b f,
      find_field ("Speed " ++ show k ++ String " " b) (cooling_speed_fields sys k q shr cop air) = Some f ->
      field (String " " b) (fd_value f)) by exact F.
    assert (X : forall b b', b <> b' ->
      ("Speed " ++ show k ++ String " " b =? "Speed " ++ show k ++ String " " b')%string = false).
    { intros b b' N. apply String.eqb_neq. intros Q. apply append_inj_l, append_inj_l in Q. congruence. }
    assert (Y : forall b,
      ("Speed " ++ show k ++ String " " b =? "Speed " ++ show k ++ String " " b)%string = true).
    { intros b. apply String.eqb_refl. }
    Ltac ff := unfold find_field, cooling_speed_fields, heating_speed_fields;
      cbn [find fd_name num txt];
      repeat match goal with
        | [ X : forall b b', b <> b' -> _ |- context [(?a =? ?b)%string] ] =>
            first [ rewrite X by discriminate | match goal with [ Y : forall b, _ = true |- _ ] => rewrite Y end ]
        end; reflexivity.
    repeat split; eapply (G _ (mkField _ _)); ff.
  Qed.

  Lemma idf_heating_speed : forall u name t autosize nz cached objects,
    idf_objects psy sol M u name t autosize nz cached = Ok objects ->
    forall k, (1 <= k <= sd_n (u_h u))%nat ->
    let field := fun s v => exported objects "Coil:Heating:DX:VariableSpeed"
      (system_prefix name ++ "Heating Coil") ("Speed " ++ show k ++ s) v in
    let table s := VText (system_prefix name ++ "Heating " ++ s ++ show k) in
    exists c q cop air,
      make_condition psy Heating u (sd_n (u_h u) - k) None None = Ok c /\
      gross_steady_state_heating_capacity M u (Some c) = Ok q /\
      gross_steady_state_heating_cop M u (Some c) = Ok cop /\
      c_rated_volumetric_airflow c = Some air /\
      field " Reference Unit Gross Rated Heating Capacity" (VNum 2 q) /\
      field " Reference Unit Gross Rated Heating COP" (VNum 3 cop) /\
      field " Reference Unit Rated Air Flow Rate" (VNum 2 air) /\
      field " Heating Capacity Function of Temperature Curve Name" (table "CapfT ") /\
      field " Heating Capacity Function of Air Flow Fraction Curve Name" (table "CapfFF ") /\
      field " Energy Input Ratio Function of Temperature Curve Name" (table "EIRfT ") /\
      field " Energy Input Ratio Function of Air Flow Fraction Curve Name" (table "EIRfFF ").
  Proof.
    intros u name t autosize nz cached objects E k K field table.
    apply idf_objects_inv in E. cbv zeta in E.
    set (sys := system_prefix name) in *.
    destruct E as (system & a & w & r & p & eff & n & fs & qc & ac & crank & xs & qh & ah & on
      & dmax & crank' & strategy & control & period & heater & eir & ys & Hsys & Hxs & Cxs & Hys
      & Hhs & _ & ->).
    destruct (pick (fun x => fst (fst x)) ys _ k Hys K) as (x & Ix & Ek).
    pose proof (proj1 (Forall_forall _ _) Hhs x Ix) as Ok_x.
    pose proof (hfield_found u sys t nz system a w r p eff n fs qc ac crank xs qh ah on dmax crank'
      strategy control period heater eir ys Hsys Hys x Ix) as F.
    destruct x as [[k' [[q cop] air]] v]. cbn [fst] in Ek. subst k'. cbn [fst] in F.
    destruct Ok_x as (c & flow & temp & e & Ec & Eq & Ecop & Eair & _).
    exists c, q, cop, air. repeat (split; [assumption |]).
    assert (G : forall b f,
      find_field ("Speed " ++ show k ++ String " " b) (heating_speed_fields sys k q cop air) = Some f ->
      field (String " " b) (fd_value f)) by exact F.
    assert (X : forall b b', b <> b' ->
      ("Speed " ++ show k ++ String " " b =? "Speed " ++ show k ++ String " " b')%string = false).
    { intros b b' N. apply String.eqb_neq. intros Q. apply append_inj_l, append_inj_l in Q. congruence. }
    assert (Y : forall b,
      ("Speed " ++ show k ++ String " " b =? "Speed " ++ show k ++ String " " b)%string = true).
    { intros b. apply String.eqb_refl. }
    repeat split; eapply (G _ (mkField _ _)); ff.
  Qed.

  (** The coil-level speed fields. *)
  Lemma idf_speed_counts : forall u name t autosize nz cached objects,
    idf_objects psy sol M u name t autosize nz cached = Ok objects ->
    let cooling := exported objects "Coil:Cooling:DX:VariableSpeed"
                     (system_prefix name ++ "Cooling Coil") in
    let heating := exported objects "Coil:Heating:DX:VariableSpeed"
                     (system_prefix name ++ "Heating Coil") in
    cooling "Number of Speeds" (VInt (Z.of_nat (sd_n (u_c u)))) /\
    cooling "Nominal Speed Level" (VInt (Z.of_nat (sd_n (u_c u)) - Z.of_nat (sd_full (u_c u)))) /\
    heating "Number of Speeds" (VInt (Z.of_nat (sd_n (u_h u)))) /\
    heating "Nominal Speed Level" (VInt (Z.of_nat (sd_n (u_h u)) - Z.of_nat (sd_full (u_h u)))).
  Proof.
    intros u name t autosize nz cached objects E cooling heating.
    apply idf_objects_inv in E. cbv zeta in E.
    set (sys := system_prefix name) in *.
    destruct E as (system & a & w & r & p & eff & n & fs & qc & ac & crank & xs & qh & ah & on
      & dmax & crank' & strategy & control & period & heater & eir & ys & Hsys & Hxs & Cxs & Hys
      & Hhs & _ & ->).
    pose proof (ccoil_found u sys t nz system a w r p eff n fs qc ac crank xs qh ah on dmax crank'
      strategy control period heater eir ys Hsys) as F.
    pose proof (hcoil_found u sys t nz system a w r p eff n fs qc ac crank xs qh ah on dmax crank'
      strategy control period heater eir ys Hsys) as G.
    unfold named in F, G.
    destruct (filter _ _) as [| o [|]] eqn:FE in F; try discriminate F. injection F as F.
    destruct (filter _ _) as [| o' [|]] eqn:GE in G; try discriminate G. injection G as G.
    repeat split; unfold cooling, heating, exported.
    - exists o. split; [exact FE |]. rewrite F. reflexivity.
    - exists o. split; [exact FE |]. rewrite F. reflexivity.
    - exists o'. split; [exact GE |]. rewrite G. reflexivity.
    - exists o'. split; [exact GE |]. rewrite G. reflexivity.
  Qed.
End Fields.
