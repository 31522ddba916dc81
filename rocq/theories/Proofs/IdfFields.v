(** C80, C81: the exported fan and the settings of the exported coils. *)
From Coq Require Import ZArith QArith Reals Lra List String Ascii Bool Lia Sorting Permutation.
From Verif.Base Require Import Num Res Tac.
From Verif.Model Require Import Units Util Psychrometrics Conditions Defrost Fan Tabular Unit
  DXUnit Idf.
From Verif.Spec Require Import UnitSpec FanSpec IdfSpec IdfPerfSpec IdfSettingsSpec.
From Verif.Proofs Require Import IdfText IdfStruct IdfNames IdfRefs IdfTables IdfPerf UnitsR
  FanProofs FanProofs3 MakeCond UnitProofs4 IdfFinal.
Import ListNotations.
Local Open Scope string_scope.

Section Fields.
  Context {T : Type} {NT : Num T} {NX : NumX T}.
  Variable psy : psychro T.
  Variable sol : solvers T.
  Variable M : dxmodel T.

  Ltac one := repeat (apply NoDup_cons;
    [let J := fresh in cbn [In]; intros J;
     repeat (destruct J as [J | J]; [apply append_inj_l in J; discriminate J |]); exact J |]);
    apply NoDup_nil.

  Lemma single_names u name t az nz cached objects :
    idf_objects psy sol M u name t az nz cached = Ok objects ->
    forall cl, In cl ["Fan:SystemModel"; "Coil:Cooling:DX:VariableSpeed";
                      "Coil:Heating:DX:VariableSpeed"; "Curve:Linear"; "Curve:Biquadratic";
                      "AirLoopHVAC:UnitarySystem"] ->
    NoDup (names [cl] objects).
  Proof.
    intros E cl I. apply idf_objects_inv in E. cbv zeta in E.
    set (sys := system_prefix name) in *.
    destruct E as (system & a & w & r & p & eff & n & fs & qc & ac & crank & xs & qh & ah & on
      & dmax & crank' & strategy & control & period & heater & eir & ys & Hsys & Hxs & Cxs & Hys
      & Hhs & _ & ->).
    change (system ++ schedule_objects sys ++ fan_part sys t a w r p eff n fs
       :: variable_objects u sys ++ cooling_part u sys nz qc ac crank xs
       ++ heating_part u sys nz qh ah on dmax crank' strategy control period heater eir ys)%list
      with (objs u sys t nz system a w r p eff n fs qc ac crank xs qh ah on dmax crank'
              strategy control period heater eir ys).
    rewrite names_objs.
    cbn [In] in I. repeat (destruct I as [<-|I]; [
      rewrite ctables_out, htables_out, ?app_nil_r by reflexivity;
      unfold system_shape in Hsys;
      destruct t; [destruct Hsys as [? ->] | rewrite Hsys | contradiction];
      match goal with |- NoDup ?l => let l' := eval cbv -[append] in l in change (NoDup l') end;
      one |]). destruct I.
  Qed.

  Lemma idf_open u name t az nz cached objects :
    let sys := system_prefix name in
    idf_objects psy sol M u name t az nz cached = Ok objects ->
    exists system f o o1, system_objects M u sys t = Ok system
      /\ (forall x, In x system -> In x o)
      /\ fan_object sol u sys t az = Ok f
      /\ cooling_objects psy M u sys az nz o = Ok o1
      /\ heating_objects psy M u sys az nz cached o1 = Ok objects
      /\ In f o.
  Proof.
    intros sys E. unfold idf_objects in E. fold sys in E.
    apply rbind_ok in E; destruct E as (system & Es & E).
    apply rbind_ok in E; destruct E as (f & Ef & E).
    apply rbind_ok in E; destruct E as (o1 & E1 & E).
    exists system, f. eexists. exists o1. split; [exact Es|]. split.
    { intros x I. apply in_or_app. left. exact I. }
    split; [exact Ef|]. split; [exact E1|]. split; [exact E|].
    apply in_or_app. right. apply in_or_app. right. left. reflexivity.
  Qed.

  Lemma cooling_open u sys az nz o o1 : cooling_objects psy M u sys az nz o = Ok o1 ->
    exists q a crank l, sized az (gross_total_cooling_capacity M u None) = Ok q
      /\ sized az (let! c := need AttributeError (rc_A_full (u_conds u)) in
                   need AttributeError (c_rated_volumetric_airflow c)) = Ok a
      /\ u_crank u = Some crank
      /\ In ("Coil:Cooling:DX:VariableSpeed",
             (cooling_coil_fields u sys (sd_n (u_c u)) (sd_full (u_c u)) q a crank ++ l)%list) o1
      /\ In (part_load_curve sys "Cooling" (sd_cd (u_c u))) o1
      /\ forall x, In x o -> In x o1.
  Proof.
    intros E. unfold cooling_objects in E.
    apply rbind_ok in E; destruct E as (q & Eq & E).
    apply rbind_ok in E; destruct E as (a & Ea & E).
    apply rbind_ok in E; destruct E as (crank & Ecrank & E). apply need_ok in Ecrank.
    apply rbind_ok in E; destruct E as (l & El & E). apply Ok_inj in E. rewrite ins_app in E.
    exists q, a, crank. eexists. subst o1. do 3 (split; [eassumption|]). split; [|split].
    - apply in_or_app. right. left. reflexivity.
    - apply in_or_app. right. right. left. reflexivity.
    - intros x I. apply in_or_app. auto.
  Qed.

  Definition dmax_of (d : defrost T) : T :=
    match df_strategy d with DSNone => lit (-999) | _ => to_C (df_high_temperature d) end.
  Definition strategy_of (d : defrost T) : string :=
    match df_strategy d with DSReverseCycle => "ReverseCycle" | _ => "Resistive" end.
  Definition control_of (d : defrost T) : string :=
    match df_control d with DCTimed => "Timed" | _ => "OnDemand" end.
  Definition heater_of (d : defrost T) : idf_value T :=
    match df_strategy d with DSResistive => VNum 2 (df_resistive_power d) | _ => VText "" end.
  Definition period_of (u : dxunit T) (v : idf_value T) : Prop :=
    match df_control (u_defrost u) with
    | DCTimed => exists c x, rc_H1_full (u_conds u) = Some c
                 /\ df_time_fraction (u_defrost u) c = Ok x /\ v = VNum 4 x
    | _ => v = VText ""
    end.

  Lemma heating_open u sys az nz cached o o1 : heating_objects psy M u sys az nz cached o = Ok o1 ->
    exists q a on crank period eir cop60 l,
      sized az (gross_steady_state_heating_capacity M u None) = Ok q
      /\ sized az (let! c := need AttributeError (rc_H1_full (u_conds u)) in
                   need AttributeError (c_rated_volumetric_airflow c)) = Ok a
      /\ u_heating_on u = Some on /\ u_crank u = Some crank
      /\ period_of u period
      /\ get_cooling_cop60 psy M u cached = Ok cop60 /\ pydiv (lit 1) cop60 = Ok eir
      /\ In ("Coil:Heating:DX:VariableSpeed",
             (heating_coil_fields u sys (sd_n (u_h u)) (sd_full (u_h u)) q a on
                (dmax_of (u_defrost u)) crank (strategy_of (u_defrost u))
                (control_of (u_defrost u)) period (heater_of (u_defrost u)) ++ l)%list) o1
      /\ In (part_load_curve sys "Heating" (sd_cd (u_h u))) o1
      /\ In (defrost_curve u sys eir) o1
      /\ forall x, In x o -> In x o1.
  Proof.
    intros E. unfold heating_objects in E.
    apply rbind_ok in E; destruct E as (q & Eq & E).
    apply rbind_ok in E; destruct E as (a & Ea & E).
    apply rbind_ok in E; destruct E as (on & Eon & E). apply need_ok in Eon.
    apply rbind_ok in E; destruct E as (crank & Ecrank & E). apply need_ok in Ecrank.
    apply rbind_ok in E; destruct E as (period & Ep & E).
    apply rbind_ok in E; destruct E as (cop60 & E60 & E).
    apply rbind_ok in E; destruct E as (eir & Eeir & E).
    apply rbind_ok in E; destruct E as (l & El & E). apply Ok_inj in E. rewrite ins_app in E.
    exists q, a, on, crank, period, eir, cop60. eexists. subst o1.
    do 4 (split; [eassumption|]). split.
    { unfold period_of. destruct (df_control (u_defrost u)); inv_ok; subst; eauto.
      do 2 eexists. split; [|split; [eassumption|reflexivity]].
      match goal with H : need _ _ = Ok _ |- _ => apply need_ok in H; exact H end. }
    do 2 (split; [eassumption|]). split; [|split; [|split]].
    - apply in_or_app. right. left. reflexivity.
    - apply in_or_app. right. right. left. reflexivity.
    - apply in_or_app. right. right. right. left. reflexivity.
    - intros x I. apply in_or_app. auto.
  Qed.

  Lemma exported_in l cl s n (fs : list (idf_field T)) v :
    NoDup (names [cl] l) -> In (cl, fs) l -> name_of [cl] (cl, fs) = [s] ->
    field_of (cl, fs) n = Some v -> exported l cl s n v.
  Proof.
    intros N I E F. pose proof (named_in cl s (cl, fs) l N I E) as G. unfold named in G.
    unfold exported. destruct (filter _ _) as [|o [|]]; try discriminate G.
    injection G as ->. exists (cl, fs). auto.
  Qed.

  Lemma speed_skip k x sys outlet a w r p eff n :
    find_field ("Speed " ++ show k ++ x) (fan_fields (T:=T) sys outlet a w r p eff n) = None.
  Proof.
    destruct (show_digits k) as [D N]. destruct (show k) as [|c d]; [contradiction|].
    cbn [all_chars] in D. apply andb_prop in D. destruct D as [D _].
    destruct c as [[] [] [] [] [] [] [] []]; try discriminate D; destruct a, w; reflexivity.
  Qed.
End Fields.

Lemma lasti_inv {A} (l : list A) x : lasti l = Ok x -> exists l', l = (l' ++ [x])%list.
Proof.
  unfold lasti. destruct (rev l) as [|y r] eqn:E; [discriminate|]. intros H. injection H as ->.
  exists (rev r). rewrite <- (rev_involutive l), E. reflexivity.
Qed.

Lemma rmapM_all_ok {A B} (f : A -> res B) l l' : rmapM f l = Ok l' -> forall x, In x l ->
  exists y, f x = Ok y.
Proof.
  revert l'. induction l as [|a l IH]; intros l' H x I; [destruct I|]. cbn [rmapM] in H.
  apply rbind_ok in H; destruct H as (y & Hy & H).
  apply rbind_ok in H; destruct H as (ys & Hys & H).
  destruct I as [<-|I]; eauto.
Qed.

Local Open Scope R_scope.

Section Real.
  Variable psy : psychro R.
  Variable sol : solvers R.
  Variable M : dxmodel R.

  Lemma sized_field az (x : res R) v n : sized az x = Ok v -> forall y, x = Ok y ->
    fd_value (size v n) = size_field az y.
  Proof.
    unfold sized, size_field. intros E y ->. destruct az; cbn in E; injection E as <-; reflexivity.
  Qed.
  Lemma size_name (v : option R) n : fd_name (size v n) = n.
  Proof. destruct v; reflexivity. Qed.

  Lemma C_R (x : R) : to_C x = x - 273.15.
  Proof. unfold to_C. rnum. lra. Qed.

  Lemma exported_fan u name t az nz cached objects :
    idf_objects psy sol M u name t az nz cached = Ok objects ->
    let field := exported objects "Fan:SystemModel" (system_prefix name ++ "Supply Fan") in
    exists f order slower fastest A W p,
      u_fan u = Some f /\ slowest_to_fastest sol f order /\ order = (slower ++ [fastest])%list /\
      airflow sol f fastest None = Ok A /\ power sol f fastest None = Ok W /\
      operating_pressure sol f fastest = Ok p /\ A <> 0 /\ W <> 0 /\
      field "Design Maximum Air Flow Rate" (size_field az A) /\
      field "Design Electric Power Consumption" (size_field az W) /\
      field "Design Pressure Rise" (VNum 2 p) /\
      field "Fan Total Efficiency" (VNum 2 (A * p / W)) /\
      field "Motor Efficiency" (VNum 2 1) /\
      field "Motor In Air Stream Fraction" (VNum 2 1) /\
      field "Speed Control Method" (VText "Discrete") /\
      field "Design Power Sizing Method" (VText "TotalEfficiencyAndPressure") /\
      field "Number of Speeds" (VInt (Z.of_nat (f_n f))) /\
      (exists s a, nth_error order 0 = Some s /\ airflow sol f s None = Ok a /\
         field "Electric Power Minimum Flow Rate Fraction" (VNum 2 (a / A))) /\
      forall k, (1 <= k <= f_n f)%nat -> exists s a w, nth_error order (k - 1) = Some s /\
        airflow sol f s None = Ok a /\ power sol f s None = Ok w /\
        field ("Speed " ++ show k ++ " Flow Fraction") (VNum 2 (a / A)) /\
        field ("Speed " ++ show k ++ " Electric Power Fraction") (VNum 2 (w / W)).
  Proof.
    intros E. cbv zeta. pose proof (single_names psy sol M _ _ _ _ _ _ _ E _ (or_introl eq_refl)) as N.
    pose proof (idf_open psy sol M _ _ _ _ _ _ _ E) as (system & o & os & o1 & _ & _ & Ef & E1 & E2 & I). 
    destruct (cooling_open psy M _ _ _ _ _ _ E1) as (? & ? & ? & ? & _ & _ & _ & _ & _ & I1).
    destruct (heating_open psy M _ _ _ _ _ _ _ E2)
      as (? & ? & ? & ? & ? & ? & ? & ? & _ & _ & _ & _ & _ & _ & _ & _ & _ & _ & I2).
    apply I1, I2 in I. clear E1 E2 I1 I2 E.
    set (sys := system_prefix name) in *.
    unfold fan_object in Ef.
    apply rbind_ok in Ef; destruct Ef as (f & Hf & Ef). apply need_ok in Hf.
    apply rbind_ok in Ef; destruct Ef as (order & Ho & Ef).
    apply rbind_ok in Ef; destruct Ef as (mx & Hmx & Ef).
    apply rbind_ok in Ef; destruct Ef as (mn & Hmn & Ef).
    apply rbind_ok in Ef; destruct Ef as (p & Hp & Ef).
    apply rbind_ok in Ef; destruct Ef as (amax & Hamax & Ef).
    apply rbind_ok in Ef; destruct Ef as (rmin & Hrmin & Ef).
    apply rbind_ok in Ef; destruct Ef as (wmax & Hwmax & Ef).
    apply rbind_ok in Ef; destruct Ef as (eff & Heff & Ef).
    apply rbind_ok in Ef; destruct Ef as (speeds & Hs & Ef). apply Ok_inj in Ef. subst o.
    destruct (lasti_inv _ _ Hmx) as (slower & Eo).
    unfold airflow_ratio in Hrmin.
    apply rbind_ok in Hrmin; destruct Hrmin as (a1 & Ha1 & Hrmin).
    apply rbind_ok in Hrmin; destruct Hrmin as (A & HA & Hrmin).
    apply pydiv_inv in Hrmin. destruct Hrmin as (NA & ->).
    unfold efficiency, fluid_power in Heff.
    apply rbind_ok in Heff; destruct Heff as (fp & Hfp & Heff).
    rewrite HA in Hfp. cbn [rbind esp_or_operating] in Hfp. rewrite Hp in Hfp. cbn [rbind] in Hfp.
    apply Ok_inj in Hfp. subst fp.
    apply rbind_ok in Heff; destruct Heff as (W & HW & Heff).
    apply pydiv_inv in Heff. destruct Heff as (NW & ->).
    pose proof (speed_order_map_spec _ _ _ Ho) as (q & Hq & Hord).
    assert (Len : List.length order = f_n f).
    { destruct Hord as [P _]. apply Permutation_length in P. rewrite seq_length in P. congruence. }
    assert (X : forall n v, field_of (T:=R) ("Fan:SystemModel", (fan_fields sys
        match t with UNITARY_SYSTEM => "Unitary Outlet Node" | _ => "Supply Fan Outlet Node" end
        amax wmax (a1 / A) p (A * p / W) (f_n f) ++ List.concat speeds)%list) n = Some v ->
        exported objects "Fan:SystemModel" (sys ++ "Supply Fan") n v).
    { intros n v F. eapply exported_in; [exact N | exact I | reflexivity | exact F]. }
    exists f, order, slower, mx, A, W, p.
    split; [exact Hf|]. split; [exists q; auto|]. split; [exact Eo|]. split; [exact HA|].
    split; [exact HW|]. split; [exact Hp|]. split; [exact NA|]. split; [exact NW|].
    assert (L1 : lit (T:=R) 1 = 1) by apply lit1_R.
    split. { apply X. rewrite <- (sized_field _ _ _ "" Hamax _ HA). destruct amax; reflexivity. }
    split. { apply X. rewrite <- (sized_field _ _ _ "" Hwmax _ HW). destruct amax, wmax; reflexivity. }
    split. { apply X. destruct amax, wmax; reflexivity. }
    split. { apply X. destruct amax, wmax; reflexivity. }
    split. { apply X. rewrite <- L1. destruct amax, wmax; reflexivity. }
    split. { apply X. rewrite <- L1. destruct amax, wmax; reflexivity. }
    split. { apply X. destruct amax, wmax; reflexivity. }
    split. { apply X. destruct amax, wmax; reflexivity. }
    split. { apply X. destruct amax, wmax; reflexivity. }
    split. { exists mn, a1. split; [apply geti_ok; exact Hmn|]. split; [exact Ha1|].
      apply X. destruct amax, wmax; reflexivity. }
    intros k Hk. destruct (nth_error order (k - 1)) as [s|] eqn:Es;
      [|apply nth_error_None in Es; lia].
    set (g := fun ki : nat * nat => match airflow_ratio sol f (snd ki) mx None, power_ratio sol f (snd ki) mx None with
      | Ok ra, Ok rw => fan_speed_fields (S (fst ki)) ra rw | _, _ => [] end).
    assert (Sp : speeds = map g (enumerate order)).
    { clear - Hs. revert speeds Hs. generalize (enumerate order).
      induction l as [|x l IH]; intros speeds H; cbn [rmapM] in H.
      - apply Ok_inj in H. subst. reflexivity.
      - apply rbind_ok in H; destruct H as (y & Hy & H).
        apply rbind_ok in H; destruct H as (ys & Hys & H). apply Ok_inj in H. subst speeds.
        cbn [map]. f_equal; [|apply IH, Hys]. unfold g.
        apply rbind_ok in Hy; destruct Hy as (ra & -> & Hy).
        apply rbind_ok in Hy; destruct Hy as (rw & -> & Hy). apply Ok_inj in Hy. auto. }
    assert (Ien : In ((k - 1)%nat, s) (enumerate order)).
    { unfold enumerate. clear - Es Len Hk. 
      assert (Hl : (k - 1 < List.length order)%nat) by lia.
      apply nth_error_In with (n := (k - 1)%nat).
      rewrite (nth_error_nth' _ (O, O)) by (rewrite combine_length, seq_length; lia).
      rewrite combine_nth by (rewrite seq_length; reflexivity).
      rewrite seq_nth by exact Hl. f_equal. f_equal. apply nth_error_nth. exact Es. }
    assert (Hg : exists ra rw, airflow_ratio sol f s mx None = Ok ra /\ power_ratio sol f s mx None = Ok rw).
    { destruct (rmapM_all_ok _ _ _ Hs _ Ien) as (y & Hy). cbn [snd] in Hy.
      apply rbind_ok in Hy; destruct Hy as (ra & Hra & Hy).
      apply rbind_ok in Hy; destruct Hy as (rw & Hrw & Hy). eauto. }
    destruct Hg as (ra & rw & Hra & Hrw).
    assert (Gk : g ((k - 1)%nat, s) = fan_speed_fields k ra rw).
    { unfold g. cbn [fst snd]. rewrite Hra, Hrw. f_equal. lia. }
    unfold airflow_ratio in Hra. apply rbind_ok in Hra; destruct Hra as (a & Ha & Hra).
    rewrite HA in Hra. cbn [rbind] in Hra. apply pydiv_inv in Hra. destruct Hra as (_ & ->).
    unfold power_ratio in Hrw. apply rbind_ok in Hrw; destruct Hrw as (w & Hw & Hrw).
    rewrite HW in Hrw. cbn [rbind] in Hrw. apply pydiv_inv in Hrw. destruct Hrw as (_ & ->).
    exists s, a, w. split; [reflexivity|]. split; [exact Ha|]. split; [exact Hw|].
    assert (Y : forall x, find_field ("Speed " ++ show k ++ String " " x)
       (fan_fields sys
        match t with UNITARY_SYSTEM => "Unitary Outlet Node" | _ => "Supply Fan Outlet Node" end
        amax wmax (a1 / A) p (A * p / W) (f_n f) ++ List.concat speeds)%list
       = find_field ("Speed " ++ show k ++ String " " x) (fan_speed_fields k (a / A) (w / W))).
    { intros str. rewrite find_app, speed_skip, Sp.
      pose proof (find_speed (fun ki : nat * nat => S (fst ki)) g (enumerate order) ((k - 1)%nat, s) str) as Q.
      cbn [fst] in Q. replace (S (k - 1)) with k in Q by lia. rewrite Q, Gk; [reflexivity| | |exact Ien].
      - rewrite <- (map_map fst S). unfold enumerate.
        assert (Z : map fst (combine (seq 0 (List.length order)) order) = seq 0 (List.length order)).
        { clear. generalize O as i. induction order as [|y l IH]; intros i; [reflexivity|].
          cbn. f_equal. apply IH. }
        rewrite Z, seq_shift. apply seq_NoDup.
      - intros [j i]. unfold g. cbn [fst snd].
        destruct (airflow_ratio sol f i mx None), (power_ratio sol f i mx None); try apply Forall_nil.
        repeat (apply Forall_cons; [eexists; reflexivity|]). apply Forall_nil. }
    split; apply X; unfold field_of; cbn [snd].
    - change (find _ _) with (find_field ("Speed " ++ show k ++ String " " "Flow Fraction")
        (fan_fields sys
        match t with UNITARY_SYSTEM => "Unitary Outlet Node" | _ => "Supply Fan Outlet Node" end
        amax wmax (a1 / A) p (A * p / W) (f_n f) ++ List.concat speeds)%list).
      rewrite Y. unfold find_field, fan_speed_fields. cbn [find fd_name num]. unfold num.
      cbn [find fd_name]. rewrite String.eqb_refl. reflexivity.
    - change (find _ _) with (find_field ("Speed " ++ show k ++ String " " "Electric Power Fraction")
        (fan_fields sys
        match t with UNITARY_SYSTEM => "Unitary Outlet Node" | _ => "Supply Fan Outlet Node" end
        amax wmax (a1 / A) p (A * p / W) (f_n f) ++ List.concat speeds)%list).
      rewrite Y. unfold find_field, fan_speed_fields. unfold num. cbn [find fd_name].
      match goal with |- context [(?x =? ?y)%string] => destruct (String.eqb_spec x y) as [Q|_] end.
      { apply append_inj_l in Q. apply append_inj_l in Q. discriminate Q. }
      rewrite String.eqb_refl. reflexivity.
  Qed.

  Section Export.
    Variables (u : dxunit R) (name : option string) (t : system_type) (az nz : bool)
      (cached : option R) (objects : list (idf_object R)).
    Hypothesis E : idf_objects psy sol M u name t az nz cached = Ok objects.
    Let sys := system_prefix name.
    Let coil (m : mode) := exported objects (coil_class m) (sys ++ mode_name m ++ " Coil").

    Lemma unique cl : In cl ["Fan:SystemModel"; "Coil:Cooling:DX:VariableSpeed";
        "Coil:Heating:DX:VariableSpeed"; "Curve:Linear"; "Curve:Biquadratic";
                      "AirLoopHVAC:UnitarySystem"] ->
      NoDup (names [cl] objects).
    Proof. exact (single_names psy sol M _ _ _ _ _ _ _ E cl). Qed.

    Lemma cooling_coil_at : exists q a crank l,
      sized az (gross_total_cooling_capacity M u None) = Ok q
      /\ sized az (let! c := need AttributeError (rc_A_full (u_conds u)) in
                   need AttributeError (c_rated_volumetric_airflow c)) = Ok a
      /\ u_crank u = Some crank
      /\ In ("Coil:Cooling:DX:VariableSpeed",
             (cooling_coil_fields u sys (sd_n (u_c u)) (sd_full (u_c u)) q a crank ++ l)%list) objects
      /\ In (part_load_curve sys "Cooling" (sd_cd (u_c u))) objects.
    Proof.
      destruct (idf_open psy sol M _ _ _ _ _ _ _ E) as (system & o & os & o1 & _ & _ & _ & E1 & E2 & _).
      destruct (cooling_open psy M _ _ _ _ _ _ E1) as (q & a & crank & l & Hq & Ha & Hc & I1 & I2 & _).
      destruct (heating_open psy M _ _ _ _ _ _ _ E2)
        as (? & ? & ? & ? & ? & ? & ? & ? & _ & _ & _ & _ & _ & _ & _ & _ & _ & _ & I).
      exists q, a, crank, l. auto 10.
    Qed.
    Lemma heating_coil_at : exists q a on crank period eir cop60 l,
      sized az (gross_steady_state_heating_capacity M u None) = Ok q
      /\ sized az (let! c := need AttributeError (rc_H1_full (u_conds u)) in
                   need AttributeError (c_rated_volumetric_airflow c)) = Ok a
      /\ u_heating_on u = Some on /\ u_crank u = Some crank
      /\ period_of u period
      /\ get_cooling_cop60 psy M u cached = Ok cop60 /\ pydiv (lit 1) cop60 = Ok eir
      /\ In ("Coil:Heating:DX:VariableSpeed",
             (heating_coil_fields u sys (sd_n (u_h u)) (sd_full (u_h u)) q a on
                (dmax_of (u_defrost u)) crank (strategy_of (u_defrost u))
                (control_of (u_defrost u)) period (heater_of (u_defrost u)) ++ l)%list) objects
      /\ In (part_load_curve sys "Heating" (sd_cd (u_h u))) objects
      /\ In (defrost_curve u sys eir) objects.
    Proof.
      destruct (idf_open psy sol M _ _ _ _ _ _ _ E) as (system & o & os & o1 & _ & _ & _ & E1 & E2 & _).
      destruct (heating_open psy M _ _ _ _ _ _ _ E2)
        as (q & a & on & crank & period & eir & cop60 & l & H1 & H2 & H3 & H4 & H5 & H6 & H7 & H8 & H9
            & H10 & _).
      exists q, a, on, crank, period, eir, cop60, l. auto 15.
    Qed.

    Ltac cool := eapply exported_in; [first [apply unique | match goal with U : forall c, In c _ -> _ |- _ => apply U end]; cbn; auto 10 | eassumption | reflexivity |].

    Lemma exported_crankcase m : exists crank, u_crank u = Some crank /\
      coil m "Crankcase Heater Capacity" (VNum 2 crank) /\
      coil m "Maximum Outdoor Dry-Bulb Temperature for Crankcase Heater Operation"
        (VNum 2 (u_crank_setpoint u - 273.15)).
    Proof.
      unfold coil. rewrite <- C_R. destruct m.
      - destruct cooling_coil_at as (q & a & crank & l & Hq & Ha & Hc & I1 & I2).
        exists crank. split; [exact Hc|]. split; cool; destruct q, a; reflexivity.
      - destruct heating_coil_at as (q & a & on & crank & period & eir & cop60 & l & H1 & H2 & H3
          & H4 & H5 & H6 & H7 & H8 & H9 & H10).
        exists crank. split; [exact H4|]. split; cool; destruct q, a; reflexivity.
    Qed.

    Lemma exported_part_load m : exists s c1 c2,
      coil m "Part Load Fraction Correlation Curve Name" (VText s) /\
      (let curve := exported objects "Curve:Linear" s in
       curve "Coefficient1 Constant" (VNum 2 c1) /\ curve "Coefficient2 x" (VNum 2 c2) /\
       curve "Minimum Value of x" (VNum 2 0) /\ curve "Maximum Value of x" (VNum 2 1)) /\
      forall x, c1 + c2 * x = 1 - sd_cd (side_of m u) * (1 - x).
    Proof.
      unfold coil. exists (sys ++ mode_name m ++ " fPLR"), (1 - sd_cd (side_of m u)), (sd_cd (side_of m u)).
      assert (L1 : lit (T:=R) 1 = 1) by apply lit1_R.
      assert (L0 : lit (T:=R) 0 = 0) by apply lit0_R.
      assert (K : lit (T:=R) 1 - sd_cd (side_of m u) = 1 - sd_cd (side_of m u)) by (rewrite L1; reflexivity).
      assert (V1 : VNum 2 1 = VNum 2 (lit (T:=R) 1)) by (rewrite L1; reflexivity).
      assert (V0 : VNum 2 0 = VNum 2 (lit (T:=R) 0)) by (rewrite L0; reflexivity).
      cbv zeta. split; [|split; [|intros x; lra]]; [|rewrite V0, V1, <- K]; destruct m.
      - destruct cooling_coil_at as (q & a & crank & l & Hq & Ha & Hc & I1 & I2).
        cool; destruct q, a; reflexivity.
      - destruct heating_coil_at as (q & a & on & crank & period & eir & cop60 & l & H1 & H2 & H3
          & H4 & H5 & H6 & H7 & H8 & H9 & H10).
        cool; destruct q, a; reflexivity.
      - destruct cooling_coil_at as (q & a & crank & l & Hq & Ha & Hc & I1 & I2).
        unfold part_load_curve in I2. repeat split; cool; reflexivity.
      - destruct heating_coil_at as (q & a & on & crank & period & eir & cop60 & l & H1 & H2 & H3
          & H4 & H5 & H6 & H7 & H8 & H9 & H10).
        unfold part_load_curve in H9. repeat split; cool; reflexivity.
    Qed.

    Lemma exported_sizes m :
      if az then coil m (capacity_field m) (VText "Autosize") /\
                 coil m "Rated Air Flow Rate at Selected Nominal Speed Level" (VText "Autosize")
      else exists c q a, size_condition m u = Some c /\ coil_capacity M m u c = Ok q /\
             c_rated_volumetric_airflow c = Some a /\
             coil m (capacity_field m) (VNum 2 q) /\
             coil m "Rated Air Flow Rate at Selected Nominal Speed Level" (VNum 2 a).
    Proof.
      pose proof unique as U. unfold coil. destruct m.
      - destruct cooling_coil_at as (q & a & crank & l & Hq & Ha & Hc & I1 & I2). unfold sized in Hq, Ha.
        destruct az.
        + apply Ok_inj in Hq, Ha. subst q a. split; cool; reflexivity.
        + apply rbind_ok in Hq; destruct Hq as (q' & Hq & J). apply Ok_inj in J. subst q.
          apply rbind_ok in Ha; destruct Ha as (a' & Ha & J). apply Ok_inj in J. subst a.
          apply rbind_ok in Ha; destruct Ha as (c & Hcc & Ha). apply need_ok in Hcc, Ha.
          exists c, q', a'. split; [exact Hcc|]. split.
          { unfold coil_capacity. rewrite <- Hq. unfold gross_total_cooling_capacity, cooling_conditions.
            rewrite Hcc. reflexivity. }
          split; [exact Ha|]. split; cool; reflexivity.
      - destruct heating_coil_at as (q & a & on & crank & period & eir & cop60 & l & Hq & Ha & H3
          & H4 & H5 & H6 & H7 & H8 & H9 & H10). unfold sized in Hq, Ha.
        destruct az.
        + apply Ok_inj in Hq, Ha. subst q a. split; cool; reflexivity.
        + apply rbind_ok in Hq; destruct Hq as (q' & Hq & J). apply Ok_inj in J. subst q.
          apply rbind_ok in Ha; destruct Ha as (a' & Ha & J). apply Ok_inj in J. subst a.
          apply rbind_ok in Ha; destruct Ha as (c & Hcc & Ha). apply need_ok in Hcc, Ha.
          exists c, q', a'. split; [exact Hcc|]. split.
          { unfold coil_capacity. rewrite <- Hq. unfold gross_steady_state_heating_capacity, heating_conditions.
            rewrite Hcc. reflexivity. }
          split; [exact Ha|]. split; cool; reflexivity.
    Qed.

    Lemma exported_cut_out : exists on, u_heating_on u = Some on /\
      coil Heating "Minimum Outdoor Dry-Bulb Temperature for Compressor Operation"
        (VNum 2 (u_heating_off u - 273.15)) /\
      coil Heating "Outdoor Dry-Bulb Temperature to Turn On Compressor" (VNum 2 (on - 273.15)).
    Proof.
      unfold coil. destruct heating_coil_at as (q & a & on & crank & period & eir & cop60 & l & Hq & Ha & H3
          & H4 & H5 & H6 & H7 & H8 & H9 & H10).
      exists on. split; [exact H3|]. rewrite <- !C_R. split; cool; destruct q, a; reflexivity.
    Qed.

    Lemma exported_defrost : let d := u_defrost u in
      coil Heating "Maximum Outdoor Dry-Bulb Temperature for Defrost Operation"
        (VNum 2 (match df_strategy d with
                 | DSNone => -999
                 | _ => df_high_temperature d - 273.15
                 end)) /\
      coil Heating "Defrost Strategy"
        (VText (match df_strategy d with DSReverseCycle => "ReverseCycle" | _ => "Resistive" end)) /\
      coil Heating "Resistive Defrost Heater Capacity"
        (match df_strategy d with DSResistive => VNum 2 (df_resistive_power d) | _ => VText "" end) /\
      coil Heating "Defrost Control"
        (VText (match df_control d with DCTimed => "Timed" | _ => "OnDemand" end)) /\
      match df_control d with
      | DCTimed => exists c x, rc_H1_full (u_conds u) = Some c /\ df_time_fraction d c = Ok x /\
          coil Heating "Defrost Time Period Fraction" (VNum 4 x)
      | _ => coil Heating "Defrost Time Period Fraction" (VText "")
      end.
    Proof.
      cbv zeta. unfold coil. destruct heating_coil_at as (q & a & on & crank & period & eir & cop60 & l & Hq & Ha & H3
          & H4 & H5 & H6 & H7 & H8 & H9 & H10).
      assert (D : dmax_of (u_defrost u) = match df_strategy (u_defrost u) with
                 | DSNone => -999
                 | _ => df_high_temperature (u_defrost u) - 273.15
                 end).
      { unfold dmax_of. destruct (df_strategy (u_defrost u)); rewrite ?C_R; try reflexivity.
        unfold lit. rnum. lra. }
      rewrite <- D. split; [cool; destruct q, a; reflexivity|].
      split; [cool; destruct q, a; reflexivity|].
      split; [cool; destruct q, a; reflexivity|].
      split; [cool; destruct q, a; reflexivity|].
      unfold period_of in H5. destruct (df_control (u_defrost u)).
      all: try (subst period; cool; destruct q, a; reflexivity).
      all: destruct H5 as (c & x & Hc & Hx & ->); exists c, x; split; [exact Hc|];
        split; [exact Hx|]; cool; destruct q, a; reflexivity.
    Qed.

    Lemma exported_defrost_energy : exists s cop, cop <> 0 /\
      match cached with Some x => cop = x | None => cop_at_60 psy M u cop end /\
      coil Heating "Defrost Energy Input Ratio Function of Temperature Curve Name" (VText s) /\
      let curve := exported objects "Curve:Biquadratic" s in
      curve "Coefficient1 Constant" (VNum 4 (1 / cop)) /\
      Forall (fun n => curve n (VNum 2 0)) ["Coefficient2 x"; "Coefficient3 x**2";
        "Coefficient4 y"; "Coefficient5 y**2"; "Coefficient6 x*y"].
    Proof.
      unfold coil. destruct heating_coil_at as (q & a & on & crank & period & eir & cop60 & l & Hq & Ha & H3
          & H4 & H5 & H6 & H7 & H8 & H9 & H10).
      apply pydiv_inv in H7. destruct H7 as (Nc & ->).
      exists (sys ++ "Defrost EIR"), cop60. split; [exact Nc|]. split.
      { unfold get_cooling_cop60 in H6. destruct cached; [apply Ok_inj in H6; auto|].
        apply rbind_ok in H6; destruct H6 as (c & Hc & H6).
        replace (lit (T:=R) 70) with 70 in Hc by (unfold lit; rnum; lra).
        replace (lit (T:=R) 60) with 60 in Hc by (unfold lit; rnum; lra).
        replace (lit (T:=R) 48) with 48 in Hc by (unfold lit; rnum; lra).
        unfold cop_at_60. do 3 eexists. rewrite <- !fr_F_deg. 
        split; [reflexivity|]. split; [reflexivity|]. split; [|exact H6].
        exact Hc. }
      split; [cool; destruct q, a; reflexivity|].
      assert (L1 : lit (T:=R) 1 = 1) by apply lit1_R.
      assert (L0 : lit (T:=R) 0 = 0) by apply lit0_R.
      cbv zeta. unfold defrost_curve in H10. split.
      - rewrite <- L1 at 1. cool; reflexivity.
      - rewrite <- L0. repeat (apply Forall_cons; [cool; reflexivity|]). apply Forall_nil.
    Qed.

    Lemma exported_sizing_ratio : t = UNITARY_SYSTEM -> exists h c qh qc,
      rc_H1_full (u_conds u) = Some h /\ rc_A_full (u_conds u) = Some c /\
      gross_integrated_heating_capacity M u (Some h) = Ok qh /\
      gross_total_cooling_capacity M u (Some c) = Ok qc /\ qc <> 0 /\
      exported objects "AirLoopHVAC:UnitarySystem" (sys ++ "Unitary") "DX Heating Coil Sizing Ratio"
        (VNum 2 (qh / qc)).
    Proof.
      intros Et. pose proof unique as U.
      destruct (idf_open psy sol M _ _ _ _ _ _ _ E) as (system & o & os & o1 & Es & Is & _ & E1 & E2 & _).
      destruct (cooling_open psy M _ _ _ _ _ _ E1) as (? & ? & ? & ? & _ & _ & _ & _ & _ & I1).
      destruct (heating_open psy M _ _ _ _ _ _ _ E2)
        as (? & ? & ? & ? & ? & ? & ? & ? & _ & _ & _ & _ & _ & _ & _ & _ & _ & _ & I2).
      unfold system_objects in Es. fold sys in Es. rewrite Et in Es.
      apply rbind_ok in Es; destruct Es as (qh & Hh & Es).
      apply rbind_ok in Es; destruct Es as (qc & Hc & Es).
      apply rbind_ok in Es; destruct Es as (r & Hr & Es). apply Ok_inj in Es. subst system.
      apply pydiv_inv in Hr. destruct Hr as (N & ->).
      pose proof (I2 _ (I1 _ (Is _ (or_introl eq_refl)))) as I.
      unfold gross_integrated_heating_capacity, heating_conditions in Hh.
      destruct (rc_H1_full (u_conds u)) as [h|] eqn:Eh; [|discriminate Hh].
      unfold gross_total_cooling_capacity, cooling_conditions in Hc.
      destruct (rc_A_full (u_conds u)) as [c|] eqn:Ec; [|discriminate Hc].
      exists h, c, qh, qc. do 4 (split; [reflexivity || assumption|]). split; [exact N|].
      unfold unitary_object in I. cool. reflexivity.
    Qed.
  End Export.
End Real.
