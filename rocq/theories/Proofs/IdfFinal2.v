(** C60-C62: axes, normalisation and air path of the export. *)
From Coq Require Import ZArith QArith Reals Lra List String Ascii Bool Lia Sorting.
From Verif.Base Require Import Num Res Tac.
From Verif.Model Require Import Units Util Psychrometrics Conditions Defrost Fan Tabular Unit
  DXUnit Idf.
From Verif.Spec Require Import IdfSpec IdfPerfSpec.
From Verif.Proofs Require Import IdfText IdfStruct IdfNames IdfRefs IdfTables IdfPerf UnitsR
  MakeCond IdfFinal.
Import ListNotations.
Local Open Scope string_scope.
Local Open Scope R_scope.

(** * Air path *)
Section Path.
  Context {T : Type} {NT : Num T} {NX : NumX T}.
  Variable psy : psychro T.
  Variable sol : solvers T.
  Variable M : dxmodel T.

  Ltac one := repeat (apply NoDup_cons;
    [let J := fresh in cbn [In]; intros J;
     repeat (destruct J as [J | J]; [apply append_inj_l in J; discriminate J |]); exact J |]);
    apply NoDup_nil.

  Lemma idf_air_path : forall u name t autosize nz cached objects,
    idf_objects psy sol M u name t autosize nz cached = Ok objects ->
    let sys := system_prefix name in
    let system_class := match t with
                        | UNITARY_SYSTEM => "AirLoopHVAC:UnitarySystem"
                        | _ => "ZoneHVAC:PackagedTerminalHeatPump"
                        end in
    exists n1 n2 n3 n4 n5,
      inlet objects system_class (sys ++ "Unitary") = Some n1 /\
      inlet objects "Coil:Cooling:DX:VariableSpeed" (sys ++ "Cooling Coil") = Some n1 /\
      outlet objects "Coil:Cooling:DX:VariableSpeed" (sys ++ "Cooling Coil") = Some n2 /\
      inlet objects "Coil:Heating:DX:VariableSpeed" (sys ++ "Heating Coil") = Some n2 /\
      outlet objects "Coil:Heating:DX:VariableSpeed" (sys ++ "Heating Coil") = Some n3 /\
      inlet objects "Fan:SystemModel" (sys ++ "Supply Fan") = Some n3 /\
      outlet objects "Fan:SystemModel" (sys ++ "Supply Fan") = Some n4 /\
      outlet objects system_class (sys ++ "Unitary") = Some n5 /\
      NoDup [n1; n2; n3; n5] /\
      match t with
      | UNITARY_SYSTEM => n4 = n5
      | _ => inlet objects "Coil:Heating:Electric" (sys ++ "Supp Heating Coil") = Some n4 /\
             outlet objects "Coil:Heating:Electric" (sys ++ "Supp Heating Coil") = Some n5 /\
             ~ In n4 [n1; n2; n3; n5]
      end.
  Proof.
    intros u name t autosize nz cached objects E sys system_class.
    apply idf_objects_inv in E. cbv zeta in E. fold sys in E.
    destruct E as (system & a & w & r & p & eff & n & fs & qc & ac & crank & xs & qh & ah & on
      & dmax & crank' & strategy & control & period & heater & eir & ys & Hsys & Hxs & Cxs & Hys
      & Hhs & _ & ->).
    pose proof (ccoil_found u sys t nz system a w r p eff n fs qc ac crank xs qh ah on dmax crank'
      strategy control period heater eir ys Hsys) as Fc.
    pose proof (hcoil_found u sys t nz system a w r p eff n fs qc ac crank xs qh ah on dmax crank'
      strategy control period heater eir ys Hsys) as Fh.
    pose proof (names_fan u sys t nz system a w r p eff n fs qc ac crank xs qh ah on dmax crank'
      strategy control period heater eir ys Hsys) as Nf.
    pose proof (names_electric u sys t nz system a w r p eff n fs qc ac crank xs qh ah on dmax crank'
      strategy control period heater eir ys Hsys) as Ne.
    pose proof (fun cl => names_objs u sys t nz system a w r p eff n fs qc ac crank xs qh ah on dmax crank'
      strategy control period heater eir ys cl) as No.
    change (system ++ schedule_objects sys ++ fan_part sys t a w r p eff n fs
       :: variable_objects u sys ++ cooling_part u sys nz qc ac crank xs
       ++ heating_part u sys nz qh ah on dmax crank' strategy control period heater eir ys)%list
      with (objs u sys t nz system a w r p eff n fs qc ac crank xs qh ah on dmax crank'
              strategy control period heater eir ys).
    set (all := objs u sys t nz system a w r p eff n fs qc ac crank xs qh ah on dmax crank'
              strategy control period heater eir ys) in *.
    assert (Ff : named all "Fan:SystemModel" (sys ++ "Supply Fan")
                 = Some (fan_part sys t a w r p eff n fs)).
    { apply named_in; [rewrite Nf; one | | reflexivity].
      unfold all, objs. apply in_or_app. right. apply in_or_app. right. left. reflexivity. }
    assert (Fs : exists o, In o system /\ named all system_class (sys ++ "Unitary") = Some o /\
      field_of o "Air Inlet Node Name" = Some (VText (sys ++ "Unitary Inlet Node")) /\
      field_of o "Air Outlet Node Name" = Some (VText (sys ++ "Unitary Outlet Node"))).
    { assert (Nu : names [system_class] all = [sys ++ "Unitary"]).
      { rewrite (No [system_class]), ctables_out, htables_out, ?app_nil_r
          by (unfold system_class; destruct t; reflexivity).
        unfold system_shape in Hsys. unfold system_class.
        destruct t; [destruct Hsys as [? ->] | rewrite Hsys | contradiction]; reflexivity. }
      assert (X : exists o, In o system /\ name_of [system_class] o = [sys ++ "Unitary"] /\
        field_of o "Air Inlet Node Name" = Some (VText (sys ++ "Unitary Inlet Node")) /\
        field_of o "Air Outlet Node Name" = Some (VText (sys ++ "Unitary Outlet Node"))).
      { unfold system_shape in Hsys. unfold system_class.
        destruct t; [destruct Hsys as [rr ->] | rewrite Hsys | contradiction].
        - exists (unitary_object sys rr). split; [left; reflexivity | repeat split].
        - exists (hd ("", []) (pthp_objects sys)). split; [left; reflexivity | repeat split]. }
      destruct X as (o & I & N & F1 & F2). exists o. repeat split; try assumption.
      apply named_in; [rewrite Nu; one | | exact N].
      unfold all, objs. apply in_or_app. left. exact I. }
    destruct Fs as (o & _ & Fs & F1 & F2).
    exists (VText (sys ++ "Unitary Inlet Node")), (VText (sys ++ "Cooling Coil Outlet Node")),
      (VText (sys ++ "Heating Coil Outlet Node")), (VText (sys ++ fan_outlet t)),
      (VText (sys ++ "Unitary Outlet Node")).
    unfold inlet, outlet. rewrite Fs, Fc, Fh, Ff, F1, F2.
    assert (D : forall x y, x <> y -> VText (T:=T) (sys ++ x) <> VText (sys ++ y)).
    { intros x y N Q. injection Q as Q. apply append_inj_l in Q. contradiction. }
    repeat (split; [reflexivity |]). split.
    - repeat (apply NoDup_cons; [cbn [In]; intros J;
        repeat (destruct J as [J | J]; [revert J; apply D; discriminate |]); exact J |]).
      apply NoDup_nil.
    - unfold system_shape in Hsys. destruct t; [reflexivity | | contradiction].
      assert (Fe : named all "Coil:Heating:Electric" (sys ++ "Supp Heating Coil")
        = Some (nth 1 (pthp_objects sys) ("", []))).
      { apply named_in; [rewrite Ne; one | | reflexivity].
        unfold all, objs. apply in_or_app. left. rewrite Hsys. right. left. reflexivity. }
      rewrite Fe. split; [reflexivity |]. split; [reflexivity |].
      cbn [In]. intros J.
      repeat (destruct J as [J | J]; [revert J; apply D; discriminate |]); exact J.
  Qed.
End Path.

(** * Axes and normalisation *)
Section Axes.
  Variable psy : psychro R.
  Variable sol : solvers R.
  Variable M : dxmodel R.

  Lemma idf_axis : forall u name t autosize nz cached objects,
    idf_objects psy sol M u name t autosize nz cached = Ok objects ->
    let a s := axis objects (system_prefix name ++ s) in
    a "Cooling Indoor Wetbulb" = Some (indoor_axis Cooling) /\
    a "Cooling Outdoor Drybulb" = Some (outdoor_axis Cooling u) /\
    a "Heating Indoor Drybulb" = Some (indoor_axis Heating) /\
    a "Heating Outdoor Drybulb" = Some (outdoor_axis Heating u) /\
    a "Coil Flow Fraction" = Some flow_axis.
  Proof.
    intros u name t autosize nz cached objects E ax.
    apply idf_objects_inv in E. cbv zeta in E.
    set (sys := system_prefix name) in *.
    destruct E as (system & a & w & r & p & eff & n & fs & qc & ac & crank & xs & qh & ah & on
      & dmax & crank' & strategy & control & period & heater & eir & ys & Hsys & Hxs & Cxs & Hys
      & Hhs & _ & ->).
    rewrite <- indoor_cooling, <- (outdoor_cooling u), <- indoor_heating, <- (outdoor_heating u),
      <- flow_axis_R.
    unfold ax.
    repeat split; eapply variable_found; try eassumption; unfold variable_objects; cbn [In]; eauto 12.
  Qed.

  Ltac sorted := repeat (apply SSorted_cons || apply SSorted_nil || apply Forall_cons
                         || apply Forall_nil); unfold celsius; lra.

  Lemma idf_axes_increasing : forall u name t autosize nz cached objects,
    idf_objects psy sol M u name t autosize nz cached = Ok objects ->
    (forall s, In s ["Cooling Indoor Wetbulb"; "Cooling Outdoor Drybulb";
                     "Heating Indoor Drybulb"; "Coil Flow Fraction"] ->
       exists l, axis objects (system_prefix name ++ s) = Some l /\ StronglySorted Rlt l) /\
    exists l, axis objects (system_prefix name ++ "Heating Outdoor Drybulb") = Some l /\
      (StronglySorted Rlt l <-> u_heating_off u < fr_F 5).
  Proof.
    intros u name t autosize nz cached objects E.
    destruct (idf_axis u name t autosize nz cached objects E) as (A1 & A2 & A3 & A4 & A5).
    split.
    - intros s I. cbn [In] in I. destruct I as [<- | [<- | [<- | [<- | []]]]];
        (eexists; split; [eassumption |]);
        unfold indoor_axis, outdoor_axis, flow_axis; cbn [map]; sorted.
    - eexists. split; [exact A4 |]. unfold outdoor_axis. cbn [map].
      assert (F : fr_F 5 = 273.15 + celsius 5) by (unfold fr_F, celsius; rnum; lra).
      rewrite F. split.
      + intros S. inversion S as [| ? ? _ G]. inversion G; subst. lra.
      + intros H. unfold celsius in *. sorted.
  Qed.

  Lemma idf_flow_normalised : forall u name t autosize cached objects,
    idf_objects psy sol M u name t autosize true cached = Ok objects ->
    forall m k s, (1 <= k <= sd_n (side_of m u))%nat -> In s [" CapfFF "; " EIRfFF "] ->
    table_entry objects (system_prefix name ++ mode_name m ++ s ++ show k) [1%nat]
    = Some ([1], 1).
  Proof.
    intros u name t autosize cached objects E m k s K I.
    destruct (idf_tables psy M sol u name t autosize true cached objects E m k K)
      as (q0 & cop0 & (c & Ec & P0) & Nz & _ & L1 & L2).
    destruct (Nz eq_refl) as [Nq Nc].
    assert (X : forall q cop, performs_at_flow psy M m u (sd_n (side_of m u) - k) 1 q cop ->
      q = q0 /\ cop = cop0).
    { intros q cop (c1 & c2 & E1 & E2 & P). rewrite Ec in E1. apply Ok_inj in E1. subst c1.
      rewrite (make_condition_ratio1 psy m u _ None None c Ec) in E2. apply Ok_inj in E2. subst c2.
      destruct m; unfold performs in *; destruct P as [Pa Pb], P0 as [Pc Pd];
        rewrite Pa in Pc; rewrite Pb in Pd; apply Ok_inj in Pc, Pd; auto. }
    destruct I as [<- | [<- | []]].
    - destruct L1 as (_ & _ & L). destruct (L 1%nat 1 eq_refl) as (v & Ev & q & cop & P & ->).
      rewrite Ev. destruct (X q cop P) as [-> ->]. unfold written.
      replace (q0 / q0) with 1 by (field; exact Nq). reflexivity.
    - destruct L2 as (_ & _ & L). destruct (L 1%nat 1 eq_refl) as (v & Ev & q & cop & P & ->).
      rewrite Ev. destruct (X q cop P) as [-> ->]. unfold written.
      replace (1 / cop0 / (1 / cop0)) with 1 by (field; exact Nc). reflexivity.
  Qed.
End Axes.
