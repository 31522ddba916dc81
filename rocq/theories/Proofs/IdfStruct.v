(** The shape of the exported objects. *)
From Coq Require Import ZArith QArith Reals List String Ascii Bool Lia.
From Verif.Base Require Import Num Res Tac.
From Verif.Model Require Import Units Util Psychrometrics Conditions Defrost Fan Tabular Unit
  DXUnit Idf.
From Verif.Spec Require Import IdfSpec.
Import ListNotations.
Local Open Scope string_scope.

Lemma ins_app : forall {A} (a b : list A) x, ins (a ++ b) (List.length a) x = (a ++ x :: b)%list.
Proof.
  induction a as [| y a IH]; intros b x; [destruct b; reflexivity |].
  simpl. f_equal. apply IH.
Qed.

Section Struct.
  Context {T : Type} {NT : Num T} {NX : NumX T}.
  Variable psy : psychro T.
  Variable sol : solvers T.
  Variable M : dxmodel T.
  Local Open Scope string_scope.

  (** A lookup table with its output values. *)
  Definition lookup_object (name list_name : string) (normalised : bool) (p : nat)
      (outputs : list T) : idf_object T :=
    ("Table:Lookup",
     ([txt name "Name"; txt list_name "Independent Variable List Name";
       txt (if normalised then "None" else "AutomaticWithDivisor") "Normalization Method";
       num 2 (lit 1) "Normalization Divisor"; txt "" "Minimum Output";
       txt "" "Maximum Output"; txt "Dimensionless" "Output Unit Type";
       txt "" "External File Name"; txt "" "External File Column Number";
       txt "" "External File Starting Row Number"]
      ++ numbered "Output Value" p outputs)%list).

  (** The output values of a table of [values] with reference value [rated]. *)
  Definition outputs_of (rated : option T) (values : list T) : res (list T) :=
    match rated with None => Ok values | Some r => rmapM (fun v => pydiv v r) values end.
  Definition is_some {A} (o : option A) : bool :=
    match o with Some _ => true | None => false end.

  Lemma make_lookup_table_inv : forall name ln values p rated o,
    make_lookup_table name ln "Dimensionless" values p rated = Ok o ->
    exists outputs, outputs_of rated values = Ok outputs /\
      o = lookup_object name ln (is_some rated) p outputs.
  Proof.
    intros name ln values p rated o E. unfold make_lookup_table in E.
    change (match rated with None => Ok values | Some r => rmapM (fun v => pydiv v r) values end)
      with (outputs_of rated values) in E.
    destruct (outputs_of rated values) as [outputs | e]; [| discriminate E].
    exists outputs. split; [reflexivity |].
    cbn [rbind] in E. unfold lookup_object, is_some. congruence.
  Qed.

  Definition stems : list string := [" CapfFF "; " EIRfFF "; " CapfT "; " EIRfT "].

  (** The four tables of speed [k] (1-based) of a coil, given their outputs. *)
  Definition four_tables (sys side : string) (k : nat) (nz : bool)
      (v : list T * list T * (list T * list T)) : list (idf_object T) :=
    let ft := sys ++ side ++ " fT List" in
    [lookup_object (sys ++ side ++ " CapfFF " ++ show k) (sys ++ "fFF List") nz 2
       (fst (fst v));
     lookup_object (sys ++ side ++ " EIRfFF " ++ show k) (sys ++ "fFF List") nz 4
       (snd (fst v));
     lookup_object (sys ++ side ++ " CapfT " ++ show k) ft nz 2 (fst (snd v));
     lookup_object (sys ++ side ++ " EIRfT " ++ show k) ft nz 4 (snd (snd v))].

  Lemma speed_tables_inv : forall sys side k nz q cop flow temp tabs,
    speed_tables sys side (side ++ " fT List") k nz q cop flow temp = Ok tabs ->
    exists eir v,
      (nz = true -> pydiv (lit 1) cop = Ok eir) /\
      (let r x := if nz then Some x else None in
       outputs_of (r q) (map fst flow) = Ok (fst (fst v)) /\
       outputs_of (r eir) (map snd flow) = Ok (snd (fst v)) /\
       outputs_of (r q) (map fst temp) = Ok (fst (snd v)) /\
       outputs_of (r eir) (map snd temp) = Ok (snd (snd v))) /\
      tabs = four_tables sys side k nz v.
  Proof.
    intros sys side k nz q cop flow temp tabs E. unfold speed_tables in E.
    assert (X : exists eir, (nz = true -> pydiv (lit 1) cop = Ok eir) /\
      (if nz then let! e := pydiv (lit 1) cop in Ok (Some e) else Ok None)
      = Ok (if nz then Some eir else None)).
    { destruct nz.
      - destruct (pydiv (lit 1) cop) as [e | ?] eqn:D; [| discriminate E].
        exists e. split; [reflexivity | reflexivity].
      - exists q. split; [discriminate | reflexivity]. }
    destruct X as (eir & He & X). rewrite X in E. cbn [rbind] in E.
    apply rbind_ok in E; destruct E as (a & Ea & E).
    apply rbind_ok in E; destruct E as (b & Eb & E).
    apply rbind_ok in E; destruct E as (c & Ec & E).
    apply rbind_ok in E; destruct E as (d & Ed & E).
    apply make_lookup_table_inv in Ea, Eb, Ec, Ed.
    destruct Ea as (va & Va & ->), Eb as (vb & Vb & ->), Ec as (vc & Vc & ->),
      Ed as (vd & Vd & ->).
    exists eir, (va, vb, (vc, vd)). split; [exact He |]. split.
    - cbv zeta. cbn [fst snd]. repeat split; assumption.
    - apply Ok_inj in E. rewrite <- E. unfold four_tables. cbn [fst snd].
      destruct nz; reflexivity.
  Qed.

  (** The values exported for one cooling speed. *)
  Definition cooling_speed_values (u : dxunit T) (nz : bool) (speed : nat)
      (q shr cop air : T) (v : list T * list T * (list T * list T)) : Prop :=
    exists c flow temp eir,
      make_condition psy Cooling u speed None None = Ok c /\
      gross_total_cooling_capacity M u (Some c) = Ok q /\
      gross_total_cooling_cop M u (Some c) = Ok cop /\
      gross_shr M u (Some c) = Ok shr /\
      c_rated_volumetric_airflow c = Some air /\
      flow_rows psy (cooling_performance M u) c flow_fractions = Ok flow /\
      temperature_rows psy Cooling (cooling_performance M u) (cooling_indoor_state psy) u
        speed cooling_indoor_wet_bulbs cooling_outdoor_dry_bulbs = Ok temp /\
      (nz = true -> pydiv (lit 1) cop = Ok eir) /\
      (let r x := if nz then Some x else None in
       outputs_of (r q) (map fst flow) = Ok (fst (fst v)) /\
       outputs_of (r eir) (map snd flow) = Ok (snd (fst v)) /\
       outputs_of (r q) (map fst temp) = Ok (fst (snd v)) /\
       outputs_of (r eir) (map snd temp) = Ok (snd (snd v))).

  Lemma cooling_speed_inv : forall u sys nz speed x,
    cooling_speed psy M u sys nz speed = Ok x ->
    exists q shr cop air v, cooling_speed_values u nz speed q shr cop air v /\
      x = (cooling_speed_fields sys (sd_n (u_c u) - speed) q shr cop air,
           four_tables sys "Cooling" (sd_n (u_c u) - speed) nz v).
  Proof.
    intros u sys nz speed x E. unfold cooling_speed in E.
    apply rbind_ok in E; destruct E as (c & Ec & E).
    apply rbind_ok in E; destruct E as (q & Eq & E).
    apply rbind_ok in E; destruct E as (cop & Ecop & E).
    apply rbind_ok in E; destruct E as (shr & Eshr & E).
    apply rbind_ok in E; destruct E as (air & Eair & E). apply need_ok in Eair.
    apply rbind_ok in E; destruct E as (flow & Eflow & E).
    apply rbind_ok in E; destruct E as (temp & Etemp & E).
    apply rbind_ok in E; destruct E as (tabs & Etabs & E).
    apply (speed_tables_inv sys "Cooling") in Etabs.
    destruct Etabs as (eir & v & He & Hv & ->).
    exists q, shr, cop, air, v. split; [| apply Ok_inj in E; symmetry; exact E].
    exists c, flow, temp, eir. repeat (split; [assumption |]). exact Hv.
  Qed.

  (** The values exported for one heating speed. *)
  Definition heating_speed_values (u : dxunit T) (nz : bool) (speed : nat)
      (q cop air : T) (v : list T * list T * (list T * list T)) : Prop :=
    exists c flow temp eir,
      make_condition psy Heating u speed None None = Ok c /\
      gross_steady_state_heating_capacity M u (Some c) = Ok q /\
      gross_steady_state_heating_cop M u (Some c) = Ok cop /\
      c_rated_volumetric_airflow c = Some air /\
      flow_rows psy (heating_performance M u) c flow_fractions = Ok flow /\
      temperature_rows psy Heating (heating_performance M u) (rel_hum_state psy) u
        speed heating_indoor_dry_bulbs (heating_outdoor_dry_bulbs u) = Ok temp /\
      (nz = true -> pydiv (lit 1) cop = Ok eir) /\
      (let r x := if nz then Some x else None in
       outputs_of (r q) (map fst flow) = Ok (fst (fst v)) /\
       outputs_of (r eir) (map snd flow) = Ok (snd (fst v)) /\
       outputs_of (r q) (map fst temp) = Ok (fst (snd v)) /\
       outputs_of (r eir) (map snd temp) = Ok (snd (snd v))).

  Lemma heating_speed_inv : forall u sys nz speed x,
    heating_speed psy M u sys nz speed = Ok x ->
    exists q cop air v, heating_speed_values u nz speed q cop air v /\
      x = (heating_speed_fields sys (sd_n (u_h u) - speed) q cop air,
           four_tables sys "Heating" (sd_n (u_h u) - speed) nz v).
  Proof.
    intros u sys nz speed x E. unfold heating_speed in E.
    apply rbind_ok in E; destruct E as (c & Ec & E).
    apply rbind_ok in E; destruct E as (q & Eq & E).
    apply rbind_ok in E; destruct E as (cop & Ecop & E).
    apply rbind_ok in E; destruct E as (air & Eair & E). apply need_ok in Eair.
    apply rbind_ok in E; destruct E as (flow & Eflow & E).
    apply rbind_ok in E; destruct E as (temp & Etemp & E).
    apply rbind_ok in E; destruct E as (tabs & Etabs & E).
    apply (speed_tables_inv sys "Heating") in Etabs.
    destruct Etabs as (eir & v & He & Hv & ->).
    exists q, cop, air, v. split; [| apply Ok_inj in E; symmetry; exact E].
    exists c, flow, temp, eir. repeat (split; [assumption |]). exact Hv.
  Qed.

  (** A speed of the export: 1-based number and exported values. *)
  Definition cspeed : Type := (nat * (T * T * T * T) * (list T * list T * (list T * list T)))%type.
  Definition hspeed : Type := (nat * (T * T * T) * (list T * list T * (list T * list T)))%type.
  Definition cspeed_fields (sys : string) (x : cspeed) : list (idf_field T) :=
    let '(k, (q, shr, cop, air), _) := x in cooling_speed_fields sys k q shr cop air.
  Definition hspeed_fields (sys : string) (x : hspeed) : list (idf_field T) :=
    let '(k, (q, cop, air), _) := x in heating_speed_fields sys k q cop air.
  Definition cspeed_tables (sys : string) (nz : bool) (x : cspeed) : list (idf_object T) :=
    four_tables sys "Cooling" (fst (fst x)) nz (snd x).
  Definition hspeed_tables (sys : string) (nz : bool) (x : hspeed) : list (idf_object T) :=
    four_tables sys "Heating" (fst (fst x)) nz (snd x).
  Definition cspeed_ok (u : dxunit T) (nz : bool) (x : cspeed) : Prop :=
    let '(k, (q, shr, cop, air), v) := x in
    cooling_speed_values u nz (sd_n (u_c u) - k) q shr cop air v.
  Definition hspeed_ok (u : dxunit T) (nz : bool) (x : hspeed) : Prop :=
    let '(k, (q, cop, air), v) := x in
    heating_speed_values u nz (sd_n (u_h u) - k) q cop air v.

  (** Unit speeds counted down are EnergyPlus speeds counted up. *)
  Lemma rev_seq_up : forall n m a, (a + m)%nat = n ->
    map (fun s => n - s)%nat (rev (seq a m)) = seq 1 m.
  Proof.
    intros n. induction m as [| m IH]; intros a H; [reflexivity |].
    rewrite (seq_S m 1). change (seq a (S m)) with (a :: seq (S a) m).
    cbn [rev]. rewrite map_app, IH by lia.
    cbn [map]. f_equal. f_equal. lia.
  Qed.

  Lemma cooling_speeds_inv : forall u sys nz ss l,
    (forall s, In s ss -> (s < sd_n (u_c u))%nat) ->
    rmapM (cooling_speed psy M u sys nz) ss = Ok l ->
    exists xs, map (fun x => fst (fst x)) xs = map (fun s => sd_n (u_c u) - s)%nat ss /\
      Forall (cspeed_ok u nz) xs /\
      map fst l = map (cspeed_fields sys) xs /\ map snd l = map (cspeed_tables sys nz) xs.
  Proof.
    intros u sys nz. induction ss as [| s ss IH]; intros l H E.
    - cbn [rmapM] in E. apply Ok_inj in E. subst l. exists []. repeat split. constructor.
    - cbn [rmapM] in E. apply rbind_ok in E. destruct E as (x & Ex & E).
      apply rbind_ok in E. destruct E as (l' & El & E). apply Ok_inj in E. subst l.
      destruct (IH l' (fun s' I => H s' (or_intror I)) El) as (xs & A & B & C & D).
      apply cooling_speed_inv in Ex. destruct Ex as (q & shr & cop & air & v & V & ->).
      assert (L : (s < sd_n (u_c u))%nat) by (apply H; left; reflexivity).
      exists (((sd_n (u_c u) - s)%nat, (q, shr, cop, air), v) :: xs).
      cbn [map fst snd]. repeat split.
      + f_equal. exact A.
      + constructor; [| exact B]. unfold cspeed_ok.
        replace (sd_n (u_c u) - (sd_n (u_c u) - s))%nat with s by lia. exact V.
      + cbn [cspeed_fields]. f_equal. exact C.
      + unfold cspeed_tables at 1. cbn [fst snd]. f_equal. exact D.
  Qed.

  Lemma heating_speeds_inv : forall u sys nz ss l,
    (forall s, In s ss -> (s < sd_n (u_h u))%nat) ->
    rmapM (heating_speed psy M u sys nz) ss = Ok l ->
    exists xs, map (fun x => fst (fst x)) xs = map (fun s => sd_n (u_h u) - s)%nat ss /\
      Forall (hspeed_ok u nz) xs /\
      map fst l = map (hspeed_fields sys) xs /\ map snd l = map (hspeed_tables sys nz) xs.
  Proof.
    intros u sys nz. induction ss as [| s ss IH]; intros l H E.
    - cbn [rmapM] in E. apply Ok_inj in E. subst l. exists []. repeat split. constructor.
    - cbn [rmapM] in E. apply rbind_ok in E. destruct E as (x & Ex & E).
      apply rbind_ok in E. destruct E as (l' & El & E). apply Ok_inj in E. subst l.
      destruct (IH l' (fun s' I => H s' (or_intror I)) El) as (xs & A & B & C & D).
      apply heating_speed_inv in Ex. destruct Ex as (q & cop & air & v & V & ->).
      assert (L : (s < sd_n (u_h u))%nat) by (apply H; left; reflexivity).
      exists (((sd_n (u_h u) - s)%nat, (q, cop, air), v) :: xs).
      cbn [map fst snd]. repeat split.
      + f_equal. exact A.
      + constructor; [| exact B]. unfold hspeed_ok.
        replace (sd_n (u_h u) - (sd_n (u_h u) - s))%nat with s by lia. exact V.
      + cbn [hspeed_fields]. f_equal. exact C.
      + unfold hspeed_tables at 1. cbn [fst snd]. f_equal. exact D.
  Qed.

  Lemma in_rev_seq : forall n s, In s (rev (seq 0 n)) -> (s < n)%nat.
  Proof. intros n s H. apply in_rev in H. apply in_seq in H. lia. Qed.

  (** The objects of a coil. *)
  Definition cooling_part (u : dxunit T) (sys : string) (nz : bool) (q a : option T)
      (crank : T) (xs : list cspeed) : list (idf_object T) :=
    ("Coil:Cooling:DX:VariableSpeed",
     (cooling_coil_fields u sys (sd_n (u_c u)) (sd_full (u_c u)) q a crank
      ++ List.concat (map (cspeed_fields sys) xs))%list)
    :: part_load_curve sys "Cooling" (sd_cd (u_c u))
    :: List.concat (map (cspeed_tables sys nz) xs).

  Lemma cooling_objects_inv : forall u sys az nz objects r,
    cooling_objects psy M u sys az nz objects = Ok r ->
    exists q a crank xs,
      map (fun x => fst (fst x)) xs = seq 1 (sd_n (u_c u)) /\ Forall (cspeed_ok u nz) xs /\
      sized az (gross_total_cooling_capacity M u None) = Ok q /\
      r = (objects ++ cooling_part u sys nz q a crank xs)%list.
  Proof.
    intros u sys az nz objects r E. unfold cooling_objects in E.
    apply rbind_ok in E; destruct E as (q & Eq & E).
    apply rbind_ok in E; destruct E as (a & Ea & E).
    apply rbind_ok in E; destruct E as (crank & Ecrank & E).
    apply rbind_ok in E; destruct E as (l & El & E).
    apply cooling_speeds_inv in El; [| apply in_rev_seq].
    destruct El as (xs & A & B & C & D).
    rewrite (rev_seq_up (sd_n (u_c u)) (sd_n (u_c u)) 0 eq_refl) in A.
    exists q, a, crank, xs. split; [exact A |]. split; [exact B |]. split; [exact Eq |].
    apply Ok_inj in E. rewrite <- E, ins_app, C, D. reflexivity.
  Qed.

  (** The texts of the defrost fields. *)
  Definition defrost_texts (u : dxunit T) (strategy control : string)
      (period heater : idf_value T) : Prop :=
    In strategy ["ReverseCycle"; "Resistive"] /\ In control ["Timed"; "OnDemand"] /\
    ((exists x, period = VNum 4 x) \/ period = VText "") /\
    ((exists x, heater = VNum 2 x) \/ heater = VText "").

  Definition heating_part (u : dxunit T) (sys : string) (nz : bool) (q a : option T)
      (on dmax crank : T) (strategy control : string) (period heater : idf_value T)
      (eir : T) (xs : list hspeed) : list (idf_object T) :=
    ("Coil:Heating:DX:VariableSpeed",
     (heating_coil_fields u sys (sd_n (u_h u)) (sd_full (u_h u)) q a on dmax crank
        strategy control period heater
      ++ List.concat (map (hspeed_fields sys) xs))%list)
    :: part_load_curve sys "Heating" (sd_cd (u_h u))
    :: defrost_curve u sys eir
    :: List.concat (map (hspeed_tables sys nz) xs).

  Lemma heating_objects_inv : forall u sys az nz cached objects r,
    heating_objects psy M u sys az nz cached objects = Ok r ->
    exists q a on dmax crank strategy control period heater eir xs,
      map (fun x => fst (fst x)) xs = seq 1 (sd_n (u_h u)) /\ Forall (hspeed_ok u nz) xs /\
      defrost_texts u strategy control period heater /\
      r = (objects ++ heating_part u sys nz q a on dmax crank strategy control period
                        heater eir xs)%list.
  Proof.
    intros u sys az nz cached objects r E. unfold heating_objects in E.
    apply rbind_ok in E; destruct E as (q & Eq & E).
    apply rbind_ok in E; destruct E as (a & Ea & E).
    apply rbind_ok in E; destruct E as (on & Eon & E).
    apply rbind_ok in E; destruct E as (crank & Ecrank & E).
    apply rbind_ok in E; destruct E as (period & Ep & E).
    apply rbind_ok in E; destruct E as (cop60 & E60 & E).
    apply rbind_ok in E; destruct E as (eir & Eeir & E).
    apply rbind_ok in E; destruct E as (l & El & E).
    apply heating_speeds_inv in El; [| apply in_rev_seq].
    destruct El as (xs & A & B & C & D).
    rewrite (rev_seq_up (sd_n (u_h u)) (sd_n (u_h u)) 0 eq_refl) in A.
    do 11 eexists. split; [exact A |]. split; [exact B |].
    split; [| apply Ok_inj in E; rewrite <- E, ins_app, C, D; reflexivity].
    repeat split.
    - destruct (df_strategy (u_defrost u)); simpl; tauto.
    - destruct (df_control (u_defrost u)); simpl; tauto.
    - destruct (df_control (u_defrost u)); inv_ok; subst; eauto.
    - destruct (df_strategy (u_defrost u)); eauto.
  Qed.

  Definition system_shape (sys : string) (t : system_type) (l : list (idf_object T)) : Prop :=
    match t with
    | ZONEHVAC_PTHP => l = pthp_objects sys
    | UNITARY_SYSTEM => exists r, l = [unitary_object sys r]
    | OTHER_SYSTEM => False
    end.
  Definition fan_outlet (t : system_type) : string :=
    match t with
    | UNITARY_SYSTEM => "Unitary Outlet Node"
    | _ => "Supply Fan Outlet Node"
    end.

  Definition fan_part (sys : string) (t : system_type) (a w : option T) (r p eff : T) (n : nat)
      (fs : list (T * T)) : idf_object T :=
    ("Fan:SystemModel",
     (fan_fields sys (fan_outlet t) a w r p eff n
      ++ List.concat (map (fun kx => fan_speed_fields (S (fst kx)) (fst (snd kx)) (snd (snd kx)))
                        (enumerate fs)))%list).

  Lemma fan_speeds_inv : forall (f : fan T) mx order i l,
    rmapM (fun ki =>
      let! ra := airflow_ratio sol f (snd ki) mx None in
      let! rw := power_ratio sol f (snd ki) mx None in
      Ok (fan_speed_fields (S (fst ki)) ra rw)) (combine (seq i (List.length order)) order) = Ok l ->
    exists fs, List.length fs = List.length order /\
      l = map (fun kx => fan_speed_fields (S (fst kx)) (fst (snd kx)) (snd (snd kx)))
            (combine (seq i (List.length fs)) fs).
  Proof.
    induction order as [| o order IH]; intros i l E.
    - cbn in E. apply Ok_inj in E. subst l. exists []. split; reflexivity.
    - cbn [List.length seq combine rmapM fst snd] in E.
      apply rbind_ok in E. destruct E as (x & Ex & E).
      apply rbind_ok in E. destruct E as (l' & El & E). apply Ok_inj in E. subst l.
      apply rbind_ok in Ex. destruct Ex as (ra & Era & Ex).
      apply rbind_ok in Ex. destruct Ex as (rw & Erw & Ex). apply Ok_inj in Ex. subst x.
      destruct (IH (S i) l' El) as (fs & L & ->).
      exists ((ra, rw) :: fs). cbn [List.length]. split; [f_equal; exact L | reflexivity].
  Qed.

  Lemma fan_object_inv : forall u sys t az o, fan_object sol u sys t az = Ok o ->
    exists a w r p eff n fs, o = fan_part sys t a w r p eff n fs.
  Proof.
    intros u sys t az o E. unfold fan_object in E.
    apply rbind_ok in E; destruct E as (f & Ef & E).
    apply rbind_ok in E; destruct E as (order & Eo & E).
    apply rbind_ok in E; destruct E as (mx & Emx & E).
    apply rbind_ok in E; destruct E as (mn & Emn & E).
    apply rbind_ok in E; destruct E as (p & Ep & E).
    apply rbind_ok in E; destruct E as (a & Ea & E).
    apply rbind_ok in E; destruct E as (r & Er & E).
    apply rbind_ok in E; destruct E as (w & Ew & E).
    apply rbind_ok in E; destruct E as (eff & Eeff & E).
    apply rbind_ok in E; destruct E as (l & El & E).
    apply fan_speeds_inv in El. destruct El as (fs & _ & ->).
    do 7 eexists. apply Ok_inj in E. symmetry. exact E.
  Qed.

  Lemma idf_objects_inv : forall u name t az nz cached objects,
    idf_objects psy sol M u name t az nz cached = Ok objects ->
    let sys := system_prefix name in
    exists system a w r p eff n fs qc ac crank xs qh ah on dmax crank' strategy control period
           heater eir ys,
      system_shape sys t system /\
      map (fun x => fst (fst x)) xs = seq 1 (sd_n (u_c u)) /\ Forall (cspeed_ok u nz) xs /\
      map (fun x => fst (fst x)) ys = seq 1 (sd_n (u_h u)) /\ Forall (hspeed_ok u nz) ys /\
      defrost_texts u strategy control period heater /\
      objects =
        (system ++ schedule_objects sys ++ fan_part sys t a w r p eff n fs
         :: variable_objects u sys
         ++ cooling_part u sys nz qc ac crank xs
         ++ heating_part u sys nz qh ah on dmax crank' strategy control period heater eir ys)%list.
  Proof.
    intros u name t az nz cached objects E sys. unfold idf_objects in E. fold sys in E.
    apply rbind_ok in E; destruct E as (system & Es & E).
    apply rbind_ok in E; destruct E as (f & Ef & E).
    apply rbind_ok in E; destruct E as (o1 & E1 & E).
    apply fan_object_inv in Ef. destruct Ef as (a & w & r & p & eff & n & fs & ->).
    apply cooling_objects_inv in E1. destruct E1 as (qc & ac & crank & xs & X1 & X2 & _ & ->).
    apply heating_objects_inv in E.
    destruct E as (qh & ah & on & dmax & crank' & strategy & control & period & heater & eir
                   & ys & Y1 & Y2 & Y3 & ->).
    exists system, a, w, r, p, eff, n, fs, qc, ac, crank, xs, qh, ah, on, dmax, crank',
      strategy, control, period, heater, eir, ys.
    split.
    { unfold system_objects in Es. destruct t; cbn [system_shape].
      - apply rbind_ok in Es; destruct Es as (? & ? & Es).
        apply rbind_ok in Es; destruct Es as (? & ? & Es).
        apply rbind_ok in Es; destruct Es as (rr & ? & Es).
        exists rr. apply Ok_inj in Es. symmetry. exact Es.
      - apply Ok_inj in Es. symmetry. exact Es.
      - discriminate Es. }
    repeat (split; [assumption |]).
    rewrite <- !app_assoc. reflexivity.
  Qed.
End Struct.
