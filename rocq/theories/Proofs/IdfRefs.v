(** C52: every reference of the export resolves to exactly one object. *)
From Coq Require Import ZArith QArith List String Ascii Bool Lia.
From Verif.Base Require Import Num Res Tac.
From Verif.Model Require Import Units Util Psychrometrics Conditions Defrost Fan Tabular Unit
  DXUnit Idf.
From Verif.Spec Require Import IdfSpec.
From Verif.Proofs Require Import IdfText IdfStruct IdfNames.
Import ListNotations.
Local Open Scope string_scope.

Section Refs.
  Context {T : Type} {NT : Num T} {NX : NumX T}.
  Notation object := (idf_object T).

  Definition ctables (sys : string) (nz : bool) (xs : list (@cspeed T)) : list object :=
    List.concat (map (cspeed_tables sys nz) xs).
  Definition htables (sys : string) (nz : bool) (xs : list (@hspeed T)) : list object :=
    List.concat (map (hspeed_tables sys nz) xs).

  Lemma ctables_eq : forall sys nz (xs : list (@cspeed T)), ctables sys nz xs
    = List.concat (map (fun x => four_tables sys "Cooling" (fst x) nz (snd x))
        (map (fun x => (fst (fst x), snd x)) xs)).
  Proof. intros. unfold ctables. rewrite map_map. reflexivity. Qed.
  Lemma htables_eq : forall sys nz (xs : list (@hspeed T)), htables sys nz xs
    = List.concat (map (fun x => four_tables sys "Heating" (fst x) nz (snd x))
        (map (fun x => (fst (fst x), snd x)) xs)).
  Proof. intros. unfold htables. rewrite map_map. reflexivity. Qed.

  Lemma ctables_out : forall cl sys nz xs, existsb (String.eqb "Table:Lookup") cl = false ->
    names cl (ctables sys nz xs) = [].
  Proof. intros. rewrite ctables_eq. apply tables_names_out, H. Qed.
  Lemma htables_out : forall cl sys nz xs, existsb (String.eqb "Table:Lookup") cl = false ->
    names cl (htables sys nz xs) = [].
  Proof. intros. rewrite htables_eq. apply tables_names_out, H. Qed.
  Lemma ctables_in : forall cl sys nz xs, existsb (String.eqb "Table:Lookup") cl = true ->
    names cl (ctables sys nz xs)
    = table_names sys "Cooling" (map (fun x => fst (fst x)) xs).
  Proof. intros. rewrite ctables_eq, tables_names_in by exact H. rewrite map_map. reflexivity. Qed.
  Lemma htables_in : forall cl sys nz xs, existsb (String.eqb "Table:Lookup") cl = true ->
    names cl (htables sys nz xs)
    = table_names sys "Heating" (map (fun x => fst (fst x)) xs).
  Proof. intros. rewrite htables_eq, tables_names_in by exact H. rewrite map_map. reflexivity. Qed.

  Variable u : dxunit T.
  Variables (sys : string) (t : system_type) (nz : bool).
  Variables (system : list object).
  Variables (a w : option T) (r p eff : T) (n : nat) (fs : list (T * T)).
  Variables (qc ac : option T) (crank : T) (xs : list (@cspeed T)).
  Variables (qh ah : option T) (on dmax crank' : T) (strategy control : string)
    (period heater : idf_value T) (eir : T) (ys : list (@hspeed T)).
  Hypothesis Hsys : system_shape sys t system.
  Hypothesis Hxs : map (fun x => fst (fst x)) xs = seq 1 (sd_n (u_c u)).
  Hypothesis Hys : map (fun x => fst (fst x)) ys = seq 1 (sd_n (u_h u)).
  Hypothesis Hdef : defrost_texts u strategy control period heater.

  Definition fan_o' := fan_part sys t a w r p eff n fs.
  Definition cpart := cooling_part u sys nz qc ac crank xs.
  Definition hpart := heating_part u sys nz qh ah on dmax crank' strategy control period
                        heater eir ys.
  Definition objs : list object :=
    (system ++ schedule_objects sys ++ fan_o' :: variable_objects u sys ++ cpart ++ hpart)%list.

  (** Names of everything but the tables. *)
  Lemma names_objs : forall cl,
    names cl objs =
    (names cl system ++ names cl (schedule_objects (T:=T) sys) ++ name_of cl fan_o'
     ++ names cl (variable_objects u sys)
     ++ (name_of cl (hd ("", []) cpart) ++ name_of cl (part_load_curve sys "Cooling" (sd_cd (u_c u)))
         ++ names cl (ctables sys nz xs))
     ++ name_of cl (hd ("", []) hpart)
     ++ name_of cl (part_load_curve sys "Heating" (sd_cd (u_h u)))
     ++ name_of cl (defrost_curve u sys eir) ++ names cl (htables sys nz ys))%list.
  Proof.
    intros cl. unfold objs. rewrite !names_app, names_cons, !names_app.
    reflexivity.
  Qed.

  Ltac named cl :=
    rewrite (names_objs cl), ?ctables_out, ?htables_out, ?app_nil_r by reflexivity;
    unfold system_shape in Hsys; destruct t;
    [destruct Hsys as [? ->] | rewrite Hsys | contradiction]; reflexivity.

  Lemma names_schedule : names ["Schedule:Compact"] objs = [sys ++ "Schedule"; sys ++ "Fan Mode Schedule"].
  Proof. named ["Schedule:Compact"]. Qed.
  Lemma names_fan : names ["Fan:SystemModel"] objs = [sys ++ "Supply Fan"].
  Proof. named ["Fan:SystemModel"]. Qed.
  Lemma names_hcoil : names ["Coil:Heating:DX:VariableSpeed"] objs = [sys ++ "Heating Coil"].
  Proof. named ["Coil:Heating:DX:VariableSpeed"]. Qed.
  Lemma names_ccoil : names ["Coil:Cooling:DX:VariableSpeed"] objs = [sys ++ "Cooling Coil"].
  Proof. named ["Coil:Cooling:DX:VariableSpeed"]. Qed.
  Lemma names_electric : names ["Coil:Heating:Electric"] objs =
    match t with ZONEHVAC_PTHP => [sys ++ "Supp Heating Coil"] | _ => [] end.
  Proof. named ["Coil:Heating:Electric"]. Qed.
  Lemma names_list : names ["Table:IndependentVariableList"] objs =
    [sys ++ "Cooling fT List"; sys ++ "fFF List"; sys ++ "Heating fT List"].
  Proof. named ["Table:IndependentVariableList"]. Qed.
  Lemma names_variable : names ["Table:IndependentVariable"] objs =
    [sys ++ "Cooling Outdoor Drybulb"; sys ++ "Cooling Indoor Wetbulb";
     sys ++ "Coil Flow Fraction"; sys ++ "Heating Outdoor Drybulb";
     sys ++ "Heating Indoor Drybulb"].
  Proof. named ["Table:IndependentVariable"]. Qed.
  Lemma names_curve : names curve_classes objs =
    List.app ((sys ++ "Cooling fPLR") :: table_names sys "Cooling" (seq 1 (sd_n (u_c u))))
      ((sys ++ "Heating fPLR") :: (sys ++ "Defrost EIR")
       :: table_names sys "Heating" (seq 1 (sd_n (u_h u)))).
  Proof.
    rewrite (names_objs curve_classes), ctables_in, htables_in, Hxs, Hys by reflexivity.
    unfold system_shape in Hsys; destruct t;
    [destruct Hsys as [? ->] | rewrite Hsys | contradiction]; reflexivity.
  Qed.
  Lemma names_lookup : names ["Table:Lookup"] objs =
    (table_names sys "Cooling" (seq 1 (sd_n (u_c u)))
      ++ table_names sys "Heating" (seq 1 (sd_n (u_h u))))%list.
  Proof.
    rewrite (names_objs ["Table:Lookup"]), ctables_in, htables_in, Hxs, Hys by reflexivity.
    unfold system_shape in Hsys; destruct t;
    [destruct Hsys as [? ->] | rewrite Hsys | contradiction]; reflexivity.
  Qed.

  (** Each name once. *)
  Ltac distinct :=
    repeat (apply NoDup_cons;
            [let J := fresh in
             cbn [In]; intros J;
             repeat (destruct J as [J | J]; [apply append_inj_l in J; discriminate J |]);
             exact J |]);
    apply NoDup_nil.
  Ltac one_name E := intros s I; apply once_named; rewrite E; [distinct | exact I].

  Lemma once_schedule : forall s, In s [sys ++ "Schedule"; sys ++ "Fan Mode Schedule"] ->
    defined_once objs ["Schedule:Compact"] s.
  Proof. one_name names_schedule. Qed.
  Lemma once_fan : forall s, In s [sys ++ "Supply Fan"] -> defined_once objs ["Fan:SystemModel"] s.
  Proof. one_name names_fan. Qed.
  Lemma once_hcoil : forall s, In s [sys ++ "Heating Coil"] ->
    defined_once objs ["Coil:Heating:DX:VariableSpeed"] s.
  Proof. one_name names_hcoil. Qed.
  Lemma once_ccoil : forall s, In s [sys ++ "Cooling Coil"] ->
    defined_once objs ["Coil:Cooling:DX:VariableSpeed"] s.
  Proof. one_name names_ccoil. Qed.
  Lemma once_list : forall s,
    In s [sys ++ "Cooling fT List"; sys ++ "fFF List"; sys ++ "Heating fT List"] ->
    defined_once objs ["Table:IndependentVariableList"] s.
  Proof. one_name names_list. Qed.
  Lemma once_variable : forall s,
    In s [sys ++ "Cooling Outdoor Drybulb"; sys ++ "Cooling Indoor Wetbulb";
     sys ++ "Coil Flow Fraction"; sys ++ "Heating Outdoor Drybulb";
     sys ++ "Heating Indoor Drybulb"] ->
    defined_once objs ["Table:IndependentVariable"] s.
  Proof. one_name names_variable. Qed.
  Lemma once_electric : t = ZONEHVAC_PTHP -> forall s, In s [sys ++ "Supp Heating Coil"] ->
    defined_once objs ["Coil:Heating:Electric"] s.
  Proof.
    intros E s I. apply once_named; rewrite names_electric, E; [distinct | exact I].
  Qed.

  Lemma sides_apart : forall ks ks' s, In s (table_names sys "Cooling" ks) ->
    ~ In s (table_names sys "Heating" ks').
  Proof.
    intros ks ks' s I J. apply table_names_in in I, J.
    destruct I as (k & st & _ & _ & ->), J as (k' & st' & _ & _ & E).
    apply append_inj_l in E. discriminate E.
  Qed.

  Lemma not_table : forall side x ks, (forall k st, In st stems -> x <> side ++ st ++ show k) ->
    ~ In (sys ++ x) (table_names sys side ks).
  Proof.
    intros side x ks H I. apply table_names_in in I. destruct I as (k & st & _ & Is & E).
    apply append_inj_l in E. exact (H k st Is E).
  Qed.
  Ltac stems_differ := intros k st Is E; cbn [In stems] in Is;
    repeat (destruct Is as [<- | Is]; [discriminate E |]); exact Is.

  Lemma lookup_NoDup : NoDup (names ["Table:Lookup"] objs).
  Proof.
    rewrite names_lookup. apply NoDup_app_intro.
    - apply table_names_NoDup, seq_NoDup.
    - apply table_names_NoDup, seq_NoDup.
    - intros s. apply sides_apart.
  Qed.

  Lemma curve_NoDup : NoDup (names curve_classes objs).
  Proof.
    rewrite names_curve. apply NoDup_app_intro.
    - constructor; [| apply table_names_NoDup, seq_NoDup].
      apply not_table. unfold stems. stems_differ.
    - constructor; [| constructor; [| apply table_names_NoDup, seq_NoDup]].
      + intros [I | I]; [apply append_inj_l in I; discriminate I |]. revert I.
        apply not_table. unfold stems. stems_differ.
      + apply not_table. unfold stems. stems_differ.
    - intros s [<- | I] [J | [J | J]].
      + apply append_inj_l in J. discriminate J.
      + apply append_inj_l in J. discriminate J.
      + revert J. apply not_table. unfold stems. stems_differ.
      + rewrite <- J in I. revert I. apply not_table. unfold stems. stems_differ.
      + rewrite <- J in I. revert I. apply not_table. unfold stems. stems_differ.
      + exact (sides_apart _ _ s I J).
  Qed.

  Lemma once_curve : forall s,
    In s [sys ++ "Cooling fPLR"; sys ++ "Heating fPLR"; sys ++ "Defrost EIR"] ->
    defined_once objs curve_classes s.
  Proof.
    intros s I. apply once_named; [exact curve_NoDup |]. rewrite names_curve.
    apply in_or_app. destruct I as [<- | [<- | [<- | []]]].
    - left. left. reflexivity.
    - right. left. reflexivity.
    - right. right. left. reflexivity.
  Qed.
  Lemma once_ctable : forall k st, (1 <= k <= sd_n (u_c u))%nat -> In st stems ->
    defined_once objs curve_classes (sys ++ "Cooling" ++ st ++ show k).
  Proof.
    intros k st K I. apply once_named; [exact curve_NoDup |]. rewrite names_curve.
    apply in_or_app. left. right. apply table_names_in. exists k, st.
    split; [apply in_seq; lia | split; [exact I | reflexivity]].
  Qed.
  Lemma once_htable : forall k st, (1 <= k <= sd_n (u_h u))%nat -> In st stems ->
    defined_once objs curve_classes (sys ++ "Heating" ++ st ++ show k).
  Proof.
    intros k st K I. apply once_named; [exact curve_NoDup |]. rewrite names_curve.
    apply in_or_app. right. right. right. apply table_names_in. exists k, st.
    split; [apply in_seq; lia | split; [exact I | reflexivity]].
  Qed.

  (** ** Every field resolved *)

  Definition resolved (f : idf_field T) : Prop := forall classes,
    refers_to (fd_name f) = Some classes -> fd_value f <> VText "" ->
    exists s, fd_value f = VText s /\ defined_once objs classes s.

  Lemma resolved_none : forall v s, refers_to s = None -> resolved (mkField v s).
  Proof. intros v s E classes R. cbn [fd_name] in R. congruence. Qed.
  Lemma resolved_size : forall x s, refers_to s = None -> resolved (size x s).
  Proof. intros [x |] s E; apply resolved_none, E. Qed.
  Lemma resolved_blank : forall s, resolved (txt "" s).
  Proof. intros s classes _ N. exfalso. apply N. reflexivity. Qed.
  Lemma resolved_ref : forall s name classes, refers_to name = Some classes ->
    defined_once objs classes s -> resolved (txt s name).
  Proof.
    intros s name classes R D cl R' _. cbn [fd_name txt] in R'.
    rewrite R in R'. injection R' as <-. exists s. split; [reflexivity | exact D].
  Qed.

  Ltac field_step :=
    first [ apply resolved_blank
          | apply resolved_size; vm_compute; reflexivity
          | apply resolved_none; vm_compute; reflexivity
          | eapply resolved_ref; [vm_compute; reflexivity |];
            first [ apply once_schedule | apply once_fan | apply once_hcoil
                  | apply once_ccoil | apply once_list | apply once_variable
                  | apply once_electric; [assumption || reflexivity |]
                  | apply once_curve ]; cbn [In]; tauto ].
  Ltac fields := repeat (apply Forall_cons; [field_step |]); try apply Forall_nil.

  Lemma ends_with_last : forall c suf s, last_char suf = Some c -> last_char s <> Some c ->
    ends_with suf s = false.
  Proof.
    intros c suf s L N. destruct (ends_with suf s) eqn:E; [| reflexivity].
    exfalso. apply ends_with_split in E. destruct E as [q ->]. apply N.
    rewrite last_char_app; [exact L |]. intros ->. discriminate L.
  Qed.

  Lemma refers_last : forall s, last_char s <> Some "e"%char ->
    String.prefix "Independent Variable" s = false -> refers_to s = None.
  Proof.
    intros s L P. unfold refers_to.
    rewrite !(ends_with_last "e"%char _ s) by (exact L || reflexivity). rewrite P.
    assert (X : forall x, last_char x = Some "e"%char -> (s =? x) = false).
    { intros x Ex. apply String.eqb_neq. intros ->. contradiction. }
    rewrite !X by reflexivity. reflexivity.
  Qed.

  Lemma last_show : forall x k, last_char (x ++ show k) <> Some "e"%char.
  Proof.
    intros x k L. destruct (show_digits k) as [D N].
    rewrite last_char_app in L by exact N.
    apply (last_char_all digit) in L; [discriminate L | exact D].
  Qed.

  Lemma numbered_resolved : forall label p0 values, In label ["Value"; "Output Value"] ->
    Forall resolved (numbered label p0 values).
  Proof.
    intros label p0 values H. unfold numbered. apply Forall_map, Forall_forall.
    intros [i v] _. apply resolved_none. cbn [fst snd].
    rewrite <- append_assoc. apply refers_last; [apply last_show |].
    destruct H as [<- | [<- | []]]; reflexivity.
  Qed.

  (** A field name that ends in a long enough fixed text. *)
  Definition refers_speed (b : string) : option (list string) :=
    if ends_with "Schedule Name" b then Some ["Schedule:Compact"]
    else if ends_with "Supply Fan Name" b then Some ["Fan:SystemModel"]
    else if ends_with "Curve Name" b then Some curve_classes
    else if ends_with "Variable List Name" b then Some ["Table:IndependentVariableList"]
    else None.

  Lemma speed_refers : forall k b, (18 <= String.length b)%nat ->
    refers_to ("Speed " ++ show k ++ b) = refers_speed b.
  Proof.
    intros k b H. rewrite <- append_assoc. unfold refers_to, refers_speed.
    rewrite !ends_with_app by (cbn [String.length]; lia). reflexivity.
  Qed.

  Lemma speed_none : forall v k b, (18 <= String.length b)%nat -> refers_speed b = None ->
    resolved (mkField v ("Speed " ++ show k ++ b)).
  Proof. intros v k b H E. apply resolved_none. rewrite speed_refers by exact H. exact E. Qed.
  Lemma speed_curve : forall s k b, (18 <= String.length b)%nat ->
    refers_speed b = Some curve_classes -> defined_once objs curve_classes s ->
    resolved (txt s ("Speed " ++ show k ++ b)).
  Proof.
    intros s k b H E D. apply (resolved_ref _ _ curve_classes); [| exact D].
    rewrite speed_refers by exact H. exact E.
  Qed.

  Ltac far := cbn [String.length]; lia.
  Ltac speed_none_tac := apply speed_none; [far | reflexivity].

  Lemma cspeed_resolved : forall x, (1 <= fst (fst x) <= sd_n (u_c u))%nat ->
    Forall resolved (cspeed_fields sys x).
  Proof.
    intros [[k [[[q shr] cop] air]] v] K. cbn [fst snd] in K.
    unfold cspeed_fields, cooling_speed_fields.
    do 4 (apply Forall_cons; [speed_none_tac |]).
    do 2 (apply Forall_cons; [apply resolved_blank |]).
    apply Forall_cons; [apply speed_curve; [far | reflexivity | exact (once_ctable k " CapfT " K ltac:(unfold stems; cbn [In]; tauto))] |].
    apply Forall_cons; [apply speed_curve; [far | reflexivity | exact (once_ctable k " CapfFF " K ltac:(unfold stems; cbn [In]; tauto))] |].
    apply Forall_cons; [apply speed_curve; [far | reflexivity | exact (once_ctable k " EIRfT " K ltac:(unfold stems; cbn [In]; tauto))] |].
    apply Forall_cons; [apply speed_curve; [far | reflexivity | exact (once_ctable k " EIRfFF " K ltac:(unfold stems; cbn [In]; tauto))] |].
    apply Forall_nil.
  Qed.

  Lemma hspeed_resolved : forall x, (1 <= fst (fst x) <= sd_n (u_h u))%nat ->
    Forall resolved (hspeed_fields sys x).
  Proof.
    intros [[k [[q cop] air]] v] K. cbn [fst snd] in K.
    unfold hspeed_fields, heating_speed_fields.
    do 3 (apply Forall_cons; [speed_none_tac |]).
    apply Forall_cons; [apply speed_curve; [far | reflexivity | exact (once_htable k " CapfT " K ltac:(unfold stems; cbn [In]; tauto))] |].
    apply Forall_cons; [apply speed_curve; [far | reflexivity | exact (once_htable k " CapfFF " K ltac:(unfold stems; cbn [In]; tauto))] |].
    apply Forall_cons; [apply speed_curve; [far | reflexivity | exact (once_htable k " EIRfT " K ltac:(unfold stems; cbn [In]; tauto))] |].
    apply Forall_cons; [apply speed_curve; [far | reflexivity | exact (once_htable k " EIRfFF " K ltac:(unfold stems; cbn [In]; tauto))] |].
    apply Forall_nil.
  Qed.

  Lemma fan_speed_resolved : forall k x y, Forall resolved (fan_speed_fields k x y).
  Proof.
    intros k x y. unfold fan_speed_fields.
    apply Forall_cons; [| apply Forall_cons; [| apply Forall_nil]];
      apply resolved_none; rewrite <- append_assoc;
      (apply refers_last; [rewrite last_char_app by discriminate; discriminate | reflexivity]).
  Qed.

  Lemma Forall_concat_intro : forall {A} (P : A -> Prop) ls, Forall (Forall P) ls ->
    Forall P (List.concat ls).
  Proof.
    intros A P ls H. induction H; [apply Forall_nil |]. cbn [List.concat].
    apply Forall_app. split; assumption.
  Qed.

  Definition all_resolved (o : object) : Prop := Forall resolved (snd o).

  Lemma lookup_resolved : forall name ln nz0 p0 v,
    In ln [sys ++ "Cooling fT List"; sys ++ "fFF List"; sys ++ "Heating fT List"] ->
    all_resolved (lookup_object name ln nz0 p0 v).
  Proof.
    intros name ln nz0 p0 v I. unfold all_resolved, lookup_object. cbn [snd].
    apply Forall_app. split; [| apply numbered_resolved; cbn [In]; tauto].
    apply Forall_cons; [field_step |].
    apply Forall_cons; [eapply resolved_ref; [vm_compute; reflexivity |]; apply once_list, I |].
    apply Forall_cons; [field_step |].
    fields.
  Qed.

  Lemma tables_resolved : forall side k nz0 v,
    In side ["Cooling"; "Heating"] -> Forall all_resolved (four_tables sys side k nz0 v).
  Proof.
    intros side k nz0 v I. unfold four_tables. cbv zeta.
    repeat (apply Forall_cons; [apply lookup_resolved |]); try apply Forall_nil;
      destruct I as [<- | [<- | []]]; cbn [In List.app String.append]; tauto.
  Qed.

  Lemma variable_resolved : forall name ut rated values,
    all_resolved (make_independent_variable name ut rated values).
  Proof.
    intros. unfold all_resolved, make_independent_variable. cbn [snd].
    apply Forall_app. split; [fields | apply numbered_resolved; cbn [In]; tauto].
  Qed.

  Lemma in_range : forall {A} (f : A -> nat) l m, map f l = seq 1 m ->
    forall x, In x l -> (1 <= f x <= m)%nat.
  Proof.
    intros A f l m E x I. apply (in_map f) in I. rewrite E in I. apply in_seq in I. lia.
  Qed.

  Lemma shape_cases : (exists rr, system = [unitary_object sys rr]) \/
    t = ZONEHVAC_PTHP /\ system = pthp_objects sys.
  Proof.
    unfold system_shape in Hsys. destruct t; [left | right | contradiction]; auto.
  Qed.

  Lemma objs_resolved : Forall all_resolved objs.
  Proof.
    unfold objs. apply Forall_app. split; [| apply Forall_app; split].
    - destruct shape_cases as [[rr E] | [Et E]];
        rewrite E.
      + apply Forall_cons; [| apply Forall_nil]. unfold all_resolved, unitary_object. cbn [snd].
        fields.
      + unfold pthp_objects.
        apply Forall_cons; [| apply Forall_cons; [| apply Forall_nil]]; unfold all_resolved; cbn [snd];
          fields.
    - unfold schedule_objects.
      apply Forall_cons; [| apply Forall_cons; [| apply Forall_nil]]; unfold all_resolved; cbn [snd];
        fields.
    - apply Forall_cons; [| apply Forall_app; split; [| apply Forall_app; split]].
      + unfold all_resolved, fan_o', fan_part. cbn [snd]. apply Forall_app. split.
        * unfold fan_fields. fields.
        * apply Forall_concat_intro, Forall_map, Forall_forall. intros kx _.
          apply fan_speed_resolved.
      + unfold variable_objects.
        repeat (apply Forall_cons; [first [apply variable_resolved | unfold all_resolved, variable_list;
          cbn [snd map enumerate combine seq List.length fst]; fields] |]).
        apply Forall_nil.
      + unfold cpart, cooling_part. apply Forall_cons; [| apply Forall_cons].
        * unfold all_resolved. cbn [snd]. apply Forall_app. split.
          -- unfold cooling_coil_fields. fields.
          -- apply Forall_concat_intro, Forall_map, Forall_forall. intros x I.
             apply cspeed_resolved. exact (in_range (fun x => fst (fst x)) _ _ Hxs x I).
        * unfold all_resolved, part_load_curve. cbn [snd]. fields.
        * apply Forall_concat_intro, Forall_map, Forall_forall. intros x _.
          apply tables_resolved. cbn [In]. tauto.
      + unfold hpart, heating_part. apply Forall_cons; [| apply Forall_cons; [| apply Forall_cons]].
        * unfold all_resolved. cbn [snd]. apply Forall_app. split.
          -- unfold heating_coil_fields. fields.
          -- apply Forall_concat_intro, Forall_map, Forall_forall. intros x I.
             apply hspeed_resolved. exact (in_range (fun x => fst (fst x)) _ _ Hys x I).
        * unfold all_resolved, part_load_curve. cbn [snd]. fields.
        * unfold all_resolved, defrost_curve. cbn [snd]. fields.
        * apply Forall_concat_intro, Forall_map, Forall_forall. intros x _.
          apply tables_resolved. cbn [In]. tauto.
  Qed.

  Lemma objs_references : no_dangling_references objs.
  Proof.
    intros o f classes Io If R N.
    pose proof (proj1 (Forall_forall _ _) objs_resolved o Io) as A.
    exact (proj1 (Forall_forall _ _) A f If classes R N).
  Qed.
End Refs.
