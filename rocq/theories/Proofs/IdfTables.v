(** Lemmas for C53: what the exported objects say. *)
From Coq Require Import ZArith QArith List String Ascii Bool Lia.
From Verif.Base Require Import Num Res Tac.
From Verif.Model Require Import Units Util Psychrometrics Conditions Defrost Fan Tabular Unit
  DXUnit Idf.
From Verif.Spec Require Import IdfSpec.
From Verif.Proofs Require Import IdfText IdfStruct IdfNames IdfRefs.
Import ListNotations.
Local Open Scope string_scope.

Section Lookup.
  Context {T : Type} {NT : Num T} {NX : NumX T}.
  Notation object := (idf_object T).

  Lemma name_in : forall cl (o : object) l s, In o l -> name_of cl o = [s] -> In s (names cl l).
  Proof.
    intros cl o l s I E. unfold names. apply in_concat. exists (name_of cl o).
    split; [apply in_map, I |]. rewrite E. left. reflexivity.
  Qed.

  Lemma filter_named : forall cl s (o : object) l, NoDup (names cl l) -> In o l ->
    name_of cl o = [s] -> filter (defines cl s) l = [o].
  Proof.
    intros cl s o l N I E. destruct (once_named cl s l N (name_in cl o l s I E)) as [o' F].
    rewrite F. f_equal.
    assert (X : In o (filter (defines cl s) l)).
    { apply filter_In. split; [exact I | apply defines_name, E]. }
    rewrite F in X. destruct X as [X | []]. exact X.
  Qed.

  Lemma named_in : forall class s (o : object) l, NoDup (names [class] l) -> In o l ->
    name_of [class] o = [s] -> named l class s = Some o.
  Proof. intros class s o l N I E. unfold named. rewrite (filter_named [class] s o l N I E). reflexivity. Qed.

  Lemma prefix_app : forall a b, String.prefix a (a ++ b) = true.
  Proof.
    induction a as [| c a IH]; intros b; [destruct b; reflexivity |].
    change (String c a ++ b) with (String c (a ++ b)). cbn [String.prefix].
    rewrite IH. destruct (Ascii.ascii_dec c c); [reflexivity | congruence].
  Qed.

  Lemma numbers_app : forall cls a b label,
    numbers_of (cls, List.app a b) label
    = List.app (numbers_of (T:=T) (cls, a) label) (numbers_of (cls, b) label).
  Proof. intros. unfold numbers_of. cbn [snd]. apply flat_map_app. Qed.

  Lemma numbers_numbered : forall cls label p (values : list T),
    numbers_of (cls, numbered label p values) label = values.
  Proof.
    intros cls label p values. unfold numbers_of, numbered, enumerate. cbn [snd].
    assert (G : forall i,
      flat_map (fun f : idf_field T => if String.prefix (label ++ " ") (fd_name f)
                          then match fd_value f with VNum _ x => [x] | _ => [] end
                          else [])
        (map (fun iv => num p (snd iv) (label ++ " " ++ show (S (fst iv))))
           (combine (seq i (List.length values)) values)) = values); [| apply G].
    induction values as [| v values IH]; intros i; [reflexivity |].
    cbn [List.length seq combine map flat_map fst snd num fd_name fd_value].
    rewrite <- append_assoc, prefix_app, IH. reflexivity.
  Qed.

  Lemma lookup_outputs : forall name ln nz p (v : list T),
    numbers_of (lookup_object name ln nz p v) "Output Value" = v.
  Proof.
    intros. unfold lookup_object. rewrite numbers_app.
    transitivity (List.app [] v); [| reflexivity]. f_equal. apply numbers_numbered.
  Qed.

  Lemma variable_values : forall name ut rated (v : list T),
    numbers_of (make_independent_variable name ut rated v) "Value" = v.
  Proof.
    intros. unfold make_independent_variable. rewrite numbers_app.
    transitivity (List.app [] v); [| reflexivity]. f_equal. apply numbers_numbered.
  Qed.
End Lookup.

(** Numbers in the middle of a text. *)
Lemma digits_split : forall a b x y, all_chars digit a = true -> all_chars digit b = true ->
  a ++ String " " x = b ++ String " " y -> a = b.
Proof.
  induction a as [| c a IH]; intros b x y A B E.
  - destruct b as [| d b]; [reflexivity |].
    injection E as E1 _. subst d. discriminate B.
  - destruct b as [| d b].
    + injection E as E1 _. subst c. discriminate A.
    + injection E as E1 E2. subst d.
      cbn [all_chars] in A, B. apply andb_true_iff in A, B. f_equal.
      apply (IH b x y); tauto.
Qed.

Lemma speed_name_inj : forall k k' x y,
  "Speed " ++ show k ++ String " " x = "Speed " ++ show k' ++ String " " y -> k = k'.
Proof.
  intros k k' x y E. apply append_inj_l in E. apply show_inj.
  apply (digits_split _ _ x y); [apply show_digits | apply show_digits | exact E].
Qed.

Section Find.
  Context {T : Type} {NT : Num T}.
  Notation field := (idf_field T).

  Definition find_field (name : string) (fs : list field) : option field :=
    find (fun f => fd_name f =? name) fs.

  Lemma find_app : forall name a b, find_field name (a ++ b) =
    match find_field name a with Some f => Some f | None => find_field name b end.
  Proof.
    intros name a b. unfold find_field. induction a as [| f a IH]; [reflexivity |].
    cbn [List.app find]. destruct (fd_name f =? name); [reflexivity | exact IH].
  Qed.

  (** Fields of other speeds do not interfere. *)
  Definition speed_named (k : nat) (f : field) : Prop :=
    exists x, fd_name f = "Speed " ++ show k ++ String " " x.

  Lemma find_other : forall k k' x fs, Forall (speed_named k') fs -> k <> k' ->
    find_field ("Speed " ++ show k ++ String " " x) fs = None.
  Proof.
    intros k k' x fs H N. unfold find_field.
    induction H as [| f fs [y E] _ IH]; [reflexivity |].
    cbn [find]. rewrite E.
    destruct (String.eqb_spec ("Speed " ++ show k' ++ String " " y)
                              ("Speed " ++ show k ++ String " " x)) as [Q | _]; [| exact IH].
    exfalso. apply N. symmetry. apply (speed_name_inj _ _ y x Q).
  Qed.

  Lemma find_speed : forall {A} (num_of : A -> nat) (fs : A -> list field) xs a x,
    NoDup (map num_of xs) -> (forall b, Forall (speed_named (num_of b)) (fs b)) -> In a xs ->
    find_field ("Speed " ++ show (num_of a) ++ String " " x) (List.concat (map fs xs))
    = find_field ("Speed " ++ show (num_of a) ++ String " " x) (fs a).
  Proof.
    intros A num_of fs xs a x N S I. induction xs as [| b xs IH]; [destruct I |].
    cbn [map List.concat]. rewrite find_app. cbn [map] in N.
    inversion N as [| ? ? N1 N2]; subst.
    destruct I as [-> | I].
    - destruct (find_field _ (fs a)) eqn:E; [reflexivity |].
      clear IH N. induction xs as [| b xs IH]; [reflexivity |].
      cbn [map List.concat]. rewrite find_app.
      rewrite (find_other (num_of a) (num_of b)); [apply IH | apply S |].
      + intros J. apply N1. right. exact J.
      + inversion N2; assumption.
      + intros J. apply N1. left. symmetry. exact J.
    - rewrite (find_other (num_of a) (num_of b)); [apply IH; assumption | apply S |].
      intros J. apply N1. rewrite <- J. apply in_map, I.
  Qed.

  Lemma cspeed_named : forall sys (x : @cspeed T),
    Forall (speed_named (fst (fst x))) (cspeed_fields sys x).
  Proof.
    intros sys [[k [[[q shr] cop] air]] v]. cbn [fst cspeed_fields cooling_speed_fields].
    repeat (apply Forall_cons; [eexists; reflexivity |]). apply Forall_nil.
  Qed.
  Lemma hspeed_named : forall sys (x : @hspeed T),
    Forall (speed_named (fst (fst x))) (hspeed_fields sys x).
  Proof.
    intros sys [[k [[q cop] air]] v]. cbn [fst hspeed_fields heating_speed_fields].
    repeat (apply Forall_cons; [eexists; reflexivity |]). apply Forall_nil.
  Qed.
End Find.

Section Objects.
  Context {T : Type} {NT : Num T} {NX : NumX T}.
  Notation object := (idf_object T).
  Variable u : dxunit T.
  Variables (sys : string) (t : system_type) (nz : bool).
  Variables (system : list object).
  Variables (a w : option T) (r p eff : T) (n : nat) (fs : list (T * T)).
  Variables (qc ac : option T) (crank : T) (xs : list (@cspeed T)).
  Variables (qh ah : option T) (on dmax crank' : T) (strategy control : string)
    (period heater : idf_value T) (eir : T) (ys : list (@hspeed T)).
  Hypothesis Hsys : system_shape sys t system.
  Hypothesis Hxs : map (fun x => fst (fst x)) xs = seq 1 (sd_n (u_c u)).
  Hypothesis Hys : map (fun x => fst (fst x)) ys = seq 1 (sd_n (u_h u)).

  Notation all := (objs u sys t nz system a w r p eff n fs qc ac crank xs qh ah on dmax crank'
                     strategy control period heater eir ys).
  Notation part := (cooling_part u sys nz qc ac crank xs).
  Notation hpart' := (heating_part u sys nz qh ah on dmax crank' strategy control period
                        heater eir ys).

  Lemma in_cooling : forall o, In o part -> In o all.
  Proof.
    intros o I. unfold objs, cpart. apply in_or_app. right. apply in_or_app. right. right.
    apply in_or_app. right. apply in_or_app. left. exact I.
  Qed.
  Lemma in_heating : forall o, In o hpart' -> In o all.
  Proof.
    intros o I. unfold objs, hpart. apply in_or_app. right. apply in_or_app. right. right.
    apply in_or_app. right. apply in_or_app. right. exact I.
  Qed.
  Lemma in_variables : forall o, In o (variable_objects u sys) -> In o all.
  Proof.
    intros o I. unfold objs, hpart. apply in_or_app. right. apply in_or_app. right. right.
    apply in_or_app. left. exact I.
  Qed.

  Lemma in_tables : forall {A} (f : A -> list object) l x o, In x l -> In o (f x) ->
    In o (List.concat (map f l)).
  Proof. intros A f l x o I J. apply in_concat. exists (f x). split; [apply in_map, I | exact J]. Qed.

  Lemma pick : forall {A} (f : A -> nat) l m k, map f l = seq 1 m -> (1 <= k <= m)%nat ->
    exists x, In x l /\ f x = k.
  Proof.
    intros A f l m k E K. assert (I : In k (map f l)) by (rewrite E; apply in_seq; lia).
    apply in_map_iff in I. destruct I as (x & Ex & I). exists x. auto.
  Qed.

  Ltac nodup L := rewrite L; repeat (apply NoDup_cons;
    [let J := fresh in cbn [In]; intros J;
     repeat (destruct J as [J | J]; [apply append_inj_l in J; discriminate J |]); exact J |]);
    apply NoDup_nil.

  Lemma lookup_found : forall name ln z pr v, In (lookup_object name ln z pr v) all ->
    named all "Table:Lookup" name = Some (lookup_object name ln z pr v).
  Proof.
    intros. apply named_in; [| assumption | apply lookup_name_in; reflexivity].
    apply lookup_NoDup; assumption.
  Qed.

  Lemma ctables_found : forall x, In x xs -> forall o, In o (cspeed_tables sys nz x) -> In o all.
  Proof.
    intros x I o J. apply in_cooling. right. right. exact (in_tables _ xs x o I J).
  Qed.
  Lemma htables_found : forall x, In x ys -> forall o, In o (hspeed_tables sys nz x) -> In o all.
  Proof.
    intros x I o J. apply in_heating. right. right. right. exact (in_tables _ ys x o I J).
  Qed.

  Lemma ccoil_found : named all "Coil:Cooling:DX:VariableSpeed" (sys ++ "Cooling Coil")
    = Some (hd ("", []) part).
  Proof.
    apply named_in; [| apply in_cooling; left; reflexivity | reflexivity].
    nodup (names_ccoil u sys t nz system a w r p eff n fs qc ac crank xs qh ah on dmax crank'
                     strategy control period heater eir ys Hsys).
  Qed.
  Lemma hcoil_found : named all "Coil:Heating:DX:VariableSpeed" (sys ++ "Heating Coil")
    = Some (hd ("", []) hpart').
  Proof.
    apply named_in; [| apply in_heating; left; reflexivity | reflexivity].
    nodup (names_hcoil u sys t nz system a w r p eff n fs qc ac crank xs qh ah on dmax crank'
                     strategy control period heater eir ys Hsys).
  Qed.

  Lemma list_found : forall name first others,
    In (variable_list name first others) (variable_objects u sys) ->
    named all "Table:IndependentVariableList" name = Some (variable_list name first others).
  Proof.
    intros. apply named_in; [| apply in_variables; assumption | reflexivity].
    nodup (names_list u sys t nz system a w r p eff n fs qc ac crank xs qh ah on dmax crank'
                     strategy control period heater eir ys Hsys).
  Qed.
  Lemma variable_found : forall name ut rated v,
    In (make_independent_variable name ut rated v) (variable_objects u sys) ->
    axis all name = Some v.
  Proof.
    intros. unfold axis. erewrite named_in; [| | apply in_variables; eassumption | reflexivity].
    - cbn [option_map]. f_equal. apply variable_values.
    - nodup (names_variable u sys t nz system a w r p eff n fs qc ac crank xs qh ah on dmax crank'
                     strategy control period heater eir ys Hsys).
  Qed.

  Lemma axes_of : forall name ln z pr v first others,
    In (lookup_object name ln z pr v) all ->
    In (variable_list ln first others) (variable_objects u sys) ->
    table_axes all name
    = all_some (map (axis all) (texts_of (variable_list (T:=T) ln first others) "Independent Variable")).
  Proof.
    intros name ln z pr v first others I J. unfold table_axes.
    rewrite (lookup_found name ln z pr v I).
    change (field_of (lookup_object name ln z pr v) "Independent Variable List Name")
      with (Some (VText (T:=T) ln)).
    cbv iota beta. rewrite (list_found ln first others J). reflexivity.
  Qed.

  Ltac var := eapply variable_found; unfold variable_objects; cbn [In]; eauto 12.

  Lemma cooling_axes : forall name z pr v,
    In (lookup_object name (sys ++ "Cooling fT List") z pr v) all ->
    table_axes all name
    = Some [map F_to_C cooling_indoor_wet_bulbs; map F_to_C cooling_outdoor_dry_bulbs].
  Proof.
    intros name z pr v I.
    rewrite (axes_of name _ z pr v (sys ++ "Cooling Indoor Wetbulb") [sys ++ "Cooling Outdoor Drybulb"] I)
      by (unfold variable_objects; cbn [In]; tauto).
    change (texts_of _ _) with [sys ++ "Cooling Indoor Wetbulb"; sys ++ "Cooling Outdoor Drybulb"].
    cbn [map all_some].
    replace (axis all (sys ++ "Cooling Indoor Wetbulb")) with (Some (map F_to_C cooling_indoor_wet_bulbs))
      by (symmetry; var).
    replace (axis all (sys ++ "Cooling Outdoor Drybulb")) with (Some (map F_to_C cooling_outdoor_dry_bulbs))
      by (symmetry; var).
    reflexivity.
  Qed.
  Lemma heating_axes : forall name z pr v,
    In (lookup_object name (sys ++ "Heating fT List") z pr v) all ->
    table_axes all name
    = Some [map F_to_C heating_indoor_dry_bulbs; map F_to_C (heating_outdoor_dry_bulbs u)].
  Proof.
    intros name z pr v I.
    rewrite (axes_of name _ z pr v (sys ++ "Heating Indoor Drybulb") [sys ++ "Heating Outdoor Drybulb"] I)
      by (unfold variable_objects; cbn [In]; tauto).
    change (texts_of _ _) with [sys ++ "Heating Indoor Drybulb"; sys ++ "Heating Outdoor Drybulb"].
    cbn [map all_some].
    replace (axis all (sys ++ "Heating Indoor Drybulb")) with (Some (map F_to_C heating_indoor_dry_bulbs))
      by (symmetry; var).
    replace (axis all (sys ++ "Heating Outdoor Drybulb")) with (Some (map F_to_C (heating_outdoor_dry_bulbs u)))
      by (symmetry; var).
    reflexivity.
  Qed.
  Lemma flow_axes : forall name z pr v,
    In (lookup_object name (sys ++ "fFF List") z pr v) all ->
    table_axes all name = Some [flow_fractions].
  Proof.
    intros name z pr v I.
    rewrite (axes_of name _ z pr v (sys ++ "Coil Flow Fraction") [] I)
      by (unfold variable_objects; cbn [In]; tauto).
    change (texts_of _ _) with [sys ++ "Coil Flow Fraction"].
    cbn [map all_some].
    replace (axis all (sys ++ "Coil Flow Fraction")) with (Some (@flow_fractions T _))
      by (symmetry; var).
    reflexivity.
  Qed.
  Lemma outputs_found : forall name ln z pr v, In (lookup_object name ln z pr v) all ->
    table_outputs all name = Some v.
  Proof.
    intros. unfold table_outputs. rewrite (lookup_found name ln z pr v H). cbn [option_map].
    f_equal. apply lookup_outputs.
  Qed.

  (** Fields of a speed. *)
  Lemma cfield_found : forall x, In x xs -> forall b f,
    find_field ("Speed " ++ show (fst (fst x)) ++ String " " b) (cspeed_fields sys x) = Some f ->
    exported all "Coil:Cooling:DX:VariableSpeed" (sys ++ "Cooling Coil")
      ("Speed " ++ show (fst (fst x)) ++ String " " b) (fd_value f).
  Proof.
    intros x I b f E. pose proof ccoil_found as F. unfold named in F. unfold exported.
    destruct (filter _ _) as [| o [|]] eqn:G; try discriminate F. injection F as F.
    exists o. split; [reflexivity |]. rewrite F. 
    change (option_map fd_value (find_field ("Speed " ++ show (fst (fst x)) ++ String " " b)
            (cooling_coil_fields u sys (sd_n (u_c u)) (sd_full (u_c u)) qc ac crank
             ++ List.concat (map (cspeed_fields sys) xs))%list) = Some (fd_value f)).
    rewrite find_app. replace (find_field _ (cooling_coil_fields _ _ _ _ _ _ _)) with (@None (idf_field T)).
    - pose proof (find_speed (fun x => fst (fst x)) (cspeed_fields sys) xs x b) as Q.
      cbv beta in Q. rewrite Hxs in Q.
      specialize (Q (seq_NoDup _ _) (cspeed_named sys) I).
      etransitivity; [exact (f_equal (option_map fd_value) Q) |]. rewrite E. reflexivity.
    - unfold cooling_coil_fields, size. destruct qc, ac; reflexivity.
  Qed.
  Lemma hfield_found : forall x, In x ys -> forall b f,
    find_field ("Speed " ++ show (fst (fst x)) ++ String " " b) (hspeed_fields sys x) = Some f ->
    exported all "Coil:Heating:DX:VariableSpeed" (sys ++ "Heating Coil")
      ("Speed " ++ show (fst (fst x)) ++ String " " b) (fd_value f).
  Proof.
    intros x I b f E. pose proof hcoil_found as F. unfold named in F. unfold exported.
    destruct (filter _ _) as [| o [|]] eqn:G; try discriminate F. injection F as F.
    exists o. split; [reflexivity |]. rewrite F. 
    change (option_map fd_value (find_field ("Speed " ++ show (fst (fst x)) ++ String " " b)
            (heating_coil_fields u sys (sd_n (u_h u)) (sd_full (u_h u)) qh ah on dmax crank'
               strategy control period heater
             ++ List.concat (map (hspeed_fields sys) ys))%list) = Some (fd_value f)).
    rewrite find_app. replace (find_field _ (heating_coil_fields _ _ _ _ _ _ _ _ _ _ _ _ _))
      with (@None (idf_field T)).
    - pose proof (find_speed (fun x => fst (fst x)) (hspeed_fields sys) ys x b) as Q.
      cbv beta in Q. rewrite Hys in Q.
      specialize (Q (seq_NoDup _ _) (hspeed_named sys) I).
      etransitivity; [exact (f_equal (option_map fd_value) Q) |]. rewrite E. reflexivity.
    - unfold heating_coil_fields, size. destruct qh, ah; reflexivity.
  Qed.
End Objects.
