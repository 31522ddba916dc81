(** C52: the types of referenced objects, and the schedules. *)
From Coq Require Import ZArith QArith List String Ascii Bool Lia.
From Verif.Base Require Import Num Res Tac.
From Verif.Model Require Import Units Util Psychrometrics Conditions Defrost Fan Tabular Unit
  DXUnit Idf.
From Verif.Spec Require Import IdfSpec IdfTypeSpec.
From Verif.Proofs Require Import IdfText IdfStruct IdfNames IdfRefs IdfFinal.
Import ListNotations.
Local Open Scope string_scope.

Section Types.
  Context {T : Type} {NT : Num T} {NX : NumX T}.
  Notation object := (idf_object T).

  Definition plain (f : idf_field T) : Prop := ends_with "Object Type" (fd_name f) = false.
  Definition all_plain (o : object) : Prop := Forall plain (snd o).

  Lemma plain_last f : last_char (fd_name f) <> Some "e"%char -> plain f.
  Proof. intros H. apply (ends_with_last "e"%char); [reflexivity|exact H]. Qed.
  Lemma plain_size (x : option T) s : ends_with "Object Type" s = false -> plain (size x s).
  Proof. destruct x; exact (fun H => H). Qed.
  Lemma plain_speed (v : idf_value T) k b : (18 <= String.length b)%nat -> ends_with "Object Type" b = false ->
    plain (mkField v ("Speed " ++ show k ++ b)).
  Proof.
    intros H E. unfold plain. cbn [fd_name]. rewrite <- append_assoc, ends_with_app by (cbn [String.length]; lia). exact E.
  Qed.
  Ltac pfield := first [apply plain_size; vm_compute; reflexivity | vm_compute; reflexivity].
  Ltac pfields := repeat (apply Forall_cons; [pfield|]); try apply Forall_nil.

  Lemma numbered_plain label p0 (values : list T) : Forall plain (numbered label p0 values).
  Proof.
    unfold numbered. apply Forall_map, Forall_forall. intros [i v] _. apply plain_last. cbn [fd_name fst snd].
    rewrite <- append_assoc. apply last_show.
  Qed.
  Lemma lookup_plain name ln nz0 p0 (v : list T) : all_plain (lookup_object name ln nz0 p0 v).
  Proof.
    unfold all_plain, lookup_object. cbn [snd]. apply Forall_app. split; [|apply numbered_plain]. pfields.
  Qed.
  Lemma tables_plain sys side k nz0 (v : list T * list T * (list T * list T)) : Forall all_plain (four_tables sys side k nz0 v).
  Proof.
    unfold four_tables. cbv zeta. repeat (apply Forall_cons; [apply lookup_plain|]). apply Forall_nil.
  Qed.
  Lemma variable_plain name ut rated (values : list T) : all_plain (make_independent_variable name ut rated values).
  Proof.
    unfold all_plain, make_independent_variable. cbn [snd]. apply Forall_app. split; [pfields|apply numbered_plain].
  Qed.
  Ltac far := cbn [String.length]; lia.
  Ltac sfields := repeat (apply Forall_cons; [apply plain_speed; [far|reflexivity]|]); apply Forall_nil.
  Lemma cspeed_plain sys x : Forall plain (cspeed_fields (T:=T) sys x).
  Proof. destruct x as [[k [[[q shr] cop] air]] v]. unfold cspeed_fields, cooling_speed_fields. sfields. Qed.
  Lemma hspeed_plain sys x : Forall plain (hspeed_fields (T:=T) sys x).
  Proof. destruct x as [[k [[q cop] air]] v]. unfold hspeed_fields, heating_speed_fields. sfields. Qed.
  Lemma fan_speed_plain k (x y : T) : Forall plain (fan_speed_fields k x y).
  Proof.
    unfold fan_speed_fields.
    apply Forall_cons; [|apply Forall_cons; [|apply Forall_nil]]; apply plain_last; cbn [fd_name num];
      rewrite <- append_assoc, last_char_app by discriminate; discriminate.
  Qed.

  Variables (psy : psychro T) (sol : solvers T) (M : dxmodel T) (u : dxunit T).
  Variables (name : option string) (t : system_type) (autosize normalize : bool) (cached : option T) (objects : list object).
  Hypothesis E : idf_objects psy sol M u name t autosize normalize cached = Ok objects.
  Notation sys := (system_prefix name).

  (** The system objects come first and the others have no such fields. *)
  Lemma split_objects : exists system rest, objects = (system ++ schedule_objects sys ++ rest)%list
    /\ ((exists rr, system = [unitary_object sys rr]) \/ system = pthp_objects sys)
    /\ Forall all_plain (schedule_objects (T:=T) sys ++ rest)
    /\ Forall (fun o => fst o <> "Schedule:Compact" /\ fst o <> "ScheduleTypeLimits") rest.
  Proof.
    pose proof E as E0. apply idf_objects_inv in E0. cbv zeta in E0.
    destruct E0 as (system & a & w & r & p & eff & n & fs & qc & ac & crank & xs & qh & ah & on
      & dmax & crank' & strategy & control & period & heater & eir & ys & Hsys & Hxs & _ & Hys
      & _ & _ & ->).
    eexists system, _. split; [reflexivity|]. split; [|split].
    - unfold system_shape in Hsys. destruct t; [left; exact Hsys|right; exact Hsys|contradiction].
    - apply Forall_app. split.
      { unfold schedule_objects. repeat (apply Forall_cons; [unfold all_plain; cbn [snd]; pfields|]). apply Forall_nil. }
      apply Forall_cons; [| apply Forall_app; split; [| apply Forall_app; split]].
      + unfold all_plain, fan_part. cbn [snd]. apply Forall_app. split.
        * unfold fan_fields. pfields.
        * apply Forall_concat_intro, Forall_map, Forall_forall. intros kx _. apply fan_speed_plain.
      + unfold variable_objects.
        repeat (apply Forall_cons; [first [apply variable_plain | unfold all_plain, variable_list;
          cbn [snd map enumerate combine seq List.length fst]; pfields] |]).
        apply Forall_nil.
      + unfold cooling_part. apply Forall_cons; [| apply Forall_cons].
        * unfold all_plain. cbn [snd]. apply Forall_app. split.
          -- unfold cooling_coil_fields. pfields.
          -- apply Forall_concat_intro, Forall_map, Forall_forall. intros x _. apply cspeed_plain.
        * unfold all_plain, part_load_curve. cbn [snd]. pfields.
        * apply Forall_concat_intro, Forall_map, Forall_forall. intros x _. apply tables_plain.
      + unfold heating_part. apply Forall_cons; [| apply Forall_cons; [| apply Forall_cons]].
        * unfold all_plain. cbn [snd]. apply Forall_app. split.
          -- unfold heating_coil_fields. pfields.
          -- apply Forall_concat_intro, Forall_map, Forall_forall. intros x _. apply hspeed_plain.
        * unfold all_plain, part_load_curve. cbn [snd]. pfields.
        * unfold all_plain, defrost_curve. cbn [snd]. pfields.
        * apply Forall_concat_intro, Forall_map, Forall_forall. intros x _. apply tables_plain.
    - assert (L : forall side k nz0 (v : list T * list T * (list T * list T)), Forall (fun o : object => fst o <> "Schedule:Compact" /\ fst o <> "ScheduleTypeLimits")
          (four_tables sys side k nz0 v)).
      { intros. unfold four_tables. cbv zeta. repeat (apply Forall_cons; [split; discriminate|]). apply Forall_nil. }
      apply Forall_cons; [split; discriminate|].
      apply Forall_app; split; [|apply Forall_app; split].
      + unfold variable_objects. repeat (apply Forall_cons; [split; discriminate|]). apply Forall_nil.
      + unfold cooling_part. apply Forall_cons; [split; discriminate|apply Forall_cons; [split; discriminate|]].
        apply Forall_concat_intro, Forall_map, Forall_forall. intros x _. apply L.
      + unfold heating_part. do 3 (apply Forall_cons; [split; discriminate|]).
        apply Forall_concat_intro, Forall_map, Forall_forall. intros x _. apply L.
  Qed.

  Lemma next_cons (x : idf_field T) l f g : next_in (x :: l) f g -> (f = x /\ hd_error l = Some g) \/ next_in l f g.
  Proof.
    intros (pre & post & H). destruct pre as [|y pre]; cbn in H; injection H as -> H.
    - left. rewrite H. auto.
    - right. exists pre, post. exact H.
  Qed.
  Definition paired (f g : idf_field T) : Prop :=
    fd_value f = VText "" /\ fd_value g = VText ""
    \/ exists cl s, fd_value f = VText cl /\ refers_to (fd_name g) = Some [cl] /\ fd_value g = VText s /\ s <> "".
  Lemma nonblank x y : y <> "" -> x ++ y <> "".
  Proof. destruct x; [exact (fun H => H)|discriminate]. Qed.

  Lemma next_nil f g : ~ next_in (@nil (idf_field T)) f g.
  Proof. intros (pre & post & H). destruct pre; discriminate. Qed.

  Lemma system_types system o f g : ((exists rr, system = [unitary_object sys rr]) \/ system = pthp_objects sys) ->
    In o system -> next_in (snd o) f g -> ends_with "Object Type" (fd_name f) = true -> paired f g.
  Proof.
    intros [[rr ->]| ->] I H.
    - destruct I as [<-|[]]. unfold unitary_object in H. cbn [snd] in H.
      repeat (apply next_cons in H; destruct H as [[-> H]|H];
        [cbn [hd_error] in H; try discriminate H; injection H as <-; intros Q;
         first [exfalso; vm_compute in Q; discriminate Q
               |left; split; reflexivity
               |right; eexists; eexists; split; [reflexivity|]; split; [vm_compute; reflexivity|]; split; [reflexivity|];
                apply nonblank; discriminate] |]).
      exfalso. exact (next_nil _ _ H).
    - unfold pthp_objects in I. destruct I as [<-|[<-|[]]]; cbn [snd] in H;
      repeat (apply next_cons in H; destruct H as [[-> H]|H];
        [cbn [hd_error] in H; try discriminate H; injection H as <-; intros Q;
         first [exfalso; vm_compute in Q; discriminate Q
               |left; split; reflexivity
               |right; eexists; eexists; split; [reflexivity|]; split; [vm_compute; reflexivity|]; split; [reflexivity|];
                apply nonblank; discriminate] |]);
      exfalso; exact (next_nil _ _ H).
  Qed.

  Lemma object_types o f g : In o objects -> next_in (snd o) f g -> ends_with "Object Type" (fd_name f) = true ->
    fd_value f = VText "" /\ fd_value g = VText ""
    \/ exists cl s, fd_value f = VText cl /\ fd_value g = VText s /\ defined_once objects [cl] s.
  Proof.
    intros I H Q. destruct split_objects as (system & rest & Eo & Sh & Pl & _).
    assert (P : paired f g).
    { rewrite Eo in I. apply in_app_or in I. destruct I as [I|I]; [exact (system_types system o f g Sh I H Q)|].
      exfalso. pose proof (proj1 (Forall_forall _ _) Pl o I) as A. unfold all_plain in A.
      destruct H as (pre & post & H). rewrite Forall_forall in A. specialize (A f). unfold plain in A.
      rewrite A in Q; [discriminate|]. rewrite H. apply in_or_app. right. left. reflexivity. }
    destruct P as [P|(cl & s & P1 & P2 & P3 & P4)]; [left; exact P|right].
    exists cl, s. split; [exact P1|]. split; [exact P3|].
    assert (Ig : In g (snd o)).
    { destruct H as (pre & post & H). rewrite H. apply in_or_app. right. right. left. reflexivity. }
    destruct (idf_references psy sol M u name t autosize normalize cached objects E o g [cl] I Ig P2) as (s' & S1 & S2).
    { rewrite P3. intros X. injection X as ->. exact (P4 eq_refl). }
    assert (s' = s) by congruence. subst s'. exact S2.
  Qed.

  Lemma no_limits : (exists o s, In o objects /\ fst o = "Schedule:Compact" /\ field_of o "Schedule Type Limits Name" = Some (VText s) /\ s <> "")
    /\ forall o, In o objects -> fst o <> "ScheduleTypeLimits".
  Proof.
    destruct split_objects as (system & rest & Eo & Sh & _ & Rs). rewrite Eo. split.
    - eexists. eexists. split; [apply in_or_app; right; apply in_or_app; left; left; reflexivity|].
      split; [reflexivity|]. split; [reflexivity|discriminate].
    - intros o I. apply in_app_or in I. destruct I as [I|I].
      { destruct Sh as [[rr ->]| ->]; repeat (destruct I as [<-|I]; [discriminate|]); destruct I. }
      apply in_app_or in I. destruct I as [I|I]; [repeat (destruct I as [<-|I]; [discriminate|]); destruct I|].
      exact (proj2 (proj1 (Forall_forall _ _) Rs o I)).
  Qed.

  Lemma filter_none (P : object -> bool) l : (forall o, In o l -> P o = false) -> filter P l = [].
  Proof.
    induction l as [|o l IH]; intros H; [reflexivity|]. cbn. rewrite (H o (or_introl eq_refl)). apply IH. intros; apply H; right; assumption.
  Qed.
  Lemma append_inj : forall x y z, x ++ y = x ++ z -> y = z.
  Proof. induction x as [|c x IH]; intros y z H; [exact H|]. injection H as H. exact (IH _ _ H). Qed.
  Lemma schedules :
    let schedule := exported objects "Schedule:Compact" in
    schedule (sys ++ "Schedule") "Value" (VInt 1) /\ schedule (sys ++ "Fan Mode Schedule") "Value" (VInt 0).
  Proof.
    destruct split_objects as (system & rest & Eo & Sh & _ & Rs). cbv zeta. unfold exported.
    assert (F1 : forall s, filter (defines ["Schedule:Compact"] s) system = []).
    { intros s. apply filter_none. destruct Sh as [[rr ->]| ->]; intros o I;
        repeat (destruct I as [<-|I]; [reflexivity|]); destruct I. }
    assert (F2 : forall s, filter (defines ["Schedule:Compact"] s) rest = []).
    { intros s. apply filter_none. intros o I. unfold defines. cbn [existsb].
      destruct (String.eqb_spec (fst o) "Schedule:Compact") as [Q|Q]; [|reflexivity].
      exfalso. exact (proj1 (proj1 (Forall_forall _ _) Rs o I) Q). }
    assert (G : forall s, filter (defines ["Schedule:Compact"] s) objects = filter (defines ["Schedule:Compact"] s) (schedule_objects sys)).
    { intros s. rewrite Eo, !filter_app, F1, F2, app_nil_r. reflexivity. }
    rewrite !G. unfold schedule_objects. cbn [filter]. unfold defines. cbn [fst snd existsb fd_value txt String.eqb Ascii.eqb Bool.eqb orb andb].
    assert (N : (sys ++ "Fan Mode Schedule" =? sys ++ "Schedule") = false).
    { apply String.eqb_neq. intros Q. apply append_inj in Q. discriminate. }
    assert (N' : (sys ++ "Schedule" =? sys ++ "Fan Mode Schedule") = false).
    { apply String.eqb_neq. intros Q. apply append_inj in Q. discriminate. }
    rewrite N, N', !String.eqb_refl. split; eexists; (split; [reflexivity|reflexivity]).
  Qed.
End Types.
