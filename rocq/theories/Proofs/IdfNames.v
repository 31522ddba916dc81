(** Lemmas for C52: references and names. *)
From Coq Require Import ZArith QArith List String Ascii Bool Lia Decimal DecimalString DecimalZ.
From Verif.Base Require Import Num Res Tac.
From Verif.Model Require Import Units Util Psychrometrics Conditions Defrost Fan Tabular Unit
  DXUnit Idf.
From Verif.Spec Require Import IdfSpec.
From Verif.Proofs Require Import IdfText IdfStruct.
Import ListNotations.
Local Open Scope string_scope.

(** * Printed integers *)

Lemma int_of_string_of_int : forall d, exists d',
  NilZero.int_of_string (NilZero.string_of_int d) = Some d' /\ Z.of_int d' = Z.of_int d.
Proof.
  intros d.
  destruct d as [[] | []];
    try (eexists; split; [apply NilZero.isi; discriminate | reflexivity]).
  - exists (Pos zero). split; [apply NilZero.isi_posnil | reflexivity].
  - exists (Neg zero). split; [apply NilZero.isi_negnil | reflexivity].
Qed.

Lemma show_Z_inj : forall a b, show_Z a = show_Z b -> a = b.
Proof.
  intros a b E. unfold show_Z in E.
  destruct (int_of_string_of_int (Z.to_int a)) as (da & Ea & Va).
  destruct (int_of_string_of_int (Z.to_int b)) as (db & Eb & Vb).
  rewrite E in Ea. rewrite Ea in Eb. injection Eb as ->.
  rewrite Va, of_to, of_to in Vb. exact Vb.
Qed.

Lemma show_inj : forall a b, show a = show b -> a = b.
Proof. intros a b E. apply show_Z_inj in E. lia. Qed.

Definition digit (c : ascii) : bool :=
  existsb (Ascii.eqb c) ["0"; "1"; "2"; "3"; "4"; "5"; "6"; "7"; "8"; "9"; "-"]%char.

Lemma string_of_uint_digits : forall d, all_chars digit (NilEmpty.string_of_uint d) = true.
Proof. induction d; cbn; auto. Qed.

Lemma show_Z_digits : forall z, all_chars digit (show_Z z) = true /\ show_Z z <> "".
Proof.
  intros z. unfold show_Z, NilZero.string_of_int.
  destruct (Z.to_int z) as [d | d].
  - unfold NilZero.string_of_uint. split.
    + destruct d; try reflexivity; apply string_of_uint_digits.
    + destruct d; discriminate.
  - split; [| discriminate]. unfold NilZero.string_of_uint.
    change (all_chars digit (match d with Nil => "0" | _ => NilEmpty.string_of_uint d end) = true).
    destruct d; try reflexivity; apply string_of_uint_digits.
Qed.

Lemma show_digits : forall n, all_chars digit (show n) = true /\ show n <> "".
Proof. intros n. apply show_Z_digits. Qed.

(** * Ends of strings *)

Lemma append_inj_l : forall a b c : string, a ++ b = a ++ c -> b = c.
Proof. induction a; simpl; intros b c E; [exact E |]. injection E as E. apply IHa, E. Qed.

Lemma append_length : forall a b, String.length (a ++ b) = (String.length a + String.length b)%nat.
Proof. induction a; simpl; intros; [reflexivity | f_equal; apply IHa]. Qed.

Lemma eqb_length : forall a b, String.length a <> String.length b -> (a =? b) = false.
Proof. intros a b H. apply String.eqb_neq. intros ->. apply H. reflexivity. Qed.

Lemma ends_with_app : forall suf a b, (String.length suf <= String.length b)%nat ->
  ends_with suf (a ++ b) = ends_with suf b.
Proof.
  intros suf a b H. induction a as [| c a IH]; [reflexivity |].
  change (String c a ++ b) with (String c (a ++ b)).
  cbn [ends_with]. rewrite IH, eqb_length; [reflexivity |].
  cbn [String.length]. rewrite append_length. lia.
Qed.

Lemma ends_with_split : forall suf s, ends_with suf s = true -> exists p, s = p ++ suf.
Proof.
  intros suf s. induction s as [| c s IH]; cbn [ends_with]; intros H.
  - rewrite orb_false_r in H. apply String.eqb_eq in H. subst. exists "". reflexivity.
  - apply orb_true_iff in H. destruct H as [H | H].
    + apply String.eqb_eq in H. subst. exists "". reflexivity.
    + destruct (IH H) as [p ->]. exists (String c p). reflexivity.
Qed.

Fixpoint last_char (s : string) : option ascii :=
  match s with
  | "" => None
  | String c "" => Some c
  | String _ s' => last_char s'
  end.

Lemma last_char_app : forall a b, b <> "" -> last_char (a ++ b) = last_char b.
Proof.
  induction a as [| c a IH]; intros b H; [reflexivity |].
  change (String c a ++ b) with (String c (a ++ b)).
  rewrite <- (IH b H). cbn [last_char]. destruct (a ++ b) eqn:E; [| reflexivity].
  destruct a; [simpl in E; congruence | discriminate E].
Qed.

Lemma last_char_all : forall p s c, all_chars p s = true -> last_char s = Some c -> p c = true.
Proof.
  induction s as [| d s IH]; intros c H E; [discriminate |].
  cbn [all_chars] in H. apply andb_true_iff in H. destruct H as [A B].
  destruct s as [| d' s]; cbn [last_char] in E; [congruence |].
  apply IH; assumption.
Qed.

Lemma ends_with_number : forall suf a n,
  suf <> "" -> last_char suf = Some "e"%char -> ends_with suf (a ++ show n) = false.
Proof.
  intros suf a n N L. destruct (ends_with suf (a ++ show n)) eqn:E; [| reflexivity].
  exfalso. apply ends_with_split in E. destruct E as [p E].
  destruct (show_digits n) as [D Z].
  assert (X : last_char (show n) = Some "e"%char).
  { rewrite <- (last_char_app a _ Z), E, last_char_app by exact N. exact L. }
  apply (last_char_all digit) in X; [discriminate X | exact D].
Qed.

(** * Names of objects *)

Section Names.
  Context {T : Type} {NT : Num T} {NX : NumX T}.
  Notation object := (idf_object T).

  Definition name_of (cl : list string) (o : object) : list string :=
    if existsb (String.eqb (fst o)) cl
    then match snd o with
         | f :: _ => match fd_value f with VText t => [t] | _ => [] end
         | [] => []
         end
    else [].
  Definition names (cl : list string) (l : list object) : list string :=
    List.concat (map (name_of cl) l).

  Lemma names_app : forall cl a b, names cl (a ++ b) = (names cl a ++ names cl b)%list.
  Proof. intros. unfold names. rewrite map_app, concat_app. reflexivity. Qed.

  Lemma names_cons : forall cl o l, names cl (o :: l) = (name_of cl o ++ names cl l)%list.
  Proof. reflexivity. Qed.

  Lemma names_concat : forall cl (ls : list (list object)),
    names cl (List.concat ls) = List.concat (map (names cl) ls).
  Proof.
    induction ls as [| l ls IH]; [reflexivity |].
    cbn [List.concat map]. rewrite names_app, IH. reflexivity.
  Qed.

  Lemma defines_name : forall cl s (o : object),
    defines cl s o = true <-> name_of cl o = [s].
  Proof.
    intros cl s [c fs]. unfold defines, name_of. cbn [fst snd].
    destruct (existsb (String.eqb c) cl); cbn [andb];
      [| split; discriminate].
    destruct fs as [| f fs]; [split; discriminate |].
    destruct (fd_value f); try (split; discriminate).
    rewrite String.eqb_eq. split; [intros -> | intros [= ->]]; reflexivity.
  Qed.

  Lemma name_of_short : forall cl (o : object), name_of cl o = [] \/ exists s, name_of cl o = [s].
  Proof.
    intros cl [c fs]. unfold name_of. destruct (existsb _ cl); [| left; reflexivity].
    destruct fs as [| f fs]; [left; reflexivity |]. cbn [snd].
    destruct (fd_value f); [right; eexists; reflexivity | left; reflexivity | left; reflexivity].
  Qed.

  Lemma filter_none : forall cl s (l : list object), ~ In s (names cl l) ->
    filter (defines cl s) l = [].
  Proof.
    intros cl s. induction l as [| o l IH]; intros H; [reflexivity |].
    rewrite names_cons in H. cbn [filter].
    destruct (defines cl s o) eqn:D.
    - apply defines_name in D. exfalso. apply H. rewrite D. left. reflexivity.
    - apply IH. intros I. apply H. apply in_or_app. right. exact I.
  Qed.

  Lemma once_named : forall cl s (l : list object), NoDup (names cl l) -> In s (names cl l) ->
    defined_once l cl s.
  Proof.
    intros cl s. unfold defined_once. induction l as [| o l IH]; intros N I; [destruct I |].
    rewrite names_cons in *. cbn [filter].
    destruct (defines cl s o) eqn:D.
    - apply defines_name in D. rewrite D in N. cbn [List.app] in N.
      inversion N as [| ? ? N1 N2]; subst. exists o. rewrite filter_none by exact N1. reflexivity.
    - destruct (name_of_short cl o) as [E | [t E]]; rewrite E in *; cbn [List.app] in *.
      + apply IH; assumption.
      + inversion N as [| ? ? N1 N2]; subst. apply IH; [exact N2 |].
        destruct I as [-> | I]; [| exact I].
        exfalso. apply (proj2 (defines_name cl s o)) in E. congruence.
  Qed.

  (** The table names of a coil. *)
  Definition table_names (sys side : string) (ks : list nat) : list string :=
    List.concat (map (fun k => map (fun st => sys ++ side ++ st ++ show k) stems) ks).

  Definition curve_classes : list string := ["Curve:Linear"; "Curve:Biquadratic"; "Table:Lookup"].

  Lemma lookup_name_in : forall cl name ln nz p (v : list T),
    existsb (String.eqb "Table:Lookup") cl = true ->
    name_of cl (lookup_object name ln nz p v) = [name].
  Proof. intros cl name ln nz p v H. unfold name_of. cbn [fst lookup_object]. rewrite H. reflexivity. Qed.

  Lemma lookup_name_out : forall cl name ln nz p (v : list T),
    existsb (String.eqb "Table:Lookup") cl = false ->
    name_of cl (lookup_object name ln nz p v) = [].
  Proof. intros cl name ln nz p v H. unfold name_of. cbn [fst lookup_object]. rewrite H. reflexivity. Qed.

  Lemma tables_names_in : forall cl sys side nz (xs : list (nat * (list T * list T * (list T * list T)))),
    existsb (String.eqb "Table:Lookup") cl = true ->
    names cl (List.concat (map (fun x => four_tables sys side (fst x) nz (snd x)) xs))
    = table_names sys side (map fst xs).
  Proof.
    intros cl sys side nz xs H. rewrite names_concat. unfold table_names.
    rewrite !map_map. f_equal. apply map_ext. intros [k v]. cbn [fst snd].
    unfold four_tables. cbv zeta. rewrite !names_cons, !lookup_name_in by exact H. reflexivity.
  Qed.

  Lemma tables_names_out : forall cl sys side nz (xs : list (nat * (list T * list T * (list T * list T)))),
    existsb (String.eqb "Table:Lookup") cl = false ->
    names cl (List.concat (map (fun x => four_tables sys side (fst x) nz (snd x)) xs)) = [].
  Proof.
    intros cl sys side nz xs H. rewrite names_concat. rewrite map_map.
    induction xs as [| x xs IH]; [reflexivity |]. cbn [map List.concat]. rewrite IH, app_nil_r.
    unfold four_tables. cbv zeta. rewrite !names_cons, !lookup_name_out by exact H. reflexivity.
  Qed.
End Names.

(** * Distinct names *)

Lemma NoDup_app_intro : forall {A} (a b : list A), NoDup a -> NoDup b ->
  (forall x, In x a -> ~ In x b) -> NoDup (a ++ b).
Proof.
  induction a as [| x a IH]; intros b Na Nb D; [exact Nb |].
  inversion Na; subst. cbn [List.app]. constructor.
  - intros I. apply in_app_or in I. destruct I as [I | I]; [contradiction |].
    apply (D x); [left; reflexivity | exact I].
  - apply IH; [assumption | assumption |]. intros y I. apply D. right. exact I.
Qed.

Lemma table_names_in : forall sys side ks s, In s (table_names sys side ks) <->
  exists k st, In k ks /\ In st stems /\ s = sys ++ side ++ st ++ show k.
Proof.
  intros sys side ks s. unfold table_names. rewrite in_concat. split.
  - intros (l & I & J). apply in_map_iff in I. destruct I as (k & <- & Ik).
    apply in_map_iff in J. destruct J as (st & <- & Is). exists k, st. auto.
  - intros (k & st & Ik & Is & ->). exists (map (fun st => sys ++ side ++ st ++ show k) stems).
    split; [apply in_map_iff; exists k; auto |]. apply in_map_iff. exists st. auto.
Qed.

Lemma stem_inj : forall a b k k', In a stems -> In b stems -> a ++ show k = b ++ show k' ->
  a = b /\ k = k'.
Proof.
  intros a b k k' Ia Ib E. unfold stems in *. cbn [In] in *.
  destruct Ia as [<- | [<- | [<- | [<- | []]]]], Ib as [<- | [<- | [<- | [<- | []]]]];
    try discriminate E; split; try reflexivity; apply append_inj_l in E; apply show_inj; exact E.
Qed.

Lemma table_names_NoDup : forall sys side ks, NoDup ks -> NoDup (table_names sys side ks).
Proof.
  intros sys side ks N. induction ks as [| k ks IH]; [constructor |].
  inversion N as [| ? ? N1 N2]; subst.
  change (table_names sys side (k :: ks))
    with (List.app (map (fun st => sys ++ side ++ st ++ show k) stems) (table_names sys side ks)).
  apply NoDup_app_intro; [| apply IH, N2 |].
  - unfold stems. cbn [map].
    repeat constructor; cbn [In]; intros I;
      repeat (destruct I as [I | I];
              [apply append_inj_l, append_inj_l in I; discriminate I |]); exact I.
  - intros s I J. apply in_map_iff in I. destruct I as (st & <- & Is).
    apply table_names_in in J. destruct J as (k' & st' & Ik & Is' & E).
    apply append_inj_l, append_inj_l in E. apply stem_inj in E; [| assumption | assumption].
    destruct E as [_ ->]. contradiction.
Qed.
