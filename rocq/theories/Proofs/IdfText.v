(** Lemmas for C51: the printed objects read back. *)
From Coq Require Import ZArith List String Ascii Bool Lia.
From Verif.Base Require Import Num Res Tac.
From Verif.Model Require Import Idf.
From Verif.Spec Require Import IdfSpec.
Import ListNotations.
Local Open Scope string_scope.

Lemma append_assoc : forall a b c : string, (a ++ b) ++ c = a ++ (b ++ c).
Proof. induction a; simpl; intros; [reflexivity | f_equal; apply IHa]. Qed.
Lemma append_nil : forall a : string, a ++ "" = a.
Proof. induction a; simpl; [reflexivity | f_equal; apply IHa]. Qed.

Lemma all_chars_app : forall p a b, all_chars p (a ++ b) = all_chars p a && all_chars p b.
Proof. induction a; simpl; intros; [reflexivity | rewrite IHa; apply andb_assoc]. Qed.

Lemma all_chars_impl : forall (p q : ascii -> bool), (forall c, p c = true -> q c = true) ->
  forall s, all_chars p s = true -> all_chars q s = true.
Proof.
  intros p q H; induction s; simpl; [reflexivity |].
  rewrite !andb_true_iff. intros [A B]. split; [apply H | apply IHs]; assumption.
Qed.

Lemma all_chars_spaces : forall p n, p " "%char = true -> all_chars p (spaces n) = true.
Proof. induction n; simpl; intros H; [reflexivity |]. rewrite H. apply IHn, H. Qed.

Definition plain (c : ascii) : bool := negb (separator c).

Lemma plain_facts : forall c, plain c = true ->
  (c =? ",")%char = false /\ (c =? ";")%char = false /\ (c =? "!")%char = false /\
  (c =? "010")%char = false.
Proof.
  intros c. unfold plain, separator. cbn [existsb].
  destruct (c =? ",")%char, (c =? ";")%char, (c =? "!")%char, (c =? "010")%char;
    simpl; intros; try discriminate; repeat split.
Qed.

Lemma plain_one_line : forall s, all_chars plain s = true -> one_line s.
Proof.
  intros s. apply all_chars_impl. intros c H.
  destruct (plain_facts c H) as (_ & _ & _ & E). rewrite E. reflexivity.
Qed.

Lemma lines_line : forall l s, one_line l -> lines (l ++ newline ++ s) = l :: lines s.
Proof.
  unfold one_line. induction l as [| c l IH]; intros s H.
  - reflexivity.
  - simpl in H. apply andb_true_iff in H. destruct H as [A B].
    change (String c l ++ newline ++ s) with (String c (l ++ newline ++ s)).
    cbn [lines]. rewrite (IH s B).
    destruct (c =? "010")%char; [discriminate | reflexivity].
Qed.

Lemma data_part_plain : forall a s, all_chars (fun c => negb (c =? "!")%char) a = true ->
  data_part (a ++ String "!" s) = a.
Proof.
  induction a as [| c a IH]; intros s H; [reflexivity |].
  simpl in *. destruct (c =? "!")%char; [discriminate |]. f_equal. apply IH, H.
Qed.

Lemma data_part_all : forall a, all_chars (fun c => negb (c =? "!")%char) a = true ->
  data_part a = a.
Proof.
  induction a as [| c a IH]; intros H; [reflexivity |].
  simpl in *. destruct (c =? "!")%char; [discriminate |]. f_equal. apply IH, H.
Qed.

Lemma comment_part_plain : forall a n, all_chars (fun c => negb (c =? "!")%char) a = true ->
  comment_part (a ++ "!- " ++ n) = n.
Proof.
  induction a as [| c a IH]; intros n H; [reflexivity |].
  simpl in *. destruct (c =? "!")%char; [discriminate |]. apply IH, H.
Qed.

Lemma comment_part_none : forall a, all_chars (fun c => negb (c =? "!")%char) a = true ->
  comment_part a = "".
Proof.
  induction a as [| c a IH]; intros H; [reflexivity |].
  simpl in *. destruct (c =? "!")%char; [discriminate |]. apply IH, H.
Qed.

Lemma items_spaces : forall n, items (spaces n) = [].
Proof. induction n; [reflexivity |]. simpl. rewrite IHn. reflexivity. Qed.

Lemma items_comma : forall a n, all_chars plain a = true ->
  items (a ++ "," ++ spaces n) = [(a, false)].
Proof.
  induction a as [| c a IH]; intros n H.
  - simpl. rewrite items_spaces. reflexivity.
  - simpl in H. apply andb_true_iff in H. destruct H as [A B].
    destruct (plain_facts c A) as (E1 & E2 & _ & _).
    change (String c a ++ "," ++ spaces n) with (String c (a ++ "," ++ spaces n)).
    cbn [items]. rewrite E1, E2, (IH n B). reflexivity.
Qed.

Lemma items_semi : forall a n, all_chars plain a = true ->
  items (a ++ ";" ++ spaces n) = [(a, true)].
Proof.
  induction a as [| c a IH]; intros n H.
  - simpl. rewrite items_spaces. reflexivity.
  - simpl in H. apply andb_true_iff in H. destruct H as [A B].
    destruct (plain_facts c A) as (E1 & E2 & _ & _).
    change (String c a ++ ";" ++ spaces n) with (String c (a ++ ";" ++ spaces n)).
    cbn [items]. rewrite E1, E2, (IH n B). reflexivity.
Qed.

Lemma plain_bang : forall s, all_chars plain s = true ->
  all_chars (fun c => negb (c =? "!")%char) s = true.
Proof.
  intros s. apply all_chars_impl. intros c H.
  destruct (plain_facts c H) as (_ & _ & E & _). rewrite E. reflexivity.
Qed.

Lemma clean_plain : forall s, clean s -> all_chars plain s = true.
Proof. intros s [H _]. exact H. Qed.

Lemma read_class : forall s, clean s -> read_line (s ++ ",") = [(s, "", false)].
Proof.
  intros s H. pose proof (clean_plain s H) as P. unfold read_line.
  assert (B : all_chars (fun c => negb (c =? "!")%char) (s ++ ",") = true).
  { rewrite all_chars_app, (plain_bang s P). reflexivity. }
  rewrite (data_part_all _ B), (comment_part_none _ B).
  pose proof (items_comma s 0 P) as I. simpl in I. rewrite I. simpl.
  rewrite (proj2 H). reflexivity.
Qed.

Lemma read_field : forall sp f t, clean (fst f) -> t = "," \/ t = ";" ->
  read_line (field_line sp t f) = [(fst f, snd f, (t =? ";"))].
Proof.
  intros sp [v n] t H Ht. cbn [fst snd] in *. pose proof (clean_plain v H) as P.
  unfold field_line, pad_right. cbn [fst snd].
  set (k := sp - String.length (v ++ t)).
  assert (Q : "  " ++ ((v ++ t) ++ spaces k) ++ "!- " ++ n
              = ("  " ++ v ++ t ++ spaces k) ++ "!- " ++ n).
  { rewrite !append_assoc. reflexivity. }
  rewrite Q. unfold read_line.
  assert (P2 : all_chars plain ("  " ++ v) = true) by (simpl; exact P).
  assert (B : all_chars (fun c => negb (c =? "!")%char) ("  " ++ v ++ t ++ spaces k) = true).
  { change ("  " ++ v ++ t ++ spaces k) with (("  " ++ v) ++ t ++ spaces k).
    rewrite !all_chars_app, all_chars_spaces, (plain_bang _ P) by reflexivity.
    destruct Ht; subst t; reflexivity. }
  rewrite (comment_part_plain _ _ B).
  change ("!- " ++ n) with (String "!" ("- " ++ n)). rewrite (data_part_plain _ _ B).
  change ("  " ++ v ++ t ++ spaces k) with (("  " ++ v) ++ t ++ spaces k).
  assert (V : trim ("  " ++ v) = v) by exact (proj2 H).
  destruct Ht; subst t.
  - rewrite (items_comma _ _ P2). cbn [map fst snd]. rewrite V. reflexivity.
  - rewrite (items_semi _ _ P2). cbn [map fst snd]. rewrite V. reflexivity.
Qed.

Lemma field_one_line : forall sp f t, clean (fst f) -> one_line (snd f) ->
  t = "," \/ t = ";" -> one_line (field_line sp t f).
Proof.
  intros sp [v n] t H N Ht. cbn [fst snd] in *.
  pose proof (plain_one_line v (clean_plain v H)) as P.
  unfold field_line, pad_right, one_line in *. cbn [fst snd].
  rewrite !all_chars_app, P, N, all_chars_spaces by reflexivity.
  destruct Ht; subst t; reflexivity.
Qed.

Definition good_field (f : string * string) : Prop := clean (fst f) /\ one_line (snd f).

Lemma read_fields : forall sp fs rest seen, fs <> [] -> Forall good_field fs ->
  read_items seen (List.concat (map read_line (lines (field_lines sp fs ++ rest))))
  = as_object (seen ++ fs) :: read_items [] (List.concat (map read_line (lines rest))).
Proof.
  intros sp. induction fs as [| f fs IH]; intros rest seen N G; [congruence |].
  inversion G as [| ? ? [Gv Gn] G']; subst.
  destruct fs as [| f' fs].
  - change (field_lines sp [f]) with (field_line sp ";" f ++ newline ++ newline).
    rewrite !append_assoc.
    rewrite lines_line by (apply field_one_line; auto).
    change (newline ++ rest) with ("" ++ newline ++ rest).
    rewrite lines_line by reflexivity.
    cbn [map List.concat]. rewrite read_field by auto.
    change (read_line "") with (@nil (string * string * bool)).
    destruct f as [v n]. cbn [fst snd app read_items String.eqb Ascii.eqb Bool.eqb]. reflexivity.
  - change (field_lines sp (f :: f' :: fs))
      with (field_line sp "," f ++ newline ++ field_lines sp (f' :: fs)).
    rewrite !append_assoc.
    rewrite lines_line by (apply field_one_line; auto).
    cbn [map List.concat]. rewrite read_field by auto.
    destruct f as [v n]. cbn [fst snd app read_items String.eqb Ascii.eqb Bool.eqb].
    rewrite IH by (try discriminate; assumption).
    rewrite <- app_assoc. reflexivity.
Qed.

Lemma read_object : forall o t rest, readable o -> object_text o = Ok t ->
  read_items [] (List.concat (map read_line (lines (t ++ rest))))
  = o :: read_items [] (List.concat (map read_line (lines rest))).
Proof.
  intros [cls fs] t rest (C & N & G) E. cbn [fst snd] in *.
  unfold object_text in E. cbn [fst snd] in E.
  destruct fs as [| f fs]; [congruence |].
  assert (Et : t = cls ++ "," ++ newline ++ field_lines (spacing_of (f :: fs)) (f :: fs))
    by congruence.
  rewrite Et, !append_assoc.
  change (cls ++ "," ++ newline ++ field_lines (spacing_of (f :: fs)) (f :: fs) ++ rest)
    with (cls ++ "," ++ (newline ++ field_lines (spacing_of (f :: fs)) (f :: fs) ++ rest)).
  rewrite <- (append_assoc cls ",").
  rewrite lines_line.
  - cbn [map List.concat]. rewrite (read_class cls C). cbn [app read_items].
    rewrite read_fields; [reflexivity | discriminate | exact G].
  - unfold one_line. rewrite all_chars_app.
    pose proof (plain_one_line cls (clean_plain cls C)) as P. unfold one_line in P.
    rewrite P. reflexivity.
Qed.

Lemma object_text_ok : forall o, readable o -> exists t, object_text o = Ok t.
Proof.
  intros [cls fs] (_ & N & _). unfold object_text. cbn [snd] in *.
  destruct fs; [congruence |]. eexists. reflexivity.
Qed.

Lemma concat_cons : forall t ts, String.concat "" (t :: ts) = t ++ String.concat "" ts.
Proof.
  intros t [| t' ts]; simpl; [symmetry; apply append_nil | reflexivity].
Qed.

Lemma write_reads_back : forall l, Forall readable l ->
  exists t, write_idf_objects l = Ok t /\ read_idf t = l.
Proof.
  unfold write_idf_objects, read_idf. induction l as [| o l IH]; intros G.
  - exists "". split; reflexivity.
  - inversion G as [| ? ? Go Gl]; subst.
    destruct (object_text_ok o Go) as [t Et].
    destruct (IH Gl) as (ts & Ets & R).
    cbn [rmapM]. rewrite Et. cbn [rbind].
    destruct (rmapM object_text l) as [tl | e] eqn:Er; [| discriminate].
    cbn [rbind] in *. injection Ets as <-.
    exists (String.concat "" (t :: tl)). split; [reflexivity |].
    rewrite concat_cons, (read_object o t _ Go Et), R. reflexivity.
Qed.

Lemma write_empty_object : forall a cls b, Forall readable a ->
  write_idf_objects (a ++ (cls, []) :: b) = Err ValueError.
Proof.
  unfold write_idf_objects. induction a as [| o a IH]; intros cls b G; [reflexivity |].
  inversion G as [| ? ? Go Gl]; subst.
  destruct (object_text_ok o Go) as [t Et].
  cbn [rmapM app]. rewrite Et. cbn [rbind]. specialize (IH cls b Gl).
  destruct (rmapM object_text (a ++ (cls, []) :: b)); cbn [rbind] in *; congruence.
Qed.
