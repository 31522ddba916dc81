(** C51 for everything [write_idf] writes. *)
From Coq Require Import ZArith QArith List String Ascii Bool Lia.
From Verif.Base Require Import Num Res Tac.
From Verif.Model Require Import Units Util Psychrometrics Conditions Defrost Fan Tabular Unit
  DXUnit Idf.
From Verif.Spec Require Import IdfSpec.
From Verif.Proofs Require Import IdfText IdfStruct IdfNames IdfRefs.
Import ListNotations.
Local Open Scope string_scope.

Definition first_char (s : string) : option ascii :=
  match s with "" => None | String c _ => Some c end.

Lemma trim_left_first : forall s, first_char s <> Some " "%char -> trim_left s = s.
Proof.
  intros [| c s] H; [reflexivity |]. cbn [first_char] in H.
  destruct c as [[] [] [] [] [] [] [] []]; try reflexivity. exfalso. apply H. reflexivity.
Qed.

Lemma trim_right_last : forall s, last_char s <> Some " "%char -> trim_right s = s.
Proof.
  induction s as [| c s IH]; intros H; [reflexivity |]. cbn [trim_right].
  destruct s as [| d s].
  - cbn [trim_right last_char] in *. destruct (Ascii.eqb_spec c " "%char); [congruence | reflexivity].
  - rewrite IH by exact H. reflexivity.
Qed.

Lemma trim_ends : forall s, first_char s <> Some " "%char -> last_char s <> Some " "%char ->
  trim s = s.
Proof.
  intros s F L. unfold trim. rewrite trim_left_first by exact F. apply trim_right_last, L.
Qed.

Lemma trim_right_length : forall s, (String.length (trim_right s) <= String.length s)%nat.
Proof.
  induction s as [| c s IH]; [reflexivity |]. cbn [trim_right String.length].
  destruct (trim_right s) as [| d r] eqn:E.
  - destruct (c =? " ")%char; cbn [String.length]; lia.
  - cbn [String.length] in *. lia.
Qed.
Lemma trim_left_length : forall s, (String.length (trim_left s) <= String.length s)%nat.
Proof.
  induction s as [| c s IH]; [reflexivity |].
  destruct (Ascii.eqb_spec c " "%char) as [-> | N].
  - cbn [trim_left String.length]. lia.
  - rewrite trim_left_first; [lia |]. cbn [first_char]. congruence.
Qed.

Lemma trim_first : forall s, trim s = s -> first_char s <> Some " "%char.
Proof.
  intros [| c s] E; [discriminate |]. cbn [first_char]. intros Q.
  assert (Q' : c = " "%char) by congruence. subst c.
  unfold trim in E. cbn [trim_left] in E.
  pose proof (trim_right_length (trim_left s)). pose proof (trim_left_length s).
  rewrite E in H. cbn [String.length] in H. lia.
Qed.

Definition good_prefix (sys : string) : Prop :=
  all_chars plain sys = true /\ first_char sys <> Some " "%char.

Lemma system_prefix_good : forall name,
  match name with Some s => clean s /\ s <> "" | None => True end ->
  good_prefix (system_prefix name).
Proof.
  intros [s |] H; cbn [system_prefix].
  - destruct H as [[P E] N]. split.
    + rewrite all_chars_app. unfold plain at 1. rewrite P. reflexivity.
    + destruct s as [| c s]; [congruence |]. exact (trim_first _ E).
  - split; [reflexivity | discriminate].
Qed.

(** A text that may follow the prefix. *)
Definition tail_ok (b : string) : Prop :=
  all_chars plain b = true /\ first_char b <> Some " "%char /\
  exists c, last_char b = Some c /\ c <> " "%char.

Lemma clean_tail : forall sys b, good_prefix sys -> tail_ok b -> clean (sys ++ b).
Proof.
  intros sys b [P F] (Pb & Fb & c & L & N).
  assert (Nb : b <> "") by (intros ->; discriminate L).
  split.
  - fold plain. rewrite all_chars_app. unfold plain in *. rewrite P, Pb. reflexivity.
  - apply trim_ends.
    + destruct sys as [| d sys]; [exact Fb | exact F].
    + rewrite last_char_app by exact Nb. rewrite L. congruence.
Qed.

Lemma digit_plain : forall c, digit c = true -> plain c = true /\ c <> " "%char.
Proof.
  intros c H. unfold digit in H. cbn [existsb] in H.
  repeat (apply orb_true_iff in H; destruct H as [H | H];
          [apply Ascii.eqb_eq in H; subst c; split; [reflexivity | discriminate] |]).
  discriminate H.
Qed.

Lemma show_plain : forall k, all_chars plain (show k) = true.
Proof.
  intros k. apply (all_chars_impl digit); [intros c H; apply digit_plain, H | apply show_digits].
Qed.

Lemma tail_show : forall b k, all_chars plain b = true -> b <> "" ->
  first_char b <> Some " "%char -> tail_ok (b ++ show k).
Proof.
  intros b k P N F. destruct (show_digits k) as [D Z]. split; [| split].
  - rewrite all_chars_app, P, show_plain. reflexivity.
  - destruct b; [congruence | exact F].
  - rewrite last_char_app by exact Z.
    destruct (last_char (show k)) as [c |] eqn:L.
    + exists c. split; [reflexivity |]. apply digit_plain, (last_char_all digit (show k)); assumption.
    + destruct (show k) as [| d s]; [congruence |].
      exfalso. clear -L. revert d L. induction s as [| e s IH]; intros d L; [discriminate L |].
      apply (IH e). exact L.
Qed.

Lemma clean_show_Z : forall z, clean (show_Z z).
Proof.
  intros z. destruct (show_Z_digits z) as [D Z]. split.
  - apply (all_chars_impl digit); [intros c H; apply digit_plain, H | exact D].
  - apply trim_ends.
    + destruct (show_Z z) as [| c s]; [discriminate |]. cbn [first_char]. intros Q.
      assert (Q' : c = " "%char) by congruence. subst c. discriminate D.
    + intros L. apply (last_char_all digit) in L; [discriminate L | exact D].
Qed.

Lemma one_line_mid : forall a k b, one_line a -> one_line b -> one_line (a ++ show k ++ b).
Proof.
  intros a k b A B. unfold one_line. rewrite !all_chars_app, A, B, (plain_one_line _ (show_plain k)).
  reflexivity.
Qed.
Lemma one_line_end : forall a k, one_line a -> one_line (a ++ show k).
Proof.
  intros a k A. unfold one_line. rewrite !all_chars_app, A, (plain_one_line _ (show_plain k)).
  reflexivity.
Qed.

Section Read.
  Context {T : Type} {NT : Num T} {NX : NumX T}.
  Variable fmt : nat -> T -> string.
  Hypothesis Hfmt : forall p x, clean (fmt p x).
  Variable sys : string.
  Hypothesis Hsys : good_prefix sys.

  Definition fine (f : idf_field T) : Prop :=
    clean (render fmt (fd_value f)) /\ one_line (fd_name f).

  Lemma fine_num : forall p x s, one_line s -> fine (num p x s).
  Proof. intros. split; [apply Hfmt | assumption]. Qed.
  Lemma fine_int : forall z s, one_line s -> fine (int z s).
  Proof. intros. split; [apply clean_show_Z | assumption]. Qed.
  Lemma fine_size : forall x s, one_line s -> fine (size x s).
  Proof. intros [x |] s H; [apply fine_num, H |]. split; [split; reflexivity | exact H]. Qed.
  Lemma fine_text : forall s n, clean s -> one_line n -> fine (txt s n).
  Proof. intros. split; assumption. Qed.
  Lemma fine_sys : forall b n, tail_ok b -> one_line n -> fine (txt (sys ++ b) n).
  Proof. intros. split; [apply clean_tail; assumption | assumption]. Qed.

  Ltac tail := split; [reflexivity | split; [discriminate | eexists; split; [reflexivity | discriminate]]].
  Ltac ol := first [ reflexivity | apply one_line_mid; reflexivity | apply one_line_end; reflexivity ].
  Ltac fine_step :=
    first [ apply fine_num; ol | apply fine_int; ol | apply fine_size; ol
          | apply fine_sys; [tail | ol]
          | apply fine_sys; [apply tail_show; [reflexivity | discriminate | discriminate] | ol]
          | apply fine_text; [split; reflexivity | ol] ].
  Ltac fines := repeat (apply Forall_cons; [fine_step |]); try apply Forall_nil.

  Definition fine_object (o : idf_object T) : Prop :=
    clean (fst o) /\ snd o <> [] /\ Forall fine (snd o).

  Lemma fine_readable : forall l, Forall fine_object l ->
    Forall readable (map (render_object fmt) l).
  Proof.
    intros l H. apply Forall_map. revert H. apply Forall_impl. intros [c fs] (A & B & C).
    split; [exact A | split].
    - cbn [render_object snd] in *. destruct fs; [congruence | discriminate].
    - cbn [render_object snd] in *. apply Forall_map. revert C. apply Forall_impl.
      intros f H. exact H.
  Qed.

  Lemma fine_numbered : forall label p values, one_line label ->
    Forall fine (numbered label p values).
  Proof.
    intros label p values H. unfold numbered. apply Forall_map, Forall_forall. intros [i v] _.
    cbn [fst snd]. apply fine_num. rewrite <- append_assoc. apply one_line_end.
    unfold one_line in *. rewrite all_chars_app, H. reflexivity.
  Qed.

  Lemma fine_variable : forall b ut rated values, tail_ok b -> clean ut ->
    fine_object (make_independent_variable (sys ++ b) ut rated values).
  Proof.
    intros b ut rated values Hb Hu. split; [split; reflexivity | split; [discriminate |]].
    unfold make_independent_variable. cbn [snd]. apply Forall_app. split.
    - apply Forall_cons; [apply fine_sys; [exact Hb | reflexivity] |].
      do 5 (apply Forall_cons; [fine_step |]).
      apply Forall_cons; [apply fine_text; [exact Hu | reflexivity] |]. fines.
    - apply fine_numbered. reflexivity.
  Qed.

  Lemma fine_lookup : forall b ln nz p v, tail_ok b -> tail_ok ln ->
    fine_object (lookup_object (sys ++ b) (sys ++ ln) nz p v).
  Proof.
    intros b ln nz p v Hb Hl. split; [split; reflexivity | split; [discriminate |]].
    unfold lookup_object. cbn [snd]. apply Forall_app. split.
    - apply Forall_cons; [apply fine_sys; [exact Hb | reflexivity] |].
      apply Forall_cons; [apply fine_sys; [exact Hl | reflexivity] |].
      apply Forall_cons; [destruct nz; fine_step |]. fines.
    - apply fine_numbered. reflexivity.
  Qed.

  Lemma fine_tables : forall side k nz v, In side ["Cooling"; "Heating"] ->
    Forall fine_object (four_tables sys side k nz v).
  Proof.
    intros side k nz v I. unfold four_tables. cbv zeta.
    assert (L : forall st, In st stems -> tail_ok (side ++ st ++ show k)).
    { intros st Is. unfold stems in Is. rewrite <- append_assoc.
      destruct I as [<- | [<- | []]]; destruct Is as [<- | [<- | [<- | [<- | []]]]];
        apply tail_show; (reflexivity || discriminate). }
    assert (X : tail_ok (side ++ " fT List")) by (destruct I as [<- | [<- | []]]; tail).
    repeat (apply Forall_cons; [apply fine_lookup |]); try apply Forall_nil;
      first [apply L; unfold stems; cbn [In]; tauto | exact X | tail].
  Qed.

  Lemma fine_cspeed : forall x : @cspeed T, Forall fine (cspeed_fields sys x).
  Proof.
    intros [[k [[[q shr] cop] air]] v]. unfold cspeed_fields, cooling_speed_fields.
    fines.
  Qed.
  Lemma fine_hspeed : forall x : @hspeed T, Forall fine (hspeed_fields sys x).
  Proof.
    intros [[k [[q cop] air]] v]. unfold hspeed_fields, heating_speed_fields. fines.
  Qed.

  Ltac object := split; [split; reflexivity | split; [discriminate | cbn [snd]; fines]].

  Lemma objects_fine : forall u t nz system a w r p eff n fs qc ac crank xs qh ah on dmax crank'
      strategy control period heater eir ys,
    system_shape sys t system -> defrost_texts u strategy control period heater ->
    Forall fine_object
      (system ++ schedule_objects sys ++ fan_part sys t a w r p eff n fs
       :: variable_objects u sys ++ cooling_part u sys nz qc ac crank xs
       ++ heating_part u sys nz qh ah on dmax crank' strategy control period heater eir ys)%list.
  Proof.
    intros u t nz system a w r p eff n fs qc ac crank xs qh ah on dmax crank'
      strategy control period heater eir ys Hs (D1 & D2 & D3 & D4).
    apply Forall_app. split; [| apply Forall_app; split].
    - unfold system_shape in Hs. destruct t; [destruct Hs as [rr ->] | rewrite Hs | contradiction].
      + apply Forall_cons; [unfold unitary_object; object | apply Forall_nil].
      + unfold pthp_objects. apply Forall_cons; [object |].
        apply Forall_cons; [object | apply Forall_nil].
    - unfold schedule_objects. apply Forall_cons; [object |].
      apply Forall_cons; [object | apply Forall_nil].
    - apply Forall_cons; [| apply Forall_app; split; [| apply Forall_app; split]].
      + split; [split; reflexivity | split; [discriminate |]].
        unfold fan_part. cbn [snd]. apply Forall_app. split.
        * unfold fan_fields. do 3 (apply Forall_cons; [fine_step |]).
          apply Forall_cons; [destruct t; fine_step |]. fines.
        * apply Forall_concat_intro, Forall_map, Forall_forall. intros kx _.
          unfold fan_speed_fields. fines.
      + unfold variable_objects.
        repeat (apply Forall_cons;
          [first [apply fine_variable; [tail | split; reflexivity]
                 | unfold variable_list; cbn [map enumerate combine seq List.length fst]; object] |]).
        apply Forall_nil.
      + unfold cooling_part. apply Forall_cons; [| apply Forall_cons].
        * split; [split; reflexivity | split; [discriminate |]]. cbn [snd]. apply Forall_app. split.
          -- unfold cooling_coil_fields. fines.
          -- apply Forall_concat_intro, Forall_map, Forall_forall. intros x _. apply fine_cspeed.
        * unfold part_load_curve. object.
        * apply Forall_concat_intro, Forall_map, Forall_forall. intros x _.
          apply fine_tables. cbn [In]. tauto.
      + unfold heating_part. apply Forall_cons; [| apply Forall_cons; [| apply Forall_cons]].
        * split; [split; reflexivity | split; [discriminate |]]. cbn [snd]. apply Forall_app. split.
          -- unfold heating_coil_fields. do 14 (apply Forall_cons; [fine_step |]).
             apply Forall_cons; [destruct D1 as [<- | [<- | []]]; fine_step |].
             apply Forall_cons; [destruct D2 as [<- | [<- | []]]; fine_step |].
             apply Forall_cons; [destruct D3 as [[x ->] | ->]; fine_step |].
             apply Forall_cons; [destruct D4 as [[x ->] | ->]; fine_step |].
             apply Forall_nil.
          -- apply Forall_concat_intro, Forall_map, Forall_forall. intros x _. apply fine_hspeed.
        * unfold part_load_curve. object.
        * unfold defrost_curve. object.
        * apply Forall_concat_intro, Forall_map, Forall_forall. intros x _.
          apply fine_tables. cbn [In]. tauto.
  Qed.
End Read.

Lemma idf_reads_back : forall {T} {NT : Num T} {NX : NumX T} (psy : psychro T) sol M
    (fmt : nat -> T -> string) u name t autosize nz cached objects,
  (forall p x, clean (fmt p x)) ->
  match name with Some s => clean s /\ s <> "" | None => True end ->
  idf_objects psy sol M u name t autosize nz cached = Ok objects ->
  exists text, write_idf psy sol M fmt u name t autosize nz cached = Ok text /\
    read_idf text = map (render_object fmt) objects.
Proof.
  intros T NT NX psy sol M fmt u name t autosize nz cached objects Hf Hn E.
  unfold write_idf. rewrite E. cbn [rbind]. apply write_reads_back.
  apply idf_objects_inv in E. cbv zeta in E.
  destruct E as (system & a & w & r & p & eff & n & fs & qc & ac & crank & xs & qh & ah & on
    & dmax & crank' & strategy & control & period & heater & eir & ys & Hsys & Hxs & Cxs & Hys
    & Hhs & Hd & ->).
  apply fine_readable. apply objects_fine; try assumption. apply system_prefix_good, Hn.
Qed.
