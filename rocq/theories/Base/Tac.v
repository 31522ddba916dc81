(** Lemmas and tactics for reasoning about the real instance of the model. *)
From Coq Require Import Reals QArith Lra List Bool ZArith.
From Verif.Base Require Import Num Res.
Import ListNotations.
Local Open Scope R_scope.

Lemma Rltb_spec x y : reflect (x < y) (Rltb x y).
Proof. unfold Rltb; destruct (Rlt_dec x y); constructor; auto. Qed.
Lemma Rleb_spec x y : reflect (x <= y) (Rleb x y).
Proof. unfold Rleb; destruct (Rle_dec x y); constructor; auto. Qed.
Lemma Reqb_spec x y : reflect (x = y) (Reqb x y).
Proof. unfold Reqb; destruct (Req_EM_T x y); constructor; auto. Qed.

Lemma Rltb_true x y : Rltb x y = true <-> x < y.
Proof. destruct (Rltb_spec x y); intuition congruence. Qed.
Lemma Rltb_false x y : Rltb x y = false <-> y <= x.
Proof. destruct (Rltb_spec x y); split; intros; auto; try congruence; lra. Qed.
Lemma Rleb_true x y : Rleb x y = true <-> x <= y.
Proof. destruct (Rleb_spec x y); intuition congruence. Qed.
Lemma Rleb_false x y : Rleb x y = false <-> y < x.
Proof. destruct (Rleb_spec x y); split; intros; auto; try congruence; lra. Qed.
Lemma Reqb_true x y : Reqb x y = true <-> x = y.
Proof. destruct (Reqb_spec x y); intuition congruence. Qed.
Lemma Reqb_false x y : Reqb x y = false <-> x <> y.
Proof. destruct (Reqb_spec x y); intuition congruence. Qed.

(** Turn the class operations at [R] into the operations of [R]. *)
Ltac rlit := cbv [lit nZ inject_Z Q2R Qnum Qden].
Ltac rnum :=
  cbv [nabs pymax pymin nsq lit nZ inject_Z
       nq nadd nsub nmul ndiv nopp nltb nleb neqb RNum
       nexp nln nsqrt npow npi RNumX Q2R Qnum Qden].
Ltac rnum_in H :=
  cbv [nabs pymax pymin nsq lit nZ inject_Z
       nq nadd nsub nmul ndiv nopp nltb nleb neqb RNum
       nexp nln nsqrt npow npi RNumX Q2R Qnum Qden] in H.
Ltac rnum_all :=
  rnum;
  repeat match goal with H : _ |- _ => progress rnum_in H end.

(** Case split on the comparisons occurring in the goal / a hypothesis. *)
Ltac rcase1 :=
  match goal with
  | |- context [Rltb ?x ?y] => destruct (Rltb_spec x y)
  | |- context [Rleb ?x ?y] => destruct (Rleb_spec x y)
  | |- context [Reqb ?x ?y] => destruct (Reqb_spec x y)
  end.
Ltac rcase_in H :=
  match type of H with
  | context [Rltb ?x ?y] => destruct (Rltb_spec x y)
  | context [Rleb ?x ?y] => destruct (Rleb_spec x y)
  | context [Reqb ?x ?y] => destruct (Reqb_spec x y)
  end.
Ltac rcases := repeat (rcase1; try lra).

(** * The error monad *)
Lemma rbind_ok {A B} (m : res A) (k : A -> res B) v :
  rbind m k = Ok v <-> exists a, m = Ok a /\ k a = Ok v.
Proof.
  destruct m; simpl; split; intros H.
  - eauto.
  - destruct H as (a' & H1 & H2). congruence.
  - discriminate.
  - destruct H as (a' & H1 & H2). discriminate.
Qed.

Lemma rbind_err {A B} (m : res A) (k : A -> res B) e :
  rbind m k = Err e <-> m = Err e \/ exists a, m = Ok a /\ k a = Err e.
Proof.
  destruct m; simpl; split; intros H.
  - eauto.
  - destruct H as [H|(a' & H1 & H2)]; congruence.
  - left; congruence.
  - destruct H as [H|(a' & H1 & H2)]; congruence.
Qed.

Lemma Ok_inj {A} (a b : A) : Ok a = Ok b -> a = b.
Proof. congruence. Qed.

(** Invert [rbind m k = Ok v] hypotheses (and [Ok a = Ok b]). *)
Ltac inv_ok1 :=
  match goal with
  | H : rbind _ _ = Ok _ |- _ =>
      let a := fresh "v" in let E := fresh "E" in
      apply rbind_ok in H; destruct H as (a & E & H)
  | H : Ok _ = Ok _ |- _ => apply Ok_inj in H
  | H : Err _ = Ok _ |- _ => discriminate H
  | H : Ok _ = Err _ |- _ => discriminate H
  end.
Ltac inv_ok := repeat inv_ok1.

Lemma need_ok {A} e (o : option A) a : need e o = Ok a <-> o = Some a.
Proof. destruct o; simpl; split; congruence. Qed.

Lemma guard_ok e b u : guard e b = Ok u <-> b = true.
Proof. destruct b, u; simpl; split; congruence. Qed.

(** * Checked division *)
Lemma lit0_R : lit (T:=R) 0 = 0.
Proof. rnum. lra. Qed.

Lemma pydiv_ok (x y : R) : y <> 0 -> pydiv x y = Ok (x / y).
Proof.
  intros H. unfold pydiv. rewrite lit0_R.
  cbn [neqb ndiv RNum]. destruct (Reqb_spec y 0); [contradiction|reflexivity].
Qed.

Lemma pydiv_zero (x : R) : pydiv x 0 = Err ZeroDivisionError.
Proof.
  unfold pydiv. rewrite lit0_R. cbn [neqb RNum].
  destruct (Reqb_spec 0 0); [reflexivity|lra].
Qed.

Lemma pydiv_inv (x y v : R) : pydiv x y = Ok v <-> y <> 0 /\ v = x / y.
Proof.
  unfold pydiv. rewrite lit0_R. cbn [neqb ndiv RNum].
  destruct (Reqb_spec y 0); split; intros H.
  - discriminate.
  - tauto.
  - split; congruence.
  - destruct H; congruence.
Qed.

Lemma pydiv_err (x y : R) e : pydiv x y = Err e <-> y = 0 /\ e = ZeroDivisionError.
Proof.
  unfold pydiv. rewrite lit0_R. cbn [neqb ndiv RNum].
  destruct (Reqb_spec y 0); split; intros H; try tauto.
  - split; congruence.
  - destruct H; congruence.
  - discriminate.
Qed.

Lemma rmapM_ok {A B} (f : A -> res B) l l' :
  rmapM f l = Ok l' <-> Forall2 (fun x y => f x = Ok y) l l'.
Proof.
  revert l'; induction l as [|x l IH]; intros l'; simpl.
  - split; intros H.
    + inv_ok; subst; constructor.
    + inversion H; reflexivity.
  - split; intros H.
    + inv_ok. subst. constructor; auto. apply IH; auto.
    + inversion H; subst. rewrite H2. simpl.
      apply IH in H4. rewrite H4. reflexivity.
Qed.

Lemma rmapM_length {A B} (f : A -> res B) l l' :
  rmapM f l = Ok l' -> length l' = length l.
Proof.
  intros H. apply rmapM_ok in H. induction H; simpl; congruence.
Qed.

Lemma rmapM_map {A B} (f : A -> res B) (g : A -> B) l :
  (forall x, In x l -> f x = Ok (g x)) -> rmapM f l = Ok (map g l).
Proof.
  induction l as [|x l IH]; simpl; intros H; auto.
  rewrite H by auto. simpl. rewrite IH by auto. reflexivity.
Qed.

Lemma rfold_ok {A B} (f : A -> B -> res A) (g : A -> B -> A) l a :
  (forall a x, In x l -> f a x = Ok (g a x)) -> rfold f a l = Ok (fold_left g l a).
Proof.
  revert a; induction l as [|x l IH]; simpl; intros a H; auto.
  rewrite H by auto. simpl. apply IH. auto.
Qed.

Lemma rfold_app {A B} (f : A -> B -> res A) l1 l2 a :
  rfold f a (l1 ++ l2) = rbind (rfold f a l1) (fun b => rfold f b l2).
Proof.
  revert a; induction l1 as [|x l IH]; simpl; intros a; auto.
  destruct (f a x); simpl; auto.
Qed.

(** * Lists *)
Lemma geti_ok {A} (l : list A) i a : geti l i = Ok a <-> nth_error l i = Some a.
Proof. unfold geti. apply need_ok. Qed.

Lemma geti_lt {A} (l : list A) i : (i < length l)%nat -> exists a, geti l i = Ok a.
Proof.
  intros H. apply nth_error_Some in H. unfold geti.
  destruct (nth_error l i); simpl; eauto. contradiction.
Qed.

Lemma geti_Ok_lt {A} (l : list A) i a : geti l i = Ok a -> (i < length l)%nat.
Proof. intros H. apply geti_ok in H. apply nth_error_Some. congruence. Qed.

Lemma upd_length {A} (l : list A) i a : length (upd l i a) = length l.
Proof. revert i; induction l; destruct i; simpl; auto. Qed.

Lemma upd_same {A} (l : list A) i a :
  (i < length l)%nat -> nth_error (upd l i a) i = Some a.
Proof.
  revert i; induction l as [|x l IH]; destruct i; simpl; intros H; try (inversion H; fail); auto.
  apply IH. apply Nat.succ_lt_mono; auto.
Qed.

Lemma upd_other {A} (l : list A) i j a :
  i <> j -> nth_error (upd l i a) j = nth_error l j.
Proof.
  revert i j; induction l as [|x l IH]; destruct i, j; simpl; intros H; auto; try congruence.
Qed.

Lemma del_length {A} (l : list A) i :
  (i < length l)%nat -> length (del l i) = pred (length l).
Proof.
  revert i; induction l as [|x l IH]; destruct i; simpl; intros H; auto; try (inversion H; fail).
  rewrite IH by (apply Nat.succ_lt_mono; auto).
  destruct l; simpl in *; auto. apply Nat.succ_lt_mono in H. inversion H.
Qed.

Lemma del_app_last {A} (l : list A) a : del (l ++ [a]) (length l) = l.
Proof. induction l; simpl; congruence. Qed.

Lemma ins_length {A} (l : list A) i a : length (ins l i a) = S (length l).
Proof. revert i; induction l; destruct i; simpl; auto. Qed.

Lemma lasti_app {A} (l : list A) a : lasti (l ++ [a]) = Ok a.
Proof. unfold lasti. rewrite rev_app_distr. reflexivity. Qed.

Lemma nth_error_app_last {A} (l : list A) a : nth_error (l ++ [a]) (length l) = Some a.
Proof. induction l; simpl; auto. Qed.

Lemma geti_app_last {A} (l : list A) a : geti (l ++ [a]) (length l) = Ok a.
Proof. apply geti_ok, nth_error_app_last. Qed.

(** * Stateful methods *)
Lemma sbind_ok {S A B} (m : st S A) (k : A -> st S B) s s' v :
  sbind m k s = (s', Ok v) <-> exists s1 a, m s = (s1, Ok a) /\ k a s1 = (s', Ok v).
Proof.
  unfold sbind. destruct (m s) as [s1 [a|e]]; split; intros H.
  - eauto.
  - destruct H as (s2 & a' & H1 & H2). congruence.
  - congruence.
  - destruct H as (s2 & a' & H1 & H2). congruence.
Qed.

Lemma pair_ok_inj {S A} (s s' : S) (a a' : A) :
  (s, Ok a) = (s', Ok a') -> s = s' /\ a = a'.
Proof. intros H; split; congruence. Qed.

Lemma slift_ok {S A} (m : res A) (s s' : S) v :
  slift m s = (s', Ok v) <-> s' = s /\ m = Ok v.
Proof.
  unfold slift; split; intros H.
  - split; congruence.
  - destruct H; congruence.
Qed.

Lemma sread_ok {S A} (f : S -> res A) (s s' : S) v :
  sread f s = (s', Ok v) <-> s' = s /\ f s = Ok v.
Proof.
  unfold sread; split; intros H.
  - split; congruence.
  - destruct H; congruence.
Qed.

(** Invert a successful run of a stateful method. *)
Ltac inv_st1 :=
  match goal with
  | H : sbind _ _ _ = (_, Ok _) |- _ =>
      let s := fresh "s" in let a := fresh "x" in let E := fresh "E" in
      apply sbind_ok in H; destruct H as (s & a & E & H)
  | H : sget _ = (_, Ok _) |- _ => unfold sget in H
  | H : sret _ _ = (_, Ok _) |- _ => unfold sret in H
  | H : smod _ _ = (_, Ok _) |- _ => unfold smod in H
  | H : sput _ _ = (_, Ok _) |- _ => unfold sput in H
  | H : slift _ _ = (_, Ok _) |- _ =>
      apply slift_ok in H; destruct H as (? & ?); try subst
  | H : sread _ _ = (_, Ok _) |- _ =>
      apply sread_ok in H; destruct H as (? & ?); try subst
  | H : (_, Ok _) = (_, Ok _) |- _ =>
      apply pair_ok_inj in H; destruct H as (? & ?); try subst
  | H : (_, Err _) = (_, Ok _) |- _ => discriminate H
  end.
Ltac inv_st := repeat (inv_st1; try subst).

Lemma sfold_app {S A} (f : A -> st S unit) l1 l2 s :
  sfold f (l1 ++ l2) s = sbind (sfold f l1) (fun _ => sfold f l2) s.
Proof.
  revert s; induction l1 as [|x l IH]; intros s; simpl; auto.
  unfold sbind in *. destruct (f x s) as [s1 [u|e]]; auto.
Qed.

(** An invariant of every operation is an invariant of every history. *)
Lemma sfold_inv {S A} (P : S -> Prop) (f : A -> st S unit) l s s' :
  (forall a s1 s2, In a l -> P s1 -> f a s1 = (s2, Ok tt) -> P s2) ->
  P s -> sfold f l s = (s', Ok tt) -> P s'.
Proof.
  revert s; induction l as [|x l IH]; intros s HP Hs H; simpl in H.
  - inv_st. auto.
  - inv_st. destruct x0. apply (IH s0); auto.
    + intros; eapply HP; eauto; right; auto.
    + eapply HP; eauto; left; auto.
Qed.

Lemma nth_error_del {A} (l : list A) i k :
  nth_error (del l i) k = if Nat.ltb k i then nth_error l k else nth_error l (S k).
Proof.
  revert i k; induction l as [|x l IH]; intros i k; simpl.
  - destruct (Nat.ltb k i); destruct k; reflexivity.
  - destruct i; simpl.
    + reflexivity.
    + destruct k; simpl; auto. rewrite IH.
      change (Nat.ltb (S k) (S i)) with (Nat.ltb k i).
      reflexivity.
Qed.

Lemma popi_ok {A} (l l' : list A) i : popi l i = Ok l' <-> (i < length l)%nat /\ l' = del l i.
Proof.
  unfold popi. destruct (Nat.ltb_spec i (length l)) as [Hl|Hl]; split; intros H.
  - inv_ok. subst. auto.
  - destruct H; subst; auto.
  - discriminate.
  - exfalso. destruct H as [H _]. apply (Nat.lt_irrefl i). eapply Nat.lt_le_trans; eauto.
Qed.

Lemma map_del {A B} (f : A -> B) l i : map f (del l i) = del (map f l) i.
Proof. revert i; induction l; destruct i; simpl; congruence. Qed.

Lemma geti_app_l {A} (l l' : list A) i : (i < length l)%nat -> geti (l ++ l') i = geti l i.
Proof. intros H. unfold geti. rewrite nth_error_app1; auto. Qed.

Lemma geti_err {A} (l : list A) i e : geti l i = Err e <-> (length l <= i)%nat /\ e = IndexError.
Proof.
  unfold geti. destruct (nth_error l i) eqn:E; simpl.
  - split; [discriminate|]. intros [H _].
    apply nth_error_None in H. congruence.
  - apply nth_error_None in E. split; intros H.
    + split; congruence.
    + destruct H; congruence.
Qed.

Lemma Forall2_nth_error {A B} (P : A -> B -> Prop) l1 l2 i x y :
  Forall2 P l1 l2 -> nth_error l1 i = Some x -> nth_error l2 i = Some y -> P x y.
Proof.
  intros F. revert i. induction F; intros [|i]; simpl; intros; try discriminate.
  - congruence.
  - eauto.
Qed.
