(** Adding temperatures to the performance tables. *)
From Coq Require Import Reals QArith Lra Lia List Bool Sorted ZArith.
From Verif.Base Require Import Num Res Tac.
From Verif.Model Require Import Tabular.
From Verif.Spec Require Import TabularSpec.
From Verif.Proofs Require Import Lin1 TabCells.
Import ListNotations.
Local Open Scope R_scope.

(** * Insertion *)
Lemma bisect_spec fuel (l : list R) x lo hi :
  sortedR l -> (hi <= length l)%nat -> (lo <= hi)%nat -> (hi - lo < fuel)%nat ->
  (forall k y, (k < lo)%nat -> nth_error l k = Some y -> y <= x) ->
  (forall k y, (hi <= k)%nat -> nth_error l k = Some y -> x < y) ->
  let p := bisect_right fuel l x lo hi in
  (p <= length l)%nat /\
  (forall k y, (k < p)%nat -> nth_error l k = Some y -> y <= x) /\
  (forall k y, (p <= k)%nat -> nth_error l k = Some y -> x < y).
Proof.
  revert lo hi; induction fuel as [|f IH]; intros lo hi S H1 H2 H3 Hlo Hhi; [lia|].
  cbn [bisect_right].
  destruct (Nat.ltb_spec lo hi) as [Hl|Hl].
  - set (mid := Nat.div2 (lo + hi)).
    assert (Hm : (lo <= mid < hi)%nat).
    { unfold mid. pose proof (Nat.div2_odd (lo + hi)).
      destruct (Nat.odd (lo + hi)); cbn [Nat.b2n] in *; lia. }
    destruct (nth_error l mid) as [y|] eqn:E.
    + cbn [nltb RNum]. destruct (Rltb_spec x y).
      * apply IH; auto; try lia. intros k z Hk Hz.
        destruct (Nat.eq_dec mid k) as [<-|Hne]; [congruence|].
        apply Rlt_trans with y; auto. eapply (sorted_nth l mid k); eauto. lia.
      * apply IH; auto; try lia. intros k z Hk Hz.
        destruct (Nat.eq_dec k mid) as [->|Hne]; [rewrite E in Hz; inversion Hz; lra|].
        assert (z < y) by (eapply (sorted_nth l k mid); eauto; lia). lra.
    + apply nth_error_None in E. lia.
  - assert (lo = hi) by lia. subst. simpl. repeat split; auto.
Qed.

Lemma ins_app {A} (l1 l2 : list A) a : ins (l1 ++ l2) (length l1) a = l1 ++ a :: l2.
Proof. induction l1; simpl; [destruct l2; auto|congruence]. Qed.

Lemma firstn_lt (l : list R) p x : (forall k y, (k < p)%nat -> nth_error l k = Some y -> y <= x) ->
  ~ In x l -> Forall (fun y => y < x) (firstn p l).
Proof.
  revert p; induction l as [|a l IH]; intros p H Hx; [rewrite firstn_nil; constructor|].
  destruct p; simpl; [constructor|]. constructor.
  - assert (a <= x) by (apply (H 0%nat); auto; lia).
    assert (a <> x) by (intros ->; apply Hx; simpl; auto). lra.
  - apply IH; [|simpl in Hx; tauto]. intros k y Hk Hy. apply (H (S k)); auto; lia.
Qed.
Lemma skipn_gt (l : list R) p x : (forall k y, (p <= k)%nat -> nth_error l k = Some y -> x < y) ->
  Forall (fun y => x < y) (skipn p l).
Proof.
  revert p; induction l as [|a l IH]; intros p H; [rewrite skipn_nil; constructor|].
  destruct p; simpl.
  - constructor; [apply (H 0%nat); auto; lia|].
    apply (IH 0%nat). intros k y Hk Hy. apply (H (S k)); auto; lia.
  - apply IH. intros k y Hk Hy. apply (H (S k)); auto; lia.
Qed.

Lemma sorted_mid l1 l2 x : sortedR (l1 ++ l2) -> Forall (fun y => y < x) l1 ->
  Forall (fun y => x < y) l2 -> sortedR (l1 ++ x :: l2).
Proof.
  induction l1 as [|a l1 IH]; simpl; intros S F1 F2; [constructor; auto|].
  inversion S; subst. inversion F1; subst. constructor; [apply IH; auto|].
  rewrite Forall_app in H2. destruct H2. apply Forall_app. split; auto.
Qed.

Lemma insort_spec (l : list R) x : sortedR l -> ~ In x l ->
  exists l1 l2, l = l1 ++ l2 /\ insort l x = l1 ++ x :: l2
    /\ Forall (fun y => y < x) l1 /\ Forall (fun y => x < y) l2.
Proof.
  intros S Hx. unfold insort.
  set (p := bisect_right _ l x 0 (length l)).
  destruct (bisect_spec (Datatypes.S (length l)) l x 0 (length l) S) as (Hp & H1 & H2); auto; try lia.
  { intros k y Hk Hy. apply nth_error_None in Hk. congruence. }
  fold p in Hp, H1, H2.
  exists (firstn p l), (skipn p l).
  assert (L : length (firstn p l) = p) by (rewrite firstn_length; lia).
  split; [symmetry; apply firstn_skipn|]. split.
  - pose proof (ins_app (firstn p l) (skipn p l) x) as Q. rewrite L, firstn_skipn in Q. exact Q.
  - split; [apply firstn_lt; auto|apply skipn_gt; auto].
Qed.

Lemma index_of_mid (l1 l2 : list R) x : Forall (fun y => y < x) l1 ->
  index_of (l1 ++ x :: l2) x = Ok (length l1).
Proof.
  induction l1 as [|a l1 IH]; simpl; intros F.
  - destruct (Reqb_spec x x); [auto|lra].
  - inversion F; subst. destruct (Reqb_spec a x); [lra|]. rewrite IH; auto.
Qed.

Lemma existsb_In (l : list R) x : existsb (fun y => neqb y x) l = true <-> In x l.
Proof.
  rewrite existsb_exists. split.
  - intros (y & H1 & H2). cbn [neqb RNum] in H2. apply Reqb_true in H2. subst; auto.
  - intros H. exists x; split; auto. apply Reqb_true. auto.
Qed.

(** * The inserted row *)
Notation data := (list (list (option R))).

Lemma upd_mid {A} (l1 l2 : list A) a b : upd (l1 ++ a :: l2) (length l1) b = l1 ++ b :: l2.
Proof. induction l1; simpl; congruence. Qed.
Lemma nth_mid {A} (l1 l2 : list A) a : nth_error (l1 ++ a :: l2) (length l1) = Some a.
Proof. induction l1; simpl; congruence. Qed.

Definition put_row (d1 d2 : data) (row : list (option R)) (t : table R) : table R :=
  w_data (d1 ++ row :: d2) t.

Lemma put_data_row (d1 d2 : data) row s o :
  put_data (d1 ++ row :: d2) (Z.of_nat (length d1)) (Z.of_nat s) o =
  if Nat.ltb s (length row) then Ok (d1 ++ upd row s o :: d2) else Err IndexError.
Proof.
  unfold put_data. rewrite pyindex_nat by (rewrite app_length; simpl; lia). cbn [rbind need].
  unfold geti. rewrite nth_mid. cbn [rbind need].
  destruct (Nat.ltb_spec s (length row)).
  - rewrite pyindex_nat by auto. simpl. rewrite upd_mid. reflexivity.
  - rewrite pyindex_nat_err by auto. reflexivity.
Qed.

Lemma put_opt_row (t : table R) d1 d2 row s o :
  put_opt (Z.of_nat (length d1)) (Z.of_nat s) o (put_row d1 d2 row t) =
  if Nat.ltb s (length row) then (put_row d1 d2 (upd row s o) t, Ok tt)
  else (put_row d1 d2 row t, Err IndexError).
Proof.
  unfold put_opt, sbind, sget, slift, smod, put_row. cbn [t_data w_data].
  rewrite put_data_row. destruct (Nat.ltb s (length row)); reflexivity.
Qed.

Definition fill_step (d1 : data) value (s : nat) : st (table R) unit :=
  do o <- sread (fun t => value t (Z.of_nat s)) ;;
  put_opt (Z.of_nat (length d1)) (Z.of_nat s) o.

Lemma fill_step_run (t : table R) (d1 d2 : data) value s ss row :
  sfold (fill_step d1 value) (s :: ss) (put_row d1 d2 row t) =
  match value (put_row d1 d2 row t) (Z.of_nat s) with
  | Ok o => if Nat.ltb s (length row)
            then sfold (fill_step d1 value) ss (put_row d1 d2 (upd row s o) t)
            else (put_row d1 d2 row t, Err IndexError)
  | Err e => (put_row d1 d2 row t, Err e)
  end.
Proof.
  cbn [sfold]. unfold sbind at 1. unfold fill_step at 1. unfold sbind at 1. unfold sread at 1.
  destruct (value (put_row d1 d2 row t) (Z.of_nat s)) as [o|e]; auto.
  rewrite put_opt_row. destruct (Nat.ltb s (length row)); reflexivity.
Qed.

(** Whatever the values, only the inserted row is written. *)
Lemma fill_loop_any (t : table R) d1 d2 value ss row t' r :
  sfold (fill_step d1 value) ss
    (put_row d1 d2 row t) = (t', r) ->
  exists row', t' = put_row d1 d2 row' t /\ length row' = length row.
Proof.
  revert row; induction ss as [|s ss IH]; intros row H.
  - cbn in H. inversion H. subst. eauto.
  - rewrite fill_step_run in H.
    destruct (value (put_row d1 d2 row t) (Z.of_nat s)) as [o|e].
    + destruct (Nat.ltb s (length row)).
      * apply IH in H. destruct H as (row' & -> & L). exists row'. split; auto.
        rewrite L. apply upd_length.
      * inversion H. subst. exists row; auto.
    + inversion H. subst. exists row. auto.
Qed.

Lemma fill_row_any (t : table R) d1 d2 value row t' r :
  fill_row (Z.of_nat (length d1)) value (put_row d1 d2 row t) = (t', r) ->
  exists row', t' = put_row d1 d2 row' t /\ length row' = length row.
Proof.
  apply fill_loop_any.
Qed.

Lemma upd_app_r {A} (l l' : list A) i a : upd (l ++ l') (length l + i) a = l ++ upd l' i a.
Proof. induction l; simpl; congruence. Qed.

Lemma fill_loop_ok (t : table R) d1 d2 value (vs : nat -> option R) n k :
  (forall s row, (s < n)%nat -> value (put_row d1 d2 row t) (Z.of_nat s) = Ok (vs s)) ->
  (k <= n)%nat ->
  sfold (fill_step d1 value) (seq (n - k) k)
    (put_row d1 d2 (map vs (seq 0 (n - k)) ++ repeat None k) t)
  = (put_row d1 d2 (map vs (seq 0 n)) t, Ok tt).
Proof.
  intros Hv. induction k as [|k IH]; intros Hk.
  - cbn. rewrite Nat.sub_0_r, app_nil_r. reflexivity.
  - cbn [seq]. rewrite fill_step_run, Hv by lia.
    rewrite app_length, map_length, seq_length, repeat_length.
    destruct (Nat.ltb_spec (n - S k) (n - S k + S k)); [|lia].
    replace (S (n - S k)) with (n - k)%nat by lia.
    assert (E : upd (map vs (seq 0 (n - S k)) ++ repeat None (S k)) (n - S k) (vs (n - S k)%nat)
            = map vs (seq 0 (n - k)) ++ repeat None k).
    { pose proof (upd_app_r (map vs (seq 0 (n - S k))) (repeat None (S k)) 0 (vs (n - S k)%nat)) as E.
      rewrite map_length, seq_length, Nat.add_0_r in E. rewrite E. cbn [repeat upd].
      replace (n - k)%nat with (S (n - S k)) by lia. rewrite seq_S, map_app, <- app_assoc.
      reflexivity. }
    rewrite E. apply IH. lia.
Qed.

Lemma fill_row_ok (t : table R) d1 d2 value (vs : nat -> option R) :
  (forall s row, (s < t_n t)%nat -> value (put_row d1 d2 row t) (Z.of_nat s) = Ok (vs s)) ->
  fill_row (Z.of_nat (length d1)) value (put_row d1 d2 (repeat None (t_n t)) t)
  = (put_row d1 d2 (map vs (seq 0 (t_n t))) t, Ok tt).
Proof.
  intros Hv.
  pose proof (fill_loop_ok t d1 d2 value vs (t_n t) (t_n t) Hv (le_n _)) as E.
  rewrite Nat.sub_diag in E. exact E.
Qed.

Lemma fill_row_err (t : table R) d1 d2 value e row : (0 < t_n t)%nat ->
  value (put_row d1 d2 row t) 0%Z = Err e ->
  exists t', fill_row (Z.of_nat (length d1)) value (put_row d1 d2 row t) = (t', Err e).
Proof.
  intros Hn Hv.
  change (exists t', sfold (fill_step d1 value) (seq 0 (t_n t)) (put_row d1 d2 row t) = (t', Err e)).
  destruct (t_n t); [lia|]. cbn [seq]. rewrite fill_step_run.
  change (Z.of_nat 0) with 0%Z. rewrite Hv. eauto.
Qed.

(** * add_temperature *)
Lemma app_split {A} (d : list A) n m : length d = (n + m)%nat ->
  exists d1 d2, d = d1 ++ d2 /\ length d1 = n /\ length d2 = m.
Proof.
  intros H. exists (firstn n d), (skipn n d).
  rewrite firstn_skipn, firstn_length, skipn_length. repeat split; auto; lia.
Qed.

(** The table just before the row is filled in. *)
Lemma add_start (t : table R) x : wf_table t -> ~ In x (t_temps t) ->
  exists l1 l2 d1 d2, t_temps t = l1 ++ l2 /\ t_data t = d1 ++ d2
    /\ length d1 = length l1 /\ length d2 = length l2
    /\ Forall (fun y => y < x) l1 /\ Forall (fun y => x < y) l2
    /\ forall ext lim,
       add_temperature x ext lim t =
       (let t1 := w_temps (l1 ++ x :: l2) t in
        let ti := Z.of_nat (length l1) in
        let temps := l1 ++ x :: l2 in
        (if Nat.eqb (length l1) 0
         then do u1 <- slift (geti temps 1) ;;
              do u2 <- slift (geti temps 2) ;;
              fill_row ti (below_value ext lim x u1 u2)
         else if Nat.eqb (length l1) (length temps - 1)
         then do tm1 <- slift (pyget temps (ti - 1)) ;;
              do tm2 <- slift (pyget temps (ti - 2)) ;;
              fill_row ti (above_value ext lim ti x tm1 tm2)
         else do tm1 <- slift (pyget temps (ti - 1)) ;;
              do u1 <- slift (geti temps 1) ;;
              fill_row ti (between_value ti x tm1 u1))
       (put_row d1 d2 (repeat None (t_n t)) t1)).
Proof.
  intros (W1 & W2 & W3) Hx.
  destruct (insort_spec (t_temps t) x W1 Hx) as (l1 & l2 & E1 & E2 & F1 & F2).
  destruct (app_split (t_data t) (length l1) (length l2)) as (d1 & d2 & Ed & L1 & L2).
  { rewrite W2, E1, app_length. auto. }
  exists l1, l2, d1, d2. do 6 (split; [auto|]). intros ext lim.
  unfold add_temperature. unfold sbind at 1, sget at 1.
  destruct (existsb (fun y => neqb y x) (t_temps t)) eqn:Eb; [apply existsb_In in Eb; contradiction|].
  unfold sbind at 1, smod at 1. unfold sbind at 1, sget at 1. cbn [t_temps w_temps].
  unfold sbind at 1, slift at 1.
  rewrite E2, (index_of_mid l1 l2 x F1).
  unfold sbind at 1, smod at 1. unfold sbind at 1, sget at 1.
  cbn [t_temps w_temps w_data t_data t_n t_kind t_interp].
  rewrite Ed, <- L1, ins_app. reflexivity.
Qed.

Lemma add_present (t : table R) x ext lim : In x (t_temps t) ->
  add_temperature x ext lim t = (t, Err RuntimeError).
Proof.
  intros H. unfold add_temperature. unfold sbind at 1, sget at 1.
  rewrite (proj2 (existsb_In _ _) H). reflexivity.
Qed.

(** C21: whatever happens, the table stays well formed and existing rows keep
    their place. *)
Lemma add_any (t t' : table R) x ext lim r : wf_table t -> ~ In x (t_temps t) ->
  add_temperature x ext lim t = (t', r) ->
  exists l1 l2 d1 d2 row, t_temps t = l1 ++ l2 /\ t_data t = d1 ++ d2
    /\ length d1 = length l1 /\ length d2 = length l2
    /\ Forall (fun y => y < x) l1 /\ Forall (fun y => x < y) l2
    /\ length row = t_n t
    /\ t' = put_row d1 d2 row (w_temps (l1 ++ x :: l2) t).
Proof.
  intros W Hx H.
  destruct (add_start t x W Hx) as (l1 & l2 & d1 & d2 & E1 & E2 & L1 & L2 & F1 & F2 & E).
  rewrite E in H. cbv zeta in H. clear E.
  assert (P : exists row, length row = t_n t /\ t' = put_row d1 d2 row (w_temps (l1 ++ x :: l2) t)).
  { rewrite <- L1 in H.
    destruct (Nat.eqb (length d1) 0); [|destruct (Nat.eqb (length d1) (length (l1 ++ x :: l2) - 1))];
      unfold sbind, slift in H;
      repeat match type of H with
      | match ?c with Ok _ => _ | Err _ => _ end = _ => destruct c
      end;
      try (apply fill_row_any in H; destruct H as (row' & -> & L); rewrite repeat_length in L; eauto);
      inversion H; subst; exists (repeat None (t_n t)); rewrite repeat_length; auto. }
  destruct P as (row & L & ->). exists l1, l2, d1, d2, row. auto 10.
Qed.

Lemma wf_row (t : table R) l1 l2 d1 d2 row x : wf_table t ->
  t_temps t = l1 ++ l2 -> t_data t = d1 ++ d2 -> length d1 = length l1 -> length d2 = length l2 ->
  Forall (fun y => y < x) l1 -> Forall (fun y => x < y) l2 -> length row = t_n t ->
  wf_table (put_row d1 d2 row (w_temps (l1 ++ x :: l2) t)).
Proof.
  intros (W1 & W2 & W3) E1 E2 L1 L2 F1 F2 L.
  unfold wf_table, put_row. cbn [t_temps w_temps w_data t_data t_n].
  split; [|split].
  - apply sorted_mid; auto. unfold sortedR. rewrite <- E1. auto.
  - rewrite !app_length. simpl. lia.
  - rewrite E2 in W3. apply Forall_app in W3. destruct W3. apply Forall_app. split; auto.
Qed.

Lemma index_of_app_l (l1 l2 : list R) x i : index_of l1 x = Ok i -> index_of (l1 ++ l2) x = Ok i.
Proof.
  revert i; induction l1 as [|a l1 IH]; simpl; intros i H; [discriminate|].
  destruct (Reqb a x); auto. inv_ok. rewrite (IH _ E). simpl. congruence.
Qed.

Lemma get_row (t : table R) l1 l2 d1 d2 row x y s : wf_table t ->
  t_temps t = l1 ++ l2 -> t_data t = d1 ++ d2 -> length d1 = length l1 -> length d2 = length l2 ->
  Forall (fun z => z < x) l1 -> Forall (fun z => x < z) l2 -> length row = t_n t ->
  In y (t_temps t) ->
  t_get s y (put_row d1 d2 row (w_temps (l1 ++ x :: l2) t)) = t_get s y t.
Proof.
  intros W E1 E2 L1 L2 F1 F2 L Hy.
  pose proof (wf_row t l1 l2 d1 d2 row x W E1 E2 L1 L2 F1 F2 L) as W'.
  set (t' := put_row d1 d2 row (w_temps (l1 ++ x :: l2) t)) in *.
  destruct W as (W1 & W2 & W3). destruct W' as (W1' & W2' & W3').
  rewrite !t_get_dget. unfold tidx.
  destruct (index_of_In _ _ Hy) as (i & Hi). rewrite Hi. cbn [rbind].
  pose proof (index_of_ok _ _ _ Hi) as Hn. rewrite E1 in Hn.
  assert (Hk : exists k, nth_error (t_temps t') k = Some y /\ nth_error (t_data t') k = nth_error (t_data t) i).
  { unfold t', put_row. cbn [t_temps w_temps w_data t_data]. rewrite E2.
    destruct (Nat.lt_ge_cases i (length l1)) as [Hlt|Hge].
    - exists i. rewrite nth_error_app1 in Hn by auto.
      rewrite !nth_error_app1 by lia. auto.
    - exists (S i). rewrite nth_error_app2 in Hn by auto.
      rewrite !nth_error_app2 by lia.
      replace (S i - length l1)%nat with (S (i - length l1)) by lia.
      replace (S i - length d1)%nat with (S (i - length d1)) by lia. simpl. auto. }
  destruct Hk as (k & Hk1 & Hk2).
  rewrite (proj2 (index_of_sorted _ _ k W1') Hk1). cbn [rbind].
  unfold dget. rewrite !pyget_nat. unfold geti. rewrite Hk2. reflexivity.
Qed.

Lemma add_wf (t t' : table R) x ext lim r : wf_table t ->
  add_temperature x ext lim t = (t', r) ->
  wf_table t'
  /\ t_n t' = t_n t /\ t_kind t' = t_kind t /\ t_interp t' = t_interp t
  /\ (forall y, In y (t_temps t') <-> y = x \/ In y (t_temps t))
  /\ (forall y s, In y (t_temps t) -> t_get s y t' = t_get s y t)
  /\ (In x (t_temps t) -> r = Err RuntimeError /\ t' = t).
Proof.
  intros W H.
  destruct (in_dec Req_EM_T x (t_temps t)) as [Hx|Hx].
  - rewrite add_present in H by auto. inversion H; subst. split; [auto|]. do 3 (split; [auto|]).
    split; [intros y; split; [auto|intros [->|?]; auto]|]. split; auto.
  - destruct (add_any t t' x ext lim r W Hx H) as (l1 & l2 & d1 & d2 & row & E1 & E2 & L1 & L2 & F1 & F2 & L & ->).
    split; [eapply wf_row; eauto|]. do 3 (split; [reflexivity|]). split; [|split].
    + intros y. cbn [t_temps put_row w_temps w_data]. rewrite E1, !in_app_iff. simpl. intuition congruence.
    + intros. eapply get_row; eauto.
    + contradiction.
Qed.

(** * The new row *)
Lemma filled_vals (t : table R) : filled t -> exists vals, t_data t = map (map Some) vals.
Proof.
  unfold filled. induction (t_data t) as [|row d IH]; intros F.
  - exists []. reflexivity.
  - inversion F as [|? ? F1 F2]; subst. destruct (IH F2) as (vals & ->).
    assert (exists v, row = map Some v) as (v & ->).
    { clear - F1. induction row as [|o row IH].
      - exists []; reflexivity.
      - inversion F1; subst. destruct (IH H2) as (v & ->).
        destruct o as [a|]; [exists (a :: v); reflexivity|congruence]. }
    exists (v :: vals). reflexivity.
Qed.

Lemma cell_nat (t : table R) i s : cell t (Z.of_nat i) (Z.of_nat s) =
  match nth2 (t_data t) i s with Some (Some v) => Ok v | Some None => Err TypeError | None => Err IndexError end.
Proof.
  unfold cell. rewrite cell_opt_dget, dget_nat. destruct (nth2 _ _ _) as [[v|]|]; reflexivity.
Qed.
Lemma cell_opt_nat (t : table R) i s : cell_opt t (Z.of_nat i) (Z.of_nat s) = need IndexError (nth2 (t_data t) i s).
Proof. rewrite cell_opt_dget, dget_nat. reflexivity. Qed.

Lemma filled_at (t : table R) i s : wf_table t -> filled t ->
  (i < length (t_temps t))%nat -> (s < t_n t)%nat -> exists v, nth2 (t_data t) i s = Some (Some v).
Proof.
  intros (W1 & W2 & W3) F Hi Hs. unfold nth2.
  destruct (nth_error (t_data t) i) as [row|] eqn:E; [|apply nth_error_None in E; lia].
  destruct (nth_error row s) as [[v|]|] eqn:E2; eauto.
  - exfalso. unfold filled in F. rewrite Forall_forall in F.
    specialize (F row (nth_error_In _ _ E)). rewrite Forall_forall in F.
    apply (F None (nth_error_In _ _ E2)). reflexivity.
  - apply nth_error_None in E2. rewrite (shaped_nth _ _ _ _ W3 E) in E2. lia.
Qed.

Lemma get_nth2 (t : table R) i x s : wf_table t -> nth_error (t_temps t) i = Some x ->
  t_get (Z.of_nat (S s)) x t = need IndexError (nth2 (t_data t) i s).
Proof.
  intros (W1 & _) H. rewrite t_get_dget. unfold tidx.
  rewrite (proj2 (index_of_sorted _ _ i W1) H). cbn [rbind].
  replace (Z.of_nat (S s) - 1)%Z with (Z.of_nat s) by lia. apply dget_nat.
Qed.

Lemma get_mid (t : table R) l1 l2 d1 d2 row x s : wf_table (put_row d1 d2 row (w_temps (l1 ++ x :: l2) t)) ->
  length d1 = length l1 ->
  t_get (Z.of_nat (S s)) x (put_row d1 d2 row (w_temps (l1 ++ x :: l2) t)) = need IndexError (nth_error row s).
Proof.
  intros W L. rewrite (get_nth2 _ (length l1)); auto.
  - unfold nth2. cbn [t_data put_row w_data]. rewrite <- L, nth_mid. reflexivity.
  - cbn [t_temps put_row w_data w_temps]. apply nth_mid.
Qed.

Lemma nth_map_seq {A} (f : nat -> A) n s : (s < n)%nat -> nth_error (map f (seq 0 n)) s = Some (f s).
Proof.
  intros H. erewrite map_nth_error; [reflexivity|].
  rewrite (nth_error_nth' _ 0%nat) by (rewrite seq_length; auto).
  rewrite seq_nth; auto.
Qed.

(** Rows of the extended data. *)
Lemma nth2_before (d1 d2 : data) row i s : (i < length d1)%nat ->
  nth2 (d1 ++ row :: d2) i s = nth2 (d1 ++ d2) i s.
Proof. intros H. unfold nth2. rewrite !nth_error_app1 by auto. reflexivity. Qed.
Lemma nth2_after (d1 d2 : data) row i s : (length d1 <= i)%nat ->
  nth2 (d1 ++ row :: d2) (S i) s = nth2 (d1 ++ d2) i s.
Proof.
  intros H. unfold nth2. rewrite !nth_error_app2 by lia.
  replace (S i - length d1)%nat with (S (i - length d1)) by lia. reflexivity.
Qed.

Definition opt_at (t : table R) (i s : nat) : option R :=
  match nth2 (t_data t) i s with Some o => o | None => None end.
Definition val_at (t : table R) (i s : nat) : R :=
  match opt_at t i s with Some v => v | None => 0 end.

Lemma val_at_spec (t : table R) i s : wf_table t -> filled t ->
  (i < length (t_temps t))%nat -> (s < t_n t)%nat -> nth2 (t_data t) i s = Some (Some (val_at t i s)).
Proof.
  intros W F Hi Hs. destruct (filled_at t i s W F Hi Hs) as (v & H).
  unfold val_at, opt_at. rewrite H. reflexivity.
Qed.
Lemma opt_at_spec (t : table R) i s : wf_table t ->
  (i < length (t_temps t))%nat -> (s < t_n t)%nat -> nth2 (t_data t) i s = Some (opt_at t i s).
Proof.
  intros (W1 & W2 & W3) Hi Hs. unfold opt_at, nth2.
  destruct (nth_error (t_data t) i) as [row|] eqn:E; [|apply nth_error_None in E; lia].
  destruct (nth_error row s) as [o|] eqn:E2; auto.
  apply nth_error_None in E2. rewrite (shaped_nth _ _ _ _ W3 E) in E2. lia.
Qed.

(** below the first temperature *)
Definition below_spec ext lim x (t : table R) (u1 u2 : R) (s : nat) : option R :=
  if (ext : bool)
  then let v := val_at t 0 s - (val_at t 1 s - val_at t 0 s) / (u2 - u1) * (u1 - x) in
       Some (match lim with Some l => Rmax v (val_at t 0 s * l) | None => v end)
  else opt_at t 0 s.

Lemma pymax_R (a b : R) : pymax a b = Rmax a b.
Proof.
  unfold pymax, Rmax. cbn [nltb RNum].
  destruct (Rltb_spec a b), (Rle_dec a b); auto; lra.
Qed.
Lemma pymin_R (a b : R) : pymin a b = Rmin a b.
Proof.
  unfold pymin, Rmin. cbn [nltb RNum].
  destruct (Rltb_spec b a), (Rle_dec a b); auto; lra.
Qed.

Lemma add_below (t : table R) u1 u2 l x ext lim : wf_table t -> filled t ->
  t_temps t = u1 :: u2 :: l -> x < u1 ->
  add_temperature x ext lim t =
    (put_row [] (t_data t) (map (below_spec ext lim x t u1 u2) (seq 0 (t_n t)))
       (w_temps (x :: t_temps t) t), Ok tt).
Proof.
  intros W F Et Hx.
  assert (S := proj1 W). rewrite Et in S.
  assert (Hin : ~ In x (t_temps t)).
  { rewrite Et. simpl. intros [H|[H|H]]; try lra.
    - pose proof (sorted_12 _ _ _ S). lra.
    - pose proof (sorted_hd _ x _ S ltac:(simpl; auto)). lra. }
  destruct (add_start t x W Hin) as (l1 & l2 & d1 & d2 & E1 & E2 & L1 & L2 & F1 & F2 & E).
  rewrite E. cbv zeta. clear E.
  assert (l1 = []).
  { destruct l1 as [|a l1]; auto. rewrite E1 in Et. simpl in Et. inversion Et; subst.
    inversion F1; subst. lra. }
  subst l1. destruct d1; [|discriminate]. simpl in E1, E2. subst l2 d2.
  cbn [length Nat.eqb app]. rewrite Et. unfold sbind, slift. cbn [geti nth_error need].
  rewrite <- Et.
  change (Z.of_nat 0) with (Z.of_nat (length (@nil (list (option R))))).
  rewrite (fill_row_ok (w_temps (x :: t_temps t) t) [] (t_data t) _
             (below_spec ext lim x t u1 u2)); [reflexivity|].
  intros s row Hs. cbn [t_n w_temps] in Hs.
  assert (Len : (2 <= length (t_temps t))%nat) by (rewrite Et; simpl; lia).
  assert (C : forall i, (i < length (t_temps t))%nat ->
     cell (put_row [] (t_data t) row (w_temps (x :: t_temps t) t)) (Z.of_nat (Datatypes.S i)) (Z.of_nat s)
     = Ok (val_at t i s)).
  { intros i Hi. rewrite cell_nat. cbn [t_data put_row w_data app].
    change (row :: t_data t) with ([] ++ row :: t_data t). rewrite nth2_after by (simpl; lia).
    cbn [app]. rewrite val_at_spec; auto. }
  unfold below_value, below_spec. destruct ext.
  - change 1%Z with (Z.of_nat 1). change 2%Z with (Z.of_nat 2). rewrite !C by lia.
    cbn [rbind]. rewrite pydiv_ok by (pose proof (sorted_12 _ _ _ S); cbn [nsub RNum]; lra).
    cbn [rbind]. f_equal. f_equal. destruct lim; [|reflexivity].
    rewrite pymax_R. reflexivity.
  - change 1%Z with (Z.of_nat 1). rewrite cell_opt_nat. cbn [t_data put_row w_data app].
    change (row :: t_data t) with ([] ++ row :: t_data t). rewrite nth2_after by (simpl; lia).
    cbn [app]. rewrite opt_at_spec; auto. lia.
Qed.

(** above the last temperature *)
Definition above_spec ext lim x (t : table R) (m : nat) (u1 u2 : R) (s : nat) : option R :=
  if (ext : bool)
  then let v := val_at t (S m) s + (val_at t (S m) s - val_at t m s) / (u2 - u1) * (x - u2) in
       Some (match lim with Some l => Rmin v (val_at t (S m) s * l) | None => v end)
  else opt_at t (S m) s.

Lemma add_above (t : table R) u1 u2 l x ext lim : wf_table t -> filled t ->
  t_temps t = l ++ [u1; u2] -> u2 < x ->
  add_temperature x ext lim t =
    (put_row (t_data t) [] (map (above_spec ext lim x t (length l) u1 u2) (seq 0 (t_n t)))
       (w_temps (t_temps t ++ [x]) t), Ok tt).
Proof.
  intros W F Et Hx.
  assert (S := proj1 W). 
  assert (Hall : Forall (fun y => y < x) (t_temps t)).
  { rewrite Et in *. clear - S Hx. induction l as [|a l IH]; simpl in *.
    - pose proof (sorted_12 _ _ _ S). repeat constructor; lra.
    - pose proof (sorted_tl _ _ S) as S'. constructor; auto.
      pose proof (sorted_hd a u2 _ S ltac:(apply in_app_iff; simpl; auto)). lra. }
  assert (Hin : ~ In x (t_temps t)).
  { intros H. rewrite Forall_forall in Hall. specialize (Hall x H). lra. }
  destruct (add_start t x W Hin) as (l1 & l2 & d1 & d2 & E1 & E2 & L1 & L2 & F1 & F2 & E).
  rewrite E. cbv zeta. clear E.
  assert (l2 = []).
  { destruct l2 as [|a l2]; auto. rewrite E1 in Hall. apply Forall_app in Hall. destruct Hall as [_ Q].
    inversion Q; inversion F2; subst; lra. }
  subst l2. destruct d2; [|discriminate]. rewrite app_nil_r in E1, E2. subst l1 d1.
  rewrite Et, !app_length. cbn [length].
  destruct (Nat.eqb_spec (length l + 2) 0); [lia|].
  destruct (Nat.eqb_spec (length l + 2) (length l + 2 + 1 - 1)); [|lia].
  replace (Z.of_nat (length l + 2) - 1)%Z with (Z.of_nat (length l + 1)) by lia.
  replace (Z.of_nat (length l + 2) - 2)%Z with (Z.of_nat (length l)) by lia.
  rewrite !pyget_nat. unfold sbind, slift. unfold geti.
  assert (N1 : nth_error ((l ++ [u1; u2]) ++ [x]) (length l + 1) = Some u2).
  { rewrite <- app_assoc. rewrite nth_error_app2 by lia. replace (length l + 1 - length l)%nat with 1%nat by lia. reflexivity. }
  assert (N2 : nth_error ((l ++ [u1; u2]) ++ [x]) (length l) = Some u1).
  { rewrite <- app_assoc. rewrite nth_error_app2 by lia. replace (length l - length l)%nat with 0%nat by lia. reflexivity. }
  rewrite N1, N2. cbn [need].
  rewrite <- Et.
  assert (Ld : length (t_data t) = (length l + 2)%nat) by (rewrite (proj1 (proj2 W)), Et, app_length; auto).
  rewrite <- Ld.
  rewrite (fill_row_ok (w_temps (t_temps t ++ [x]) t) (t_data t) [] _
             (above_spec ext lim x t (length l) u1 u2)); [reflexivity|].
  intros s row Hs. cbn [t_n w_temps] in Hs.
  assert (Len : length (t_temps t) = (length l + 2)%nat) by (rewrite Et, app_length; auto).
  assert (C0 : forall i, (i < length (t_temps t))%nat ->
    nth2 (t_data t ++ row :: []) i s = nth2 (t_data t) i s).
  { intros i Hi. rewrite nth2_before by lia. rewrite app_nil_r. reflexivity. }
  unfold above_value, above_spec.
  replace (Z.of_nat (length (t_data t)) - 1)%Z with (Z.of_nat (Datatypes.S (length l))) by lia.
  replace (Z.of_nat (length (t_data t)) - 2)%Z with (Z.of_nat (length l)) by lia.
  destruct ext.
  - rewrite !cell_nat. cbn [t_data put_row w_data].
    rewrite !C0, !val_at_spec by (auto; lia). cbn [rbind].
    assert (u1 < u2).
    { rewrite Et in S. apply sorted_app_inv in S. destruct S as [_ S]. apply (sorted_12 _ _ _ S). }
    rewrite pydiv_ok by (cbn [nsub RNum]; lra).
    cbn [rbind]. f_equal. f_equal. destruct lim; [|reflexivity].
    rewrite pymin_R. reflexivity.
  - rewrite cell_opt_nat. cbn [t_data put_row w_data]. rewrite C0, opt_at_spec by (auto; lia). reflexivity.
Qed.

(** strictly inside: [u0] is the lower neighbour (position [m]), and the table's
    second temperature after the insertion is [w]. *)
Lemma add_between (t : table R) l u0 u1 l' x ext lim : wf_table t -> filled t ->
  t_temps t = l ++ u0 :: u1 :: l' -> u0 < x -> x < u1 ->
  let w := nth 1 (l ++ u0 :: x :: u1 :: l') 0 in
  let m := length l in
  (w <> u0 ->
   exists d1 d2, t_data t = d1 ++ d2 /\ length d1 = S m /\ length d2 = S (length l') /\
   add_temperature x ext lim t =
    (put_row d1 d2
       (map (fun s => Some (val_at t m s + (val_at t (S m) s - val_at t m s) / (w - u0) * (x - u0)))
          (seq 0 (t_n t)))
       (w_temps ((l ++ [u0]) ++ x :: u1 :: l') t), Ok tt))
  /\ (w = u0 -> (0 < t_n t)%nat ->
      exists t', add_temperature x ext lim t = (t', Err ZeroDivisionError)).
Proof.
  intros W F Et H0 H1. cbv zeta.
  assert (S := proj1 W). rewrite Et in S.
  assert (A1 : Forall (fun y => y < x) (l ++ [u0])).
  { apply Forall_app. split; [|repeat constructor; auto].
    apply Forall_forall. intros y Hy. apply Rlt_trans with u0; auto.
    clear - S Hy. induction l as [|a l IH]; simpl in *; [contradiction|].
    destruct Hy as [->|Hy]; [|apply IH; auto; eapply sorted_tl; eauto].
    eapply sorted_hd; eauto. apply in_app_iff. simpl; auto. }
  assert (A2 : Forall (fun y => x < y) (u1 :: l')).
  { constructor; auto. apply Forall_forall. intros y Hy. apply Rlt_trans with u1; auto.
    apply sorted_app_inv in S. destruct S as [_ S]. apply sorted_tl in S. eapply sorted_hd; eauto. }
  assert (Hin : ~ In x (t_temps t)).
  { rewrite Et. replace (l ++ u0 :: u1 :: l') with ((l ++ [u0]) ++ u1 :: l') by (rewrite <- app_assoc; auto).
    rewrite in_app_iff. rewrite Forall_forall in A1, A2.
    intros [Q|Q]; [specialize (A1 x Q)|specialize (A2 x Q)]; lra. }
  destruct (add_start t x W Hin) as (l1 & l2 & d1 & d2 & E1 & E2 & L1 & L2 & F1 & F2 & E).
  assert (EE : l1 = l ++ [u0] /\ l2 = u1 :: l').
  { assert (Q : l1 ++ l2 = (l ++ [u0]) ++ u1 :: l') by (rewrite <- E1, Et, <- app_assoc; reflexivity).
    clear - Q F1 F2 A1 A2. revert Q A1. generalize (l ++ [u0]) as k. revert F1.
    induction l1 as [|a l1 IH]; intros F1 k Q A1.
    - destruct k as [|b k]; simpl in Q; [auto|]. subst l2. inversion F2; inversion A1; subst; lra.
    - destruct k as [|b k]; simpl in Q; inversion Q; subst.
      + inversion F1; inversion A2; subst; lra.
      + inversion F1; inversion A1; subst.
        destruct (IH H3 k H1 H7) as (-> & ->). auto. }
  destruct EE as (-> & ->). rewrite E; clear E. cbv zeta.
  rewrite !app_length in *. cbn [length] in *.
  destruct (Nat.eqb_spec (length l + 1) 0); [lia|].
  destruct (Nat.eqb_spec (length l + 1) (length l + 1 + Datatypes.S (Datatypes.S (length l')) - 1)); [lia|].
  replace (Z.of_nat (length l + 1) - 1)%Z with (Z.of_nat (length l)) by lia.
  rewrite !pyget_nat. unfold sbind, slift. unfold geti.
  set (temps := (l ++ [u0]) ++ x :: u1 :: l').
  assert (Q0 : temps = l ++ u0 :: x :: u1 :: l') by (unfold temps; rewrite <- app_assoc; reflexivity).
  assert (N1 : nth_error temps (length l) = Some u0) by (rewrite Q0; apply nth_mid).
  set (w := nth 1 (l ++ u0 :: x :: u1 :: l') 0).
  assert (N2 : nth_error temps 1 = Some w).
  { unfold w. rewrite Q0. apply nth_error_nth'. rewrite app_length. simpl. lia. }
  rewrite N1, N2. cbn [need].
  assert (Len : length (t_temps t) = (length l + Datatypes.S (Datatypes.S (length l')))%nat)
    by (rewrite Et, app_length; auto).
  assert (C : forall row i s, (i < length l + 1)%nat -> (s < t_n t)%nat ->
    cell (put_row d1 d2 row (w_temps temps t)) (Z.of_nat i) (Z.of_nat s) = Ok (val_at t i s)).
  { intros row i s Hi Hs. rewrite cell_nat. cbn [t_data put_row w_data].
    rewrite nth2_before by lia. rewrite <- E2, val_at_spec by (auto; lia). reflexivity. }
  assert (C' : forall row s, (s < t_n t)%nat ->
    cell (put_row d1 d2 row (w_temps temps t)) (Z.of_nat (length l + 1) + 1) (Z.of_nat s) = Ok (val_at t (Datatypes.S (length l)) s)).
  { intros row s Hs. replace (Z.of_nat (length l + 1) + 1)%Z with (Z.of_nat (Datatypes.S (Datatypes.S (length l)))) by lia.
    rewrite cell_nat. cbn [t_data put_row w_data].
    rewrite nth2_after by lia. rewrite <- E2, val_at_spec by (auto; lia). reflexivity. }
  assert (V : forall row s, (s < t_n t)%nat ->
    between_value (Z.of_nat (length l + 1)) x u0 w (put_row d1 d2 row (w_temps temps t)) (Z.of_nat s)
    = let! q := pydiv (val_at t (Datatypes.S (length l)) s - val_at t (length l) s) (w - u0) in
      Ok (Some (val_at t (length l) s + q * (x - u0)))).
  { intros row s Hs. unfold between_value.
    replace (Z.of_nat (length l + 1) - 1)%Z with (Z.of_nat (length l)) by lia.
    rewrite C, C' by lia. reflexivity. }
  rewrite <- L1. split.
  - intros Hw. exists d1, d2. do 3 (split; [first [assumption|lia]|]).
    rewrite (fill_row_ok (w_temps temps t) d1 d2 _
      (fun s => Some (val_at t (length l) s + (val_at t (Datatypes.S (length l)) s - val_at t (length l) s) / (w - u0) * (x - u0)))).
    + reflexivity.
    + intros s row Hs. cbn [t_n w_temps] in Hs. rewrite L1, V by auto.
      rewrite pydiv_ok by lra. reflexivity.
  - intros Hw Hn. apply fill_row_err; [exact Hn|].
    change 0%Z with (Z.of_nat 0). rewrite L1, V by auto.
    replace (w - u0) with 0 by lra. rewrite pydiv_zero. reflexivity.
Qed.
