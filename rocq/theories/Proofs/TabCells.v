(** Cells of the performance tables. *)
From Coq Require Import Reals QArith Lra Lia List Bool Sorted ZArith.
From Verif.Base Require Import Num Res Tac.
From Verif.Model Require Import Tabular.
From Verif.Spec Require Import TabularSpec.
From Verif.Proofs Require Import Lin1.
Import ListNotations.
Local Open Scope R_scope.

(** * Python indices *)
Lemma pyindex_inv {A} (l : list A) z i : pyindex l z = Ok i -> (i < length l)%nat.
Proof.
  unfold pyindex. intros H.
  destruct (z <? 0)%Z eqn:E1.
  - destruct (z + Z.of_nat (length l) <? 0)%Z eqn:E2; inv_ok. subst.
    apply Z.ltb_lt in E1. apply Z.ltb_ge in E2. lia.
  - destruct (z <? Z.of_nat (length l))%Z eqn:E2; inv_ok. subst.
    apply Z.ltb_ge in E1. apply Z.ltb_lt in E2. lia.
Qed.

Lemma pyindex_nat {A} (l : list A) i : (i < length l)%nat -> pyindex l (Z.of_nat i) = Ok i.
Proof.
  intros H. unfold pyindex.
  destruct (Z.of_nat i <? 0)%Z eqn:E1; [apply Z.ltb_lt in E1; lia|].
  destruct (Z.of_nat i <? Z.of_nat (length l))%Z eqn:E2.
  - f_equal. lia.
  - apply Z.ltb_ge in E2. lia.
Qed.

Lemma pyindex_len {A B} (l : list A) (l' : list B) z :
  length l = length l' -> pyindex l z = pyindex l' z.
Proof. unfold pyindex. intros ->. reflexivity. Qed.

Lemma pyindex_nat_err {A} (l : list A) i : (length l <= i)%nat ->
  pyindex l (Z.of_nat i) = Err IndexError.
Proof.
  intros H. unfold pyindex.
  destruct (Z.of_nat i <? 0)%Z eqn:E1; [apply Z.ltb_lt in E1; lia|].
  destruct (Z.of_nat i <? Z.of_nat (length l))%Z eqn:E2; auto.
  apply Z.ltb_lt in E2. lia.
Qed.

Lemma pyget_nat {A} (l : list A) i : pyget l (Z.of_nat i) = geti l i.
Proof.
  unfold pyget. destruct (Nat.lt_ge_cases i (length l)).
  - rewrite pyindex_nat by auto. reflexivity.
  - rewrite pyindex_nat_err by auto. simpl. symmetry. apply geti_err. auto.
Qed.

(** * Data *)
Section Data.
  Notation data := (list (list (option R))).

  Definition dget (d : data) (ti si : Z) : res (option R) :=
    let! row := pyget d ti in pyget row si.

  Lemma cell_opt_dget t ti si : cell_opt t ti si = dget (t_data t) ti si.
  Proof. reflexivity. Qed.

  Definition nth2 (d : data) (i j : nat) : option (option R) :=
    match nth_error d i with Some row => nth_error row j | None => None end.

  Lemma dget_nat d i j : dget d (Z.of_nat i) (Z.of_nat j) = need IndexError (nth2 d i j).
  Proof.
    unfold dget, nth2. rewrite pyget_nat. unfold geti.
    destruct (nth_error d i) as [row|]; simpl; auto. rewrite pyget_nat. reflexivity.
  Qed.

  Lemma put_data_ok (d : data) ti si o d' : put_data d ti si o = Ok d' <->
    exists i row j, pyindex d ti = Ok i /\ nth_error d i = Some row
      /\ pyindex row si = Ok j /\ d' = upd d i (upd row j o).
  Proof.
    unfold put_data. split.
    - intros H. inv_ok. apply geti_ok in E0. subst. eauto 10.
    - intros (i & row & j & H1 & H2 & H3 & ->). rewrite H1. simpl.
      apply geti_ok in H2. rewrite H2. simpl. rewrite H3. reflexivity.
  Qed.

  Lemma dget_ok (d : data) ti si o : dget d ti si = Ok o <->
    exists i row j, pyindex d ti = Ok i /\ nth_error d i = Some row
      /\ pyindex row si = Ok j /\ nth_error row j = Some o.
  Proof.
    unfold dget, pyget. split.
    - intros H. inv_ok. apply geti_ok in E. apply geti_ok in H. eauto 10.
    - intros (i & row & j & H1 & H2 & H3 & H4). rewrite H1. simpl.
      apply geti_ok in H2. rewrite H2. simpl. rewrite H3. simpl. apply geti_ok; auto.
  Qed.

  Lemma put_get (d : data) ti si o d' : put_data d ti si o = Ok d' -> dget d' ti si = Ok o.
  Proof.
    intros H. apply put_data_ok in H. destruct H as (i & row & j & H1 & H2 & H3 & ->).
    apply dget_ok. exists i, (upd row j o), j.
    assert (i < length d)%nat by (eapply pyindex_inv; eauto).
    assert (j < length row)%nat by (eapply pyindex_inv; eauto).
    split; [rewrite (pyindex_len _ d) by apply upd_length; auto|].
    split; [apply upd_same; auto|].
    split; [rewrite (pyindex_len _ row) by apply upd_length; auto|].
    apply upd_same; auto.
  Qed.

  Definition shaped (n : nat) (d : data) := Forall (fun row => length row = n) d.

  Lemma shaped_nth n d i row : shaped n d -> nth_error d i = Some row -> length row = n.
  Proof.
    unfold shaped. rewrite Forall_forall. intros H E. apply H. eapply nth_error_In; eauto.
  Qed.

  Lemma Forall_upd {A} (P : A -> Prop) l i a : Forall P l -> P a -> Forall P (upd l i a).
  Proof.
    revert i; induction l as [|x l IH]; intros i F Pa; simpl.
    - constructor.
    - inversion F; subst. destruct i; constructor; auto.
  Qed.

  Lemma put_shaped n (d : data) ti si o d' : shaped n d -> put_data d ti si o = Ok d' -> shaped n d'.
  Proof.
    intros S H. apply put_data_ok in H. destruct H as (i & row & j & H1 & H2 & H3 & ->).
    apply Forall_upd; auto. rewrite upd_length. eapply shaped_nth; eauto.
  Qed.

  Lemma put_length (d : data) ti si o d' : put_data d ti si o = Ok d' -> length d' = length d.
  Proof.
    intros H. apply put_data_ok in H. destruct H as (i & row & j & H1 & H2 & H3 & ->).
    apply upd_length.
  Qed.

  (** Positions that denote the same cell of an [m] x [n] array. *)
  Lemma put_frame n (d : data) ti si o d' ti' si' :
    shaped n d -> put_data d ti si o = Ok d' ->
    (pyindex d ti' <> pyindex d ti \/ pyindex (repeat tt n) si' <> pyindex (repeat tt n) si) ->
    dget d' ti' si' = dget d ti' si'.
  Proof.
    intros S H Hne. apply put_data_ok in H. destruct H as (i & row & j & H1 & H2 & H3 & ->).
    unfold dget, pyget. rewrite (pyindex_len (upd d i _) d) by apply upd_length.
    destruct (pyindex d ti') as [i'|e] eqn:Ei; simpl; auto.
    destruct (Nat.eq_dec i i') as [<-|Hi].
    - assert (i < length d)%nat by (eapply pyindex_inv; eauto).
      unfold geti. rewrite upd_same by auto. rewrite H2. simpl.
      rewrite (pyindex_len (upd row j o) row) by apply upd_length.
      destruct (pyindex row si') as [j'|e] eqn:Ej; simpl; auto.
      rewrite upd_other; auto. intros <-.
      assert (L : length row = n) by (eapply shaped_nth; eauto).
      destruct Hne as [Hne|Hne]; [congruence|]. apply Hne.
      rewrite !(pyindex_len (repeat tt n) row) by (rewrite repeat_length; auto). congruence.
    - unfold geti. rewrite upd_other; auto.
  Qed.

  Lemma put_total n (d : data) ti si o : shaped n d ->
    (0 <= ti < Z.of_nat (length d))%Z -> (0 <= si < Z.of_nat n)%Z ->
    exists d', put_data d ti si o = Ok d'.
  Proof.
    intros S Ht Hs. replace ti with (Z.of_nat (Z.to_nat ti)) by lia.
    replace si with (Z.of_nat (Z.to_nat si)) by lia.
    destruct (nth_error d (Z.to_nat ti)) as [row|] eqn:E.
    - eexists. apply put_data_ok. exists (Z.to_nat ti), row, (Z.to_nat si).
      split; [apply pyindex_nat; lia|]. split; [auto|]. split; [|reflexivity].
      apply pyindex_nat. rewrite (shaped_nth n d _ row S E). lia.
    - apply nth_error_None in E. lia.
  Qed.
End Data.

(** * Looking up a temperature *)
Lemma index_of_ok (l : list R) x i : index_of l x = Ok i ->
  nth_error l i = Some x.
Proof.
  revert i; induction l as [|y l IH]; simpl; intros i H; [discriminate|].
  destruct (Reqb_spec y x).
  - inv_ok. subst. reflexivity.
  - inv_ok. subst. simpl. auto.
Qed.

Lemma index_of_In (l : list R) x : In x l -> exists i, index_of l x = Ok i.
Proof.
  induction l as [|y l IH]; simpl; intros H; [contradiction|].
  destruct (Reqb_spec y x); eauto.
  destruct H as [H|H]; [congruence|]. destruct (IH H) as (i & ->). simpl. eauto.
Qed.

Lemma index_of_notIn (l : list R) x : ~ In x l -> index_of l x = Err ValueError.
Proof.
  induction l as [|y l IH]; simpl; intros H; auto.
  destruct (Reqb_spec y x); [tauto|]. rewrite IH by tauto. reflexivity.
Qed.

Lemma index_of_sorted (l : list R) x i : sortedR l ->
  (index_of l x = Ok i <-> nth_error l i = Some x).
Proof.
  intros S. split; [apply index_of_ok|]. intros H.
  destruct (index_of_In l x (nth_error_In _ _ H)) as (k & Hk).
  rewrite Hk. f_equal. eapply sorted_nth_inj; eauto. apply index_of_ok; auto.
Qed.

Lemma tidx_ok (t : table R) x z : tidx t x = Ok z <->
  exists i, z = Z.of_nat i /\ index_of (t_temps t) x = Ok i.
Proof.
  unfold tidx. split.
  - intros H. inv_ok. eauto.
  - intros (i & -> & ->). reflexivity.
Qed.

Lemma tidx_notIn (t : table R) x : ~ In x (t_temps t) -> tidx t x = Err ValueError.
Proof. intros H. unfold tidx. rewrite index_of_notIn by auto. reflexivity. Qed.

Lemma tidx_range (t : table R) x z : wf_table t -> tidx t x = Ok z ->
  (0 <= z < Z.of_nat (length (t_data t)))%Z.
Proof.
  intros (S & L & F) H. apply tidx_ok in H. destruct H as (i & -> & H).
  apply index_of_ok in H.
  assert (i < length (t_temps t))%nat by (apply nth_error_Some; congruence). lia.
Qed.

Lemma tidx_inj (t : table R) x y z : tidx t x = Ok z -> tidx t y = Ok z -> x = y.
Proof.
  intros H1 H2. apply tidx_ok in H1, H2. destruct H1 as (i & -> & H1).
  destruct H2 as (j & E & H2). apply Nat2Z.inj in E. subst j.
  apply index_of_ok in H1, H2. congruence.
Qed.

(** * Assignments *)
Lemma put_opt_ok (t t' : table R) ti si o : put_opt ti si o t = (t', Ok tt) <->
  exists d', put_data (t_data t) ti si o = Ok d' /\ t' = w_data d' t.
Proof.
  unfold put_opt. split.
  - intros H. inv_st. eauto.
  - intros (d' & H & ->). unfold sbind, sget, slift, smod. rewrite H. reflexivity.
Qed.

Lemma put_opt_err (t t' : table R) ti si o e : put_opt ti si o t = (t', Err e) ->
  t' = t /\ put_data (t_data t) ti si o = Err e.
Proof.
  unfold put_opt, sbind, sget, slift, smod. destruct (put_data _ _ _ _); intros H; inversion H; auto.
Qed.

(** Every setter either leaves the table alone and raises, or assigns the cell. *)
Lemma setter_shape s x m (t t' : table R) r : setter s x m -> m t = (t', r) ->
  (exists e, r = Err e /\ t' = t) \/
  (r = Ok tt /\ exists ti v d', tidx t x = Ok ti
     /\ put_data (t_data t) ti (s - 1) (Some v) = Ok d' /\ t' = w_data d' t).
Proof.
  intros S H.
  assert (P : forall ti v, tidx t x = Ok ti -> put_cell ti (s - 1) v t = (t', r) ->
    (exists e, r = Err e /\ t' = t) \/
    (r = Ok tt /\ exists ti v d', tidx t x = Ok ti
     /\ put_data (t_data t) ti (s - 1) (Some v) = Ok d' /\ t' = w_data d' t)).
  { intros ti v Hti HP. destruct r as [[]|e].
    - right. split; auto. apply put_opt_ok in HP. destruct HP as (d' & H1 & H2). eauto 10.
    - left. apply put_opt_err in HP. destruct HP; eauto. }
  destruct S.
  - unfold t_set, sbind, sget, slift in H.
    destruct (tidx t x) as [ti|e] eqn:E; [eapply P; eauto|inversion H; eauto].
  - unfold set_by_ratio, sbind, sget, slift in H.
    destruct (tidx t x) as [ti|e] eqn:E; [|inversion H; eauto].
    destruct (s - 1 =? Z.of_nat (t_n t) - 1)%Z.
    + destruct (cell t ti (s - 1 - 1)) as [v|e]; [|inversion H; eauto].
      destruct (pydiv v r0) as [q|e]; [|inversion H; eauto].
      eapply P; eauto.
    + destruct (cell t ti (Z.of_nat (t_n t) - 1)) as [v|e]; [|inversion H; eauto].
      eapply P; eauto.
  - unfold set_by_interpolation, sbind, sget, slift in H.
    destruct (tidx t x) as [ti|e] eqn:E; [|inversion H; eauto].
    repeat match type of H with
    | (match match ?c with Ok _ => _ | Err _ => _ end with Ok _ => _ | Err _ => _ end) = _ =>
        destruct c; [|inversion H; eauto]
    | match ?c with Ok _ => _ | Err _ => _ end = _ => destruct c; [|inversion H; eauto]
    end.
    eapply P; eauto.
  - unfold set_by_maintenance, sbind, sget, slift in H.
    destruct (t_kind t) eqn:K.
    + inversion H; eauto.
    + destruct (tidx t x) as [ti|e] eqn:E; [|inversion H; eauto].
      destruct (tidx t ref) as [ri|e] eqn:E2; [|inversion H; eauto].
      destruct (cell t ri (s - 1)) as [v|e]; [|inversion H; eauto].
      destruct (ri <? ti)%Z; [eapply P; eauto|].
      destruct (pydiv v r0) as [q|e]; [|inversion H; eauto]. eapply P; eauto.
    + destruct (tidx t x) as [ti|e] eqn:E; [|inversion H; eauto].
      destruct (tidx t ref) as [ri|e] eqn:E2; [|inversion H; eauto].
      destruct (cell t ri (s - 1)) as [v|e]; [|inversion H; eauto].
      destruct (ti <? ri)%Z; [eapply P; eauto|].
      destruct (pydiv v r0) as [q|e]; [|inversion H; eauto]. eapply P; eauto.
Qed.

Lemma pyindex_units n (z : Z) : (0 <= z < Z.of_nat n)%Z ->
  pyindex (repeat tt n) z = Ok (Z.to_nat z).
Proof.
  intros H. replace z with (Z.of_nat (Z.to_nat z)) at 1 by lia.
  apply pyindex_nat. rewrite repeat_length. lia.
Qed.

Lemma t_get_dget s x (t : table R) :
  t_get s x t = let! ti := tidx t x in dget (t_data t) ti (s - 1).
Proof. reflexivity. Qed.

Lemma setter_frame s x m (t t' : table R) r : wf_table t -> valid_speed t s ->
  setter s x m -> m t = (t', r) -> wf_table t' /\ changes_only s x t t'.
Proof.
  intros W V S H. destruct (setter_shape s x m t t' r S H) as [(e & -> & ->)|(-> & ti & v & d' & H1 & H2 & ->)].
  - split; auto. unfold changes_only. auto 10.
  - destruct W as (W1 & W2 & W3). split.
    + split; [auto|]. split; cbn [t_data t_temps t_n w_data].
      * rewrite (put_length _ _ _ _ _ H2). auto.
      * eapply put_shaped; eauto.
    + unfold changes_only. cbn [t_data t_temps t_n t_kind t_interp w_data].
      do 4 (split; [reflexivity|]). intros s' x' V' Hne.
      rewrite !t_get_dget. change (tidx (w_data d' t) x') with (tidx t x').
      destruct (tidx t x') as [ti'|e] eqn:E; auto. simpl.
      eapply put_frame; eauto.
      unfold valid_speed in *.
      destruct (Z.eq_dec s s') as [<-|Hs].
      * left. assert (Hxx : x' <> x) by congruence.
        assert (ti <> ti') by (intros <-; apply Hxx; eapply tidx_inj; eauto).
        pose proof (tidx_range t x ti (conj W1 (conj W2 W3)) H1).
        pose proof (tidx_range t x' ti' (conj W1 (conj W2 W3)) E).
        replace ti with (Z.of_nat (Z.to_nat ti)) by lia.
        replace ti' with (Z.of_nat (Z.to_nat ti')) by lia.
        rewrite !pyindex_nat by lia. intros Q. inversion Q. lia.
      * right. rewrite !pyindex_units by lia. intros Q. inversion Q. lia.
Qed.

Lemma setter_err_unchanged s x m (t t' : table R) e : setter s x m -> m t = (t', Err e) -> t' = t.
Proof.
  intros S H. destruct (setter_shape s x m t t' _ S H) as [(e' & _ & ?)|(Q & _)]; auto. discriminate.
Qed.

Lemma setter_absent s x m (t : table R) : setter s x m -> ~ In x (t_temps t) ->
  exists e, m t = (t, Err e).
Proof.
  intros S Hx. destruct (m t) as [t' r] eqn:E.
  destruct (setter_shape s x m t t' r S E) as [(e & -> & ->)|(-> & ti & v & d' & H1 & _)]; eauto.
  rewrite tidx_notIn in H1 by auto. discriminate.
Qed.

Lemma put_data_big n (d : list (list (option R))) ti si o : shaped n d -> (Z.of_nat n <= si)%Z ->
  exists e, put_data d ti si o = Err e.
Proof.
  intros S Hs. destruct (put_data d ti si o) as [d'|e] eqn:E; eauto. exfalso.
  apply put_data_ok in E. destruct E as (i & row & j & H1 & H2 & H3 & _).
  replace si with (Z.of_nat (Z.to_nat si)) in H3 by lia.
  rewrite pyindex_nat_err in H3; [discriminate|]. rewrite (shaped_nth n d _ row S H2). lia.
Qed.

Lemma setter_bad_speed s x m (t : table R) : wf_table t -> setter s x m ->
  (Z.of_nat (t_n t) < s)%Z -> exists e, m t = (t, Err e).
Proof.
  intros (W1 & W2 & W3) S Hs. destruct (m t) as [t' r] eqn:E.
  destruct (setter_shape s x m t t' r S E) as [(e & -> & ->)|(-> & ti & v & d' & H1 & H2 & _)]; eauto.
  destruct (put_data_big (t_n t) (t_data t) ti (s - 1) (Some v) W3 ltac:(lia)) as (e & Q).
  congruence.
Qed.

Lemma set_absent s x v (t : table R) : ~ In x (t_temps t) ->
  t_set s x v t = (t, Err ValueError) /\ t_get s x t = Err ValueError.
Proof.
  intros H. unfold t_set, t_get, sbind, sget, slift. rewrite tidx_notIn by auto. auto.
Qed.

Lemma set_bad_speed s x v (t : table R) : wf_table t -> In x (t_temps t) ->
  (Z.of_nat (t_n t) < s)%Z ->
  t_set s x v t = (t, Err IndexError) /\ t_get s x t = Err IndexError.
Proof.
  intros W Hx Hs. destruct (index_of_In _ _ Hx) as (i & Hi).
  assert (Ht : tidx t x = Ok (Z.of_nat i)) by (apply tidx_ok; eauto).
  pose proof (tidx_range t x _ W Ht) as Hr. destruct W as (W1 & W2 & W3).
  destruct (nth_error (t_data t) i) as [row|] eqn:E; [|apply nth_error_None in E; lia].
  assert (Q : pyindex row (s - 1) = Err IndexError).
  { replace (s - 1)%Z with (Z.of_nat (Z.to_nat (s - 1))) by lia.
    apply pyindex_nat_err. rewrite (shaped_nth (t_n t) _ _ row W3 E). lia. }
  unfold t_set, t_get, sbind, sget, slift. rewrite Ht. split.
  - unfold put_cell, put_opt, sbind, sget, slift, put_data.
    rewrite pyindex_nat by lia. simpl. unfold geti. rewrite E. simpl. rewrite Q. reflexivity.
  - simpl. unfold cell_opt. rewrite pyget_nat. unfold geti. rewrite E. simpl.
    unfold pyget. rewrite Q. reflexivity.
Qed.

Lemma set_get s x v (t t' : table R) : t_set s x v t = (t', Ok tt) -> t_get s x t' = Ok (Some v).
Proof.
  intros H. unfold t_set, sbind, sget, slift in H.
  destruct (tidx t x) as [ti|] eqn:H0; [|inversion H].
  apply put_opt_ok in H. destruct H as (d' & H1 & ->).
  rewrite t_get_dget. change (tidx (w_data d' t) x) with (tidx t x). rewrite H0.
  simpl. eapply put_get; eauto.
Qed.

Lemma set_total s x v (t : table R) : wf_table t -> In x (t_temps t) -> valid_speed t s ->
  exists t', t_set s x v t = (t', Ok tt).
Proof.
  intros W Hx V. destruct (index_of_In _ _ Hx) as (i & Hi).
  assert (Ht : tidx t x = Ok (Z.of_nat i)) by (apply tidx_ok; eauto).
  pose proof (tidx_range t x _ W Ht) as Hr. destruct W as (W1 & W2 & W3).
  unfold valid_speed in V.
  destruct (put_total (t_n t) (t_data t) (Z.of_nat i) (s - 1) (Some v) W3 Hr ltac:(lia)) as (d' & Hd).
  exists (w_data d' t). unfold t_set, sbind, sget, slift. rewrite Ht.
  apply put_opt_ok. eauto.
Qed.

(** * Ratios *)
Lemma cell_ok (t : table R) ti si v : cell t ti si = Ok v <-> dget (t_data t) ti si = Ok (Some v).
Proof.
  unfold cell. rewrite cell_opt_dget. split.
  - intros H. inv_ok. apply need_ok in H. congruence.
  - intros ->. reflexivity.
Qed.

Lemma t_get_some s x (t : table R) v ti : tidx t x = Ok ti ->
  (t_get s x t = Ok (Some v) <-> cell t ti (s - 1) = Ok v).
Proof. intros H. rewrite t_get_dget, H, cell_ok. reflexivity. Qed.

Lemma dget_frame_speed (t : table R) d' ti s s' v : wf_table t -> 
  (0 <= s < Z.of_nat (t_n t))%Z -> (0 <= s' < Z.of_nat (t_n t))%Z -> s <> s' ->
  put_data (t_data t) ti s (Some v) = Ok d' -> forall ti',
  dget d' ti' s' = dget (t_data t) ti' s'.
Proof.
  intros (W1 & W2 & W3) V V' Hne H ti'. eapply put_frame; eauto. right.
  rewrite !pyindex_units by lia. intros Q; inversion Q; lia.
Qed.

Lemma ratio_get s x r (t t' : table R) m : wf_table t -> valid_speed t s ->
  (s < Z.of_nat (t_n t))%Z -> set_by_ratio s x r t = (t', Ok tt) ->
  t_get (Z.of_nat (t_n t)) x t = Ok (Some m) ->
  t_get s x t' = Ok (Some (m * r)) /\ (m <> 0 -> get_ratio s x t' = Ok r).
Proof.
  intros W V Hs H Hm. unfold set_by_ratio, sbind, sget, slift in H.
  destruct (tidx t x) as [x1|] eqn:H0; [|inversion H].
  destruct (s - 1 =? Z.of_nat (t_n t) - 1)%Z eqn:E; [apply Z.eqb_eq in E; lia|].
  destruct (cell t x1 (Z.of_nat (t_n t) - 1)) as [x2|] eqn:H1; [|inversion H].
  apply put_opt_ok in H. destruct H as (d' & H2 & ->).
  rewrite (t_get_some _ _ _ _ _ H0) in Hm. rewrite Hm in H1. inv_ok. subst.
  unfold valid_speed in V.
  assert (G : dget d' x1 (s - 1) = Ok (Some (x2 * r))) by (eapply put_get; eauto).
  rewrite t_get_dget. change (tidx (w_data d' t) x) with (tidx t x). rewrite H0.
  split; [exact G|]. intros Hm0.
  unfold get_ratio. change (tidx (w_data d' t) x) with (tidx t x). rewrite H0. simpl.
  cbn [w_data t_n]. rewrite (proj2 (cell_ok (w_data d' t) x1 (s - 1) (x2 * r)) G). simpl.
  assert (G2 : cell (w_data d' t) x1 (Z.of_nat (t_n t) - 1) = Ok x2).
  { apply cell_ok. cbn [t_data w_data].
    rewrite (dget_frame_speed t d' x1 (s - 1) (Z.of_nat (t_n t) - 1) (x2 * r)); auto; try lia.
    apply cell_ok; auto. }
  rewrite G2. simpl. rewrite pydiv_ok by auto. f_equal. field. auto.
Qed.

Lemma ratio_get_max x r (t t' : table R) m : wf_table t -> (2 <= t_n t)%nat ->
  set_by_ratio (Z.of_nat (t_n t)) x r t = (t', Ok tt) ->
  t_get (Z.of_nat (t_n t) - 1) x t = Ok (Some m) ->
  t_get (Z.of_nat (t_n t)) x t' = Ok (Some (m / r))
  /\ (m <> 0 -> get_ratio (Z.of_nat (t_n t) - 1) x t' = Ok r).
Proof.
  intros W Hn H Hm. unfold set_by_ratio, sbind, sget, slift in H.
  rewrite Z.eqb_refl in H.
  destruct (tidx t x) as [ti|] eqn:H0; [|inversion H].
  destruct (cell t ti (Z.of_nat (t_n t) - 1 - 1)) as [v|] eqn:H1; [|inversion H].
  destruct (pydiv v r) as [q|] eqn:Hd; [|inversion H].
  apply put_opt_ok in H. destruct H as (d' & H4 & ->).
  rewrite (t_get_some _ _ _ _ _ H0) in Hm. rewrite Hm in H1. inv_ok. subst.
  apply pydiv_inv in Hd. destruct Hd as (Hr & ->).
  assert (G : dget d' ti (Z.of_nat (t_n t) - 1) = Ok (Some (v / r))) by (eapply put_get; eauto).
  rewrite t_get_dget. change (tidx (w_data d' t) x) with (tidx t x). rewrite H0.
  split; [exact G|]. intros Hm0.
  unfold get_ratio. change (tidx (w_data d' t) x) with (tidx t x). rewrite H0. cbn [rbind].
  change (t_n (w_data d' t)) with (t_n t).
  assert (G2 : cell (w_data d' t) ti (Z.of_nat (t_n t) - 1 - 1) = Ok v).
  { apply cell_ok. cbn [t_data w_data].
    rewrite (dget_frame_speed t d' ti (Z.of_nat (t_n t) - 1) (Z.of_nat (t_n t) - 1 - 1) (v / r)); auto; try lia.
    apply cell_ok; auto. }
  rewrite G2. cbn [rbind].
  rewrite (proj2 (cell_ok (w_data d' t) ti (Z.of_nat (t_n t) - 1) (v / r)) G). simpl.
  rewrite pydiv_ok.
  - f_equal. field. auto.
  - intros Q. apply Hm0. apply (f_equal (fun z => z * r)) in Q.
    unfold Rdiv in Q. rewrite Rmult_assoc, Rinv_l, Rmult_0_l in Q by auto. lra.
Qed.

(** * Maintenance *)
Lemma tidx_lt (t : table R) x y i j : wf_table t -> tidx t x = Ok i -> tidx t y = Ok j ->
  ((i < j)%Z <-> x < y).
Proof.
  intros (W1 & _) H1 H2. apply tidx_ok in H1, H2. destruct H1 as (a & -> & H1).
  destruct H2 as (b & -> & H2). apply index_of_ok in H1, H2. split; intros H.
  - apply (sorted_nth _ a b _ _ W1); auto. lia.
  - destruct (Nat.lt_trichotomy a b) as [Q|[Q|Q]]; [lia| |].
    + subst. rewrite H1 in H2. inversion H2; lra.
    + pose proof (sorted_nth _ _ _ _ _ W1 Q H2 H1). lra.
Qed.

Lemma dget_frame_temp (t : table R) d' ti ti' s v : wf_table t ->
  (0 <= ti < Z.of_nat (length (t_data t)))%Z -> (0 <= ti' < Z.of_nat (length (t_data t)))%Z ->
  ti <> ti' -> put_data (t_data t) ti s (Some v) = Ok d' -> forall s',
  dget d' ti' s' = dget (t_data t) ti' s'.
Proof.
  intros (W1 & W2 & W3) V V' Hne H s'. eapply put_frame; eauto. left.
  replace ti with (Z.of_nat (Z.to_nat ti)) by lia.
  replace ti' with (Z.of_nat (Z.to_nat ti')) by lia.
  rewrite !pyindex_nat by lia. intros Q; inversion Q; lia.
Qed.

Lemma maint_main s x ref r (t t' : table R) v : wf_table t ->
  x <> ref -> set_by_maintenance s x ref r t = (t', Ok tt) ->
  t_get s ref t = Ok (Some v) ->
  exists ti ri w d', tidx t x = Ok ti /\ tidx t ref = Ok ri
     /\ t_kind t <> BaseTable
     /\ put_data (t_data t) ti (s - 1) (Some w) = Ok d' /\ t' = w_data d' t
     /\ ((match t_kind t with CoolingTable => ref < x | _ => x < ref end /\ w = v * r)
        \/ (match t_kind t with CoolingTable => x < ref | _ => ref < x end /\ r <> 0 /\ w = v / r)).
Proof.
  intros W Hx H Hv.
  unfold set_by_maintenance, sbind, sget, slift in H.
    destruct (t_kind t) eqn:K; [inversion H| |];
      (destruct (tidx t x) as [ti|] eqn:H0; [|inversion H]);
      (destruct (tidx t ref) as [ri|] eqn:H1; [|inversion H]);
      rewrite (t_get_some _ _ _ _ _ H1) in Hv; rewrite Hv in H.
    - destruct (ri <? ti)%Z eqn:E.
      + apply put_opt_ok in H. destruct H as (d' & Hd & ->).
        exists ti, ri, (v * r), d'. repeat (split; auto); try congruence.
        left. split; auto. apply (tidx_lt t ref x ri ti); auto. apply Z.ltb_lt; auto.
      + destruct (pydiv v r) as [q|] eqn:H2; [|inversion H].
        apply put_opt_ok in H. destruct H as (d' & Hd & ->).
        apply pydiv_inv in H2. destruct H2 as (Hr & ->).
        exists ti, ri, (v / r), d'. repeat (split; auto); try congruence.
        right. split; auto. destruct (Rtotal_order x ref) as [Q|[Q|Q]]; auto; [contradiction|].
        apply (tidx_lt t ref x ri ti) in Q; auto. apply Z.ltb_ge in E. lia.
    - destruct (ti <? ri)%Z eqn:E.
      + apply put_opt_ok in H. destruct H as (d' & Hd & ->).
        exists ti, ri, (v * r), d'. repeat (split; auto); try congruence.
        left. split; auto. apply (tidx_lt t x ref ti ri); auto. apply Z.ltb_lt; auto.
      + destruct (pydiv v r) as [q|] eqn:H2; [|inversion H].
        apply put_opt_ok in H. destruct H as (d' & Hd & ->).
        apply pydiv_inv in H2. destruct H2 as (Hr & ->).
        exists ti, ri, (v / r), d'. repeat (split; auto); try congruence.
        right. split; auto. destruct (Rtotal_order x ref) as [Q|[Q|Q]]; auto; [|contradiction].
        apply (tidx_lt t x ref ti ri) in Q; auto. apply Z.ltb_ge in E. lia.
Qed.

Lemma maint_get s x ref r (t t' : table R) v : wf_table t ->
  x <> ref -> set_by_maintenance s x ref r t = (t', Ok tt) ->
  t_get s ref t = Ok (Some v) -> v <> 0 ->
  match t_kind t with
  | BaseTable => False
  | CoolingTable =>
      get_maintenance s (Rmax x ref) (Rmin x ref) t' = Ok r
  | HeatingTable =>
      get_maintenance s (Rmin x ref) (Rmax x ref) t' = Ok r
  end
  /\ t_get s ref t' = Ok (Some v).
Proof.
  intros W Hx H Hv Hv0.
  pose proof (maint_main s x ref r t t' v W Hx H Hv) as Main.
  destruct Main as (ti & ri & w & d' & Hti & Hri & K & Hd & -> & Cases).
  pose proof (tidx_range t x ti W Hti) as Rt. pose proof (tidx_range t ref ri W Hri) as Rr.
  assert (Hne : ti <> ri) by (intros ->; apply Hx; eapply tidx_inj; eauto).
  rewrite (t_get_some _ _ _ _ _ Hri) in Hv.
  assert (G1 : cell (w_data d' t) ti (s - 1) = Ok w) by (apply cell_ok; eapply put_get; eauto).
  assert (G2 : cell (w_data d' t) ri (s - 1) = Ok v).
  { apply cell_ok. cbn [t_data w_data].
    rewrite (dget_frame_temp t d' ti ri (s - 1) w); auto. apply cell_ok; auto. }
  assert (M1 : get_maintenance s x ref (w_data d' t) = pydiv w v).
  { unfold get_maintenance. change (tidx (w_data d' t)) with (tidx t).
    rewrite Hti, Hri. cbn [rbind]. rewrite G1. cbn [rbind]. rewrite G2. reflexivity. }
  assert (M2 : get_maintenance s ref x (w_data d' t) = pydiv v w).
  { unfold get_maintenance. change (tidx (w_data d' t)) with (tidx t).
    rewrite Hti, Hri. cbn [rbind]. rewrite G2. cbn [rbind]. rewrite G1. reflexivity. }
  assert (D1 : w = v * r -> pydiv w v = Ok r)
    by (intros ->; rewrite pydiv_ok by auto; f_equal; field; auto).
  assert (D2 : r <> 0 -> w = v / r -> pydiv v w = Ok r).
  { intros Hr ->. rewrite pydiv_ok.
    - f_equal. field. auto.
    - intros Q. apply Hv0. apply (f_equal (fun z => z * r)) in Q.
      unfold Rdiv in Q. rewrite Rmult_assoc, Rinv_l, Rmult_0_l in Q by auto. lra. }
  split; [|apply t_get_some with (ti := ri); auto].
  destruct (t_kind t) eqn:K'; [congruence| |]; destruct Cases as [[C ->]|(C & Hr & ->)].
  - rewrite Rmax_left, Rmin_right by lra. rewrite M1. auto.
  - rewrite Rmax_right, Rmin_left by lra. rewrite M2. auto.
  - rewrite Rmax_right, Rmin_left by lra. rewrite M1. auto.
  - rewrite Rmax_left, Rmin_right by lra. rewrite M2. auto.
Qed.

Lemma maint_val s x ref r (t t' : table R) v : wf_table t ->
  x <> ref -> set_by_maintenance s x ref r t = (t', Ok tt) ->
  t_get s ref t = Ok (Some v) ->
  t_get s x t' = Ok (Some (match t_kind t with
    | CoolingTable => if Rlt_dec ref x then v * r else v / r
    | _ => if Rlt_dec x ref then v * r else v / r end)).
Proof.
  intros W Hx H Hv.
  destruct (maint_main s x ref r t t' v W Hx H Hv) as (ti & ri & w & d' & Hti & Hri & K & Hd & -> & C).
  pose proof (tidx_range t x ti W Hti) as Rt.
  assert (G1 : cell (w_data d' t) ti (s - 1) = Ok w) by (apply cell_ok; eapply put_get; eauto).
  replace (match t_kind t with
    | CoolingTable => if Rlt_dec ref x then v * r else v / r
    | _ => if Rlt_dec x ref then v * r else v / r end) with w.
  - apply t_get_some with (ti := ti); auto.
  - destruct (t_kind t); [congruence| |]; destruct C as [(C & ->)|(C & _ & ->)];
      destruct Rlt_dec; auto; lra.
Qed.

(** With a single speed [set_by_ratio] divides the cell by the ratio. *)
Lemma ratio_single x r (t t' : table R) m : t_n t = 1%nat -> wf_table t ->
  set_by_ratio 1 x r t = (t', Ok tt) -> t_get 1 x t = Ok (Some m) ->
  t_get 1 x t' = Ok (Some (m / r)).
Proof.
  intros Hn W H Hm. unfold set_by_ratio, sbind, sget, slift in H.
  rewrite Hn in H. change (1 - 1 =? Z.of_nat 1 - 1)%Z with true in H. cbv iota in H.
  destruct (tidx t x) as [ti|] eqn:H0; [|inversion H].
  destruct (cell t ti (1 - 1 - 1)) as [x2|] eqn:H1; [|inversion H].
  destruct (pydiv x2 r) as [q|] eqn:H2; [|inversion H].
  apply put_opt_ok in H. destruct H as (d' & Hd & ->).
  rewrite (t_get_some _ _ _ _ _ H0) in Hm. apply cell_ok in Hm, H1.
  apply pydiv_inv in H2. destruct H2 as (Hr & ->).
  rewrite t_get_dget. change (tidx (w_data d' t) x) with (tidx t x). rewrite H0. cbn [rbind].
  assert (E : x2 = m).
  { apply dget_ok in Hm, H1. destruct Hm as (i & row & j & A1 & A2 & A3 & A4).
    destruct H1 as (i' & row' & j' & B1 & B2 & B3 & B4).
    rewrite A1 in B1. inversion B1; subst i'. rewrite A2 in B2. inversion B2; subst row'.
    destruct W as (W1 & W2 & W3). pose proof (shaped_nth _ _ _ _ W3 A2) as L. rewrite Hn in L.
    destruct row as [|c [|]]; try discriminate. cbn in A3, B3.
    inv_ok. subst. simpl in A4, B4. congruence. }
  subst. eapply put_get; eauto.
Qed.
