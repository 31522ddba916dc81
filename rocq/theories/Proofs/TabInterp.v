(** Interpolation in the performance tables. *)
From Coq Require Import Reals QArith Lra Lia List Bool Sorted ZArith.
From Verif.Base Require Import Num Res Tac.
From Verif.Model Require Import Tabular.
From Verif.Spec Require Import TabularSpec.
From Verif.Proofs Require Import Lin1 TabCells TabAdd.
Import ListNotations.
Local Open Scope R_scope.

Lemma nth_error_ext {A} (l l' : list A) : (forall i, nth_error l i = nth_error l' i) -> l = l'.
Proof.
  revert l'; induction l as [|a l IH]; intros [|b l'] H; auto.
  - specialize (H 0%nat); discriminate.
  - specialize (H 0%nat); discriminate.
  - pose proof (H 0%nat) as H0. simpl in H0. inversion H0; subst. f_equal.
    apply IH. intros i. apply (H (S i)).
Qed.

(** * The speed axis *)
Lemma nZ_INR k : nZ (T:=R) (Z.of_nat k) = INR k.
Proof. unfold nZ, inject_Z. cbn [nq RNum]. unfold Q2R. simpl. rewrite INR_IZR_INZ. lra. Qed.

Lemma speed_axis_length n : length (speed_axis (T:=R) n) = n.
Proof. unfold speed_axis. rewrite map_length, seq_length. auto. Qed.
Lemma speed_axis_nth n k : (k < n)%nat -> nth_error (speed_axis n) k = Some (INR (S k)).
Proof. intros H. unfold speed_axis. rewrite nth_map_seq by auto. rewrite nZ_INR. reflexivity. Qed.
Lemma speed_axis_sorted n : sortedR (speed_axis n).
Proof.
  unfold speed_axis. generalize 0%nat as k. induction n as [|n IH]; intros k; cbn [seq map]; [constructor|].
  constructor; [apply IH|]. apply Forall_forall. intros y Hy. apply in_map_iff in Hy.
  destruct Hy as (i & <- & Hi). apply in_seq in Hi.
  rewrite !(nZ_INR (S _)). apply lt_INR. lia.
Qed.

(** * Setting the interpolator *)
Lemma values_of_some vals : values_of (map (map Some) vals) = Ok (vals : list (list R)).
Proof.
  unfold values_of. rewrite (rmapM_map _ (fun r => map (fun o => match o with Some v => v | None => 0 end) r)).
  - f_equal. rewrite map_map. rewrite <- (map_id vals) at 2. apply map_ext. intros r.
    rewrite map_map. rewrite <- (map_id r) at 2. apply map_ext. auto.
  - intros r Hr. apply in_map_iff in Hr. destruct Hr as (v & <- & _).
    apply rmapM_map. intros o Ho. apply in_map_iff in Ho. destruct Ho as (a & <- & _). reflexivity.
Qed.

Lemma values_of_inv (d : list (list (option R))) vals : values_of d = Ok vals -> d = map (map Some) vals.
Proof.
  unfold values_of. intros H. apply rmapM_ok in H. induction H as [|r v d vals H F IH]; auto.
  simpl. f_equal; auto. apply rmapM_ok in H. clear - H.
  induction H as [|o a r v H F IH]; auto. apply need_ok in H. simpl. congruence.
Qed.

Lemma ascending_sorted (l : list R) : ascending l = true <-> sortedR l.
Proof.
  split.
  - intros H. apply Sorted_StronglySorted; [intros a b c; apply Rlt_trans|].
    induction l as [|a l IH]; [constructor|]. destruct l as [|b l].
    + repeat constructor.
    + cbn [ascending] in H. apply andb_true_iff in H. destruct H as [H1 H2].
      constructor; auto. constructor. apply Rltb_true; auto.
  - induction l as [|a l IH]; intros S; auto. destruct l as [|b l]; auto.
    cbn [ascending]. apply andb_true_iff. split.
    + apply Rltb_true. apply (sorted_12 _ _ _ S).
    + apply IH. eapply sorted_tl; eauto.
Qed.

Definition good (t : table R) (vals : list (list R)) : Prop :=
  t_data t = map (map Some) vals /\ sortedR (t_temps t)
  /\ length vals = length (t_temps t) /\ Forall (fun r => length r = t_n t) vals
  /\ t_temps t <> [] /\ t_n t <> 0%nat.

Lemma interpolated_inv (t t' : table R) : interpolated t t' ->
  exists vals, good t vals /\ t' = w_interp (Some (mkGrid (t_temps t) (t_n t) vals)) t.
Proof.
  unfold interpolated, set_interpolator. unfold sbind, sget, slift, smod. intros H.
  destruct (values_of (t_data t)) as [vs|] eqn:E; [|inversion H].
  apply values_of_inv in E.
  match type of H with context [guard _ ?b] => destruct b eqn:G end; [|inversion H].
  cbn [guard] in H. inversion H; subst t'. exists vs. split; auto.
  rewrite !andb_true_iff, !negb_true_iff in G.
  destruct G as ((((G1 & G2) & G3) & G4) & G5).
  apply ascending_sorted in G1. apply Nat.eqb_eq in G2. apply Nat.eqb_neq in G4, G5.
  rewrite forallb_forall in G3.
  split; [auto|]. split; [auto|]. split; [auto|]. split; [|split; auto].
  - apply Forall_forall. intros r Hr. apply Nat.eqb_eq. auto.
  - intros Q. rewrite Q in G2. simpl in G2. congruence.
Qed.

Lemma interpolated_good (t : table R) vals : good t vals ->
  interpolated t (w_interp (Some (mkGrid (t_temps t) (t_n t) vals)) t).
Proof.
  intros (H1 & H2 & H3 & H4 & H5 & H6).
  unfold interpolated, set_interpolator, sbind, sget, slift, smod.
  rewrite H1, values_of_some.
  assert (G : (ascending (t_temps t) && Nat.eqb (length vals) (length (t_temps t))
    && forallb (fun r => Nat.eqb (length r) (t_n t)) vals
    && negb (Nat.eqb (length vals) 0) && negb (Nat.eqb (t_n t) 0))%bool = true).
  { rewrite !andb_true_iff, !negb_true_iff, !Nat.eqb_neq, Nat.eqb_eq, forallb_forall.
    rewrite ascending_sorted. repeat split; auto.
    - intros r Hr. apply Nat.eqb_eq. rewrite Forall_forall in H4. auto.
    - rewrite H3. destruct (t_temps t); [congruence|discriminate]. }
  rewrite G. reflexivity.
Qed.

Lemma good_wf (t : table R) vals : good t vals -> wf_table t /\ filled t.
Proof.
  intros (H1 & H2 & H3 & H4 & H5 & H6). split; [split; [auto|split]|].
  - rewrite H1, map_length; auto.
  - rewrite H1. apply Forall_forall. intros r Hr. apply in_map_iff in Hr.
    destruct Hr as (v & <- & Hv). rewrite map_length. rewrite Forall_forall in H4. auto.
  - unfold filled. rewrite H1. apply Forall_forall. intros r Hr. apply in_map_iff in Hr.
    destruct Hr as (v & <- & Hv). apply Forall_forall. intros o Ho.
    apply in_map_iff in Ho. destruct Ho as (a & <- & _). discriminate.
Qed.

Lemma wf_good (t : table R) : wf_table t -> filled t -> t_temps t <> [] -> t_n t <> 0%nat ->
  exists vals, good t vals.
Proof.
  intros (W1 & W2 & W3) F Ht Hn. destruct (filled_vals t F) as (vals & E).
  exists vals. split; [auto|]. split; [auto|]. split; [|split; [|auto]].
  - rewrite <- W2, E, map_length. auto.
  - rewrite E in W3. apply Forall_forall. intros r Hr. rewrite Forall_forall in W3.
    specialize (W3 (map Some r) (in_map _ _ _ Hr)). rewrite map_length in W3. auto.
Qed.

Lemma good_unique (t : table R) v1 v2 : good t v1 -> good t v2 -> v1 = v2.
Proof.
  intros (H1 & _) (H2 & _). rewrite H1 in H2.
  assert (I : forall (a b : list R), map Some a = map Some b -> a = b).
  { induction a as [|x a IH]; intros [|y b] H; simpl in H; try discriminate; auto.
    inversion H. f_equal; auto. }
  revert v2 H2. clear H1. induction v1 as [|a v1 IH]; intros [|b v2] H; simpl in H; try discriminate; auto.
  inversion H. f_equal; auto.
Qed.

Lemma interpolated_exists (t : table R) : wf_table t -> filled t -> t_temps t <> [] -> t_n t <> 0%nat ->
  exists t', interpolated t t'.
Proof.
  intros W F Ht Hn. destruct (wf_good t W F Ht Hn) as (vals & G).
  eexists. apply interpolated_good; eauto.
Qed.

Lemma calculate_interp (t : table R) g s x : calculate s x (w_interp (Some g) t) = Ok (grid_eval g s x).
Proof. reflexivity. Qed.

Lemma interpolated_calc (t t' : table R) vals s x : interpolated t t' -> good t vals ->
  calculate s x t' = Ok (grid_eval (mkGrid (t_temps t) (t_n t) vals) s x).
Proof.
  intros I G. destruct (interpolated_inv t t' I) as (v & G' & ->).
  rewrite (good_unique _ _ _ G G'). apply calculate_interp.
Qed.

(** * C24 *)
Lemma good_nth (t : table R) vals i j : good t vals ->
  nth2 (t_data t) i j = match nth_error vals i with
                        | Some r => option_map Some (nth_error r j) | None => None end.
Proof.
  intros (H & _). unfold nth2. rewrite H. rewrite nth_error_map.
  destruct (nth_error vals i); simpl; auto. rewrite nth_error_map. reflexivity.
Qed.

Lemma valid_speed_nat (t : table R) s : valid_speed t s ->
  exists j, s = Z.of_nat (S j) /\ (j < t_n t)%nat.
Proof. unfold valid_speed. intros H. exists (Z.to_nat (s - 1)). lia. Qed.

Lemma get_good (t : table R) vals s x v : good t vals -> valid_speed t s ->
  t_get s x t = Ok (Some v) ->
  exists i j r, s = Z.of_nat (S j) /\ (j < t_n t)%nat /\ nth_error (t_temps t) i = Some x
    /\ nth_error vals i = Some r /\ nth_error r j = Some v.
Proof.
  intros G V H. destruct (valid_speed_nat t s V) as (j & -> & Hj).
  pose proof (good_wf t vals G) as (W & F).
  assert (exists i, nth_error (t_temps t) i = Some x) as (i & Hi).
  { rewrite t_get_dget in H. unfold tidx in H.
    destruct (index_of (t_temps t) x) as [i|] eqn:E; [|discriminate].
    exists i. apply index_of_ok; auto. }
  rewrite (get_nth2 t i x j W Hi) in H. apply need_ok in H. rewrite (good_nth t vals) in H by auto.
  destruct (nth_error vals i) as [r|] eqn:E; [|discriminate].
  destruct (nth_error r j) as [a|] eqn:E2; [|discriminate]. simpl in H. inversion H; subst.
  exists i, j, r. auto.
Qed.

Lemma rows_nth (vals : list (list R)) f i r : nth_error vals i = Some r ->
  nth_error (map f vals) i = Some (f r : R).
Proof. intros H. apply map_nth_error; auto. Qed.

Lemma calc_node (t t' : table R) s x v : interpolated t t' -> valid_speed t s ->
  t_get s x t = Ok (Some v) -> calculate (IZR s) x t' = Ok v.
Proof.
  intros I V H. destruct (interpolated_inv t t' I) as (vals & G & _).
  rewrite (interpolated_calc t t' vals) by auto. f_equal. unfold grid_eval. cbn [g_temps g_vals g_n].
  destruct (get_good t vals s x v G V H) as (i & j & r & -> & Hj & Hi & Hr & Hv).
  destruct G as (G1 & G2 & G3 & G4 & G5 & G6).
  rewrite <- INR_IZR_INZ.
  rewrite (lin1_node (t_temps t) _ i x (lin1 (speed_axis (t_n t)) r (INR (S j)))); auto.
  - apply (lin1_node _ _ j); auto using speed_axis_sorted, speed_axis_nth.
    rewrite speed_axis_length. rewrite Forall_forall in G4. apply G4. eapply nth_error_In; eauto.
  - rewrite map_length; auto.
  - apply (rows_nth vals (fun r => lin1 (speed_axis (t_n t)) r (INR (S j)))). auto.
Qed.

Lemma line_chord x0 y0 x1 y1 x : chord x0 y0 x1 y1 x = line x0 y0 x1 y1 x.
Proof. unfold chord, line, Rdiv. ring. Qed.

Lemma consecutive_nth l a b : consecutive l a b ->
  exists i, nth_error l i = Some a /\ nth_error l (S i) = Some b.
Proof.
  intros (l1 & l2 & ->). exists (length l1). split; [apply nth_mid|].
  replace (l1 ++ a :: b :: l2) with ((l1 ++ [a]) ++ b :: l2) by (rewrite <- app_assoc; auto).
  replace (S (length l1)) with (length (l1 ++ [a])) by (rewrite app_length; simpl; lia).
  apply nth_mid.
Qed.

Lemma first_last l a b : sortedR l -> consecutive l a b ->
  exists i, nth_error l i = Some a /\ nth_error l (S i) = Some b
    /\ ((forall y, In y l -> a <= y) -> i = 0%nat)
    /\ ((forall y, In y l -> y <= b) -> S (S i) = length l).
Proof.
  intros S C. destruct (consecutive_nth l a b C) as (i & H1 & H2). exists i.
  do 2 (split; [auto|]). split.
  - intros H. destruct i; auto. exfalso.
    destruct (nth_error l 0) as [c|] eqn:E.
    + assert (c < a) by (apply (sorted_nth l 0 (Datatypes.S i)); auto; lia).
      specialize (H c (nth_error_In _ _ E)). lra.
    + apply nth_error_None in E. assert (nth_error l (Datatypes.S i) = None) by (apply nth_error_None; lia).
      congruence.
  - intros H. assert (Datatypes.S i < length l)%nat by (apply nth_error_Some; congruence).
    destruct (nth_error l (Datatypes.S (Datatypes.S i))) as [c|] eqn:E.
    + exfalso. assert (b < c) by (apply (sorted_nth l (Datatypes.S i) (Datatypes.S (Datatypes.S i))); auto; lia).
      specialize (H c (nth_error_In _ _ E)). lra.
    + apply nth_error_None in E. lia.
Qed.

(** The value in a cell of the grid; outer cells extend outwards. *)
Lemma calc_cell (t t' : table R) a b s v00 v01 v10 v11 z x : interpolated t t' ->
  consecutive (t_temps t) a b -> valid_speed t s -> valid_speed t (s + 1) ->
  t_get s a t = Ok (Some v00) -> t_get (s + 1) a t = Ok (Some v01) ->
  t_get s b t = Ok (Some v10) -> t_get (s + 1) b t = Ok (Some v11) ->
  (a <= x \/ forall y, In y (t_temps t) -> a <= y) ->
  (x <= b \/ forall y, In y (t_temps t) -> y <= b) ->
  (IZR s <= z \/ s = 1%Z) -> (z <= IZR (s + 1) \/ (s + 1)%Z = Z.of_nat (t_n t)) ->
  calculate z x t' =
    Ok (line a (line (IZR s) v00 (IZR (s + 1)) v01 z)
             b (line (IZR s) v10 (IZR (s + 1)) v11 z) x).
Proof.
  intros I C V V' H00 H01 H10 H11 Xa Xb Zs Zs'.
  destruct (interpolated_inv t t' I) as (vals & G & _).
  rewrite (interpolated_calc t t' vals) by auto. f_equal. unfold grid_eval. cbn [g_temps g_vals g_n].
  destruct (get_good t vals _ _ _ G V H00) as (i & j & r & Es & Hj & Hi & Hr & Hv00).
  destruct (get_good t vals _ _ _ G V' H01) as (i' & j' & r' & Es' & Hj' & Hi' & Hr' & Hv01).
  destruct (get_good t vals _ _ _ G V H10) as (i2 & j2 & r2 & Es2 & Hj2 & Hi2 & Hr2 & Hv10).
  destruct (get_good t vals _ _ _ G V' H11) as (i3 & j3 & r3 & Es3 & Hj3 & Hi3 & Hr3 & Hv11).
  destruct G as (G1 & G2 & G3 & G4 & G5 & G6).
  assert (i' = i) by (eapply sorted_nth_inj; eauto). subst i'.
  assert (i3 = i2) by (eapply sorted_nth_inj; eauto). subst i3.
  assert (j' = S j) by lia. assert (j2 = j) by lia. assert (j3 = S j) by lia. subst j' j2 j3.
  assert (r' = r) by congruence. assert (r3 = r2) by congruence. subst r' r3.
  destruct (first_last _ a b G2 C) as (k & K1 & K2 & K3 & K4).
  assert (k = i) by (eapply sorted_nth_inj; eauto). subst k.
  assert (i2 = S i) by (eapply sorted_nth_inj; eauto). subst i2.
  assert (L : forall q, In q vals -> length q = length (speed_axis (T:=R) (t_n t))).
  { intros q Hq. rewrite speed_axis_length. rewrite Forall_forall in G4. auto. }
  assert (Row : forall q w0 w1, In q vals -> nth_error q j = Some w0 -> nth_error q (S j) = Some w1 ->
    lin1 (speed_axis (t_n t)) q z = line (IZR s) w0 (IZR (s + 1)) w1 z).
  { intros q w0 w1 Hq Q0 Q1. rewrite <- line_chord.
    replace (IZR s) with (INR (S j)) by (rewrite INR_IZR_INZ; f_equal; lia).
    replace (IZR (s + 1)) with (INR (S (S j))) by (rewrite INR_IZR_INZ; f_equal; lia).
    apply (lin1_interval _ _ j); auto using speed_axis_sorted, speed_axis_nth.
    - destruct Zs as [Zs|Zs]; [right; rewrite INR_IZR_INZ, <- Es; auto|left; lia].
    - destruct Zs' as [Zs'|Zs']; [right; rewrite INR_IZR_INZ, <- Es'; auto|left].
      rewrite speed_axis_length. lia. }
  rewrite <- line_chord. apply (lin1_interval _ _ i); auto.
  - rewrite map_length; auto.
  - rewrite (rows_nth vals (fun r => lin1 (speed_axis (t_n t)) r z) i r Hr).
    f_equal. apply Row; auto. eapply nth_error_In; eauto.
  - rewrite (rows_nth vals (fun r => lin1 (speed_axis (t_n t)) r z) (S i) r2 Hr2).
    f_equal. apply Row; auto. eapply nth_error_In; eauto.
  - destruct Xa; auto.
  - destruct Xb; auto.
Qed.

Lemma line_between x0 y0 x1 y1 x lo hi : x0 < x1 -> x0 <= x <= x1 ->
  lo <= y0 <= hi -> lo <= y1 <= hi -> lo <= line x0 y0 x1 y1 x <= hi.
Proof.
  intros H H1 H2 H3. pose proof (chord_between x0 y0 x1 y1 x H H1) as Q.
  rewrite line_chord in Q. unfold Rmin, Rmax in Q. destruct (Rle_dec y0 y1); lra.
Qed.

Lemma consecutive_lt l a b : sortedR l -> consecutive l a b -> a < b.
Proof. intros S (l1 & l2 & ->). apply sorted_app_inv in S. destruct S as [_ S]. apply (sorted_12 _ _ _ S). Qed.

Lemma calc_between (t t' : table R) a b s v00 v01 v10 v11 z x lo hi : interpolated t t' ->
  consecutive (t_temps t) a b -> valid_speed t s -> valid_speed t (s + 1) ->
  t_get s a t = Ok (Some v00) -> t_get (s + 1) a t = Ok (Some v01) ->
  t_get s b t = Ok (Some v10) -> t_get (s + 1) b t = Ok (Some v11) ->
  a <= x <= b -> IZR s <= z <= IZR (s + 1) ->
  lo <= v00 <= hi -> lo <= v01 <= hi -> lo <= v10 <= hi -> lo <= v11 <= hi ->
  exists v, calculate z x t' = Ok v /\ lo <= v <= hi.
Proof.
  intros I C V V' H00 H01 H10 H11 Hx Hz B0 B1 B2 B3.
  eexists. split; [eapply (calc_cell t t' a b s v00 v01 v10 v11); eauto; left; lra|].
  assert (IZR s < IZR (s + 1)) by (apply IZR_lt; lia).
  apply line_between; auto.
  - destruct (interpolated_inv t t' I) as (vals & (_ & S & _) & _).
    eapply consecutive_lt; eauto.
  - apply line_between; auto.
  - apply line_between; auto.
Qed.

Lemma calc_total (t t' : table R) z x : interpolated t t' -> exists v, calculate z x t' = Ok v.
Proof.
  intros I. destruct (interpolated_inv t t' I) as (vals & G & ->). eexists. apply calculate_interp.
Qed.

Lemma calc_continuous (t t' : table R) : interpolated t t' ->
  forall z x eps, 0 < eps -> exists d, 0 < d /\ forall z' x' v v',
    Rabs (z' - z) < d -> Rabs (x' - x) < d ->
    calculate z x t' = Ok v -> calculate z' x' t' = Ok v' -> Rabs (v' - v) < eps.
Proof.
  intros I z x eps He. destruct (interpolated_inv t t' I) as (vals & G & _).
  assert (G' := G). destruct G' as (G1 & G2 & G3 & G4 & G5 & G6).
  assert (C : cont2 (fun s x => grid_eval (mkGrid (t_temps t) (t_n t) vals) s x)).
  { apply (cont2_ext (fun s x => lin1 (t_temps t) (map (fun f => f s)
        (map (fun r s => lin1 (speed_axis (t_n t)) r s) vals)) x)).
    - intros. unfold grid_eval. cbn [g_temps g_vals g_n]. rewrite map_map. reflexivity.
    - apply lin1_cont2; auto; [rewrite map_length; auto|].
      apply Forall_forall. intros f Hf. apply in_map_iff in Hf. destruct Hf as (r & <- & Hr).
      apply lin1_cont1; [apply speed_axis_sorted|]. rewrite speed_axis_length.
      rewrite Forall_forall in G4. auto. }
  destruct (C z x eps He) as (d & Hd & H). exists d. split; auto.
  intros z' x' v v' Hz Hx E E'.
  rewrite (interpolated_calc t t' vals) in E, E' by auto. inv_ok. subst. apply H; auto.
Qed.

Lemma calc_affine (t t' : table R) a b z : interpolated t t' -> consecutive (t_temps t) a b ->
  exists p q, forall x,
    (a <= x \/ forall y, In y (t_temps t) -> a <= y) ->
    (x <= b \/ forall y, In y (t_temps t) -> y <= b) ->
    calculate z x t' = Ok (p + q * x).
Proof.
  intros I C. destruct (interpolated_inv t t' I) as (vals & G & _).
  assert (G' := G). destruct G' as (G1 & G2 & G3 & G4 & G5 & G6).
  destruct (first_last _ a b G2 C) as (i & K1 & K2 & K3 & K4).
  assert (exists r, nth_error vals i = Some r) as (r & Hr).
  { destruct (nth_error vals i) eqn:E; eauto. apply nth_error_None in E.
    assert (i < length (t_temps t))%nat by (apply nth_error_Some; congruence). lia. }
  assert (exists r', nth_error vals (S i) = Some r') as (r' & Hr').
  { destruct (nth_error vals (S i)) eqn:E; eauto. apply nth_error_None in E.
    assert (S i < length (t_temps t))%nat by (apply nth_error_Some; congruence). lia. }
  set (f := fun r => lin1 (speed_axis (t_n t)) r z).
  destruct (chord_affine a (f r) b (f r')) as (p & q & Hpq).
  { pose proof (consecutive_lt _ _ _ G2 C). lra. }
  exists p, q. intros x Xa Xb. rewrite (interpolated_calc t t' vals) by auto. f_equal.
  unfold grid_eval. cbn [g_temps g_vals g_n]. rewrite <- Hpq.
  apply (lin1_interval _ _ i); auto.
  - rewrite map_length; auto.
  - apply (rows_nth vals f); auto.
  - apply (rows_nth vals f); auto.
  - destruct Xa; auto.
  - destruct Xb; auto.
Qed.

(** * C22 *)
Lemma lin1_combo (sp r0 r1 : list R) a b z rn : length r0 = length sp -> length r1 = length sp ->
  length rn = length sp ->
  (forall j v0 v1, nth_error r0 j = Some v0 -> nth_error r1 j = Some v1 ->
     nth_error rn j = Some (a * v0 + b * v1)) ->
  lin1 sp rn z = a * lin1 sp r0 z + b * lin1 sp r1 z.
Proof.
  intros L0 L1 Ln H. rewrite <- lin1_linear by auto. f_equal.
  apply nth_error_ext. intros j.
  destruct (nth_error r0 j) as [v0|] eqn:E0.
  - destruct (nth_error r1 j) as [v1|] eqn:E1.
    + rewrite (H j v0 v1) by auto. symmetry.
      rewrite (map_nth_error _ j (combine r0 r1) (d := (v0, v1))); [reflexivity|].
      clear - E0 E1. revert j r1 E0 E1. induction r0 as [|x r0 IH]; intros [|j] [|y r1] E0 E1; try discriminate; simpl in *; auto.
      congruence.
    + apply nth_error_None in E1. assert (j < length r0)%nat by (apply nth_error_Some; congruence). lia.
  - apply nth_error_None in E0. transitivity (@None R); [apply nth_error_None; lia|].
    symmetry. apply nth_error_None. rewrite map_length, combine_length. lia.
Qed.

Lemma val_at_good (t : table R) vals i j r v : good t vals -> nth_error vals i = Some r ->
  nth_error r j = Some v -> val_at t i j = v.
Proof.
  intros G H1 H2. unfold val_at, opt_at. rewrite (good_nth t vals) by auto. rewrite H1, H2. reflexivity.
Qed.

Lemma map_some_seq (f : nat -> R) n : map (fun s => Some (f s)) (seq 0 n) = map Some (map f (seq 0 n)).
Proof. rewrite map_map. reflexivity. Qed.

Lemma extend_below (t ti t1 t1i : table R) x u1 u2 l : wf_table t -> filled t ->
  t_temps t = u1 :: u2 :: l -> x < u1 ->
  add_temperature x true None t = (t1, Ok tt) ->
  interpolated t ti -> interpolated t1 t1i ->
  forall z y, calculate z y t1i = calculate z y ti.
Proof.
  intros W F Et Hx Ha I I1 z y.
  rewrite (add_below t u1 u2 l x true None W F Et Hx) in Ha. inversion Ha; subst t1; clear Ha.
  destruct (interpolated_inv _ _ I) as (vals & G & _).
  destruct (interpolated_inv _ _ I1) as (vals1 & G1 & _).
  rewrite (interpolated_calc _ _ _ _ _ I G), (interpolated_calc _ _ _ _ _ I1 G1). f_equal.
  assert (E1 : vals1 = map (fun s => val_at t 0 s - (val_at t 1 s - val_at t 0 s) / (u2 - u1) * (u1 - x)) (seq 0 (t_n t)) :: vals).
  { eapply good_unique; [eauto|]. destruct G as (Q1 & Q2 & Q3 & Q4 & Q5 & Q6).
    destruct G1 as (P1 & P2 & P3 & P4 & P5 & P6).
    split; [|split; [auto|split; [|split; [|auto]]]].
    - cbn [t_data put_row w_data app map]. rewrite <- Q1. f_equal.
      rewrite <- map_some_seq. reflexivity.
    - cbn [t_temps put_row w_data w_temps length]. lia.
    - constructor; [rewrite map_length, seq_length; reflexivity|exact Q4]. }
  subst vals1. unfold grid_eval. cbn [g_temps g_vals g_n t_temps t_n put_row w_data w_temps map].
  destruct G1 as (P1 & P2 & _). cbn [t_temps put_row w_data w_temps] in P2.
  pose proof G as (Q1 & Q2 & Q3 & Q4 & Q5 & Q6).
  rewrite Et in *. destruct vals as [|r0 [|r1 vals]]; try discriminate.
  assert (L0 : length r0 = length (speed_axis (T:=R) (t_n t))).
  { rewrite speed_axis_length. rewrite Forall_forall in Q4. apply Q4. simpl; auto. }
  assert (L1 : length r1 = length (speed_axis (T:=R) (t_n t))).
  { rewrite speed_axis_length. rewrite Forall_forall in Q4. apply Q4. simpl; auto. }
  cbn [map].
  set (f := fun r => lin1 (speed_axis (t_n t)) r z). fold (f r0) (f r1).
  pose proof (sorted_12 _ _ _ Q2) as U12.
  assert (Eq : lin1 (speed_axis (t_n t))
     (map (fun s => val_at t 0 s - (val_at t 1 s - val_at t 0 s) / (u2 - u1) * (u1 - x)) (seq 0 (t_n t))) z
     = f r0 - (f r1 - f r0) / (u2 - u1) * (u1 - x)).
  { rewrite (lin1_combo _ r0 r1 (1 + (u1 - x) / (u2 - u1)) (- ((u1 - x) / (u2 - u1)))); auto.
    - unfold f. field. lra.
    - rewrite map_length, seq_length, speed_axis_length; auto.
    - intros j v0 v1 H0 H1.
      assert (j < t_n t)%nat by (rewrite <- (speed_axis_length (t_n t)), <- L0; apply nth_error_Some; congruence).
      rewrite nth_map_seq by auto. f_equal.
      rewrite (val_at_good t _ 0 j r0 v0 G), (val_at_good t _ 1 j r1 v1 G); auto.
      field. lra. }
  rewrite Eq. apply lin1_extend_below; auto.
  rewrite map_length. simpl in Q3. lia.
Qed.

Lemma last_two {A} (l : list A) : (2 <= length l)%nat -> exists l' a b, l = l' ++ [a; b].
Proof.
  intros H. destruct (@exists_last _ l) as (l1 & b & ->); [intros ->; simpl in H; lia|].
  rewrite app_length in H. simpl in H.
  destruct (@exists_last _ l1) as (l2 & a & ->); [intros ->; simpl in H; lia|].
  exists l2, a, b. rewrite <- app_assoc. reflexivity.
Qed.

Lemma extend_above (t ti t1 t1i : table R) x u1 u2 l : wf_table t -> filled t ->
  t_temps t = l ++ [u1; u2] -> u2 < x ->
  add_temperature x true None t = (t1, Ok tt) ->
  interpolated t ti -> interpolated t1 t1i ->
  forall z y, calculate z y t1i = calculate z y ti.
Proof.
  intros W F Et Hx Ha I I1 z y.
  rewrite (add_above t u1 u2 l x true None W F Et Hx) in Ha. inversion Ha; subst t1; clear Ha.
  destruct (interpolated_inv _ _ I) as (vals & G & _).
  destruct (interpolated_inv _ _ I1) as (vals1 & G1 & _).
  rewrite (interpolated_calc _ _ _ _ _ I G), (interpolated_calc _ _ _ _ _ I1 G1). f_equal.
  set (m := length l).
  assert (E1 : vals1 = vals ++ [map (fun s => val_at t (S m) s + (val_at t (S m) s - val_at t m s) / (u2 - u1) * (x - u2)) (seq 0 (t_n t))]).
  { eapply good_unique; [eauto|]. destruct G as (Q1 & Q2 & Q3 & Q4 & Q5 & Q6).
    destruct G1 as (P1 & P2 & P3 & P4 & P5 & P6).
    split; [|split; [auto|split; [|split; [|auto]]]].
    - cbn [t_data put_row w_data]. rewrite map_app, <- Q1. f_equal. cbn [map]. f_equal.
      rewrite <- map_some_seq. reflexivity.
    - cbn [t_temps put_row w_data w_temps]. rewrite !app_length. simpl. lia.
    - apply Forall_app. split; [exact Q4|]. constructor; [|constructor].
      rewrite map_length, seq_length; reflexivity. }
  subst vals1. unfold grid_eval. cbn [g_temps g_vals g_n t_temps t_n put_row w_data w_temps].
  destruct G1 as (P1 & P2 & _). cbn [t_temps put_row w_data w_temps] in P2.
  pose proof G as (Q1 & Q2 & Q3 & Q4 & Q5 & Q6).
  rewrite Et in *. rewrite app_length in Q3. simpl in Q3.
  destruct (last_two vals) as (vs & r0 & r1 & Ev); [lia|]. subst vals.
  rewrite app_length in Q3. simpl in Q3.
  assert (L0 : length r0 = length (speed_axis (T:=R) (t_n t))).
  { rewrite speed_axis_length. rewrite Forall_forall in Q4. apply Q4. apply in_app_iff. simpl; auto. }
  assert (L1 : length r1 = length (speed_axis (T:=R) (t_n t))).
  { rewrite speed_axis_length. rewrite Forall_forall in Q4. apply Q4. apply in_app_iff. simpl; auto. }
  rewrite !map_app. cbn [map].
  set (f := fun r => lin1 (speed_axis (t_n t)) r z). fold (f r0) (f r1).
  assert (U12 : u1 < u2).
  { apply sorted_app_inv in Q2. destruct Q2 as [_ Q2]. apply (sorted_12 _ _ _ Q2). }
  assert (Hm : length vs = m) by (unfold m; lia).
  assert (N0 : nth_error (vs ++ [r0; r1]) m = Some r0) by (rewrite <- Hm; apply nth_mid).
  assert (N1 : nth_error (vs ++ [r0; r1]) (S m) = Some r1).
  { rewrite nth_error_app2 by lia. replace (S m - length vs)%nat with 1%nat by lia. reflexivity. }
  assert (Eq : lin1 (speed_axis (t_n t))
     (map (fun s => val_at t (S m) s + (val_at t (S m) s - val_at t m s) / (u2 - u1) * (x - u2)) (seq 0 (t_n t))) z
     = f r1 + (f r1 - f r0) / (u2 - u1) * (x - u2)).
  { rewrite (lin1_combo _ r0 r1 (- ((x - u2) / (u2 - u1))) (1 + (x - u2) / (u2 - u1))); auto.
    - unfold f. field. lra.
    - rewrite map_length, seq_length, speed_axis_length; auto.
    - intros j v0 v1 H0 H1.
      assert (j < t_n t)%nat by (rewrite <- (speed_axis_length (t_n t)), <- L0; apply nth_error_Some; congruence).
      rewrite nth_map_seq by auto. f_equal.
      rewrite (val_at_good t _ m j r0 v0 G N0), (val_at_good t _ (S m) j r1 v1 G N1); auto.
      field. lra. }
  rewrite Eq. rewrite <- !app_assoc. cbn [app].
  apply (lin1_extend_above l u1 u2 x (map f vs) (f r0) (f r1) y).
  - rewrite <- app_assoc in P2. exact P2.
  - rewrite map_length. lia.
Qed.

(** New entries at the ends. *)
Lemma sorted_first l a x : sortedR (a :: l) -> x < a -> forall y, In y (a :: l) -> x < y.
Proof. intros S H y [->|Hy]; auto. pose proof (sorted_hd _ _ _ S Hy). lra. Qed.

Lemma val_at_get (t : table R) i x s : wf_table t -> filled t -> (s < t_n t)%nat ->
  nth_error (t_temps t) i = Some x -> t_get (Z.of_nat (S s)) x t = Ok (Some (val_at t i s)).
Proof.
  intros W F Hs Hi. rewrite (get_nth2 t i x s W Hi).
  rewrite val_at_spec; auto. apply nth_error_Some. congruence.
Qed.

Lemma below_entry (t : table R) x u1 u2 l ext lim : wf_table t -> filled t ->
  t_temps t = u1 :: u2 :: l -> x < u1 ->
  exists t1, add_temperature x ext lim t = (t1, Ok tt) /\ forall s v1 v2, valid_speed t s ->
    t_get s u1 t = Ok (Some v1) -> t_get s u2 t = Ok (Some v2) ->
    t_get s x t1 = Ok (Some (if (ext : bool)
                             then match lim with
                                  | Some r => Rmax (line u1 v1 u2 v2 x) (v1 * r)
                                  | None => line u1 v1 u2 v2 x
                                  end
                             else v1)).
Proof.
  intros W F Et Hx. eexists. split; [eapply add_below; eauto|].
  intros s v1 v2 V H1 H2. destruct (valid_speed_nat t s V) as (j & -> & Hj).
  pose proof (add_wf t _ x ext lim _ W (add_below t u1 u2 l x ext lim W F Et Hx)) as (W1 & _).
  pose proof (get_mid t [] (t_temps t) [] (t_data t) _ x j W1 eq_refl) as Q.
  cbn [app] in Q. rewrite Q, nth_map_seq by auto. cbn [need]. f_equal.
  unfold below_spec.
  rewrite (val_at_get t 0 u1 j) in H1 by (auto; rewrite Et; auto).
  rewrite (val_at_get t 1 u2 j) in H2 by (auto; rewrite Et; auto).
  apply Ok_inj in H1, H2. inversion H1; inversion H2; clear H1 H2.
  destruct ext.
  - f_equal. assert (E : val_at t 0 j - (val_at t 1 j - val_at t 0 j) / (u2 - u1) * (u1 - x)
      = line u1 (val_at t 0 j) u2 (val_at t 1 j) x) by (unfold line, Rdiv; ring).
    rewrite E. destruct lim; reflexivity.
  - unfold val_at. pose proof (val_at_spec t 0 j W F ltac:(rewrite Et; simpl; lia) Hj) as P.
    unfold opt_at. rewrite P. reflexivity.
Qed.

Lemma above_entry (t : table R) x u1 u2 l ext lim : wf_table t -> filled t ->
  t_temps t = l ++ [u1; u2] -> u2 < x ->
  exists t1, add_temperature x ext lim t = (t1, Ok tt) /\ forall s v1 v2, valid_speed t s ->
    t_get s u1 t = Ok (Some v1) -> t_get s u2 t = Ok (Some v2) ->
    t_get s x t1 = Ok (Some (if (ext : bool)
                             then match lim with
                                  | Some r => Rmin (line u1 v1 u2 v2 x) (v2 * r)
                                  | None => line u1 v1 u2 v2 x
                                  end
                             else v2)).
Proof.
  intros W F Et Hx. eexists. split; [eapply add_above; eauto|].
  intros s v1 v2 V H1 H2. destruct (valid_speed_nat t s V) as (j & -> & Hj).
  pose proof (add_wf t _ x ext lim _ W (add_above t u1 u2 l x ext lim W F Et Hx)) as (W1 & _).
  pose proof (get_mid t (t_temps t) [] (t_data t) [] _ x j W1 (proj1 (proj2 W))) as Q.
  rewrite Q, nth_map_seq by auto. cbn [need]. f_equal.
  assert (N1 : nth_error (t_temps t) (length l) = Some u1) by (rewrite Et; apply nth_mid).
  assert (N2 : nth_error (t_temps t) (S (length l)) = Some u2).
  { rewrite Et, nth_error_app2 by lia. replace (S (length l) - length l)%nat with 1%nat by lia. reflexivity. }
  unfold above_spec.
  rewrite (val_at_get t (length l) u1 j) in H1 by auto.
  rewrite (val_at_get t (S (length l)) u2 j) in H2 by auto.
  apply Ok_inj in H1, H2. inversion H1; inversion H2; clear H1 H2.
  assert (U12 : u1 < u2).
  { destruct W as (S & _). rewrite Et in S. apply sorted_app_inv in S. destruct S as [_ S]. apply (sorted_12 _ _ _ S). }
  destruct ext.
  - f_equal. assert (E : val_at t (S (length l)) j + (val_at t (S (length l)) j - val_at t (length l) j) / (u2 - u1) * (x - u2)
      = line u1 (val_at t (length l) j) u2 (val_at t (S (length l)) j) x) by (unfold line; field; lra).
    rewrite E. destruct lim; reflexivity.
  - unfold val_at. pose proof (val_at_spec t (S (length l)) j W F ltac:(apply nth_error_Some; congruence) Hj) as P.
    unfold opt_at. rewrite P. reflexivity.
Qed.

(** * C23 *)
Lemma between_entry (t t1 : table R) x u0 u1 l l' ext lim s v0 v1 : wf_table t -> filled t ->
  t_temps t = l ++ u0 :: u1 :: l' -> u0 < x -> x < u1 -> valid_speed t s ->
  t_get s u0 t = Ok (Some v0) -> t_get s u1 t = Ok (Some v1) ->
  add_temperature x ext lim t = (t1, Ok tt) ->
  length l <> 1%nat /\
  t_get s x t1 = Ok (Some (match l with
                           | [] => v1
                           | _ => line u0 v0 (nth 1 (t_temps t) 0) v1 x
                           end)).
Proof.
  intros W F Et Hx0 Hx1 V H0 H1 Ha. destruct (valid_speed_nat t s V) as (j & -> & Hj).
  destruct (add_between t l u0 u1 l' x ext lim W F Et Hx0 Hx1) as (B1 & B2).
  assert (Ev0 : val_at t (length l) j = v0).
  { rewrite (val_at_get t (length l) u0 j) in H0 by (auto; rewrite Et; apply nth_mid). congruence. }
  assert (Ev1 : val_at t (S (length l)) j = v1).
  { rewrite (val_at_get t (S (length l)) u1 j) in H1; [congruence|auto|auto|auto|].
    rewrite Et, nth_error_app2 by lia. replace (S (length l) - length l)%nat with 1%nat by lia. reflexivity. }
  set (w := nth 1 (l ++ u0 :: x :: u1 :: l') 0) in *.
  destruct (Req_EM_T w u0) as [Ew|Ew].
  - destruct (B2 Ew ltac:(lia)) as (t' & Q). rewrite Q in Ha. inversion Ha.
  - destruct (B1 Ew) as (d1 & d2 & Ed & L1 & L2 & Q). rewrite Q in Ha. inversion Ha; subst t1; clear Ha.
    assert (Ln : length l <> 1%nat).
    { destruct l as [|a [|b l]]; try (simpl; lia). exfalso. apply Ew. reflexivity. }
    split; [exact Ln|].
    pose proof (add_wf t _ x ext lim _ W Q) as (W1 & _).
    rewrite get_mid; [|exact W1|rewrite app_length; simpl; lia].
    rewrite nth_map_seq by auto. cbn [need]. f_equal. f_equal. rewrite Ev0, Ev1.
    destruct l as [|a [|b l]]; [|simpl in Ln; lia|].
    + unfold w. simpl. field. lra.
    + unfold line. f_equal. f_equal. f_equal. f_equal. unfold w. rewrite Et. reflexivity.
Qed.

Lemma between_second (t : table R) x a u0 u1 l' ext lim : wf_table t -> filled t -> (0 < t_n t)%nat ->
  t_temps t = a :: u0 :: u1 :: l' -> u0 < x -> x < u1 ->
  exists t1, add_temperature x ext lim t = (t1, Err ZeroDivisionError).
Proof.
  intros W F Hn Et Hx0 Hx1.
  destruct (add_between t [a] u0 u1 l' x ext lim W F Et Hx0 Hx1) as (B1 & B2).
  apply B2; auto.
Qed.

(** The intended value is obtained only when the neighbouring rows agree. *)
Lemma between_intended_iff (t t1 : table R) x u0 u1 l l' ext lim s v0 v1 : wf_table t -> filled t ->
  t_temps t = l ++ u0 :: u1 :: l' -> u0 < x -> x < u1 -> valid_speed t s ->
  t_get s u0 t = Ok (Some v0) -> t_get s u1 t = Ok (Some v1) ->
  add_temperature x ext lim t = (t1, Ok tt) ->
  (t_get s x t1 = Ok (Some (line u0 v0 u1 v1 x)) <-> v0 = v1).
Proof.
  intros W F ET H0 H1 V G0 G1 E.
  destruct (between_entry t t1 x u0 u1 l l' ext lim s v0 v1 W F ET H0 H1 V G0 G1 E) as (L & G). rewrite G.
  assert (Q : forall a b : R, Ok (Some a) = Ok (Some b) <-> a = b) by (intros; split; congruence).
  rewrite Q. destruct l as [|a [|b l]]; [| exfalso; apply L; reflexivity|].
  - unfold line. split; intros H.
    + assert ((v1 - v0) * (1 - (x - u0) / (u1 - u0)) = 0).
      { unfold Rdiv in *. lra. }
      apply Rmult_integral in H2. destruct H2; [lra|].
      assert ((x - u0) / (u1 - u0) < 1); [|lra].
      apply (Rmult_lt_reg_r (u1 - u0)); [lra|]. unfold Rdiv. rewrite Rmult_assoc, Rinv_l by lra. lra.
    + subst. unfold Rdiv. ring.
  - assert (B : b < u0).
    { destruct W as (W & _). rewrite ET in W. simpl in W.
      apply StronglySorted_inv in W. destruct W as (W & _). apply StronglySorted_inv in W. destruct W as (_ & W).
      rewrite Forall_forall in W. apply W. apply in_app_iff. simpl; auto. }
    rewrite ET. change (nth 1 ((a :: b :: l) ++ u0 :: u1 :: l') 0) with b. unfold line. split; intros H.
    + assert (D : (v1 - v0) * (x - u0) * (/ (b - u0) - / (u1 - u0)) = 0) by (unfold Rdiv in H; lra).
      apply Rmult_integral in D. destruct D as [D|D].
      * apply Rmult_integral in D. lra.
      * assert (/ (b - u0) < 0) by (apply Rinv_lt_0_compat; lra).
        assert (0 < / (u1 - u0)) by (apply Rinv_0_lt_compat; lra). lra.
    + subst. unfold Rdiv. ring.
Qed.
