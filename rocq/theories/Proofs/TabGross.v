(** Net to gross conversion of the performance tables (C25). *)
From Coq Require Import Reals QArith Lra Lia List Bool Sorted ZArith.
From Verif.Base Require Import Num Res Tac.
From Verif.Model Require Import Tabular.
From Verif.Spec Require Import TabularSpec.
From Verif.Proofs Require Import Lin1 TabCells TabAdd TabInterp.
Import ListNotations.
Local Open Scope R_scope.

Definition corr (fp row : list R) : list R :=
  map (fun vp => fst vp - snd vp) (combine row fp).

Definition put1 (i j : nat) (v : R) : st (table R) unit := put_cell (Z.of_nat i) (Z.of_nat j) v.

Definition cstep (fp : list R) (i : nat) (jv : nat * option R) : st (table R) unit :=
  do v <- slift (need TypeError (snd jv)) ;;
  do p <- slift (geti fp (fst jv)) ;;
  put_cell (Z.of_nat i) (Z.of_nat (fst jv)) (v - p) ;;;
  slift (guard AssertionError (lit 0 <? v - p)%num).

Lemma put_cell_row d1 d2 row (t : table R) j v : (j < length row)%nat ->
  put_cell (Z.of_nat (length d1)) (Z.of_nat j) v (put_row d1 d2 row t)
  = (put_row d1 d2 (upd row j (Some v)) t, Ok tt).
Proof.
  intros H. unfold put_cell, put_opt, sbind, sget, slift, smod. cbn [t_data put_row w_data].
  rewrite put_data_row. apply Nat.ltb_lt in H. rewrite H. reflexivity.
Qed.

Lemma upd_mid {A} (l1 l2 : list A) a b : upd (l1 ++ a :: l2) (length l1) b = l1 ++ b :: l2.
Proof. induction l1; simpl; congruence. Qed.

Lemma cstep_run fp d1 d2 (t : table R) pre v suf fp1 p fp2 : length fp1 = length pre ->
  fp = fp1 ++ p :: fp2 ->
  cstep fp (length d1) (length pre, Some v) (put_row d1 d2 (pre ++ Some v :: suf) t)
  = (put_row d1 d2 (pre ++ Some (v - p) :: suf) t,
     if Rltb 0 (v - p) then Ok tt else Err AssertionError).
Proof.
  intros L E. unfold cstep. cbn [fst snd]. unfold sbind, slift. cbn [need].
  unfold geti. rewrite E, <- L, nth_mid. cbn [need]. rewrite L.
  rewrite put_cell_row by (rewrite app_length; simpl; lia).
  rewrite upd_mid. rewrite lit0_R. cbn [nltb nsub RNum]. destruct (Rltb 0 (v - p)); reflexivity.
Qed.

Lemma inner_ok fp d1 d2 (t : table R) suf : forall pre fp1 fp2, length fp1 = length pre ->
  fp = fp1 ++ fp2 -> length fp2 = length suf ->
  Forall (fun v => 0 < v) (corr fp2 suf) ->
  sfold (cstep fp (length d1)) (combine (seq (length pre) (length suf)) (map Some suf))
    (put_row d1 d2 (pre ++ map Some suf) t)
  = (put_row d1 d2 (pre ++ map Some (corr fp2 suf)) t, Ok tt).
Proof.
  induction suf as [|v suf IH]; intros pre fp1 fp2 L E L2 P.
  - destruct fp2; [|discriminate]. reflexivity.
  - destruct fp2 as [|p fp2]; [discriminate|]. unfold corr in P. cbn [combine map fst snd] in P.
    inversion P as [|? ? P1 P2]; subst.
    cbn [length seq map combine sfold]. unfold sbind.
    rewrite (cstep_run _ d1 d2 t pre v (map Some suf) fp1 p fp2) by auto.
    rewrite (proj2 (Rltb_true 0 (v - p)) P1).
    specialize (IH (pre ++ [Some (v - p)]) (fp1 ++ [p]) fp2).
    rewrite !app_length in IH. simpl length in IH.
    rewrite <- !app_assoc in IH. cbn [app] in IH.
    replace (length pre + 1)%nat with (S (length pre)) in IH by lia.
    rewrite IH; auto; lia.
Qed.

Lemma inner_err fp d1 d2 (t : table R) suf : forall pre fp1 fp2, length fp1 = length pre ->
  fp = fp1 ++ fp2 -> length fp2 = length suf ->
  ~ Forall (fun v => 0 < v) (corr fp2 suf) ->
  exists t', sfold (cstep fp (length d1)) (combine (seq (length pre) (length suf)) (map Some suf))
    (put_row d1 d2 (pre ++ map Some suf) t) = (t', Err AssertionError).
Proof.
  induction suf as [|v suf IH]; intros pre fp1 fp2 L E L2 P.
  - destruct fp2; [|discriminate]. exfalso. apply P. constructor.
  - destruct fp2 as [|p fp2]; [discriminate|]. subst.
    cbn [length seq map combine sfold]. unfold sbind.
    rewrite (cstep_run _ d1 d2 t pre v (map Some suf) fp1 p fp2) by auto.
    destruct (Rltb 0 (v - p)) eqn:Ev; [|eauto].
    specialize (IH (pre ++ [Some (v - p)]) (fp1 ++ [p]) fp2).
    rewrite !app_length in IH. simpl length in IH.
    rewrite <- !app_assoc in IH. cbn [app] in IH.
    replace (length pre + 1)%nat with (S (length pre)) in IH by lia.
    apply IH; auto; [lia|]. intros Q. apply P. unfold corr. cbn [combine map fst snd].
    constructor; auto. apply Rltb_true; auto.
Qed.

Definition ostep (fp : list R) (ir : nat * list (option R)) : st (table R) unit :=
  sfold (cstep fp (fst ir)) (enumerate (snd ir)).

Lemma put_row_eq d1 d2 row (t : table R) : w_data (d1 ++ row :: d2) t = put_row d1 d2 row t.
Proof. reflexivity. Qed.

Lemma ostep_ok fp d1 d2 (t : table R) row : length row = length fp ->
  Forall (fun v => 0 < v) (corr fp row) ->
  ostep fp (length d1, map Some row) (w_data (d1 ++ map Some row :: d2) t)
  = (w_data (d1 ++ map Some (corr fp row) :: d2) t, Ok tt).
Proof.
  intros L P. unfold ostep. cbn [fst snd]. unfold enumerate. rewrite map_length.
  apply (inner_ok fp d1 d2 t row [] [] fp); auto.
Qed.
Lemma ostep_err fp d1 d2 (t : table R) row : length row = length fp ->
  ~ Forall (fun v => 0 < v) (corr fp row) ->
  exists t', ostep fp (length d1, map Some row) (w_data (d1 ++ map Some row :: d2) t)
  = (t', Err AssertionError).
Proof.
  intros L P. unfold ostep. cbn [fst snd]. unfold enumerate. rewrite map_length.
  apply (inner_err fp d1 d2 t row [] [] fp); auto.
Qed.

Definition allpos (fp : list R) (vals : list (list R)) : Prop :=
  Forall (fun r => Forall (fun v => 0 < v) (corr fp r)) vals.

Lemma outer_ok fp (t : table R) rest : Forall (fun r => length r = length fp) rest ->
  allpos fp rest -> forall d1,
  sfold (ostep fp) (combine (seq (length d1) (length rest)) (map (map Some) rest))
    (w_data (d1 ++ map (map Some) rest) t)
  = (w_data (d1 ++ map (map Some) (map (corr fp) rest)) t, Ok tt).
Proof.
  induction rest as [|row rest IH]; intros L P d1; [reflexivity|].
  inversion L; inversion P; subst.
  cbn [length seq map combine sfold]. unfold sbind. rewrite ostep_ok by auto.
  specialize (IH ltac:(auto) ltac:(auto) (d1 ++ [map Some (corr fp row)])).
  rewrite app_length in IH. simpl length in IH. rewrite <- !app_assoc in IH. cbn [app] in IH.
  replace (length d1 + 1)%nat with (S (length d1)) in IH by lia. exact IH.
Qed.

Lemma pos_dec l : {Forall (fun v => 0 < v) l} + {~ Forall (fun v => 0 < v) l}.
Proof. apply Forall_dec. intros x. apply Rlt_dec. Qed.

Lemma outer_err fp (t : table R) rest : Forall (fun r => length r = length fp) rest ->
  ~ allpos fp rest -> forall d1,
  exists t', sfold (ostep fp) (combine (seq (length d1) (length rest)) (map (map Some) rest))
    (w_data (d1 ++ map (map Some) rest) t) = (t', Err AssertionError).
Proof.
  induction rest as [|row rest IH]; intros L P d1; [exfalso; apply P; constructor|].
  inversion L; subst.
  cbn [length seq map combine sfold]. unfold sbind.
  destruct (pos_dec (corr fp row)) as [Q|Q].
  - rewrite ostep_ok by auto.
    specialize (IH ltac:(auto) ltac:(intros Q'; apply P; constructor; auto) (d1 ++ [map Some (corr fp row)])).
    rewrite app_length in IH. simpl length in IH. rewrite <- !app_assoc in IH. cbn [app] in IH.
    replace (length d1 + 1)%nat with (S (length d1)) in IH by lia. exact IH.
  - destruct (ostep_err fp d1 (map (map Some) rest) t row ltac:(auto) Q) as (t' & E). rewrite E. eauto.
Qed.

Lemma w_data_self (t : table R) : w_data (t_data t) t = t.
Proof. destruct t; reflexivity. Qed.

Lemma corr_length fp row : length row = length fp -> length (corr fp row) = length fp.
Proof. intros H. unfold corr. rewrite map_length, combine_length. lia. Qed.

Definition corrected (fp : list R) (t : table R) vals : table R :=
  w_interp (Some (mkGrid (t_temps t) (t_n t) (map (corr fp) vals)))
    (w_data (map (map Some) (map (corr fp) vals)) t).

Lemma apply_ok fp (t : table R) vals : good t vals -> length fp = t_n t -> allpos fp vals ->
  apply_fan_power_correction fp t = (corrected fp t vals, Ok tt)
  /\ good (w_data (map (map Some) (map (corr fp) vals)) t) (map (corr fp) vals).
Proof.
  intros G L P. assert (G' := G). destruct G' as (H1 & H2 & H3 & H4 & H5 & H6).
  assert (H4' : Forall (fun r => length r = length fp) vals).
  { eapply Forall_impl; [|exact H4]. intros r; simpl; congruence. }
  assert (G2 : good (w_data (map (map Some) (map (corr fp) vals)) t) (map (corr fp) vals)).
  { split; [reflexivity|]. split; [auto|]. split; [rewrite map_length; auto|]. split; [|auto].
    apply Forall_forall. intros r Hr. apply in_map_iff in Hr. destruct Hr as (q & <- & Hq).
    cbn [t_n w_data]. rewrite <- L. apply corr_length. rewrite Forall_forall in H4'. auto. }
  split; auto.
  unfold apply_fan_power_correction. unfold sbind at 1. unfold sget. unfold sbind at 1. unfold slift at 1.
  rewrite (proj2 (Nat.eqb_eq _ _) L). cbn [guard]. unfold sbind at 1.
  pose proof (outer_ok fp t vals H4' P []) as O. cbn [app length] in O.
  rewrite <- H1, w_data_self in O.
  unfold enumerate at 2.
  replace (length (t_data t)) with (length vals) by (rewrite H1, map_length; auto).
  change (sfold _ (combine (seq 0 (length vals)) (t_data t)) t) with
    (sfold (ostep fp) (combine (seq 0 (length vals)) (t_data t)) t).
  rewrite O. apply interpolated_good in G2. exact G2.
Qed.

Lemma apply_err fp (t : table R) vals : good t vals -> length fp <> t_n t \/ ~ allpos fp vals ->
  exists t', apply_fan_power_correction fp t = (t', Err AssertionError).
Proof.
  intros G P. assert (G' := G). destruct G' as (H1 & H2 & H3 & H4 & H5 & H6).
  unfold apply_fan_power_correction. unfold sbind at 1. unfold sget. unfold sbind at 1. unfold slift at 1.
  destruct (Nat.eqb (length fp) (t_n t)) eqn:L; [|cbn [guard]; eauto].
  apply Nat.eqb_eq in L. destruct P as [P|P]; [congruence|].
  cbn [guard]. unfold sbind at 1.
  assert (H4' : Forall (fun r => length r = length fp) vals).
  { eapply Forall_impl; [|exact H4]. intros r; simpl; congruence. }
  destruct (outer_err fp t vals H4' P []) as (t' & O). cbn [app length] in O.
  rewrite <- H1, w_data_self in O.
  unfold enumerate at 2.
  replace (length (t_data t)) with (length vals) by (rewrite H1, map_length; auto).
  change (sfold _ (combine (seq 0 (length vals)) (t_data t)) t) with
    (sfold (ostep fp) (combine (seq 0 (length vals)) (t_data t)) t).
  rewrite O. eauto.
Qed.

(** The fan power at a speed. *)
Definition fan_at (fp : list R) (s : R) : R := lin1 (speed_axis (length fp)) fp s.

Lemma fan_at_linear fp : piecewise_linear_in_speed fp (fan_at fp).
Proof.
  unfold piecewise_linear_in_speed, fan_at. split; [|split].
  - intros k v H. assert (k < length fp)%nat by (apply nth_error_Some; congruence).
    apply (lin1_node _ _ k); auto using speed_axis_sorted, speed_axis_nth.
    rewrite speed_axis_length; auto.
  - intros H s. destruct fp as [|a [|b fp]]; try discriminate. reflexivity.
  - intros k a b Ha Hb s H1 H2. assert (S k < length fp)%nat by (apply nth_error_Some; congruence).
    rewrite <- line_chord. apply (lin1_interval _ _ k); auto using speed_axis_sorted.
    + rewrite speed_axis_length; auto.
    + apply speed_axis_nth; lia.
    + apply speed_axis_nth; lia.
    + rewrite speed_axis_length. auto.
Qed.

Lemma corrected_calc fp (t : table R) vals s x : good t vals -> length fp = t_n t ->
  calculate s x (corrected fp t vals)
  = Ok (grid_eval (mkGrid (t_temps t) (t_n t) vals) s x - fan_at fp s).
Proof.
  intros (H1 & H2 & H3 & H4 & H5 & H6) L. unfold corrected. rewrite calculate_interp. f_equal.
  unfold grid_eval. cbn [g_temps g_n g_vals]. rewrite map_map.
  unfold Rminus. rewrite <- (lin1_shift _ _ (- fan_at fp s)).
  - f_equal. rewrite map_map. apply map_ext_in. intros r Hr.
    assert (Lr : length r = t_n t) by (rewrite Forall_forall in H4; auto).
    rewrite (lin1_combo _ r fp 1 (-1)).
    + unfold fan_at. rewrite L. lra.
    + rewrite speed_axis_length; auto.
    + rewrite speed_axis_length; auto.
    + rewrite corr_length, speed_axis_length; congruence.
    + intros j v0 v1 E0 E1. unfold corr.
      rewrite (map_nth_error _ j (combine r fp) (d := (v0, v1))).
      * cbn [fst snd]. f_equal. lra.
      * clear - E0 E1. revert j fp E0 E1.
        induction r as [|x r IH]; intros [|j] [|y fp] E0 E1; try discriminate; simpl in *; auto. congruence.
  - auto.
  - rewrite map_length; auto.
Qed.

Lemma allpos_get fp (t : table R) vals : good t vals -> length fp = t_n t ->
  (allpos fp vals <->
   forall k p x v, nth_error fp k = Some p -> t_get (Z.of_nat (S k)) x t = Ok (Some v) -> 0 < v - p).
Proof.
  intros G L. pose proof (good_wf t vals G) as (W & F). split.
  - intros P k p x v Hp Hv.
    assert (V : valid_speed t (Z.of_nat (S k))).
    { unfold valid_speed. assert (k < length fp)%nat by (apply nth_error_Some; congruence). lia. }
    destruct (get_good t vals _ _ _ G V Hv) as (i & j & r & E & Hj & Hi & Hr & Hv').
    assert (j = k) by lia. subst j.
    unfold allpos in P. rewrite Forall_forall in P. specialize (P r (nth_error_In _ _ Hr)).
    rewrite Forall_forall in P. apply P. unfold corr. apply in_map_iff. exists (v, p). split; auto.
    clear - Hv' Hp. revert k fp Hv' Hp. induction r as [|a r IH]; intros [|k] [|b fp] Hv Hp; try discriminate; simpl in *.
    + left. congruence.
    + right. eauto.
  - intros H. unfold allpos. apply Forall_forall. intros r Hr. apply Forall_forall. intros d Hd.
    unfold corr in Hd. apply in_map_iff in Hd. destruct Hd as ((v & p) & <- & Hd).
    cbn [fst snd]. apply In_nth_error in Hr. destruct Hr as (i & Hi).
    apply In_nth_error in Hd. destruct Hd as (k & Hk).
    assert (Ek : nth_error r k = Some v /\ nth_error fp k = Some p).
    { clear - Hk. revert r fp Hk. induction k as [|k IH]; intros [|a r] [|b fp] H; try discriminate; simpl in *; auto.
      inversion H; auto. }
    destruct Ek as [Ev Ep].
    destruct (nth_error (t_temps t) i) as [x|] eqn:Ex.
    + apply (H k p x); auto. rewrite (get_nth2 t i x k W Ex). rewrite (good_nth t vals) by auto.
      rewrite Hi, Ev. reflexivity.
    + apply nth_error_None in Ex. destruct G as (_ & _ & G3 & _).
      assert (i < length vals)%nat by (apply nth_error_Some; congruence). lia.
Qed.

(** ** The four tables *)
Definition ready (t : table R) : Prop := set_interpolator t = (t, Ok tt).

Lemma ready_good (t : table R) : ready t -> exists vals, good t vals /\
  forall s x, calculate s x t = Ok (grid_eval (mkGrid (t_temps t) (t_n t) vals) s x).
Proof.
  intros H. destruct (interpolated_inv t t H) as (vals & G & E). exists vals. split; auto.
  intros. apply (interpolated_calc t t); auto.
Qed.

Lemma allpos_dec fp vals : {allpos fp vals} + {~ allpos fp vals}.
Proof. apply Forall_dec. intros r. apply pos_dec. Qed.

(** One table: either every corrected value is positive and the map is shifted,
    or an AssertionError. *)
Lemma apply_cases fp (t : table R) : ready t ->
  (exists t', apply_fan_power_correction fp t = (t', Ok tt) /\ ready t'
     /\ length fp = t_n t
     /\ (forall k p x v, nth_error fp k = Some p -> t_get (Z.of_nat (S k)) x t = Ok (Some v) -> 0 < v - p)
     /\ forall s x v, calculate s x t = Ok v -> calculate s x t' = Ok (v - fan_at fp s))
  \/ (exists t', apply_fan_power_correction fp t = (t', Err AssertionError)
     /\ ~ (length fp = t_n t /\
       forall k p x v, nth_error fp k = Some p -> t_get (Z.of_nat (S k)) x t = Ok (Some v) -> 0 < v - p)).
Proof.
  intros H. destruct (ready_good t H) as (vals & G & C).
  destruct (Nat.eq_dec (length fp) (t_n t)) as [L|L].
  - destruct (allpos_dec fp vals) as [P|P].
    + left. destruct (apply_ok fp t vals G L P) as (A & G2).
      eexists. split; [exact A|]. split; [|split; [|split]]; auto.
      * unfold ready. unfold corrected. apply interpolated_good in G2.
        unfold interpolated in G2. cbn [t_temps t_n w_data] in G2.
        clear - G2. unfold set_interpolator in *. unfold sbind, sget, slift, smod in *.
        cbn [t_data t_temps t_n w_interp w_data] in *.
        destruct (values_of _); [|inversion G2].
        match type of G2 with context [guard _ ?b] => destruct b end; [|inversion G2].
        cbn [guard] in *. inversion G2. reflexivity.
      * apply (allpos_get fp t vals G L). auto.
      * intros s x v E. rewrite C in E. apply Ok_inj in E. subst v. apply corrected_calc; auto.
    + right. destruct (apply_err fp t vals G (or_intror P)) as (t' & E). exists t'. split; auto.
      intros [_ Q]. apply P. apply (allpos_get fp t vals G L). auto.
  - right. destruct (apply_err fp t vals G (or_introl L)) as (t' & E). exists t'. split; auto. tauto.
Qed.

Lemma fan_at_opp fp s : fan_at (map Ropp fp) s = - fan_at fp s.
Proof.
  unfold fan_at. rewrite map_length.
  rewrite (lin1_combo _ fp fp (-1) 0); [lra|..]; rewrite ?map_length, ?speed_axis_length; auto.
  intros j v0 v1 E0 E1. rewrite (map_nth_error _ _ _ E0). f_equal. lra.
Qed.

Lemma segment_of (n : nat) s : (2 <= n)%nat -> exists k, (S k < n)%nat /\
  (k = 0%nat \/ INR (S k) <= s) /\ (S (S k) = n \/ s <= INR (S (S k))).
Proof.
  induction n as [|n IH]; intros H; [lia|].
  destruct (Nat.eq_dec n 1) as [->|N]; [exists 0%nat; split; [lia|auto]|].
  destruct (Rle_dec s (INR n)) as [L|L].
  - destruct IH as (k & K1 & K2 & K3); [lia|]. exists k. split; [lia|]. split; auto.
    destruct K3 as [<-|K3]; auto.
  - exists (n - 1)%nat. split; [lia|]. replace (S (n - 1)) with n by lia. split; [right; lra|left; auto].
Qed.

Lemma pl_unique p f : p <> [] -> piecewise_linear_in_speed p f -> forall s, f s = fan_at p s.
Proof.
  intros Hn (A1 & A2 & A3) s. destruct (fan_at_linear p) as (B1 & B2 & B3).
  destruct (Nat.eq_dec (length p) 1) as [L|L].
  - destruct p as [|v [|? ?]]; try discriminate. rewrite A2, B2 by auto.
    change 1 with (INR 1). rewrite (A1 0%nat v eq_refl), (B1 0%nat v eq_refl). reflexivity.
  - destruct (segment_of (length p) s) as (k & K1 & K2 & K3).
    { destruct p as [|? [|? ?]]; simpl in *; congruence || lia. }
    destruct (nth_error p k) as [a|] eqn:Ea; [|apply nth_error_None in Ea; lia].
    destruct (nth_error p (S k)) as [b|] eqn:Eb; [|apply nth_error_None in Eb; lia].
    rewrite (A3 k a b Ea Eb s K2 K3), (B3 k a b Ea Eb s K2 K3). reflexivity.
Qed.

Lemma apply_cases' fp f (t : table R) : up_to_date t -> piecewise_linear_in_speed fp f ->
  (correctable fp t /\ exists t', apply_fan_power_correction fp t = (t', Ok tt) /\ up_to_date t' /\
     forall s x v, calculate s x t = Ok v -> calculate s x t' = Ok (v - f s))
  \/ (~ correctable fp t /\ exists t', apply_fan_power_correction fp t = (t', Err AssertionError)).
Proof.
  intros U P. destruct (apply_cases fp t U) as [(t' & E & R & L & Q & C)|(t' & E & Q)].
  - left. split.
    + split; auto. intros k p x v H1 H2. specialize (Q k p x v H1 H2). lra.
    + exists t'. split; auto. split; auto. intros s x v H. rewrite (pl_unique fp f); auto.
      intros ->. destruct (ready_good t U) as (vals & (_ & _ & _ & _ & _ & N) & _). simpl in L. lia.
  - right. split; [|eauto]. intros (L & Q'). apply Q. split; auto. intros k p x v H1 H2.
    specialize (Q' k p x v H1 H2). lra.
Qed.

Lemma pl_opp p f : piecewise_linear_in_speed p f -> piecewise_linear_in_speed (map Ropp p) (fun s => - f s).
Proof.
  intros (A1 & A2 & A3). split; [|split].
  - intros k v H. rewrite nth_error_map in H. destruct (nth_error p k) eqn:E; inversion H; subst.
    rewrite (A1 k r E). reflexivity.
  - intros L s. rewrite map_length in L. rewrite (A2 L s). reflexivity.
  - intros k a b Ha Hb s. rewrite map_length. intros H1 H2. rewrite nth_error_map in Ha, Hb.
    destruct (nth_error p k) eqn:Ea; inversion Ha; subst. destruct (nth_error p (S k)) eqn:Eb; inversion Hb; subst.
    rewrite (A3 k r r0 Ea Eb s H1 H2). unfold line, Rdiv. ring.
Qed.

(** C25 *)
Theorem make_gross_shift cfp hfp fc fh (p : perf R) :
  up_to_date (p_cc p) -> up_to_date (p_cp p) -> up_to_date (p_hc p) -> up_to_date (p_hp p) ->
  piecewise_linear_in_speed cfp fc -> piecewise_linear_in_speed hfp fh ->
  let admissible := correctable (map Ropp cfp) (p_cc p) /\ correctable cfp (p_cp p)
                    /\ correctable hfp (p_hc p) /\ correctable hfp (p_hp p) in
  (admissible /\ exists p', make_gross cfp hfp p = (p', Ok tt) /\
     forall s x v,
       (cooling_capacity p s x = Ok v -> cooling_capacity p' s x = Ok (v + fc s)) /\
       (cooling_power p s x = Ok v -> cooling_power p' s x = Ok (v - fc s)) /\
       (heating_capacity p s x = Ok v -> heating_capacity p' s x = Ok (v - fh s)) /\
       (heating_power p s x = Ok v -> heating_power p' s x = Ok (v - fh s)))
  \/ (~ admissible /\ exists p', make_gross cfp hfp p = (p', Err AssertionError)).
Proof.
  intros U1 U2 U3 U4 PC PH admissible. destruct p as [t1 t2 t3 t4 nc nh]. cbn [p_cc p_cp p_hc p_hp] in *.
  unfold make_gross, on_cc, on_cp, on_hc, on_hp, sbind. cbn [p_cc p_cp p_hc p_hp p_nc p_nh].
  change (map nopp cfp) with (map Ropp cfp).
  destruct (apply_cases' (map Ropp cfp) _ t1 U1 (pl_opp _ _ PC)) as [(C1 & t1' & E1 & V1 & F1)|(C1 & t1' & E1)]; rewrite E1; cbn [p_cc p_cp p_hc p_hp p_nc p_nh].
  2:{ right. split; [unfold admissible; tauto|eauto]. }
  destruct (apply_cases' cfp _ t2 U2 PC) as [(C2 & t2' & E2 & V2 & F2)|(C2 & t2' & E2)]; rewrite E2; cbn [p_cc p_cp p_hc p_hp p_nc p_nh].
  2:{ right. split; [unfold admissible; tauto|eauto]. }
  destruct (apply_cases' hfp _ t3 U3 PH) as [(C3 & t3' & E3 & V3 & F3)|(C3 & t3' & E3)]; rewrite E3; cbn [p_cc p_cp p_hc p_hp p_nc p_nh].
  2:{ right. split; [unfold admissible; tauto|eauto]. }
  destruct (apply_cases' hfp _ t4 U4 PH) as [(C4 & t4' & E4 & V4 & F4)|(C4 & t4' & E4)]; rewrite E4; cbn [p_cc p_cp p_hc p_hp p_nc p_nh].
  2:{ right. split; [unfold admissible; tauto|eauto]. }
  left. split; [unfold admissible; tauto|]. eexists. split; [reflexivity|].
  unfold cooling_capacity, cooling_power, heating_capacity, heating_power. cbn [p_cc p_cp p_hc p_hp].
  intros s x v. split; [|split; [|split]]; intros H; auto.
  rewrite (F1 s x v H). f_equal. lra.
Qed.
