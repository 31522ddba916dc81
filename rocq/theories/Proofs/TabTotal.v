(** The constructions from ratings succeed for admissible inputs (C26). *)
From Coq Require Import Reals QArith Lra Lia List Bool Sorted ZArith.
From Verif.Base Require Import Num Res Tac.
From Verif.Model Require Import Units Util Curves Tabular.
From Verif.Spec Require Import TabularSpec.
From Verif.Proofs Require Import UtilProofs UnitsR Lin1 TabCells TabAdd TabInterp TabBuild.
Import ListNotations.
Local Open Scope R_scope.

Definition kt (k : table_kind) (n : nat) (T : list R) (t : table R) (l : list cellv) : Prop :=
  knows k n t l /\ t_temps t = T.

Lemma kt_setter k n T t t' l s x m : setter s x m -> ex m t = Ok t' -> kt k n T t l ->
  (1 <= s <= Z.of_nat n)%Z -> t_temps t' = T.
Proof.
  intros S E ((W & K & N & H) & ET) V. apply ex_ok in E.
  assert (V' : valid_speed t s) by (unfold valid_speed; rewrite N; auto).
  destruct (setter_frame s x m t t' _ W V' S E) as (W' & C1 & _). congruence.
Qed.

Lemma kt_tidx k n T t l x : kt k n T t l -> In x T -> exists i, tidx t x = Ok (Z.of_nat i)
  /\ nth_error (t_temps t) i = Some x.
Proof.
  intros (Kn & ET) Hx. rewrite <- ET in Hx. destruct (index_of_In _ _ Hx) as (i & Hi).
  exists i. split; [apply tidx_ok; eauto|apply index_of_ok; auto].
Qed.

Lemma kt_put k n T t l x i s v : kt k n T t l -> tidx t x = Ok (Z.of_nat i) ->
  (1 <= s <= Z.of_nat n)%Z -> exists t', put_cell (Z.of_nat i) (s - 1) v t = (t', Ok tt).
Proof.
  intros ((W & K & N & H) & ET) Hi V.
  pose proof (tidx_range t x _ W Hi) as Rg.
  assert (V' : valid_speed t s) by (unfold valid_speed; rewrite N; auto).
  destruct (set_total s x v t W) as (t' & Q); auto.
  - apply tidx_ok in Hi. destruct Hi as (j & _ & Hj). apply index_of_ok in Hj. eapply nth_error_In; eauto.
  - unfold t_set, sbind, sget, slift in Q. rewrite Hi in Q. eauto.
Qed.

Lemma kt_cell k n T t l s x v i : kt k n T t l -> In (s, x, v) l -> tidx t x = Ok i ->
  cell t i (s - 1) = Ok v.
Proof.
  intros ((W & K & N & H) & ET) Hin Hi. destruct (H _ _ _ Hin) as (_ & G).
  apply (t_get_some s x t v i Hi). auto.
Qed.

Lemma kt_In k n T t l s x v : kt k n T t l -> In (s, x, v) l -> In x T.
Proof. intros ((W & K & N & H) & ET) Hin. destruct (H _ _ _ Hin) as (_ & G). rewrite <- ET. eapply get_In; eauto. Qed.

Lemma tot_set k n T t l s x v : kt k n T t l -> In x T -> (1 <= s <= Z.of_nat n)%Z ->
  (forall v, ~ In (s, x, v) l) ->
  exists t', ex (t_set s x v) t = Ok t' /\ kt k n T t' ((s, x, v) :: l).
Proof.
  intros Kt Hx V D. assert (Kt' := Kt). destruct Kt' as (Kn & ET).
  destruct (kt_tidx _ _ _ _ _ _ Kt Hx) as (i & Hi & _).
  destruct (kt_put k n T t l x i s v Kt Hi V) as (t' & Q).
  assert (E : ex (t_set s x v) t = Ok t').
  { apply ex_ok. unfold t_set, sbind, sget, slift. rewrite Hi. auto. }
  exists t'. split; auto. split; [eapply knows_set; eauto|exact (kt_setter k n T t t' l s x _ (set_value s x v) E Kt V)].
Qed.

Lemma tot_ratio k n T t l s x r m : kt k n T t l -> (1 <= s < Z.of_nat n)%Z ->
  In (Z.of_nat n, x, m) l -> (forall v, ~ In (s, x, v) l) ->
  exists t', ex (set_by_ratio s x r) t = Ok t' /\ kt k n T t' ((s, x, m * r) :: l).
Proof.
  intros Kt V Hin D. assert (Kt' := Kt). destruct Kt' as (Kn & ET).
  destruct (kt_tidx _ _ _ _ _ x Kt (kt_In _ _ _ _ _ _ _ _ Kt Hin)) as (i & Hi & _).
  destruct (kt_put k n T t l x i s (m * r) Kt Hi ltac:(lia)) as (t' & Q).
  assert (E : ex (set_by_ratio s x r) t = Ok t').
  { apply ex_ok. unfold set_by_ratio, sbind, sget, slift. rewrite Hi.
    assert (N : t_n t = n) by (destruct Kn as (_ & _ & N & _); auto). rewrite N.
    replace (s - 1 =? Z.of_nat n - 1)%Z with false by (symmetry; apply Z.eqb_neq; lia).
    rewrite (kt_cell k n T t l _ x m _ Kt Hin Hi). exact Q. }
  exists t'. split; auto. split; [eapply knows_ratio; eauto|].
  apply (kt_setter k n T t t' l s x _ (set_ratio s x r) E Kt). lia.
Qed.

Lemma tot_ratio_max k n T t l s x r m : kt k n T t l -> s = Z.of_nat n -> (2 <= n)%nat ->
  In (s - 1, x, m)%Z l -> r <> 0 -> (forall v, ~ In (s, x, v) l) ->
  exists t', ex (set_by_ratio s x r) t = Ok t' /\ kt k n T t' ((s, x, m / r) :: l).
Proof.
  intros Kt Es Hn Hin Hr D. assert (Kt' := Kt). destruct Kt' as (Kn & ET).
  destruct (kt_tidx _ _ _ _ _ x Kt (kt_In _ _ _ _ _ _ _ _ Kt Hin)) as (i & Hi & _).
  destruct (kt_put k n T t l x i s (m / r) Kt Hi ltac:(lia)) as (t' & Q).
  assert (E : ex (set_by_ratio s x r) t = Ok t').
  { apply ex_ok. unfold set_by_ratio, sbind, sget, slift. rewrite Hi.
    assert (N : t_n t = n) by (destruct Kn as (_ & _ & N & _); auto). rewrite N.
    replace (s - 1 =? Z.of_nat n - 1)%Z with true by (symmetry; apply Z.eqb_eq; lia).
    rewrite (kt_cell k n T t l _ x m _ Kt Hin Hi). rewrite pydiv_ok by auto. exact Q. }
  exists t'. split; auto. split; [eapply knows_ratio_max; eauto|].
  apply (kt_setter k n T t t' l s x _ (set_ratio s x r) E Kt). lia.
Qed.

Lemma tot_maint k n T t l s x ref r v : kt k n T t l -> k <> BaseTable -> (1 <= s <= Z.of_nat n)%Z ->
  In x T -> In (s, ref, v) l -> x <> ref -> r <> 0 -> (forall v, ~ In (s, x, v) l) ->
  exists t', ex (set_by_maintenance s x ref r) t = Ok t' /\
    kt k n T t' ((s, x, match k with
                       | CoolingTable => if Rlt_dec ref x then v * r else v / r
                       | _ => if Rlt_dec x ref then v * r else v / r end) :: l).
Proof.
  intros Kt Hk V Hx Hin Hne Hr D. assert (Kt' := Kt). destruct Kt' as (Kn & ET).
  destruct (kt_tidx _ _ _ _ _ x Kt Hx) as (i & Hi & _).
  destruct (kt_tidx _ _ _ _ _ ref Kt (kt_In _ _ _ _ _ _ _ _ Kt Hin)) as (j & Hj & _).
  assert (E : exists t', ex (set_by_maintenance s x ref r) t = Ok t').
  { assert (K : t_kind t = k) by (destruct Kn as (_ & K & _); auto).
    destruct (kt_put k n T t l x i s (v * r) Kt Hi ltac:(lia)) as (t1 & Q1).
    destruct (kt_put k n T t l x i s (v / r) Kt Hi ltac:(lia)) as (t2 & Q2).
    assert (Q : set_by_maintenance s x ref r t = (t1, Ok tt) \/ set_by_maintenance s x ref r t = (t2, Ok tt)).
    { unfold set_by_maintenance, sbind, sget, slift. rewrite K.
      destruct k; [congruence| |]; rewrite Hi, Hj, (kt_cell _ n T t l s ref v _ Kt Hin Hj), (pydiv_ok v r Hr).
      - destruct (Z.of_nat j <? Z.of_nat i)%Z; auto.
      - destruct (Z.of_nat i <? Z.of_nat j)%Z; auto. }
    destruct Q as [Q|Q]; eexists; apply ex_ok; eauto. }
  destruct E as (t' & E). exists t'. split; auto. split; [eapply knows_maint; eauto|].
  apply (kt_setter k n T t t' l s x _ (set_maint s x ref r) E Kt V).
Qed.

Lemma next_idx (T1 T2 : list R) t x y i : wf_table t -> t_temps t = T1 ++ x :: y :: T2 ->
  tidx t x = Ok (Z.of_nat i) -> tidx t y = Ok (Z.of_nat i + 1)%Z.
Proof.
  intros (W1 & _) E H.
  assert (N : nth_error (t_temps t) (length T1) = Some x) by (rewrite E; apply nth_mid).
  assert (N2 : nth_error (t_temps t) (S (length T1)) = Some y).
  { rewrite E, nth_error_app2 by lia. replace (S (length T1) - length T1)%nat with 1%nat by lia. reflexivity. }
  unfold tidx in *. rewrite (proj2 (index_of_sorted _ _ _ W1) N) in H.
  rewrite (proj2 (index_of_sorted _ _ _ W1) N2). cbn [rbind] in *. apply Ok_inj in H. f_equal. lia.
Qed.

Lemma tot_interp k n T T1 T2 t l s x y v10 v12 v20 v21 v22 : kt k n T t l ->
  T = T1 ++ x :: y :: T2 -> (2 <= s)%Z -> (s + 1 <= Z.of_nat n)%Z ->
  In (s - 1, x, v10)%Z l -> In (s + 1, x, v12)%Z l ->
  In (s - 1, y, v20)%Z l -> In (s, y, v21) l -> In (s + 1, y, v22)%Z l ->
  v22 <> v20 -> (forall v, ~ In (s, x, v) l) ->
  exists t', ex (set_by_interpolation s x) t = Ok t' /\
    kt k n T t' ((s, x, v10 + (v21 - v20) / (v22 - v20) * (v12 - v10)) :: l).
Proof.
  intros Kt ET0 V1 V2 I10 I12 I20 I21 I22 Hd D. assert (Kt' := Kt). destruct Kt' as (Kn & ET).
  assert (W : wf_table t) by (destruct Kn; auto).
  assert (Hx : In x T) by (subst; apply in_app_iff; simpl; auto).
  destruct (kt_tidx _ _ _ _ _ x Kt Hx) as (i & Hi & _).
  assert (Hy : tidx t y = Ok (Z.of_nat i + 1)%Z) by (eapply next_idx; eauto; rewrite ET; eauto).
  destruct (kt_put k n T t l x i s (v10 + (v21 - v20) / (v22 - v20) * (v12 - v10)) Kt Hi ltac:(lia)) as (t' & Q).
  assert (E' : set_by_interpolation s x t = (t', Ok tt)).
  { unfold set_by_interpolation, sbind, sget, slift. rewrite Hi.
    rewrite (kt_cell k n T t l _ x v10 _ Kt I10 Hi).
    rewrite (kt_cell k n T t l _ y v21 _ Kt I21 Hy), (kt_cell k n T t l _ y v20 _ Kt I20 Hy).
    replace (s - 1 + 1)%Z with (s + 1 - 1)%Z by lia.
    rewrite (kt_cell k n T t l _ y v22 _ Kt I22 Hy). cbn [nsub RNum].
    rewrite pydiv_ok by lra.
    rewrite (kt_cell k n T t l _ x v12 _ Kt I12 Hi). exact Q. }
  assert (E : ex (set_by_interpolation s x) t = Ok t') by (apply ex_ok; auto).
  assert (V : (1 <= s <= Z.of_nat n)%Z) by lia.
  exists t'. split; auto. split.
  - apply knows_more; [exact (knows_setter k n t t' l s x _ (set_interp s x) E Kn V D)|auto|].
    unfold set_by_interpolation, sbind, sget, slift in E'. rewrite Hi in E'.
    rewrite (kt_cell k n T t l _ x v10 _ Kt I10 Hi) in E'.
    rewrite (kt_cell k n T t l _ y v21 _ Kt I21 Hy), (kt_cell k n T t l _ y v20 _ Kt I20 Hy) in E'.
    replace (s - 1 + 1)%Z with (s + 1 - 1)%Z in E' by lia.
    rewrite (kt_cell k n T t l _ y v22 _ Kt I22 Hy) in E'. cbn [nsub RNum] in E'.
    rewrite pydiv_ok in E' by lra.
    rewrite (kt_cell k n T t l _ x v12 _ Kt I12 Hi) in E'.
    assert (F : t_set s x (v10 + (v21 - v20) / (v22 - v20) * (v12 - v10)) t = (t', Ok tt)).
    { unfold t_set, sbind, sget, slift. rewrite Hi. exact E'. }
    eapply set_get; eauto.
  - exact (kt_setter k n T t t' l s x _ (set_interp s x) E Kt V).
Qed.

(** All cells are known. *)
Definition full (n : nat) (T : list R) (l : list cellv) : Prop :=
  forall s x, (1 <= s <= Z.of_nat n)%Z -> In x T -> exists v, In (s, x, v) l.

Lemma full_filled k n T t l : kt k n T t l -> full n T l -> filled t.
Proof.
  intros ((W & K & N & H) & ET) Fu. unfold filled. apply Forall_forall. intros row Hr.
  apply In_nth_error in Hr. destruct Hr as (i & Hi). apply Forall_forall. intros o Ho.
  apply In_nth_error in Ho. destruct Ho as (j & Hj).
  assert (W' := W). destruct W' as (W1 & W2 & W3).
  assert (i < length (t_temps t))%nat by (rewrite <- W2; apply nth_error_Some; congruence).
  destruct (nth_error (t_temps t) i) as [x|] eqn:Ex; [|apply nth_error_None in Ex; lia].
  assert (Lj : (j < n)%nat).
  { rewrite Forall_forall in W3. rewrite <- N, <- (W3 row) by (eapply nth_error_In; eauto).
    apply nth_error_Some. congruence. }
  destruct (Fu (Z.of_nat (S j)) x) as (v & Hv); [lia|rewrite <- ET; eapply nth_error_In; eauto|].
  destruct (H _ _ _ Hv) as (_ & G). rewrite (get_nth2 t i x j W Ex) in G.
  apply need_ok in G. unfold nth2 in G. rewrite Hi, Hj in G. congruence.
Qed.

(** A row added below the first temperature. *)
Lemma tot_below k n T t l u1 u2 T' x ext lim : kt k n T t l -> full n T l ->
  T = u1 :: u2 :: T' -> x < u1 ->
  exists t' l', ex (add_temperature x ext lim) t = Ok t' /\ kt k n (x :: T) t' l' /\ full n (x :: T) l'
    /\ (forall c, In c l -> In c l').
Proof.
  intros Kt Fu ET0 Hx. assert (Kt' := Kt). destruct Kt' as ((W & K & N & H) & ET).
  pose proof (full_filled _ _ _ _ _ Kt Fu) as F.
  destruct (below_entry t x u1 u2 T' ext lim W F) as (t1 & E & G); [congruence|auto|].
  pose proof (proj2 (ex_ok _ _ _) E) as E'.
  assert (T1 : t_temps t1 = x :: T).
  { rewrite (add_below t u1 u2 T' x ext lim W F) in E by (congruence || auto). inversion E.
    cbn [t_temps put_row w_data w_temps]. congruence. }
  destruct (knows_add k n t t1 l x ext lim E' (conj W (conj K (conj N H)))) as (W1 & K1 & N1 & H1).
  exists t1.
  assert (C : forall j, exists vo, (j < n)%nat -> t_get (Z.of_nat (S j)) x t1 = Ok (Some vo)).
  { intros j. destruct (Nat.lt_ge_cases j n) as [Hj|Hj].
    - destruct (Fu (Z.of_nat (S j)) u1) as (v1 & H1'); [lia|subst T; simpl; auto|].
      destruct (Fu (Z.of_nat (S j)) u2) as (v2 & H2'); [lia|subst T; simpl; auto|].
      eexists. intros _. apply (G _ v1 v2); [unfold valid_speed; lia| |]; apply H; auto.
    - exists 0. lia. }
  assert (Cs : exists f, forall j, (j < n)%nat -> t_get (Z.of_nat (S j)) x t1 = Ok (Some (f j))).
  { clear - C. induction n as [|n IH].
    - exists (fun _ => 0). lia.
    - destruct (C n) as (vo & Hvo). destruct IH as (f & Hf).
      + intros j. destruct (C j) as (w & Hw). exists w. intros; apply Hw; lia.
      + exists (fun j => if Nat.eq_dec j n then vo else f j). intros j Hj.
        destruct (Nat.eq_dec j n) as [->|Q]; [apply Hvo; lia|apply Hf; lia]. }
  destruct Cs as (f & Hf).
  exists (map (fun j => (Z.of_nat (S j), x, f j)) (seq 0 n) ++ l). split; auto. split; [|split].
  - split; auto. split; auto. split; auto. split; auto. intros s y v Hin. apply in_app_iff in Hin.
    destruct Hin as [Hin|Hin]; [|auto]. apply in_map_iff in Hin. destruct Hin as (j & Q & Hj).
    apply in_seq in Hj. inversion Q; subst. split; [lia|apply Hf; lia].
  - intros s y V [<-|Hy].
    + exists (f (Z.to_nat (s - 1))). apply in_app_iff. left. apply in_map_iff.
      exists (Z.to_nat (s - 1)). split; [f_equal; f_equal; lia|apply in_seq; lia].
    + destruct (Fu s y V Hy) as (v & Hv). exists v. apply in_app_iff. auto.
  - intros c Hc. apply in_app_iff. auto.
Qed.

Lemma tot_above k n T t l u1 u2 T' x ext lim : kt k n T t l -> full n T l ->
  T = T' ++ [u1; u2] -> u2 < x ->
  exists t' l', ex (add_temperature x ext lim) t = Ok t' /\ kt k n (T ++ [x]) t' l' /\ full n (T ++ [x]) l'
    /\ (forall c, In c l -> In c l').
Proof.
  intros Kt Fu ET0 Hx. assert (Kt' := Kt). destruct Kt' as ((W & K & N & H) & ET).
  pose proof (full_filled _ _ _ _ _ Kt Fu) as F.
  destruct (above_entry t x u1 u2 T' ext lim W F) as (t1 & E & G); [congruence|auto|].
  pose proof (proj2 (ex_ok _ _ _) E) as E'.
  assert (T1 : t_temps t1 = T ++ [x]).
  { rewrite (add_above t u1 u2 T' x ext lim W F) in E by (congruence || auto). inversion E.
    cbn [t_temps put_row w_data w_temps]. congruence. }
  destruct (knows_add k n t t1 l x ext lim E' (conj W (conj K (conj N H)))) as (W1 & K1 & N1 & H1).
  exists t1.
  assert (C : forall j, exists vo, (j < n)%nat -> t_get (Z.of_nat (S j)) x t1 = Ok (Some vo)).
  { intros j. destruct (Nat.lt_ge_cases j n) as [Hj|Hj].
    - destruct (Fu (Z.of_nat (S j)) u1) as (v1 & H1'); [lia|subst T; apply in_app_iff; simpl; auto|].
      destruct (Fu (Z.of_nat (S j)) u2) as (v2 & H2'); [lia|subst T; apply in_app_iff; simpl; auto|].
      eexists. intros _. apply (G _ v1 v2); [unfold valid_speed; lia| |]; apply H; auto.
    - exists 0. lia. }
  assert (Cs : exists f, forall j, (j < n)%nat -> t_get (Z.of_nat (S j)) x t1 = Ok (Some (f j))).
  { clear - C. induction n as [|n IH].
    - exists (fun _ => 0). lia.
    - destruct (C n) as (vo & Hvo). destruct IH as (f & Hf).
      + intros j. destruct (C j) as (w & Hw). exists w. intros; apply Hw; lia.
      + exists (fun j => if Nat.eq_dec j n then vo else f j). intros j Hj.
        destruct (Nat.eq_dec j n) as [->|Q]; [apply Hvo; lia|apply Hf; lia]. }
  destruct Cs as (f & Hf).
  exists (map (fun j => (Z.of_nat (S j), x, f j)) (seq 0 n) ++ l). split; auto. split; [|split].
  - split; auto. split; auto. split; auto. split; auto. intros s y v Hin. apply in_app_iff in Hin.
    destruct Hin as [Hin|Hin]; [|auto]. apply in_map_iff in Hin. destruct Hin as (j & Q & Hj).
    apply in_seq in Hj. inversion Q; subst. split; [lia|apply Hf; lia].
  - intros s y V Hy. apply in_app_iff in Hy. destruct Hy as [Hy|[<-|[]]].
    + destruct (Fu s y V Hy) as (v & Hv). exists v. apply in_app_iff. auto.
    + exists (f (Z.to_nat (s - 1))). apply in_app_iff. left. apply in_map_iff.
      exists (Z.to_nat (s - 1)). split; [f_equal; f_equal; lia|apply in_seq; lia].
  - intros c Hc. apply in_app_iff. auto.
Qed.

Lemma tot_getv k n T t l s x v : kt k n T t l -> In (s, x, v) l -> t_getv s x t = Ok v.
Proof. intros ((W & K & N & H) & ET) Hin. destruct (H _ _ _ Hin) as (_ & G). unfold t_getv. rewrite G. reflexivity. Qed.

Lemma tot_getmaint k n T t l s x y v w : kt k n T t l -> In (s, x, v) l -> In (s, y, w) l -> w <> 0 ->
  get_maintenance s x y t = Ok (v / w).
Proof.
  intros Kt H1 H2 Hw.
  destruct (kt_tidx _ _ _ _ _ x Kt (kt_In _ _ _ _ _ _ _ _ Kt H1)) as (i & Hi & _).
  destruct (kt_tidx _ _ _ _ _ y Kt (kt_In _ _ _ _ _ _ _ _ Kt H2)) as (j & Hj & _).
  unfold get_maintenance. rewrite Hi, Hj. cbn [rbind].
  rewrite (kt_cell k n T t l s x v _ Kt H1 Hi), (kt_cell k n T t l s y w _ Kt H2 Hj). cbn [rbind].
  apply pydiv_ok. auto.
Qed.

Lemma tot_finish nc nh Tc Tp Th Tw qc pc qh ph l1 l2 l3 l4 :
  kt CoolingTable nc Tc qc l1 -> kt CoolingTable nc Tp pc l2 ->
  kt HeatingTable nh Th qh l3 -> kt HeatingTable nh Tw ph l4 ->
  full nc Tc l1 -> full nc Tp l2 -> full nh Th l3 -> full nh Tw l4 ->
  length Tp = length Tc -> length Tw = length Th -> Tc <> [] -> Th <> [] -> nc <> 0%nat -> nh <> 0%nat ->
  exists p, finish qc pc qh ph = Ok p.
Proof.
  intros K1 K2 K3 K4 F1 F2 F3 F4 L1 L2 N1 N2 N3 N4.
  assert (Q : forall k n T t l, kt k n T t l -> full n T l -> T <> [] -> n <> 0%nat ->
    exists t', ex set_interpolator t = Ok t' /\ t_n t' = n /\ t_temps t' = T).
  { intros k n T t l K F NT Nn. assert (K' := K). destruct K' as ((W & Kk & N & H) & ET).
    destruct (interpolated_exists t W (full_filled _ _ _ _ _ K F)) as (t' & I).
    - congruence. - congruence.
    - exists t'. split; [apply ex_ok; exact I|].
      destruct (interpolated_inv _ _ I) as (vals & G & ->). cbn [t_n t_temps w_interp]. auto. }
  destruct (Q _ _ _ _ _ K1 F1) as (t1 & E1 & A1 & B1); auto.
  destruct (Q _ _ _ _ _ K2 F2) as (t2 & E2 & A2 & B2); auto.
  { intros ->. destruct Tc; [congruence|discriminate]. }
  destruct (Q _ _ _ _ _ K3 F3) as (t3 & E3 & A3 & B3); auto.
  destruct (Q _ _ _ _ _ K4 F4) as (t4 & E4 & A4 & B4); auto.
  { intros ->. destruct Th; [congruence|discriminate]. }
  unfold finish. rewrite E1. cbn [rbind]. rewrite E2. cbn [rbind]. rewrite E3. cbn [rbind].
  rewrite E4. cbn [rbind]. unfold make_perf.
  rewrite A1, A2, A3, A4, B1, B2, B3, B4, L1, L2, !Nat.eqb_refl. cbn [guard rbind]. eauto.
Qed.

Lemma ex_step {S} (a b : st S unit) s s' : ex a s = Ok s' -> ex (a ;;; b) s = ex b s'.
Proof. intros E. apply ex_ok in E. unfold ex, sbind. rewrite E. reflexivity. Qed.

Ltac pos :=
  lazymatch goal with
  | |- 0 < lit _ => rnum; lra
  | |- 0 < nmul _ _ => apply Rmult_lt_0_compat; pos
  | |- 0 < ndiv _ _ => apply Rdiv_lt_0_compat; pos
  | |- 0 < _ * _ => apply Rmult_lt_0_compat; pos
  | |- 0 < _ / _ => apply Rdiv_lt_0_compat; pos
  | |- _ => first [assumption | lra]
  end.
Ltac nz := first [assumption | apply Rgt_not_eq; unfold Rgt; pos].

Ltac fgo E := first [rewrite (ex_step _ _ _ _ E) | rewrite E; cbn [rbind]]; clear E.
Ltac fullt :=
  let s := fresh "s" in let x := fresh "x" in let V := fresh "V" in let Hx := fresh "Hx" in
  intros s x V Hx;
  assert (s = 1 \/ s = 2 \/ s = 3)%Z as [-> | [-> | ->]] by (cbn in V; lia);
  first [ exfalso; cbn in V; lia
        | cbn [In] in Hx; repeat (destruct Hx as [Hx | Hx]);
          try contradiction; subst x; eexists; cbn [In];
          repeat (first [left; reflexivity | right]) ].
Ltac inchain :=
  repeat match goal with
  | I : forall c, In c ?l0 -> In c ?l |- In _ ?l => apply I
  end; cbn [In]; repeat (first [left; reflexivity | right]).
(** One method call of a construction. *)
Ltac fstep :=
  match goal with
  | K : kt ?k ?n ?T ?t ?l |- context [t_set ?s ?x ?v] =>
      match goal with
      | |- context [ex (sbind (t_set s x v) _) t] => idtac
      | |- context [ex (t_set s x v) t] => idtac end;
      let t' := fresh "t" in let E := fresh "E" in let K' := fresh "K" in
      destruct (tot_set k n T t l s x v K) as (t' & E & K'); [inlist|lia|notin|]; fgo E
  | K : kt ?k ?n ?T ?t ?l |- context [set_by_maintenance ?s ?x ?ref ?r] =>
      match goal with
      | |- context [ex (sbind (set_by_maintenance s x ref r) _) t] => idtac
      | |- context [ex (set_by_maintenance s x ref r) t] => idtac end;
      match l with context [(s, ref, ?v)] =>
      let t' := fresh "t" in let E := fresh "E" in let K' := fresh "K" in
      destruct (tot_maint k n T t l s x ref r v K) as (t' & E & K');
        [discriminate|lia|inlist|inlist|lra|nz|notin|]; rltd K'; fgo E end
  | K : kt ?k ?n ?T ?t ?l |- context [set_by_ratio ?s ?x ?r] =>
      match goal with
      | |- context [ex (sbind (set_by_ratio s x r) _) t] => idtac
      | |- context [ex (set_by_ratio s x r) t] => idtac end;
      match l with context [(?s', x, ?m)] =>
      let t' := fresh "t" in let E := fresh "E" in let K' := fresh "K" in
      first
      [ destruct (tot_ratio k n T t l s x r m K) as (t' & E & K'); [lia|inlist|notin|]; fgo E
      | destruct (tot_ratio_max k n T t l s x r m K) as (t' & E & K');
          [reflexivity|lia|inlist|nz|notin|]; fgo E ] end
  | K : kt ?k ?n ?T ?t ?l |- context [t_getv ?s ?x ?t] =>
      first
      [ match l with context [(s, x, ?v)] =>
          rewrite (tot_getv k n T t l s x v K) by inlist; cbn [rbind] end
      | erewrite (tot_getv k n T t l s x _ K) by inchain; cbn [rbind] ]
  | K : kt ?k ?n ?T ?t ?l |- context [add_temperature ?x ?e ?m] =>
      match goal with
      | |- context [ex (sbind (add_temperature x e m) _) t] => idtac
      | |- context [ex (add_temperature x e m) t] => idtac end;
      let t' := fresh "t" in let E := fresh "E" in let K' := fresh "K" in
      let l' := fresh "l" in let F := fresh "F" in let I := fresh "I" in
      let FF := fresh "FF" in
      assert (FF : full n T l) by first [assumption | fullt];
      first
      [ match T with ?u1 :: ?u2 :: ?T' =>
          destruct (tot_below k n T t l u1 u2 T' x e m K FF eq_refl)
            as (t' & l' & E & K' & F & I); [lra|] end
      | match T with ?T0 ++ [?u2] => fail 1 | _ => idtac end;
        match eval cbn [app] in T with
        | [?u1; ?u2] => destruct (tot_above k n T t l u1 u2 [] x e m K FF eq_refl)
            as (t' & l' & E & K' & F & I); [lra|]
        | [?a; ?u1; ?u2] => destruct (tot_above k n T t l u1 u2 [a] x e m K FF eq_refl)
            as (t' & l' & E & K' & F & I); [lra|]
        | [?a; ?b; ?u1; ?u2] => destruct (tot_above k n T t l u1 u2 [a; b] x e m K FF eq_refl)
            as (t' & l' & E & K' & F & I); [lra|]
        end ];
      cbn [app] in K', F; fgo E
  | |- context [pydiv ?a ?b] => rewrite (pydiv_ok a b) by nz; cbn [rbind]
  end.

Theorem single_total q95 seer eer q47 q17 hspf tmax tmin cop47 cd :
  0 < q95 -> 0 < seer -> 0 < eer -> 0 < q47 -> (forall c, q17 = Some c -> 0 < c) -> 0 <= hspf ->
  fr_F 95 < tmax -> tmin < fr_F 5 -> (forall c, cop47 = Some c -> 0 < c) -> cd < 2 ->
  exists p, make_single_speed_model_data q95 seer eer q47 q17 hspf tmax tmin cop47 cd = Ok p.
Proof.
  intros P1 P2 P3 P4 P5 P6 P7 P8 P9 P10.
  unfold make_single_speed_model_data. cbv zeta.
  assert (PA : 0 < calc_biquad COOLING_CAP_FT (lit (T:=R) 67) (lit 82)).
  { unfold calc_biquad, COOLING_CAP_FT. rnum. lra. }
  assert (PB : 0 < calc_biquad HEATING_EIR_FT (lit (T:=R) 70) (lit 17)).
  { unfold calc_biquad, HEATING_EIR_FT. rnum. lra. }
  set (CA := calc_biquad COOLING_CAP_FT _ _) in *. set (CB := calc_biquad HEATING_EIR_FT _ _) in *.
  clearbody CA CB.
  set (t82 := fr_F (lit (T:=R) 82)) in *. set (t95 := fr_F (lit (T:=R) 95)) in *.
  set (t17 := fr_F (lit (T:=R) 17)) in *. set (t47 := fr_F (lit (T:=R) 47)) in *.
  set (t60 := fr_F (lit (T:=R) 60)) in *. set (t5 := fr_F (lit (T:=R) 5)) in *.
  assert (E95 : fr_F 95 = t95) by (unfold t95; f_equal; rnum; lra).
  assert (E5 : fr_F 5 = t5) by (unfold t5; f_equal; rnum; lra).
  assert (L1 : t82 < t95) by (apply fr_F_lt; rnum; lra).
  assert (L2 : t17 < t47) by (apply fr_F_lt; rnum; lra).
  assert (L3 : t60 < t82) by (apply fr_F_lt; rnum; lra).
  assert (L4 : t5 < t17) by (apply fr_F_lt; rnum; lra).
  assert (L5 : t47 < t60) by (apply fr_F_lt; rnum; lra).
  rewrite E95 in P7. rewrite E5 in P8.
  clearbody t82 t95 t17 t47 t60 t5.
  assert (Be : 0 < fr_Btu_Wh eer) by (unfold fr_Btu_Wh; apply Rmult_lt_0_compat; [lra|apply btu_h_pos]).
  set (e' := fr_Btu_Wh eer) in *. clearbody e'.
  assert (Pd : 0 < (lit 1 - lit 0.5 * cd)%num) by (rnum; lra).
  set (dd := (lit 1 - lit 0.5 * cd)%num) in *. clearbody dd.
  assert (Bs : 0 < fr_Btu_Wh (seer / dd)).
  { unfold fr_Btu_Wh; apply Rmult_lt_0_compat; [apply Rdiv_lt_0_compat; lra|apply btu_h_pos]. }
  set (c47 := match cop47 with Some c => c | None => _ end) in *.
  assert (Pc : 0 < c47). { unfold c47. destruct cop47; [auto|]. rnum. lra. }
  clearbody c47.
  pose proof (conj (knows_new CoolingTable 1 _ (sorted2 _ _ L1)) eq_refl : kt CoolingTable 1 [t82; t95] _ _) as KC.
  pose proof (conj (knows_new HeatingTable 1 _ (sorted2 _ _ L2)) eq_refl : kt HeatingTable 1 [t17; t47] _ _) as KH.
  repeat fstep.
  assert (exists m, match q17 with Some c => (c /? q47)%num | None => Ok (lit 0.626) end = Ok m /\ 0 < m)
    as (m & Em & Pm).
  { destruct q17 as [c|]; [|eexists; split; [reflexivity|rnum; lra]].
    rewrite pydiv_ok by lra. eexists. split; [reflexivity|]. specialize (P5 c eq_refl). pos. }
  rewrite Em. cbn [rbind].
  repeat fstep.
  eapply (tot_finish 1 1); eauto; discriminate.
Qed.

Theorem two_total q95 seer eer q47 q17 hspf tmax tmin cop82 cop47 :
  0 < q95 -> 0 < seer -> 0 < eer -> 0 < q47 -> (forall c, q17 = Some c -> 0 < c) -> 0 <= hspf ->
  fr_F 95 < tmax -> tmin < fr_F 5 -> (forall c, cop82 = Some c -> 0 < c) ->
  (forall c, cop47 = Some c -> 0 < c) ->
  exists p, make_two_speed_model_data q95 seer eer q47 q17 hspf tmax tmin cop82 cop47 = Ok p.
Proof.
  intros P1 P2 P3 P4 P5 P6 P7 P8 P9 P10.
  unfold make_two_speed_model_data. cbv zeta.
  assert (PA : 0 < calc_biquad COOLING_CAP_FT (lit (T:=R) 67) (lit 82)).
  { unfold calc_biquad, COOLING_CAP_FT. rnum. lra. }
  assert (PC : 0 < calc_biquad COOLING_EIR_FT (lit (T:=R) 67) (lit 82)).
  { unfold calc_biquad, COOLING_EIR_FT. rnum. lra. }
  assert (PB : 0 < calc_biquad HEATING_EIR_FT (lit (T:=R) 70) (lit 17)).
  { unfold calc_biquad, HEATING_EIR_FT. rnum. lra. }
  set (CA := calc_biquad COOLING_CAP_FT _ _) in *. set (CB := calc_biquad HEATING_EIR_FT _ _) in *.
  set (CC := calc_biquad COOLING_EIR_FT _ _) in *.
  clearbody CA CB CC.
  set (t82 := fr_F (lit (T:=R) 82)) in *. set (t95 := fr_F (lit (T:=R) 95)) in *.
  set (t17 := fr_F (lit (T:=R) 17)) in *. set (t47 := fr_F (lit (T:=R) 47)) in *.
  set (t60 := fr_F (lit (T:=R) 60)) in *. set (t5 := fr_F (lit (T:=R) 5)) in *.
  assert (E95 : fr_F 95 = t95) by (unfold t95; f_equal; rnum; lra).
  assert (E5 : fr_F 5 = t5) by (unfold t5; f_equal; rnum; lra).
  assert (L1 : t82 < t95) by (apply fr_F_lt; rnum; lra).
  assert (L2 : t17 < t47) by (apply fr_F_lt; rnum; lra).
  assert (L3 : t60 < t82) by (apply fr_F_lt; rnum; lra).
  assert (L4 : t5 < t17) by (apply fr_F_lt; rnum; lra).
  assert (L5 : t47 < t60) by (apply fr_F_lt; rnum; lra).
  rewrite E95 in P7. rewrite E5 in P8.
  clearbody t82 t95 t17 t47 t60 t5.
  assert (Be : 0 < fr_Btu_Wh eer) by (unfold fr_Btu_Wh; apply Rmult_lt_0_compat; [lra|apply btu_h_pos]).
  set (e' := fr_Btu_Wh eer) in *. clearbody e'.
  set (c47 := match cop47 with Some c => c | None => _ end) in *.
  assert (Pc : 0 < c47). { unfold c47. destruct cop47; [auto|]. rnum. lra. }
  clearbody c47.
  set (c82 := match cop82 with Some c => c | None => _ end) in *.
  assert (Pc2 : 0 < c82). { unfold c82. destruct cop82; [auto|]. pos. }
  clearbody c82.
  pose proof (conj (knows_new CoolingTable 2 _ (sorted2 _ _ L1)) eq_refl : kt CoolingTable 2 [t82; t95] _ _) as KC.
  pose proof (conj (knows_new HeatingTable 2 _ (sorted2 _ _ L2)) eq_refl : kt HeatingTable 2 [t17; t47] _ _) as KH.
  repeat fstep.
  assert (exists m, match q17 with Some c => (c /? q47)%num | None => Ok (lit 0.626) end = Ok m /\ 0 < m)
    as (m & Em & Pm).
  { destruct q17 as [c|]; [|eexists; split; [reflexivity|rnum; lra]].
    rewrite pydiv_ok by lra. eexists. split; [reflexivity|]. specialize (P5 c eq_refl). pos. }
  rewrite Em. cbn [rbind].
  repeat fstep.
  eapply (tot_finish 2 2); eauto; discriminate.
Qed.

(** [set_by_interpolation 2 x] on a table of three speeds; [nz] of the difference is left. *)
Ltac finterp :=
  match goal with
  | K : kt ?k ?n ?T ?t ?l |- context [set_by_interpolation 2 ?x] =>
      match goal with
      | |- context [ex (sbind (set_by_interpolation 2 x) _) t] => idtac
      | |- context [ex (set_by_interpolation 2 x) t] => idtac end;
      match T with x :: ?y :: ?T2 =>
      match l with context [(1%Z, x, ?v10)] =>
      match l with context [(3%Z, x, ?v12)] =>
      match l with context [(1%Z, y, ?v20)] =>
      match l with context [(2%Z, y, ?v21)] =>
      match l with context [(3%Z, y, ?v22)] =>
      let t' := fresh "t" in let E := fresh "E" in let K' := fresh "K" in
      destruct (tot_interp k n T [] T2 t l 2 x y v10 v12 v20 v21 v22 K eq_refl) as (t' & E & K');
        [lia|lia|inlist|inlist|inlist|inlist|inlist| |notin|fgo E] end end end end end end
  end.

Lemma diff_nz q r : 0 < q -> r < 1 -> q <> q * r.
Proof. intros H1 H2 H. assert (q * r < q * 1) by (apply Rmult_lt_compat_l; lra). lra. Qed.

Theorem statistical_total q95 seer eer q47 q17 hspf tmax tmin ratio cop82 cop47 :
  0 < q95 -> 0 < seer -> 0 < eer -> 0 < q47 -> (forall c, q17 = Some c -> 0 < c) -> 0 <= hspf ->
  fr_F 95 < tmax -> fr_F (-78) <= tmin < fr_F 5 -> (forall r, ratio = Some r -> 0 < r < 1) ->
  (forall c, cop82 = Some c -> 1.326 * 0.928 * fr_Btu_Wh eer <= c) ->
  (forall c, cop47 = Some c -> 0 < c) ->
  exists p, make_neep_statistical_model_data q95 seer eer q47 q17 hspf tmax tmin ratio cop82 cop47 = Ok p.
Proof.
  intros P1 P2 P3 P4 P5 P6 P7 P8 PR P9 P10.
  unfold make_neep_statistical_model_data. cbv zeta.
  set (t82 := fr_F (lit (T:=R) 82)) in *. set (t95 := fr_F (lit (T:=R) 95)) in *.
  set (t17 := fr_F (lit (T:=R) 17)) in *. set (t47 := fr_F (lit (T:=R) 47)) in *.
  set (t60 := fr_F (lit (T:=R) 60)) in *. set (t5 := fr_F (lit (T:=R) 5)) in *.
  assert (E95 : fr_F 95 = t95) by (unfold t95; f_equal; rnum; lra).
  assert (E5 : fr_F 5 = t5) by (unfold t5; f_equal; rnum; lra).
  assert (L1 : t82 < t95) by (apply fr_F_lt; rnum; lra).
  assert (L2 : t17 < t47) by (apply fr_F_lt; rnum; lra).
  assert (L3 : t60 < t82) by (apply fr_F_lt; rnum; lra).
  assert (L4 : t5 < t17) by (apply fr_F_lt; rnum; lra).
  assert (L5 : t47 < t60) by (apply fr_F_lt; rnum; lra).
  rewrite E95 in P7. rewrite E5 in P8.
  assert (LD : t5 - tmin <= 83 * 5 / 9).
  { rewrite <- E5. revert P8. unfold fr_F. rnum. lra. }
  clearbody t82 t95 t17 t47 t60 t5.
  assert (Be : 0 < fr_Btu_Wh eer) by (unfold fr_Btu_Wh; apply Rmult_lt_0_compat; [lra|apply btu_h_pos]).
  set (e' := fr_Btu_Wh eer) in *. clearbody e'.
  set (c47 := match cop47 with Some c => c | None => _ end) in *.
  assert (Pc : 0 < c47). { unfold c47. destruct cop47; [auto|]. rnum. lra. }
  clearbody c47.
  pose proof (conj (knows_new CoolingTable 3 _ (sorted2 _ _ L1)) eq_refl : kt CoolingTable 3 [t82; t95] _ _) as KC.
  pose proof (conj (knows_new HeatingTable 3 _ (sorted4 _ _ _ _ (proj2 P8) L4 L2)) eq_refl
    : kt HeatingTable 3 [tmin; t5; t17; t47] _ _) as KH.
  repeat fstep.
  set (X := q95 / lit 0.934 / lit 0.940 / (q95 / e' / (lit 0.934 * lit 0.928)%num / (lit 0.940 * lit 1.326)%num)).
  assert (EX : X = 1.326 * 0.928 * e').
  { unfold X. rnum. field. split; lra. }
  clearbody X.
  match goal with |- context [rbind ?m _] =>
    assert (exists c e, m = Ok (c, e) /\ 0 < c /\ 0 < e <= 1 /\ X = c * e) as (c & e & Ece & Pcc & Pe & Exc) end.
  { destruct cop82 as [c|].
    - specialize (P9 c eq_refl). rewrite <- EX in P9.
      assert (0 < X) by lra. rewrite pydiv_ok by lra. cbn [rbind].
      exists c, (X / c). split; auto. split; [lra|]. split; [split|].
      + apply Rdiv_lt_0_compat; lra.
      + apply (Rmult_le_reg_r c); [lra|]. unfold Rdiv. rewrite Rmult_assoc, Rinv_l; lra.
      + field. lra.
    - match goal with |- context [bracket ?x (Some ?a) (Some ?b)] =>
        assert (Q : a <= b) by (rnum; lra); pose proof (bracket_both x a b Q) as Q1;
        assert (Q2 : 0 < a) by (rnum; lra);
        assert (Q3 : b <= 1) by (rnum; lra);
        set (br := bracket x (Some a) (Some b)) in * end.
      rewrite pydiv_ok by lra. cbn [rbind]. exists (X / br), br. split; auto.
      split; [apply Rdiv_lt_0_compat; lra|]. split; [lra|]. field. lra. }
  rewrite Ece. clear Ece. cbn [rbind fst snd].
  match goal with |- context [set_by_ratio 1 t95 ?m] =>
    set (Qr := m); assert (PQr : 0 < Qr < 1) end.
  { unfold Qr. destruct ratio as [r|]; [auto|].
    match goal with |- context [bracket ?x (Some ?a) (Some ?b)] =>
        assert (Q : a <= b) by (rnum; lra); pose proof (bracket_both x a b Q) as Q1;
        assert (Q2 : 0 < a) by (rnum; lra);
        assert (Q3 : b < 1) by (rnum; lra) end. lra. }
  clearbody Qr. destruct PQr as [PQ1 PQ2]. destruct Pe as [Pe1 Pe2].
  repeat fstep. finterp.
  { apply diff_nz; [pos|lra]. }
  repeat fstep. finterp.
  { assert (Eq : q95 / lit 0.934 * Qr / lit 0.948 / c * (lit 0.948 * lit 1.315)%num
       = q95 / e' / (lit 0.934 * lit 0.928)%num * (Qr * e * (1.315 / 1.326))).
    { assert (Ee : e' = c * e / (1.326 * 0.928)) by lra. rewrite Ee. rnum. field. repeat split; lra. }
    rewrite Eq. apply diff_nz; [pos|].
    assert (Qr * e < 1) by nra. assert (0 < Qr * e) by nra. nra. }
  repeat fstep.
  assert (exists m, match q17 with Some c => (c /? q47)%num | None => Ok (lit 0.689) end = Ok m /\ 0 < m)
    as (m & Em & Pm).
  { destruct q17 as [c1|]; [|eexists; split; [reflexivity|rnum; lra]].
    rewrite pydiv_ok by lra. eexists. split; [reflexivity|]. specialize (P5 c1 eq_refl). pos. }
  rewrite Em. cbn [rbind].
  set (D := (t5 - tmin)%num).
  assert (PD : 0 < D) by (unfold D; cbn [nsub RNum]; lra).
  assert (PD2 : D <= 83 * 5 / 9) by exact LD. clearbody D.
  set (x1 := (lit 1 - fr_per_F (lit (-0.025)) * D)%num).
  assert (Px1 : 0 < x1) by (unfold x1, fr_per_F; rnum; lra). clearbody x1.
  set (x2 := (lit 1 - fr_per_F (lit (-0.024)) * D)%num).
  assert (Px2 : 0 < x2) by (unfold x2, fr_per_F; rnum; lra). clearbody x2.
  set (x3 := (lit 1 - fr_per_F (lit 0.012) * D)%num).
  assert (Px3 : 0 < x3) by (unfold x3, fr_per_F; rnum; lra). clearbody x3.
  repeat fstep. finterp.
  { apply diff_nz; [pos|rnum; lra]. }
  repeat fstep.
  match goal with |- context [get_maintenance 3 ?x ?y ?t] =>
    match goal with K : kt ?k ?n ?T t ?l |- _ =>
      erewrite (tot_getmaint k n T t l 3 x y _ _ K) by (inchain || nz);
      erewrite (tot_getmaint k n T t l 1 x y _ _ K) by (inchain || nz) end end.
  cbn [rbind].
  repeat fstep. finterp.
  { apply diff_nz; [pos|rnum; lra]. }
  repeat fstep.
  eapply (tot_finish 3 3); eauto; discriminate.
Qed.
