(** Piecewise linear interpolation on the reals. *)
From Coq Require Import Reals QArith Lra Lia List Bool Sorted ZArith.
From Verif.Base Require Import Num Res Tac.
From Verif.Model Require Import Tabular.
From Verif.Proofs Require Import UnitsR.
Import ListNotations.
Local Open Scope R_scope.

Definition chord (x0 y0 x1 y1 x : R) : R := y0 + (y1 - y0) * ((x - x0) / (x1 - x0)).

Lemma lin1_1 x0 y0 ys x : lin1 [x0] (y0 :: ys) x = y0.
Proof. reflexivity. Qed.
Lemma lin1_2 x0 y0 x1 y1 ys x : lin1 [x0; x1] (y0 :: y1 :: ys) x = chord x0 y0 x1 y1 x.
Proof. simpl. rewrite orb_true_r. reflexivity. Qed.
Lemma lin1_3 x0 y0 x1 y1 x2 xs ys x :
  lin1 (x0 :: x1 :: x2 :: xs) (y0 :: y1 :: ys) x =
  if Rltb x x1 then chord x0 y0 x1 y1 x else lin1 (x1 :: x2 :: xs) (y1 :: ys) x.
Proof. cbn [lin1 nltb RNum]. rewrite orb_false_r. destruct (Rltb x x1); reflexivity. Qed.

Lemma chord_l x0 y0 x1 y1 : chord x0 y0 x1 y1 x0 = y0.
Proof. unfold chord. replace (x0 - x0) with 0 by lra. unfold Rdiv. rewrite Rmult_0_l. lra. Qed.
Lemma chord_r x0 y0 x1 y1 : x0 <> x1 -> chord x0 y0 x1 y1 x1 = y1.
Proof. intros. unfold chord. field. lra. Qed.

Definition sortedR (l : list R) := StronglySorted Rlt l.

Lemma sorted_tl x l : sortedR (x :: l) -> sortedR l.
Proof. intros H. inversion H; auto. Qed.
Lemma sorted_hd x y l : sortedR (x :: l) -> In y l -> x < y.
Proof. intros H. inversion H; subst. rewrite Forall_forall in H3. auto. Qed.
Lemma sorted_12 x y l : sortedR (x :: y :: l) -> x < y.
Proof. intros H. eapply sorted_hd; eauto. simpl; auto. Qed.

Lemma sorted_nth l i j x y : sortedR l -> (i < j)%nat ->
  nth_error l i = Some x -> nth_error l j = Some y -> x < y.
Proof.
  revert i j; induction l as [|a l IH]; intros i j S Hij Hx Hy.
  - destruct i; discriminate.
  - destruct i, j; simpl in *; try lia.
    + inversion Hx; subst. eapply sorted_hd; eauto. eapply nth_error_In; eauto.
    + apply (IH i j); auto; [eapply sorted_tl; eauto|lia].
Qed.

Lemma sorted_nth_inj l i j x : sortedR l ->
  nth_error l i = Some x -> nth_error l j = Some x -> i = j.
Proof.
  intros S Hi Hj. destruct (Nat.lt_trichotomy i j) as [H|[H|H]]; auto; exfalso.
  - pose proof (sorted_nth l i j x x S H Hi Hj). lra.
  - pose proof (sorted_nth l j i x x S H Hj Hi). lra.
Qed.

Lemma lin1_first x0 x1 xs y0 ys x :
  sortedR (x0 :: x1 :: xs) -> length ys = length (x1 :: xs) -> x = x0 ->
  lin1 (x0 :: x1 :: xs) (y0 :: ys) x = y0.
Proof.
  intros S L ->. destruct ys as [|y1 ys]; [discriminate|].
  pose proof (sorted_12 _ _ _ S).
  destruct xs as [|x2 xs]; [rewrite lin1_2|rewrite lin1_3; destruct (Rltb_spec x0 x1); try lra];
    apply chord_l.
Qed.

(** Value at a node. *)
Lemma lin1_node xs ys i x y : sortedR xs -> length ys = length xs ->
  nth_error xs i = Some x -> nth_error ys i = Some y -> lin1 xs ys x = y.
Proof.
  revert ys i; induction xs as [|x0 xs IH]; intros ys i S L Hx Hy.
  - destruct i; discriminate.
  - destruct ys as [|y0 ys]; [destruct i; discriminate|].
    destruct xs as [|x1 xs].
    + destruct i as [|i]; simpl in Hx, Hy; [|destruct i; discriminate].
      rewrite lin1_1; congruence.
    + destruct ys as [|y1 ys]; [discriminate|].
      pose proof (sorted_12 _ _ _ S) as H01.
      destruct i as [|i].
      * simpl in Hx, Hy. inversion Hx; inversion Hy; subst. apply lin1_first; auto.
      * simpl in Hx, Hy.
        destruct xs as [|x2 xs].
        -- destruct i as [|i]; simpl in Hx, Hy; [|destruct i; discriminate].
           inversion Hx; inversion Hy; subst. rewrite lin1_2. apply chord_r; lra.
        -- rewrite lin1_3. destruct (Rltb_spec x x1).
           ++ exfalso. destruct i; simpl in Hx.
              ** inversion Hx; lra.
              ** pose proof (sorted_hd x1 x (x2 :: xs) (sorted_tl _ _ S) (nth_error_In _ _ Hx)). lra.
           ++ eapply IH; eauto. eapply sorted_tl; eauto.
Qed.

(** Value on an interval; the first and last intervals extend outwards. *)
Lemma lin1_interval xs ys i xa xb ya yb x : sortedR xs -> length ys = length xs ->
  nth_error xs i = Some xa -> nth_error xs (S i) = Some xb ->
  nth_error ys i = Some ya -> nth_error ys (S i) = Some yb ->
  (i = 0%nat \/ xa <= x) -> (S (S i) = length xs \/ x <= xb) ->
  lin1 xs ys x = chord xa ya xb yb x.
Proof.
  revert ys i; induction xs as [|x0 xs IH]; intros ys i S L Hxa Hxb Hya Hyb Hl Hr.
  - destruct i; discriminate.
  - destruct ys as [|y0 ys]; [discriminate|].
    destruct xs as [|x1 xs]; [destruct i as [|[|]]; discriminate|].
    destruct ys as [|y1 ys]; [discriminate|].
    destruct i as [|i].
    + cbn [nth_error] in Hxa, Hxb, Hya, Hyb. inversion Hxa; inversion Hxb; inversion Hya; inversion Hyb; subst.
      destruct xs as [|x2 xs].
      * apply (lin1_2 _ _ _ _ ys).
      * rewrite lin1_3. destruct (Rltb_spec x xb); auto.
        destruct Hr as [Hr|Hr]; [simpl in Hr; discriminate|].
        assert (x = xb) by lra. subst x.
        rewrite chord_r by (pose proof (sorted_12 _ _ _ S); lra).
        apply lin1_first; [eapply sorted_tl; eauto|simpl in *; lia|auto].
    + destruct Hl as [Hl|Hl]; [discriminate|].
      destruct xs as [|x2 xs]; [destruct i as [|[|]]; discriminate|].
      rewrite lin1_3.
      assert (x1 <= xa).
      { simpl in Hxa. destruct i; simpl in Hxa; [inversion Hxa; lra|].
        apply Rlt_le. eapply sorted_hd; [eapply sorted_tl; eauto|eapply nth_error_In; eauto]. }
      destruct (Rltb_spec x x1); [lra|].
      apply (IH (y1 :: ys) i); auto.
      * eapply sorted_tl; eauto.
      * destruct Hr as [Hr|Hr]; [left; simpl in *; lia|auto].
Qed.

(** Linearity in the values. *)
Lemma lin1_linear xs ys zs a b x : length ys = length xs -> length zs = length xs ->
  lin1 xs (map (fun yz => a * fst yz + b * snd yz) (combine ys zs)) x
  = a * lin1 xs ys x + b * lin1 xs zs x.
Proof.
  revert ys zs; induction xs as [|x0 xs IH]; intros ys zs Ly Lz.
  - destruct ys, zs; try discriminate. change (lit (T:=R) 0 = a * lit 0 + b * lit 0). rewrite lit0_R. lra.
  - destruct ys as [|y0 ys]; [discriminate|]. destruct zs as [|z0 zs]; [discriminate|].
    destruct xs as [|x1 xs].
    + reflexivity.
    + destruct ys as [|y1 ys]; [discriminate|]. destruct zs as [|z1 zs]; [discriminate|].
      cbn [map combine fst snd].
      destruct xs as [|x2 xs].
      * rewrite !lin1_2. unfold chord. unfold Rdiv. ring.
      * rewrite !lin1_3. destruct (Rltb x x1).
        -- unfold chord, Rdiv. ring.
        -- apply (IH (y1 :: ys) (z1 :: zs)); auto.
Qed.

Lemma lin1_const xs c x : xs <> [] -> lin1 xs (map (fun _ => c) xs) x = c.
Proof.
  induction xs as [|x0 xs IH]; intros H; [congruence|].
  destruct xs as [|x1 xs]; [reflexivity|].
  cbn [map]. destruct xs as [|x2 xs].
  - cbn [map]. rewrite lin1_2. unfold chord, Rdiv. ring.
  - cbn [map]. rewrite lin1_3. destruct (Rltb x x1).
    + unfold chord, Rdiv. ring.
    + apply IH. congruence.
Qed.

(** Adding a constant to every value. *)
Lemma lin1_shift xs ys c x : xs <> [] -> length ys = length xs ->
  lin1 xs (map (fun y => y + c) ys) x = lin1 xs ys x + c.
Proof.
  revert ys; induction xs as [|x0 xs IH]; intros ys H L; [congruence|].
  destruct ys as [|y0 ys]; [discriminate|].
  destruct xs as [|x1 xs]; [reflexivity|].
  destruct ys as [|y1 ys]; [discriminate|]. cbn [map].
  destruct xs as [|x2 xs].
  - rewrite !lin1_2. unfold chord, Rdiv. ring.
  - rewrite !lin1_3. destruct (Rltb x x1).
    + unfold chord, Rdiv. ring.
    + apply (IH (y1 :: ys)); auto. congruence.
Qed.

(** A new first point on the first chord does not change the function. *)
Lemma lin1_extend_below x x0 x1 xs y0 y1 ys q :
  sortedR (x :: x0 :: x1 :: xs) -> length ys = length xs ->
  lin1 (x :: x0 :: x1 :: xs)
       (y0 - (y1 - y0) / (x1 - x0) * (x0 - x) :: y0 :: y1 :: ys) q
  = lin1 (x0 :: x1 :: xs) (y0 :: y1 :: ys) q.
Proof.
  intros S L. pose proof (sorted_12 _ _ _ S). pose proof (sorted_12 _ _ _ (sorted_tl _ _ S)).
  rewrite lin1_3. destruct (Rltb_spec q x0); auto.
  replace (lin1 (x0 :: x1 :: xs) (y0 :: y1 :: ys) q) with (chord x0 y0 x1 y1 q).
  - unfold chord. field. lra.
  - destruct xs as [|x2 xs]; [rewrite lin1_2; auto|].
    rewrite lin1_3. destruct (Rltb_spec q x1); [auto|lra].
Qed.

Lemma sorted_app_inv l1 l2 : sortedR (l1 ++ l2) -> sortedR l1 /\ sortedR l2.
Proof.
  induction l1 as [|a l1 IH]; simpl; intros H; [split; auto; constructor|].
  inversion H; subst. destruct (IH H2) as [A B]. split; auto.
  constructor; auto. rewrite Forall_app in H3. tauto.
Qed.

(** A new last point on the last chord does not change the function. *)
Lemma lin1_extend_above xs xm2 xm1 x ys ym2 ym1 q :
  sortedR (xs ++ [xm2; xm1; x]) -> length ys = length xs ->
  lin1 (xs ++ [xm2; xm1; x])
       (ys ++ [ym2; ym1; ym1 + (ym1 - ym2) / (xm1 - xm2) * (x - xm1)]) q
  = lin1 (xs ++ [xm2; xm1]) (ys ++ [ym2; ym1]) q.
Proof.
  revert ys; induction xs as [|x0 xs IH]; intros ys S L.
  - destruct ys; [|discriminate]. cbn [app] in *.
    pose proof (sorted_12 _ _ _ S). pose proof (sorted_12 _ _ _ (sorted_tl _ _ S)).
    rewrite lin1_3, lin1_2, lin1_2. destruct (Rltb_spec q xm1); auto.
    unfold chord. field. lra.
  - destruct ys as [|y0 ys]; [discriminate|].
    assert (Hs : exists x1 x2 xs', xs ++ [xm2; xm1] = x1 :: x2 :: xs') by
      (destruct xs as [|a [|b xs]]; simpl; eauto).
    assert (Hy : exists y1 ys', ys ++ [ym2; ym1] = y1 :: ys') by
      (destruct ys; simpl; eauto).
    specialize (IH ys (sorted_tl _ _ S) ltac:(simpl in L; lia)).
    replace (xs ++ [xm2; xm1; x]) with ((xs ++ [xm2; xm1]) ++ [x]) in IH
      by (rewrite <- app_assoc; reflexivity).
    set (ye := ym1 + (ym1 - ym2) / (xm1 - xm2) * (x - xm1)) in *.
    replace (ys ++ [ym2; ym1; ye]) with ((ys ++ [ym2; ym1]) ++ [ye]) in IH
      by (rewrite <- app_assoc; reflexivity).
    cbn [app].
    replace (xs ++ [xm2; xm1; x]) with ((xs ++ [xm2; xm1]) ++ [x])
      by (rewrite <- app_assoc; reflexivity).
    replace (ys ++ [ym2; ym1; ye]) with ((ys ++ [ym2; ym1]) ++ [ye])
      by (rewrite <- app_assoc; reflexivity).
    destruct Hs as (x1 & x2 & xs' & Hs). destruct Hy as (y1 & ys' & Hy).
    rewrite Hs, Hy in *. cbn [app] in *.
    rewrite !lin1_3. destruct (Rltb q x1); auto.
Qed.

(** Between two numbers *)
Lemma chord_between x0 y0 x1 y1 x : x0 < x1 -> x0 <= x <= x1 ->
  Rmin y0 y1 <= chord x0 y0 x1 y1 x <= Rmax y0 y1.
Proof.
  intros H H1.
  assert (0 <= (x - x0) / (x1 - x0) <= 1).
  { assert (Hp : 0 < / (x1 - x0)) by (apply Rinv_0_lt_compat; lra).
    assert ((x1 - x0) * / (x1 - x0) = 1) by (field; lra).
    unfold Rdiv. split; nra. }
  unfold chord. revert H0. generalize ((x - x0) / (x1 - x0)). intros u Hu.
  unfold Rmin, Rmax. destruct (Rle_dec y0 y1); nra.
Qed.

Lemma chord_affine x0 y0 x1 y1 : x0 <> x1 ->
  exists a b, forall x, chord x0 y0 x1 y1 x = a + b * x.
Proof.
  intros H. exists (y0 - (y1 - y0) / (x1 - x0) * x0), ((y1 - y0) / (x1 - x0)).
  intros x. unfold chord. field. lra.
Qed.

(** * Joint continuity *)
Definition cont2 (f : R -> R -> R) : Prop :=
  forall s x eps, 0 < eps -> exists d, 0 < d /\ forall s' x',
    Rabs (s' - s) < d -> Rabs (x' - x) < d -> Rabs (f s' x' - f s x) < eps.
Definition cont1 (f : R -> R) : Prop :=
  forall s eps, 0 < eps -> exists d, 0 < d /\ forall s',
    Rabs (s' - s) < d -> Rabs (f s' - f s) < eps.

Ltac rabs_split := repeat (match goal with
  | H : Rabs _ < _ |- _ => apply Rabs_def2 in H; destruct H end); try apply Rabs_def1.

Lemma cont2_ext f g : (forall s x, f s x = g s x) -> cont2 f -> cont2 g.
Proof.
  intros E C s x eps He. destruct (C s x eps He) as (d & Hd & H).
  exists d; split; auto. intros. rewrite <- !E. auto.
Qed.
Lemma cont2_const c : cont2 (fun _ _ => c).
Proof. intros s x eps He. exists 1; split; [lra|]. intros. rabs_split; lra. Qed.
Lemma cont2_snd : cont2 (fun _ x => x).
Proof. intros s x eps He. exists eps; split; auto. Qed.
Lemma cont2_fst f : cont1 f -> cont2 (fun s _ => f s).
Proof.
  intros C s x eps He. destruct (C s eps He) as (d & Hd & H). exists d; split; auto.
Qed.
Lemma cont2_cont1 f c : cont2 f -> cont1 (fun x => f c x).
Proof.
  intros C x eps He. destruct (C c x eps He) as (d & Hd & H). exists d; split; auto.
  intros x' Hx. apply H; auto. replace (c - c) with 0 by lra. rewrite Rabs_R0. auto.
Qed.
Lemma cont2_plus f g : cont2 f -> cont2 g -> cont2 (fun s x => f s x + g s x).
Proof.
  intros C1 C2 s x eps He.
  destruct (C1 s x (eps/2) ltac:(lra)) as (d1 & Hd1 & H1).
  destruct (C2 s x (eps/2) ltac:(lra)) as (d2 & Hd2 & H2).
  exists (Rmin d1 d2). split; [apply Rmin_glb_lt; auto|].
  intros s' x' Hs Hx.
  pose proof (Rmin_l d1 d2). pose proof (Rmin_r d1 d2).
  specialize (H1 s' x' ltac:(lra) ltac:(lra)). specialize (H2 s' x' ltac:(lra) ltac:(lra)).
  apply Rabs_def2 in H1, H2. apply Rabs_def1; lra.
Qed.
Lemma cont2_mult f g : cont2 f -> cont2 g -> cont2 (fun s x => f s x * g s x).
Proof.
  intros C1 C2 s x eps He.
  set (a := f s x). set (b := g s x).
  set (M := Rabs a + Rabs b + 1).
  assert (HM : 1 <= M) by (unfold M; pose proof (Rabs_pos a); pose proof (Rabs_pos b); lra).
  set (e := Rmin 1 (eps / (2 * M))).
  assert (He0 : 0 < e).
  { unfold e. apply Rmin_glb_lt; [lra|]. apply Rdiv_lt_0_compat; lra. }
  destruct (C1 s x e He0) as (d1 & Hd1 & H1).
  destruct (C2 s x e He0) as (d2 & Hd2 & H2).
  exists (Rmin d1 d2). split; [apply Rmin_glb_lt; auto|].
  intros s' x' Hs Hx.
  pose proof (Rmin_l d1 d2). pose proof (Rmin_r d1 d2).
  specialize (H1 s' x' ltac:(lra) ltac:(lra)). specialize (H2 s' x' ltac:(lra) ltac:(lra)).
  fold a in H1. fold b in H2.
  set (a' := f s' x') in *. set (b' := g s' x') in *.
  replace (a' * b' - a * b) with ((a' - a) * b' + a * (b' - b)) by ring.
  assert (E1 : e <= 1) by apply Rmin_l.
  assert (E2 : e * (2 * M) <= eps).
  { assert (e <= eps / (2 * M)) by apply Rmin_r.
    apply Rmult_le_compat_r with (r := 2 * M) in H3; [|lra].
    replace (eps / (2 * M) * (2 * M)) with eps in H3 by (field; lra). auto. }
  eapply Rle_lt_trans; [apply Rabs_triang|]. rewrite !Rabs_mult.
  assert (B : Rabs b' <= Rabs b + 1).
  { replace b' with (b + (b' - b)) by ring. eapply Rle_trans; [apply Rabs_triang|]. lra. }
  pose proof (Rabs_pos a). pose proof (Rabs_pos b). pose proof (Rabs_pos b').
  pose proof (Rabs_pos (a' - a)). pose proof (Rabs_pos (b' - b)).
  assert (Rabs (a' - a) * Rabs b' <= e * (Rabs b + 1)) by (apply Rmult_le_compat; lra).
  assert (Rabs a * Rabs (b' - b) <= Rabs a * e) by (apply Rmult_le_compat_l; lra).
  assert (e * M < eps) by nra.
  unfold M in *. nra.
Qed.
Lemma cont2_opp f : cont2 f -> cont2 (fun s x => - f s x).
Proof.
  intros C. apply (cont2_ext (fun s x => (-1) * f s x)); [intros; ring|].
  apply cont2_mult; auto. apply cont2_const.
Qed.
Lemma cont2_minus f g : cont2 f -> cont2 g -> cont2 (fun s x => f s x - g s x).
Proof. intros. apply cont2_plus; auto. apply cont2_opp; auto. Qed.
Lemma cont2_comp_x f h : cont2 f -> (forall x y, Rabs (h x - h y) <= Rabs (x - y)) ->
  cont2 (fun s x => f s (h x)).
Proof.
  intros C L s x eps He. destruct (C s (h x) eps He) as (d & Hd & H).
  exists d; split; auto. intros s' x' Hs Hx. apply H; auto.
  eapply Rle_lt_trans; [apply L|auto].
Qed.
Lemma Rmin_lip c x y : Rabs (Rmin x c - Rmin y c) <= Rabs (x - y).
Proof.
  unfold Rmin, Rabs. repeat destruct Rle_dec; repeat destruct Rcase_abs; lra.
Qed.
Lemma Rmax_lip c x y : Rabs (Rmax x c - Rmax y c) <= Rabs (x - y).
Proof.
  unfold Rmax, Rabs. repeat destruct Rle_dec; repeat destruct Rcase_abs; lra.
Qed.

(** The pasting formula. *)
Lemma lin1_paste x0 x1 x2 xs y0 y1 ys x :
  sortedR (x0 :: x1 :: x2 :: xs) -> length ys = length (x2 :: xs) ->
  lin1 (x0 :: x1 :: x2 :: xs) (y0 :: y1 :: ys) x =
  chord x0 y0 x1 y1 (Rmin x x1) + (lin1 (x1 :: x2 :: xs) (y1 :: ys) (Rmax x x1) - y1).
Proof.
  intros S L. pose proof (sorted_12 _ _ _ S). rewrite lin1_3.
  destruct (Rltb_spec x x1).
  - rewrite Rmin_left, Rmax_right by lra. rewrite lin1_first; auto; [lra|].
    eapply sorted_tl; eauto.
  - rewrite Rmin_right, Rmax_left by lra. rewrite chord_r by lra. lra.
Qed.

Lemma cont2_chord x0 x1 f g : x0 < x1 -> cont1 f -> cont1 g ->
  cont2 (fun s x => chord x0 (f s) x1 (g s) x).
Proof.
  intros H Cf Cg. unfold chord.
  apply cont2_plus; [apply cont2_fst; auto|]. apply cont2_mult.
  - apply cont2_minus; apply cont2_fst; auto.
  - apply (cont2_ext (fun s x => (x - x0) * / (x1 - x0))); [reflexivity|].
    apply cont2_mult; [|apply cont2_const]. apply cont2_minus; [apply cont2_snd|apply cont2_const].
Qed.

Lemma lin1_cont2 xs (fs : list (R -> R)) : sortedR xs -> length fs = length xs ->
  Forall cont1 fs -> cont2 (fun s x => lin1 xs (map (fun f => f s) fs) x).
Proof.
  revert fs; induction xs as [|x0 xs IH]; intros fs S L F.
  - destruct fs; [|discriminate]. apply (cont2_const (lit 0)).
  - destruct fs as [|f0 fs]; [discriminate|]. inversion F as [|? ? F0 F']; subst.
    destruct xs as [|x1 xs]; [simpl; apply cont2_fst; auto|].
    destruct fs as [|f1 fs]; [discriminate|]. inversion F' as [|? ? F1 F'']; subst.
    pose proof (sorted_12 _ _ _ S).
    destruct xs as [|x2 xs].
    + apply (cont2_ext (fun s x => chord x0 (f0 s) x1 (f1 s) x)).
      * intros. cbn [map]. rewrite lin1_2. auto.
      * apply cont2_chord; auto.
    + apply (cont2_ext (fun s x => chord x0 (f0 s) x1 (f1 s) (Rmin x x1) +
        (lin1 (x1 :: x2 :: xs) (map (fun f => f s) (f1 :: fs)) (Rmax x x1) - f1 s))).
      * intros. cbn [map]. rewrite lin1_paste; auto. rewrite map_length. simpl in *; lia.
      * apply cont2_plus.
        -- apply (cont2_comp_x (fun s x => chord x0 (f0 s) x1 (f1 s) x) (fun x => Rmin x x1)).
           ++ apply cont2_chord; auto.
           ++ intros. apply Rmin_lip.
        -- apply cont2_minus; [|apply cont2_fst; auto].
           apply (cont2_comp_x (fun s x => lin1 (x1 :: x2 :: xs) (map (fun f => f s) (f1 :: fs)) x)
                    (fun x => Rmax x x1)).
           ++ apply IH; auto. eapply sorted_tl; eauto.
           ++ intros. apply Rmax_lip.
Qed.

Lemma lin1_cont1 xs ys : sortedR xs -> length ys = length xs -> cont1 (fun x => lin1 xs ys x).
Proof.
  intros S L.
  pose proof (lin1_cont2 xs (map (fun y _ => y) ys) S ltac:(rewrite map_length; auto)) as C.
  assert (F : Forall cont1 (map (fun (y : R) (_ : R) => y) ys)).
  { apply Forall_forall. intros f Hf. apply in_map_iff in Hf. destruct Hf as (y & <- & _).
    intros s eps He. exists 1; split; [lra|]. intros. rabs_split; lra. }
  specialize (C F). apply (cont2_cont1 _ 0) in C.
  intros x eps He. destruct (C x eps He) as (d & Hd & H). exists d; split; auto.
  intros x' Hx. specialize (H x' Hx). rewrite !map_map, !map_id in H. auto.
Qed.
