(** Shape of the maps the table builders make, between and beyond the rated
    temperatures. *)
From Coq Require Import Reals QArith Lra Lia List Bool Sorted ZArith.
From Verif.Base Require Import Num Res Tac.
From Verif.Model Require Import Units Util Curves Tabular.
From Verif.Spec Require Import TabularSpec MapShapeSpec.
From Verif.Proofs Require Import UnitsR Lin1 TabCells TabAdd TabInterp TabBuild TabTotal TabNeep TabNeep2.
Import ListNotations.
Local Open Scope R_scope.

(** * One row determines the map at its temperature *)
Lemma good_row (t ti : table R) vals u z : interpolated t ti -> good t vals -> In u (t_temps t) ->
  exists i r, nth_error (t_temps t) i = Some u /\ nth_error vals i = Some r
    /\ length r = t_n t
    /\ calculate z u ti = Ok (lin1 (speed_axis (t_n t)) r z).
Proof.
  intros I G Hu. rewrite (interpolated_calc t ti vals) by auto.
  destruct G as (G1 & G2 & G3 & G4 & G5 & G6).
  apply In_nth_error in Hu. destruct Hu as (i & Hi).
  assert (exists r, nth_error vals i = Some r) as (r & Hr).
  { destruct (nth_error vals i) eqn:E; eauto. apply nth_error_None in E.
    assert (i < length (t_temps t))%nat by (apply nth_error_Some; congruence). lia. }
  exists i, r. do 2 (split; [auto|]). split.
  - rewrite Forall_forall in G4. apply G4. eapply nth_error_In; eauto.
  - f_equal. unfold grid_eval. cbn [g_temps g_vals g_n].
    apply (lin1_node (t_temps t) _ i u); auto.
    + rewrite map_length; auto.
    + apply (rows_nth vals (fun r => lin1 (speed_axis (t_n t)) r z)). auto.
Qed.

Lemma calc_rows (t ti t1 t1i : table R) u v z : interpolated t ti -> interpolated t1 t1i ->
  t_n t1 = t_n t -> In u (t_temps t) -> In v (t_temps t1) ->
  (forall j, (j < t_n t)%nat -> t_get (Z.of_nat (S j)) v t1 = t_get (Z.of_nat (S j)) u t) ->
  calculate z v t1i = calculate z u ti.
Proof.
  intros I I1 N Hu Hv H.
  destruct (interpolated_inv _ _ I) as (vals & G & _).
  destruct (interpolated_inv _ _ I1) as (vals1 & G1 & _).
  destruct (good_row t ti vals u z I G Hu) as (i & r & A1 & A2 & A3 & ->).
  destruct (good_row t1 t1i vals1 v z I1 G1 Hv) as (k & q & B1 & B2 & B3 & ->).
  f_equal. rewrite N. f_equal. apply nth_error_ext. intros j.
  destruct (Nat.lt_ge_cases j (t_n t)) as [L|L].
  - specialize (H j L).
    rewrite (get_nth2 t1 k v j (proj1 (good_wf _ _ G1)) B1),
            (get_nth2 t i u j (proj1 (good_wf _ _ G)) A1) in H.
    rewrite (good_nth t1 vals1 k j G1), (good_nth t vals i j G), A2, B2 in H.
    destruct (nth_error q j) as [a|] eqn:Ea, (nth_error r j) as [b|] eqn:Eb; cbn [option_map need] in H;
      inversion H; auto.
  - transitivity (@None R); [apply nth_error_None; lia|symmetry; apply nth_error_None; lia].
Qed.

(** * Adding rows *)
Lemma add_not_in x e m (t t1 : table R) : wf_table t -> add_temperature x e m t = (t1, Ok tt) ->
  ~ In x (t_temps t).
Proof. intros W E H. rewrite (add_present t x e m H) in E. discriminate. Qed.

Lemma add_filled_back x e m (t t1 : table R) : wf_table t -> add_temperature x e m t = (t1, Ok tt) ->
  filled t1 -> filled t.
Proof.
  intros W E F. destruct (add_any t t1 x e m _ W (add_not_in _ _ _ _ _ W E) E)
    as (l1 & l2 & d1 & d2 & row & _ & Ed & _ & _ & _ & _ & _ & ->).
  unfold filled in *. rewrite Ed. cbn [t_data put_row w_data] in F.
  apply Forall_app in F. destruct F as (F1 & F2). apply Forall_app. split; auto.
  inversion F2; auto.
Qed.

Lemma add_node x e m (t ti t1 t1i : table R) u z : wf_table t -> add_temperature x e m t = (t1, Ok tt) ->
  interpolated t ti -> interpolated t1 t1i -> In u (t_temps t) ->
  calculate z u t1i = calculate z u ti.
Proof.
  intros W E I I1 Hu. destruct (add_wf _ _ _ _ _ _ W E) as (W1 & N & _ & _ & HI & HG & _).
  apply (calc_rows t ti t1 t1i u u z); auto.
  - apply HI; auto.
Qed.

Lemma interp_filled (t ti : table R) : interpolated t ti -> filled t /\ t_n t <> 0%nat.
Proof.
  intros I. destruct (interpolated_inv _ _ I) as (vals & G & _). split.
  - apply (good_wf _ _ G).
  - apply G.
Qed.

(** The map on a segment. *)
Lemma seg (t ti : table R) a b z x : interpolated t ti -> consecutive (t_temps t) a b ->
  (a <= x \/ forall y, In y (t_temps t) -> a <= y) ->
  (x <= b \/ forall y, In y (t_temps t) -> y <= b) ->
  on_line (fun x => calculate z x ti) a b x.
Proof.
  intros I C Xa Xb.
  assert (L : a < b).
  { destruct (interpolated_inv _ _ I) as (vals & (_ & S & _) & _). eapply consecutive_lt; eauto. }
  destruct (calc_affine t ti a b z I C) as (p & q & H).
  exists (p + q * a), (p + q * b).
  rewrite (H a), (H b), (H x) by (auto; left; lra).
  split; auto. split; auto. f_equal. unfold line. field. lra.
Qed.

Lemma line_line p q a b x : a <> b -> line a (p + q * a) b (p + q * b) x = p + q * x.
Proof. intros. unfold line. field. lra. Qed.

Lemma consec1 (a b : R) l : consecutive (a :: b :: l) a b.
Proof. exists [], l. reflexivity. Qed.
Lemma consec2 (c a b : R) l : consecutive (c :: a :: b :: l) a b.
Proof. exists [c], l. reflexivity. Qed.
Lemma consec3 (d c a b : R) l : consecutive (d :: c :: a :: b :: l) a b.
Proof. exists [d; c], l. reflexivity. Qed.
Lemma consec4 (e d c a b : R) l : consecutive (e :: d :: c :: a :: b :: l) a b.
Proof. exists [e; d; c], l. reflexivity. Qed.
Lemma consec5 (g e d c a b : R) l : consecutive (g :: e :: d :: c :: a :: b :: l) a b.
Proof. exists [g; e; d; c], l. reflexivity. Qed.

Lemma add_below_temps x e m (t t1 : table R) u1 u2 l : wf_table t -> filled t ->
  t_temps t = u1 :: u2 :: l -> x < u1 -> add_temperature x e m t = (t1, Ok tt) ->
  t_temps t1 = x :: u1 :: u2 :: l.
Proof.
  intros W F ET Hx E. rewrite (add_below t u1 u2 l x e m W F ET Hx) in E. inversion E.
  cbn [t_temps put_row w_data w_temps]. rewrite ET. reflexivity.
Qed.
Lemma add_above_temps x e m (t t1 : table R) u1 u2 l : wf_table t -> filled t ->
  t_temps t = l ++ [u1; u2] -> u2 < x -> add_temperature x e m t = (t1, Ok tt) ->
  t_temps t1 = t_temps t ++ [x].
Proof.
  intros W F ET Hx E. rewrite (add_above t u1 u2 l x e m W F ET Hx) in E. inversion E.
  reflexivity.
Qed.

(** The row added above without extrapolation repeats the last one. *)
Lemma add_flat_row x (t t1 : table R) u1 u2 l s : wf_table t -> filled t ->
  t_temps t = l ++ [u1; u2] -> u2 < x -> add_temperature x false None t = (t1, Ok tt) ->
  (s < t_n t)%nat -> t_get (Z.of_nat (S s)) x t1 = t_get (Z.of_nat (S s)) u2 t1.
Proof.
  intros W F ET Hx E Hs. destruct (add_wf _ _ _ _ _ _ W E) as (W1 & N & _ & _ & HI & HG & _).
  rewrite (HG u2) by (rewrite ET; apply in_app_iff; cbn [In]; auto).
  pose proof (add_above_temps _ _ _ _ _ _ _ _ W F ET Hx E) as ET1.
  assert (Lt : length (t_temps t) = S (S (length l))) by (rewrite ET, app_length; cbn [length]; lia).
  rewrite (get_nth2 t1 (S (S (length l))) x s W1)
    by (rewrite ET1, nth_error_app2 by lia; rewrite Lt, Nat.sub_diag; reflexivity).
  rewrite (get_nth2 t (S (length l)) u2 s W).
  2:{ rewrite ET, nth_error_app2 by lia. replace (S (length l) - length l)%nat with 1%nat by lia. reflexivity. }
  rewrite (add_above t u1 u2 l x false None W F ET Hx) in E. inversion E.
  cbn [t_data put_row w_data].
  assert (Ld : length (t_data t) = S (S (length l))) by (destruct W as (_ & W2 & _); rewrite W2; auto).
  f_equal. unfold nth2 at 1. rewrite nth_error_app2 by lia. rewrite Ld, Nat.sub_diag. cbn [nth_error].
  rewrite nth_map_seq by auto. unfold above_spec. rewrite opt_at_spec; auto. lia.
Qed.

(** * Chains of rows *)
Lemma wf_add x e m (t t1 : table R) : wf_table t -> add_temperature x e m t = (t1, Ok tt) -> wf_table t1.
Proof. intros W E. apply (add_wf _ _ _ _ _ _ W E). Qed.
Lemma n_add x e m (t t1 : table R) : wf_table t -> add_temperature x e m t = (t1, Ok tt) -> t_n t1 = t_n t.
Proof. intros W E. apply (add_wf _ _ _ _ _ _ W E). Qed.

Lemma interp_before x e m (t t1 t1i : table R) : wf_table t -> add_temperature x e m t = (t1, Ok tt) ->
  t_temps t <> [] -> interpolated t1 t1i -> exists ti, interpolated t ti.
Proof.
  intros W E NE I. destruct (interp_filled _ _ I) as (F & N).
  apply interpolated_exists; auto.
  - eapply add_filled_back; eauto.
  - rewrite (n_add _ _ _ _ _ W E) in N. auto.
Qed.

Lemma flat_above (t t1 t1i : table R) x u1 u2 l z y : wf_table t ->
  t_temps t = l ++ [u1; u2] -> u2 < x ->
  add_temperature x false None t = (t1, Ok tt) -> interpolated t1 t1i ->
  u2 <= y -> calculate z y t1i = calculate z u2 t1i.
Proof.
  intros W ET Hx E I1 Hy. pose proof (add_filled_back _ _ _ _ _ W E (proj1 (interp_filled _ _ I1))) as F.
  pose proof (add_above_temps _ _ _ _ _ _ _ _ W F ET Hx E) as ET1.
  assert (C : consecutive (t_temps t1) u2 x).
  { exists (l ++ [u1]), []. rewrite ET1, ET, <- !app_assoc. reflexivity. }
  assert (W1 := wf_add _ _ _ _ _ W E).
  destruct (seg t1 t1i u2 x z y I1 C) as (v & w & A & B & D); [left; auto|right|].
  { intros q Hq. destruct C as (l1 & l2 & C). destruct W1 as (S & _).
    rewrite ET1 in Hq, S. apply in_app_iff in Hq. destruct Hq as [Hq|[<-|[]]]; [|lra].
    destruct (interpolated_inv _ _ I1) as (vals & (_ & S1 & _) & _). rewrite ET1 in S1.
    apply Rlt_le. revert S Hq. clear.
    induction (t_temps t) as [|c T IH]; intros S Hq; [destruct Hq|]. cbn [app] in S.
    apply StronglySorted_inv in S. destruct S as (S & Fa). destruct Hq as [<-|Hq]; auto.
    rewrite Forall_forall in Fa. apply Fa. apply in_app_iff. cbn [In]; auto. }
  assert (calculate z x t1i = calculate z u2 t1i) as Q.
  { apply (calc_rows t1 t1i t1 t1i u2 x z); auto.
    - rewrite ET1, ET. apply in_app_iff. left. apply in_app_iff. cbn [In]; auto.
    - rewrite ET1. apply in_app_iff. cbn [In]; auto.
    - intros j Hj. rewrite (n_add _ _ _ _ _ W E) in Hj.
      apply (add_flat_row x t t1 u1 u2 l j W F ET Hx E Hj). }
  cbv beta in A, B, D. rewrite Q, A in B. inversion B; subst w. rewrite A, D. f_equal. unfold line.
  unfold Rdiv. ring.
Qed.

Lemma two_rows (t ti : table R) a b z : interpolated t ti -> t_temps t = [a; b] ->
  exists p q, forall x, calculate z x ti = Ok (p + q * x).
Proof.
  intros I ET. destruct (calc_affine t ti a b z I) as (p & q & H).
  { rewrite ET. apply consec1. }
  assert (L : a < b).
  { destruct (interpolated_inv _ _ I) as (vals & (_ & S & _) & _). rewrite ET in S. apply (sorted_12 _ _ _ S). }
  exists p, q. intros x. apply H; right; rewrite ET; cbn [In]; intros y [<-|[<-|[]]]; lra.
Qed.

Lemma on_line_of (f : R -> res R) p q a b x : a <> b ->
  f a = Ok (p + q * a) -> f b = Ok (p + q * b) -> f x = Ok (p + q * x) -> on_line f a b x.
Proof.
  intros N A B C. exists (p + q * a), (p + q * b). do 2 (split; auto). rewrite C. f_equal.
  symmetry. apply line_line. auto.
Qed.
Lemma on_line_inv (f : R -> res R) p q a b x : a <> b ->
  f a = Ok (p + q * a) -> f b = Ok (p + q * b) -> on_line f a b x -> f x = Ok (p + q * x).
Proof.
  intros N A B (va & vb & A' & B' & C). rewrite A in A'. rewrite B in B'.
  inversion A'; inversion B'; subst. rewrite C, line_line; auto.
Qed.

(** Heating tables of the single- and two-speed models: rows at [a] and [b],
    two extrapolated rows below and a repeated row above. *)
Lemma heat_chain (t0 t1 t2 t3 t3i : table R) a b v w y z : wf_table t0 -> t_temps t0 = [a; b] ->
  w < v -> v < a -> b < y ->
  add_temperature v true None t0 = (t1, Ok tt) -> add_temperature w true None t1 = (t2, Ok tt) ->
  add_temperature y false None t2 = (t3, Ok tt) -> interpolated t3 t3i ->
  heating_shape (fun x => calculate z x t3i) a b.
Proof.
  intros W0 T0 Hw Hv Hy E1 E2 E3 I3.
  pose proof (wf_add _ _ _ _ _ W0 E1) as W1. pose proof (wf_add _ _ _ _ _ W1 E2) as W2.
  pose proof (wf_add _ _ _ _ _ W2 E3) as W3.
  pose proof (add_filled_back _ _ _ _ _ W2 E3 (proj1 (interp_filled _ _ I3))) as F2.
  pose proof (add_filled_back _ _ _ _ _ W1 E2 F2) as F1.
  pose proof (add_filled_back _ _ _ _ _ W0 E1 F1) as F0.
  pose proof (add_below_temps _ _ _ _ _ _ _ _ W0 F0 T0 Hv E1) as T1.
  pose proof (add_below_temps _ _ _ _ _ _ _ _ W1 F1 T1 Hw E2) as T2.
  pose proof (add_above_temps _ _ _ _ _ a b [w; v] W2 F2 T2 Hy E3) as T3. rewrite T2 in T3. cbn [app] in T3.
  destruct (interp_before _ _ _ _ _ _ W2 E3 ltac:(rewrite T2; discriminate) I3) as (t2i & I2).
  destruct (interp_before _ _ _ _ _ _ W1 E2 ltac:(rewrite T1; discriminate) I2) as (t1i & I1).
  destruct (interp_before _ _ _ _ _ _ W0 E1 ltac:(rewrite T0; discriminate) I1) as (t0i & I0).
  assert (L : a < b) by (destruct W0 as (S & _); rewrite T0 in S; apply (sorted_12 _ _ _ S)).
  destruct (two_rows t0 t0i a b z I0 T0) as (p & q & H0).
  assert (H2 : forall x, calculate z x t2i = Ok (p + q * x)).
  { intros x. rewrite (extend_below t1 t1i t2 t2i w v a [b] W1 F1 T1 Hw E2 I1 I2),
      (extend_below t0 t0i t1 t1i v a b [] W0 F0 T0 Hv E1 I0 I1). apply H0. }
  assert (H3 : forall x, In x [w; v; a; b] -> calculate z x t3i = Ok (p + q * x)).
  { intros x Hx. rewrite <- T2 in Hx. rewrite (add_node _ _ _ t2 t2i t3 t3i x z W2 E3 I2 I3 Hx). apply H2. }
  intros x. split; intros Hx.
  - apply (on_line_of (fun x => calculate z x t3i) p q); [lra|apply H3; cbn [In]; auto|apply H3; cbn [In]; auto|].
    destruct (Rle_dec a x) as [Ha|Ha]; [|destruct (Rle_dec v x) as [Hv'|Hv']].
    + apply (on_line_inv (fun x => calculate z x t3i) p q a b); [lra|apply H3; cbn [In]; auto|apply H3; cbn [In]; auto|].
      apply (seg t3); auto. rewrite T3. apply consec3.
    + apply (on_line_inv (fun x => calculate z x t3i) p q v a); [lra|apply H3; cbn [In]; auto|apply H3; cbn [In]; auto|].
      apply (seg t3); [auto|rewrite T3; apply consec2|auto|left; lra].
    + apply (on_line_inv (fun x => calculate z x t3i) p q w v); [lra|apply H3; cbn [In]; auto|apply H3; cbn [In]; auto|].
      apply (seg t3); [auto|rewrite T3; apply consec1|right|left; lra].
      rewrite T3. cbn [In]. intros u [<-|[<-|[<-|[<-|[<-|[]]]]]]; lra.
  - apply (flat_above t2 t3 t3i y a b [w; v]); auto.
Qed.

(** Heating tables with a row at [v] below [a] and [b] and one extrapolated row. *)
Lemma neep_chain (t1 t2 t3 t3i : table R) a b v w y z : wf_table t1 -> t_temps t1 = [v; a; b] ->
  w < v -> b < y ->
  add_temperature w true None t1 = (t2, Ok tt) ->
  add_temperature y false None t2 = (t3, Ok tt) -> interpolated t3 t3i ->
  forall x, (x <= a -> on_line (fun x => calculate z x t3i) v a x) /\
    (a <= x <= b -> on_line (fun x => calculate z x t3i) a b x) /\
    (b <= x -> calculate z x t3i = calculate z b t3i).
Proof.
  intros W1 T1 Hw Hy E2 E3 I3.
  pose proof (wf_add _ _ _ _ _ W1 E2) as W2.
  pose proof (wf_add _ _ _ _ _ W2 E3) as W3.
  pose proof (add_filled_back _ _ _ _ _ W2 E3 (proj1 (interp_filled _ _ I3))) as F2.
  pose proof (add_filled_back _ _ _ _ _ W1 E2 F2) as F1.
  pose proof (add_below_temps _ _ _ _ _ _ _ _ W1 F1 T1 Hw E2) as T2.
  pose proof (add_above_temps _ _ _ _ _ a b [w; v] W2 F2 T2 Hy E3) as T3. rewrite T2 in T3. cbn [app] in T3.
  destruct (interp_before _ _ _ _ _ _ W2 E3 ltac:(rewrite T2; discriminate) I3) as (t2i & I2).
  destruct (interp_before _ _ _ _ _ _ W1 E2 ltac:(rewrite T1; discriminate) I2) as (t1i & I1).
  assert (L : v < a /\ a < b).
  { destruct W1 as (S & _); rewrite T1 in S. split; [apply (sorted_12 _ _ _ S)|].
    apply sorted_tl in S. apply (sorted_12 _ _ _ S). }
  destruct L as (L1 & L2).
  destruct (calc_affine t1 t1i v a z I1) as (p & q & H1); [rewrite T1; apply consec1|].
  assert (H1' : forall x, x <= a -> calculate z x t1i = Ok (p + q * x)).
  { intros x Hx. apply H1; auto. right. rewrite T1. cbn [In]. intros u [<-|[<-|[<-|[]]]]; lra. }
  assert (H2 : forall x, x <= a -> calculate z x t2i = Ok (p + q * x)).
  { intros x Hx. rewrite (extend_below t1 t1i t2 t2i w v a [b] W1 F1 T1 Hw E2 I1 I2). auto. }
  assert (H3 : forall x, In x [w; v; a] -> calculate z x t3i = Ok (p + q * x)).
  { intros x Hx. rewrite (add_node _ _ _ t2 t2i t3 t3i x z W2 E3 I2 I3).
    - apply H2. cbn [In] in Hx. destruct Hx as [<-|[<-|[<-|[]]]]; lra.
    - rewrite T2. cbn [In] in *. tauto. }
  intros x. split; [|split]; intros Hx.
  - apply (on_line_of (fun x => calculate z x t3i) p q); [lra|apply H3; cbn [In]; auto|apply H3; cbn [In]; auto|].
    destruct (Rle_dec v x) as [Hv'|Hv'].
    + apply (on_line_inv (fun x => calculate z x t3i) p q v a); [lra|apply H3; cbn [In]; auto|apply H3; cbn [In]; auto|].
      apply (seg t3); [auto|rewrite T3; apply consec2|auto|left; lra].
    + apply (on_line_inv (fun x => calculate z x t3i) p q w v); [lra|apply H3; cbn [In]; auto|apply H3; cbn [In]; auto|].
      apply (seg t3); [auto|rewrite T3; apply consec1|right|left; lra].
      rewrite T3. cbn [In]. intros u [<-|[<-|[<-|[<-|[<-|[]]]]]]; lra.
  - apply (seg t3); [auto|rewrite T3; apply consec3|left; lra|left; lra].
  - apply (flat_above t2 t3 t3i y a b [w; v]); auto.
Qed.

(** Cooling tables. *)
Lemma cool_chain (t0 t1 t2 t2i : table R) a b c y : wf_table t0 -> t_temps t0 = [a; b] ->
  c < a -> b < y ->
  add_temperature c true (Some (lit 0.5)) t0 = (t1, Ok tt) -> add_temperature y true None t1 = (t2, Ok tt) ->
  interpolated t2 t2i ->
  (forall z, cooling_shape (fun x => calculate z x t2i) c a b) /\
  (forall s, (1 <= s <= Z.of_nat (t_n t0))%Z -> floored_at_half (fun x => calculate (IZR s) x t2i) c a b).
Proof.
  intros W0 T0 Hc Hy E1 E2 I2.
  pose proof (wf_add _ _ _ _ _ W0 E1) as W1. pose proof (wf_add _ _ _ _ _ W1 E2) as W2.
  pose proof (add_filled_back _ _ _ _ _ W1 E2 (proj1 (interp_filled _ _ I2))) as F1.
  pose proof (add_filled_back _ _ _ _ _ W0 E1 F1) as F0.
  pose proof (add_below_temps _ _ _ _ _ _ _ _ W0 F0 T0 Hc E1) as T1.
  destruct (interp_before _ _ _ _ _ _ W1 E2 ltac:(rewrite T1; discriminate) I2) as (t1i & I1).
  assert (L : a < b) by (destruct W0 as (S & _); rewrite T0 in S; apply (sorted_12 _ _ _ S)).
  pose proof (extend_above t1 t1i t2 t2i y a b [c] W1 F1 T1 Hy E2 I1 I2) as EQ.
  assert (OL : forall z u v x, on_line (fun x => calculate z x t1i) u v x -> on_line (fun x => calculate z x t2i) u v x).
  { intros z u v x (va & vb & A & B & D). exists va, vb. rewrite !EQ. auto. }
  split.
  - intros z x. split; intros Hx; apply OL; apply (seg t1); auto.
    + rewrite T1. apply consec2.
    + right. rewrite T1. cbn [In]. intros u [<-|[<-|[<-|[]]]]; lra.
    + rewrite T1. apply consec1.
    + right. rewrite T1. cbn [In]. intros u [<-|[<-|[<-|[]]]]; lra.
  - intros s Hs. destruct (valid_speed_nat t0 s Hs) as (j & -> & Hj).
    assert (N1 : t_n t1 = t_n t0) by (eapply n_add; eauto).
    assert (V1 : valid_speed t1 (Z.of_nat (S j))) by (unfold valid_speed; rewrite N1; exact Hs).
    exists (val_at t0 0 j), (val_at t0 1 j).
    destruct (add_wf _ _ _ _ _ _ W0 E1) as (_ & _ & _ & _ & _ & HG & _).
    assert (G0 : t_get (Z.of_nat (S j)) a t1 = Ok (Some (val_at t0 0 j))).
    { rewrite HG by (rewrite T0; cbn [In]; auto).
      rewrite (get_nth2 t0 0 a j W0) by (rewrite T0; reflexivity).
      rewrite val_at_spec; auto. rewrite T0. cbn [length]. lia. }
    assert (G1 : t_get (Z.of_nat (S j)) b t1 = Ok (Some (val_at t0 1 j))).
    { rewrite HG by (rewrite T0; cbn [In]; auto).
      rewrite (get_nth2 t0 1 b j W0) by (rewrite T0; reflexivity).
      rewrite val_at_spec; auto. rewrite T0. cbn [length]. lia. }
    cbv beta. rewrite !EQ. split; [|split].
    + eapply calc_node; eauto.
    + eapply calc_node; eauto.
    + eapply calc_node; eauto. rewrite (get_nth2 t1 0 c j W1) by (rewrite T1; reflexivity).
      rewrite (add_below t0 a b [] c true (Some (lit 0.5)) W0 F0 T0 Hc) in E1. inversion E1.
      cbn [t_data put_row w_data app]. unfold nth2. cbn [nth_error]. rewrite nth_map_seq by auto.
      unfold below_spec. cbn [need]. do 2 f_equal. f_equal.
      * unfold line. field. lra.
      * f_equal. unfold lit. cbn. lra.
Qed.

(** * The builders *)
Definition wtn (T : list R) (n : nat) (t : table R) : Prop :=
  wf_table t /\ t_temps t = T /\ t_n t = n.

Lemma wtn_set T n s x m (t t' : table R) : setter s x m -> ex m t = Ok t' -> (1 <= s <= Z.of_nat n)%Z ->
  wtn T n t -> wtn T n t'.
Proof.
  intros S E V (W & ET & N). apply ex_ok in E.
  assert (V' : valid_speed t s) by (unfold valid_speed; rewrite N; auto).
  destruct (setter_frame s x m t t' _ W V' S E) as (W' & C1 & C2 & _).
  split; [auto|split; congruence].
Qed.

Lemma wtn_new k T n : StronglySorted Rlt T -> wtn T n (new_table k T n None).
Proof. intros S. split; [apply (knows_new k n T S)|split; reflexivity]. Qed.

Ltac wuse H T n s x t t' st K :=
  let Q := fresh "KW" in
  assert (Q : wtn T n t') by (apply (wtn_set T n s x _ t t' st H); [lia|exact K]); clear H.
Ltac wstep :=
  match goal with
  | H : ex (t_set ?s ?x ?v) ?t = Ok ?t', K : wtn ?T ?n ?t |- _ =>
      wuse H T n s x t t' (set_value s x v) K
  | H : ex (set_by_maintenance ?s ?x ?ref ?r) ?t = Ok ?t', K : wtn ?T ?n ?t |- _ =>
      wuse H T n s x t t' (set_maint s x ref r) K
  | H : ex (set_by_interpolation ?s ?x) ?t = Ok ?t', K : wtn ?T ?n ?t |- _ =>
      wuse H T n s x t t' (set_interp s x) K
  | H : ex (set_by_ratio ?s ?x ?r) ?t = Ok ?t', K : wtn ?T ?n ?t |- _ =>
      wuse H T n s x t t' (set_ratio s x r) K
  end.

Lemma heat_ex n t0 t1 t2 t3 t3i a b v w y z : wtn [a; b] n t0 -> w < v -> v < a -> b < y ->
  ex (add_temperature v true None) t0 = Ok t1 -> ex (add_temperature w true None) t1 = Ok t2 ->
  ex (add_temperature y false None) t2 = Ok t3 -> ex set_interpolator t3 = Ok t3i ->
  heating_shape (fun x => calculate z x t3i) a b.
Proof.
  intros (W & ET & N) Hw Hv Hy E1 E2 E3 E4. apply ex_ok in E1, E2, E3, E4.
  exact (heat_chain t0 t1 t2 t3 t3i a b v w y z W ET Hw Hv Hy E1 E2 E3 E4).
Qed.

Lemma cool_ex n t0 t1 t2 t2i a b c y : wtn [a; b] n t0 -> c < a -> b < y ->
  ex (add_temperature c true (Some (lit 0.5))) t0 = Ok t1 -> ex (add_temperature y true None) t1 = Ok t2 ->
  ex set_interpolator t2 = Ok t2i ->
  (forall z, cooling_shape (fun x => calculate z x t2i) c a b) /\
  (forall s, (1 <= s <= Z.of_nat n)%Z -> floored_at_half (fun x => calculate (IZR s) x t2i) c a b).
Proof.
  intros (W & ET & N) Hc Hy E1 E2 E3. apply ex_ok in E1, E2, E3. rewrite <- N.
  exact (cool_chain t0 t1 t2 t2i a b c y W ET Hc Hy E1 E2 E3).
Qed.

Lemma temps_ord : fr_F (lit (T:=R) 5) < fr_F (lit (T:=R) 17) /\ fr_F (lit (T:=R) 17) < fr_F (lit (T:=R) 47)
  /\ fr_F (lit (T:=R) 47) < fr_F (lit (T:=R) 60) /\ fr_F (lit (T:=R) 60) < fr_F (lit (T:=R) 82)
  /\ fr_F (lit (T:=R) 82) < fr_F (lit (T:=R) 95).
Proof. repeat split; apply fr_F_lt; unfold lit; cbn; lra. Qed.

Ltac shape_cool := repeat match goal with
  | K : wtn [?a; ?b] ?n ?t0, E1 : ex (add_temperature ?c true (Some _)) ?t0 = Ok ?t1,
    E2 : ex (add_temperature ?y true None) ?t1 = Ok ?t2, E3 : ex set_interpolator ?t2 = Ok ?t2i |- _ =>
    let Q := fresh "CS" in
    assert (Q := cool_ex n t0 t1 t2 t2i a b c y K ltac:(lra) ltac:(lra) E1 E2 E3); clear E3
  end.
Ltac shape_heat := repeat match goal with
  | K : wtn [?a; ?b] ?n ?t0, E1 : ex (add_temperature ?v true None) ?t0 = Ok ?t1,
    E2 : ex (add_temperature ?w true None) ?t1 = Ok ?t2,
    E3 : ex (add_temperature ?y false None) ?t2 = Ok ?t3, E4 : ex set_interpolator ?t3 = Ok ?t3i |- _ =>
    let Q := fresh "HS" in
    assert (Q := fun z => heat_ex n t0 t1 t2 t3 t3i a b v w y z K ltac:(lra) ltac:(lra) ltac:(lra) E1 E2 E3 E4); clear E4
  end.

(** Temperatures of the goal as the model writes them, then abstracted. *)
Ltac set_temps :=
  replace (fr_F 5) with (fr_F (lit (T:=R) 5)) in * by (f_equal; unfold lit; cbn; lra);
  replace (fr_F 17) with (fr_F (lit (T:=R) 17)) in * by (f_equal; unfold lit; cbn; lra);
  replace (fr_F 47) with (fr_F (lit (T:=R) 47)) in * by (f_equal; unfold lit; cbn; lra);
  replace (fr_F 60) with (fr_F (lit (T:=R) 60)) in * by (f_equal; unfold lit; cbn; lra);
  replace (fr_F 82) with (fr_F (lit (T:=R) 82)) in * by (f_equal; unfold lit; cbn; lra);
  replace (fr_F 95) with (fr_F (lit (T:=R) 95)) in * by (f_equal; unfold lit; cbn; lra);
  let t5 := fresh "t5" in let t17 := fresh "t17" in let t47 := fresh "t47" in
  let t60 := fresh "t60" in let t82 := fresh "t82" in let t95 := fresh "t95" in
  let O := fresh "O" in let O1 := fresh "O1" in let O2 := fresh "O2" in let O3 := fresh "O3" in
  let O4 := fresh "O4" in let O5 := fresh "O5" in
  assert (O := temps_ord); destruct O as (O1 & O2 & O3 & O4 & O5);
  set (t5 := fr_F (lit 5)) in *; set (t17 := fr_F (lit 17)) in *; set (t47 := fr_F (lit 47)) in *;
  set (t60 := fr_F (lit 60)) in *; set (t82 := fr_F (lit 82)) in *; set (t95 := fr_F (lit 95)) in *;
  clearbody t5 t17 t47 t60 t82 t95.

Lemma single_shape q95 seer eer q47 q17 hspf tmax tmin cop47 cd p :
  make_single_speed_model_data q95 seer eer q47 q17 hspf tmax tmin cop47 cd = Ok p ->
  tmin < fr_F 5 -> fr_F 95 < tmax ->
  (forall z, heating_shape (heating_capacity p z) (fr_F 17) (fr_F 47)
    /\ heating_shape (heating_power p z) (fr_F 17) (fr_F 47)) /\ cooling_maps p 1.
Proof.
  intros H H5 H95. unfold make_single_speed_model_data in H. cbv zeta in H. unfold cooling_maps.
  set_temps.
  pose proof (wtn_new CoolingTable [t82; t95] 1 (sorted2 _ _ O5)) as KC.
  pose proof (wtn_new HeatingTable [t17; t47] 1 (sorted2 _ _ O2)) as KH.
  unfold finish, make_perf in H. inv_ok. inv_ex. repeat wstep. shape_cool. shape_heat. subst p.
  unfold heating_capacity, heating_power, cooling_capacity, cooling_power. cbn [p_cc p_cp p_hc p_hp].
  split; [intros z; split; [apply HS0|apply HS]|].
  split; [intros z; split; [apply CS0|apply CS]|intros s Hs; split; [apply CS0; lia|apply CS; lia]].
Qed.

Lemma two_shape q95 seer eer q47 q17 hspf tmax tmin cop82 cop47 p :
  make_two_speed_model_data q95 seer eer q47 q17 hspf tmax tmin cop82 cop47 = Ok p ->
  tmin < fr_F 5 -> fr_F 95 < tmax ->
  (forall z, heating_shape (heating_capacity p z) (fr_F 17) (fr_F 47)
    /\ heating_shape (heating_power p z) (fr_F 17) (fr_F 47)) /\ cooling_maps p 2.
Proof.
  intros H H5 H95. unfold make_two_speed_model_data in H. cbv zeta in H. unfold cooling_maps.
  set_temps.
  pose proof (wtn_new CoolingTable [t82; t95] 2 (sorted2 _ _ O5)) as KC.
  pose proof (wtn_new HeatingTable [t17; t47] 2 (sorted2 _ _ O2)) as KH.
  unfold finish, make_perf in H. inv_ok. inv_ex. repeat wstep. shape_cool. shape_heat. subst p.
  unfold heating_capacity, heating_power, cooling_capacity, cooling_power. cbn [p_cc p_cp p_hc p_hp].
  split; [intros z; split; [apply HS0|apply HS]|].
  split; [intros z; split; [apply CS0|apply CS]|intros s Hs; split; [apply CS0; lia|apply CS; lia]].
Qed.

(** * Tables with given rows *)
Lemma first_least (l : list R) a : sortedR (a :: l) -> forall y, In y (a :: l) -> a <= y.
Proof. intros S y [<-|H]; [lra|]. pose proof (sorted_hd _ _ _ S H). lra. Qed.

Lemma consec_more (l m : list R) a b : consecutive l a b -> consecutive (l ++ m) a b.
Proof. intros (l1 & l2 & ->). exists l1, (l2 ++ m). rewrite <- app_assoc. reflexivity. Qed.
Lemma consec_cons (l : list R) w a b : consecutive l a b -> consecutive (w :: l) a b.
Proof. intros (l1 & l2 & ->). exists (w :: l1), l2. reflexivity. Qed.

Lemma flat_joined (t t1 t1i : table R) T u1 u2 l y z : wf_table t -> t_temps t = T ->
  T = l ++ [u1; u2] -> u2 < y ->
  add_temperature y false None t = (t1, Ok tt) -> interpolated t1 t1i ->
  joined_shape (fun x => calculate z x t1i) T.
Proof.
  intros W ET EL Hy E I1. assert (ET' : t_temps t = l ++ [u1; u2]) by congruence.
  pose proof (add_filled_back _ _ _ _ _ W E (proj1 (interp_filled _ _ I1))) as F.
  pose proof (add_above_temps _ _ _ _ _ _ _ _ W F ET' Hy E) as ET1. rewrite ET in ET1.
  split; [|split].
  - intros a b x C Hx. apply (seg t1); auto; [|left; lra|left; lra].
    rewrite ET1. apply consec_more. auto.
  - intros a b l' x EQ Hx. subst T. rewrite EQ in ET1. cbn [app] in ET1.
    destruct (interpolated_inv _ _ I1) as (vals & (_ & S & _) & _). rewrite ET1 in S.
    apply (seg t1); auto; rewrite ET1.
    + apply consec1.
    + right. apply first_least. auto.
    + left. pose proof (sorted_12 _ _ _ S). lra.
  - intros b l' x EQ Hx. rewrite EL in EQ.
    change (l ++ [u1; u2]) with (l ++ [u1] ++ [u2]) in EQ. rewrite app_assoc in EQ.
    apply app_inj_tail in EQ. destruct EQ as (_ & <-).
    apply (flat_above t t1 t1i y u1 u2 l); auto.
Qed.

Lemma ext_joined (t t2 t3 t3i : table R) T v a l u1 u2 l2 w y z : wf_table t -> t_temps t = T ->
  T = v :: a :: l -> T = l2 ++ [u1; u2] -> w < v -> u2 < y ->
  add_temperature w true None t = (t2, Ok tt) ->
  add_temperature y false None t2 = (t3, Ok tt) -> interpolated t3 t3i ->
  joined_shape (fun x => calculate z x t3i) T.
Proof.
  intros W ET E1 EL Hw Hy A2 A3 I3. assert (ET1 : t_temps t = v :: a :: l) by congruence.
  pose proof (wf_add _ _ _ _ _ W A2) as W2.
  pose proof (add_filled_back _ _ _ _ _ W2 A3 (proj1 (interp_filled _ _ I3))) as F2.
  pose proof (add_filled_back _ _ _ _ _ W A2 F2) as F1.
  pose proof (add_below_temps _ _ _ _ _ _ _ _ W F1 ET1 Hw A2) as T2. rewrite <- E1 in T2.
  destruct (interp_before _ _ _ _ _ _ W2 A3 ltac:(rewrite T2; discriminate) I3) as (t2i & I2).
  destruct (interp_before _ _ _ _ _ _ W A2 ltac:(rewrite ET1; discriminate) I2) as (ti & I1).
  destruct (flat_joined t2 t3 t3i (w :: T) u1 u2 (w :: l2) y z W2 T2) as (J1 & J2 & J3); auto.
  { rewrite EL. reflexivity. }
  assert (Lva : v < a).
  { destruct W as (S & _). rewrite ET1 in S. apply (sorted_12 _ _ _ S). }
  split; [|split].
  - intros c d x C Hx. apply J1; auto. apply consec_cons. auto.
  - intros c d l' x EQ Hx. rewrite E1 in EQ. inversion EQ; subst c d l'; clear EQ.
    destruct (calc_affine t ti v a z I1) as (p & q & H1); [rewrite ET1; apply consec1|].
    assert (H1' : forall x, x <= a -> calculate z x ti = Ok (p + q * x)).
    { intros x' Hx'. apply H1; auto. right. rewrite ET1.
      destruct W as (S & _). rewrite ET1 in S. apply first_least; auto. }
    assert (H3 : forall x, In x [w; v; a] -> calculate z x t3i = Ok (p + q * x)).
    { intros x' Hx'. rewrite (add_node _ _ _ t2 t2i t3 t3i x' z W2 A3 I2 I3).
      - rewrite (extend_below t ti t2 t2i w v a l W F1 ET1 Hw A2 I1 I2).
        apply H1'. cbn [In] in Hx'. destruct Hx' as [<-|[<-|[<-|[]]]]; lra.
      - rewrite T2, E1. cbn [In] in *. tauto. }
    apply (on_line_of (fun x => calculate z x t3i) p q); [lra|apply H3; cbn [In]; auto|apply H3; cbn [In]; auto|].
    apply (on_line_inv (fun x => calculate z x t3i) p q w v); [lra|apply H3; cbn [In]; auto|apply H3; cbn [In]; auto|].
    destruct (Rle_dec w x) as [Hv'|Hv'].
    + apply J1; [rewrite E1; apply consec1|lra].
    + apply (J2 w v (a :: l)); [rewrite E1; auto|lra].
  - intros b l' x EQ Hx. apply (J3 b (w :: l')); auto. rewrite EQ. reflexivity.
Qed.

Lemma flat_ex n t t1 t1i T u1 u2 l y z : wtn T n t -> T = l ++ [u1; u2] -> u2 < y ->
  ex (add_temperature y false None) t = Ok t1 -> ex set_interpolator t1 = Ok t1i ->
  joined_shape (fun x => calculate z x t1i) T.
Proof.
  intros (W & ET & N) EL Hy E1 E2. apply ex_ok in E1, E2. eapply flat_joined; eauto.
Qed.

Lemma stat_shape q95 seer eer q47 q17 hspf tmax tmin ratio cop82 cop47 p :
  make_neep_statistical_model_data q95 seer eer q47 q17 hspf tmax tmin ratio cop82 cop47 = Ok p ->
  tmin < fr_F 5 -> fr_F 95 < tmax ->
  (forall z, joined_shape (heating_capacity p z) [tmin; fr_F 5; fr_F 17; fr_F 47]
    /\ joined_shape (heating_power p z) [tmin; fr_F 5; fr_F 17; fr_F 47]) /\ cooling_maps p 3.
Proof.
  intros H H5 H95. unfold make_neep_statistical_model_data in H. cbv zeta in H. unfold cooling_maps.
  set_temps.
  pose proof (wtn_new CoolingTable [t82; t95] 3 (sorted2 _ _ O5)) as KC.
  assert (S : StronglySorted Rlt [tmin; t5; t17; t47]) by (repeat constructor; lra).
  pose proof (wtn_new HeatingTable [tmin; t5; t17; t47] 3 S) as KH.
  unfold finish, make_perf in H. inv_ok. inv_ex. repeat wstep. shape_cool. subst p.
  unfold heating_capacity, heating_power, cooling_capacity, cooling_power. cbn [p_cc p_cp p_hc p_hp].
  split.
  - intros z. split.
    + eapply (flat_ex 3 _ _ _ _ t17 t47 [tmin; t5] t60 z); [ |reflexivity|lra| |eassumption]; [ |eassumption]; eassumption.
    + eapply (flat_ex 3 _ _ _ _ t17 t47 [tmin; t5] t60 z); [ |reflexivity|lra| |eassumption]; [ |eassumption]; eassumption.
  - split; [intros z; split; [apply CS0|apply CS]|intros s Hs; split; [apply CS0; lia|apply CS; lia]].
Qed.

(** * Data from a NEEP listing *)
Lemma inv_qc {A} m (k : st (neep_tables (T:=R)) A) x x' r : (onq_c m ;;; k) x = (x', Ok r) ->
  exists t, ex m (nt_cc x) = Ok t /\ k (mkNT t (nt_cp x) (nt_hc x) (nt_hp x)) = (x', Ok r).
Proof.
  unfold onq_c, sbind, ex. destruct (m (nt_cc x)) as [t [[]|e]]; intros H; [eauto|discriminate].
Qed.
Lemma inv_pc {A} m (k : st (neep_tables (T:=R)) A) x x' r : (onp_c m ;;; k) x = (x', Ok r) ->
  exists t, ex m (nt_cp x) = Ok t /\ k (mkNT (nt_cc x) t (nt_hc x) (nt_hp x)) = (x', Ok r).
Proof.
  unfold onp_c, sbind, ex. destruct (m (nt_cp x)) as [t [[]|e]]; intros H; [eauto|discriminate].
Qed.
Lemma inv_qh {A} m (k : st (neep_tables (T:=R)) A) x x' r : (onq_h m ;;; k) x = (x', Ok r) ->
  exists t, ex m (nt_hc x) = Ok t /\ k (mkNT (nt_cc x) (nt_cp x) t (nt_hp x)) = (x', Ok r).
Proof.
  unfold onq_h, sbind, ex. destruct (m (nt_hc x)) as [t [[]|e]]; intros H; [eauto|discriminate].
Qed.
Lemma inv_ph {A} m (k : st (neep_tables (T:=R)) A) x x' r : (onp_h m ;;; k) x = (x', Ok r) ->
  exists t, ex m (nt_hp x) = Ok t /\ k (mkNT (nt_cc x) (nt_cp x) (nt_hc x) t) = (x', Ok r).
Proof.
  unfold onp_h, sbind, ex. destruct (m (nt_hp x)) as [t [[]|e]]; intros H; [eauto|discriminate].
Qed.
Lemma inv_assoc {S A} (a b : st S unit) (k : st S A) : forall x, ((a ;;; b) ;;; k) x = (a ;;; (b ;;; k)) x.
Proof. intros x. unfold sbind. destruct (a x) as [s [[]|e]]; reflexivity. Qed.
Lemma inv_ret {S A} (k : st S A) : forall x, (sret tt ;;; k) x = k x.
Proof. reflexivity. Qed.
Lemma inv_read {S A B} (g : S -> res B) (k : B -> st S A) x x' r :
  (do b <- sread g ;; k b) x = (x', Ok r) -> exists b, g x = Ok b /\ k b x = (x', Ok r).
Proof. unfold sbind, sread. destruct (g x) as [b|e]; intros H; [eauto|discriminate]. Qed.
Lemma inv_last {S A} (g : S -> res A) x x' r : sread g x = (x', Ok r) -> g x = Ok r.
Proof. unfold sread. intros H. inversion H; auto. Qed.

(** A caller's list of [n] rows of three entries. *)
Lemma wtn_data k T n d f : StronglySorted Rlt T -> length T = n ->
  length d = n -> Forall (fun r => length r = 3%nat) d ->
  wtn T 3 (new_table k T 3 (Some (convert_all f d))).
Proof.
  intros S L H1 H2. split; [|split; reflexivity]. split; [auto|]. unfold new_table.
  cbn [t_data t_temps t_n]. split.
  - unfold convert_all. rewrite map_length. lia.
  - unfold convert_all. apply Forall_forall. intros r Hr. apply in_map_iff in Hr.
    destruct Hr as (q & <- & Hq). rewrite map_length. rewrite Forall_forall in H2. auto.
Qed.

Ltac ninv H :=
  repeat first
  [ apply inv_qc in H; let t := fresh "t" in let X := fresh "X" in destruct H as (t & X & H)
  | apply inv_pc in H; let t := fresh "t" in let X := fresh "X" in destruct H as (t & X & H)
  | apply inv_qh in H; let t := fresh "t" in let X := fresh "X" in destruct H as (t & X & H)
  | apply inv_ph in H; let t := fresh "t" in let X := fresh "X" in destruct H as (t & X & H) ];
  cbn [nt_cc nt_cp nt_hc nt_hp] in *.

Lemma ext_ex n t t2 t3 t3i T v a l u1 u2 l2 w y z : wtn T n t ->
  T = v :: a :: l -> T = l2 ++ [u1; u2] -> w < v -> u2 < y ->
  ex (add_temperature w true None) t = Ok t2 ->
  ex (add_temperature y false None) t2 = Ok t3 -> ex set_interpolator t3 = Ok t3i ->
  joined_shape (fun x => calculate z x t3i) T.
Proof.
  intros (W & ET & N) E1 EL Hw Hy A2 A3 A4. apply ex_ok in A2, A3, A4. eapply ext_joined; eauto.
Qed.

Lemma inv_opt_qh {A B} (o : option B) t5 (k : st (neep_tables (T:=R)) A) x x' r :
  (match o with None => onq_h (set_by_interpolation 2 t5) | Some _ => sret tt end ;;; k) x = (x', Ok r) ->
  exists t, (forall T, wtn T 3 (nt_hc x) -> wtn T 3 t) /\ k (mkNT (nt_cc x) (nt_cp x) t (nt_hp x)) = (x', Ok r).
Proof.
  destruct o; intros H.
  - rewrite inv_ret in H. exists (nt_hc x). split; auto. destruct x; exact H.
  - apply inv_qh in H. destruct H as (t & X & H). exists t. split; auto.
    intros T K. apply (wtn_set T 3 2 t5 _ _ t (set_interp 2 t5) X); [lia|auto].
Qed.
Lemma inv_opt_ph {A B} (o : option B) t5 (k : st (neep_tables (T:=R)) A) x x' r :
  (match o with None => onp_h (set_by_interpolation 2 t5) | Some _ => sret tt end ;;; k) x = (x', Ok r) ->
  exists t, (forall T, wtn T 3 (nt_hp x) -> wtn T 3 t) /\ k (mkNT (nt_cc x) (nt_cp x) (nt_hc x) t) = (x', Ok r).
Proof.
  destruct o; intros H.
  - rewrite inv_ret in H. exists (nt_hp x). split; auto. destruct x; exact H.
  - apply inv_ph in H. destruct H as (t & X & H). exists t. split; auto.
    intros T K. apply (wtn_set T 3 2 t5 _ _ t (set_interp 2 t5) X); [lia|auto].
Qed.

Lemma neep_shape lct tmax tmin a a' p :
  make_neep_model_data lct tmax tmin a = (a', Ok p) ->
  let T := match lct with Some l => [fr_F l; fr_F 5; fr_F 17; fr_F 47] | None => [fr_F 5; fr_F 17; fr_F 47] end in
  (forall d, In d [n_cc a; n_cp a] -> length d = 2%nat /\ Forall (fun r => length r = 3%nat) d) ->
  (forall d, In d [n_hc a; n_hp a] -> length d = length T /\ Forall (fun r => length r = 3%nat) d) ->
  tmin < fr_F 5 -> fr_F 95 < tmax -> (forall l, lct = Some l -> fr_F l < fr_F 5) ->
  (forall z, joined_shape (heating_capacity p z) T /\ joined_shape (heating_power p z) T) /\ cooling_maps p 3.
Proof.
  intros H T DC DH H5 H95 Hl. subst T. unfold make_neep_model_data, neep_body in H. cbv zeta in H. unfold cooling_maps.
  set_temps.
  assert (KQ := wtn_data CoolingTable [t82; t95] 2 (n_cc a) fr_Btuh (sorted2 _ _ O5) eq_refl
    (proj1 (DC _ (or_introl eq_refl))) (proj2 (DC _ (or_introl eq_refl)))).
  assert (KP := wtn_data CoolingTable [t82; t95] 2 (n_cp a) (fun x => (x * lit 1000)%num) (sorted2 _ _ O5) eq_refl
    (proj1 (DC _ (or_intror (or_introl eq_refl)))) (proj2 (DC _ (or_intror (or_introl eq_refl))))).
  match type of H with (let (x', r) := ?m ?x in _) = _ => destruct (m x) as [x' r] eqn:B end.
  inversion H; subst a' r; clear H.
  ninv B.
  apply inv_read in B. destruct B as (q5 & _ & B). apply inv_opt_qh in B. destruct B as (tq & Q1 & B).
  apply inv_read in B. destruct B as (p5 & _ & B). apply inv_opt_ph in B. destruct B as (tp & Q2 & B).
  cbn [nt_cc nt_cp nt_hc nt_hp] in *.
  repeat wstep.
  destruct lct as [l|].
  - specialize (Hl l eq_refl).
    assert (S : StronglySorted Rlt [fr_F l; t5; t17; t47]) by (repeat constructor; lra).
    assert (HQ := wtn_data HeatingTable [fr_F l; t5; t17; t47] 4 (n_hc a) fr_Btuh S eq_refl
      (proj1 (DH _ (or_introl eq_refl))) (proj2 (DH _ (or_introl eq_refl)))).
    assert (HP := wtn_data HeatingTable [fr_F l; t5; t17; t47] 4 (n_hp a) (fun x => (x * lit 1000)%num) S eq_refl
      (proj1 (DH _ (or_intror (or_introl eq_refl)))) (proj2 (DH _ (or_intror (or_introl eq_refl))))).
    apply Q1 in HQ. apply Q2 in HP. clear Q1 Q2.
    rewrite inv_assoc in B. ninv B. rewrite inv_assoc in B. ninv B. repeat wstep.
    destruct (tmin <? fr_F l)%num eqn:Lt; rnum_in Lt.
    + rewrite inv_assoc in B. ninv B. apply inv_last in B. unfold make_perf in B. inv_ok. shape_cool. subst p.
      unfold heating_capacity, heating_power, cooling_capacity, cooling_power. cbn [p_cc p_cp p_hc p_hp nt_cc nt_cp nt_hc nt_hp].
      split; [|split; [intros z; split; [apply CS0|apply CS]|intros s Hs; split; [apply CS0; lia|apply CS; lia]]].
      apply Rltb_true in Lt.
      intros z; split; (eapply (ext_ex 3 _ _ _ _ _ (fr_F l) t5 [t17; t47] t17 t47 [fr_F l; t5] tmin t60 z);
        [ |reflexivity|reflexivity|exact Lt|exact O3| | |eassumption]; [ | |eassumption]; [ |eassumption]; eassumption).
    + rewrite inv_ret in B. ninv B. apply inv_last in B. unfold make_perf in B. inv_ok. shape_cool. subst p.
      unfold heating_capacity, heating_power, cooling_capacity, cooling_power. cbn [p_cc p_cp p_hc p_hp nt_cc nt_cp nt_hc nt_hp].
      split; [|split; [intros z; split; [apply CS0|apply CS]|intros s Hs; split; [apply CS0; lia|apply CS; lia]]].
      intros z; split; (eapply (flat_ex 3 _ _ _ _ t17 t47 [fr_F l; t5] t60 z);
        [ |reflexivity|lra| |eassumption]; [ |eassumption]; eassumption).
  - assert (S : StronglySorted Rlt [t5; t17; t47]) by (repeat constructor; lra).
    assert (HQ := wtn_data HeatingTable [t5; t17; t47] 3 (n_hc a) fr_Btuh S eq_refl
      (proj1 (DH _ (or_introl eq_refl))) (proj2 (DH _ (or_introl eq_refl)))).
    assert (HP := wtn_data HeatingTable [t5; t17; t47] 3 (n_hp a) (fun x => (x * lit 1000)%num) S eq_refl
      (proj1 (DH _ (or_intror (or_introl eq_refl)))) (proj2 (DH _ (or_intror (or_introl eq_refl))))).
    apply Q1 in HQ. apply Q2 in HP. clear Q1 Q2.
    rewrite inv_assoc in B. ninv B. apply inv_last in B. unfold make_perf in B. inv_ok. shape_cool. subst p.
    unfold heating_capacity, heating_power, cooling_capacity, cooling_power. cbn [p_cc p_cp p_hc p_hp nt_cc nt_cp nt_hc nt_hp].
    split; [|split; [intros z; split; [apply CS0|apply CS]|intros s Hs; split; [apply CS0; lia|apply CS; lia]]].
    intros z; split; (eapply (ext_ex 3 _ _ _ _ _ t5 t17 [t47] t17 t47 [t5] tmin t60 z);
        [ |reflexivity|reflexivity|lra|lra| | |eassumption]; [ | |eassumption]; [ |eassumption]; eassumption).
Qed.

(** * Consequences for ratings *)
Lemma fr_F_affine (x : R) : fr_F x = (x + 45967 / 100) * (5 / 9).
Proof. unfold fr_F, lit. cbn. lra. Qed.

Lemma single_heating q95 seer eer q47 c hspf tmax tmin cop47 cd p f :
  make_single_speed_model_data q95 seer eer q47 (Some c) hspf tmax tmin cop47 cd = Ok p ->
  q95 <> 0 -> q47 <> 0 -> tmin < fr_F 5 -> fr_F 95 < tmax ->
  heating_capacity p 1 (fr_F f) = Ok (if Rle_dec f 47 then line 17 c 47 q47 f else q47).
Proof.
  intros H N1 N2 H5 H95.
  destruct (single_reproduces _ _ _ _ _ _ _ _ _ _ _ H N1 N2) as (_ & _ & _ & A & B & _).
  specialize (B c eq_refl).
  destruct (single_shape _ _ _ _ _ _ _ _ _ _ _ H H5 H95) as (Hs & _).
  destruct (Hs 1) as (Hc & _). destruct (Hc (fr_F f)) as (H1 & H2).
  destruct (Rle_dec f 47) as [L|L].
  - destruct H1 as (va & vb & Ea & Eb & E); [apply fr_F_le; auto|].
    rewrite A in Eb. rewrite B in Ea. apply Ok_inj in Ea, Eb. subst va vb.
    rewrite E. f_equal. unfold line. rewrite !fr_F_affine. field; lra.
  - rewrite H2; auto. apply fr_F_le. lra.
Qed.

(** A capacity at 17 °F of three tenths of that at 47 °F. *)
Lemma single_negative : exists p,
  make_single_speed_model_data 10000 14.3 11.5 10000 (Some 3000) 7.5 (fr_F 125) (fr_F (-20)) None 0.25 = Ok p
  /\ exists q, heating_capacity p 1 (fr_F (-10)) = Ok q /\ q < 0.
Proof.
  assert (fr_F 95 < fr_F 125) by (apply fr_F_lt; lra).
  assert (fr_F (-20) < fr_F 5) by (apply fr_F_lt; lra).
  destruct (single_total 10000 14.3 11.5 10000 (Some 3000) 7.5 (fr_F 125) (fr_F (-20)) None 0.25)
    as (p & E); auto; try lra; try (intros c Q; inversion Q; lra).
  exists p. split; auto. eexists. split.
  - apply (single_heating _ _ _ _ _ _ _ _ _ _ _ (-10) E); auto; lra.
  - destruct (Rle_dec (-10) 47); [|lra]. unfold line. lra.
Qed.
