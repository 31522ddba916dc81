(** SEER (C43, C44). *)
From Coq Require Import Reals QArith Lra Psatz Lia List Bool.
From Verif.Base Require Import Num Res Tac.
From Verif.Model Require Import Units Util Psychrometrics Conditions Defrost Fan Curves
  Tabular Unit DXUnit.
From Verif.Spec Require Import UnitSpec SeasonSpec.
From Verif.Proofs Require Import UnitsR UnitProofs3 UnitProofs4.
Import ListNotations.
Local Open Scope R_scope.
Local Notation U := (dxunit R).

Lemma to_Btu_Wh_spec (x : R) : to_Btu_Wh x = Btu_Wh x.
Proof. unfold Btu_Wh, to_Btu_Wh, btu_h. rnum. field. Qed.

(** * Sums over bins *)
Lemma total_app a b : total (a ++ b) = total a + total b.
Proof. unfold total. induction a; simpl; [lra|rewrite IHa; lra]. Qed.

Lemma over_S n f : over (S n) f = over n f + f n.
Proof.
  unfold over. rewrite seq_S, map_app, total_app. cbn [map plus].
  assert (E : total [f n] = f n) by (unfold total; simpl; lra). change (0 + n)%nat with n. rewrite E. reflexivity.
Qed.
Lemma over_ext n f g : (forall i, (i < n)%nat -> f i = g i) -> over n f = over n g.
Proof.
  intros H. unfold over. f_equal. apply map_ext_in. intros i I. apply in_seq in I.
  apply H. lia.
Qed.
Lemma over_le n f g : (forall i, (i < n)%nat -> f i <= g i) -> over n f <= over n g.
Proof.
  induction n; intros H; [unfold over; simpl; lra|]. rewrite !over_S.
  specialize (IHn ltac:(intros i I; apply H; lia)). specialize (H n ltac:(lia)). lra.
Qed.
Lemma over_pos n f : (0 < n)%nat -> (forall i, (i < n)%nat -> 0 < f i) -> 0 < over n f.
Proof.
  intros N H. induction n; [lia|]. rewrite over_S. destruct n.
  - specialize (H 0%nat ltac:(lia)). unfold over; simpl. unfold total; simpl. lra.
  - specialize (IHn ltac:(lia) ltac:(intros i I; apply H; lia)).
    specialize (H (S n) ltac:(lia)). lra.
Qed.
Lemma over_scale n k f : over n (fun i => k * f i) = k * over n f.
Proof.
  induction n; [unfold over, total; simpl; lra|]. rewrite !over_S, IHn. lra.
Qed.

(** A loop that adds two numbers per bin. *)
Lemma fold_two {X} (g : X -> res (R * R)) l a s :
  rfold (fun acc x => let! qe := g x in Ok (fst acc + fst qe, snd acc + snd qe)) a l = Ok s
  <-> exists rs, Forall2 (fun x r => g x = Ok r) l rs
        /\ s = (fst a + total (map fst rs), snd a + total (map snd rs)).
Proof.
  revert a. induction l as [|x l IH]; intros a; cbn [rfold].
  - split.
    + intros H. apply Ok_inj in H. subst s. exists []. split; [constructor|].
      unfold total; simpl. destruct a; simpl. f_equal; lra.
    + intros (rs & F & ->). inversion F; subst. unfold total; simpl. destruct a; simpl.
      do 2 f_equal; lra.
  - split.
    + intros H. apply rbind_ok in H. destruct H as (a1 & H1 & H).
      apply rbind_ok in H1. destruct H1 as (r & Hr & H1). apply Ok_inj in H1. subst a1.
      apply IH in H. destruct H as (rs & F & ->). exists (r :: rs).
      split; [constructor; assumption|]. unfold total; simpl. f_equal; lra.
    + intros (rs & F & ->). inversion F as [|? r ? rs' Hr F']; subst. rewrite Hr.
      cbn [rbind]. apply IH. exists rs'. split; [exact F'|]. unfold total; simpl. f_equal; lra.
Qed.

Lemma forall2_seq_from {X B} (g : X -> B -> Prop) (x : nat -> X) (y : B) n k rs :
  Forall2 g (map x (seq k n)) rs ->
  List.length rs = n /\ (forall i, (i < n)%nat -> g (x (k + i)%nat) (nth i rs y)).
Proof.
  revert k rs. induction n as [|n IH]; intros k rs F; cbn [seq map] in F;
    inversion F as [|? r ? rs' Hr F']; subst.
  - split; [reflexivity|]. intros; lia.
  - apply IH in F'. destruct F' as [L H].
    split; [simpl; congruence|]. intros [|i] I.
    + rewrite Nat.add_0_r. assumption.
    + rewrite <- plus_n_Sm. apply H. lia.
Qed.
Lemma forall2_seq {X B} (g : X -> B -> Prop) (x : nat -> X) (y : B) n rs :
  Forall2 g (map x (seq 0 n)) rs ->
  List.length rs = n /\ (forall i, (i < n)%nat -> g (x i) (nth i rs y)).
Proof. intros F. apply (forall2_seq_from g x y) in F. exact F. Qed.

Lemma total_nth (f : R * R -> R) rs n :
  List.length rs = n -> total (map f rs) = over n (fun i => f (nth i rs (0, 0))).
Proof.
  intros <-. unfold over. f_equal. induction rs as [|r rs IH]; [reflexivity|].
  cbn [List.length seq map]. rewrite IH, <- seq_shift, map_map. reflexivity.
Qed.

(** * The cooling bins *)
Lemma bin_eq (a b c d : R) l l' :
  a = c -> b = d -> l = l' -> (deg_F a, b) :: l = (deg_F c, d) :: l'.
Proof. congruence. Qed.
Lemma cooling_bins_eq :
  cooling_bins (T:=R) = map (fun i => (cool_t i, cool_hours i)) (seq 0 8).
Proof.
  unfold cooling_bins. cbn [seq map combine].
  unfold cool_t, cool_hours. cbn [nth].
  rewrite !fr_F_deg.
  repeat (apply bin_eq; [cbn [nadd nmul RNum Z.of_nat Pos.of_succ_nat Pos.succ INR]; rnum; lra
                        |rnum; lra|]).
  reflexivity.
Qed.

Lemma cool_hours_pos i : (i < 8)%nat -> 0 < cool_hours i.
Proof.
  intros H. unfold cool_hours.
  do 8 (destruct i as [|i]; [cbn [nth]; lra|]). lia.
Qed.

Lemma cooling_load_eq q t : cooling_load q t = cool_load q t.
Proof.
  unfold cooling_load, cool_load, pymax. rewrite !fr_F_deg.
  replace (lit (T:=R) 0) with 0 by (rnum; lra).
  assert (E : ((t - deg_F (lit 65)) / (deg_F (lit 95) - deg_F (lit 65)) * q / lit 1.1)%num
              = q / 1.1 * ((t - deg_F 65) / (deg_F 95 - deg_F 65))).
  { unfold deg_F. cbn [nadd nsub nmul ndiv RNum]. rnum. field. }
  rewrite E. cbn [nltb RNum].
  generalize (q / 1.1 * ((t - deg_F 65) / (deg_F 95 - deg_F 65))). intros x.
  destruct (Rltb_spec x 0); unfold Rmax; destruct Rle_dec; lra.
Qed.

(** * One bin *)
Lemma cycling_inv cd bl q p n r :
  seer_cycling cd bl q p n = Ok r ->
  q <> 0 /\ 1 - cd * (1 - bl / q) <> 0 /\ r = (n * bl, n * cycling cd (bl / q) p).
Proof.
  unfold seer_cycling. rewrite lit1_R. intros H. apply rbind_ok in H.
  destruct H as (x & Hx & H). apply pydiv_inv in Hx. destruct Hx as [Hq ->].
  apply rbind_ok in H. destruct H as (e & He & H). apply pydiv_inv in He.
  destruct He as [Hn ->]. apply Ok_inj in H. subst r.
  cbn [nadd nsub nmul ndiv RNum] in *. split; [exact Hq|]. split; [exact Hn|].
  f_equal; [field; exact Hq|]. unfold cycling, Rdiv. ring.
Qed.
Lemma cycling_ok cd bl q p n :
  0 < q -> 0 <= bl <= q -> 0 <= cd < 1 ->
  exists r, seer_cycling cd bl q p n = Ok r.
Proof.
  intros Q B D. unfold seer_cycling. rewrite pydiv_ok by lra. cbn [rbind].
  rewrite lit1_R.
  assert (X : 0 <= bl / q <= 1).
  { split; [apply Rle_mult_inv_pos; lra|]. apply (Rmult_le_reg_r q); [exact Q|].
    unfold Rdiv. rewrite Rmult_assoc, Rinv_l by lra. lra. }
  rewrite pydiv_ok; [cbn [rbind]; eauto|]. cbn [nsub nmul RNum].
  apply Rgt_not_eq. nra.
Qed.

Lemma bin_two_inv cyc cd bl ql pl qf pf n r :
  seer_bin_two cyc cd bl ql pl qf pf n = Ok r ->
  r = (n * two_stage_served bl ql qf, n * two_stage_energy cyc cd bl ql pl qf pf).
Proof.
  unfold seer_bin_two, two_stage_served, two_stage_energy. cbn [nleb nltb RNum].
  destruct (Rleb_spec bl ql) as [L|L]; destruct Rle_dec as [L'|L']; try lra.
  - intros H. apply cycling_inv in H. apply H.
  - destruct (Rltb_spec bl qf) as [F|F]; destruct Rlt_dec as [F'|F']; try lra.
    + rewrite Rmin_left by lra. destruct cyc.
      * intros H. apply rbind_ok in H. destruct H as (x & Hx & H). apply pydiv_inv in Hx.
        destruct Hx as [Hn ->]. apply Ok_inj in H. subst r. rewrite lit1_R.
        cbn [nadd nsub nmul ndiv RNum] in *. unfold line. f_equal; field; lra.
      * intros H. apply cycling_inv in H. apply H.
    + rewrite Rmin_right by lra. intros H. apply Ok_inj in H. subst r.
      cbn [nmul RNum]. f_equal; ring.
Qed.
Lemma bin_two_ok cyc cd bl ql pl qf pf n :
  0 <= cd < 1 -> 0 <= bl -> 0 < ql -> ql <= qf ->
  exists r, seer_bin_two cyc cd bl ql pl qf pf n = Ok r.
Proof.
  intros D B Q F. unfold seer_bin_two. cbn [nleb nltb RNum].
  destruct (Rleb_spec bl ql) as [L|L]; [apply cycling_ok; lra|].
  destruct (Rltb_spec bl qf) as [K|K]; [|eauto].
  destruct cyc; [|apply cycling_ok; lra].
  rewrite pydiv_ok; [cbn [rbind]; eauto|]. cbn [nsub RNum]. apply Rgt_not_eq. lra.
Qed.

Lemma bin_variable_inv cd bl ql pl qi pi qf pf n r :
  seer_bin_variable cd bl ql pl qi pi qf pf n = Ok r ->
  r = (n * variable_served bl ql qi qf, n * variable_energy cd bl ql pl qi pi qf pf).
Proof.
  unfold seer_bin_variable, variable_served, variable_energy. cbn [nleb nltb RNum].
  intros H. apply rbind_ok in H. destruct H as (cl & Hl & H).
  apply rbind_ok in H. destruct H as (ci & Hi & H).
  apply rbind_ok in H. destruct H as (cf & Hf & H).
  apply pydiv_inv in Hl. apply pydiv_inv in Hi. apply pydiv_inv in Hf.
  destruct Hl as [Hl ->]. destruct Hi as [Hi ->]. destruct Hf as [Hf ->].
  revert H.
  destruct (Rleb_spec bl ql) as [L|L]; destruct Rle_dec as [L'|L']; try lra.
  { intros H. apply cycling_inv in H. apply H. }
  destruct (Rltb_spec bl qi) as [I|I]; destruct Rlt_dec as [I'|I']; try lra.
  { intros H. apply rbind_ok in H. destruct H as (s & Hs & H). apply pydiv_inv in Hs.
    destruct Hs as [Hs ->]. apply rbind_ok in H. destruct H as (e & He & H).
    apply pydiv_inv in He. destruct He as [He ->]. apply Ok_inj in H. subst r.
    cbn [nadd nsub nmul ndiv RNum] in *. f_equal; [ring|].
    unfold line, Rdiv. ring. }
  destruct (Rleb_spec bl qf) as [F|F]; destruct Rle_dec as [F'|F']; try lra.
  { rewrite Rmin_left by lra.
    intros H. apply rbind_ok in H. destruct H as (s & Hs & H). apply pydiv_inv in Hs.
    destruct Hs as [Hs ->]. apply rbind_ok in H. destruct H as (e & He & H).
    apply pydiv_inv in He. destruct He as [He ->]. apply Ok_inj in H. subst r.
    cbn [nadd nsub nmul ndiv RNum] in *. f_equal; [ring|].
    unfold line, Rdiv. ring. }
  rewrite Rmin_right by lra. intros H. apply Ok_inj in H. subst r.
  cbn [nmul RNum]. f_equal; ring.
Qed.

Lemma line_between x0 y0 x1 y1 x lo hi :
  x0 < x1 -> x0 <= x <= x1 -> lo <= y0 <= hi -> lo <= y1 <= hi ->
  lo <= line x0 y0 x1 y1 x <= hi.
Proof.
  intros X [A B] [C D] [E F]. unfold line.
  pose (k := (x - x0) / (x1 - x0)).
  assert (K : 0 <= k <= 1).
  { unfold k. split; [apply Rle_mult_inv_pos; lra|]. apply (Rmult_le_reg_r (x1 - x0)); [lra|].
    unfold Rdiv. rewrite Rmult_assoc, Rinv_l by lra. lra. }
  replace (y0 + (y1 - y0) / (x1 - x0) * (x - x0)) with (y0 + (y1 - y0) * k)
    by (unfold k; field; lra).
  nra.
Qed.

Lemma div_pos a b : 0 < a -> 0 < b -> 0 < a / b.
Proof. apply Rdiv_lt_0_compat. Qed.

Lemma bin_variable_ok cd bl ql pl qi pi qf pf n :
  0 <= cd < 1 -> 0 <= bl -> 0 < ql -> ql <= qi -> qi < qf -> 0 < pl -> 0 < pi -> 0 < pf ->
  exists r, seer_bin_variable cd bl ql pl qi pi qf pf n = Ok r.
Proof.
  intros D B Q I F Pl Pi Pf. unfold seer_bin_variable. rewrite !pydiv_ok by lra.
  cbn [rbind nleb nltb RNum].
  assert (Cl : 0 < ql / pl) by (apply div_pos; lra).
  assert (Ci : 0 < qi / pi) by (apply div_pos; lra).
  assert (Cf : 0 < qf / pf) by (apply div_pos; lra).
  destruct (Rleb_spec bl ql) as [L|L]; [apply cycling_ok; lra|].
  destruct (Rltb_spec bl qi) as [J|J].
  - rewrite pydiv_ok by (cbn [nsub RNum]; lra). cbn [rbind].
    rewrite pydiv_ok; [cbn [rbind]; eauto|]. cbn [nadd nsub nmul ndiv RNum].
    pose proof (line_between ql (ql / pl) qi (qi / pi) bl (Rmin (ql / pl) (qi / pi))
      (Rmax (ql / pl) (qi / pi)) ltac:(lra) ltac:(lra)
      ltac:(split; [apply Rmin_l|apply Rmax_l]) ltac:(split; [apply Rmin_r|apply Rmax_r])) as K.
    unfold line in K.
    assert (P : 0 < Rmin (ql / pl) (qi / pi)) by (apply Rmin_glb_lt; assumption). lra.
  - destruct (Rleb_spec bl qf) as [H|H]; [|eauto].
    rewrite pydiv_ok by (cbn [nsub RNum]; lra). cbn [rbind].
    rewrite pydiv_ok; [cbn [rbind]; eauto|]. cbn [nadd nsub nmul ndiv RNum].
    pose proof (line_between qi (qi / pi) qf (qf / pf) bl (Rmin (qi / pi) (qf / pf))
      (Rmax (qi / pi) (qf / pf)) ltac:(lra) ltac:(lra)
      ltac:(split; [apply Rmin_l|apply Rmax_l]) ltac:(split; [apply Rmin_r|apply Rmax_r])) as K.
    unfold line in K.
    assert (P : 0 < Rmin (qi / pi) (qf / pf)) by (apply Rmin_glb_lt; assumption). lra.
Qed.

(** * The loop *)
Lemma rfold_same {X Y} (f g : X -> Y -> res X) a l :
  (forall a x, f a x = g a x) -> rfold f a l = rfold g a l.
Proof.
  intros H. revert a. induction l as [|x l IH]; intros a; cbn [rfold]; [reflexivity|].
  rewrite H. destruct (g a x); cbn [rbind]; auto.
Qed.

Lemma seer_sums_inv bin A B Bl Fl s :
  seer_sums bin A B Bl Fl = Ok s ->
  pt_t Bl <> pt_t Fl /\ pt_t A <> pt_t B
  /\ exists r : nat -> R * R,
       (forall i, (i < 8)%nat ->
          bin (cool_t i) (cool_load (pt_q A) (cool_t i)) (q_at Fl Bl (cool_t i))
            (p_at Fl Bl (cool_t i)) (q_at B A (cool_t i)) (p_at B A (cool_t i)) (cool_hours i)
          = Ok (r i))
       /\ s = (over 8 (fun i => fst (r i)), over 8 (fun i => snd (r i))).
Proof.
  unfold seer_sums. intros H.
  pose (g := fun tn : R * R =>
    let! ql := along pt_q Fl Bl (fst tn) in
    let! pl := along pt_p Fl Bl (fst tn) in
    let! qf := along pt_q B A (fst tn) in
    let! pf := along pt_p B A (fst tn) in
    bin (fst tn) (cooling_load (pt_q A) (fst tn)) ql pl qf pf (snd tn)).
  assert (G : rfold (fun acc tn => let! qe := g tn in Ok (fst acc + fst qe, snd acc + snd qe))
                (lit 0, lit 0) cooling_bins = Ok s).
  { rewrite <- H. apply rfold_same. intros acc [t n]. unfold g. cbn [fst snd].
    destruct (along pt_q Fl Bl t); [|reflexivity]. cbn [rbind].
    destruct (along pt_p Fl Bl t); [|reflexivity]. cbn [rbind].
    destruct (along pt_q B A t); [|reflexivity]. cbn [rbind].
    destruct (along pt_p B A t); [|reflexivity]. reflexivity. }
  clear H. apply fold_two in G. destruct G as (rs & F & ->).
  rewrite cooling_bins_eq in F. apply (forall2_seq _ _ (0, 0)) in F. destruct F as [L F].
  assert (T : pt_t Bl <> pt_t Fl /\ pt_t A <> pt_t B).
  { specialize (F 0%nat ltac:(lia)). unfold g in F. cbv beta in F.
    apply rbind_ok in F. destruct F as (a & Ha & F). apply along_inv in Ha.
    apply rbind_ok in F. destruct F as (b & Hb & F).
    apply rbind_ok in F. destruct F as (c & Hc & F). apply along_inv in Hc. tauto. }
  split; [apply T|]. split; [apply T|]. exists (fun i => nth i rs (0, 0)). split.
  - intros i I. specialize (F i I). unfold g in F. cbv beta in F. cbn [fst snd] in F.
    rewrite !along_ok in F by tauto. cbn [rbind] in F. rewrite cooling_load_eq in F. exact F.
  - rewrite !(total_nth _ rs 8 L). cbn [fst snd]. rewrite !lit0_R. f_equal; lra.
Qed.

Lemma seer_sums_ok bin A B Bl Fl :
  pt_t Bl <> pt_t Fl -> pt_t A <> pt_t B ->
  (forall i, (i < 8)%nat -> exists r,
     bin (cool_t i) (cool_load (pt_q A) (cool_t i)) (q_at Fl Bl (cool_t i))
       (p_at Fl Bl (cool_t i)) (q_at B A (cool_t i)) (p_at B A (cool_t i)) (cool_hours i)
     = Ok r) ->
  exists s, seer_sums bin A B Bl Fl = Ok s.
Proof.
  intros T1 T2 F. unfold seer_sums. rewrite cooling_bins_eq.
  assert (G : forall l a, (forall i, In i l -> (i < 8)%nat) -> exists s,
    rfold (fun acc tn => let (t, n) := (tn : R * R) in
      let bl := cooling_load (pt_q A) t in
      let! ql := along pt_q Fl Bl t in
      let! pl := along pt_p Fl Bl t in
      let! qf := along pt_q B A t in
      let! pf := along pt_p B A t in
      let! qe := bin t bl ql pl qf pf n in
      Ok (fst acc + fst qe, snd acc + snd qe)) a (map (fun i => (cool_t i, cool_hours i)) l)
    = Ok s).
  { induction l as [|i l IH]; intros a H; cbn [map rfold]; [eauto|].
    destruct (F i (H i (or_introl eq_refl))) as [r Hr].
    rewrite !along_ok by assumption. cbn [rbind]. rewrite cooling_load_eq.
    unfold q_at, p_at in Hr. rewrite Hr. cbn [rbind]. apply IH. intros j J. apply H.
    right. exact J. }
  apply G. intros i I. apply in_seq in I. lia.
Qed.

Lemma tested_point q p get (u : U) P :
  tested q p u (get (u_conds u)) P <-> test_point q p get u = Ok P.
Proof.
  split.
  - intros (c & Hc & Ht & Hq & Hp). unfold test_point, rating. rewrite Hc. cbn [need rbind].
    rewrite Hq. cbn [rbind]. rewrite Hp. cbn [rbind]. f_equal. destruct P; simpl in *. congruence.
  - intros H. apply test_point_inv in H. exact H.
Qed.

(** * Bounds *)
Lemma cop_of q p lo hi : 0 < p -> lo <= q / p <= hi -> lo * p <= q <= hi * p.
Proof.
  intros P [A B]. split.
  - apply (Rmult_le_compat_r p) in A; [|lra]. unfold Rdiv in A.
    rewrite Rmult_assoc, Rinv_l in A by lra. lra.
  - apply (Rmult_le_compat_r p) in B; [|lra]. unfold Rdiv in B.
    rewrite Rmult_assoc, Rinv_l in B by lra. lra.
Qed.

Lemma cycling_bounds cd bl q p lo hi :
  0 <= cd < 1 -> 0 < bl <= q -> 0 < p -> 0 < lo -> lo <= q / p <= hi ->
  0 < cycling cd (bl / q) p
  /\ (1 - cd) * lo * cycling cd (bl / q) p <= bl <= hi * cycling cd (bl / q) p.
Proof.
  intros D [B Q] P L K. apply cop_of in K; [|exact P]. destruct K as [K1 K2].
  unfold cycling. set (x := bl / q).
  assert (X : 0 < x <= 1).
  { unfold x. split; [apply div_pos; lra|]. apply (Rmult_le_reg_r q); [lra|].
    unfold Rdiv. rewrite Rmult_assoc, Rinv_l by lra. lra. }
  assert (Y : bl = x * q) by (unfold x; field; lra).
  assert (F : 1 - cd <= 1 - cd * (1 - x) <= 1) by nra.
  set (d := 1 - cd * (1 - x)) in *. rewrite Y.
  assert (E : x * p / d * d = x * p) by (field; lra).
  assert (E0 : 0 < x * p / d) by (apply div_pos; [apply Rmult_lt_0_compat; lra|lra]).
  set (e := x * p / d) in *. split; [exact E0|].
  assert (Z1 : x * (lo * p) <= x * q) by (apply Rmult_le_compat_l; lra).
  assert (Z2 : x * q <= x * (hi * p)) by (apply Rmult_le_compat_l; lra).
  assert (H0 : 0 < hi).
  { destruct (Rlt_le_dec 0 hi) as [h|h]; [exact h|]. exfalso.
    assert (hi * p <= 0 * p) by (apply Rmult_le_compat_r; lra). lra. }
  split.
  - apply Rle_trans with (d * lo * e).
    + apply Rmult_le_compat_r; [lra|]. apply Rmult_le_compat_r; lra.
    + replace (d * lo * e) with (lo * (e * d)) by ring. rewrite E.
      replace (lo * (x * p)) with (x * (lo * p)) by ring. exact Z1.
  - apply Rle_trans with (hi * (x * p)); [lra|]. rewrite <- E.
    apply Rmult_le_compat_l; [lra|]. rewrite <- (Rmult_1_r e) at 2.
    apply Rmult_le_compat_l; lra.
Qed.

(** What is needed of a bin. *)
Definition bounded (cd lo hi s e : R) : Prop :=
  0 < e /\ (1 - cd) * lo * e <= s <= hi * e.

Lemma direct_bounds cd lo hi s e :
  0 <= cd < 1 -> 0 < lo -> 0 < e -> lo * e <= s <= hi * e -> bounded cd lo hi s e.
Proof.
  intros D L E [A B]. split; [exact E|]. split; [|exact B].
  apply Rle_trans with (lo * e); [|exact A]. apply Rmult_le_compat_r; [lra|].
  rewrite <- (Rmult_1_l lo) at 2. apply Rmult_le_compat_r; lra.
Qed.

Lemma two_stage_bounds cyc cd bl ql pl qf pf lo hi :
  0 <= cd < 1 -> 0 < bl -> 0 < ql -> ql <= qf -> 0 < pl -> 0 < pf -> 0 < lo ->
  lo <= ql / pl <= hi -> lo <= qf / pf <= hi ->
  two_stage_served bl ql qf = Rmin bl qf
  /\ bounded cd lo hi (Rmin bl qf) (two_stage_energy cyc cd bl ql pl qf pf).
Proof.
  intros D B Q F Pl Pf L Kl Kf. unfold two_stage_served, two_stage_energy.
  destruct Rle_dec as [H|H].
  { rewrite Rmin_left by lra. split; [reflexivity|]. apply cycling_bounds; lra. }
  split; [reflexivity|]. destruct Rlt_dec as [H'|H'].
  - rewrite Rmin_left by lra. destruct cyc.
    + apply cop_of in Kl; [|exact Pl]. apply cop_of in Kf; [|exact Pf].
      pose (k := (bl - ql) / (qf - ql)).
      assert (K : 0 <= k <= 1).
      { unfold k. split; [apply Rle_mult_inv_pos; lra|].
        apply (Rmult_le_reg_r (qf - ql)); [lra|].
        unfold Rdiv. rewrite Rmult_assoc, Rinv_l by lra. lra. }
      assert (E : line ql pl qf pf bl = pl + (pf - pl) * k)
        by (unfold line, k; field; lra).
      assert (Y : bl = ql + (qf - ql) * k) by (unfold k; field; lra).
      rewrite E. apply direct_bounds; [exact D|exact L|nra|]. rewrite Y. split; nra.
    + apply cycling_bounds; lra.
  - rewrite Rmin_right by lra. apply cop_of in Kf; [|exact Pf].
    apply direct_bounds; assumption.
Qed.

Lemma at_cop bl cop lo hi cd : 0 <= cd < 1 -> 0 < bl -> 0 < lo -> lo <= cop <= hi ->
  bounded cd lo hi bl (bl / cop).
Proof.
  intros D B L [A C]. assert (E : bl / cop * cop = bl) by (field; lra).
  assert (P : 0 < bl / cop) by (apply div_pos; lra).
  apply direct_bounds; [exact D|exact L|exact P|]. rewrite <- E at 2.
  rewrite <- E at 3. rewrite !(Rmult_comm _ (bl / cop)).
  split; apply Rmult_le_compat_l; lra.
Qed.

Lemma variable_bounds cd bl ql pl qi pi qf pf lo hi :
  0 <= cd < 1 -> 0 < bl -> 0 < ql -> ql <= qi -> qi < qf -> 0 < pl -> 0 < pi -> 0 < pf ->
  0 < lo -> lo <= ql / pl <= hi -> lo <= qi / pi <= hi -> lo <= qf / pf <= hi ->
  variable_served bl ql qi qf = Rmin bl qf
  /\ bounded cd lo hi (Rmin bl qf) (variable_energy cd bl ql pl qi pi qf pf).
Proof.
  intros D B Q I F Pl Pi Pf L Kl Ki Kf. unfold variable_served, variable_energy.
  destruct Rle_dec as [H|H].
  { rewrite Rmin_left by lra. split; [reflexivity|]. apply cycling_bounds; lra. }
  destruct Rlt_dec as [H'|H'].
  { rewrite Rmin_left by lra. split; [reflexivity|]. apply at_cop; [exact D|exact B|exact L|].
    apply line_between; lra. }
  split; [reflexivity|]. destruct Rle_dec as [J|J].
  - rewrite Rmin_left by lra. apply at_cop; [exact D|exact B|exact L|].
    apply line_between; lra.
  - rewrite Rmin_right by lra. apply cop_of in Kf; [|exact Pf].
    apply direct_bounds; assumption.
Qed.

Lemma ratio_bounds n h s e lo hi cd :
  (0 < n)%nat -> (forall i, (i < n)%nat -> 0 < h i) ->
  (forall i, (i < n)%nat -> bounded cd lo hi (s i) (e i)) ->
  0 < over n (fun i => h i * e i)
  /\ (1 - cd) * lo <= over n (fun i => h i * s i) / over n (fun i => h i * e i) <= hi.
Proof.
  intros N P K.
  assert (E : 0 < over n (fun i => h i * e i)).
  { apply over_pos; [exact N|]. intros i I. apply Rmult_lt_0_compat; [apply P, I|apply K, I]. }
  split; [exact E|].
  assert (A : (1 - cd) * lo * over n (fun i => h i * e i) <= over n (fun i => h i * s i)).
  { rewrite <- over_scale. apply over_le. intros i I. destruct (K i I) as (_ & A & _).
    specialize (P i I). apply (Rmult_le_compat_l (h i)) in A; lra. }
  assert (B : over n (fun i => h i * s i) <= hi * over n (fun i => h i * e i)).
  { rewrite <- over_scale. apply over_le. intros i I. destruct (K i I) as (_ & _ & C).
    specialize (P i I). apply (Rmult_le_compat_l (h i)) in C; lra. }
  split; apply (Rmult_le_reg_r (over n (fun i => h i * e i))); try exact E;
    match goal with |- context [?a / ?b * ?b] =>
      replace (a / b * b) with a by (field; apply Rgt_not_eq; exact E) end; lra.
Qed.

Lemma cool_load_pos q i : 0 < q -> 0 < cool_load q (cool_t i).
Proof.
  intros Q. unfold cool_load. apply Rlt_le_trans with
    (q / 1.1 * ((cool_t i - deg_F 65) / (deg_F 95 - deg_F 65))); [|apply Rmax_l].
  apply Rmult_lt_0_compat; [lra|]. pose proof (pos_INR i). unfold cool_t, deg_F. lra.
Qed.

Lemma Btu_Wh_le a b : a <= b -> Btu_Wh a <= Btu_Wh b.
Proof. unfold Btu_Wh. intros H. lra. Qed.

(** * SEER *)
Section Seer.
  Variable sol : solvers R.
  Variable M : dxmodel R.

  Lemma seer_single (u : U) c cop :
    u_staging u = SINGLE_STAGE -> rc_B_full (u_conds u) = Some c ->
    net_total_cooling_cop sol M u (Some c) = Ok cop ->
    seer sol M u = Ok (Btu_Wh ((1 - sd_cd (u_c u) / 2) * cop)).
  Proof.
    intros S C K. unfold seer, rating. rewrite S, C. cbn [need rbind]. rewrite K. cbn [rbind].
    rewrite to_Btu_Wh_spec, lit1_R. do 2 f_equal. cbn [nsub nmul RNum].
    replace (lit (T:=R) 0.5) with (1 / 2) by (rnum; lra). lra.
  Qed.
  Lemma seer_single_inv (u : U) v :
    u_staging u = SINGLE_STAGE -> seer sol M u = Ok v ->
    exists c cop, rc_B_full (u_conds u) = Some c
      /\ net_total_cooling_cop sol M u (Some c) = Ok cop
      /\ v = Btu_Wh ((1 - sd_cd (u_c u) / 2) * cop).
  Proof.
    intros S H. pose proof H as H0. unfold seer, rating in H. rewrite S in H.
    apply rbind_ok in H. destruct H as (r & H & _). apply rbind_ok in H.
    destruct H as (c & Hc & H). apply need_ok in Hc. apply rbind_ok in H.
    destruct H as (cop & Hk & _). exists c, cop. split; [exact Hc|]. split; [exact Hk|].
    rewrite (seer_single u c cop S Hc Hk) in H0. apply Ok_inj in H0. congruence.
  Qed.
  Lemma seer_single_bounds (u : U) c cop v :
    u_staging u = SINGLE_STAGE -> rc_B_full (u_conds u) = Some c ->
    net_total_cooling_cop sol M u (Some c) = Ok cop ->
    0 <= cop -> 0 <= sd_cd (u_c u) <= 1 -> seer sol M u = Ok v ->
    Btu_Wh (cop / 2) <= v <= Btu_Wh cop.
  Proof.
    intros S C K P D H. rewrite (seer_single u c cop S C K) in H. apply Ok_inj in H. subst v.
    split; apply Btu_Wh_le; nra.
  Qed.

  Lemma seer_two (u : U) v :
    u_staging u = TWO_STAGE -> seer sol M u = Ok v ->
    exists A B Bl Fl,
      cooling_test sol M u (rc_A_full (u_conds u)) A
      /\ cooling_test sol M u (rc_B_full (u_conds u)) B
      /\ cooling_test sol M u (rc_B_low (u_conds u)) Bl
      /\ cooling_test sol M u (rc_F_low (u_conds u)) Fl
      /\ v = Btu_Wh (over 8 (fun i => cool_hours i * two_served A B Bl Fl i)
                     / over 8 (fun i => cool_hours i
                                 * two_energy (u_cycling u) (sd_cd (u_c u)) A B Bl Fl i)).
  Proof.
    intros S H. unfold seer in H. rewrite S in H.
    apply rbind_ok in H. destruct H as (r & H & Hv).
    apply rbind_ok in H. destruct H as (A & HA & H).
    apply rbind_ok in H. destruct H as (B & HB & H).
    apply rbind_ok in H. destruct H as (Bl & HBl & H).
    apply rbind_ok in H. destruct H as (Fl & HFl & H).
    apply rbind_ok in H. destruct H as (qe & Hqe & H).
    exists A, B, Bl, Fl. do 4 (split; [apply tested_point; assumption|]).
    apply Ok_inj in Hv. subst v. rewrite to_Btu_Wh_spec. f_equal.
    apply pydiv_inv in H. destruct H as [_ ->].
    apply seer_sums_inv in Hqe. destruct Hqe as (_ & _ & f & Hf & ->). cbn [fst snd].
    f_equal.
    - apply over_ext. intros i I. specialize (Hf i I). apply bin_two_inv in Hf. rewrite Hf.
      reflexivity.
    - apply over_ext. intros i I. specialize (Hf i I). apply bin_two_inv in Hf.
      rewrite Hf. reflexivity.
  Qed.

  Lemma seer_two_bounds (u : U) A B Bl Fl lo hi :
    u_staging u = TWO_STAGE ->
    cooling_test sol M u (rc_A_full (u_conds u)) A ->
    cooling_test sol M u (rc_B_full (u_conds u)) B ->
    cooling_test sol M u (rc_B_low (u_conds u)) Bl ->
    cooling_test sol M u (rc_F_low (u_conds u)) Fl ->
    pt_t Bl <> pt_t Fl -> pt_t A <> pt_t B ->
    0 <= sd_cd (u_c u) < 1 -> 0 < pt_q A -> 0 < lo ->
    (forall i, (i < 8)%nat ->
       let t := cool_t i in
       0 < q_at Fl Bl t <= q_at B A t /\ 0 < p_at Fl Bl t /\ 0 < p_at B A t
       /\ lo <= q_at Fl Bl t / p_at Fl Bl t <= hi
       /\ lo <= q_at B A t / p_at B A t <= hi) ->
    let E := two_energy (u_cycling u) (sd_cd (u_c u)) A B Bl Fl in
    exists v,
      seer sol M u = Ok v
      /\ (forall i, (i < 8)%nat -> 0 < E i)
      /\ v = Btu_Wh (over 8 (fun i => cool_hours i
                                * Rmin (cool_load (pt_q A) (cool_t i)) (q_at B A (cool_t i)))
                     / over 8 (fun i => cool_hours i * E i))
      /\ Btu_Wh ((1 - sd_cd (u_c u)) * lo) <= v <= Btu_Wh hi.
  Proof.
    intros S HA HB HBl HFl T1 T2 D Q L K E.
    set (cd := sd_cd (u_c u)) in *.
    assert (Bd : forall i, (i < 8)%nat ->
       two_served A B Bl Fl i = Rmin (cool_load (pt_q A) (cool_t i)) (q_at B A (cool_t i))
       /\ bounded cd lo hi (Rmin (cool_load (pt_q A) (cool_t i)) (q_at B A (cool_t i))) (E i)).
    { intros i I. destruct (K i I) as ([K1 K2] & K3 & K4 & K5 & K6).
      apply two_stage_bounds; try assumption. apply cool_load_pos, Q. }
    destruct (ratio_bounds 8 cool_hours
      (fun i => Rmin (cool_load (pt_q A) (cool_t i)) (q_at B A (cool_t i))) E lo hi cd
      ltac:(lia) (fun i I => cool_hours_pos i I) (fun i I => proj2 (Bd i I))) as [P Rb].
    destruct (seer_sums_ok (fun _ bl ql pl qf pf n =>
        seer_bin_two (u_cycling u) cd bl ql pl qf pf n) A B Bl Fl T1 T2) as [s Hs].
    { intros i I. destruct (K i I) as ([K1 K2] & _). apply bin_two_ok; try assumption.
      left. apply cool_load_pos, Q. }
    pose proof (seer_sums_inv _ _ _ _ _ _ Hs) as (_ & _ & f & Hf & Es).
    assert (E2 : s = (over 8 (fun i => cool_hours i
                                * Rmin (cool_load (pt_q A) (cool_t i)) (q_at B A (cool_t i))),
                      over 8 (fun i => cool_hours i * E i))).
    { rewrite Es. f_equal; apply over_ext; intros i I; specialize (Hf i I);
        apply bin_two_inv in Hf; rewrite Hf; cbn [fst snd].
      - destruct (Bd i I) as [B1 _]. unfold two_served in B1. rewrite B1. reflexivity.
      - reflexivity. }
    exists (Btu_Wh (fst s / snd s)). split; [|split; [|split]].
    - unfold seer. rewrite S. unfold cooling_point.
      rewrite (proj1 (tested_point _ _ _ _ _) HA). cbn [rbind].
      rewrite (proj1 (tested_point _ _ _ _ _) HB). cbn [rbind].
      rewrite (proj1 (tested_point _ _ _ _ _) HBl). cbn [rbind].
      rewrite (proj1 (tested_point _ _ _ _ _) HFl). cbn [rbind].
      fold cd. rewrite Hs. cbn [rbind].
      rewrite pydiv_ok by (rewrite E2; cbn [snd]; lra). cbn [rbind].
      rewrite to_Btu_Wh_spec. reflexivity.
    - intros i I. apply (Bd i I).
    - rewrite E2. reflexivity.
    - rewrite E2. cbn [fst snd]. split; apply Btu_Wh_le; apply Rb.
  Qed.

  (** ** Variable speed *)
  Lemma slope_inv f (A B Bl Fl E : point R) m :
    seer_slope f A B Bl Fl E = Ok m ->
    m = mixed_slope (f E) (line (pt_t Fl) (f Fl) (pt_t Bl) (f Bl) (deg_F 87))
          (line (pt_t B) (f B) (pt_t A) (f A) (deg_F 87))
          ((f Bl - f Fl) / (deg_F 82 - deg_F 67)) ((f A - f B) / (deg_F 95 - deg_F 82)).
  Proof.
    unfold seer_slope. intros H. apply rbind_ok in H. destruct H as (a & Ha & H).
    apply rbind_ok in H. destruct H as (b & Hb & H).
    apply rbind_ok in H. destruct H as (n & Hn & H).
    apply along_inv in Ha. apply along_inv in Hb. apply pydiv_inv in Hn.
    destruct Ha as [_ ->]. destruct Hb as [_ ->]. destruct Hn as [_ ->].
    apply Ok_inj in H. subst m. rewrite !fr_F_deg.
    replace (lit (T:=R) 87) with 87 by (rnum; lra). replace (lit (T:=R) 82) with 82 by (rnum; lra).
    replace (lit (T:=R) 67) with 67 by (rnum; lra). replace (lit (T:=R) 95) with 95 by (rnum; lra).
    rewrite lit1_R. cbn [nadd nsub nmul ndiv RNum]. unfold mixed_slope. reflexivity.
  Qed.
  Lemma slope_ok f (A B Bl Fl E : point R) :
    pt_t Bl <> pt_t Fl -> pt_t A <> pt_t B ->
    line (pt_t B) (f B) (pt_t A) (f A) (deg_F 87)
      <> line (pt_t Fl) (f Fl) (pt_t Bl) (f Bl) (deg_F 87) ->
    exists m, seer_slope f A B Bl Fl E = Ok m.
  Proof.
    intros T1 T2 N. unfold seer_slope. rewrite !along_ok by assumption. cbn [rbind].
    rewrite pydiv_ok; [cbn [rbind]; eauto|]. rewrite !fr_F_deg.
    replace (lit (T:=R) 87) with 87 by (rnum; lra). cbn [nsub RNum].
    apply Rminus_eq_contra. exact N.
  Qed.

  Lemma int_line f m (A B Bl Fl E : point R) t :
    seer_slope f A B Bl Fl E = Ok m ->
    (f E + m * (t - fr_F (lit 87)))%num
    = f E + mixed_slope (f E) (line (pt_t Fl) (f Fl) (pt_t Bl) (f Bl) (deg_F 87))
          (line (pt_t B) (f B) (pt_t A) (f A) (deg_F 87))
          ((f Bl - f Fl) / (deg_F 82 - deg_F 67)) ((f A - f B) / (deg_F 95 - deg_F 82))
        * (t - deg_F 87).
  Proof.
    intros H. apply slope_inv in H. subst m. rewrite fr_F_deg.
    replace (lit (T:=R) 87) with 87 by (rnum; lra). reflexivity.
  Qed.

  Lemma seer_variable (u : U) v :
    u_staging u = VARIABLE_SPEED -> seer sol M u = Ok v ->
    exists A B Bl Fl E,
      cooling_test sol M u (rc_A_full (u_conds u)) A
      /\ cooling_test sol M u (rc_B_full (u_conds u)) B
      /\ cooling_test sol M u (rc_B_low (u_conds u)) Bl
      /\ cooling_test sol M u (rc_F_low (u_conds u)) Fl
      /\ cooling_test sol M u (rc_E_int (u_conds u)) E
      /\ v = Btu_Wh (over 8 (fun i => cool_hours i * var_served A B Bl Fl E i)
                     / over 8 (fun i => cool_hours i
                                 * var_energy (sd_cd (u_c u)) A B Bl Fl E i)).
  Proof.
    intros S H. unfold seer in H. rewrite S in H.
    apply rbind_ok in H. destruct H as (r & H & Hv).
    apply rbind_ok in H. destruct H as (A & HA & H).
    apply rbind_ok in H. destruct H as (B & HB & H).
    apply rbind_ok in H. destruct H as (Bl & HBl & H).
    apply rbind_ok in H. destruct H as (Fl & HFl & H).
    apply rbind_ok in H. destruct H as (qe & Hqe & H).
    apply rbind_ok in Hqe. destruct Hqe as (E & HE & Hqe).
    apply rbind_ok in Hqe. destruct Hqe as (mq & Hmq & Hqe).
    apply rbind_ok in Hqe. destruct Hqe as (mp & Hmp & Hqe).
    exists A, B, Bl, Fl, E. do 5 (split; [apply tested_point; assumption|]).
    apply Ok_inj in Hv. subst v. rewrite to_Btu_Wh_spec. f_equal.
    apply pydiv_inv in H. destruct H as [_ ->].
    apply seer_sums_inv in Hqe. destruct Hqe as (_ & _ & f & Hf & ->). cbn [fst snd].
    assert (G : forall i, (i < 8)%nat ->
      f i = (cool_hours i * var_served A B Bl Fl E i,
             cool_hours i * var_energy (sd_cd (u_c u)) A B Bl Fl E i)).
    { intros i I. specialize (Hf i I). apply bin_variable_inv in Hf. rewrite Hf.
      rewrite (int_line _ _ _ _ _ _ _ (cool_t i) Hmq), (int_line _ _ _ _ _ _ _ (cool_t i) Hmp).
      reflexivity. }
    f_equal.
    - apply over_ext. intros i I. rewrite (G i I). reflexivity.
    - apply over_ext. intros i I. rewrite (G i I). reflexivity.
  Qed.

  Lemma seer_variable_bounds (u : U) A B Bl Fl E lo hi :
    u_staging u = VARIABLE_SPEED ->
    cooling_test sol M u (rc_A_full (u_conds u)) A ->
    cooling_test sol M u (rc_B_full (u_conds u)) B ->
    cooling_test sol M u (rc_B_low (u_conds u)) Bl ->
    cooling_test sol M u (rc_F_low (u_conds u)) Fl ->
    cooling_test sol M u (rc_E_int (u_conds u)) E ->
    pt_t Bl <> pt_t Fl -> pt_t A <> pt_t B ->
    p_at B A (deg_F 87) <> p_at Fl Bl (deg_F 87) ->
    0 <= sd_cd (u_c u) < 1 -> 0 < pt_q A -> 0 < lo ->
    (forall i, (i < 8)%nat ->
       let t := cool_t i in
       let ql := q_at Fl Bl t in let pl := p_at Fl Bl t in
       let qi := q_int_cool A B Bl Fl E t in let pi := p_int_cool A B Bl Fl E t in
       let qf := q_at B A t in let pf := p_at B A t in
       0 < ql <= qi /\ qi < qf /\ 0 < pl /\ 0 < pi /\ 0 < pf
       /\ lo <= ql / pl <= hi /\ lo <= qi / pi <= hi /\ lo <= qf / pf <= hi) ->
    let En := var_energy (sd_cd (u_c u)) A B Bl Fl E in
    exists v,
      seer sol M u = Ok v
      /\ (forall i, (i < 8)%nat -> 0 < En i)
      /\ v = Btu_Wh (over 8 (fun i => cool_hours i
                                * Rmin (cool_load (pt_q A) (cool_t i)) (q_at B A (cool_t i)))
                     / over 8 (fun i => cool_hours i * En i))
      /\ Btu_Wh ((1 - sd_cd (u_c u)) * lo) <= v <= Btu_Wh hi.
  Proof.
    intros S HA HB HBl HFl HE T1 T2 Np D Q L K En.
    set (cd := sd_cd (u_c u)) in *.
    assert (Bd : forall i, (i < 8)%nat ->
       var_served A B Bl Fl E i = Rmin (cool_load (pt_q A) (cool_t i)) (q_at B A (cool_t i))
       /\ bounded cd lo hi (Rmin (cool_load (pt_q A) (cool_t i)) (q_at B A (cool_t i))) (En i)).
    { intros i I. destruct (K i I) as ([K1 K2] & K3 & K4 & K5 & K6 & K7 & K8 & K9).
      apply variable_bounds; try assumption. apply cool_load_pos, Q. }
    destruct (ratio_bounds 8 cool_hours
      (fun i => Rmin (cool_load (pt_q A) (cool_t i)) (q_at B A (cool_t i))) En lo hi cd
      ltac:(lia) (fun i I => cool_hours_pos i I) (fun i I => proj2 (Bd i I))) as [P Rb].
    assert (Nq : q_at B A (deg_F 87) <> q_at Fl Bl (deg_F 87)).
    { destruct (K 4%nat ltac:(lia)) as ([_ K2] & K3 & _).
      replace (cool_t 4) with (deg_F 87) in K2, K3
        by (unfold cool_t; f_equal; cbn [INR]; lra). lra. }
    destruct (slope_ok pt_q A B Bl Fl E T1 T2 Nq) as [mq Hmq].
    destruct (slope_ok pt_p A B Bl Fl E T1 T2 Np) as [mp Hmp].
    destruct (seer_sums_ok (fun t bl ql pl qf pf n =>
                  seer_bin_variable cd bl ql pl
                    (pt_q E + mq * (t - fr_F (lit 87)))%num
                    (pt_p E + mp * (t - fr_F (lit 87)))%num qf pf n) A B Bl Fl T1 T2) as [s Hs].
    { intros i I. destruct (K i I) as ([K1 K2] & K3 & K4 & K5 & K6 & _).
      rewrite (int_line _ _ _ _ _ _ _ (cool_t i) Hmq), (int_line _ _ _ _ _ _ _ (cool_t i) Hmp).
      apply bin_variable_ok; try assumption. left. apply cool_load_pos, Q. }
    pose proof (seer_sums_inv _ _ _ _ _ _ Hs) as (_ & _ & f & Hf & Es).
    assert (G : forall i, (i < 8)%nat ->
      f i = (cool_hours i * var_served A B Bl Fl E i, cool_hours i * En i)).
    { intros i I. specialize (Hf i I). apply bin_variable_inv in Hf. rewrite Hf.
      rewrite (int_line _ _ _ _ _ _ _ (cool_t i) Hmq), (int_line _ _ _ _ _ _ _ (cool_t i) Hmp).
      reflexivity. }
    assert (E2 : s = (over 8 (fun i => cool_hours i
                                * Rmin (cool_load (pt_q A) (cool_t i)) (q_at B A (cool_t i))),
                      over 8 (fun i => cool_hours i * En i))).
    { rewrite Es. f_equal; apply over_ext; intros i I; rewrite (G i I); cbn [fst snd].
      - rewrite (proj1 (Bd i I)). reflexivity.
      - reflexivity. }
    exists (Btu_Wh (fst s / snd s)). split; [|split; [|split]].
    - unfold seer. rewrite S. unfold cooling_point.
      rewrite (proj1 (tested_point _ _ _ _ _) HA). cbn [rbind].
      rewrite (proj1 (tested_point _ _ _ _ _) HB). cbn [rbind].
      rewrite (proj1 (tested_point _ _ _ _ _) HBl). cbn [rbind].
      rewrite (proj1 (tested_point _ _ _ _ _) HFl). cbn [rbind].
      rewrite (proj1 (tested_point _ _ _ _ _) HE). cbn [rbind].
      rewrite Hmq. cbn [rbind]. rewrite Hmp. cbn [rbind].
      fold cd. rewrite Hs. cbn [rbind].
      rewrite pydiv_ok by (rewrite E2; cbn [snd]; lra). cbn [rbind].
      rewrite to_Btu_Wh_spec. reflexivity.
    - intros i I. apply (Bd i I).
    - rewrite E2. reflexivity.
    - rewrite E2. cbn [fst snd]. split; apply Btu_Wh_le; apply Rb.
  Qed.
End Seer.
