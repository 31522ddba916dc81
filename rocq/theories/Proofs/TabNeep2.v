(** A first call of [make_neep_model_data] returns the entries it was given. *)
From Coq Require Import Reals QArith Lra Lia List Bool Sorted ZArith.
From Verif.Base Require Import Num Res Tac.
From Verif.Model Require Import Units Util Curves Tabular.
From Verif.Spec Require Import TabularSpec.
From Verif.Proofs Require Import UtilProofs UnitsR Lin1 TabCells TabAdd TabInterp TabBuild TabTotal.
Import ListNotations.
Local Open Scope R_scope.

Lemma seq_qc {B} m (k : unit -> st neep_tables B) (x : neep_tables (T:=R)) t' :
  ex m (nt_cc x) = Ok t' -> sbind (onq_c m) k x = k tt (mkNT t' (nt_cp x) (nt_hc x) (nt_hp x)).
Proof. intros E. apply ex_ok in E. unfold sbind, onq_c. rewrite E. reflexivity. Qed.
Lemma seq_pc {B} m (k : unit -> st neep_tables B) (x : neep_tables (T:=R)) t' :
  ex m (nt_cp x) = Ok t' -> sbind (onp_c m) k x = k tt (mkNT (nt_cc x) t' (nt_hc x) (nt_hp x)).
Proof. intros E. apply ex_ok in E. unfold sbind, onp_c. rewrite E. reflexivity. Qed.
Lemma seq_qh {B} m (k : unit -> st neep_tables B) (x : neep_tables (T:=R)) t' :
  ex m (nt_hc x) = Ok t' -> sbind (onq_h m) k x = k tt (mkNT (nt_cc x) (nt_cp x) t' (nt_hp x)).
Proof. intros E. apply ex_ok in E. unfold sbind, onq_h. rewrite E. reflexivity. Qed.
Lemma seq_ph {B} m (k : unit -> st neep_tables B) (x : neep_tables (T:=R)) t' :
  ex m (nt_hp x) = Ok t' -> sbind (onp_h m) k x = k tt (mkNT (nt_cc x) (nt_cp x) (nt_hc x) t').
Proof. intros E. apply ex_ok in E. unfold sbind, onp_h. rewrite E. reflexivity. Qed.

Definition row3 : Type := option R * option R * option R.
Definition rowl (r : row3) : list (option R) := [fst (fst r); snd (fst r); snd r].

(** Known cells of a table whose data are given. *)
Definition cells1 (x : R) (r : row3) : list cellv :=
  match fst (fst r) with Some v => [(1%Z, x, v)] | None => [] end ++
  match snd (fst r) with Some v => [(2%Z, x, v)] | None => [] end ++
  match snd r with Some v => [(3%Z, x, v)] | None => [] end.

Fixpoint cells (T : list R) (d : list row3) : list cellv :=
  match T, d with
  | x :: T', r :: d' => cells1 x r ++ cells T' d'
  | _, _ => []
  end.

Lemma cells_in T d s x v : In (s, x, v) (cells T d) ->
  exists i r, nth_error T i = Some x /\ nth_error d i = Some r /\
    exists j, (j < 3)%nat /\ s = Z.of_nat (S j) /\ nth_error (rowl r) j = Some (Some v).
Proof.
  revert d; induction T as [|y T IH]; intros [|r d] H; simpl in H; try contradiction.
  apply in_app_iff in H. destruct H as [H|H].
  - destruct r as [[o1 o2] o3]. unfold cells1 in H. cbn [fst snd] in H.
    rewrite !in_app_iff in H.
    exists 0%nat, (o1, o2, o3).
    destruct H as [H|[H|H]]; [destruct o1 as [w|]|destruct o2 as [w|]|destruct o3 as [w|]]; simpl in H; try contradiction;
      destruct H as [H|[]]; inversion H; subst; (split; [reflexivity|split; [reflexivity|]]);
      [exists 0%nat|exists 1%nat|exists 2%nat]; (split; [lia|split; reflexivity]).
  - destruct (IH d H) as (i & r' & H1 & H2 & H3). exists (S i), r'. auto.
Qed.

Lemma kt_data k T d : StronglySorted Rlt T -> length d = length T ->
  kt k 3 T (new_table k T 3 (Some (map rowl d))) (cells T d).
Proof.
  intros S L.
  assert (W : wf_table (new_table k T 3 (Some (map rowl d)))).
  { split; [auto|]. unfold new_table. cbn [t_data t_temps t_n]. split; [rewrite map_length; auto|].
    apply Forall_forall. intros r Hr. apply in_map_iff in Hr. destruct Hr as (q & <- & _). reflexivity. }
  split; [|reflexivity]. split; [auto|]. split; [reflexivity|]. split; [reflexivity|].
  intros s x v H. apply cells_in in H. destruct H as (i & r & H1 & H2 & j & H3 & -> & H4).
  split; [lia|]. rewrite (get_nth2 _ i x j W H1).
  unfold new_table. cbn [t_data]. unfold nth2. rewrite (map_nth_error _ _ _ H2), H4. reflexivity.
Qed.

Lemma kt_weaken k n T t l l' : kt k n T t l -> (forall c, In c l' -> In c l) -> kt k n T t l'.
Proof. intros ((W & K & N & H) & ET) I. split; [split; [auto|split; [auto|split; auto]]|auto]. Qed.

Lemma cells_nth T d i j x r v : nth_error T i = Some x -> nth_error d i = Some r ->
  nth_error (rowl r) j = Some (Some v) -> In (Z.of_nat (S j), x, v) (cells T d).
Proof.
  revert d i; induction T as [|y T IH]; intros [|q d] [|i] H1 H2 H3; try discriminate; cbn [cells].
  - cbn [nth_error] in H1, H2. inversion H1; inversion H2; subst. apply in_app_iff. left.
    destruct r as [[o1 o2] o3]. unfold cells1. cbn [fst snd]. rewrite !in_app_iff.
    destruct j as [|[|[|j]]]; simpl in H3; try (destruct j; discriminate); inversion H3; subst; simpl; auto.
  - apply in_app_iff. right. eapply IH; eauto.
Qed.

(** The final interpolators and the performance object. *)
Lemma neep_end n T1 T2 T3 T4 x l1 l2 l3 l4 :
  kt CoolingTable n T1 (nt_cc x) l1 -> kt CoolingTable n T2 (nt_cp x) l2 ->
  kt HeatingTable n T3 (nt_hc x) l3 -> kt HeatingTable n T4 (nt_hp x) l4 ->
  full n T1 l1 -> full n T2 l2 -> full n T3 l3 -> full n T4 l4 ->
  length T2 = length T1 -> length T4 = length T3 -> T1 <> [] -> T3 <> [] -> n <> 0%nat ->
  exists x' p,
    (onq_c set_interpolator ;;; onp_c set_interpolator ;;; onq_h set_interpolator ;;;
     onp_h set_interpolator ;;;
     sread (fun x => make_perf (nt_cc x) (nt_cp x) (nt_hc x) (nt_hp x))) x = (x', Ok p) /\
    (forall s x v, In (s, x, v) l1 -> cooling_capacity p (IZR s) x = Ok v) /\
    (forall s x v, In (s, x, v) l2 -> cooling_power p (IZR s) x = Ok v) /\
    (forall s x v, In (s, x, v) l3 -> heating_capacity p (IZR s) x = Ok v) /\
    (forall s x v, In (s, x, v) l4 -> heating_power p (IZR s) x = Ok v).
Proof.
  intros K1 K2 K3 K4 F1 F2 F3 F4 L1 L2 N1 N2 N3.
  destruct (tot_finish n n T1 T2 T3 T4 _ _ _ _ _ _ _ _ K1 K2 K3 K4 F1 F2 F3 F4) as (p & Hp); auto.
  pose proof (finish_calc _ _ _ _ p n n l1 l2 l3 l4 Hp (proj1 K1) (proj1 K2) (proj1 K3) (proj1 K4)) as C.
  unfold finish in Hp.
  destruct (ex set_interpolator (nt_cc x)) as [t1|] eqn:E1; [|discriminate]. cbn [rbind] in Hp.
  destruct (ex set_interpolator (nt_cp x)) as [t2|] eqn:E2; [|discriminate]. cbn [rbind] in Hp.
  destruct (ex set_interpolator (nt_hc x)) as [t3|] eqn:E3; [|discriminate]. cbn [rbind] in Hp.
  destruct (ex set_interpolator (nt_hp x)) as [t4|] eqn:E4; [|discriminate]. cbn [rbind] in Hp.
  rewrite (seq_qc _ _ _ _ E1), (seq_pc _ _ (mkNT _ _ _ _) _ E2), (seq_qh _ _ (mkNT _ _ _ _) _ E3),
    (seq_ph _ _ (mkNT _ _ _ _) _ E4).
  unfold sread. cbn [nt_cc nt_cp nt_hc nt_hp]. rewrite Hp. eexists _, p. split; [reflexivity|exact C].
Qed.

(** Cooling side of one table: interpolate at 82 °F, then add 60 °F and the
    maximum. *)
Lemma neep_cool t60 t82 t95 d0 d1 tmax c1 oc c3 e1 e2 e3 :
  d0 = (Some c1, oc, Some c3) -> d1 = (Some e1, Some e2, Some e3) -> e3 <> e1 -> t60 < t82 -> t82 < t95 -> t95 < tmax ->
  exists t1 t2 t3 T l,
    ex (set_by_interpolation 2 t82) (new_table CoolingTable [t82; t95] 3 (Some (map rowl [d0; d1]))) = Ok t1 /\
    ex (add_temperature t60 true (Some (lit 0.5))) t1 = Ok t2 /\
    ex (add_temperature tmax true None) t2 = Ok t3 /\
    kt CoolingTable 3 T t3 l /\ full 3 T l /\ T = [t60; t82; t95; tmax] /\
    forall i j x v, nth_error [t82; t95] i = Some x ->
      nth2 (map rowl [d0; d1]) i j = Some (Some v) -> ~ (i = 0 /\ j = 1)%nat -> In (Z.of_nat (S j), x, v) l.
Proof.
  intros -> -> He O1 O2 Hm.
  pose proof (kt_data CoolingTable [t82; t95] [(Some c1, oc, Some c3); (Some e1, Some e2, Some e3)]
    (sorted2 _ _ O2) eq_refl) as K0.
  apply (kt_weaken _ _ _ _ _ [(1%Z, t82, c1); (3%Z, t82, c3); (1%Z, t95, e1); (2%Z, t95, e2); (3%Z, t95, e3)]) in K0.
  2:{ intros c Hc. unfold cells, cells1. cbn [fst snd]. rewrite !in_app_iff. destruct oc; cbn [In] in *; tauto. }
  destruct (tot_interp CoolingTable 3 _ [] [] _ _ 2 t82 t95 c1 c3 e1 e2 e3 K0 eq_refl) as (t1 & E1 & K1);
    [lia|lia|inlist|inlist|inlist|inlist|inlist|auto|notin|].
  assert (F1 : full 3 [t82; t95] ((2%Z, t82, c1 + (e2 - e1) / (e3 - e1) * (c3 - c1))
    :: [(1%Z, t82, c1); (3%Z, t82, c3); (1%Z, t95, e1); (2%Z, t95, e2); (3%Z, t95, e3)])) by fullt.
  destruct (tot_below _ _ _ _ _ t82 t95 [] t60 true (Some (lit 0.5)) K1 F1 eq_refl O1)
    as (t2 & l2 & E2 & K2 & F2 & I2).
  destruct (tot_above _ _ _ _ _ t82 t95 [t60] tmax true None K2 F2 eq_refl Hm)
    as (t3 & l3 & E3 & K3 & F3 & I3).
  exists t1, t2, t3, ([t60; t82; t95] ++ [tmax]), l3.
  split; [exact E1|]. split; [exact E2|]. split; [exact E3|]. split; [exact K3|]. split; [exact F3|].
  split; [reflexivity|].
  intros i j x v Hi Hj Hn. apply I3, I2. right.
  destruct i as [|[|i]]; [| |destruct i; discriminate]; simpl in Hi; inversion Hi; subst x;
    destruct j as [|[|[|j]]]; try (unfold nth2 in Hj; simpl in Hj; destruct j; discriminate);
    unfold nth2 in Hj; simpl in Hj; inversion Hj; subst; try (exfalso; apply Hn; split; reflexivity);
    cbn [In Z.of_nat Pos.of_succ_nat Pos.succ]; tauto.
Qed.

(** Heating side of one table. *)
Lemma neep_heat tmin t5 t17 t47 t60 d0 d1 d2 h1 o h3 g1 g2 g3 f1 f2 f3 :
  d0 = (Some h1, o, Some h3) -> d1 = (Some g1, Some g2, Some g3) -> d2 = (Some f1, Some f2, Some f3) ->
  (o = None -> g3 <> g1) -> tmin < t5 -> t5 < t17 -> t17 < t47 -> t47 < t60 ->
  let t0 := new_table HeatingTable [t5; t17; t47] 3 (Some (map rowl [d0; d1; d2])) in
  exists t1 t2 t3 T l,
    t_get 2 t5 t0 = Ok o /\
    match o with None => ex (set_by_interpolation 2 t5) t0 = Ok t1 | Some _ => t1 = t0 end /\
    ex (add_temperature tmin true None) t1 = Ok t2 /\
    ex (add_temperature t60 false None) t2 = Ok t3 /\
    kt HeatingTable 3 T t3 l /\ full 3 T l /\ T = [tmin; t5; t17; t47; t60] /\
    forall i j x v, nth_error [t5; t17; t47] i = Some x ->
      nth2 (map rowl [d0; d1; d2]) i j = Some (Some v) -> In (Z.of_nat (S j), x, v) l.
Proof.
  intros -> -> -> Hg O1 O2 O3 O4 t0.
  assert (S0 : StronglySorted Rlt [t5; t17; t47]).
  { repeat constructor; lra. }
  pose proof (kt_data HeatingTable [t5; t17; t47] [(Some h1, o, Some h3); (Some g1, Some g2, Some g3); (Some f1, Some f2, Some f3)] S0 eq_refl) as K0.
  change (kt HeatingTable 3 [t5; t17; t47] t0 (cells [t5; t17; t47] [(Some h1, o, Some h3); (Some g1, Some g2, Some g3); (Some f1, Some f2, Some f3)])) in K0.
  assert (G0 : t_get 2 t5 t0 = Ok o).
  { destruct K0 as ((W & _) & _). exact (get_nth2 t0 0 t5 1 W eq_refl). }
  assert (exists t1 l1, match o with None => ex (set_by_interpolation 2 t5) t0 = Ok t1 | Some _ => t1 = t0 end /\
    kt HeatingTable 3 [t5; t17; t47] t1 l1 /\ full 3 [t5; t17; t47] l1 /\
    forall c, In c (cells [t5; t17; t47] [(Some h1, o, Some h3); (Some g1, Some g2, Some g3); (Some f1, Some f2, Some f3)]) -> In c l1)
    as (t1 & l1 & E1 & K1 & F1 & I1).
  { destruct o as [v|].
    - exists t0. eexists. split; [reflexivity|]. split; [exact K0|]. split; [|auto].
      unfold cells, cells1. cbn [fst snd app]. fullt.
    - unfold cells, cells1 in *. cbn [fst snd app] in *.
      destruct (tot_interp HeatingTable 3 _ [] [t47] _ _ 2 t5 t17 h1 h3 g1 g2 g3 K0 eq_refl) as (t1 & E1 & K1);
        [lia|lia|inlist|inlist|inlist|inlist|inlist|auto|notin|].
      exists t1. eexists. split; [exact E1|]. split; [exact K1|]. split; [fullt|]. intros c Hc; right; exact Hc. }
  destruct (tot_below _ _ _ _ _ t5 t17 [t47] tmin true None K1 F1 eq_refl O1) as (t2 & l2 & E2 & K2 & F2 & I2).
  destruct (tot_above _ _ _ _ _ t17 t47 [tmin; t5] t60 false None K2 F2 eq_refl O4) as (t3 & l3 & E3 & K3 & F3 & I3).
  exists t1, t2, t3, ([tmin; t5; t17; t47] ++ [t60]), l3.
  split; [exact G0|]. split; [exact E1|]. split; [exact E2|]. split; [exact E3|]. split; [exact K3|].
  split; [exact F3|]. split; [reflexivity|].
  intros i j x v Hi Hj. apply I3, I2, I1.
  unfold nth2 in Hj.
  destruct (nth_error (map rowl _) i) as [row|] eqn:Er in Hj; [|discriminate].
  rewrite nth_error_map in Er. destruct (nth_error _ i) as [r|] eqn:Err in Er; [|discriminate].
  inversion Er; subst row. eapply cells_nth; eauto.
Qed.

Lemma btuh_inj (a b : R) : a <> b -> fr_Btuh a <> fr_Btuh b.
Proof.
  intros H E. apply H. unfold fr_Btuh in E. cbn [nmul RNum] in E.
  apply Rmult_eq_reg_r in E; auto. apply Rgt_not_eq. apply btu_h_pos.
Qed.

Lemma sread_step {B A} (f : neep_tables -> res A) (k : A -> st neep_tables B) (x : neep_tables (T:=R)) v :
  f x = Ok v -> sbind (sread f) k x = k v x.
Proof. intros E. unfold sbind, sread. rewrite E. reflexivity. Qed.

Theorem neep_first_call a tmax tmin c1 oc c3 e1 e2 e3 c1' oc' c3' e1' e2' e3'
    h1 o h3 g1 g2 g3 f1 f2 f3 h1' o' h3' g1' g2' g3' f1' f2' f3' :
  n_cc a = [[Some c1; oc; Some c3]; [Some e1; Some e2; Some e3]] -> e3 <> e1 ->
  n_cp a = [[Some c1'; oc'; Some c3']; [Some e1'; Some e2'; Some e3']] -> e3' <> e1' ->
  n_hc a = [[Some h1; o; Some h3]; [Some g1; Some g2; Some g3]; [Some f1; Some f2; Some f3]] -> g3 <> g1 ->
  n_hp a = [[Some h1'; o'; Some h3']; [Some g1'; Some g2'; Some g3']; [Some f1'; Some f2'; Some f3']] -> g3' <> g1' ->
  fr_F 95 < tmax -> tmin < fr_F 5 ->
  exists a' p, make_neep_model_data None tmax tmin a = (a', Ok p) /\
    forall i j F v,
      (nth_error [82; 95] i = Some F -> ~ (i = 0 /\ j = 1)%nat ->
        (nth2 (n_cc a) i j = Some (Some v) -> cooling_capacity p (IZR (Z.of_nat (S j))) (fr_F F) = Ok (fr_Btuh v)) /\
        (nth2 (n_cp a) i j = Some (Some v) -> cooling_power p (IZR (Z.of_nat (S j))) (fr_F F) = Ok (v * 1000))) /\
      (nth_error [5; 17; 47] i = Some F ->
        (nth2 (n_hc a) i j = Some (Some v) -> heating_capacity p (IZR (Z.of_nat (S j))) (fr_F F) = Ok (fr_Btuh v)) /\
        (nth2 (n_hp a) i j = Some (Some v) -> heating_power p (IZR (Z.of_nat (S j))) (fr_F F) = Ok (v * 1000))).
Proof.
  intros A1 N1 A2 N2 A3 N3 A4 N4 Hm Hn.
  unfold make_neep_model_data. rewrite A1, A2, A3, A4.
  set (k := fun x : R => (x * lit 1000)%num).
  assert (kinj : forall x y, x <> y -> k x <> k y) by (intros x y H; unfold k; rnum; lra).
  assert (Ek : forall x, k x = x * 1000) by (intros x; unfold k; rnum; lra).
  cbv zeta.
  set (t82 := fr_F (lit (T:=R) 82)) in *. set (t95 := fr_F (lit (T:=R) 95)) in *.
  set (t17 := fr_F (lit (T:=R) 17)) in *. set (t47 := fr_F (lit (T:=R) 47)) in *.
  set (t60 := fr_F (lit (T:=R) 60)) in *. set (t5 := fr_F (lit (T:=R) 5)) in *.
  assert (E95 : fr_F 95 = t95) by (unfold t95; f_equal; rnum; lra).
  assert (E82 : fr_F 82 = t82) by (unfold t82; f_equal; rnum; lra).
  assert (E17 : fr_F 17 = t17) by (unfold t17; f_equal; rnum; lra).
  assert (E47 : fr_F 47 = t47) by (unfold t47; f_equal; rnum; lra).
  assert (E5 : fr_F 5 = t5) by (unfold t5; f_equal; rnum; lra).
  assert (L1 : t82 < t95) by (apply fr_F_lt; rnum; lra).
  assert (L2 : t17 < t47) by (apply fr_F_lt; rnum; lra).
  assert (L3 : t60 < t82) by (apply fr_F_lt; rnum; lra).
  assert (L4 : t5 < t17) by (apply fr_F_lt; rnum; lra).
  assert (L5 : t47 < t60) by (apply fr_F_lt; rnum; lra).
  rewrite E95 in Hm. rewrite E5 in Hn.
  destruct (neep_cool t60 t82 t95 _ _ tmax (fr_Btuh c1) (option_map fr_Btuh oc) (fr_Btuh c3) (fr_Btuh e1) (fr_Btuh e2) (fr_Btuh e3)
    eq_refl eq_refl (btuh_inj _ _ N1) L3 L1 Hm) as (q1 & q2 & q3 & Tq & lq & Q1 & Q2 & Q3 & KQ & FQ & EQ & IQ).
  destruct (neep_cool t60 t82 t95 _ _ tmax (k c1') (option_map k oc') (k c3') (k e1') (k e2') (k e3')
    eq_refl eq_refl (kinj _ _ N2) L3 L1 Hm) as (p1 & p2 & p3 & Tp & lp & P1 & P2 & P3 & KP & FP & EP & IP).
  destruct (neep_heat tmin t5 t17 t47 t60 _ _ _ (fr_Btuh h1) (option_map fr_Btuh o) (fr_Btuh h3) (fr_Btuh g1) (fr_Btuh g2) (fr_Btuh g3)
    (fr_Btuh f1) (fr_Btuh f2) (fr_Btuh f3) eq_refl eq_refl eq_refl (fun _ => btuh_inj _ _ N3) Hn L4 L2 L5)
    as (r1 & r2 & r3 & Tr & lr & R0 & R1 & R2 & R3 & KR & FR & ER & IR).
  destruct (neep_heat tmin t5 t17 t47 t60 _ _ _ (k h1') (option_map k o') (k h3') (k g1') (k g2') (k g3')
    (k f1') (k f2') (k f3') eq_refl eq_refl eq_refl (fun _ => kinj _ _ N4) Hn L4 L2 L5)
    as (s1 & s2 & s3 & Ts & ls & S0 & S1 & S2 & S3 & KS & FS & ES & IS).
  destruct (neep_end 3 Tq Tp Tr Ts (mkNT q3 p3 r3 s3) lq lp lr ls KQ KP KR KS FQ FP FR FS) as (x' & p & X & CQ & CP & CR & CS);
    [subst; reflexivity|subst; reflexivity|subst; discriminate|subst; discriminate|discriminate|].
  assert (B : neep_body None tmax tmin
     (mkNT (new_table CoolingTable [t82; t95] 3 (Some (convert_all fr_Btuh [[Some c1; oc; Some c3]; [Some e1; Some e2; Some e3]])))
        (new_table CoolingTable [t82; t95] 3 (Some (convert_all k [[Some c1'; oc'; Some c3']; [Some e1'; Some e2'; Some e3']])))
        (new_table HeatingTable [t5; t17; t47] 3 (Some (convert_all fr_Btuh [[Some h1; o; Some h3]; [Some g1; Some g2; Some g3]; [Some f1; Some f2; Some f3]])))
        (new_table HeatingTable [t5; t17; t47] 3 (Some (convert_all k [[Some h1'; o'; Some h3']; [Some g1'; Some g2'; Some g3']; [Some f1'; Some f2'; Some f3']]))))
     = (x', Ok p)).
  { unfold neep_body. cbv zeta. fold t60 t82 t5.
    rewrite (seq_qc _ _ (mkNT _ _ _ _) _ Q1), (seq_pc _ _ (mkNT _ _ _ _) _ P1),
      (seq_qc _ _ (mkNT _ _ _ _) _ Q2), (seq_pc _ _ (mkNT _ _ _ _) _ P2),
      (seq_qc _ _ (mkNT _ _ _ _) _ Q3), (seq_pc _ _ (mkNT _ _ _ _) _ P3).
    cbn [nt_cc nt_cp nt_hc nt_hp].
    erewrite sread_step by exact R0.
    assert (RR : forall B (kk : unit -> st (neep_tables (T:=R)) B) a b d,
      sbind (match option_map fr_Btuh o with Some _ => sret tt | None => onq_h (set_by_interpolation 2 t5) end) kk
        (mkNT a b (new_table HeatingTable [t5; t17; t47] 3 (Some (convert_all fr_Btuh [[Some h1; o; Some h3]; [Some g1; Some g2; Some g3]; [Some f1; Some f2; Some f3]]))) d)
      = kk tt (mkNT a b r1 d)).
    { intros. destruct o; cbn [option_map] in *; [rewrite R1; reflexivity|]. rewrite (seq_qh _ _ (mkNT _ _ _ _) _ R1). reflexivity. }
    rewrite RR. clear RR.
    cbn [nt_cc nt_cp nt_hc nt_hp].
    erewrite sread_step by exact S0.
    assert (RR : forall B (kk : unit -> st (neep_tables (T:=R)) B) a b d,
      sbind (match option_map k o' with Some _ => sret tt | None => onp_h (set_by_interpolation 2 t5) end) kk
        (mkNT a b d (new_table HeatingTable [t5; t17; t47] 3 (Some (convert_all k [[Some h1'; o'; Some h3']; [Some g1'; Some g2'; Some g3']; [Some f1'; Some f2'; Some f3']]))))
      = kk tt (mkNT a b d s1)).
    { intros. destruct o'; cbn [option_map] in *; [rewrite S1; reflexivity|]. rewrite (seq_ph _ _ (mkNT _ _ _ _) _ S1). reflexivity. }
    rewrite RR. clear RR.
    assert (RR : forall B (kk : unit -> st (neep_tables (T:=R)) B) a b,
      sbind (onq_h (add_temperature tmin true None) ;;; onp_h (add_temperature tmin true None)) kk (mkNT a b r1 s1)
      = kk tt (mkNT a b r2 s2)).
    { intros. apply ex_ok in R2. apply ex_ok in S2. unfold sbind, onq_h, onp_h. cbn [nt_cc nt_cp nt_hc nt_hp].
      rewrite R2. cbn [nt_cc nt_cp nt_hc nt_hp]. rewrite S2. reflexivity. }
    rewrite RR. clear RR.
    rewrite (seq_qh _ _ (mkNT _ _ _ _) _ R3), (seq_ph _ _ (mkNT _ _ _ _) _ S3). exact X. }
  rewrite B. exists (nt_args x'), p. split; [reflexivity|].
  intros i j F v.
  assert (CV : forall f l, nth2 l i j = Some (Some v) -> nth2 (convert_all f l) i j = Some (Some (f v))).
  { intros f l H. unfold nth2, convert_all in *. rewrite nth_error_map.
    destruct (nth_error l i) as [row|]; [|discriminate]. cbn [option_map]. rewrite nth_error_map, H. reflexivity. }
  split; intros HF; [intros Hij|];
    [assert (HF' : nth_error [t82; t95] i = Some (fr_F F))
    |assert (HF' : nth_error [t5; t17; t47] i = Some (fr_F F))].
  1:{ rewrite <- E82, <- E95. exact (map_nth_error fr_F i _ HF). }
  2:{ rewrite <- E5, <- E17, <- E47. exact (map_nth_error fr_F i _ HF). }
  - split; intros H; [apply CQ|rewrite <- Ek; apply CP]; [apply (IQ i)|apply (IP i)]; auto;
      [exact (CV fr_Btuh _ H)|exact (CV k _ H)].
  - split; intros H; [apply CR|rewrite <- Ek; apply CS]; [apply (IR i)|apply (IS i)]; auto;
      [exact (CV fr_Btuh _ H)|exact (CV k _ H)].
Qed.
