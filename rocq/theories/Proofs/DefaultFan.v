(** C78: default fans. *)
From Coq Require Import Reals QArith Lra Lia List Bool String.
From Verif.Base Require Import Num Res Tac.
From Verif.Model Require Import Units Util Psychrometrics Conditions Defrost Fan Curves
  Tabular Unit NREL BaseModel Title24 Resnet DXUnit.
From Verif.Spec Require Import NrelSpec UnitModels DefaultSpec.
From Verif.Proofs Require Import UnitsR FanProofs MakeCond Frame StandardProofs UnitProofs.
Import ListNotations.
Local Open Scope R_scope.

(** * What later steps leave alone *)
Definition core_side (s : side R) :=
  (sd_n s, sd_net_cap s, sd_airflow s, sd_fan_power s, sd_fan_speed s, sd_rated_fan_speed s).
Definition core (u : dxunit R) := (core_side (u_c u), core_side (u_h u), u_fan u).
(** With gross capacities. *)
Definition gcore (u : dxunit R) := (core u, sd_gross_cap (u_c u), sd_gross_cap (u_h u)).

Section Core.
  Variable psy : psychro R.
  Variable sol : solvers R.
  Notation U := (dxunit R).

  Definition gquiet {A} (set : A -> side R -> side R) : Prop :=
    forall l s, core_side (set l s) = core_side s /\ sd_gross_cap (set l s) = sd_gross_cap s.
  Lemma g_side_put m get set i v : gquiet set -> keeps gcore (side_put (T:=R) m get set i v).
  Proof.
    intros H. unfold side_put. keep. destruct m; unfold gcore, core; simpl;
      rewrite (proj1 (H _ _)), (proj2 (H _ _)); reflexivity.
  Qed.
  Lemma g_comp m set g : gquiet set -> keeps gcore (set_comp (T:=R) m set g).
  Proof.
    intros H. unfold set_comp. keep. destruct m; unfold gcore, core; simpl;
      rewrite (proj1 (H _ _)), (proj2 (H _ _)); reflexivity.
  Qed.
  Ltac keepg :=
    repeat (first
      [ keep_step
      | apply g_side_put; intros ? ?; split; reflexivity
      | apply g_comp; intros ? ?; split; reflexivity ]; cbv zeta beta).
  Lemma g_base_net m v : keeps gcore (base_set_net_cop (T:=R) m v).
  Proof. unfold base_set_net_cop, derive_from_net_cop. keepg. Qed.
  Lemma g_base_gross m v : keeps gcore (base_set_gross_cop (T:=R) m v).
  Proof. unfold base_set_gross_cop, derive_from_gross_cop. keepg. Qed.
  Lemma g_conditions : keeps gcore (set_rating_conditions psy).
  Proof. unfold set_rating_conditions, reset_full_esp, put_cond. keepg. Qed.
  Lemma g_sensible M : keeps gcore (set_sensible_cooling_variables psy sol M).
  Proof.
    unfold set_sensible_cooling_variables, set_sensible_at, calculate_rated_bypass_factor. keepg.
  Qed.
  Lemma c_put_gross m i : keeps core (put_gross_capacity (T:=R) m i).
  Proof. unfold put_gross_capacity, side_put. keep. Qed.
  Lemma c_reset : keeps core (reset_full_esp (T:=R)).
  Proof. unfold reset_full_esp. keep. Qed.
End Core.

(** * Gross capacities *)
Lemma side_put_inv m get set i v (u u' : dxunit R) :
  side_put m get set i v u = (u', Ok tt) ->
  (i < List.length (get (side_of m u)))%nat
  /\ u' = wu_side m (set (upd (get (side_of m u)) i (Some v)) (side_of m u)) u.
Proof.
  unfold side_put. intros H. apply sbind_ok in H. destruct H as (u1 & x & E & H).
  unfold sget in E. apply pair_ok_inj in E. destruct E as [<- <-].
  apply sbind_ok in H. destruct H as (u2 & l & E & H). apply slift_ok in E. destruct E as [-> E].
  unfold seti in E. destruct (Nat.ltb_spec i (List.length (get (side_of m u)))) as [L|L]; [|discriminate].
  apply Ok_inj in E. subst l. unfold on_side, smod in H. apply pair_ok_inj in H. destruct H as [<- _]. auto.
Qed.

Definition other (m : mode) : mode := match m with Cooling => Heating | Heating => Cooling end.
Lemma side_wu m (s : side R) u : side_of m (wu_side m s u) = s.
Proof. destruct m; reflexivity. Qed.
Lemma other_wu m (s : side R) u : side_of (other m) (wu_side m s u) = side_of (other m) u.
Proof. destruct m; reflexivity. Qed.

Lemma gross_phase m n : forall k (u u' : dxunit R),
  sfold (put_gross_capacity m) (seq k n) u = (u', Ok tt) ->
  sd_gross_cap (side_of (other m) u') = sd_gross_cap (side_of (other m) u)
  /\ (forall j, (j < k)%nat -> nth_error (sd_gross_cap (side_of m u')) j
                              = nth_error (sd_gross_cap (side_of m u)) j)
  /\ forall i, (k <= i < k + n)%nat -> exists q w,
     nth_error (sd_net_cap (side_of m u)) i = Some q
     /\ entry (sd_fan_power (side_of m u)) i w
     /\ entry (sd_gross_cap (side_of m u')) i (gross_of_net m q w).
Proof.
  induction n as [|n IH]; intros k u u' H; cbn [seq sfold] in H.
  - apply pair_ok_inj in H. destruct H as [<- _]. split; [reflexivity|]. split; [reflexivity|]. intros; lia.
  - apply sbind_ok in H. destruct H as (u1 & [] & E & H).
    unfold put_gross_capacity in E. apply sbind_ok in E. destruct E as (x & y & E0 & E).
    unfold sget in E0. apply pair_ok_inj in E0. destruct E0 as [<- <-].
    apply sbind_ok in E. destruct E as (x & q & Q & E). apply slift_ok in Q. destruct Q as [-> Q].
    apply sbind_ok in E. destruct E as (x & w & W & E). apply slift_ok in W. destruct W as [-> W].
    apply geti_ok in Q. unfold arr in W. apply rbind_ok in W. destruct W as (ow & W & N).
    apply geti_ok in W. apply need_ok in N. subst ow.
    apply side_put_inv in E. destruct E as [L ->].
    destruct (IH _ _ _ H) as (A & B & C). clear IH H.
    rewrite side_wu in B, C. rewrite other_wu in A. cbn [sd_gross_cap sd_net_cap sd_fan_power ws_gross_cap] in *.
    split; [exact A|]. split.
    + intros j J. rewrite B by lia. apply upd_other. lia.
    + intros i I. destruct (Nat.eq_dec i k) as [->|NE].
      * exists q, w. split; [exact Q|]. split; [exact W|]. unfold entry. rewrite B by lia.
        rewrite upd_same by exact L. destruct m; reflexivity.
      * apply C. lia.
Qed.

(** * The constructor *)
Section Construct.
  Variable psy : psychro R.
  Variable sol : solvers R.
  Notation U := (dxunit R).

  Lemma plain_setters M : plain_model sol M ->
    md_set_net_cop M = base_set_net_cop /\ md_set_gross_cop M = base_set_gross_cop.
  Proof.
    intros H. unfold plain_model in H. simpl in H.
    repeat (destruct H as [<-|H]; [split; reflexivity|]). contradiction.
  Qed.

  Lemma core_of m (u v : U) : core u = core v -> core_side (side_of m u) = core_side (side_of m v).
  Proof.
    intros H. destruct m.
    - exact (f_equal (fun x => fst (fst x)) H).
    - exact (f_equal (fun x => snd (fst x)) H).
  Qed.

  Lemma plain_build M a (u : U) : plain_model sol M -> DXUnit psy sol M a = Ok u ->
    exists u0 u1 u2 : U, init_unit M a = Ok u0 /\ set_placeholder_arrays u0 = (u1, Ok tt)
      /\ md_set_net_capacities_and_fan M (a_ccap a) (a_hcap a) (a_fan a) u1 = (u2, Ok tt)
      /\ core u = core u2
      /\ (forall m i, (i < sd_n (side_of m u))%nat -> exists q w,
           nth_error (sd_net_cap (side_of m u)) i = Some q
           /\ entry (sd_fan_power (side_of m u)) i w
           /\ entry (sd_gross_cap (side_of m u)) i (gross_of_net m q w))
      /\ (forall m, List.length (sd_net_cap (side_of m u)) = sd_n (side_of m u)).
  Proof.
    intros HM. destruct (plain_setters M HM) as [SN SG].
    unfold DXUnit. intros H. apply rbind_ok in H. destruct H as (u0 & H0 & H).
    unfold ex in H. destruct (finish_unit psy sol M a u0) as [u' [[]|e]] eqn:E; [|discriminate].
    injection H as ->.
    unfold finish_unit in E.
    apply sbind_ok in E. destruct E as (s1 & [] & E1 & E).
    apply sbind_ok in E. destruct E as (s2 & [] & E2 & E).
    apply sbind_ok in E. destruct E as (s3 & [] & E3 & E).
    apply sbind_ok in E. destruct E as (s4 & x4 & E4 & E).
    unfold sget in E4. apply pair_ok_inj in E4. destruct E4 as [<- <-].
    apply sbind_ok in E. destruct E as (s5 & [] & E5 & E).
    apply sbind_ok in E. destruct E as (s6 & [] & E6 & E).
    apply sbind_ok in E. destruct E as (s7 & x7 & E7 & E).
    apply sbind_ok in E. destruct E as (s8 & x8 & E8 & E).
    apply sbind_ok in E. destruct E as (s9 & [] & E9 & E).
    apply sbind_ok in E. destruct E as (t1 & y1 & F1 & E).
    apply sbind_ok in E. destruct E as (t2 & y2 & F2 & E).
    apply sbind_ok in E. destruct E as (t3 & y3 & F3 & E).
    apply sbind_ok in E. destruct E as (t4 & y4 & F4 & E).
    apply sbind_ok in E. destruct E as (t5 & y5 & F5 & E).
    apply sbind_ok in E. destruct E as (t6 & y6 & F6 & E).
    apply sbind_ok in E. destruct E as (t7 & y7 & F7 & E).
    apply sbind_ok in E. destruct E as (t8 & [] & F8 & E).
    apply sbind_ok in E. destruct E as (t9 & [] & F9 & E).
    apply sread_ok in F8. destruct F8 as [-> F8].
    apply sread_ok in F9. destruct F9 as [-> F9].
    apply sread_ok in E. destruct E as [-> E].
    rewrite SN in F4, F6. rewrite SG in F5, F7.
    assert (G : gcore t7 = gcore s6).
    { rewrite (keeps_ok gcore _ _ _ _ (opt_keeps gcore _ _ (g_base_gross Heating)) F7).
      rewrite (keeps_ok gcore _ _ _ _ (opt_keeps gcore _ _ (g_base_net Heating)) F6).
      rewrite (keeps_ok gcore _ _ _ _ (opt_keeps gcore _ _ (g_base_gross Cooling)) F5).
      rewrite (keeps_ok gcore _ _ _ _ (opt_keeps gcore _ _ (g_base_net Cooling)) F4).
      rewrite (keeps_ok gcore _ _ _ _ (keeps_lift gcore _) F3).
      rewrite (keeps_ok gcore _ _ _ _ (keeps_lift gcore _) F2).
      rewrite (keeps_ok gcore _ _ _ _ (g_sensible psy sol M) F1).
      rewrite (keeps_ok gcore _ _ _ _ (g_conditions psy) E9).
      transitivity (gcore s7).
      - unfold smod in E8. apply pair_ok_inj in E8. destruct E8 as [<- _]. reflexivity.
      - destruct (a_crank a); inv_st; reflexivity. }
    assert (C63 : core s6 = core s3).
    { rewrite (keeps_ok core _ _ _ _ (keeps_fold core _ _ (c_put_gross Heating)) E6).
      apply (keeps_ok core _ _ _ _ (keeps_fold core _ _ (c_put_gross Cooling)) E5). }
    assert (C53 : core s5 = core s3).
    { apply (keeps_ok core _ _ _ _ (keeps_fold core _ _ (c_put_gross Cooling)) E5). }
    assert (C32 : core s3 = core s2) by apply (keeps_ok core _ _ _ _ c_reset E3).
    assert (CU : core t7 = core s6) by (unfold gcore in G; congruence).
    exists u0, s1, s2. split; [exact H0|]. split; [exact E1|]. split; [exact E2|].
    split; [congruence|]. split.
    - apply gross_phase in E5, E6. destruct E5 as (A5 & _ & B5). destruct E6 as (A6 & _ & B6).
      intros m i I.
      assert (K3 : core_side (side_of m t7) = core_side (side_of m s3)) by (apply core_of; congruence).
      assert (K5 : core_side (side_of m t7) = core_side (side_of m s5)) by (apply core_of; congruence).
      assert (GG : sd_gross_cap (side_of m t7) = sd_gross_cap (side_of m s6))
        by (unfold gcore in G; destruct m; cbn [side_of]; congruence).
      unfold core_side in K3, K5. injection K3 as K31 K32 K33 K34 K35 K36. injection K5 as K51 K52 K53 K54 K55 K56.
      destruct m; cbn [side_of other] in *.
      + destruct (B5 i) as (q & w & Q & W & GC); [lia|]. exists q, w.
        rewrite K32, K34, GG. rewrite A6. auto.
      + destruct (B6 i) as (q & w & Q & W & GC); [lia|]. exists q, w.
        rewrite K52, K54, GG. auto.
    - unfold check_array_lengths, check_length, guard in F8. intros m.
      apply rbind_ok in F8. destruct F8 as (z1 & Z1 & F8).
      apply rbind_ok in F8. destruct F8 as (z2 & Z2 & F8).
      apply rbind_ok in F8. destruct F8 as (z3 & Z3 & F8).
      destruct m; cbn [side_of].
      + destruct (Nat.eqb_spec (List.length (sd_net_cap (u_c t7))) (sd_n (u_c t7))); [assumption|discriminate].
      + destruct (Nat.eqb_spec (List.length (sd_net_cap (u_h t7))) (sd_n (u_h t7))); [assumption|discriminate].
  Qed.
End Construct.
