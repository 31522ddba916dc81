(** What [resnet_set_fan] establishes at every speed when no fan is given. *)
From Coq Require Import Reals QArith Lra Lia List Bool String.
From Verif.Base Require Import Num Res Tac.
From Verif.Model Require Import Units Util Psychrometrics Conditions Fan Tabular Unit NREL BaseModel Title24 Resnet DXUnit.
From Verif.Proofs Require Import UnitsR FanProofs FanProofs2 Frame SingleFan SingleUnit UnitProofs RatedFan.
Import ListNotations.
Local Open Scope R_scope.

Section ResnetFan.
  Variable sol : solvers R.
  Notation U := (dxunit R).

  (** Speed [i] is served: its airflow is [q * x], two fan speeds deliver it, the pressure is
      that of the airflow relative to [ref], the power that of the fan there. *)
  Definition done (P : R) (f : fan R) (s : side R) (i : nat) (ref : R) : Prop :=
    exists q x k kd p w l l',
      nth_error (sd_net_cap s) i = Some q /\ flow_per_cap s i = Ok x
      /\ nth_error (sd_airflow s) i = Some (Some (q * x))
      /\ sd_fan_speed s = Some l /\ nth_error l i = Some (Some kd)
      /\ sd_rated_fan_speed s = Some l' /\ nth_error l' i = Some (Some k)
      /\ nth_error (sd_esp s) i = Some (Some p) /\ nth_error (sd_fan_power s) i = Some (Some w)
      /\ power sol f k (Some p) = Ok w
      /\ geti (f_airflow f) k = Ok (q * x) /\ geti (f_airflow f) kd = Ok (q * x)
      /\ ref <> 0 /\ p = P * ((q * x / ref) * (q * x / ref)).

  Lemma geti_len {A} (l : list A) k a : geti l k = Ok a -> (k < List.length l)%nat.
  Proof. intros H. apply geti_ok in H. apply nth_error_Some. congruence. Qed.
  Lemma geti_more f f' k a : extends f f' -> geti (f_airflow f) k = Ok a -> geti (f_airflow f') k = Ok a.
  Proof.
    intros (n & l & r & ->) H. cbn [f_airflow w_base]. rewrite geti_app; [exact H|].
    exact (geti_len _ _ _ H).
  Qed.
  Lemma done_more P f f' s i ref : rclass f -> extends f f' -> done P f s i ref -> done P f' s i ref.
  Proof.
    intros K X (q & x & k & kd & p & w & l & l' & A1 & A2 & A3 & A4 & A5 & A6 & A7 & A8 & A9 & B1 & B2 & B3 & B4).
    exists q, x, k, kd, p, w, l, l'. repeat (split; [assumption|]).
    split; [rewrite (extends_power sol f f') by (auto; exact (geti_len _ _ _ B2)); exact B1|].
    split; [exact (geti_more _ _ _ _ X B2)|]. split; [exact (geti_more _ _ _ _ X B3)|exact B4].
  Qed.

  (** Sides that agree at [i]. *)
  Definition agree (s s' : side R) (i : nat) : Prop :=
    sd_net_cap s' = sd_net_cap s /\ sd_flow_per_cap s' = sd_flow_per_cap s
    /\ nth_error (sd_airflow s') i = nth_error (sd_airflow s) i
    /\ nth_error (sd_esp s') i = nth_error (sd_esp s) i
    /\ nth_error (sd_fan_power s') i = nth_error (sd_fan_power s) i
    /\ (forall l, sd_fan_speed s = Some l ->
        exists l', sd_fan_speed s' = Some l' /\ nth_error l' i = nth_error l i)
    /\ (forall l, sd_rated_fan_speed s = Some l ->
        exists l', sd_rated_fan_speed s' = Some l' /\ nth_error l' i = nth_error l i).
  Lemma done_agree P f s s' i ref : agree s s' i -> done P f s i ref -> done P f s' i ref.
  Proof.
    intros (G1 & G2 & G3 & G4 & G5 & G6 & G7)
      (q & x & k & kd & p & w & l & l' & A1 & A2 & A3 & A4 & A5 & A6 & A7 & A8 & A9 & B).
    destruct (G6 _ A4) as (m & M1 & M2). destruct (G7 _ A6) as (m' & M3 & M4).
    exists q, x, k, kd, p, w, m, m'. unfold flow_per_cap in *. rewrite G1, G2, G3, G4, G5, M2, M4.
    repeat (split; [assumption|]). exact B.
  Qed.
  Lemma upd_other {A} (l : list A) i j v : j <> i -> nth_error (upd l i v) j = nth_error l j.
  Proof.
    intros N. destruct (Nat.lt_ge_cases i (List.length l)) as [L|L].
    - rewrite nth_upd by exact L. destruct (Nat.eqb_spec j i); [contradiction|reflexivity].
    - f_equal. clear N. revert i L. induction l as [|y l IH]; intros [|i] L; cbn in *; try reflexivity; try lia.
      f_equal. apply IH. lia.
  Qed.
  Lemma agree_refl s i : agree s s i.
  Proof. repeat (split; [reflexivity|]). split; eauto. Qed.

  (** What is done, on both sides. *)
  Definition state (P d : R) (K : fan_class R) (D : mode -> nat -> R -> Prop) (f : fan R) (u : U) : Prop :=
    u_fan u = Some f /\ rfan f /\ (f_class f = K /\ f_design_esp f = fr_inH2O (lit 0.5)) /\ geti (f_airflow f) 0 = Ok d
    /\ u_full_esp u = Some P
    /\ forall m i ref, D m i ref -> done P f (side_of m u) i ref.

  Definition untouched (D : mode -> nat -> R -> Prop) m i := forall ref, ~ D m i ref.

  Lemma state_side P d K D f (u : U) m s :
    state P d K D f u ->
    (forall i ref, D m i ref -> agree (side_of m u) s i) -> state P d K D f (wu_side m s u).
  Proof.
    intros (A1 & A2 & A3 & A4 & A5 & A6) G.
    split; [destruct m; exact A1|]. split; [exact A2|]. split; [exact A3|]. split; [exact A4|].
    split; [destruct m; exact A5|].
    intros m' i ref H. specialize (A6 m' i ref H).
    destruct m, m'; cbn [side_of wu_side wu_c wu_h u_c u_h] in *; try exact A6;
      exact (done_agree _ _ _ _ _ _ (G i ref H) A6).
  Qed.
  Lemma state_fan P d K D f f' (u : U) : extends f f' -> rfan f' -> f_class f' = f_class f ->
    state P d K D f u -> state P d K D f' (wu_fan (Some f') u).
  Proof.
    intros X R' C (A1 & A2 & A3 & A4 & A5 & A6).
    split; [reflexivity|]. split; [exact R'|].
    split; [destruct X as (? & ? & ? & ->); destruct A3 as [A3 A7]; split; [congruence|exact A7]|].
    split; [exact (geti_more _ _ _ _ X A4)|]. split; [exact A5|].
    intros m i ref H. apply (done_more P f f'); [exact (proj1 A2)|exact X|].
    destruct m; exact (A6 _ i ref H).
  Qed.

  Lemma airflow_step P d K D f (u u' : U) m i v b :
    state P d K D f u -> untouched D m i ->
    side_put m sd_airflow ws_airflow i v u = (u', Ok b) ->
    state P d K D f u' /\ nth_error (sd_airflow (side_of m u')) i = Some (Some v).
  Proof.
    intros S N E. apply side_put_inv in E. destruct E as [-> L]. split.
    - apply state_side; [exact S|]. intros j ref H.
      assert (j <> i) by (intros ->; exact (N _ H)).
      repeat (split; [reflexivity|]). split; [cbn [sd_airflow ws_airflow]; apply upd_other; assumption|].
      repeat (split; [reflexivity|]). split; intros l Hl; exists l; split; auto.
    - assert (Q : side_of m (wu_side m (ws_airflow (upd (sd_airflow (side_of m u)) i (Some v)) (side_of m u)) u)
        = ws_airflow (upd (sd_airflow (side_of m u)) i (Some v)) (side_of m u)) by (destruct m; reflexivity).
      rewrite Q. cbn [sd_airflow ws_airflow]. rewrite nth_upd by exact L. rewrite Nat.eqb_refl. reflexivity.
  Qed.

  Definition ready (f : fan R) (s : side R) (i : nat) (v : R) : Prop :=
    exists l kd, sd_fan_speed s = Some l /\ nth_error l i = Some (Some kd) /\ geti (f_airflow f) kd = Ok v.

  Lemma put_fan_step P d K D f (u u' : U) m i k v b :
    state P d K D f u -> untouched D m i -> geti (f_airflow f) k = Ok v ->
    put_fan_speed m i k u = (u', Ok b) ->
    state P d K D f u' /\ ready f (side_of m u') i v.
  Proof.
    intros S N G E. apply put_fan_inv in E. destruct E as (l & El & L & ->). split.
    - apply state_side; [exact S|]. intros j ref H.
      assert (j <> i) by (intros ->; exact (N _ H)).
      repeat (split; [reflexivity|]). split.
      + intros l0 J0. assert (l0 = l) by congruence. subst l0. eexists. split; [reflexivity|].
        apply upd_other. assumption.
      + intros l0 Hl; exists l0; split; auto.
    - exists (upd l i (Some k)), k. split; [destruct m; reflexivity|].
      split; [rewrite nth_upd by exact L; rewrite Nat.eqb_refl; reflexivity|exact G].
  Qed.

  Lemma arr_ok (l : list (option R)) i a : arr l i = Ok a -> nth_error l i = Some (Some a).
  Proof.
    unfold arr. intros H. apply rbind_ok in H. destruct H as (o & E & H). apply need_ok in H. subst o.
    apply geti_ok. exact E.
  Qed.

  Lemma design_step P d K D f (u u' : U) m i b :
    state P d K D f u -> untouched D m i ->
    add_design_speed m i u = (u', Ok b) ->
    exists f' v, state P d K D f' u' /\ extends f f' /\ nth_error (sd_airflow (side_of m u)) i = Some (Some v)
      /\ ready f' (side_of m u') i v.
  Proof.
    intros S N E. apply add_design_inv in E.
    destruct E as (a & f0 & f' & l & Ea & F0 & Ad & El & L & ->).
    assert (f0 = f) by (destruct S as (F & _); congruence). subst f0.
    destruct (radd_fan _ _ _ _ _ (proj1 (proj2 S)) Ad) as (R' & X & C & Np & Ga).
    exists f', a. split; [|split; [exact X|split; [exact (arr_ok _ _ _ Ea)|]]].
    - pose proof (state_fan _ _ _ _ _ _ _ X R' C S) as S'.
      assert (Q : side_of m u = side_of m (wu_fan (Some f') u)) by (destruct m; reflexivity).
      rewrite Q at 1. apply state_side; [exact S'|]. intros j ref H.
      assert (j <> i) by (intros ->; exact (N _ H)). rewrite <- Q.
      repeat (split; [reflexivity|]). split.
      + intros l0 J0. assert (l0 = l) by congruence. subst l0. eexists. split; [reflexivity|].
        apply upd_other. assumption.
      + intros l0 Hl; exists l0; split; auto.
    - exists (upd l i (Some (Nat.pred (f_n f')))), (Nat.pred (f_n f')).
      split; [destruct m; reflexivity|].
      split; [rewrite nth_upd by exact L; rewrite Nat.eqb_refl; reflexivity|]. rewrite Np. exact Ga.
  Qed.

  Definition add (D : mode -> nat -> R -> Prop) m i ref : mode -> nat -> R -> Prop :=
    fun m' i' ref' => D m' i' ref' \/ (m' = m /\ i' = i /\ ref' = ref).

  Lemma rated_step P d K D f (u u' : U) m i ref b q x :
    state P d K D f u -> untouched D m i ->
    nth_error (sd_net_cap (side_of m u)) i = Some q -> flow_per_cap (side_of m u) i = Ok x ->
    nth_error (sd_airflow (side_of m u)) i = Some (Some (q * x)) ->
    ready f (side_of m u) i (q * x) ->
    add_rated_speed sol m i ref u = (u', Ok b) ->
    exists f', state P d K (add D m i ref) f' u' /\ extends f f'.
  Proof.
    intros S N Hq Hx Ha (l0 & kd & Y1 & Y2 & Y3) E. apply add_rated_inv in E.
    destruct E as (a & p & f0 & f' & l & w & Ea & Ep & F0 & Ad & El & L1 & L2 & L3 & W & ->).
    assert (f0 = f) by (destruct S as (F & _); congruence). subst f0.
    destruct (radd_fan _ _ _ _ _ (proj1 (proj2 S)) Ad) as (R' & X & C & Np & Ga).
    exists f'. split; [|exact X].
    pose proof (arr_ok _ _ _ Ea) as Ea'. assert (a = q * x) by congruence. subst a.
    unfold calculate_rated_pressure in Ep. apply rbind_ok in Ep. destruct Ep as (P' & EP & Ep).
    apply need_ok in EP. assert (P' = P) by (destruct S as (_ & _ & _ & _ & F & _); congruence). subst P'.
    apply rbind_ok in Ep. destruct Ep as (r & Er & Ep). apply pydiv_inv in Er. destruct Er as [Z Er].
    apply Ok_inj in Ep.
    pose proof (state_fan _ _ _ _ _ _ _ X R' C S) as S'.
    assert (Q : side_of m u = side_of m (wu_fan (Some f') u)) by (destruct m; reflexivity).
    set (s' := ws_fan_power _ _).
    assert (S2 : state P d K D f' (wu_side m s' (wu_fan (Some f') u))).
    { apply state_side; [exact S'|]. intros j ref' H.
      assert (j <> i) by (intros ->; exact (N _ H)). rewrite <- Q. unfold s'.
      repeat (split; [reflexivity|]).
      split; [cbn [sd_esp ws_fan_power ws_rated_fan_speed ws_esp]; apply upd_other; assumption|].
      split; [cbn [sd_fan_power ws_fan_power]; apply upd_other; assumption|].
      split.
      + intros l1 Hl; exists l1; split; auto.
      + intros l1 J0. assert (l1 = l) by congruence. subst l1. eexists. split; [reflexivity|].
        apply upd_other. assumption. }
    destruct S2 as (B1 & B2 & B3 & B4 & B5 & B6). repeat (split; [assumption|]).
    intros m' i' ref' [H|(-> & -> & ->)]; [exact (B6 _ _ _ H)|].
    assert (Q' : side_of m (wu_side m s' (wu_fan (Some f') u)) = s') by (destruct m; reflexivity).
    rewrite Q'. exists q, x, (Nat.pred (f_n f')), kd, p, w, l0, (upd l i (Some (Nat.pred (f_n f')))).
    unfold s', flow_per_cap in *.
    cbn [sd_net_cap sd_flow_per_cap sd_airflow sd_fan_speed sd_rated_fan_speed sd_esp sd_fan_power
      ws_fan_power ws_rated_fan_speed ws_esp].
    split; [exact Hq|]. split; [exact Hx|]. split; [exact Ha|]. split; [exact Y1|]. split; [exact Y2|].
    split; [reflexivity|]. split; [rewrite nth_upd by exact L1; rewrite Nat.eqb_refl; reflexivity|].
    split; [rewrite nth_upd by exact L2; rewrite Nat.eqb_refl; reflexivity|].
    split; [rewrite nth_upd by exact L3; rewrite Nat.eqb_refl; reflexivity|].
    split; [exact W|]. split; [rewrite Np; exact Ga|]. split; [exact (geti_more _ _ _ _ X Y3)|].
    split; [exact Z|]. rewrite <- Ep, Er. unfold nsq. rnum. reflexivity.
  Qed.

  (** Frames: capacities and airflows per capacity. *)
  Definition caps (u : U) := (sd_net_cap (u_c u), sd_flow_per_cap (u_c u), sd_net_cap (u_h u), sd_flow_per_cap (u_h u)).
  Definition flows (u : U) := (sd_airflow (u_c u), sd_airflow (u_h u)).
  Ltac keepf :=
    repeat (first [keep_step
      | match goal with |- keeps _ (on_side ?m _) => destruct m end
      | match goal with |- keeps _ (on_fan _) =>
        let u := fresh in intros u; unfold on_fan; destruct (u_fan u); [|reflexivity];
        match goal with |- context [let (_, _) := ?e in _] => destruct e end; reflexivity end ]; cbv zeta beta);
    try reflexivity.
  Ltac unfan := unfold other_speed, add_rated_speed, add_design_speed, given_fan_speed, put_rated_fan_speed,
    put_fan_speed, last_fan_speed, side_put, put_rn.
  Lemma caps_other m k iq : keeps caps (other_speed (T:=R) sol m k iq).
  Proof. unfan. keepf. Qed.
  Lemma caps_rated m i x : keeps caps (add_rated_speed (T:=R) sol m i x).
  Proof. unfan. keepf. Qed.
  Lemma caps_design m i : keeps caps (add_design_speed (T:=R) m i).
  Proof. unfan. keepf. Qed.
  Lemma caps_put m i k : keeps caps (put_fan_speed (T:=R) m i k).
  Proof. unfan. keepf. Qed.
  Lemma flows_rated m i x : keeps flows (add_rated_speed (T:=R) sol m i x).
  Proof. unfan. keepf. Qed.
  Lemma flows_design m i : keeps flows (add_design_speed (T:=R) m i).
  Proof. unfan. keepf. Qed.
  Lemma flows_put m i k : keeps flows (put_fan_speed (T:=R) m i k).
  Proof. unfan. keepf. Qed.

  Lemma caps_side m (u u' : U) : caps u' = caps u ->
    sd_net_cap (side_of m u') = sd_net_cap (side_of m u)
    /\ sd_flow_per_cap (side_of m u') = sd_flow_per_cap (side_of m u).
  Proof. unfold caps. intros H. destruct m; cbn [side_of]; split; congruence. Qed.
  Lemma flows_side m (u u' : U) : flows u' = flows u ->
    sd_airflow (side_of m u') = sd_airflow (side_of m u).
  Proof. unfold flows. intros H. destruct m; cbn [side_of]; congruence. Qed.

  (** One pass of the loop over the other speeds, at speed [i]. *)
  Lemma other_step P d K D f (u u' : U) m full i q b :
    state P d K D f u -> i <> full -> untouched D m i ->
    nth_error (sd_net_cap (side_of m u)) i = Some q ->
    other_speed sol m full (i, q) u = (u', Ok b) ->
    exists f' v0, state P d K (add D m i v0) f' u' /\ extends f f'
      /\ nth_error (sd_airflow (side_of m u')) 0 = Some (Some v0)
      /\ (i <> 0%nat -> nth_error (sd_airflow (side_of m u')) 0 = nth_error (sd_airflow (side_of m u)) 0)
      /\ caps u' = caps u.
  Proof.
    intros S Ni N Hq E. pose proof (keeps_ok caps _ _ _ _ (caps_other _ _ _) E) as Kc.
    unfold other_speed in E. cbv zeta in E. cbn [fst snd] in E.
    destruct (Nat.eqb_spec i full); [contradiction|].
    apply sbind_ok in E. destruct E as (s1 & z & E1 & E). unfold sget in E1. apply pair_ok_inj in E1.
    destruct E1 as [<- <-].
    apply sbind_ok in E. destruct E as (s1 & x & E1 & E). apply slift_ok in E1. destruct E1 as [-> Hx].
    apply sbind_ok in E. destruct E as (s1 & [] & E1 & E).
    assert (C1 : caps s1 = caps u /\ (i <> 0%nat -> nth_error (sd_airflow (side_of m s1)) 0 = nth_error (sd_airflow (side_of m u)) 0)).
    { pose proof E1 as E0. apply side_put_inv in E0. destruct E0 as [-> _]. split; [destruct m; reflexivity|].
      intros Hi. destruct m; cbn [side_of wu_side u_c u_h wu_c wu_h sd_airflow ws_airflow]; apply upd_other; auto. }
    destruct C1 as [C1 A1].
    destruct (airflow_step _ _ _ _ _ _ _ _ _ _ _ S N E1) as [S1 V1].
    apply sbind_ok in E. destruct E as (s2 & [] & E2 & E).
    pose proof (keeps_ok caps _ _ _ _ (caps_design _ _) E2) as C2.
    pose proof (keeps_ok flows _ _ _ _ (flows_design _ _) E2) as A2.
    destruct (design_step _ _ _ _ _ _ _ _ _ _ S1 N E2) as (f2 & v & S2 & X2 & V2 & Y2).
    cbn [snd] in V1. assert (v = q * x) by (rnum_in V1; congruence). subst v.
    apply sbind_ok in E. destruct E as (s3 & z & E3 & E). unfold sget in E3. apply pair_ok_inj in E3.
    destruct E3 as [<- <-].
    apply sbind_ok in E. destruct E as (s3 & v0 & E3 & E). apply slift_ok in E3. destruct E3 as [-> Hv0].
    pose proof (keeps_ok flows _ _ _ _ (flows_rated _ _ _) E) as A3.
    destruct (caps_side m _ _ (eq_trans C2 C1)) as [Cq Cx].
    assert (Q1 : nth_error (sd_net_cap (side_of m s2)) i = Some q) by (rewrite Cq; exact Hq).
    assert (Q2 : flow_per_cap (side_of m s2) i = Ok x) by (unfold flow_per_cap in *; rewrite Cx; exact Hx).
    assert (Q3 : nth_error (sd_airflow (side_of m s2)) i = Some (Some (q * x)))
      by (rewrite (flows_side m _ _ A2); exact V2).
    destruct (rated_step P d K D f2 s2 u' m i v0 b q x S2 N Q1 Q2 Q3 Y2 E) as (f3 & S3 & X3).
    exists f3, v0. split; [exact S3|]. split; [exact (extends_trans _ _ _ X2 X3)|].
    split; [rewrite (flows_side m _ _ A3); exact (arr_ok _ _ _ Hv0)|].
    split; [|exact Kc]. intros Hi. rewrite (flows_side m _ _ A3), (flows_side m _ _ A2). exact (A1 Hi).
  Qed.

  (** The loop: afterwards every speed but [full] is served relative to the airflow of speed 0. *)
  Definition upto (D : mode -> nat -> R -> Prop) (m : mode) (full j : nat) (v0 : R) : mode -> nat -> R -> Prop :=
    fun m' i ref => D m' i ref \/ (m' = m /\ (i < j)%nat /\ i <> full /\ ref = v0).
  Lemma state_weaken P d K (D D' : mode -> nat -> R -> Prop) f (u : U) : (forall m i r, D' m i r -> D m i r) ->
    state P d K D f u -> state P d K D' f u.
  Proof. intros H (A1 & A2 & A3 & A4 & A5 & A6). repeat (split; [assumption|]). auto. Qed.


  Definition at_step (P d : R) K D (u0 : U) m full (j : nat) (u : U) : Prop :=
    exists f v0, state P d K (upto D m full j v0) f u /\ caps u = caps u0
      /\ ((0 < j)%nat \/ full = 0%nat -> nth_error (sd_airflow (side_of m u)) 0 = Some (Some v0)).
  Lemma other_at P d K D (u0 : U) m full j q (u u' : U) b :
    (forall i, i <> full -> untouched D m i) -> at_step P d K D u0 m full j u ->
    nth_error (sd_net_cap (side_of m u0)) j = Some q ->
    other_speed sol m full (j, q) u = (u', Ok b) -> at_step P d K D u0 m full (S j) u'.
  Proof.
    intros N (f & v0 & S & C & A) Hq E. destruct (Nat.eq_dec j full) as [->|Nj].
    - assert (u' = u). { unfold other_speed in E. cbv zeta in E. cbn [fst] in E. rewrite Nat.eqb_refl in E.
        unfold sret in E. apply pair_ok_inj in E. destruct E; auto. }
      subst u'. exists f, v0. split; [|split; [exact C|]].
      + apply (state_weaken _ _ _ _ _ _ _) with (2 := S). intros m' i r [H|(H1 & H2 & H3 & H4)]; [left; exact H|right].
        repeat split; auto. lia.
      + intros _. apply A. destruct full; auto. left. lia.
    - assert (Nt : untouched (upto D m full j v0) m j).
      { intros ref [H|(_ & H & _)]; [exact (N _ Nj _ H)|lia]. }
      destruct (caps_side m _ _ C) as [Cq _].
      assert (Hq' : nth_error (sd_net_cap (side_of m u)) j = Some q) by (rewrite Cq; exact Hq).
      destruct (other_step _ _ _ _ _ _ _ _ _ _ _ _ S Nj Nt Hq' E) as (f' & v & S' & X & A1 & A2 & C').
      exists f', v. split; [|split; [congruence|intros _; exact A1]].
      apply (state_weaken _ _ _ _ _ _ _) with (2 := S').
      intros m' i r [H|(H1 & H2 & H3 & H4)]; [left; left; exact H|].
      destruct (Nat.eq_dec i j) as [->|Nij]; [right; auto|]. left. right.
      assert (Hj : (0 < j)%nat) by lia. specialize (A (or_introl Hj)). rewrite A2, A in A1 by lia.
      repeat split; auto; [lia|congruence].
  Qed.
  Lemma other_fold P d K D (u0 : U) m full l : (forall i, i <> full -> untouched D m i) ->
    forall j (u u' : U) b, at_step P d K D u0 m full j u ->
    (forall i q, nth_error l i = Some q -> nth_error (sd_net_cap (side_of m u0)) (j + i) = Some q) ->
    sfold (other_speed sol m full) (combine (seq j (List.length l)) l) u = (u', Ok b) ->
    at_step P d K D u0 m full (j + List.length l) u'.
  Proof.
    intros N. induction l as [|q l IH]; intros j u u' b A Hl E.
    - cbn in E. unfold sret in E. apply pair_ok_inj in E. destruct E as [<- _].
      cbn [List.length]. rewrite Nat.add_0_r. exact A.
    - cbn [List.length seq combine sfold] in E. apply sbind_ok in E. destruct E as (s1 & [] & E1 & E).
      pose proof (Hl 0%nat q eq_refl) as Hq. rewrite Nat.add_0_r in Hq.
      pose proof (other_at _ _ _ _ _ _ _ _ _ _ _ _ N A Hq E1) as A1.
      cbn [List.length]. rewrite Nat.add_succ_r, <- Nat.add_succ_l. apply (IH _ _ _ _ A1) with (2 := E).
      intros i q' Hi. specialize (Hl (S i) q' Hi). rewrite Nat.add_succ_r in Hl. exact Hl.
  Qed.

  Definition given_flow (s : side R) := list_default (sd_flow_per_cap s) (fr_cfm_per_ton (lit 400)) (sd_n s).
  Definition the_motor (u : U) : motor_type :=
    match rn_motor (u_rn u) with
    | Some k => k
    | None => match u_staging u with SINGLE_STAGE => MotorPSC | _ => MotorBPM end
    end.

  Lemma set_fan_done (u u' : U) b :
    resnet_set_fan sol None u = (u', Ok b) ->
    exists f P ac ah, let d := if Rle_dec ah ac then ac else ah in
      get_rated_full_flow_rated_pressure u = Ok P
      /\ u_fan u' = Some f /\ rfan f /\ (f_class f = motor_class (the_motor u) /\ f_design_esp f = fr_inH2O (lit 0.5))
      /\ geti (f_airflow f) 0 = Ok d
      /\ caps u' = (sd_net_cap (u_c u), given_flow (u_c u), sd_net_cap (u_h u), given_flow (u_h u))
      /\ nth_error (sd_airflow (u_c u')) (sd_full (u_c u)) = Some (Some ac)
      /\ nth_error (sd_airflow (u_h u')) (sd_full (u_h u)) = Some (Some ah)
      /\ forall m, done P f (side_of m u') (sd_full (side_of m u)) d
        /\ exists v0, nth_error (sd_airflow (side_of m u')) 0 = Some (Some v0)
          /\ forall i, (i < List.length (sd_net_cap (side_of m u)))%nat -> i <> sd_full (side_of m u) ->
             done P f (side_of m u') i v0.
  Proof.
    intros H. unfold resnet_set_fan in H.
    apply sbind_ok in H. destruct H as (s1 & p & E & H). apply sread_ok in E. destruct E as [-> Ep].
    apply sbind_ok in H. destruct H as (s1 & [] & E1 & H). unfold smod in E1. apply pair_ok_inj in E1.
    destruct E1 as [E1 _]. cbv zeta in H.
    apply sbind_ok in H. destruct H as (s2 & [] & E2 & H). apply on_side_inv in E2.
    apply sbind_ok in H. destruct H as (s3 & [] & E3 & H). apply on_side_inv in E3.
    apply sbind_ok in H. destruct H as (s4 & [] & E4 & H). apply on_side_inv in E4.
    apply sbind_ok in H. destruct H as (s5 & [] & E5 & H). apply on_side_inv in E5.
    apply sbind_ok in H. destruct H as (s6 & x & E & H). unfold sget in E. apply pair_ok_inj in E.
    destruct E as [<- <-].
    assert (C5 : caps s5 = (sd_net_cap (u_c u), given_flow (u_c u), sd_net_cap (u_h u), given_flow (u_h u))
      /\ sd_full (u_c s5) = sd_full (u_c u) /\ sd_full (u_h s5) = sd_full (u_h u) /\ u_full_esp s5 = Some p
      /\ rn_motor (u_rn s5) = rn_motor (u_rn u) /\ u_staging s5 = u_staging u)
      by (subst s5 s4 s3 s2 s1; repeat split).
    clear E1 E2 E3 E4 E5 s1 s2 s3 s4. destruct C5 as (C5 & Fc & Fh & P5 & M5 & G5).
    rewrite Fc, Fh in H. set (fc := sd_full (u_c u)) in *. set (fh := sd_full (u_h u)) in *.
    apply sbind_ok in H. destruct H as (s6 & ac & E & H). apply slift_ok in E. destruct E as [-> Eac].
    apply sbind_ok in H. destruct H as (s6 & [] & E6 & H).
    apply side_put_inv in E6. destruct E6 as [E6 L6].
    apply sbind_ok in H. destruct H as (s7 & ah & E & H). apply slift_ok in E. destruct E as [-> Eah].
    apply sbind_ok in H. destruct H as (s7 & [] & E7 & H).
    apply side_put_inv in E7. destruct E7 as [E7 L7].
    assert (Hd : (if nleb ah ac then ac else ah) = (if Rle_dec ah ac then ac else ah)).
    { cbn [nleb RNum]. unfold Rleb. destruct (Rle_dec ah ac); reflexivity. }
    change (ac >=? ah)%num with (nleb ah ac) in H.
    assert (Mo : match rn_motor (u_rn s5) with Some k => k | None => match u_staging s5 with
       SINGLE_STAGE => MotorPSC | _ => MotorBPM end end = the_motor u) by (rewrite M5, G5; reflexivity).
    rewrite Mo in H. clear Mo.
    set (motor := the_motor u) in *. 
    apply sbind_ok in H. destruct H as (s8 & [] & E & H). unfold smod in E. apply pair_ok_inj in E.
    destruct E as [E8 _].
    apply sbind_ok in H. destruct H as (s9 & f & E & H). apply slift_ok in E. destruct E as [-> Ef].
    assert (Pf : f_design_esp f = fr_inH2O (lit 0.5)).
    { destruct motor; apply init_fan_facts in Ef; destruct Ef as (x0 & _ & _ & _ & _ & _ & Q & _); exact Q. }
    apply rmake in Ef. destruct Ef as (Kf & Af & Nf & Zd).
    apply sbind_ok in H. destruct H as (s9 & [] & E & H). unfold smod in E. apply pair_ok_inj in E.
    destruct E as [E9 _]. rewrite Hd in H, Af, Zd.
    set (d := if Rle_dec ah ac then ac else ah) in *.
    assert (Rf : rfan f).
    { split; [unfold rclass; rewrite Kf; destruct motor; auto|]. rewrite Af, Nf. cbn. lia. }
    apply rbind_ok in Eac. destruct Eac as (qc & Qc & Eac). apply rbind_ok in Eac. destruct Eac as (xc & Xc & Eac).
    apply Ok_inj in Eac. apply rbind_ok in Eah. destruct Eah as (qh & Qh & Eah).
    apply rbind_ok in Eah. destruct Eah as (xh & Xh & Eah). apply Ok_inj in Eah.
    apply geti_ok in Qc, Qh.
    assert (T9 : state p d (motor_class motor) (fun _ _ _ => False) f s9).
    { subst s9 s8 s7 s6. split; [reflexivity|]. split; [exact Rf|]. split; [split; [exact Kf|exact Pf]|].
      split; [rewrite Af; reflexivity|]. split; [exact P5|]. contradiction. }
    assert (C9 : caps s9 = caps s5) by (subst s9 s8 s7 s6; reflexivity).
    assert (A9 : nth_error (sd_airflow (u_c s9)) fc = Some (Some ac) /\ nth_error (sd_airflow (u_h s9)) fh = Some (Some ah)).
    { subst s9 s8 s7 s6. cbn [side_of] in *.
      cbn [u_c u_h wu_fan wu_rn wu_side wu_c wu_h sd_airflow ws_airflow side_of] in *.
      rewrite !nth_upd by assumption. rewrite !Nat.eqb_refl. split; reflexivity. }
    clear E6 E7 E8 E9 L6 L7. destruct A9 as [Ac9 Ah9].
    apply sbind_ok in H. destruct H as (s10 & k & E & H). apply last_inv in E. destruct E as (-> & f' & E & Ek).
    assert (f' = f) by (destruct T9 as (F & _); congruence). subst f'. clear E. rewrite Nf in Ek. cbn in Ek. subst k.
    apply sbind_ok in H. destruct H as (s11 & [] & E11 & H).
    (* design speeds *)
    assert (T11 : exists f1, state p d (motor_class motor) (fun _ _ _ => False) f1 s11
      /\ ready f1 (u_c s11) fc ac /\ ready f1 (u_h s11) fh ah /\ caps s11 = caps s5 /\ flows s11 = flows s9).
    { assert (Nt : forall m i, untouched (fun _ _ _ => False) m i) by (intros m i r F; exact F).
      assert (G0 : geti (f_airflow f) 0 = Ok d) by (rewrite Af; reflexivity).
      destruct (nleb ah ac) eqn:B; apply sbind_ok in E11; destruct E11 as (z & [] & Z1 & Z2);
        pose proof (keeps_ok caps _ _ _ _ (caps_put _ _ _) Z1) as Cz1; pose proof (keeps_ok caps _ _ _ _ (caps_design _ _) Z2) as Cz2;
        pose proof (keeps_ok flows _ _ _ _ (flows_put _ _ _) Z1) as Az1; pose proof (keeps_ok flows _ _ _ _ (flows_design _ _) Z2) as Az2;
        destruct (put_fan_step _ _ _ _ _ _ _ _ _ _ _ _ T9 (Nt _ _) G0 Z1) as (Tz & Yz);
        destruct (design_step _ _ _ _ _ _ _ _ _ _ Tz (Nt _ _) Z2) as (f1 & v & T1 & X1 & V1 & Y1);
        exists f1; split; try exact T1;
        rewrite (flows_side _ _ _ Az1) in V1; cbn [side_of] in *.
      - assert (v = ah) by congruence. subst v.
        split; [|split; [exact Y1|split; congruence]].
        apply add_design_inv in Z2. destruct Z2 as (a & f0 & f2 & l & _ & F0 & Ad & El & L & ->).
        destruct Yz as (l0 & kd & Y2 & Y3 & Y4). exists l0, kd. split; [exact Y2|]. split; [exact Y3|].
        rewrite <- Hd in Y4. exact (geti_more _ _ _ _ X1 Y4).
      - assert (v = ac) by congruence. subst v.
        split; [exact Y1|split; [|split; congruence]].
        apply add_design_inv in Z2. destruct Z2 as (a & f0 & f2 & l & _ & F0 & Ad & El & L & ->).
        destruct Yz as (l0 & kd & Y2 & Y3 & Y4). exists l0, kd. split; [exact Y2|]. split; [exact Y3|].
        rewrite <- Hd in Y4. exact (geti_more _ _ _ _ X1 Y4). }
    destruct T11 as (f1 & T11 & Yc & Yh & C11 & A11). clear E11 T9.
    destruct (caps_side Cooling _ _ C11) as [Cc1 Cc2]. destruct (caps_side Heating _ _ C11) as [Ch1 Ch2].
    pose proof (flows_side Cooling _ _ A11) as Fc11. pose proof (flows_side Heating _ _ A11) as Fh11.
    (* rated speeds *)
    apply sbind_ok in H. destruct H as (s12 & [] & E12 & H).
    pose proof (keeps_ok caps _ _ _ _ (caps_rated _ _ _) E12) as C12.
    pose proof (keeps_ok flows _ _ _ _ (flows_rated _ _ _) E12) as A12.
    rnum_in Eac. rnum_in Eah.
    assert (Q1 : nth_error (sd_net_cap (side_of Cooling s11)) fc = Some qc) by (rewrite Cc1; exact Qc).
    assert (Q2 : flow_per_cap (side_of Cooling s11) fc = Ok xc) by (unfold flow_per_cap in *; rewrite Cc2; exact Xc).
    assert (Q3 : nth_error (sd_airflow (side_of Cooling s11)) fc = Some (Some (qc * xc))) by (rewrite Fc11, Eac; exact Ac9).
    assert (Q4 : ready f1 (side_of Cooling s11) fc (qc * xc)) by (rewrite Eac; exact Yc).
    destruct (rated_step p d _ _ f1 s11 s12 Cooling fc d tt qc xc T11 (fun r F => F) Q1 Q2 Q3 Q4 E12) as (f2 & T12 & X2).
    clear Q1 Q2 Q3 Q4.
    assert (H12 : u_h s12 = u_h s11).
    { apply add_rated_inv in E12. destruct E12 as (? & ? & ? & ? & ? & ? & _ & _ & _ & _ & _ & _ & _ & _ & _ & ->).
      reflexivity. }
    apply sbind_ok in H. destruct H as (s13 & [] & E13 & H).
    pose proof (keeps_ok caps _ _ _ _ (caps_rated _ _ _) E13) as C13.
    pose proof (keeps_ok flows _ _ _ _ (flows_rated _ _ _) E13) as A13.
    assert (Q1 : nth_error (sd_net_cap (side_of Heating s12)) fh = Some qh)
      by (cbn [side_of] in *; rewrite H12, Ch1; exact Qh).
    assert (Q2 : flow_per_cap (side_of Heating s12) fh = Ok xh)
      by (unfold flow_per_cap in *; cbn [side_of] in *; rewrite H12, Ch2; exact Xh).
    assert (Q3 : nth_error (sd_airflow (side_of Heating s12)) fh = Some (Some (qh * xh)))
      by (cbn [side_of] in *; rewrite H12, Fh11, Eah; exact Ah9).
    assert (Q4 : ready f2 (side_of Heating s12) fh (qh * xh)).
    { cbn [side_of]. rewrite Eah, H12. destruct Yh as (l0 & kd & Y2 & Y3 & Y4). exists l0, kd.
      split; [exact Y2|]. split; [exact Y3|exact (geti_more _ _ _ _ X2 Y4)]. }
    assert (Nt : untouched (add (fun _ _ _ => False) Cooling fc d) Heating fh)
      by (intros r [F|(F & _)]; [exact F|discriminate]).
    destruct (rated_step p d _ _ f2 s12 s13 Heating fh d tt qh xh T12 Nt Q1 Q2 Q3 Q4 E13) as (f3 & T13 & X3).
    clear Q1 Q2 Q3 Q4 Nt H12. set (D := add _ Heating fh d) in *.
    apply sbind_ok in H. destruct H as (s14 & x & E & H). unfold sget in E. apply pair_ok_inj in E.
    destruct E as [<- <-].
    (* other speeds *)
    assert (C13' : caps s13 = caps s5) by congruence.
    destruct (caps_side Cooling _ _ C13') as [Dc1 Dc2]. destruct (caps_side Heating _ _ C13') as [Dh1 Dh2].
    pose proof (flows_side Cooling _ _ (eq_trans A13 A12)) as Fc13. pose proof (flows_side Heating _ _ (eq_trans A13 A12)) as Fh13.
    apply sbind_ok in H. destruct H as (s14 & [] & E14 & H).
    assert (I0 : at_step p d (motor_class motor) D s13 Cooling fc 0 s13).
    { exists f3, ac. split; [|split; [reflexivity|]].
      - apply (state_weaken _ _ _ _ _ _ _) with (2 := T13). intros m i r [F|(_ & F & _)]; [exact F|lia].
      - intros [F|F]; [lia|]. rewrite <- F, Fc13, Fc11. exact Ac9. }
    unfold enumerate in E14.
    assert (NtC : forall i, i <> fc -> untouched D Cooling i).
    { intros i Hi r [[F|(_ & F & _)]|(F & _)]; [exact F|contradiction|discriminate]. }
    pose proof (other_fold _ _ _ _ _ _ _ _ NtC _ _ _ _ I0 (fun i q F => F) E14) as I1.
    destruct I1 as (f4 & vc & T14 & C14 & V14).
    apply sbind_ok in H. destruct H as (s15 & x & E & H). unfold sget in E. apply pair_ok_inj in E.
    destruct E as [<- <-].
    assert (H14 : u_h s14 = u_h s13).
    { assert (Kh : forall l, keeps (fun u : U => u_h u) (sfold (other_speed (T:=R) sol Cooling fc) l)).
      { intros l. apply keeps_fold. intros iq. unfan. cbn [side_of]. keepf. }
      exact (keeps_ok _ _ _ _ _ (Kh _) E14). }
    rewrite Nat.add_0_l in *.
    set (D2 := upto D Cooling fc _ vc) in *.
    assert (I2 : at_step p d (motor_class motor) D2 s14 Heating fh 0 s14).
    { exists f4, ah. split; [|split; [reflexivity|]].
      - apply (state_weaken _ _ _ _ _ _ _) with (2 := T14). intros m i r [F|(_ & F & _)]; [exact F|lia].
      - intros [F|F]; [lia|]. cbn [side_of] in *. rewrite <- F, H14, Fh13, Fh11. exact Ah9. }
    assert (NtH : forall i, i <> fh -> untouched D2 Heating i).
    { intros i Hi r [[[F|(F & _)]|(_ & F & _)]|(F & _)]; [exact F|discriminate|contradiction|discriminate]. }
    unfold enumerate in H.
    pose proof (other_fold _ _ _ _ _ _ _ _ NtH _ _ _ _ I2 (fun i q F => F) H) as I3.
    destruct I3 as (f5 & vh & T15 & C15 & V15). rewrite Nat.add_0_l in *.
    assert (Hc : u_c u' = u_c s14).
    { assert (Kh : forall l, keeps (fun u : U => u_c u) (sfold (other_speed (T:=R) sol Heating fh) l)).
      { intros l. apply keeps_fold. intros iq. unfan. cbn [side_of]. keepf. }
      exact (keeps_ok _ _ _ _ _ (Kh _) H). }
    destruct T15 as (B1 & B2 & B3 & B4 & _ & B6).
    assert (Lc : sd_net_cap (u_c s13) = sd_net_cap (u_c u)) by (cbn [side_of] in *; rewrite Dc1; unfold caps in C5; congruence).
    assert (Lh : sd_net_cap (u_h s14) = sd_net_cap (u_h u)) by (cbn [side_of] in *; rewrite H14, Dh1; unfold caps in C5; congruence).
    assert (DC : done p f5 (u_c u') fc d) by (apply (B6 Cooling); left; left; left; right; auto).
    assert (DH : done p f5 (u_h u') fh d) by (apply (B6 Heating); left; left; right; auto).
    exists f5, p, ac, ah. cbv zeta. fold d. split; [exact Ep|]. split; [exact B1|]. split; [exact B2|]. split; [exact B3|].
    split; [exact B4|]. split; [congruence|].
    assert (Cu : caps u' = caps s5) by congruence.
    destruct (caps_side Cooling _ _ Cu) as [Uc1 Uc2]. destruct (caps_side Heating _ _ Cu) as [Uh1 Uh2].
    cbn [side_of] in *.
    split.
    { destruct DC as (q' & x' & k & kd & p' & w & l & l' & A1 & A2 & A3 & _). rewrite A3.
      unfold flow_per_cap in *. rewrite Uc1 in A1. rewrite Uc2 in A2.
      assert (q' = qc) by congruence. assert (x' = xc) by congruence. subst q' x'. rewrite Eac. reflexivity. }
    split.
    { destruct DH as (q' & x' & k & kd & p' & w & l & l' & A1 & A2 & A3 & _). rewrite A3.
      unfold flow_per_cap in *. rewrite Uh1 in A1. rewrite Uh2 in A2.
      assert (q' = qh) by congruence. assert (x' = xh) by congruence. subst q' x'. rewrite Eah. reflexivity. }
    assert (Zc : (0 < List.length (sd_net_cap (u_c u)))%nat).
    { rewrite <- Lc, Dc1. assert (fc < List.length (sd_net_cap (u_c s5)))%nat by (apply nth_error_Some; congruence). lia. }
    assert (Zh : (0 < List.length (sd_net_cap (u_h u)))%nat).
    { rewrite <- Lh, H14, Dh1. assert (fh < List.length (sd_net_cap (u_h s5)))%nat by (apply nth_error_Some; congruence). lia. }
    intros [|]; cbn [side_of].
    - split; [exact DC|]. exists vc. split; [rewrite Hc; apply V14; left; rewrite Lc; exact Zc|].
      intros i Hi Ni. apply (B6 Cooling). left. right. rewrite Lc. auto.
    - split; [exact DH|]. exists vh. split; [apply V15; left; rewrite Lh; exact Zh|].
      intros i Hi Ni. apply (B6 Heating). right. rewrite Lh. auto.
  Qed.
End ResnetFan.
