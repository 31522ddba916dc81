(** C36, C41, C48, C55: consequences for constructed units. *)
From Coq Require Import Reals QArith Lra Lia List Bool String.
From Verif.Base Require Import Num Res Tac.
From Verif.Model Require Import Units Util Psychrometrics Conditions Defrost Fan Curves
  Tabular Unit NREL BaseModel Title24 Resnet DXUnit.
From Verif.Spec Require Import UnitModels.
From Verif.Proofs Require Import UnitsR MakeCond Frame StandardProofs UnitProofs.
Import ListNotations.
Local Open Scope R_scope.

(** ** Order of capacities *)
Lemma order_inv (l : list R) :
  check_array_order l = Ok tt ->
  forall i j x y, (i <= j)%nat -> nth_error l i = Some x -> nth_error l j = Some y -> y <= x.
Proof.
  unfold check_array_order. intros H. apply guard_ok in H.
  rewrite forallb_forall in H. cbn [nleb RNum] in H.
  assert (A : forall k x y, nth_error l k = Some x -> nth_error l (S k) = Some y -> y <= x).
  { intros k x y Hx Hy. assert (K : In (x, y) (combine l (tl l))).
    { clear H. destruct l as [|a l]; [destruct k; discriminate|]. simpl tl. simpl in Hy.
      revert a k Hx Hy. induction l as [|b l IH]; intros a k Hx Hy; [destruct k; discriminate|].
      simpl. destruct k as [|k]; simpl in *.
      - left. congruence.
      - right. apply (IH b k); auto. }
    apply H in K. cbn [fst snd] in K. apply Rleb_true in K. exact K. }
  intros i j x y Hij. revert x y. induction Hij as [|j Hij IH]; intros x y Hx Hy.
  - replace y with x by congruence. lra.
  - destruct (nth_error l j) as [z|] eqn:Ez.
    + apply Rle_trans with z; [exact (A j z y Ez Hy)|apply (IH x z); auto].
    + apply nth_error_None in Ez. assert (nth_error l (S j) <> None) by congruence.
      apply nth_error_Some in H0. lia.
Qed.

Lemma order_ok (l : list R) :
  (forall i x y, nth_error l i = Some x -> nth_error l (S i) = Some y -> y <= x) ->
  check_array_order l = Ok tt.
Proof.
  intros H. unfold check_array_order. apply guard_ok. rewrite forallb_forall.
  intros [x y] K. cbn [fst snd nleb RNum]. apply Rleb_true.
  apply In_nth_error in K. destruct K as [k K].
  assert (E : nth_error l k = Some x /\ nth_error (tl l) k = Some y).
  { revert K. generalize (tl l). clear H. revert k. induction l as [|a l IH]; intros k m K.
    - destruct k; discriminate.
    - destruct m as [|b m]; [destruct k; discriminate|]. destruct k; simpl in *.
      + split; congruence.
      + apply IH. exact K. }
  destruct E as [E1 E2]. apply (H k); auto. destruct l; [destruct k; discriminate|exact E2].
Qed.

Section Consequences.
  Variable psy : psychro R.
  Variable sol : solvers R.
  Notation U := (dxunit R).

  (** Every model, also ones that are not in the library. *)
  Lemma constructed_checks M a (u : U) :
    DXUnit psy sol M a = Ok u ->
    check_array_lengths u = Ok tt
    /\ check_array_order (sd_net_cap (u_c u)) = Ok tt
    /\ check_array_order (sd_net_cap (u_h u)) = Ok tt.
  Proof.
    unfold DXUnit. intros H. apply rbind_ok in H. destruct H as (u0 & H0 & H).
    unfold ex in H. destruct (finish_unit psy sol M a u0) as [u' [[]|e]] eqn:E; [|discriminate].
    injection H as ->. unfold finish_unit in E.
    do 18 (apply sbind_ok in E; destruct E as (?s & ?x & ?E' & E)).
    repeat match goal with
      | K : sread check_array_lengths _ = _ |- _ => apply sread_ok in K; destruct K as [-> K]
      | K : sread (fun u => check_array_order _) _ = _ |- _ =>
          apply sread_ok in K; destruct K as [-> K]
      end.
    repeat match goal with x : unit |- _ => destruct x end. auto.
  Qed.

  Lemma capacities_complete_and_ordered M a (u : U) m i j x y :
    DXUnit psy sol M a = Ok u ->
    List.length (sd_net_cap (side_of m u)) = sd_n (side_of m u)
    /\ ((i <= j)%nat -> nth_error (sd_net_cap (side_of m u)) i = Some x ->
        nth_error (sd_net_cap (side_of m u)) j = Some y -> y <= x).
  Proof.
    intros H. destruct (constructed_checks M a u H) as (H1 & H2 & H3).
    unfold check_array_lengths, check_length in H1.
    apply rbind_ok in H1. destruct H1 as (? & K1 & H1).
    apply rbind_ok in H1. destruct H1 as (? & K2 & H1).
    apply rbind_ok in H1. destruct H1 as (? & K3 & H1).
    apply guard_ok in K1. apply guard_ok in H1.
    apply Nat.eqb_eq in K1. apply Nat.eqb_eq in H1.
    destruct m; simpl side_of; (split; [assumption|]); intros Hij Hx Hy;
      [exact (order_inv _ H2 i j x y Hij Hx Hy)|exact (order_inv _ H3 i j x y Hij Hx Hy)].
  Qed.

  (** ** The capacities given by the caller *)
  Definition caps (u : U) := (sd_net_cap (u_c u), sd_net_cap (u_h u), sd_n (u_c u), sd_n (u_h u)).
  Definition caps_side (s : side R) := (sd_net_cap s, sd_n s).
  Definition kquiet {A} (set : A -> side R -> side R) : Prop :=
    forall l s, caps_side (set l s) = caps_side s.
  Lemma caps_put m get set i v : kquiet set -> keeps caps (side_put (T:=R) m get set i v).
  Proof.
    intros H. unfold side_put. keep. specialize (H a0). unfold caps_side in H.
    destruct m; unfold caps; simpl; [pose proof (H (u_c u)) as K|pose proof (H (u_h u)) as K];
      injection K; intros; congruence.
  Qed.
  Ltac keepk := repeat (first [keep_step | apply caps_put; intros ? ?; reflexivity]; cbv zeta beta).

  Lemma caps_base_fan f : keeps caps (base_set_fan (T:=R) f).
  Proof. unfold base_set_fan, base_fan_step. keepk. Qed.
  Lemma caps_t24_fan f : keeps caps (t24_set_fan (T:=R) f).
  Proof. unfold t24_set_fan, t24_fan_step. keepk. Qed.
  Lemma caps_gross m i : keeps caps (put_gross_capacity (T:=R) m i).
  Proof. unfold put_gross_capacity. keepk. Qed.
  Lemma caps_conditions : keeps caps (set_rating_conditions psy).
  Proof. unfold set_rating_conditions, reset_full_esp, put_cond. keepk. Qed.

  (** Models whose capacity setters store lists as given. *)
  Local Notation plain_model := (plain_model sol).

  Lemma plain_library M : plain_model M -> library_model psy sol M.
  Proof. unfold plain_model, library_model. simpl. intuition. Qed.

  Lemma t24_char_caps b : keeps caps (t24_set_rated_fan_characteristics (T:=R) b).
  Proof. unfold t24_set_rated_fan_characteristics. keepk. Qed.

  Definition given (u : U) (m : mode) (v : num_or_list R) : list R :=
    match v with Many l => l | Scalar x => repeat x (sd_n (side_of m u)) end.

  Lemma plain_set M qc qh f u u' :
    plain_model M ->
    md_set_net_capacities_and_fan M qc qh f u = (u', Ok tt) ->
    sd_net_cap (u_c u') = given u Cooling qc
    /\ (forall v, qh = Some v -> sd_net_cap (u_h u') = given u Heating v)
    /\ sd_n (u_c u') = sd_n (u_c u) /\ sd_n (u_h u') = sd_n (u_h u).
  Proof.
    intros HM H.
    assert (Step : forall u1 u2 u3, caps u1 = caps u ->
              base_set_net_cooling_capacity qc u1 = (u2, Ok tt) ->
              base_set_net_heating_capacity qh u2 = (u3, Ok tt) ->
              sd_net_cap (u_c u3) = given u Cooling qc
              /\ (forall v, qh = Some v -> sd_net_cap (u_h u3) = given u Heating v)
              /\ sd_n (u_c u3) = sd_n (u_c u) /\ sd_n (u_h u3) = sd_n (u_h u)).
    { intros u1 u2 u3 Hc H1 H2. unfold caps in Hc. injection Hc as C1 C2 C3 C4.
      unfold base_set_net_cooling_capacity in H1.
      assert (E2 : sd_net_cap (u_c u2) = given u Cooling qc /\ sd_n (u_c u2) = sd_n (u_c u)
                   /\ sd_n (u_h u2) = sd_n (u_h u)).
      { destruct qc; unfold on_side, smod in H1; apply pair_ok_inj in H1; destruct H1 as [<- _];
          simpl; repeat split; congruence. }
      destruct E2 as (E2 & E3 & E4).
      unfold base_set_net_heating_capacity in H2.
      apply sbind_ok in H2. destruct H2 as (s1 & y & F1 & H2). unfold sget in F1.
      apply pair_ok_inj in F1. destruct F1 as [<- <-].
      apply sbind_ok in H2. destruct H2 as (s2 & q0 & F2 & H2).
      apply slift_ok in F2. destruct F2 as [-> F2].
      assert (K : exists l, u3 = wu_side Heating (ws_net_cap l (u_h u2)) u2
                  /\ (forall v, qh = Some v -> l = given u Heating v)).
      { unfold on_side, smod in H2. destruct qh as [[x|l]|]; apply pair_ok_inj in H2;
          destruct H2 as [<- _]; eexists; (split; [reflexivity|]); intros v Hv; try discriminate;
          injection Hv as <-; simpl; congruence. }
      destruct K as (l & -> & Kl). simpl. repeat split; auto. }
    assert (HB : forall u1 u2, caps u1 = caps u ->
              (base_set_net_cooling_capacity qc ;;; base_set_net_heating_capacity qh) u1
              = (u2, Ok tt) -> forall u3, caps u3 = caps u2 ->
              sd_net_cap (u_c u3) = given u Cooling qc
              /\ (forall v, qh = Some v -> sd_net_cap (u_h u3) = given u Heating v)
              /\ sd_n (u_c u3) = sd_n (u_c u) /\ sd_n (u_h u3) = sd_n (u_h u)).
    { intros u1 u2 Hc Hs u3 H3. apply sbind_ok in Hs. destruct Hs as (w & [] & G1 & G2).
      unfold caps in H3. injection H3 as C1 C2 C3 C4. rewrite C1, C2, C3, C4.
      apply (Step u1 w u2); auto. }
    unfold plain_model in HM. simpl in HM.
    destruct HM as [<-|[<-|[<-|[<-|[]]]]];
      cbn [md_set_net_capacities_and_fan BaseDXModel ConstantDXModel CarrierDefrostModel
           Title24DXModel] in H.
    1, 2, 3: unfold base_set_net_capacities_and_fan in H;
      apply sbind_ok in H; destruct H as (s1 & [] & G1 & H);
      apply sbind_ok in H; destruct H as (s2 & [] & G2 & H);
      apply (HB u s2 eq_refl);
        [apply sbind_ok; eauto|exact (keeps_ok caps _ _ _ _ (caps_base_fan f) H)].
    unfold t24_set_net_capacities_and_fan in H.
    apply sbind_ok in H. destruct H as (s0 & x0 & G0 & H).
    apply sbind_ok in H. destruct H as (s1 & [] & G1 & H).
    apply sbind_ok in H. destruct H as (s2 & [] & G2 & H).
    apply (HB s0 s2).
    - apply (keeps_ok caps _ _ _ _ (t24_char_caps _) G0).
    - apply sbind_ok; eauto.
    - exact (keeps_ok caps _ _ _ _ (caps_t24_fan f) H).
  Qed.

  (** ** What the steps after the capacity setter keep *)
  Lemma build_frame {B} (f : U -> B) M a u :
    keeps f reset_full_esp -> (forall m i, keeps f (put_gross_capacity m i)) ->
    (forall c, keeps f (smod (wu_crank c))) -> keeps f (set_rating_conditions psy) ->
    keeps f (set_sensible_cooling_variables psy sol M) ->
    (forall m v, keeps f (md_set_net_cop M m v)) ->
    (forall m v, keeps f (md_set_gross_cop M m v)) ->
    DXUnit psy sol M a = Ok u ->
    exists u0 u1 u2, init_unit M a = Ok u0 /\ set_placeholder_arrays u0 = (u1, Ok tt)
      /\ md_set_net_capacities_and_fan M (a_ccap a) (a_hcap a) (a_fan a) u1 = (u2, Ok tt)
      /\ f u = f u2.
  Proof.
    intros K1 K2 K3 K4 K5 K6 K7 H.
    unfold DXUnit in H. apply rbind_ok in H. destruct H as (u0 & H0 & H).
    unfold ex in H. destruct (finish_unit psy sol M a u0) as [u' [[]|e]] eqn:E; [|discriminate].
    injection H as ->. unfold finish_unit in E.
    apply sbind_ok in E. destruct E as (s1 & [] & E1 & E).
    apply sbind_ok in E. destruct E as (s2 & [] & E2 & E).
    exists u0, s1, s2. repeat (split; [assumption|]).
    match type of E with ?m _ = _ => assert (K : keeps f m) end.
    { apply keeps_bind; [exact K1|intros _].
      apply keeps_bind; [apply keeps_get|intros w].
      apply keeps_bind; [apply keeps_fold, K2|intros _].
      apply keeps_bind; [apply keeps_fold, K2|intros _].
      apply keeps_bind; [destruct (a_crank a); [apply keeps_ret|apply keeps_read]|intros c].
      apply keeps_bind; [apply K3|intros _].
      apply keeps_bind; [apply K4|intros _].
      apply keeps_bind; [apply K5|intros _].
      apply keeps_bind; [apply keeps_lift|intros _].
      apply keeps_bind; [apply keeps_lift|intros _].
      apply keeps_bind; [apply opt_keeps, K6|intros _].
      apply keeps_bind; [apply opt_keeps, K7|intros _].
      apply keeps_bind; [apply opt_keeps, K6|intros _].
      apply keeps_bind; [apply opt_keeps, K7|intros _].
      apply keeps_bind; [apply keeps_read|intros _].
      apply keeps_bind; [apply keeps_read|intros _]. apply keeps_read. }
    exact (keeps_ok f _ _ _ _ K E).
  Qed.

  Lemma caps_comp m set g : kquiet set -> keeps caps (set_comp (T:=R) m set g).
  Proof.
    intros H. unfold set_comp. keep. specialize (H a0). unfold caps_side in H.
    destruct m; unfold caps; simpl; [pose proof (H (u_c u)) as K|pose proof (H (u_h u)) as K];
      injection K; intros; congruence.
  Qed.
  Lemma caps_sensible M : keeps caps (set_sensible_cooling_variables psy sol M).
  Proof.
    unfold set_sensible_cooling_variables, set_sensible_at, calculate_rated_bypass_factor. keepk.
  Qed.
  Lemma caps_base_net m v : keeps caps (base_set_net_cop (T:=R) m v).
  Proof.
    unfold base_set_net_cop, derive_from_net_cop.
    repeat (keep_step || (apply caps_comp; intros ? ?; reflexivity)).
  Qed.
  Lemma caps_base_gross m v : keeps caps (base_set_gross_cop (T:=R) m v).
  Proof.
    unfold base_set_gross_cop, derive_from_gross_cop.
    repeat (keep_step || (apply caps_comp; intros ? ?; reflexivity)).
  Qed.

  Lemma plain_cops M : plain_model M ->
    md_set_net_cop M = base_set_net_cop /\ md_set_gross_cop M = base_set_gross_cop.
  Proof.
    unfold plain_model. simpl. intros [<-|[<-|[<-|[<-|[]]]]]; split; reflexivity.
  Qed.

  Lemma init_sides M a (u0 : U) :
    init_unit M a = Ok u0 ->
    sd_n (u_c u0) = count_speeds (Some (a_ccap a)) (a_staging a)
    /\ sd_n (u_h u0) = count_speeds (a_hcap a) (a_staging a).
  Proof.
    unfold init_unit. intros H. apply rbind_ok in H. destruct H as (rn & _ & H).
    cbv zeta in H. apply rbind_ok in H. destruct H as (stg & _ & H). apply Ok_inj in H.
    subst u0. split; reflexivity.
  Qed.

  Lemma plain_capacities_given M a u :
    plain_model M -> DXUnit psy sol M a = Ok u ->
    let nc := count_speeds (Some (a_ccap a)) (a_staging a) in
    let nh := count_speeds (a_hcap a) (a_staging a) in
    sd_n (u_c u) = nc /\ sd_n (u_h u) = nh
    /\ sd_net_cap (u_c u) = match a_ccap a with Many l => l | Scalar x => repeat x nc end
    /\ (forall v, a_hcap a = Some v ->
        sd_net_cap (u_h u) = match v with Many l => l | Scalar x => repeat x nh end).
  Proof.
    intros HM H. destruct (plain_cops M HM) as [P1 P2].
    destruct (build_frame caps M a u) as (u0 & u1 & u2 & H0 & H1 & H2 & H3).
    - unfold reset_full_esp. keepk.
    - apply caps_gross.
    - intros. keepk.
    - apply caps_conditions.
    - apply caps_sensible.
    - rewrite P1. apply caps_base_net.
    - rewrite P2. apply caps_base_gross.
    - exact H.
    - destruct (plain_set M _ _ _ _ _ HM H2) as (A1 & A2 & A3 & A4).
      destruct (init_sides M a u0 H0) as [I1 I2].
      assert (E : sd_n (u_c u1) = sd_n (u_c u0) /\ sd_n (u_h u1) = sd_n (u_h u0)).
      { unfold set_placeholder_arrays, smod in H1. apply pair_ok_inj in H1.
        destruct H1 as [<- _]. split; reflexivity. }
      destruct E as [E1 E2]. unfold caps in H3. injection H3 as C1 C2 C3 C4.
      cbv zeta. rewrite C1, C2, C3, C4, A3, A4, E1, E2, I1, I2.
      repeat split.
      + rewrite A1. unfold given. simpl side_of. rewrite E1, I1. reflexivity.
      + intros v Hv. rewrite (A2 v Hv). unfold given. simpl side_of. rewrite E2, I2. reflexivity.
  Qed.

  Lemma plain_rejects_increasing M a l i j x y :
    plain_model M -> (a_ccap a = Many l \/ a_hcap a = Some (Many l)) ->
    (i <= j)%nat -> nth_error l i = Some x -> nth_error l j = Some y -> x < y ->
    forall u, DXUnit psy sol M a <> Ok u.
  Proof.
    intros HM Hl Hij Hx Hy Hlt u H.
    destruct (plain_capacities_given M a u HM H) as (_ & _ & Ec & Eh).
    destruct Hl as [Hl|Hl].
    - rewrite Hl in Ec.
      destruct (capacities_complete_and_ordered M a u Cooling i j x y H) as [_ K].
      simpl side_of in K. rewrite Ec in K. specialize (K Hij Hx Hy). lra.
    - specialize (Eh _ Hl).
      destruct (capacities_complete_and_ordered M a u Heating i j x y H) as [_ K].
      simpl side_of in K. cbv beta iota in Eh. rewrite Eh in K. specialize (K Hij Hx Hy). lra.
  Qed.

  (** ** Keyword arguments (C55) *)
  Lemma unknown_keyword M a k v :
    In (k, v) (a_kwargs a) -> ~ In k (md_allowed M) -> DXUnit psy sol M a = Err PyException.
  Proof.
    intros Hk Hn. unfold DXUnit, init_unit, set_system.
    destruct (forallb _ _) eqn:E; [|reflexivity]. exfalso.
    rewrite forallb_forall in E. apply E in Hk. simpl in Hk.
    apply existsb_exists in Hk. destruct Hk as (k' & Hin & Ek).
    apply String.eqb_eq in Ek. subst k'. auto.
  Qed.
  Lemma known_keywords M (kw : list (string * kwval R)) :
    (forall k v, In (k, v) kw -> In k (md_allowed M)) ->
    (forall v, ~ In ("base_model"%string, v) kw) ->
    set_system M kw = md_process M kw.
  Proof.
    intros H1 H2. unfold set_system.
    assert (E : forallb (fun x => existsb (String.eqb (fst x)) (md_allowed M)) kw = true).
    { apply forallb_forall. intros [k v] Hk. apply existsb_exists. exists k.
      split; [apply (H1 k v Hk)|apply String.eqb_refl]. }
    rewrite E. destruct (List.find _ kw) as [[k v]|] eqn:F; [|reflexivity].
    apply find_some in F. destruct F as [F1 F2]. cbn [fst] in F2. apply String.eqb_eq in F2.
    subst k. exfalso. apply (H2 v F1).
  Qed.

  (** ** Heating-on temperature (C48) *)
  Lemma init_heating_on M a (u0 : U) t :
    init_unit M a = Ok u0 -> a_heating_on a = Some t -> u_heating_on u0 = None.
  Proof.
    unfold init_unit. intros H Ht. apply rbind_ok in H. destruct H as (rn & _ & H).
    cbv zeta in H. apply rbind_ok in H. destruct H as (stg & _ & H). apply Ok_inj in H.
    subst u0. simpl. rewrite Ht. reflexivity.
  Qed.
  Lemma heating_on_lost M a u t :
    library_model psy sol M -> DXUnit psy sol M a = Ok u -> a_heating_on a = Some t ->
    u_heating_on u = None.
  Proof.
    intros HM H Ht. destruct (constructed_config psy sol M HM a u H) as (u0 & H0 & E).
    pose proof (init_heating_on M a u0 t H0 Ht) as K.
    unfold config in E. injection E. intros. congruence.
  Qed.

  (** ** Two-stage units (C41) *)
  Lemma blank_int (u : U) cs :
    u_staging u <> VARIABLE_SPEED ->
    blank (rating_puts u) cs = blank (rating_puts u) no_conds -> rc_A_int cs = None.
  Proof.
    intros Hs Hb.
    assert (K : forall cs, rc_A_int (blank (rating_puts u) cs) = rc_A_int cs).
    { intros c. unfold rating_puts. destruct (u_staging u); [| |congruence];
        destruct (sd_boost (u_c u)); reflexivity. }
    rewrite <- K, Hb, K. reflexivity.
  Qed.

  Lemma conditions_sim (u1 u2 : U) :
    set_rating_conditions psy u1 = (u2, Ok tt) ->
    exists cs, u_conds u2 = cs
      /\ blank (rating_puts u1) cs = blank (rating_puts u1) (u_conds u1).
  Proof.
    intros H.
    assert (E : set_rating_standard psy (u_standard u1) u1 = set_rating_conditions psy u1).
    { transitivity (set_rating_conditions psy (wu_standard (u_standard u1) u1)); [reflexivity|].
      f_equal. destruct u1; reflexivity. }
    rewrite <- E in H.
    pose proof (set_rating_standard_sim psy (u_standard u1) u1) as K. rewrite H in K.
    cbn [fst] in K. destruct K as (s & e & cs & -> & Hb). exists cs. split; [|exact Hb].
    destruct u1; reflexivity.
  Qed.

  Lemma no_int_condition M a u :
    library_model psy sol M -> DXUnit psy sol M a = Ok u -> u_staging u <> VARIABLE_SPEED ->
    rc_A_int (u_conds u) = None.
  Proof.
    intros HM H Hs. destruct (build_inv psy sol M HM a u H) as (u0 & u1 & u2 & H0 & H1 & H2 & H3 & _).
    assert (E0 : u_conds u0 = no_conds).
    { unfold init_unit in H0. apply rbind_ok in H0. destruct H0 as (rn & _ & H0).
      cbv zeta in H0. apply rbind_ok in H0. destruct H0 as (stg & _ & H0). apply Ok_inj in H0.
      subst u0. reflexivity. }
    assert (E1 : u_conds u1 = no_conds) by (unfold configc in H1; congruence).
    assert (Es : u_staging u = u_staging u2 /\ u_conds u = u_conds u2)
      by (apply (f_equal fst) in H3; cbn [inputs fst] in H3; unfold cinp in H3; split; congruence).
    destruct Es as [Es Ec].
    assert (Et : u_staging u2 = u_staging u1).
    { refine (keeps_ok (fun w : U => u_staging w) _ _ _ _ _ H2).
      unfold set_rating_conditions, reset_full_esp, put_cond. keep. }
    destruct (conditions_sim u1 u2 H2) as (cs & E2 & Hb).
    rewrite Ec, E2. apply (blank_int u1); [congruence|]. rewrite Hb, E1. reflexivity.
  Qed.

  Definition cview (u : U) := (rc_A_int (u_conds u), sd_int (u_c u)).
  Lemma cview_fan_speed get set k air :
    (forall c cs, rc_A_int (set c cs) = rc_A_int cs) ->
    keeps cview (cond_fan_speed psy get set k air).
  Proof.
    intros Hset. unfold cond_fan_speed. keep.
    unfold cview. simpl. rewrite Hset. reflexivity.
  Qed.

  Lemma int_update_fails i k air (u : U) :
    rc_A_int (u_conds u) = None -> i = sd_int (u_c u) ->
    forall u', update_conditions psy Cooling i k air u <> (u', Ok tt).
  Proof.
    intros Hn -> u' H. unfold update_conditions in H.
    apply sbind_ok in H. destruct H as (s1 & w & F & H). unfold sget in F.
    apply pair_ok_inj in F. destruct F as [<- <-]. cbv zeta in H.
    apply sbind_ok in H. destruct H as (s2 & [] & F & H).
    assert (K : cview s2 = cview u).
    { refine (keeps_ok cview _ _ _ _ _ F). unfold when. keep;
        apply cview_fan_speed; reflexivity. }
    simpl side_of in H. rewrite Nat.eqb_refl in H.
    apply sbind_ok in H. destruct H as (s3 & [] & G & _). unfold when in G.
    apply sbind_ok in G. destruct G as (s4 & [] & G & _). unfold cond_fan_speed in G.
    apply sbind_ok in G. destruct G as (s5 & c & G & _). apply sread_ok in G.
    destruct G as [_ G]. unfold rating in G.
    assert (Hc : rc_A_int (u_conds s2) = None) by (unfold cview in K; congruence).
    rewrite Hc in G. discriminate.
  Qed.

  Definition reset_step (m : mode) (full : R) (ia : nat * R) : st U unit :=
    do u <- sget ;;
    do q <- slift (geti (sd_net_cap (side_of m u)) (fst ia)) ;;
    let air := Rmult q (snd ia) in
    do p <- slift (calculate_rated_pressure u air full) ;;
    on_fan (add_speed air (Some p)) ;;;
    do k <- last_fan_speed ;;
    update_conditions psy m (fst ia) k air.

  Lemma reset_step_view full ia u u' :
    rc_A_int (u_conds u) = None -> reset_step Cooling full ia u = (u', Ok tt) ->
    cview u' = cview u /\ fst ia <> sd_int (u_c u).
  Proof.
    intros Hn H. unfold reset_step in H.
    apply sbind_ok in H. destruct H as (s6 & w & F & E2). unfold sget in F.
    apply pair_ok_inj in F. destruct F as [<- <-].
    apply sbind_ok in E2. destruct E2 as (s7 & q & F & E2). apply slift_ok in F.
    destruct F as [-> _]. cbv zeta in E2.
    apply sbind_ok in E2. destruct E2 as (s8 & p & F & E2). apply slift_ok in F.
    destruct F as [-> _].
    apply sbind_ok in E2. destruct E2 as (s9 & [] & F & E2).
    apply sbind_ok in E2. destruct E2 as (s10 & k & F' & E2).
    assert (K' : cview s10 = cview u).
    { unfold last_fan_speed in F'. apply sread_ok in F'. destruct F' as [-> _].
      unfold on_fan in F. destruct (u_fan u); [|discriminate].
      destruct (add_speed _ _ f) as [f' r]. apply pair_equal_spec in F. destruct F as [<- _].
      reflexivity. }
    destruct (Nat.eq_dec (fst ia) (sd_int (u_c u))) as [Ei|Ei].
    - exfalso. unfold cview in K'. injection K' as K1 K2.
      apply (int_update_fails (fst ia) k (q * snd ia) s10 ltac:(congruence) ltac:(congruence) u').
      exact E2.
    - split; [|exact Ei]. rewrite <- K'.
      unfold update_conditions in E2.
      apply sbind_ok in E2. destruct E2 as (s11 & w & G & E2). unfold sget in G.
      apply pair_ok_inj in G. destruct G as [<- <-]. cbv zeta in E2. simpl side_of in E2.
      replace (Nat.eqb (fst ia) (sd_int (u_c s10))) with false in E2.
      2:{ symmetry. apply Nat.eqb_neq. unfold cview in K'. congruence. }
      refine (keeps_ok cview _ _ _ _ _ E2). unfold when. keep;
        apply cview_fan_speed; reflexivity.
  Qed.

  Lemma reset_never_ok u fc fh :
    rc_A_int (u_conds u) = None ->
    (sd_int (u_c u) < match fc with Many l => List.length l | Scalar _ => sd_n (u_c u) end)%nat ->
    forall u', ex (reset_rated_flow_rates psy fc fh) u <> Ok u'.
  Proof.
    intros Hn Hl u' H. unfold ex in H.
    destruct (reset_rated_flow_rates psy fc fh u) as [s [[]|e]] eqn:E; [|discriminate].
    clear H. unfold reset_rated_flow_rates in E.
    apply sbind_ok in E. destruct E as (s1 & [] & E & _). unfold reset_side_flow in E.
    apply sbind_ok in E. destruct E as (s2 & w & F & E). unfold sget in F.
    apply pair_ok_inj in F. destruct F as [<- <-]. cbv zeta in E. simpl side_of in E.
    set (l := match fc with Many l => l | Scalar x => repeat x (sd_n (u_c u)) end) in *.
    assert (Hl' : (sd_int (u_c u) < List.length l)%nat).
    { subst l. destruct fc; [rewrite repeat_length|]; exact Hl. }
    clearbody l. clear Hl.
    apply sbind_ok in E. destruct E as (s3 & full & F & E). apply slift_ok in F.
    destruct F as [-> _].
    assert (G : exists l1 a l2, enumerate l = l1 ++ (sd_int (u_c u), a) :: l2).
    { destruct (nth_error l (sd_int (u_c u))) as [a|] eqn:Ea;
        [|apply nth_error_None in Ea; lia].
      assert (Kc : nth_error (enumerate l) (sd_int (u_c u)) = Some (sd_int (u_c u), a)).
      { unfold enumerate. clear - Ea.
        assert (Gn : forall (l : list R) i b, nth_error l i = Some a ->
                nth_error (combine (seq b (List.length l)) l) i = Some ((b + i)%nat, a)).
        { intros m. induction m as [|x m IH]; intros i b Hi; [destruct i; discriminate|].
          destruct i; simpl in *.
          - injection Hi as ->. rewrite Nat.add_0_r. reflexivity.
          - rewrite IH by auto. f_equal. f_equal. lia. }
        exact (Gn l _ 0%nat Ea). }
      apply nth_error_split in Kc. destruct Kc as (l1 & l2 & Kc & _). eauto. }
    destruct G as (l1 & a & l2 & G).
    rewrite G, sfold_app in E.
    apply sbind_ok in E. destruct E as (s4 & [] & E1 & E2).
    assert (K : cview s4 = cview u).
    { refine (sfold_inv (fun s => cview s = cview u) _ _ _ _ _ eq_refl E1).
      intros [i x] t1 t2 _ P T. cbn [fst snd] in T. rewrite <- P.
      eapply (reset_step_view full (i, x)); [|exact T]. unfold cview in P. congruence. }
    simpl in E2. apply sbind_ok in E2. destruct E2 as (s5 & [] & E2 & _).
    unfold cview in K. injection K as K1 K2.
    destruct (reset_step_view full (sd_int (u_c u), a) s4 s5) as [_ Ne];
      [congruence|exact E2|]. apply Ne. simpl. congruence.
  Qed.
End Consequences.
