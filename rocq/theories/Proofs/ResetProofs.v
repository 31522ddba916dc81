(** C89: resetting the rated airflow. *)
From Coq Require Import Reals QArith Lra Lia List Bool.
From Verif.Base Require Import Num Res Tac.
From Verif.Model Require Import Units Util Psychrometrics Conditions Defrost Fan Curves Tabular Unit NREL BaseModel
  Title24 Resnet DXUnit.
From Verif.Spec Require Import FanSpec CondSpec UnitModels TestSpec ResetSpec.
From Verif.Proofs Require Import UnitsR FanProofs MakeCond Frame UnitProofs2.
Import ListNotations.
Local Open Scope R_scope.

(** Setters of the conditions. *)
Definition getter (t : test) : rconds R -> option (cond R) :=
  match t with
  | A_full => rc_A_full | B_full => rc_B_full | H1_full => rc_H1_full | H2_full => rc_H2_full
  | H3_full => rc_H3_full | H4_full => rc_H4_full | A_int => rc_A_int | E_int => rc_E_int
  | H2_int => rc_H2_int | A_boost => rc_A_boost | A_low => rc_A_low | B_low => rc_B_low
  | F_low => rc_F_low | H0_low => rc_H0_low | H1_low => rc_H1_low | H2_low => rc_H2_low
  | H3_low => rc_H3_low
  end.
Definition store (t : test) : option (cond R) -> rconds R -> rconds R :=
  match t with
  | A_full => wc_A_full | B_full => wc_B_full | H1_full => wc_H1_full | H2_full => wc_H2_full
  | H3_full => wc_H3_full | H4_full => wc_H4_full | A_int => wc_A_int | E_int => wc_E_int
  | H2_int => wc_H2_int | A_boost => wc_A_boost | A_low => wc_A_low | B_low => wc_B_low
  | F_low => wc_F_low | H0_low => wc_H0_low | H1_low => wc_H1_low | H2_low => wc_H2_low
  | H3_low => wc_H3_low
  end.

Lemma getter_eq t k : getter t k = stored t k.
Proof. destruct t; reflexivity. Qed.
Lemma stored_store t v k : stored t (store t v k) = v.
Proof. destruct t; reflexivity. Qed.
Lemma stored_other t t' v k : t <> t' -> stored t (store t' v k) = stored t k.
Proof. intros H. destruct t, t'; try reflexivity; destruct H; reflexivity. Qed.

Definition test_eq_dec (t t' : test) : {t = t'} + {t <> t'}.
Proof. decide equality. Defined.

Lemma add_n (f f' : fan R) a x u : add_speed a x f = (f', Ok u) ->
  f_n f' = S (f_n f) /\ f_class f' = f_class f.
Proof.
  intros H. unfold add_speed in H. apply sbind_ok in H.
  destruct H as (s2 & f0 & E & H). unfold sget in E. apply pair_ok_inj in E. destruct E as [<- <-].
  destruct (f_class f) eqn:K.
  - apply const_add_ok in H as (a0 & _ & _ & H). cbv zeta in H.
    destruct x; [destruct H as (l & _ & H)|]; rewrite H; auto.
  - apply psc_add_ok in H as (a0 & fa0 & e & _ & _ & _ & _ & _ & _ & ->). auto.
  - apply ecm_add_ok in H as (a0 & _ & _ & ->). auto.
  - apply eere_add_ok in H as (a0 & _ & _ & ->). auto.
  - apply base_add_ok in H as (a0 & _ & _ & ->). auto.
  - apply base_add_ok in H as (a0 & _ & _ & ->). auto.
Qed.

Section Flow.
  Variable psy : psychro R.
  Notation U := (dxunit R).

  (** Everything but the fan and the conditions. *)
  Definition rest (u : U) : U := wu_fan None (wu_conds no_conds u).
  Lemma rest_eq u u' : rest u' = rest u -> u' = wu_fan (u_fan u') (wu_conds (u_conds u') u).
  Proof. destruct u, u'. unfold rest. cbn. intros H. injection H. intros. subst. reflexivity. Qed.

  Lemma rest_on_fan {A} (m : st (fan R) A) : keeps rest (on_fan m).
  Proof. intros u. unfold on_fan. destruct (u_fan u); [|reflexivity]. destruct (m f). destruct u; reflexivity. Qed.
  Lemma rest_cond get set k air : keeps rest (cond_fan_speed (T:=R) psy get set k air).
  Proof. unfold cond_fan_speed. keep. Qed.
  Lemma rest_update m i k air : keeps rest (update_conditions (T:=R) psy m i k air).
  Proof.
    unfold update_conditions, when. repeat (first [apply rest_cond | keep_step]; cbv zeta beta).
  Qed.
  Lemma rest_side m x : keeps rest (reset_side_flow (T:=R) psy m x).
  Proof.
    unfold reset_side_flow, last_fan_speed.
    repeat (first [apply rest_on_fan | apply rest_update | keep_step]; cbv zeta beta).
  Qed.
  Lemma reset_rest fc fh : keeps rest (reset_rated_flow_rates (T:=R) psy fc fh).
  Proof. unfold reset_rated_flow_rates. apply keeps_bind; intros; apply rest_side. Qed.

  Lemma only_fan_and_conditions fc fh (u : U) :
    let u' := fst (reset_rated_flow_rates psy fc fh u) in
    u' = wu_fan (u_fan u') (wu_conds (u_conds u') u).
  Proof. cbv zeta. apply rest_eq. apply reset_rest. Qed.

  (** * One step *)
  Definition move (k : nat) (air : R) (t : test) : st U unit :=
    cond_fan_speed psy (getter t) (store t) k air.

  Definition side_tests (m : mode) : list test :=
    match m with
    | Cooling => [A_full; B_full; A_int; E_int; A_low; B_low; F_low]
    | Heating => [H1_full; H2_full; H3_full; H4_full; H2_int; H0_low; H1_low; H2_low; H3_low]
    end.
  Lemma in_side_tests t m : In t (side_tests m) <-> test_mode t = m /\ t <> A_boost.
  Proof.
    split.
    - destruct m; cbn; intuition (subst; (reflexivity || discriminate)).
    - intros [<- H]. destruct t; cbn; tauto.
  Qed.
  Lemma nodup_side m : NoDup (side_tests m).
  Proof.
    destruct m; cbn; repeat constructor; cbn; intuition discriminate.
  Qed.

  Definition runs (u : U) (i : nat) (t : test) : bool := is_speed (test_speed t u) i.
  Lemma runs_iff u i t : runs u i t = true <-> test_speed t u = Some i.
  Proof.
    unfold runs, is_speed. destruct (test_speed t u) as [k|]; [|split; discriminate].
    rewrite Nat.eqb_eq. split; congruence.
  Qed.

  Lemma update_moves m i k air u :
    update_conditions psy m i k air u = sfold (move k air) (filter (runs u i) (side_tests m)) u.
  Proof.
    unfold update_conditions, sbind at 1, sget. cbv zeta.
    destruct m; cbn [side_tests filter]; unfold runs; cbn [test_speed test_mode side_of is_speed];
      unfold when;
      repeat match goal with |- context [if ?b then _ else _] => destruct b end;
      cbn [sfold]; unfold move; cbn [getter store];
      unfold sbind, sret;
      repeat (try reflexivity; match goal with
        |- context [match cond_fan_speed ?a ?b ?c ?d ?e ?s with _ => _ end] =>
          let E := fresh "E" in destruct (cond_fan_speed a b c d e s) as [? [[]|?]] eqn:E
        end);
      try reflexivity.
  Qed.

  Definition set_to (k : nat) (air : R) (t : test) (u u' : U) : Prop :=
    exists c c', stored t (u_conds u) = Some c /\ stored t (u_conds u') = Some c'
      /\ set_new_fan_speed psy k air c = (c', Ok tt).

  Lemma move_ok k air t (u u' : U) b : move k air t u = (u', Ok b) ->
    exists c c', stored t (u_conds u) = Some c /\ set_new_fan_speed psy k air c = (c', Ok tt)
      /\ u' = wu_conds (store t (Some c') (u_conds u)) u.
  Proof.
    unfold move, cond_fan_speed. intros H. apply sbind_ok in H. destruct H as (s1 & c & E & H).
    apply sread_ok in E. destruct E as [-> E]. unfold rating in E. apply need_ok in E. rewrite getter_eq in E.
    destruct (set_new_fan_speed psy k air c) as [c' r] eqn:S. apply sbind_ok in H. destruct H as (s2 & [] & E2 & H).
    unfold smod in E2. apply pair_ok_inj in E2. destruct E2 as [<- _]. apply slift_ok in H. destruct H as [-> H].
    destruct r as [[]|]; [|discriminate]. exists c, c'. auto.
  Qed.

  Lemma moves_ok k air l : NoDup l -> forall (u u' : U) b, sfold (move k air) l u = (u', Ok b) ->
    u_fan u' = u_fan u /\ rest u' = rest u
    /\ forall t, (In t l -> set_to k air t u u') /\ (~ In t l -> stored t (u_conds u') = stored t (u_conds u)).
  Proof.
    intros N. induction N as [|t l NI N IH]; intros u u' b H; cbn [sfold] in H.
    - unfold sret in H. apply pair_ok_inj in H. destruct H as [<- _]. repeat split; auto. intros [].
    - apply sbind_ok in H. destruct H as (s1 & [] & E & H). apply move_ok in E.
      destruct E as (c & c' & Sc & Sn & ->). apply IH in H. destruct H as (F & Rt & H).
      split; [exact F|]. split; [rewrite Rt; destruct u; reflexivity|]. intros t'. destruct (H t') as [H1 H2].
      cbn [u_conds wu_conds] in H2. split.
      + intros [<-|I].
        * exists c, c'. split; [exact Sc|]. split; [|exact Sn].
          rewrite H2 by exact NI. apply stored_store.
        * destruct (H1 I) as (d & d' & D1 & D2 & D3). cbn [u_conds wu_conds] in D1.
          rewrite stored_other in D1 by (intros ->; auto). exists d, d'. auto.
      + intros NI'. cbn [In] in NI'. rewrite H2 by tauto. apply stored_other. intros ->. tauto.
  Qed.

  Lemma last_fan (u u' : U) k : last_fan_speed u = (u', Ok k) ->
    u' = u /\ exists f, u_fan u = Some f /\ k = Nat.pred (f_n f).
  Proof.
    unfold last_fan_speed. intros H. apply sread_ok in H. destruct H as [-> H]. split; [reflexivity|].
    apply rbind_ok in H. destruct H as (f & E & H). apply need_ok in E. apply Ok_inj in H. eauto.
  Qed.

  Lemma test_speed_rest t (u u' : U) : rest u' = rest u -> test_speed t u' = test_speed t u.
  Proof. intros H. apply rest_eq in H. rewrite H. destruct t; reflexivity. Qed.
  Lemma side_rest m (u u' : U) : rest u' = rest u -> side_of m u' = side_of m u /\ u_full_esp u' = u_full_esp u.
  Proof. intros H. apply rest_eq in H. rewrite H. destruct m; split; reflexivity. Qed.

  (** One pass of the loop at compressor speed [i]. *)
  Lemma step_ok m full i x (u u' : U) b : reset_step psy m full (i, x) u = (u', Ok b) ->
    exists f f1 q e, nth_error (sd_net_cap (side_of m u)) i = Some q /\ u_full_esp u = Some e /\ full <> 0
      /\ u_fan u = Some f /\ u_fan u' = Some f1
      /\ add_speed (q * x) (Some (e * (q * x / full) ^ 2)) f = (f1, Ok tt)
      /\ rest u' = rest u
      /\ forall t, (test_mode t = m -> t <> A_boost -> test_speed t u = Some i ->
                    set_to (f_n f) (q * x) t u u')
           /\ (test_mode t <> m \/ t = A_boost \/ test_speed t u <> Some i ->
               stored t (u_conds u') = stored t (u_conds u)).
  Proof.
    unfold reset_step. intros H.
    apply sbind_ok in H. destruct H as (s1 & w & E & H). unfold sget in E. apply pair_ok_inj in E. destruct E as [<- <-].
    apply sbind_ok in H. destruct H as (s1 & q & E & H). apply slift_ok in E. destruct E as [-> Q]. apply geti_ok in Q.
    cbn [fst snd] in *. cbv zeta in H.
    apply sbind_ok in H. destruct H as (s1 & p & E & H). apply slift_ok in E. destruct E as [-> P].
    unfold calculate_rated_pressure in P. apply rbind_ok in P. destruct P as (e & Ee & P). apply need_ok in Ee.
    apply rbind_ok in P. destruct P as (r & Er & P). apply pydiv_inv in Er. destruct Er as [F0 ->].
    apply Ok_inj in P.
    apply sbind_ok in H. destruct H as (s1 & [] & E & H). unfold on_fan in E.
    destruct (u_fan u) as [f|] eqn:F; [|discriminate].
    destruct (add_speed (q * x) (Some p) f) as [f1 r] eqn:A. injection E as <- ->.
    apply sbind_ok in H. destruct H as (s1 & k & E & H). apply last_fan in E.
    destruct E as (-> & f2 & E & ->). cbn [u_fan wu_fan] in E. injection E as <-.
    destruct (add_n _ _ _ _ _ A) as [N _]. rewrite N in H. cbn [Nat.pred] in H.
    rewrite update_moves in H.
    apply moves_ok in H; [|apply NoDup_filter, nodup_side].
    destruct H as (Fu & Rt & H).
    assert (Rt' : rest u' = rest u) by (rewrite Rt; destruct u; reflexivity).
    exists f, f1, q, e.
    assert (p = e * (q * x / full) ^ 2) as <-.
    { rewrite <- P. unfold nsq. rnum. ring. }
    repeat split; auto.
    - intros M1 M2 M3. apply (proj1 (H t)). apply filter_In. split; [apply in_side_tests; auto|].
      apply runs_iff. rewrite <- M3. destruct t; reflexivity.
    - intros M1. rewrite (proj2 (H t)); [reflexivity|]. rewrite filter_In, in_side_tests, runs_iff.
      intros ((K1 & K2) & K3).
      assert (K4 : test_speed t (wu_fan (Some f1) u) = test_speed t u) by (destruct t; reflexivity).
      rewrite K4 in K3. tauto.
  Qed.

  (** The loop from compressor speed [j] on. *)
  Lemma loop_ok m full l : forall j f (u u' : U) b,
    sfold (reset_step psy m full) (combine (seq j (length l)) l) u = (u', Ok b) -> u_fan u = Some f ->
    exists f' airs, u_fan u' = Some f' /\ rest u' = rest u /\ length airs = length l
      /\ (forall i x, nth_error l i = Some x ->
            exists q, nth_error (sd_net_cap (side_of m u)) (j + i) = Some q /\ nth_error airs i = Some (q * x))
      /\ (l <> [] -> full <> 0 /\ exists e, u_full_esp u = Some e)
      /\ (forall e, u_full_esp u = Some e ->
            with_speeds f (map (fun a => (a, e * (a / full) ^ 2)) airs) f')
      /\ forall t,
        (forall i a, test_mode t = m -> t <> A_boost -> test_speed t u = Some (j + i)%nat ->
             nth_error airs i = Some a -> set_to (f_n f + i) a t u u')
        /\ (test_mode t <> m \/ t = A_boost \/ test_speed t u = None
            \/ (exists i, test_speed t u = Some i /\ (i < j \/ j + length l <= i)%nat) ->
            stored t (u_conds u') = stored t (u_conds u)).
  Proof.
    induction l as [|x l IH]; intros j f u u' b H F; cbn [length seq combine sfold] in H.
    - unfold sret in H. apply pair_ok_inj in H. destruct H as [<- _]. exists f, [].
      repeat split; auto; try (intros; destruct i; discriminate); try congruence.
      intros e _. constructor.
    - apply sbind_ok in H. destruct H as (s1 & [] & E & H). apply step_ok in E.
      destruct E as (f0 & f1 & q & e & Q & Ee & F0 & Fu & F1 & A & Rt & Stp).
      assert (f0 = f) by congruence. subst f0.
      destruct (IH (S j) f1 s1 u' b H F1) as (f' & airs & F' & Rt' & L & Air & _ & W & T).
      destruct (side_rest m _ _ Rt) as [Sd Es]. rewrite Sd in Air.
      exists f', (q * x :: airs). split; [exact F'|]. split; [congruence|]. split; [cbn; congruence|].
      split.
      { intros [|i] y Hy; cbn [nth_error] in Hy.
        - injection Hy as <-. exists q. rewrite Nat.add_0_r. auto.
        - destruct (Air i y Hy) as (q' & Q1 & Q2). exists q'. split; [|exact Q2].
          rewrite <- Q1. f_equal. lia. }
      split; [eauto|].
      split.
      { intros e' He. assert (e' = e) by congruence. subst e'. cbn [map]. econstructor; [exact A|].
        apply W. congruence. }
      intros t. destruct (T t) as [T1 T2]. destruct (Stp t) as [S1 S2].
      pose proof (test_speed_rest t _ _ Rt) as Ts. rewrite Ts in *.
      destruct (add_n _ _ _ _ _ A) as [N _]. split.
      + intros [|i] a M1 M2 M3 Hn; cbn [nth_error] in Hn.
        * injection Hn as <-. rewrite Nat.add_0_r in M3. rewrite Nat.add_0_r.
          destruct (S1 M1 M2 M3) as (c & c' & C1 & C2 & C3). exists c, c'. split; [exact C1|]. split; [|exact C3].
          rewrite T2; [exact C2|]. right; right; right. exists j. split; [exact M3|]. lia.
        * replace (f_n f + S i)%nat with (f_n f1 + i)%nat by lia.
          destruct (T1 i a M1 M2) as (c & c' & C1 & C2 & C3); [rewrite M3; f_equal; lia|exact Hn|].
          exists c, c'. split; [|auto]. rewrite <- C1. symmetry. apply S2. right; right. rewrite M3.
          intros K. injection K. lia.
      + intros K. rewrite T2.
        * apply S2. destruct K as [K|[K|[K|(i & K & I)]]]; [auto|auto|right; right; congruence|].
          right; right. rewrite K. intros K'. injection K' as ->. cbn [length] in I. lia.
        * destruct K as [K|[K|[K|(i & K & I)]]]; [auto|auto|auto|].
          right; right; right. exists i. split; [exact K|]. cbn [length] in I. lia.
  Qed.

  Lemma list_ext {A} (l l' : list A) : (forall i, nth_error l i = nth_error l' i) -> l = l'.
  Proof.
    revert l'. induction l as [|a l IH]; intros [|b l'] H; auto.
    - specialize (H 0%nat). discriminate.
    - specialize (H 0%nat). discriminate.
    - pose proof (H 0%nat) as H0. cbn in H0. injection H0 as <-. f_equal. apply IH. intros i. exact (H (S i)).
  Qed.
  Lemma nth_combine {A B} (l : list A) (l' : list B) i a b :
    nth_error l i = Some a -> nth_error l' i = Some b -> nth_error (combine l l') i = Some (a, b).
  Proof.
    revert l' i. induction l as [|x l IH]; intros [|y l'] [|i]; cbn; try discriminate.
    - intros H H'. congruence.
    - apply IH.
  Qed.

  Lemma side_ok m x (u u' : U) b : reset_side_flow psy m x u = (u', Ok b) ->
    let s := side_of m u in
    let l := flow_list x (sd_n s) in
    let airs := map (fun qx => fst qx * snd qx) (combine (sd_net_cap s) l) in
    exists f f' e, u_fan u = Some f /\ u_fan u' = Some f' /\ rest u' = rest u
      /\ u_full_esp u = Some e /\ hd 0 airs <> 0 /\ length airs = length l
      /\ with_speeds f (map (fun a => (a, e * (a / hd 0 airs) ^ 2)) airs) f'
      /\ forall t,
        (forall i a, test_mode t = m -> t <> A_boost -> test_speed t u = Some i ->
             nth_error airs i = Some a -> set_to (f_n f + i) a t u u')
        /\ (test_mode t <> m \/ t = A_boost \/ test_speed t u = None
            \/ (exists i, test_speed t u = Some i /\ (length l <= i)%nat) ->
            stored t (u_conds u') = stored t (u_conds u)).
  Proof.
    intros H. cbv zeta. unfold reset_side_flow in H.
    apply sbind_ok in H. destruct H as (s1 & w & E & H). unfold sget in E. apply pair_ok_inj in E. destruct E as [<- <-].
    cbv zeta in H. change (match x with Scalar v => repeat v (sd_n (side_of m u)) | Many l => l end)
      with (flow_list x (sd_n (side_of m u))) in H.
    set (l := flow_list x (sd_n (side_of m u))) in *.
    apply sbind_ok in H. destruct H as (s1 & full & E & H). apply slift_ok in E. destruct E as [-> Fl].
    apply rbind_ok in Fl. destruct Fl as (q0 & Q0 & Fl). apply geti_ok in Q0.
    apply rbind_ok in Fl. destruct Fl as (x0 & X0 & Fl). apply geti_ok in X0. apply Ok_inj in Fl.
    change (sfold (reset_step psy m full) (combine (seq 0 (length l)) l) u = (u', Ok b)) in H.
    assert (Fan : exists f, u_fan u = Some f).
    { destruct l as [|y l]; [discriminate|]. cbn [length seq combine sfold] in H.
      apply sbind_ok in H. destruct H as (s1 & [] & E & H). apply step_ok in E.
      destruct E as (f0 & f1 & q & e & Q & Ee & F0 & Fu & _). eauto. }
    destruct Fan as [f F].
    destruct (loop_ok m full l 0 f u u' b H F) as (f' & airs & F' & Rt & L & Air & NE & W & T).
    assert (Eq : airs = map (fun qx => fst qx * snd qx) (combine (sd_net_cap (side_of m u)) l)).
    { apply list_ext. intros i. destruct (nth_error l i) as [y|] eqn:Hy.
      - destruct (Air i y Hy) as (q & Q1 & Q2). rewrite Q2. symmetry.
        apply map_nth_error with (d := (q, y)). apply nth_combine; auto.
      - apply nth_error_None in Hy. rewrite (proj2 (nth_error_None airs i)) by lia. symmetry.
        apply nth_error_None. rewrite map_length, combine_length. lia. }
    destruct NE as (Nf & e & Ee); [intros ->; discriminate|].
    assert (Hd : full = hd 0 airs).
    { destruct (Air 0%nat x0 X0) as (q & Q1 & Q2). cbn [Nat.add] in Q1. assert (q = q0) by congruence. subst q.
      destruct airs; [discriminate|]. cbn in Q2 |- *. injection Q2 as ->. rewrite <- Fl. rnum. reflexivity. }
    rewrite <- Eq. exists f, f', e. rewrite <- Hd.
    repeat split; auto.
    - intros i a M1 M2 M3 Hn. exact (proj1 (T t) i a M1 M2 M3 Hn).
    - intros K. apply (proj2 (T t)). destruct K as [K|[K|[K|(i & K & I)]]]; auto.
      right; right; right. exists i. split; [exact K|]. lia.
  Qed.

  Lemma with_app f f1 f' l l' : with_speeds f l f1 -> with_speeds f1 l' f' -> with_speeds f (l ++ l') f'.
  Proof. intros H H'. induction H; cbn [app]; [exact H'|econstructor; eauto]. Qed.
  Lemma with_n f l f' : with_speeds f l f' -> f_n f' = (f_n f + length l)%nat /\ f_class f' = f_class f.
  Proof.
    intros H. induction H as [|f f1 f' a p l A W [IH1 IH2]]; cbn [length]; [split; [lia|reflexivity]|].
    destruct (add_n _ _ _ _ _ A). split; [lia|congruence].
  Qed.

  (** * Both sides *)
  Lemma reset_ok fc fh (u u' : U) : ex (reset_rated_flow_rates psy fc fh) u = Ok u' ->
    exists f f' e, u_fan u = Some f /\ u_fan u' = Some f' /\ rest u' = rest u /\ u_full_esp u = Some e
      /\ (forall m, hd 0 (new_airflows m u fc fh) <> 0
                    /\ length (new_airflows m u fc fh) = length (flows m u fc fh))
      /\ with_speeds f (new_speeds Cooling u fc fh e ++ new_speeds Heating u fc fh e) f'
      /\ forall t,
        (forall i a, t <> A_boost -> test_speed t u = Some i ->
             nth_error (new_airflows (test_mode t) u fc fh) i = Some a ->
             set_to (new_fan_speed (test_mode t) u fc fh (f_n f) i) a t u u')
        /\ (t = A_boost \/ test_speed t u = None
            \/ (exists i, test_speed t u = Some i /\ (length (flows (test_mode t) u fc fh) <= i)%nat) ->
            stored t (u_conds u') = stored t (u_conds u)).
  Proof.
    unfold ex. destruct (reset_rated_flow_rates psy fc fh u) as [w [b|]] eqn:H; [|discriminate].
    intros E. injection E as ->. unfold reset_rated_flow_rates in H. apply sbind_ok in H.
    destruct H as (s1 & [] & Hc & Hh). apply side_ok in Hc. apply side_ok in Hh. cbv zeta in Hc, Hh.
    destruct Hc as (f & f1 & e & F & F1 & R1 & Ee & N1 & L1 & W1 & T1).
    destruct Hh as (f1' & f' & e' & F1' & F' & R2 & Ee' & N2 & L2 & W2 & T2).
    destruct (side_rest Heating _ _ R1) as [Sd Es]. rewrite Sd in *. rewrite Es in Ee'.
    assert (f1' = f1) by congruence. assert (e' = e) by congruence. subst f1' e'.
    destruct (with_n _ _ _ W1) as [Nf _]. rewrite map_length in Nf.
    exists f, f', e. split; [exact F|]. split; [exact F'|]. split; [congruence|]. split; [exact Ee|].
    split; [intros []; [exact (conj N1 L1)|exact (conj N2 L2)]|].
    split; [exact (with_app _ _ _ _ _ W1 W2)|].
    intros t. destruct (T1 t) as [T11 T12]. destruct (T2 t) as [T21 T22]. rewrite (test_speed_rest t _ _ R1) in *.
    destruct (test_mode t) eqn:M.
    - assert (Kp : stored t (u_conds u') = stored t (u_conds s1)) by (apply T22; left; discriminate).
      split.
      + intros i a B Sp Hn. destruct (T11 i a eq_refl B Sp Hn) as (c & c' & C1 & C2 & C3).
        exists c, c'. split; [exact C1|]. split; [rewrite Kp; exact C2|exact C3].
      + intros K. rewrite Kp. apply T12. right. exact K.
    - assert (Kp : stored t (u_conds s1) = stored t (u_conds u)) by (apply T12; left; discriminate).
      split.
      + intros i a B Sp Hn. destruct (T21 i a eq_refl B Sp Hn) as (c & c' & C1 & C2 & C3).
        exists c, c'. split; [rewrite <- Kp; exact C1|]. split; [exact C2|].
        unfold new_fan_speed. rewrite <- C3. f_equal. rewrite Nf. f_equal. f_equal. symmetry. exact L1.
      + intros K. rewrite T22 by (right; exact K). exact Kp.
  Qed.
End Flow.
