(** The tables built from ratings (C26): what a successful construction returns. *)
From Coq Require Import Reals QArith Lra Lia List Bool Sorted ZArith.
From Verif.Base Require Import Num Res Tac.
From Verif.Model Require Import Units Util Curves Tabular.
From Verif.Spec Require Import TabularSpec.
From Verif.Proofs Require Import UtilProofs UnitsR Lin1 TabCells TabAdd TabInterp.
Import ListNotations.
Local Open Scope R_scope.

Notation cellv := (Z * R * R)%type.

(** What is known of a table: its shape and some of its cells. *)
Definition knows (k : table_kind) (n : nat) (t : table R) (l : list cellv) : Prop :=
  wf_table t /\ t_kind t = k /\ t_n t = n /\
  forall s x v, In (s, x, v) l -> (1 <= s <= Z.of_nat n)%Z /\ t_get s x t = Ok (Some v).

Lemma ex_seq {S} (a b : st S unit) s s'' : ex (a ;;; b) s = Ok s'' <->
  exists s', ex a s = Ok s' /\ ex b s' = Ok s''.
Proof.
  unfold ex, sbind. destruct (a s) as [s1 [[]|e]]; split; intros H.
  - exists s1. auto.
  - destruct H as (? & Q & H). inversion Q; subst. auto.
  - discriminate.
  - destruct H as (? & Q & H). discriminate.
Qed.
Lemma ex_ok {S} (m : st S unit) s s' : ex m s = Ok s' <-> m s = (s', Ok tt).
Proof. unfold ex. destruct (m s) as [s1 [[]|e]]; split; intros H; inversion H; auto. Qed.

Lemma knows_setter k n t t' l s x m : setter s x m -> ex m t = Ok t' -> knows k n t l ->
  (1 <= s <= Z.of_nat n)%Z ->
  (forall v, ~ In (s, x, v) l) -> knows k n t' l.
Proof.
  intros S E (W & K & N & H) V D. apply ex_ok in E.
  assert (V' : valid_speed t s) by (unfold valid_speed; rewrite N; auto).
  destruct (setter_frame s x m t t' _ W V' S E) as (W' & C1 & C2 & C3 & C4 & C5).
  split; auto. split; [congruence|]. split; [congruence|].
  intros s1 x1 v1 Hin. destruct (H _ _ _ Hin) as (A & B). split; auto.
  rewrite C5; auto. unfold valid_speed. rewrite N; auto.
  intros Q. inversion Q; subst. apply (D v1); auto.
Qed.

Lemma knows_set k n t t' l s x v : ex (t_set s x v) t = Ok t' -> knows k n t l ->
  (1 <= s <= Z.of_nat n)%Z ->
  (forall v, ~ In (s, x, v) l) -> knows k n t' ((s, x, v) :: l).
Proof.
  intros E Kn V D. pose proof (knows_setter k n t t' l s x _ (set_value s x v) E Kn V D) as (W & K & N & H).
  apply ex_ok in E. repeat (split; auto).
  - destruct H0 as [Q|Q]; [inversion Q; subst|apply H in Q]; tauto.
  - destruct H0 as [Q|Q]; [inversion Q; subst|apply H in Q]; tauto.
  - destruct H0 as [Q|Q]; [inversion Q; subst|apply H in Q; tauto]. eapply set_get; eauto.
Qed.

Lemma get_In s x (t : table R) o : t_get s x t = Ok o -> In x (t_temps t).
Proof.
  rewrite t_get_dget. unfold tidx. intros H. inv_ok. apply index_of_ok in E0.
  eapply nth_error_In; eauto.
Qed.

Lemma knows_add k n t t' l x e m : ex (add_temperature x e m) t = Ok t' -> knows k n t l ->
  knows k n t' l.
Proof.
  intros E (W & K & N & H). apply ex_ok in E.
  destruct (add_wf t t' x e m _ W E) as (W' & A1 & A2 & A3 & A4 & A5 & A6).
  repeat (split; [congruence|]). intros s1 x1 v1 Hin. destruct (H _ _ _ Hin) as (A & B).
  split; auto. rewrite A5; auto. eapply get_In; eauto.
Qed.

Lemma knows_more k n t l s x v : knows k n t l -> (1 <= s <= Z.of_nat n)%Z ->
  t_get s x t = Ok (Some v) -> knows k n t ((s, x, v) :: l).
Proof.
  intros (W & K & N & H) V G. split; auto. split; auto. split; auto.
  intros s1 x1 v1 [Q|Q]; [inversion Q; subst; auto|auto].
Qed.

Lemma knows_maint k n t t' l s x ref r v : ex (set_by_maintenance s x ref r) t = Ok t' ->
  knows k n t l -> (1 <= s <= Z.of_nat n)%Z -> In (s, ref, v) l -> x <> ref ->
  (forall v, ~ In (s, x, v) l) ->
  knows k n t' ((s, x, match k with
                       | CoolingTable => if Rlt_dec ref x then v * r else v / r
                       | _ => if Rlt_dec x ref then v * r else v / r end) :: l).
Proof.
  intros E Kn V Hin Hx D.
  pose proof (knows_setter k n t t' l s x _ (set_maint s x ref r) E Kn V D) as Kn'.
  apply knows_more; auto. apply ex_ok in E. destruct Kn as (W & K & N & H).
  destruct (H _ _ _ Hin) as (_ & G).
  pose proof (maint_val s x ref r t t' v W Hx E G) as M. rewrite K in M. exact M.
Qed.

Lemma knows_ratio k n t t' l s x r m : ex (set_by_ratio s x r) t = Ok t' ->
  knows k n t l -> (1 <= s < Z.of_nat n)%Z -> In (Z.of_nat n, x, m) l ->
  (forall v, ~ In (s, x, v) l) ->
  knows k n t' ((s, x, m * r) :: l).
Proof.
  intros E Kn V Hin D.
  pose proof (knows_setter k n t t' l s x _ (set_ratio s x r) E Kn ltac:(lia) D) as Kn'.
  apply knows_more; [auto|lia|]. apply ex_ok in E. destruct Kn as (W & K & N & H).
  destruct (H _ _ _ Hin) as (_ & G). rewrite <- N in G, V.
  eapply ratio_get; eauto. unfold valid_speed. lia. lia.
Qed.

Lemma knows_ratio_max k n t t' l s x r m : ex (set_by_ratio s x r) t = Ok t' ->
  knows k n t l -> s = Z.of_nat n -> (2 <= n)%nat -> In (s - 1, x, m)%Z l ->
  (forall v, ~ In (s, x, v) l) ->
  knows k n t' ((s, x, m / r) :: l).
Proof.
  intros E Kn Es V Hin D.
  pose proof (knows_setter k n t t' l s x _ (set_ratio s x r) E Kn ltac:(lia) D) as Kn'.
  apply knows_more; [auto|lia|]. apply ex_ok in E. destruct Kn as (W & K & N & H).
  destruct (H _ _ _ Hin) as (_ & G). subst s. rewrite <- N in *.
  eapply ratio_get_max; eauto.
Qed.

Lemma knows_new k n temps : StronglySorted Rlt temps -> knows k n (new_table k temps n None) [].
Proof.
  intros S. split; [|split; [auto|split; [auto|]]].
  - split; [auto|]. unfold new_table. cbn [t_data t_temps t_n]. split; [apply repeat_length|].
    apply Forall_forall. intros r Hr. apply repeat_spec in Hr. subst. apply repeat_length.
  - intros s x v [].
Qed.

Lemma knows_getv k n t l s x v w : knows k n t l -> In (s, x, v) l -> t_getv s x t = Ok w -> w = v.
Proof.
  intros (W & K & N & H) Hin E. destruct (H _ _ _ Hin) as (_ & G).
  unfold t_getv in E. rewrite G in E. simpl in E. congruence.
Qed.

(** After [finish] the cells are the values of the maps. *)
Lemma finish_calc qc pc qh ph p nc nh lqc lpc lqh lph :
  finish qc pc qh ph = Ok p ->
  knows CoolingTable nc qc lqc -> knows CoolingTable nc pc lpc ->
  knows HeatingTable nh qh lqh -> knows HeatingTable nh ph lph ->
  (forall s x v, In (s, x, v) lqc -> cooling_capacity p (IZR s) x = Ok v) /\
  (forall s x v, In (s, x, v) lpc -> cooling_power p (IZR s) x = Ok v) /\
  (forall s x v, In (s, x, v) lqh -> heating_capacity p (IZR s) x = Ok v) /\
  (forall s x v, In (s, x, v) lph -> heating_power p (IZR s) x = Ok v).
Proof.
  unfold finish, make_perf. intros H K1 K2 K3 K4. inv_ok. subst p.
  unfold cooling_capacity, cooling_power, heating_capacity, heating_power.
  cbn [p_cc p_cp p_hc p_hp].
  assert (Q : forall k n t t' l, ex set_interpolator t = Ok t' -> knows k n t l ->
    forall s x v, In (s, x, v) l -> calculate (IZR s) x t' = Ok v).
  { intros k n t t' l E' (W & K & N & G) s x w Hin. apply ex_ok in E'.
    destruct (G _ _ _ Hin) as (V & G'). eapply calc_node; eauto.
    unfold valid_speed. rewrite N; auto. }
  repeat split; intros; eapply Q; eauto.
Qed.

Ltac tneq := first [lia | (let Q := fresh in intros Q; lra) | lra].
Ltac notin :=
  let Q := fresh "Q" in
  intros ? Q; cbn [In] in Q; repeat (destruct Q as [Q|Q]);
  try contradiction; inversion Q; subst; try lra; try lia.

Lemma cop_of (q e : R) : q <> 0 -> e <> 0 -> q / (q / e) = e.
Proof. intros. field. auto. Qed.
Lemma cop_nz (q e : R) : q <> 0 -> e <> 0 -> q / e <> 0.
Proof. intros H1 H2 H. apply H1. apply (f_equal (fun z => z * e)) in H. field_simplify in H; auto. Qed.

(** Split a sequence of methods run on a table. *)
Ltac inv_ex := repeat match goal with
  | H : ex (sbind _ (fun _ => _)) _ = Ok _ |- _ =>
      let t := fresh "t" in let E := fresh "X" in
      apply ex_seq in H; destruct H as (t & E & H)
  end.


Ltac inlist := cbn [In]; tauto.
Ltac split_pat K := idtac.
(** Forward what is known of the tables through the steps of a construction. *)
Ltac track1 :=
  match goal with
  | H : ex (t_set ?s ?x ?v) ?t = Ok ?t', K : knows ?k ?n ?t ?l |- _ =>
      apply (fun e => knows_set k n t t' l s x v e K) in H; [|lia|notin]
  | H : ex (set_by_maintenance ?s ?x ?ref ?r) ?t = Ok ?t', K : knows ?k ?n ?t ?l |- _ =>
      first
      [ match l with context [(s, ref, ?v)] =>
          apply (fun e => knows_maint k n t t' l s x ref r v e K) in H; [|lia|inlist|lra|notin] end
      | apply (fun e => knows_setter k n t t' l s x _ (set_maint s x ref r) e K) in H; [|lia|notin] ]
  | H : ex (set_by_interpolation ?s ?x) ?t = Ok ?t', K : knows ?k ?n ?t ?l |- _ =>
      apply (fun e => knows_setter k n t t' l s x _ (set_interp s x) e K) in H; [|lia|notin]
  | H : ex (set_by_ratio ?s ?x ?r) ?t = Ok ?t', K : knows ?k ?n ?t ?l |- _ =>
      first
      [ match l with context [(?s', x, ?m)] =>
          apply (fun e => knows_ratio k n t t' l s x r m e K) in H; [|lia|inlist|notin] end
      | match l with context [(?s', x, ?m)] =>
          apply (fun e => knows_ratio_max k n t t' l s x r m e K) in H; [|reflexivity|lia|inlist|notin] end
      | apply (fun e => knows_setter k n t t' l s x _ (set_ratio s x r) e K) in H; [|lia|notin] ]
  | H : ex (add_temperature ?x ?e ?m) ?t = Ok ?t', K : knows ?k ?n ?t ?l |- _ =>
      apply (fun q => knows_add k n t t' l x e m q K) in H
  | H : t_getv ?s ?x ?t = Ok ?w, K : knows ?k ?n ?t ?l |- _ =>
      match l with context [(s, x, ?v)] =>
        apply (fun q => knows_getv k n t l s x v w K q) in H; [|inlist]; subst w end
  | H : pydiv _ _ = Ok ?v |- _ =>
      let N := fresh "N" in apply pydiv_inv in H; destruct H as (N & H); subst v
  end.
Ltac track := repeat track1.

Lemma rlt_yes {A} a b (x y : A) : a < b -> (if Rlt_dec a b then x else y) = x.
Proof. intros. destruct Rlt_dec; auto; lra. Qed.
Lemma rlt_no {A} a b (x y : A) : b <= a -> (if Rlt_dec a b then x else y) = y.
Proof. intros. destruct Rlt_dec; auto; lra. Qed.

Ltac rltd H := repeat first [rewrite rlt_no in H by lra | rewrite rlt_yes in H by lra].

Lemma bracket_both (x a b : R) : a <= b -> a <= bracket x (Some a) (Some b) <= b.
Proof.
  intros H. destruct (bracket_spec x (Some a) (Some b)) as ((A & B) & _).
  - exists a. split; intros m E; inversion E; subst; lra.
  - split; auto.
Qed.

Lemma sorted2 (a b : R) : a < b -> StronglySorted Rlt [a; b].
Proof. intros. repeat constructor; auto. Qed.

Lemma btu_Wh_nz (x : R) : x <> 0 -> fr_Btu_Wh x <> 0.
Proof. intros. unfold fr_Btu_Wh. pose proof btu_h_pos. cbn [nmul RNum]. apply Rmult_integral_contrapositive. lra. Qed.
Lemma btu_Wh_nz' (x : R) : fr_Btu_Wh x <> 0 -> x <> 0.
Proof. intros H ->. apply H. unfold fr_Btu_Wh. cbn [nmul RNum]. ring. Qed.

Ltac use_finish H :=
  match type of H with finish ?qc ?pc ?qh ?ph = Ok ?p =>
    match goal with
    | K1 : knows CoolingTable ?nc qc ?l1, K2 : knows CoolingTable ?nc pc ?l2,
      K3 : knows HeatingTable ?nh qh ?l3, K4 : knows HeatingTable ?nh ph ?l4 |- _ =>
        let HC := fresh "HC" in let HP := fresh "HP" in
        let HQ := fresh "HQ" in let HW := fresh "HW" in
        destruct (finish_calc qc pc qh ph p nc nh l1 l2 l3 l4 H K1 K2 K3 K4) as (HC & HP & HQ & HW)
    end
  end.

Theorem single_reproduces q95 seer eer q47 q17 hspf tmax tmin cop47 cd (p : perf R) :
  make_single_speed_model_data q95 seer eer q47 q17 hspf tmax tmin cop47 cd = Ok p ->
  q95 <> 0 -> q47 <> 0 ->
  cooling_capacity p 1 (fr_F 95) = Ok q95
  /\ cooling_cop p 1 (fr_F 95) = Ok (fr_Btu_Wh eer)
  /\ (exists c, cooling_cop p 1 (fr_F 82) = Ok c /\ (1 - 0.5 * cd) * c = fr_Btu_Wh seer)
  /\ heating_capacity p 1 (fr_F 47) = Ok q47
  /\ (forall c, q17 = Some c -> heating_capacity p 1 (fr_F 17) = Ok c)
  /\ heating_cop p 1 (fr_F 47) =
       Ok (match cop47 with Some c => c | None => 2.837 + 0.066 * hspf end).
Proof.
  intros H Nq Nh. unfold make_single_speed_model_data in H. cbv zeta in H.
  set (t82 := fr_F (lit (T:=R) 82)) in *. set (t95 := fr_F (lit (T:=R) 95)) in *.
  set (t17 := fr_F (lit (T:=R) 17)) in *. set (t47 := fr_F (lit (T:=R) 47)) in *.
  set (t60 := fr_F (lit (T:=R) 60)) in *. set (t5 := fr_F (lit (T:=R) 5)) in *.
  assert (E95 : fr_F 95 = t95) by (unfold t95; f_equal; rnum; lra).
  assert (E82 : fr_F 82 = t82) by (unfold t82; f_equal; rnum; lra).
  assert (E17 : fr_F 17 = t17) by (unfold t17; f_equal; rnum; lra).
  assert (E47 : fr_F 47 = t47) by (unfold t47; f_equal; rnum; lra).
  assert (L1 : t82 < t95) by (apply fr_F_lt; rnum; lra).
  assert (L2 : t17 < t47) by (apply fr_F_lt; rnum; lra).
  rewrite E95, E82, E17, E47. clearbody t82 t95 t17 t47 t60 t5. clear E95 E82 E17 E47.
  pose proof (knows_new CoolingTable 1 _ (sorted2 _ _ L1)) as KC.
  pose proof (knows_new HeatingTable 1 _ (sorted2 _ _ L2)) as KH.
  inv_ok. inv_ex. track. use_finish H.
  rltd HC. rltd HP. rltd HQ. rltd HW.
  assert (NQ : q95 / (lit 1 / calc_biquad COOLING_CAP_FT (lit 67) (lit 82)) <> 0).
  { apply cop_nz; auto. apply cop_nz; auto. rewrite lit1_R. lra. }
  split; [apply HC; inlist|]. split; [|split; [|split; [|split]]].
  - unfold cooling_cop. erewrite HC, HP by inlist. cbn [rbind].
    rewrite pydiv_ok by (apply cop_nz; auto). rewrite cop_of; auto.
  - eexists. split.
    + unfold cooling_cop. erewrite HC, HP by inlist. cbn [rbind].
      rewrite pydiv_ok by (apply cop_nz; auto). rewrite cop_of; auto.
    + unfold fr_Btu_Wh. revert N1. rnum. intros N1'. field. intros Q. apply N1'. lra.
  - apply HQ; inlist.
  - intros c ->. track. erewrite HQ by inlist. f_equal. field. auto.
  - unfold heating_cop. erewrite HQ, HW by inlist. cbn [rbind].
    rewrite pydiv_ok by (apply cop_nz; auto). rewrite cop_of; auto.
Qed.

Theorem two_reproduces q95 seer eer q47 q17 hspf tmax tmin cop82 cop47 (p : perf R) :
  make_two_speed_model_data q95 seer eer q47 q17 hspf tmax tmin cop82 cop47 = Ok p ->
  q95 <> 0 -> q47 <> 0 ->
  cooling_capacity p 2 (fr_F 95) = Ok q95
  /\ cooling_cop p 2 (fr_F 95) = Ok (fr_Btu_Wh eer)
  /\ cooling_cop p 1 (fr_F 82) = Ok (match cop82 with Some c => c | None => seer / 2 end)
  /\ heating_capacity p 2 (fr_F 47) = Ok q47
  /\ (forall c, q17 = Some c -> heating_capacity p 2 (fr_F 17) = Ok c)
  /\ heating_cop p 2 (fr_F 47) =
       Ok (match cop47 with Some c => c | None => 2.837 + 0.066 * hspf end).
Proof.
  intros H Nq Nh. unfold make_two_speed_model_data in H. cbv zeta in H.
  set (t82 := fr_F (lit (T:=R) 82)) in *. set (t95 := fr_F (lit (T:=R) 95)) in *.
  set (t17 := fr_F (lit (T:=R) 17)) in *. set (t47 := fr_F (lit (T:=R) 47)) in *.
  set (t60 := fr_F (lit (T:=R) 60)) in *. set (t5 := fr_F (lit (T:=R) 5)) in *.
  assert (E95 : fr_F 95 = t95) by (unfold t95; f_equal; rnum; lra).
  assert (E82 : fr_F 82 = t82) by (unfold t82; f_equal; rnum; lra).
  assert (E17 : fr_F 17 = t17) by (unfold t17; f_equal; rnum; lra).
  assert (E47 : fr_F 47 = t47) by (unfold t47; f_equal; rnum; lra).
  assert (L1 : t82 < t95) by (apply fr_F_lt; rnum; lra).
  assert (L2 : t17 < t47) by (apply fr_F_lt; rnum; lra).
  rewrite E95, E82, E17, E47. clearbody t82 t95 t17 t47 t60 t5. clear E95 E82 E17 E47.
  pose proof (knows_new CoolingTable 2 _ (sorted2 _ _ L1)) as KC.
  pose proof (knows_new HeatingTable 2 _ (sorted2 _ _ L2)) as KH.
  replace (match cop82 with Some c => c | None => seer / 2 end) with
    (match cop82 with Some c => c | None => (seer / lit 2)%num end)
    by (destruct cop82; auto; rnum; lra).
  set (c82 := match cop82 with Some c => c | None => _ end) in *. clearbody c82.
  inv_ok. inv_ex. track. use_finish H.
  set (CQ := lit 1 / calc_biquad COOLING_CAP_FT (lit 67) (lit 82)) in *.
  assert (NC : CQ <> 0) by (apply cop_nz; auto; rewrite lit1_R; lra).
  set (CE := lit 1 / calc_biquad COOLING_EIR_FT (lit 67) (lit 82)) in *. clearbody CQ CE.
  rltd HC. rltd HP. rltd HQ. rltd HW.
  assert (NQ : q95 / CQ * lit 0.728 <> 0).
  { apply Rmult_integral_contrapositive. split; [apply cop_nz; auto|]. rnum; lra. }
  split; [apply HC; inlist|]. split; [|split; [|split; [|split]]].
  - unfold cooling_cop. erewrite HC, HP by inlist. cbn [rbind].
    rewrite pydiv_ok by (apply cop_nz; auto). rewrite cop_of; auto.
  - unfold cooling_cop. erewrite HC, HP by inlist. cbn [rbind].
    rewrite pydiv_ok by (apply cop_nz; auto). rewrite cop_of; auto.
  - apply HQ; inlist.
  - intros c ->. track. erewrite HQ by inlist. f_equal. field. auto.
  - unfold heating_cop. erewrite HQ, HW by inlist. cbn [rbind].
    rewrite pydiv_ok by (apply cop_nz; auto). rewrite cop_of; auto.
Qed.

Lemma sorted4 (a b c d : R) : a < b -> b < c -> c < d -> StronglySorted Rlt [a; b; c; d].
Proof. intros. repeat constructor; lra. Qed.

Theorem statistical_reproduces q95 seer eer q47 q17 hspf tmax tmin ratio cop82 cop47 (p : perf R) :
  make_neep_statistical_model_data q95 seer eer q47 q17 hspf tmax tmin ratio cop82 cop47 = Ok p ->
  tmin < fr_F 5 -> q95 <> 0 -> q47 <> 0 ->
  cooling_capacity p 2 (fr_F 95) = Ok q95
  /\ cooling_cop p 2 (fr_F 95) = Ok (fr_Btu_Wh eer)
  /\ (forall r, ratio = Some r -> exists q1 q3, cooling_capacity p 1 (fr_F 95) = Ok q1
        /\ cooling_capacity p 3 (fr_F 95) = Ok q3 /\ q1 = r * q3)
  /\ (forall c, cop82 = Some c -> (forall r, ratio = Some r -> r <> 0) ->
        cooling_cop p 1 (fr_F 82) = Ok c)
  /\ heating_capacity p 2 (fr_F 47) = Ok q47
  /\ (forall c, q17 = Some c -> heating_capacity p 2 (fr_F 17) = Ok c)
  /\ heating_cop p 2 (fr_F 47) =
       Ok (match cop47 with Some c => c | None => 2.837 + 0.066 * hspf end).
Proof.
  intros H Ht Nq Nh. unfold make_neep_statistical_model_data in H. cbv zeta in H.
  set (t82 := fr_F (lit (T:=R) 82)) in *. set (t95 := fr_F (lit (T:=R) 95)) in *.
  set (t17 := fr_F (lit (T:=R) 17)) in *. set (t47 := fr_F (lit (T:=R) 47)) in *.
  set (t60 := fr_F (lit (T:=R) 60)) in *. set (t5 := fr_F (lit (T:=R) 5)) in *.
  assert (E95 : fr_F 95 = t95) by (unfold t95; f_equal; rnum; lra).
  assert (E82 : fr_F 82 = t82) by (unfold t82; f_equal; rnum; lra).
  assert (E17 : fr_F 17 = t17) by (unfold t17; f_equal; rnum; lra).
  assert (E47 : fr_F 47 = t47) by (unfold t47; f_equal; rnum; lra).
  assert (L1 : t82 < t95) by (apply fr_F_lt; rnum; lra).
  assert (L2 : t17 < t47) by (apply fr_F_lt; rnum; lra).
  assert (L3 : tmin < t5) by (unfold t5; replace (lit (T:=R) 5) with 5 by (rnum; lra); auto).
  assert (L4 : t5 < t17) by (apply fr_F_lt; rnum; lra).
  clear Ht.
  rewrite E95, E82, E17, E47. clearbody t82 t95 t17 t47 t60 t5. clear E95 E82 E17 E47.
  pose proof (knows_new CoolingTable 3 _ (sorted2 _ _ L1)) as KC.
  pose proof (knows_new HeatingTable 3 _ (sorted4 _ _ _ _ L3 L4 L2)) as KH.
  apply rbind_ok in H. destruct H as (qc1 & Eqc1 & H).
  apply rbind_ok in H. destruct H as (q2 & Eq2 & H).
  apply rbind_ok in H. destruct H as (p2 & Ep2 & H).
  apply rbind_ok in H. destruct H as (pc1 & Epc1 & H).
  inv_ex. track.
  apply rbind_ok in H. destruct H as (ce & Ece & H).
  set (cc := fst ce) in *. set (ee := snd ce) in *.
  set (Qr := match ratio with Some r => r | None => _ end) in *.
  inv_ok. inv_ex. track. use_finish H.
  rltd HC. rltd HP. rltd HQ. rltd HW.
  split; [apply HC; inlist|]. split; [|split; [|split; [|split; [|split]]]].
  - unfold cooling_cop. erewrite HC, HP by inlist. cbn [rbind].
    rewrite pydiv_ok by (apply cop_nz; auto). rewrite cop_of; auto.
  - intros r ->. do 2 eexists. split; [apply HC; inlist|]. split; [apply HC; inlist|].
    unfold Qr. ring.
  - intros c -> Hr.
    assert (Ec : cc = c). { unfold cc. inv_ok. subst ce. reflexivity. }
    assert (NQr : Qr <> 0).
    { unfold Qr. destruct ratio as [r|]; [auto|].
      match goal with |- bracket ?x (Some ?a) (Some ?b) <> 0 =>
        assert (Q : a <= b) by (rnum; lra); pose proof (bracket_both x a b Q) as Q1;
        assert (Q2 : 0 < a) by (rnum; lra) end.
      lra. }
    assert (NQ : q95 / lit 0.934 * Qr / lit 0.948 <> 0).
    { apply cop_nz; [|rnum; lra]. apply Rmult_integral_contrapositive. split; auto.
      apply cop_nz; auto. rnum. lra. }
    unfold cooling_cop. erewrite HC, HP by inlist. cbn [rbind].
    rewrite pydiv_ok by (apply cop_nz; auto). rewrite cop_of, Ec; auto.
  - apply HQ; inlist.
  - intros c ->. track. erewrite HQ by inlist. f_equal. field. auto.
  - unfold heating_cop. erewrite HQ, HW by inlist. cbn [rbind].
    rewrite pydiv_ok by (apply cop_nz; auto). rewrite cop_of; auto.
Qed.
