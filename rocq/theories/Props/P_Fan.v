(** Properties C11-C19: fans (fan.py). *)
From Coq Require Import Reals QArith Lra Lia List.
From Verif.Base Require Import Num Res Tac.
From Verif.Model Require Import Units Fan.
From Verif.Spec Require Import FanSpec.
From Verif.Proofs Require Import UnitsR FanProofs FanProofs2 FanProofs3 FanProofs4.
Import ListNotations.
Local Open Scope R_scope.

(** * C11 *)
Theorem C11_lists_stay_parallel : forall (f f' : fan R) ops,
  made f -> Forall (efficacy_given (f_class f)) ops ->
  sfold run_op ops f = (f', Ok tt) ->
  parallel f' /\ f_class f' = f_class f.
Proof. exact (fun f f' ops => made_ops_parallel f ops f'). Qed.
Print Assumptions C11_lists_stay_parallel.

Theorem C11_every_speed_can_be_looked_up : forall sol (f : fan R) i p,
  parallel f -> (airflow sol f i (Some p) = Err IndexError <-> (f_n f <= i)%nat).
Proof. exact airflow_index. Qed.
Print Assumptions C11_every_speed_can_be_looked_up.

(** Without the efficacy a ConstantEfficacyFan loses the property. *)
Theorem C11_constant_fan_missing_efficacy_refuted : forall sol (f f' : fan R) a l,
  parallel f -> f_class f = ConstantEfficacyFan -> f_design_efficacy f = EffList l ->
  add_speed a None f = (f', Ok tt) ->
  (f_n f < f_n f')%nat /\ efficacy sol f' (f_n f) None = Err IndexError.
Proof. exact const_missing_efficacy. Qed.
Print Assumptions C11_constant_fan_missing_efficacy_refuted.

Example C11_nonvacuous :
  (exists f, make_psc_fan [0.5; 0.3; 0.2] 125 700 = Ok f /\ made f)
  /\ (exists f, make_constant_efficacy_fan [0.5; 0.3] 125 (EffNum 700) = Ok f /\ made f)
  /\ (exists f, make_ecm_fan [0.5; 0.3] 125 700 None = Ok f /\ made f).
Proof.
  split; [|split].
  - destruct (psc_total [0.5; 0.3; 0.2] 125 700) as (f & F).
    + discriminate.
    + repeat constructor; lra.
    + lra.
    + exists f. split; auto. eapply made_psc; eauto.
  - destruct (const_total [0.5; 0.3] 125 (EffNum 700) 0.5) as (f & F); try reflexivity; try lra.
    exists f. split; auto. eapply made_const; eauto. discriminate.
  - destruct (ecm_total [0.5; 0.3] 125 700 None 0.5) as (f & F); try reflexivity; try lra.
    + discriminate.
    + exists f. split; auto. eapply made_ecm; eauto.
Qed.

(** * C12 *)
Theorem C12_check_power_changes_nothing : forall sol (f f' : fan R) a esp w,
  parallel f -> f_class f <> ConstantEfficacyFan ->
  check_power sol a esp f = (f', Ok w) ->
  f' = f /\ exists f1, add_speed a None f = (f1, Ok tt)
                       /\ power sol f1 (f_n f) esp = Ok w.
Proof. exact check_power_value. Qed.
Print Assumptions C12_check_power_changes_nothing.

Theorem C12_find_rated_fan_speed_appends_one : forall sol g q guess full c (f f' : fan R) a,
  parallel f -> f_class f <> ConstantEfficacyFan ->
  find_rated_fan_speed sol g q guess full c f = (f', Ok a) ->
  exists esp, add_speed a esp f = (f', Ok tt) /\ one_speed_appended f f'.
Proof. exact find_rated_appends. Qed.
Print Assumptions C12_find_rated_fan_speed_appends_one.

Theorem C12_earlier_speeds_unchanged : forall sol (f f' : fan R) i p,
  parallel f -> one_speed_appended f f' -> (i < f_n f)%nat ->
  airflow sol f' i (Some p) = airflow sol f i (Some p).
Proof. exact appended_airflow. Qed.
Print Assumptions C12_earlier_speeds_unchanged.

Theorem C12_constant_fan_probe_refuted : forall sol (f : fan R) a esp,
  parallel f -> f_class f = ConstantEfficacyFan -> (0 < f_n f)%nat ->
  (forall a0, geti (f_airflow f) 0 = Ok a0 -> a0 <> 0) ->
  exists f', check_power sol a esp f = (f', Err IndexError)
    /\ f_n f' = S (f_n f) /\ f_airflow f' = f_airflow f ++ [a].
Proof. exact const_check_power. Qed.
Print Assumptions C12_constant_fan_probe_refuted.

Theorem C12_failing_probe_leaves_speed_refuted : forall sol k (f : fan R) a,
  parallel f -> f_class f = EEREFan k -> (0 < f_n f)%nat ->
  (forall a0, geti (f_airflow f) 0 = Ok a0 -> a0 <> 0) ->
  exists f', check_power sol a None f = (f', Err TypeError)
    /\ f_n f' = S (f_n f) /\ f_airflow f' = f_airflow f ++ [a].
Proof. exact eere_check_power_unsafe. Qed.
Print Assumptions C12_failing_probe_leaves_speed_refuted.

(** A probe that succeeds, and a rated-speed search that succeeds. *)
Example C12_nonvacuous : exists (f : fan R) w, make_resnet_psc_fan [0.5; 0.3] = Ok f
  /\ parallel f /\ f_class f <> ConstantEfficacyFan
  /\ check_power ideal_solvers 0.4 (Some 100) f = (f, Ok w).
Proof.
  destruct (simple_init_total RESNETPSCFan [0.5; 0.3] (fr_inH2O (lit 0.5))
     (EffNum (fr_W_per_cfm (lit 0.414))) (lit 0) (lit 0) 0.5) as (f & F);
    try reflexivity; auto; try lra.
  { left. apply half_inH2O_pos. }
  assert (Md : made f) by (apply made_resnet_psc with [0.5; 0.3]; auto).
  pose proof (made_parallel f Md) as P.
  pose proof (init_fan_facts _ _ _ _ _ _ _ F) as (a0 & _ & _ & _ & A & C & _).
  assert (N : f_n f = 2%nat).
  { pose proof (parallel_par0 _ P) as (L & _). rewrite A in L. auto. }
  assert (D : f_design_efficacy f = EffNum (fr_W_per_cfm (lit 0.414))).
  { unfold init_fan in F. inv_ok. destruct (sfold _ _ _) as [f1 [u|x]] eqn:Ef; [|discriminate].
    inv_ok. subst f1. apply sfold_add_eff in Ef; [|left; reflexivity]. auto. }
  assert (X : exists s w, check_power ideal_solvers 0.4 (Some 100) f = (s, Ok w)).
  { unfold check_power. unfold sbind at 1. unfold add_speed. unfold sbind at 1, sget at 1. rewrite C.
    rewrite (base_add_total f 0.4 0.5) by (rewrite ?A; try reflexivity; lra).
    rewrite N, A. unfold sbind, sget, sread. cbn [f_n w_base Nat.pred].
    unfold power, airflow. cbn [f_class w_base f_airflow]. rewrite C.
    cbn [geti nth_error need app rbind].
    unfold efficacy. cbn [f_class w_base]. rewrite C. unfold resnet_psc_efficacy, eff_num.
    cbn [f_design_efficacy w_base]. rewrite D. cbn [rbind].
    rewrite (resnet_ratio _ _ 2 0.4 0.5); cbn [f_class w_base f_airflow]; try reflexivity; auto; try lra.
    cbn [rbind]. unfold remove_speed, sbind, sget. cbn [f_class w_base]. rewrite C.
    match goal with |- context [base_remove_speed 2 ?g] =>
      assert (Rm : base_remove_speed 2 g
         = (w_base (Nat.pred (f_n g)) (del (f_airflow g) 2) (del (f_ratio g) 2) g, Ok tt)) end.
    { apply base_remove_ok. cbn [f_airflow f_ratio w_base]. repeat split; auto.
      rewrite app_length. pose proof (parallel_par0 _ P) as (_ & L & _). rewrite L, N. simpl. lia. }
    rewrite Rm. do 2 eexists. reflexivity. }
  destruct X as (s & w & X). exists f, w. repeat split; auto; try congruence.
  pose proof (check_power_neutral _ _ _ _ _ _ P ltac:(congruence) X). subst s. auto.
Qed.

(** * C13 *)
Theorem C13_system_curve_inverse : forall (f f' : fan R) ops a0,
  made f -> geti (f_airflow f) 0 = Ok a0 -> 0 < a0 -> 0 < f_design_esp f ->
  sfold run_op ops f = (f', Ok tt) ->
  (forall q, 0 <= q -> system_flow f' (system_pressure f' q) = Ok q)
  /\ (forall p, 0 <= p -> exists q, system_flow f' p = Ok q /\ 0 <= q
                                    /\ system_pressure f' q = p)
  /\ (forall q q', 0 <= q -> q < q' -> system_pressure f' q < system_pressure f' q')
  /\ (forall p p' q q', 0 <= p -> p < p' ->
        system_flow f' p = Ok q -> system_flow f' p' = Ok q' -> q < q')
  /\ system_pressure f' a0 = f_design_esp f.
Proof. exact system_curve_laws. Qed.
Print Assumptions C13_system_curve_inverse.

Example C13_nonvacuous : exists f : fan R, made f
  /\ geti (f_airflow f) 0 = Ok 0.5 /\ f_design_esp f = 125
  /\ sfold run_op [] f = (f, Ok tt).
Proof.
  destruct (psc_total [0.5; 0.3; 0.2] 125 700) as (f & F).
  - discriminate.
  - repeat constructor; lra.
  - lra.
  - exists f. split; [eapply made_psc; eauto|].
    apply init_fan_facts in F as (a0 & _ & _ & _ & A & _ & D & _). rewrite A. auto.
Qed.

(** * C14 *)
Theorem C14_operating_pressure : forall tol sol (f f' : fan R) ops i a a0,
  sound_brentq tol sol -> made f -> constant_flow f ->
  geti (f_airflow f) 0 = Ok a0 -> 0 < a0 -> 0 < f_design_esp f ->
  sfold run_op ops f = (f', Ok tt) -> geti (f_airflow f') i = Ok a -> 0 <= a ->
  (a <= sqrt 3 * a0 ->
     exists x, operating_pressure sol f' i = Ok x
       /\ Rabs (x - f_design_esp f * (a / a0) ^ 2) <= tol)
  /\ (sqrt 3 * a0 < a -> operating_pressure sol f' i = Err ValueError).
Proof. exact operating_pressure_made. Qed.
Print Assumptions C14_operating_pressure.

(** A solver with the assumed behaviour exists. *)
Example C14_nonvacuous : sound_brentq 0 ideal_solvers /\ sound_brentq 0.001 ideal_solvers.
Proof. split; apply ideal_sound; lra. Qed.

(** * C15 *)
Theorem C15_psc_curves : forall sol airflows esp eff (f f' : fan R) ops,
  make_psc_fan airflows esp eff = Ok f ->
  sfold run_op ops f = (f', Ok tt) ->
  (forall i, (i < f_n f')%nat ->
    exists (q : R -> R) bp,
      geti (f_block_pressure f') i = Ok bp
      /\ (forall p, airflow sol f' i (Some p) = Ok (q p))
      /\ (forall p, 0 <= q p)
      /\ (forall p p', p <= p' -> q p' <= q p)
      /\ (forall p, q p = 0 <-> bp <= p))
  /\ (forall a x f'', add_speed a x f' = (f'', Ok tt) ->
       f_n f'' = S (f_n f')
       /\ airflow sol f'' (f_n f') (Some (match x with Some p => p | None => esp end))
          = Ok (Rmax a 0)
       /\ forall i p, (i < f_n f')%nat ->
            airflow sol f'' i (Some p) = airflow sol f' i (Some p)).
Proof. exact psc_fan_laws. Qed.
Print Assumptions C15_psc_curves.

Theorem C15_construction_succeeds : forall airflows esp eff,
  airflows <> [] -> Forall (fun a => 0 < a) airflows -> 0 <= esp ->
  exists f : fan R, make_psc_fan airflows esp eff = Ok f.
Proof. exact psc_total. Qed.
Print Assumptions C15_construction_succeeds.

Example C15_nonvacuous : exists f : fan R, make_psc_fan [0.5; 0.3; 0.2] 125 700 = Ok f.
Proof. apply C15_construction_succeeds; try discriminate; repeat constructor; lra. Qed.

(** * C16 *)
Theorem C16_power_and_airflow_limits : forall sol airflows esp eff mx (f f' : fan R) ops,
  make_ecm_fan airflows esp eff mx = Ok f ->
  sfold run_op ops f = (f', Ok tt) ->
  forall i p, (i < f_n f')%nat ->
  exists a w, geti (f_airflow f') i = Ok a
    /\ power sol f' i (Some p) = Ok w
    /\ (forall m, mx = Some m -> w <= m)
    /\ ((forall m, mx = Some m -> 0 <= m) -> 0 <= a ->
        forall q, airflow sol f' i (Some p) = Ok q ->
          0 <= q <= a /\
          ((mx = None \/ exists m, mx = Some m /\ w < m) -> q = a)).
Proof. exact ecm_fan_laws. Qed.
Print Assumptions C16_power_and_airflow_limits.

Theorem C16_overloaded_design_rejected : forall airflows esp eff m a0,
  geti airflows 0 = Ok a0 -> m < a0 * eff ->
  make_ecm_fan (T:=R) airflows esp eff (Some m) = Err RuntimeError.
Proof. exact ecm_over_limit. Qed.
Print Assumptions C16_overloaded_design_rejected.

Theorem C16_design_within_limit_accepted : forall airflows esp eff mx a0,
  geti airflows 0 = Ok a0 -> a0 <> 0 -> 0 <= esp ->
  (forall m, mx = Some m -> a0 * eff <= m) ->
  exists f : fan R, make_ecm_fan airflows esp eff mx = Ok f.
Proof. exact ecm_total. Qed.
Print Assumptions C16_design_within_limit_accepted.

Theorem C16_design_point : forall sol airflows esp eff mx (f : fan R) a0,
  make_ecm_fan airflows esp eff mx = Ok f -> geti airflows 0 = Ok a0 ->
  0 < eff -> 0 < esp ->
  power sol f 0 (Some esp) = Ok (a0 * eff) /\ airflow sol f 0 (Some esp) = Ok a0.
Proof. exact ecm_design_point. Qed.
Print Assumptions C16_design_point.

Example C16_nonvacuous :
  exists f : fan R, make_ecm_fan [0.5; 0.3] 125 700 (Some 400) = Ok f.
Proof.
  apply C16_design_within_limit_accepted with 0.5; try reflexivity; try lra.
  intros m H. injection H as <-. lra.
Qed.

(** * C17 *)
(** [a0] is the first airflow; the nominal capacity is [a0 / (400 cfm/ton)]. *)
Theorem C17_size_selection : forall k airflows esp (f : fan R) a0,
  make_eere_fan k airflows esp = Ok f -> geti airflows 0 = Ok a0 ->
  let nominal := a0 * ton_ref / (400 * cfm) in
  exists l w, (l <= 2)%nat
    /\ f_index f = Some (l, S l) /\ f_weight f = Some w
    /\ w = (nominal - table_size l) / (table_size (S l) - table_size l)
    /\ f_class f = EEREFan k
    /\ nominal <> table_size 0
    /\ (nominal < table_size 0 -> l = 0%nat)
    /\ (table_size 3 < nominal -> l = 2%nat)
    /\ (table_size 0 < nominal <= table_size 3 ->
          table_size l < nominal <= table_size (S l)).
Proof. exact make_eere_ok. Qed.
Print Assumptions C17_size_selection.

Theorem C17_fails_exactly_at_two_tons_refuted : forall k airflows esp a0,
  geti airflows 0 = Ok a0 -> 0 <= esp -> a0 <> 0 ->
  ((exists f, make_eere_fan k airflows esp = Ok f) <-> a0 <> fr_cfm 800)
  /\ (a0 = fr_cfm 800 -> make_eere_fan k airflows esp = Err AttributeError).
Proof. exact make_eere_fails. Qed.
Print Assumptions C17_fails_exactly_at_two_tons_refuted.

Theorem C17_efficacy_interpolates : forall sol k (f : fan R) l w i p lo hi,
  f_class f = EEREFan k -> f_index f = Some (l, S l) -> f_weight f = Some w ->
  nth_error (e_base k) l = Some lo -> nth_error (e_base k) (S l) = Some hi ->
  efficacy sol f i (Some p) = Ok ((1 - w) * eere_law k lo p + w * eere_law k hi p).
Proof. exact eere_efficacy_interp. Qed.
Print Assumptions C17_efficacy_interpolates.

Theorem C17_table_sizes_reproduced : forall sol k airflows esp (f : fan R) a0 j i p b,
  make_eere_fan k airflows esp = Ok f -> geti airflows 0 = Ok a0 ->
  length (e_base k) = 4%nat ->
  (1 <= j <= 3)%nat -> a0 = fr_cfm (400 * (2 + INR j)) ->
  nth_error (e_base k) j = Some b ->
  efficacy sol f i (Some p) = Ok (eere_law k b p).
Proof. exact eere_efficacy_at_table_size. Qed.
Print Assumptions C17_table_sizes_reproduced.

Example C17_nonvacuous :
  (exists f, make_eere_fan EEREBaselinePSC [fr_cfm 1200; fr_cfm 900] 125 = Ok f)
  /\ length (e_base (EEREBaselinePSC (T:=R))) = 4%nat.
Proof.
  split; [|reflexivity]. pose proof cfm_pos.
  assert (fr_cfm (T:=R) 1200 <> 0) by (unfold fr_cfm; cbn [nmul RNum]; nra).
  destruct (C17_fails_exactly_at_two_tons_refuted EEREBaselinePSC
     [fr_cfm 1200; fr_cfm 900] 125 (fr_cfm 1200)) as (X & _); try reflexivity; auto; try lra.
  apply X. unfold fr_cfm. cbn [nmul RNum]. nra.
Qed.

(** * C18 *)
Theorem C18_psc_efficacy : forall sol airflows (f : fan R) i a a0 esp,
  make_resnet_psc_fan airflows = Ok f ->
  geti airflows i = Ok a -> geti airflows 0 = Ok a0 ->
  efficacy sol f i esp = Ok (psc_law (a / a0)).
Proof. exact resnet_psc_efficacy_eq. Qed.
Print Assumptions C18_psc_efficacy.

Theorem C18_bpm_efficacy : forall sol airflows (f : fan R) i a a0 esp,
  sound_brentq 0 sol -> make_resnet_bpm_fan airflows = Ok f ->
  geti airflows i = Ok a -> geti airflows 0 = Ok a0 -> 0 < a0 -> 0 < a <= sqrt 3 * a0 ->
  let r := a / a0 in
  let dp := fr_inH2O 0.5 * r ^ 2 in
  let s := match esp with Some p => p / dp | None => 1 end in
  0 < dp /\
  efficacy sol f i esp = Ok ((1 - s) * ductless_law r + s * ducted_law r).
Proof. exact resnet_bpm_efficacy_eq. Qed.
Print Assumptions C18_bpm_efficacy.

Theorem C18_laws_at_full_speed_and_monotone :
  psc_law 1 = fr_W_per_cfm 0.414 /\ ducted_law 1 = fr_W_per_cfm 0.281
  /\ (forall r r', r < r' -> psc_law r < psc_law r')
  /\ (forall r r', 0 < r -> r < r' -> ducted_law r < ducted_law r')
  /\ (forall r r', 0 <= r -> r < r' -> ductless_law r < ductless_law r').
Proof.
  exact (conj psc_law_1 (conj ducted_law_1
          (conj psc_law_mono (conj ducted_law_mono ductless_law_mono)))).
Qed.
Print Assumptions C18_laws_at_full_speed_and_monotone.

Theorem C18_bpm_power_below_psc : forall sol airflows (fp fb : fan R) i a a0 p,
  sound_brentq 0 sol ->
  make_resnet_psc_fan airflows = Ok fp -> make_resnet_bpm_fan airflows = Ok fb ->
  geti airflows i = Ok a -> geti airflows 0 = Ok a0 -> 0 < a <= a0 ->
  0 <= p <= fr_inH2O 0.5 * (a / a0) ^ 2 ->
  exists wp wb, power sol fp i (Some p) = Ok wp /\ power sol fb i (Some p) = Ok wb
    /\ wb < wp.
Proof. exact bpm_power_below_psc. Qed.
Print Assumptions C18_bpm_power_below_psc.

Example C18_nonvacuous : sound_brentq 0 ideal_solvers
  /\ (exists f : fan R, make_resnet_psc_fan [0.5; 0.3] = Ok f)
  /\ (exists f : fan R, make_resnet_bpm_fan [0.5; 0.3] = Ok f).
Proof.
  split; [apply ideal_sound; lra|]. pose proof half_inH2O_pos.
  split; eapply simple_init_total with (a0 := 0.5); try reflexivity; auto; lra.
Qed.

(** * C19 *)
Theorem C19_speed_order_map_sorts : forall sol (f : fan R) order,
  get_speed_order_map sol f = Ok order ->
  exists q : nat -> R,
    (forall i, (i < f_n f)%nat -> airflow sol f i (Some 0) = Ok (q i))
    /\ orders_by q (f_n f) order.
Proof. exact speed_order_map_spec. Qed.
Print Assumptions C19_speed_order_map_sorts.

Theorem C19_speed_order_map_exists : forall sol (f : fan R),
  (forall i, (i < f_n f)%nat -> exists q, airflow sol f i (Some 0) = Ok q) ->
  exists order, get_speed_order_map sol f = Ok order.
Proof. exact speed_order_map_total. Qed.
Print Assumptions C19_speed_order_map_exists.

Example C19_nonvacuous : exists (f : fan R) order,
  make_psc_fan [0.5; 0.3; 0.2] 125 700 = Ok f
  /\ get_speed_order_map ideal_solvers f = Ok order.
Proof.
  destruct (C15_construction_succeeds [0.5; 0.3; 0.2] 125 700) as (f & F);
    try discriminate; try (repeat constructor; lra); try lra.
  destruct (C19_speed_order_map_exists ideal_solvers f) as (o & O).
  - intros i Hi.
    destruct (C15_psc_curves ideal_solvers _ _ _ f f [] F eq_refl) as (C & _).
    destruct (C i Hi) as (q & bp & _ & Q & _). eauto.
  - eauto.
Qed.
