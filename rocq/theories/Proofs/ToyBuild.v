(** Units built by the constructor, for the examples beside the theorems. *)
From Coq Require Import Reals QArith Lra Psatz Lia List Bool String.
From Verif.Base Require Import Num Res Tac.
From Verif.Model Require Import Units Util Psychrometrics Conditions Defrost Fan Curves
  Tabular Unit NREL BaseModel Title24 Resnet DXUnit.
From Verif.Spec Require Import FanSpec NrelSpec.
From Verif.Proofs Require Import UnitsR FanProofs FanProofs4 NrelProofs MakeCond CopProofs.
Import ListNotations.
Local Open Scope R_scope.

(** Air with a linear enthalpy, and a Newton iteration that stops at 10 C. *)
Definition lin_psy : psychro R := {|
  GetHumRatioFromTWetBulb := fun _ _ _ => Ok 0.0112;
  GetTWetBulbFromHumRatio := fun _ _ _ => Ok 15;
  GetTWetBulbFromRelHum := fun _ _ _ => Ok 16;
  GetMoistAirEnthalpy := fun t w => Ok (1006 * t + 2500000 * w);
  GetHumRatioFromEnthalpyAndTDryBulb := fun h t => Ok ((h - 1006 * t) / 2500000);
  GetMoistAirDensity := fun _ _ _ => Ok 1.2;
  GetSatHumRatio := fun _ _ => Ok 0.02;
  GetSatAirEnthalpy := fun t _ => Ok (1006 * t + 2500000 * 0.02);
  GetTDryBulbFromEnthalpyAndHumRatio := fun _ _ => Ok 20;
  GetRelHumFromTWetBulb := fun _ _ _ => Ok 0.5;
  GetHumRatioFromRelHum := fun _ _ _ => Ok 0.0076
|}.
Definition lin_sol : solvers R := {|
  brentq := fun _ a _ => Ok a;
  newton := fun _ => PDone 10
|}.

(** Airflow per capacity and efficacy of the default fan. *)
Definition fl : R := fr_cfm_per_ton (lit 375).
Definition ef : R := fr_W_per_cfm (lit 0.365).

Lemma fl_val : fl = 375 * (0.028316846592 / 60) / (12000 * (1055.056 / 3600)).
Proof. unfold fl, fr_cfm_per_ton, cfm, ton_ref, btu_h. rnum. field. Qed.
Lemma ef_val : ef = 0.365 / (0.028316846592 / 60).
Proof. unfold ef, fr_W_per_cfm, cfm. rnum. field. Qed.
Lemma fl_pos : 0 < fl. Proof. rewrite fl_val. lra. Qed.
Lemma ef_pos : 0 < ef. Proof. rewrite ef_val. lra. Qed.

Lemma const_fan l a0 :
  geti l 0 = Ok a0 -> a0 <> 0 ->
  exists f : fan R, make_constant_efficacy_fan l (fr_inH2O (lit 0.5)) (EffNum ef) = Ok f
    /\ f_class f = ConstantEfficacyFan /\ f_airflow f = l /\ f_n f = List.length l
    /\ f_design_efficacy f = EffList (repeat ef (List.length l))
    /\ f_ratio f <> [] .
Proof.
  intros E Z.
  assert (P : 0 <= fr_inH2O (T:=R) (lit 0.5)) by (unfold fr_inH2O, inH2O; rnum; lra).
  destruct (more_init_total ConstantEfficacyFan l (fr_inH2O (lit 0.5)) (EffNum ef) (lit 0) (lit 0) a0)
    as (f & F); auto.
  pose proof F as F1. apply init_fan_par0 in F1. destruct F1 as (P0 & K & N).
  assert (A : f_airflow f = l /\ f_design_efficacy f = EffNum ef).
  { clear P0 K N. unfold init_fan in F. inv_ok.
    destruct (sfold _ _ _) as [f1 [u|x]] eqn:Ef; [|discriminate]. inv_ok. subst.
    split; [|apply init_const_eff in Ef; auto].
    assert (G : forall l (f f' : fan R) u, sfold (fun a => add_speed a None) l f = (f', Ok u) ->
      f_airflow f' = (f_airflow f ++ l)%list \/ f_class f <> ConstantEfficacyFan).
    { clear. induction l as [|a l IH]; intros f f' u H; cbn [sfold] in H.
      - apply pair_ok_inj in H. destruct H as [<- _]. left. rewrite app_nil_r. reflexivity.
      - apply sbind_ok in H. destruct H as (f1 & x & H1 & H).
        destruct (f_class f) eqn:K; try (right; congruence). left.
        unfold add_speed in H1. apply sbind_ok in H1. destruct H1 as (f2 & y & H0 & H1).
        unfold sget in H0. apply pair_ok_inj in H0. destruct H0 as [<- <-]. rewrite K in H1.
        apply const_add_ok in H1. destruct H1 as (z & _ & _ & ->).
        apply IH in H. destruct H as [H|H]; [|exfalso; apply H; exact K].
        rewrite H. cbn [f_airflow w_base w_eff]. rewrite <- app_assoc. reflexivity. }
    apply G in Ef. destruct Ef as [Ef|Ef]; [rewrite Ef; reflexivity|exfalso; apply Ef; reflexivity]. }
  destruct A as [A1 A2].
  exists (w_eff (EffList (repeat ef (f_n f))) f).
  unfold make_constant_efficacy_fan. rewrite F. cbn [rbind]. rewrite A2.
  split; [reflexivity|]. cbn [w_eff f_class f_airflow f_n f_design_efficacy f_ratio].
  rewrite N. repeat split; auto.
  destruct P0 as (_ & L2 & _). destruct l; [discriminate|]. intros Q. rewrite Q in L2.
  simpl in *. congruence.
Qed.

Lemma const_power sol l (f : fan R) i a p :
  f_class f = ConstantEfficacyFan -> f_airflow f = l ->
  f_design_efficacy f = EffList (repeat ef (List.length l)) ->
  nth_error l i = Some a -> power sol f i p = Ok (a * ef).
Proof.
  intros K A E H. unfold power. rewrite K. unfold airflow, efficacy. rewrite K, A, E.
  rewrite (proj2 (geti_ok l i a) H). cbn [rbind].
  assert (G : geti (repeat ef (List.length l)) i = Ok ef).
  { apply geti_ok. apply nth_error_repeat. apply nth_error_Some. congruence. }
  rewrite G. reflexivity.
Qed.

(** Constructor arguments: capacities as lists, everything else by default except
    the staging type, the standard, the COPs and the heating-on temperature. *)
Definition const_args (st : staging_type) (std : ahri_version) (qc qh : list R)
    (gc nc gh nh : option (num_or_list R)) (on : option R) : dxargs R :=
  mkArgs (Some st) (Many qc) gc nc None None
      (fr_F (lit 125)) (Some (Many qh)) gh nh None None None on None
      None None None None None None (fr_F (lit 50)) (lit 0) BETWEEN_LOW_FULL
      0 None 0 None true std None None None [].

Definition nones (q : list R) : list (option R) := map (fun _ => None) q.
Definition gross_of (m : mode) (q : list R) : list (option R) :=
  map (fun x => Some (match m with Cooling => x + x * fl * ef
                                 | Heating => x - x * fl * ef end)) q.
Definition cside (q : list R) (first : nat) (gross np nq gq gp : list (option R)) : side R :=
  let n := List.length q in
  mkSide n 0 None 1 (if Nat.ltb 1 n then Some (Nat.pred n) else None) q gross
    (map (fun x => Some (x * fl * ef)) q) np nq gq gp
    (map (fun x => Some (x * fl)) q) (nones q)
    (Some (map Some (seq first n))) (Some (map Some (seq first n))) None [] (lit 0.25).

Definition heat_off (st : staging_type) : R :=
  match st with VARIABLE_SPEED => fr_F (lit (-20)) | _ => fr_F (lit 0) end.

(** The unit with its capacities, fan and (optionally) rating conditions and coil
    data, and COP arrays [c h]. *)
Definition cunit (st : staging_type) (std : ahri_version) (nh : option (num_or_list R))
    (on : option R) (c h : side R) (f : fan R) (esp : option R) (k : rconds R)
    (shr bf ntu : list (option R)) (crank : option R) : dxunit R :=
  mkUnit [] None None None nh BETWEEN_LOW_FULL true (fr_F (lit 125))
    (default_defrost (fr_F (lit 41))) (fr_F (lit 50)) std (lit 0) st (heat_off st)
    (match on with None => Some (heat_off st) | Some _ => None end)
    c h shr bf ntu esp (Some f) crank k no_data.

Definition full_esp (std : ahri_version) (q : R) : res R :=
  match std with
  | AHRI_210_240_2017 =>
      if nleb q (fr_Btuh (lit 29000)) then Ok (fr_inH2O (lit 0.1))
      else if nleb q (fr_Btuh (lit 43000)) then Ok (fr_inH2O (lit 0.15))
      else Ok (fr_inH2O (lit 0.2))
  | AHRI_210_240_2023 => Ok (fr_inH2O (lit 0.5))
  end.


Ltac crunch := cbv -[make_constant_efficacy_fan fl ef fr_cfm_per_ton fr_W_per_cfm fr_inH2O
  fr_Btuh fr_F lit get_rated_full_flow_rated_pressure RNum RNumX default_defrost full_esp
  Rmult Rplus Rminus].

Lemma full_esp_ok (u : dxunit R) p :
  (u_ducted u = true /\ exists q, geti (sd_net_cap (u_c u)) 0 = Ok q
     /\ full_esp (u_standard u) q = Ok p) ->
  get_rated_full_flow_rated_pressure u = Ok p.
Proof.
  intros (D & q & Q & H). unfold get_rated_full_flow_rated_pressure, full_esp in *.
  rewrite D. cbn [negb]. destruct (u_standard u); [|exact H]. rewrite Q. exact H.
Qed.

(** After the capacities and the fan are set. *)
Definition uA st std nh on (qc qh : list R) f : dxunit R :=
  cunit st std nh on (cside qc 0 (nones qc) (nones qc) (nones qc) (nones qc) (nones qc))
    (cside qh (List.length qc) (nones qh) (nones qh) (nones qh) (nones qh) (nones qh))
    f None no_conds (nones qc) (nones qc) (nones qc) None.
(** After the gross capacities. *)
Definition uB st std nh on (qc qh : list R) f p : dxunit R :=
  cunit st std nh on
    (cside qc 0 (gross_of Cooling qc) (nones qc) (nones qc) (nones qc) (nones qc))
    (cside qh (List.length qc) (gross_of Heating qh) (nones qh) (nones qh) (nones qh) (nones qh))
    f (Some p) no_conds (nones qc) (nones qc) (nones qc) None.

Ltac run_fan := 
  crunch;
  match goal with Hf : make_constant_efficacy_fan ?l0 ?e0 ?f0 = Ok _
    |- context [make_constant_efficacy_fan ?l ?e ?f] =>
    change (make_constant_efficacy_fan l e f) with (make_constant_efficacy_fan l0 e0 f0);
    rewrite Hf end;
  crunch; reflexivity.

Definition fan_for (q : list R) (f : fan R) : Prop :=
  make_constant_efficacy_fan (map (fun q => q * fl) q) (fr_inH2O (lit 0.5)) (EffNum ef) = Ok f.

Section Run.
  Variables (st : staging_type) (std : ahri_version) (gc nc gh nh : option (num_or_list R))
    (on : option R) (f : fan R).

  Definition setup (qc qh : list R) : Prop :=
    let a := const_args st std qc qh gc nc gh nh on in
    exists u0, init_unit ConstantDXModel a = Ok u0
     /\ sbind set_placeholder_arrays (fun _ => md_set_net_capacities_and_fan ConstantDXModel
          (a_ccap a) (a_hcap a) (a_fan a)) u0
        = (uA st std nh on qc qh f, Ok tt).

  Lemma setup_1 q1 h1 : fan_for ([q1] ++ [h1]) f -> setup [q1] [h1].
  Proof. intros Hf. red in Hf. eexists. split; [reflexivity|]. run_fan. Qed.
  Lemma setup_2 q1 q2 h1 h2 :
    fan_for ([q1; q2] ++ [h1; h2]) f -> setup [q1; q2] [h1; h2].
  Proof. intros Hf. red in Hf. eexists. split; [reflexivity|]. run_fan. Qed.
  Lemma setup_3 q1 q2 q3 h1 h2 h3 :
    fan_for ([q1; q2; q3] ++ [h1; h2; h3]) f -> setup [q1; q2; q3] [h1; h2; h3].
  Proof. intros Hf. red in Hf. eexists. split; [reflexivity|]. run_fan. Qed.

  Definition gross_step : Base.Res.st (dxunit R) unit :=
    do u <- sget ;;
    sfold (put_gross_capacity Cooling) (seq 0 (sd_n (u_c u))) ;;;
    sfold (put_gross_capacity Heating) (seq 0 (sd_n (u_h u))).
  Lemma gross_1 q1 h1 p :
    gross_step (wu_full_esp (Some p) (uA st std nh on [q1] [h1] f))
     = (uB st std nh on [q1] [h1] f p, Ok tt).
  Proof. crunch. reflexivity. Qed.
  Lemma gross_2 q1 q2 h1 h2 p :
    gross_step (wu_full_esp (Some p) (uA st std nh on [q1;q2] [h1;h2] f))
     = (uB st std nh on [q1;q2] [h1;h2] f p, Ok tt).
  Proof. crunch. reflexivity. Qed.
  Lemma gross_3 q1 q2 q3 h1 h2 h3 p :
    gross_step (wu_full_esp (Some p) (uA st std nh on [q1;q2;q3] [h1;h2;h3] f))
     = (uB st std nh on [q1;q2;q3] [h1;h2;h3] f p, Ok tt).
  Proof. crunch. reflexivity. Qed.
End Run.

(** Enthalpy drop across the coil, the same at every speed. *)
Lemma coil_drop q : 0 < q ->
  exists K, (q + q * fl * ef) / (1 * (q * fl * 1.2)) = K /\ 17200 < K < 17210.
Proof.
  intros Q. eexists. split; [reflexivity|]. pose proof fl_pos as F.
  replace ((q + q * fl * ef) / (1 * (q * fl * 1.2))) with ((1 + fl * ef) / (fl * 1.2))
    by (field; lra).
  assert (E : fl * ef = 375 * 0.365 / (12000 * (1055.056 / 3600))).
  { rewrite fl_val, ef_val. lra. }
  assert (Z : 0 < fl * 1.2) by lra.
  split; apply (Rmult_lt_reg_r (fl * 1.2)); auto;
    (replace ((1 + fl * ef) / (fl * 1.2) * (fl * 1.2)) with (1 + fl * ef) by (field; lra));
    rewrite E, fl_val; lra.
Qed.

Definition inC : psych_state R := default_indoor Cooling.

Lemma coil K qs m q :
  17200 < K < 17210 -> m <> 0 -> q / m = K -> qs = 0.7 * q ->
  exists outlet adp h_i h_o h_a,
    PsychState lin_psy (ps_db inC - qs / (m * 1006)) (ps_p inC)
      [("enthalpy"%string, (1006 * to_C (fr_F (lit 80)) + 2500000 * 0.0112) - q / m)]
    = Ok outlet
    /\ calculate_adp_state lin_psy lin_sol inC outlet = Ok adp
    /\ h_of lin_psy inC = Ok h_i /\ h_of lin_psy outlet = Ok h_o
    /\ h_of lin_psy adp = Ok h_a /\ h_a < h_o < h_i.
Proof.
  intros [B1 B2] M Q ->.
  assert (T : 0.7 * q / (m * 1006) = 0.7 * K / 1006) by (rewrite <- Q; field; lra).
  rewrite T, Q. clear T Q.
  assert (Ti : to_C (T:=R) (fr_F (lit 80)) = 80 / 3).
  { unfold to_C, fr_F. rnum. lra. }
  assert (To : to_C (T:=R) (ps_db inC - 0.7 * K / 1006) = 80 / 3 - 0.7 * K / 1006).
  { change (ps_db inC) with (fr_F (T:=R) (lit 80)). revert Ti. unfold to_C. rnum.
    intros Ti. lra. }
  set (wo := (1006 * to_C (fr_F (lit 80)) + 2500000 * 0.0112 - K
       - 1006 * to_C (ps_db inC - 0.7 * K / 1006)) / 2500000).
  assert (Wo : wo = 0.0112 - 0.3 * K / 2500000).
  { unfold wo. rewrite Ti, To. lra. }
  set (wa := 0.0112 - (0.0112 - wo) / (80 / 3 - (80 / 3 - 0.7 * K / 1006)) * (80 / 3 - 10)).
  assert (Wa : wa = 0.0112 - (50 / 3 * 0.3 * 1006 / 0.7) / 2500000).
  { unfold wa. rewrite Wo.
    replace (80 / 3 - (80 / 3 - 0.7 * K / 1006)) with (K * (0.7 / 1006)) by lra.
    replace (0.0112 - (0.0112 - 0.3 * K / 2500000)) with (K * (0.3 / 2500000)) by lra.
    assert (G : forall a b, b <> 0 -> K * a / (K * b) = a / b)
      by (intros; field; split; [assumption|lra]).
    rewrite G by (apply Rgt_not_eq; lra). lra. }
  eexists. eexists. eexists. eexists. eexists.
  split; [reflexivity|]. split.
  { unfold calculate_adp_state. cbv zeta.
    change (run_prober_pure _ _) with (Ok (A:=R) 10).
    change (hr_of lin_psy inC) with (Ok (A:=R) 0.0112).
    change (hr_of lin_psy _) with (Ok (A:=R) ((1006 * to_C (fr_F (lit 80)) + 2500000 * 0.0112 - K
       - 1006 * to_C (ps_db inC - 0.7 * K / 1006)) / 2500000)).
    change (db_C (put_h _ _)) with (to_C (ps_db inC - 0.7 * K / 1006)).
    change (db_C inC) with (to_C (T:=R) (fr_F (lit 80))).
    rewrite Ti, To.
    cbn [rbind nsub nmul RNum]. rewrite pydiv_ok by (apply Rgt_not_eq; lra). cbn [rbind].
    cbn [nltb RNum].
    destruct (Rltb_spec (80 / 3 - 0.7 * K / 1006) 10) as [C|_]; [exfalso; lra|].
    match goal with |- context [Rltb ?a ?b] => destruct (Rltb_spec a b) as [C|_] end.
    { exfalso. assert (D : wa <= wo) by (rewrite Wa, Wo; lra).
      refine (Rle_not_lt _ _ D _). unfold wa, wo. rewrite Ti, To. exact C. }
    cbn [orb]. reflexivity. }
  split; [reflexivity|]. split; [reflexivity|]. split; [reflexivity|].
  change (db_C _) with (to_C (fr_C (T:=R) 10)) at 1. cbn [snd].
  change (db_C inC) with (to_C (T:=R) (fr_F (lit 80))). rewrite Ti.
  match goal with |- 1006 * _ + 2500000 * ?e < _ < _ =>
    replace e with wa by (unfold wa, wo; rewrite Ti, To; reflexivity) end.
  replace (to_C (T:=R) (fr_C 10)) with 10 by (unfold to_C, fr_C; rnum; lra).
  rewrite Wa. split; lra.
Qed.

(** * The rating conditions *)

Definition rc (m : mode) (k : nat) (q full p : R) (i : nat) (o : option (psych_state R))
    : cond R :=
  flow_cond (match o with Some s => s | None => default_outdoor m end) (default_indoor m)
    i (Some (k + i)%nat) (Some (p * ((q * fl / (full * fl)) * (q * fl / (full * fl)))))
    1.2 1.2 (q * fl) q 1 None.

Lemma rc_ok m (u : dxunit R) k qs g a b c d p i q full o :
  side_of m u = cside qs k g a b c d -> u_full_esp u = Some p ->
  nth_error qs i = Some q -> nth_error qs 0 = Some full -> q <> 0 -> full <> 0 ->
  make_condition lin_psy m u i None o = Ok (rc m k q full p i o).
Proof.
  intros S E Q F Z1 Z2. pose proof fl_pos as L.
  assert (N : forall i q, nth_error qs i = Some q ->
     nth_error (sd_airflow (side_of m u)) i = Some (Some (q * fl))).
  { intros j x Hx. rewrite S. cbn [sd_airflow cside]. rewrite nth_error_map, Hx. reflexivity. }
  unfold rc.
  rewrite (make_condition_ok lin_psy m u i None o q (q * fl) (full * fl) p
     (map Some (seq k (List.length qs))) (Some (k + i)%nat) 1.2 1.2);
    auto; try (apply Rgt_not_eq; lra).
  - rewrite S. exact Q.
  - rewrite S. reflexivity.
  - rewrite nth_error_map. erewrite nth_error_nth' by
      (rewrite seq_length; apply nth_error_Some; congruence).
    rewrite seq_nth by (apply nth_error_Some; congruence). reflexivity.
  - destruct m; reflexivity.
  - apply Rmult_integral_contrapositive_currified; [assumption|apply Rgt_not_eq; lra].
  - apply Rmult_integral_contrapositive_currified; [assumption|apply Rgt_not_eq; lra].
  Unshelve. exact 0%nat.
Qed.

Definition ks_full (qc qh : list R) (p : R) : rconds R :=
  let q := hd 0 qc in let h := hd 0 qh in let k := List.length qc in
  mkConds (Some (rc Cooling 0 q q p 0 None)) (Some (rc Cooling 0 q q p 0 t82))
    (Some (rc Heating k h h p 0 None)) (Some (rc Heating k h h p 0 t35))
    (Some (rc Heating k h h p 0 t17)) (Some (rc Heating k h h p 0 t5))
    None None None None None None None None None None None.

Definition ks (st : staging_type) (qc qh : list R) (p : R) : rconds R :=
  let q := hd 0 qc in let h := hd 0 qh in let k := List.length qc in
  let lc := Nat.pred k in let lh := Nat.pred (List.length qh) in
  let ql := nth lc qc 0 in let hl := nth lh qh 0 in
  let qi := nth 1 qc 0 in let hi := nth 1 qh 0 in
  let vs (c : cond R) := match st with VARIABLE_SPEED => Some c | _ => None end in
  let low (c : cond R) := match st with SINGLE_STAGE => None | _ => Some c end in
  mkConds (Some (rc Cooling 0 q q p 0 None)) (Some (rc Cooling 0 q q p 0 t82))
    (Some (rc Heating k h h p 0 None)) (Some (rc Heating k h h p 0 t35))
    (Some (rc Heating k h h p 0 t17)) (Some (rc Heating k h h p 0 t5))
    (vs (rc Cooling 0 qi q p 1 None)) (vs (rc Cooling 0 qi q p 1 t87))
    (vs (rc Heating k hi h p 1 t35)) None
    (low (rc Cooling 0 ql q p lc None)) (low (rc Cooling 0 ql q p lc t82))
    (low (rc Cooling 0 ql q p lc t67)) (low (rc Heating k hl h p lh t62))
    (low (rc Heating k hl h p lh None)) (low (rc Heating k hl h p lh t35))
    (low (rc Heating k hl h p lh t17)).

Lemma put_ok set m i o (v : dxunit R) k0 k qs g a b c d p q full :
  side_of m v = cside qs k g a b c d -> u_full_esp v = Some p ->
  nth_error qs i = Some q -> nth_error qs 0 = Some full -> q <> 0 -> full <> 0 ->
  put_cond lin_psy set m (Some i) o (wu_conds k0 v)
  = (wu_conds (set (Some (rc m k q full p i o)) k0) v, Ok tt).
Proof.
  intros. unfold put_cond, sbind, sget, slift. cbn [need].
  erewrite rc_ok; [reflexivity|destruct m; eassumption|eassumption..].
Qed.

Ltac putz := eapply put_ok; [reflexivity|reflexivity|reflexivity|reflexivity|assumption|assumption].
Ltac put := apply sbind_ok; eexists; eexists; split; [putz|].
Ltac lastput := etransitivity; [putz|reflexivity].

Section Conds.
  Variables (std : ahri_version) (nh : option (num_or_list R)) (on : option R) (f : fan R) (cr : R).
  Definition uC (st : staging_type) qc qh p : dxunit R :=
    wu_crank (Some cr) (uB st std nh on qc qh f p).
  Definition uD st qc qh p : dxunit R := wu_conds (ks st qc qh p) (uC st qc qh p).

  Lemma conds_esp st qc qh p q :
    nth_error qc 0 = Some q -> full_esp std q = Ok p ->
    reset_full_esp (uC st qc qh p) = (wu_conds no_conds (uC st qc qh p), Ok tt).
  Proof.
    intros Q H. unfold reset_full_esp, sbind, sread.
    rewrite (full_esp_ok _ p); [reflexivity|]. split; [reflexivity|].
    exists q. split; [apply geti_ok; exact Q|exact H].
  Qed.
  Ltac start := unfold set_rating_conditions; apply sbind_ok; eexists; eexists; split;
    [eapply conds_esp; [reflexivity|eassumption]|];
    apply sbind_ok; eexists; eexists; split; [reflexivity|].

  Lemma conds_1 q1 h1 p : full_esp std q1 = Ok p -> q1 <> 0 -> h1 <> 0 ->
    set_rating_conditions lin_psy (uC SINGLE_STAGE [q1] [h1] p)
    = (uD SINGLE_STAGE [q1] [h1] p, Ok tt).
  Proof.
    intros E Q H. start. put. put. put. put. put. put. reflexivity.
  Qed.
  Lemma conds_2 q1 h1 q2 h2 p :
    full_esp std q1 = Ok p -> q1 <> 0 -> h1 <> 0 -> q2 <> 0 -> h2 <> 0 ->
    set_rating_conditions lin_psy (uC TWO_STAGE [q1; q2] [h1; h2] p)
    = (uD TWO_STAGE [q1; q2] [h1; h2] p, Ok tt).
  Proof.
    intros E Q H Q2 H2. start. put. put. put. put. put. put.
    apply sbind_ok. eexists. eexists. split; [reflexivity|].
    apply sbind_ok. eexists. eexists. split; [reflexivity|].
    put. put. put. put. put. put. lastput.
  Qed.
  Lemma conds_3 q1 h1 q2 h2 q3 h3 p :
    full_esp std q1 = Ok p -> q1 <> 0 -> h1 <> 0 -> q2 <> 0 -> h2 <> 0 -> q3 <> 0 -> h3 <> 0 ->
    set_rating_conditions lin_psy (uC VARIABLE_SPEED [q1; q2; q3] [h1; h2; h3] p)
    = (uD VARIABLE_SPEED [q1; q2; q3] [h1; h2; h3] p, Ok tt).
  Proof.
    intros E Q H Q2 H2 Q3 H3. start. put. put. put. put. put. put.
    apply sbind_ok. eexists. eexists. split.
    { cbn [u_staging uC uB cunit wu_crank]. put. put. putz. }
    apply sbind_ok. eexists. eexists. split; [reflexivity|].
    put. put. put. put. put. put. lastput.
  Qed.
End Conds.

(** * Coil data *)

Definition coil_data (s b n : list (option R)) (v : dxunit R) : dxunit R :=
  wu_ntu n (wu_bf b (wu_shr s v)).

Lemma seti_run {A} (l : list A) i x : (i < List.length l)%nat -> seti l i x = Ok (upd l i x).
Proof. intros L. unfold seti. apply Nat.ltb_lt in L. rewrite L. reflexivity. Qed.

Lemma coil_run (v : dxunit R) qs a b c d p i q full get s0 b0 n0 :
  u_c v = cside qs 0 (gross_of Cooling qs) a b c d ->
  get (u_conds v) = Some (rc Cooling 0 q full p i None) ->
  nth_error qs i = Some q -> 0 < q ->
  List.length s0 = List.length qs -> List.length b0 = List.length qs ->
  List.length n0 = List.length qs ->
  exists s1 b1 n1, List.length s1 = List.length qs /\ List.length b1 = List.length qs
    /\ List.length n1 = List.length qs /\ (exists bf, entry b1 i bf /\ 0 < bf < 1)
    /\ set_sensible_at lin_psy lin_sol ConstantDXModel (Some i) get (coil_data s0 b0 n0 v)
       = (coil_data s1 b1 n1 v, Ok tt).
Proof.
  intros U G Q P L1 L2 L3.
  assert (I : (i < List.length qs)%nat) by (apply nth_error_Some; congruence).
  destruct (coil_drop q P) as (K & HK & BK).
  set (g := q + q * fl * ef) in *. set (m := 1 * (q * fl * 1.2)) in *.
  pose proof fl_pos as FL. pose proof ef_pos as EF.
  assert (M : m <> 0).
  { apply Rgt_not_eq. unfold m. assert (0 < q * fl) by (apply Rmult_lt_0_compat; lra). lra. }
  assert (GP : 0 <= g).
  { unfold g. assert (0 <= q * fl * ef) by (apply Rmult_le_pos; [apply Rmult_le_pos|]; lra). lra. }
  destruct (coil K (0.7 * g) m g BK M HK eq_refl)
    as (outlet & adp & hi & ho & ha & E1 & E2 & E3 & E4 & E5 & B1 & B2).
  set (cc := rc Cooling 0 q full p i None) in *.
  assert (GT : forall w, u_c w = u_c v ->
     gross_total_cooling_capacity ConstantDXModel w (Some cc) = Ok g).
  { intros w W. unfold gross_total_cooling_capacity. cbn [cooling_conditions rbind].
    unfold checked_product.
    change (md_gtc ConstantDXModel w cc) with (arr (sd_gross_cap (u_c w)) i).
    rewrite W, U. cbn [sd_gross_cap cside].
    assert (A : arr (gross_of Cooling qs) i = Ok g).
    { apply arr_ok. unfold entry, gross_of. rewrite nth_error_map, Q. reflexivity. }
    rewrite A. cbn [rbind]. change (md_f_gtc ConstantDXModel w cc) with (Ok (A:=R) (lit 1)).
    cbn [rbind]. rewrite lit1_R. cbn [nmul RNum]. rewrite Rmult_1_r. apply limit_check_pos.
    exact GP. }
  set (bf := (ho - ha) / (hi - ha)).
  assert (BF : 0 < bf) by (apply Rdiv_lt_0_compat; lra).
  exists (upd s0 i (Some 0.7)), (upd b0 i (Some bf)), (upd n0 i (Some (- m * ln bf))).
  rewrite !upd_length. split; [auto|]. split; [auto|]. split; [auto|]. split.
  { exists bf. split; [unfold entry; apply upd_same; lia|]. split; [exact BF|].
    unfold bf. apply (Rmult_lt_reg_r (hi - ha)); [lra|].
    replace ((ho - ha) / (hi - ha) * (hi - ha)) with (ho - ha) by (field; lra). lra. }
  unfold set_sensible_at.
  apply sbind_ok. exists (coil_data s0 b0 n0 v), cc. split.
  { apply sread_ok. split; [reflexivity|]. unfold rating.
    change (u_conds (coil_data s0 b0 n0 v)) with (u_conds v). rewrite G. reflexivity. }
  apply sbind_ok. eexists. eexists. split; [reflexivity|].
  apply sbind_ok. exists (coil_data s0 b0 n0 v), 0.7. split; [reflexivity|].
  apply sbind_ok. exists (coil_data s0 b0 n0 v), i. split; [reflexivity|].
  apply sbind_ok. exists (coil_data s0 b0 n0 v), (upd s0 i (Some 0.7)). split.
  { apply slift_ok. split; [reflexivity|].
    change (u_shr (coil_data s0 b0 n0 v)) with s0. apply seti_run. lia. }
  apply sbind_ok. exists (coil_data (upd s0 i (Some 0.7)) b0 n0 v), tt. split; [reflexivity|].
  set (w := coil_data (upd s0 i (Some 0.7)) b0 n0 v).
  unfold calculate_rated_bypass_factor.
  apply sbind_ok. exists w, w. split; [reflexivity|].
  change (c_speed cc) with i. cbv zeta.
  apply sbind_ok. exists w, bf. split.
  { apply slift_ok. split; [reflexivity|].
    assert (A : arr (u_shr w) i = Ok 0.7).
    { apply arr_ok. unfold entry. change (u_shr w) with (upd s0 i (Some 0.7)).
      apply upd_same. lia. }
    rewrite A. cbn [rbind]. rewrite GT by reflexivity. cbn [rbind].
    assert (O : gross_cooling_outlet_state lin_psy ConstantDXModel w (Some cc)
                  (Some (nmul 0.7 g)) = Ok outlet).
    { unfold gross_cooling_outlet_state. cbn [cooling_conditions rbind].
      change (h_of lin_psy (c_indoor cc)) with
        (Ok (1006 * to_C (fr_F (lit 80)) + 2500000 * 0.0112)).
      cbn [rbind]. change (c_mass_airflow cc) with (Some m). cbn [need rbind].
      rewrite GT by reflexivity. cbn [rbind]. rewrite pydiv_ok by auto. cbn [rbind].
      replace (C_p (T:=R)) with 1006 by (unfold C_p; rnum; lra).
      rewrite pydiv_ok by (cbn [nmul RNum]; apply Rmult_integral_contrapositive_currified; [assumption|apply Rgt_not_eq; lra]).
      exact E1. }
    rewrite O. cbn [rbind]. change (c_indoor cc) with inC. rewrite E2. cbn [rbind].
    rewrite E3. cbn [rbind]. rewrite E4. cbn [rbind]. rewrite E5. cbn [rbind].
    cbn [nsub RNum]. apply pydiv_ok. apply Rgt_not_eq. lra. }
  apply sbind_ok. exists w, (upd b0 i (Some bf)). split.
  { apply slift_ok. split; [reflexivity|]. change (u_bf w) with b0. apply seti_run. lia. }
  apply sbind_ok. eexists. exists tt. split; [reflexivity|].
  apply sbind_ok. eexists. exists (- m * ln bf). split.
  { apply slift_ok. split; [reflexivity|]. change (c_mass_airflow cc) with (Some m).
    cbn [need rbind]. unfold pylog. rewrite lit0_R. cbn [nleb RNum].
    destruct (Rleb_spec bf 0) as [C|_]; [exfalso; lra|]. reflexivity. }
  apply sbind_ok. eexists. exists (upd n0 i (Some (- m * ln bf))). split.
  { apply slift_ok. split; [reflexivity|]. change (u_ntu w) with n0. apply seti_run. lia. }
  reflexivity.
Qed.

Definition sensible_ok (st : staging_type) (v : dxunit R) (n : nat) : Prop :=
  exists s b t, List.length s = n /\ List.length b = n /\ List.length t = n
    /\ set_sensible_cooling_variables lin_psy lin_sol ConstantDXModel v
       = (coil_data s b t v, Ok tt).

Section Sensible.
  Variables (std : ahri_version) (nh : option (num_or_list R)) (on : option R) (f : fan R) (cr : R).
  Let V := uD std nh on f cr.

  Lemma sensible_1 q1 h1 p : 0 < q1 ->
    sensible_ok SINGLE_STAGE (V SINGLE_STAGE [q1] [h1] p) 1.
  Proof.
    intros Q. set (v := V SINGLE_STAGE [q1] [h1] p).
    destruct (coil_run v [q1] _ _ _ _ p 0 q1 q1 rc_A_full [None] [None] [None] eq_refl eq_refl
      eq_refl Q eq_refl eq_refl eq_refl) as (s1 & b1 & n1 & L1 & L2 & L3 & _ & R1).
    exists s1, b1, n1. repeat split; auto.
    unfold set_sensible_cooling_variables.
    apply sbind_ok. exists v, v. split; [reflexivity|]. cbv zeta.
    apply sbind_ok. eexists. exists tt. split; [exact R1|]. reflexivity.
  Qed.
  Lemma sensible_2 q1 q2 h1 h2 p : 0 < q1 -> 0 < q2 ->
    sensible_ok TWO_STAGE (V TWO_STAGE [q1; q2] [h1; h2] p) 2.
  Proof.
    intros Q Q2. set (v := V TWO_STAGE [q1; q2] [h1; h2] p).
    destruct (coil_run v [q1; q2] _ _ _ _ p 0 q1 q1 rc_A_full [None; None] [None; None]
      [None; None] eq_refl eq_refl eq_refl Q eq_refl eq_refl eq_refl)
      as (s1 & b1 & n1 & L1 & L2 & L3 & _ & R1).
    destruct (coil_run v [q1; q2] _ _ _ _ p 1 q2 q1 rc_A_low s1 b1 n1 eq_refl eq_refl
      eq_refl Q2 L1 L2 L3) as (s2 & b2 & n2 & M1 & M2 & M3 & _ & R2).
    exists s2, b2, n2. repeat split; auto.
    unfold set_sensible_cooling_variables.
    apply sbind_ok. exists v, v. split; [reflexivity|]. cbv zeta.
    apply sbind_ok. eexists. exists tt. split; [exact R1|].
    apply sbind_ok. eexists. exists tt. split; [reflexivity|]. exact R2.
  Qed.
  Lemma sensible_3 q1 q2 q3 h1 h2 h3 p : 0 < q1 -> 0 < q2 -> 0 < q3 ->
    sensible_ok VARIABLE_SPEED (V VARIABLE_SPEED [q1; q2; q3] [h1; h2; h3] p) 3.
  Proof.
    intros Q Q2 Q3. set (v := V VARIABLE_SPEED [q1; q2; q3] [h1; h2; h3] p).
    destruct (coil_run v [q1; q2; q3] _ _ _ _ p 0 q1 q1 rc_A_full [None; None; None]
      [None; None; None] [None; None; None] eq_refl eq_refl eq_refl Q eq_refl eq_refl eq_refl)
      as (s1 & b1 & n1 & L1 & L2 & L3 & _ & R1).
    destruct (coil_run v [q1; q2; q3] _ _ _ _ p 1 q2 q1 rc_A_int s1 b1 n1 eq_refl eq_refl
      eq_refl Q2 L1 L2 L3) as (s2 & b2 & n2 & M1 & M2 & M3 & _ & R2).
    destruct (coil_run v [q1; q2; q3] _ _ _ _ p 2 q3 q1 rc_A_low s2 b2 n2 eq_refl eq_refl
      eq_refl Q3 M1 M2 M3) as (s3 & b3 & n3 & N1 & N2 & N3 & _ & R3).
    exists s3, b3, n3. repeat split; auto.
    unfold set_sensible_cooling_variables.
    apply sbind_ok. exists v, v. split; [reflexivity|]. cbv zeta.
    apply sbind_ok. eexists. exists tt. split; [exact R1|].
    apply sbind_ok. eexists. exists tt. split.
    { apply sbind_ok. eexists. exists tt. split; [exact R2|]. reflexivity. }
    exact R3.
  Qed.
End Sensible.

(** * COPs *)

Lemma kfan : 0 < fl * ef < 0.04.
Proof.
  assert (E : fl * ef = 375 * 0.365 / (12000 * (1055.056 / 3600))).
  { rewrite fl_val, ef_val. lra. }
  rewrite E. split; lra.
Qed.

Definition gcap (m : mode) (q : R) : R :=
  match m with Cooling => q + q * fl * ef | Heating => q - q * fl * ef end.
Definition fanw (q : R) : R := q * fl * ef.

Lemma gcap_pos m q : 0 < q -> 0 < gcap m q.
Proof. intros Q. pose proof kfan. destruct m; simpl; rewrite Rmult_assoc; nra. Qed.
Lemma fanw_pos q : 0 < q -> 0 < fanw q.
Proof. intros Q. pose proof kfan. unfold fanw. rewrite Rmult_assoc. nra. Qed.

(** One side with its COPs derived from the gross COP [g], or the net COP [x]. *)
Definition by_gross (m : mode) (qs : list R) (k : nat) (g : R) : side R :=
  cside qs k (gross_of m qs)
    (map (fun q => Some (q / (gcap m q / g + fanw q))) qs)
    (map (fun q => Some (gcap m q / g + fanw q)) qs)
    (map (fun q => Some (gcap m q / g)) qs)
    (map (fun _ => Some g) qs).
Definition by_net (m : mode) (qs : list R) (k : nat) (x : R) : side R :=
  cside qs k (gross_of m qs)
    (map (fun _ => Some x) qs)
    (map (fun q => Some (q / x)) qs)
    (map (fun q => Some (q / x - fanw q)) qs)
    (map (fun q => Some (gcap m q / (q / x - fanw q))) qs).

Lemma map_const_repeat {A B} (x : B) (l : list A) : map (fun _ => x) l = repeat x (List.length l).
Proof. induction l; simpl; congruence. Qed.

Lemma gross_phase m (v : dxunit R) qs k a b c d g :
  side_of m v = cside qs k (gross_of m qs) a b c d ->
  (forall q, In q qs -> 0 < q) -> 0 < g ->
  base_set_gross_cop m (Scalar g) v = (wu_side m (by_gross m qs k g) v, Ok tt).
Proof.
  intros S P G.
  set (v1 := wu_side m (ws_gross_cop (repeat (Some g) (sd_n (side_of m v))) (side_of m v)) v).
  change (base_set_gross_cop m (Scalar g) v) with (derive_from_gross_cop m v1).
  rewrite (gross_run m v1 (map (fun q => gcap m q / g) qs)
    (map (fun q => gcap m q / g + fanw q) qs)
    (map (fun q => q / (gcap m q / g + fanw q)) qs)); unfold v1; rewrite ?side_wu, ?S.
  - rewrite wu_wu. unfold grossed, by_gross. rewrite !map_map.
    cbn [sd_n cside]. rewrite <- map_const_repeat. reflexivity.
  - rewrite map_length. reflexivity.
  - rewrite map_length. reflexivity.
  - rewrite map_length. reflexivity.
  - intros i I. change (sd_n _) with (List.length qs) in I.
    destruct (nth_error qs i) as [q|] eqn:Q; [|apply nth_error_None in Q; lia].
    pose proof (P q (nth_error_In _ _ Q)) as Hq.
    pose proof (gcap_pos m q Hq) as G1. pose proof (fanw_pos q Hq) as W1.
    assert (D : 0 < gcap m q / g) by (apply Rdiv_lt_0_compat; lra).
    exists q, (gcap m q), (fanw q), (q / (gcap m q / g + fanw q)), (gcap m q / g + fanw q),
      (gcap m q / g), g.
    unfold rated_at, entry. rewrite !nth_error_map, Q.
    cbn [sd_net_cap sd_gross_cap sd_fan_power sd_gross_cop cside ws_gross_cop sd_n option_map].
    unfold gross_of. rewrite !nth_error_map, Q. cbn [option_map].
    rewrite nth_error_repeat by exact I.
    repeat split; auto; apply Rgt_not_eq; lra.
Qed.

Lemma net_phase m (v : dxunit R) qs k a b c d x :
  side_of m v = cside qs k (gross_of m qs) a b c d ->
  (forall q, In q qs -> 0 < q) -> 0 < x < 20 ->
  base_set_net_cop m (Scalar x) v = (wu_side m (by_net m qs k x) v, Ok tt).
Proof.
  intros S P G.
  set (v1 := wu_side m (ws_net_cop (repeat (Some x) (sd_n (side_of m v))) (side_of m v)) v).
  change (base_set_net_cop m (Scalar x) v) with (derive_from_net_cop m v1).
  rewrite (net_run m v1 (map (fun q => q / x) qs)
    (map (fun q => q / x - fanw q) qs)
    (map (fun q => gcap m q / (q / x - fanw q)) qs)); unfold v1; rewrite ?side_wu, ?S.
  - rewrite wu_wu. unfold with_cops, by_net. rewrite !map_map.
    cbn [sd_n cside]. rewrite <- map_const_repeat. reflexivity.
  - rewrite map_length. reflexivity.
  - rewrite map_length. reflexivity.
  - rewrite map_length. reflexivity.
  - intros i I. change (sd_n _) with (List.length qs) in I.
    destruct (nth_error qs i) as [q|] eqn:Q; [|apply nth_error_None in Q; lia].
    pose proof (P q (nth_error_In _ _ Q)) as Hq.
    assert (D : 0 < q / x - fanw q).
    { pose proof kfan as [K1 K2]. unfold fanw. rewrite Rmult_assoc.
      assert (E : q / x = q * / x) by reflexivity.
      assert (0.05 < / x).
      { replace 0.05 with (/ 20) by lra. apply Rinv_lt_contravar; [|lra].
        apply Rmult_lt_0_compat; lra. }
      rewrite E. nra. }
    exists q, (gcap m q), (fanw q), x, (q / x), (q / x - fanw q),
      (gcap m q / (q / x - fanw q)).
    unfold rated_at, entry. rewrite !nth_error_map, Q.
    cbn [sd_net_cap sd_gross_cap sd_fan_power sd_net_cop cside ws_net_cop sd_n option_map].
    unfold gross_of. rewrite !nth_error_map, Q. cbn [option_map].
    rewrite nth_error_repeat by exact I.
    repeat split; auto; apply Rgt_not_eq; lra.
Qed.

(** COPs given to the constructor: a gross COP decides, else the net one. *)
Definition side_cop (m : mode) (qs : list R) (k : nat) (g n : option R) : side R :=
  match g, n with
  | Some g, _ => by_gross m qs k g
  | None, Some x => by_net m qs k x
  | None, None => by_gross m qs k 1
  end.
Definition good_cop (g n : option R) : Prop :=
  (forall x, g = Some x -> 0 < x) /\ (forall x, n = Some x -> 0 < x < 20)
  /\ (g <> None \/ n <> None).

Lemma cop_run m (v : dxunit R) qs k a b c d g n :
  side_of m v = cside qs k (gross_of m qs) a b c d ->
  (forall q, In q qs -> 0 < q) -> good_cop g n ->
  sbind (opt_set (base_set_net_cop m) (option_map Scalar n))
    (fun _ => opt_set (base_set_gross_cop m) (option_map Scalar g)) v
  = (wu_side m (side_cop m qs k g n) v, Ok tt).
Proof.
  intros S P (G1 & G2 & G3). destruct n as [x|].
  - specialize (G2 x eq_refl). cbn [option_map opt_set].
    apply sbind_ok. eexists. exists tt. split; [eapply net_phase; eauto|].
    destruct g as [y|].
    + specialize (G1 y eq_refl). cbn [option_map opt_set].
      erewrite (gross_phase m _ qs k); [|rewrite side_wu; reflexivity|exact P|exact G1].
      rewrite wu_wu. reflexivity.
    + reflexivity.
  - cbn [option_map opt_set]. apply sbind_ok. exists v, tt. split; [reflexivity|].
    destruct g as [y|]; [|destruct G3; congruence].
    specialize (G1 y eq_refl). cbn [opt_set].
    eapply gross_phase; eauto.
Qed.

(** * The constructed unit *)

Definition built (st : staging_type) (std : ahri_version) (qc qh : list R)
    (gc nc gh nh : option R) (on : option R) (f : fan R) (p cr : R)
    (s b t : list (option R)) : dxunit R :=
  cunit st std (option_map Scalar nh) on (side_cop Cooling qc 0 gc nc)
    (side_cop Heating qh (List.length qc) gh nh) f (Some p) (ks st qc qh p) s b t (Some cr).

Definition args st std qc qh gc nc gh nh on : dxargs R :=
  const_args st std qc qh (option_map Scalar gc) (option_map Scalar nc)
    (option_map Scalar gh) (option_map Scalar nh) on.

Lemma absent_good (g n : option R) : good_cop g n ->
  negb (absent_kw (option_map Scalar n) && absent_kw (option_map Scalar g)) = true.
Proof. intros (_ & _ & H). destruct g, n; try reflexivity. destruct H; congruence. Qed.

Lemma side_cop_cside m qs k g n :
  exists a b c d, side_cop m qs k g n = cside qs k (gross_of m qs) a b c d
    /\ List.length d = List.length qs.
Proof.
  unfold side_cop, by_gross, by_net.
  destruct g, n; do 4 eexists; (split; [reflexivity|apply map_length]).
Qed.

Fixpoint decreasing (l : list R) : Prop :=
  match l with
  | x :: ((y :: _) as l') => y <= x /\ decreasing l'
  | _ => True
  end.
Lemma decreasing_ok l : decreasing l -> check_array_order l = Ok tt.
Proof.
  intros H. unfold check_array_order. apply guard_ok.
  induction l as [|x [|y l] IH]; try reflexivity.
  destruct H as [H1 H2]. specialize (IH H2). simpl tl in *. cbn [combine forallb fst snd].
  apply andb_true_intro. split; [|exact IH].
  cbn [nleb RNum]. destruct (Rleb_spec y x); [reflexivity|contradiction].
Qed.

Lemma build_run st std qc qh gc nc gh nh on f p u0 q s b t :
  let cr := 10 * to_ton q in
  let a := args st std qc qh gc nc gh nh on in
  init_unit ConstantDXModel a = Ok u0 ->
  sbind set_placeholder_arrays (fun _ => md_set_net_capacities_and_fan ConstantDXModel
          (a_ccap a) (a_hcap a) (a_fan a)) u0
    = (uA st std (option_map Scalar nh) on qc qh f, Ok tt) ->
  nth_error qc 0 = Some q -> full_esp std q = Ok p ->
  gross_step (wu_full_esp (Some p) (uA st std (option_map Scalar nh) on qc qh f))
     = (uB st std (option_map Scalar nh) on qc qh f p, Ok tt) ->
  set_rating_conditions lin_psy (uC std (option_map Scalar nh) on f cr st qc qh p)
    = (uD std (option_map Scalar nh) on f cr st qc qh p, Ok tt) ->
  List.length s = List.length qc ->
  set_sensible_cooling_variables lin_psy lin_sol ConstantDXModel
     (uD std (option_map Scalar nh) on f cr st qc qh p)
    = (coil_data s b t (uD std (option_map Scalar nh) on f cr st qc qh p), Ok tt) ->
  (forall x, In x qc -> 0 < x) -> (forall x, In x qh -> 0 < x) ->
  good_cop gc nc -> good_cop gh nh -> decreasing qc -> decreasing qh ->
  DXUnit lin_psy lin_sol ConstantDXModel a
  = Ok (built st std qc qh gc nc gh nh on f p cr s b t).
Proof.
  intros cr a I A Q E B C LS D P1 P2 G1 G2 O1 O2.
  unfold DXUnit. rewrite I. cbn [rbind]. unfold ex.
  match goal with |- match ?m with _ => _ end = _ =>
    enough (R : m = (built st std qc qh gc nc gh nh on f p cr s b t, Ok tt)) by (rewrite R; reflexivity) end.
  unfold finish_unit.
  apply sbind_ok in A. destruct A as (w1 & z & A1 & A2). destruct z.
  apply sbind_ok. exists w1, tt. split; [exact A1|].
  apply sbind_ok. eexists. exists tt. split; [exact A2|].
  apply sbind_ok. exists (wu_full_esp (Some p) (uA st std (option_map Scalar nh) on qc qh f)), tt.
  split.
  { unfold reset_full_esp, sbind, sread. rewrite (full_esp_ok _ p); [reflexivity|].
    split; [reflexivity|]. exists q. split; [apply geti_ok; exact Q|exact E]. }
  unfold gross_step in B.
  apply sbind_ok in B. destruct B as (w2 & w3 & B1 & B2).
  apply pair_ok_inj in B1. destruct B1 as [<- <-].
  apply sbind_ok in B2. destruct B2 as (w4 & z & B2 & B3). destruct z.
  apply sbind_ok. eexists. eexists. split; [reflexivity|].
  apply sbind_ok. exists w4, tt. split; [exact B2|].
  apply sbind_ok. eexists. exists tt. split; [exact B3|].
  apply sbind_ok. exists (uB st std (option_map Scalar nh) on qc qh f p), cr. split.
  { change (a_crank a) with (@None R). apply sread_ok. split; [reflexivity|].
    change (sd_net_cap (u_c (uB st std (option_map Scalar nh) on qc qh f p))) with qc.
    change (sd_full (u_c (uB st std (option_map Scalar nh) on qc qh f p))) with 0%nat.
    rewrite (proj2 (geti_ok qc 0 q) Q). cbn [rbind]. unfold cr. f_equal. cbn [nmul RNum].
    f_equal. rnum. lra. }
  apply sbind_ok. eexists. exists tt. split; [reflexivity|].
  apply sbind_ok. eexists. exists tt. split; [exact C|].
  apply sbind_ok. eexists. exists tt. split; [exact D|].
  set (v := coil_data s b t _).
  apply sbind_ok. exists v, tt. split.
  { apply slift_ok. split; [reflexivity|]. apply guard_ok. apply absent_good. exact G1. }
  apply sbind_ok. exists v, tt. split.
  { apply slift_ok. split; [reflexivity|]. apply guard_ok. apply absent_good. exact G2. }
  pose proof (cop_run Cooling v qc 0 _ _ _ _ gc nc eq_refl P1 G1) as R1.
  apply sbind_ok in R1. destruct R1 as (v1 & z & R1 & R2). destruct z.
  apply sbind_ok. exists v1, tt. split; [exact R1|].
  apply sbind_ok. eexists. exists tt. split; [exact R2|].
  set (v2 := wu_side Cooling _ v).
  pose proof (cop_run Heating v2 qh (List.length qc) _ _ _ _ gh nh eq_refl P2 G2) as R3.
  apply sbind_ok in R3. destruct R3 as (v3 & z & R3 & R4). destruct z.
  apply sbind_ok. exists v3, tt. split; [exact R3|].
  apply sbind_ok. eexists. exists tt. split; [exact R4|].
  set (v4 := wu_side Heating _ v2).
  destruct (side_cop_cside Cooling qc 0 gc nc) as (a1 & a2 & a3 & a4 & S1 & _).
  destruct (side_cop_cside Heating qh (List.length qc) gh nh) as (b1 & b2 & b3 & b4 & S2 & LB).
  assert (U1 : u_c v4 = cside qc 0 (gross_of Cooling qc) a1 a2 a3 a4) by (rewrite <- S1; reflexivity).
  assert (U2 : u_h v4 = cside qh (List.length qc) (gross_of Heating qh) b1 b2 b3 b4)
    by (rewrite <- S2; reflexivity).
  apply sbind_ok. exists v4, tt. split.
  { apply sread_ok. split; [reflexivity|]. unfold check_array_lengths, check_length.
    rewrite U1, U2. change (u_shr v4) with s.
    cbn [sd_net_cap sd_n sd_gross_cop cside]. rewrite LS, LB, !Nat.eqb_refl. reflexivity. }
  apply sbind_ok. exists v4, tt. split.
  { apply sread_ok. split; [reflexivity|]. rewrite U1. apply decreasing_ok. exact O1. }
  apply sread_ok. split; [reflexivity|]. rewrite U2. apply decreasing_ok. exact O2.
Qed.

(** Units of one, two and three speeds. *)
Section Built.
  Variables (std : ahri_version) (gc nc gh nh on : option R).
  Hypotheses (GC : good_cop gc nc) (GH : good_cop gh nh).

  Definition builds (st : staging_type) (qc qh : list R) : Prop :=
    exists f p cr s b t,
      DXUnit lin_psy lin_sol ConstantDXModel (args st std qc qh gc nc gh nh on)
        = Ok (built st std qc qh gc nc gh nh on f p cr s b t)
      /\ f_class f = ConstantEfficacyFan
      /\ f_airflow f = map (fun q => q * fl) (qc ++ qh)
      /\ f_design_efficacy f = EffList (repeat ef (List.length qc + List.length qh))
      /\ full_esp std (hd 0 qc) = Ok p.

  Lemma esp_any q : exists p, full_esp std q = Ok p.
  Proof. unfold full_esp. destruct std; repeat (destruct (nleb _ _)); eauto. Qed.

  Lemma fan_any q l : 0 < q -> exists f, fan_for (q :: l) f
     /\ f_class f = ConstantEfficacyFan
     /\ f_airflow f = map (fun q => q * fl) (q :: l)
     /\ f_design_efficacy f = EffList (repeat ef (List.length (q :: l))).
  Proof.
    intros Q. pose proof fl_pos.
    destruct (const_fan (map (fun q => q * fl) (q :: l)) (q * fl)) as (f & F & K & A & N & D & _).
    - reflexivity.
    - apply Rgt_not_eq. apply Rmult_lt_0_compat; lra.
    - exists f. rewrite map_length in D. auto.
  Qed.

  Lemma built_1 q1 h1 : 0 < q1 -> 0 < h1 -> builds SINGLE_STAGE [q1] [h1].
  Proof.
    intros Q H. destruct (fan_any q1 [h1] Q) as (f & F & K & A & D).
    destruct (esp_any q1) as (p & E).
    destruct (setup_1 SINGLE_STAGE std (option_map Scalar gc) (option_map Scalar nc)
      (option_map Scalar gh) (option_map Scalar nh) on f q1 h1 F) as (u0 & I & S).
    set (cr := 10 * to_ton q1).
    destruct (sensible_1 std (option_map Scalar nh) on f cr q1 h1 p Q)
      as (s & b & t & L1 & L2 & L3 & R1).
    exists f, p, cr, s, b, t. split; [|auto].
    apply (build_run SINGLE_STAGE std [q1] [h1] gc nc gh nh on f p u0 q1); auto.
    - apply conds_1; auto; apply Rgt_not_eq; assumption.
    - intros x [<-|[]]; assumption.
    - intros x [<-|[]]; assumption.
    - exact Logic.I.
    - exact Logic.I.
  Qed.

  Lemma built_2 q1 q2 h1 h2 : 0 < q2 <= q1 -> 0 < h2 <= h1 ->
    builds TWO_STAGE [q1; q2] [h1; h2].
  Proof.
    intros Q H. assert (Q1 : 0 < q1) by lra. destruct (fan_any q1 [q2; h1; h2] Q1) as (f & F & K & A & D).
    destruct (esp_any q1) as (p & E).
    destruct (setup_2 TWO_STAGE std (option_map Scalar gc) (option_map Scalar nc)
      (option_map Scalar gh) (option_map Scalar nh) on f q1 q2 h1 h2 F) as (u0 & I & S).
    set (cr := 10 * to_ton q1).
    destruct (sensible_2 std (option_map Scalar nh) on f cr q1 q2 h1 h2 p Q1 (proj1 Q))
      as (s & b & t & L1 & L2 & L3 & R1).
    exists f, p, cr, s, b, t. split; [|auto].
    apply (build_run TWO_STAGE std [q1; q2] [h1; h2] gc nc gh nh on f p u0 q1); auto.
    - apply conds_2; auto; apply Rgt_not_eq; lra.
    - intros x [<-|[<-|[]]]; lra.
    - intros x [<-|[<-|[]]]; lra.
    - simpl. split; [lra|exact Logic.I].
    - simpl. split; [lra|exact Logic.I].
  Qed.

  Lemma built_3 q1 q2 q3 h1 h2 h3 : 0 < q3 <= q2 -> q2 <= q1 -> 0 < h3 <= h2 -> h2 <= h1 ->
    builds VARIABLE_SPEED [q1; q2; q3] [h1; h2; h3].
  Proof.
    intros Q Q' H H'. assert (Q1 : 0 < q1) by lra. assert (Q2 : 0 < q2) by lra.
    destruct (fan_any q1 [q2; q3; h1; h2; h3] Q1) as (f & F & K & A & D).
    destruct (esp_any q1) as (p & E).
    destruct (setup_3 VARIABLE_SPEED std (option_map Scalar gc) (option_map Scalar nc)
      (option_map Scalar gh) (option_map Scalar nh) on f q1 q2 q3 h1 h2 h3 F) as (u0 & I & S).
    set (cr := 10 * to_ton q1).
    destruct (sensible_3 std (option_map Scalar nh) on f cr q1 q2 q3 h1 h2 h3 p Q1 Q2 (proj1 Q))
      as (s & b & t & L1 & L2 & L3 & R1).
    exists f, p, cr, s, b, t. split; [|auto].
    apply (build_run VARIABLE_SPEED std [q1; q2; q3] [h1; h2; h3] gc nc gh nh on f p u0 q1); auto.
    - apply conds_3; auto; apply Rgt_not_eq; lra.
    - intros x [<-|[<-|[<-|[]]]]; lra.
    - intros x [<-|[<-|[<-|[]]]]; lra.
    - simpl. repeat split; lra.
    - simpl. repeat split; lra.
  Qed.
End Built.
