(** C48: what becomes of COPs and the heating-on temperature given by the caller. *)
From Coq Require Import Reals QArith Lra Lia Psatz List Bool String.
From Verif.Base Require Import Num Res Tac.
From Verif.Model Require Import Units Util Psychrometrics Conditions Defrost Fan Curves
  Tabular Unit NREL BaseModel Title24 Resnet DXUnit.
From Verif.Spec Require Import NrelSpec UnitSpec.
From Verif.Spec Require Import UnitModels.
From Verif.Proofs Require Import UnitsR NrelProofs Frame StandardProofs UnitProofs UnitProofs2
  UnitProofs3 CopProofs.
Import ListNotations.
Local Open Scope R_scope.

Section Cops.
  Variable psy : psychro R.
  Variable sol : solvers R.
  Notation U := (dxunit R).

  Lemma cop_phase M a (u : U) :
    DXUnit psy sol M a = Ok u ->
    exists v0 v1 v2 v3,
      opt_set (md_set_net_cop M Cooling) (a_net_ccop a) v0 = (v1, Ok tt)
      /\ opt_set (md_set_gross_cop M Cooling) (a_gross_ccop a) v1 = (v2, Ok tt)
      /\ opt_set (md_set_net_cop M Heating) (a_net_hcop a) v2 = (v3, Ok tt)
      /\ opt_set (md_set_gross_cop M Heating) (a_gross_hcop a) v3 = (u, Ok tt).
  Proof.
    unfold DXUnit. intros H. apply rbind_ok in H. destruct H as (u0 & H0 & H).
    unfold ex in H. destruct (finish_unit psy sol M a u0) as [u' [[]|e]] eqn:E; [|discriminate].
    injection H as ->. unfold finish_unit in E.
    do 12 (apply sbind_ok in E; destruct E as (? & ? & _ & E)).
    apply sbind_ok in E. destruct E as (v1 & [] & E1 & E).
    apply sbind_ok in E. destruct E as (v2 & [] & E2 & E).
    apply sbind_ok in E. destruct E as (v3 & [] & E3 & E).
    apply sbind_ok in E. destruct E as (v4 & [] & E4 & E).
    apply sbind_ok in E. destruct E as (v5 & [] & E5 & E).
    apply sread_ok in E5. destruct E5 as [-> _].
    apply sbind_ok in E. destruct E as (v6 & [] & E6 & E).
    apply sread_ok in E6. destruct E6 as [-> _].
    apply sread_ok in E. destruct E as [-> _].
    eauto 10.
  Qed.

  Lemma heating_keeps_cooling v o :
    keeps u_c (opt_set (base_set_net_cop (T:=R) Heating) v)
    /\ keeps u_c (opt_set (base_set_gross_cop (T:=R) Heating) o).
  Proof.
    assert (K : forall set f, keeps u_c (set_comp (T:=R) Heating set f))
      by (intros; unfold set_comp; keep; reflexivity).
    split; apply opt_keeps; intros x;
      unfold base_set_net_cop, base_set_gross_cop, derive_from_net_cop, derive_from_gross_cop;
      repeat (apply K || keep_step); reflexivity.
  Qed.

  Lemma plain_phase M a (u : U) m :
    plain_model sol M -> DXUnit psy sol M a = Ok u ->
    exists v0 v1 v2,
      opt_set (base_set_net_cop m) (net_input m a) v0 = (v1, Ok tt)
      /\ opt_set (base_set_gross_cop m) (gross_input m a) v1 = (v2, Ok tt)
      /\ side_of m u = side_of m v2.
  Proof.
    intros HM H. apply cop_phase in H. destruct H as (v0 & v1 & v2 & v3 & H1 & H2 & H3 & H4).
    destruct (plain_cops sol M HM) as [E1 E2]. rewrite E1 in H1, H3. rewrite E2 in H2, H4.
    destruct m.
    - exists v0, v1, v2. split; [exact H1|]. split; [exact H2|].
      destruct (heating_keeps_cooling (a_net_hcop a) (a_gross_hcop a)) as [K1 K2].
      cbn [side_of]. rewrite <- (keeps_ok u_c _ _ _ _ K1 H3). exact (keeps_ok u_c _ _ _ _ K2 H4).
    - exists v2, v3, u. split; [exact H3|]. split; [exact H4|]. reflexivity.
  Qed.

  (** A given gross COP (3.72 and 3.82 when the caller says nothing) decides the net
      COP, whatever net COP the caller gives. *)
  Lemma gross_cop_decides M a (u : U) m g i :
    plain_model sol M -> DXUnit psy sol M a = Ok u -> gross_input m a = Some (Scalar g) ->
    (i < sd_n (side_of m u))%nat ->
    exists q gq w, nth_error (sd_net_cap (side_of m u)) i = Some q
      /\ entry (sd_gross_cap (side_of m u)) i gq /\ entry (sd_fan_power (side_of m u)) i w
      /\ entry (sd_gross_cop (side_of m u)) i g
      /\ entry (sd_net_cop (side_of m u)) i (q / (gq / g + w)).
  Proof.
    intros HM H Hg Hi. destruct (plain_phase M a u m HM H) as (v0 & v1 & v2 & _ & H2 & E).
    rewrite Hg in H2. cbn [opt_set] in H2. apply base_gross_values in H2. cbv zeta in H2.
    rewrite <- E in H2. destruct H2 as [G F].
    destruct (F i Hi) as (q & gq & w & A1 & A2 & A3 & _ & _ & A4).
    exists q, gq, w. do 3 (split; [assumption|]). split; [|exact A4].
    unfold entry. rewrite G. apply nth_error_repeat. exact Hi.
  Qed.

  Lemma net_cop_honoured M a (u : U) m x i :
    plain_model sol M -> DXUnit psy sol M a = Ok u -> gross_input m a = None ->
    net_input m a = Some (Scalar x) ->
    (i < sd_n (side_of m u))%nat -> entry (sd_net_cop (side_of m u)) i x.
  Proof.
    intros HM H Hg Hn Hi. destruct (plain_phase M a u m HM H) as (v0 & v1 & v2 & H1 & H2 & E).
    rewrite Hg in H2. cbn [opt_set] in H2. apply pair_ok_inj in H2. destruct H2 as [-> _].
    rewrite Hn in H1. cbn [opt_set] in H1. apply base_net_values in H1. cbv zeta in H1.
    rewrite <- E in H1. destruct H1 as [G _].
    unfold entry. rewrite G. apply nth_error_repeat. exact Hi.
  Qed.
End Cops.

(** ** HSPF without a heating-on temperature *)
Lemma fr_F_deg (x : R) : fr_F x = deg_F x.
Proof. unfold fr_F, deg_F. rnum. lra. Qed.

Lemma along_inv f (a b : point R) x v :
  along f a b x = Ok v -> pt_t b <> pt_t a /\ v = line (pt_t a) (f a) (pt_t b) (f b) x.
Proof.
  unfold along. intros H. apply rbind_ok in H. destruct H as (s & Hs & H).
  apply pydiv_inv in Hs. destruct Hs as [Hn ->]. apply Ok_inj in H. subst v.
  cbn [nadd nsub nmul RNum] in *. split; [lra|]. unfold line. reflexivity.
Qed.
Lemma along_ok f (a b : point R) x :
  pt_t b <> pt_t a -> along f a b x = Ok (line (pt_t a) (f a) (pt_t b) (f b) x).
Proof.
  intros H. unfold along. rewrite pydiv_ok by (cbn [nsub RNum]; lra). reflexivity.
Qed.

Lemma test_point_inv q p get (u : dxunit R) pt :
  test_point q p get u = Ok pt ->
  exists c, get (u_conds u) = Some c /\ pt_t pt = ps_db (c_outdoor c)
    /\ q u (Some c) = Ok (pt_q pt) /\ p u (Some c) = Ok (pt_p pt).
Proof.
  unfold test_point, rating. intros H. apply rbind_ok in H. destruct H as (c & Hc & H).
  apply need_ok in Hc.
  apply rbind_ok in H. destruct H as (a & Ha & H).
  apply rbind_ok in H. destruct H as (b & Hb & H). apply Ok_inj in H. subst pt.
  exists c. auto.
Qed.

Section Hspf.
  Variable sol : solvers R.
  Variable M : dxmodel R.
  Notation U := (dxunit R).

  Lemma hspf_dist (u : U) region v :
    hspf sol M u region = Ok v ->
    exists d, List.length (hd_hours d) = 18%nat /\ hspf_with sol M u d = Ok v.
  Proof.
    unfold hspf. intros H. apply rbind_ok in H. destruct H as (d & Hd & H).
    exists d. split; [|exact H].
    assert (K : exists a l c cv zl, HeatingDistribution a l c cv zl = Ok d).
    { destruct (u_standard u).
      - unfold distribution_2017 in Hd.
        do 7 (destruct region as [|region]; try discriminate; eauto 10).
      - unfold distribution_2023 in Hd.
        do 7 (destruct region as [|region]; try discriminate; eauto 10). }
    destruct K as (a & l & c & cv & zl & K). apply distribution_any in K. tauto.
  Qed.

  Lemma first_drybulb (h : list R) : List.length h = 18%nat ->
    exists n tl, combine (heating_drybulbs (T:=R)) h = (fr_F 62, n) :: tl.
  Proof.
    destruct h as [|n h]; [discriminate|]. intros _.
    exists n. eexists. unfold heating_drybulbs. cbn [seq map combine].
    assert (E : (lit 62 - nZ (Z.of_nat 0) * lit 5)%num = 62)
      by (cbn [nsub nmul RNum Z.of_nat]; rnum; lra).
    rewrite E. reflexivity.
  Qed.

  (** One bin of the loop. *)
  Lemma sums_first (u : U) d load H1 H2 H3 bin acc :
    List.length (hd_hours d) = 18%nat ->
    hspf_sums u d load H1 H2 H3 bin = Ok acc -> u_heating_on u = None ->
    exists qf pf,
      hspf_full pt_q H1 H2 H3 (fr_F 62) = Ok qf /\ hspf_full pt_p H1 H2 H3 (fr_F 62) = Ok pf
      /\ pf <> 0 /\ (fr_F 62 <= u_heating_off u \/ qf / pf < 1).
  Proof.
    intros L H Hon. unfold hspf_sums in H. destruct (first_drybulb _ L) as (n & tl & E).
    rewrite E in H. cbn [rfold] in H. apply rbind_ok in H. destruct H as (acc1 & H & _).
    apply rbind_ok in H. destruct H as (bl & _ & H).
    apply rbind_ok in H. destruct H as (qf & Hq & H).
    apply rbind_ok in H. destruct H as (pf & Hp & H).
    apply rbind_ok in H. destruct H as (cop & Hc & H).
    apply rbind_ok in H. destruct H as (df & Hd & H).
    apply pydiv_inv in Hc. destruct Hc as [Hn ->].
    exists qf, pf. do 3 (split; [assumption|]).
    unfold cut_out in Hd. rewrite Hon in Hd. cbn [nleb nltb RNum] in Hd. rewrite lit1_R in Hd.
    destruct (Rleb_spec (fr_F 62) (u_heating_off u)); [left; assumption|].
    destruct (Rltb_spec (qf / pf) 1); [right; assumption|]. discriminate.
  Qed.

  Lemma hspf_without_on (u : U) region v c1 c3 q1 p1 q3 p3 :
    hspf sol M u region = Ok v -> u_heating_on u = None ->
    rc_H1_full (u_conds u) = Some c1 -> rc_H3_full (u_conds u) = Some c3 ->
    net_steady_state_heating_capacity sol M u (Some c1) = Ok q1 ->
    net_steady_state_heating_power sol M u (Some c1) = Ok p1 ->
    net_steady_state_heating_capacity sol M u (Some c3) = Ok q3 ->
    net_steady_state_heating_power sol M u (Some c3) = Ok p3 ->
    let t1 := ps_db (c_outdoor c1) in let t3 := ps_db (c_outdoor c3) in
    deg_F 62 <= u_heating_off u
    \/ line t3 q3 t1 q1 (deg_F 62) / line t3 p3 t1 p1 (deg_F 62) < 1.
  Proof.
    intros H Hon C1 C3 Q1 P1 Q3 P3 t1 t3.
    apply hspf_dist in H. destruct H as (d & L & H). unfold hspf_with in H.
    apply rbind_ok in H. destruct H as (H1 & E1 & H).
    apply rbind_ok in H. destruct H as (H2 & E2 & H).
    apply rbind_ok in H. destruct H as (H3 & E3 & H).
    apply rbind_ok in H. destruct H as (load & _ & H).
    apply rbind_ok in H. destruct H as (acc & Ha & _).
    assert (K : exists bin, hspf_sums u d load H1 H2 H3 bin = Ok acc).
    { destruct (u_staging u).
      - eauto.
      - do 4 (apply rbind_ok in Ha; destruct Ha as (? & _ & Ha)). eauto.
      - do 6 (apply rbind_ok in Ha; destruct Ha as (? & _ & Ha)). eauto. }
    destruct K as [bin K]. destruct (sums_first u d load H1 H2 H3 bin acc L K Hon)
      as (qf & pf & Hq & Hp & Hn & D).
    apply test_point_inv in E1. destruct E1 as (c1' & A1 & A2 & A3 & A4).
    apply test_point_inv in E3. destruct E3 as (c3' & B1 & B2 & B3 & B4).
    assert (c1' = c1) by congruence. assert (c3' = c3) by congruence. subst c1' c3'.
    unfold hspf_full in Hq, Hp. cbn [nleb RNum] in Hq, Hp.
    assert (T : Rleb (fr_F (lit 45)) (fr_F 62) = true)
      by (apply Rleb_true, fr_F_le; rnum; lra).
    rewrite T in Hq, Hp. cbn [orb] in Hq, Hp.
    apply along_inv in Hq. apply along_inv in Hp.
    destruct Hq as [_ Hq]. destruct Hp as [_ Hp].
    rewrite fr_F_deg in D, Hq, Hp.
    destruct D as [D|D]; [left; exact D|right].
    replace (pt_q H1) with q1 in Hq by congruence. replace (pt_q H3) with q3 in Hq by congruence.
    replace (pt_p H1) with p1 in Hp by congruence. replace (pt_p H3) with p3 in Hp by congruence.
    rewrite A2, B2 in Hq, Hp. fold t1 t3 in Hq, Hp. rewrite <- Hq, <- Hp. exact D.
  Qed.
End Hspf.

Section Lost.
  Variable psy : psychro R.
  Variable sol : solvers R.

  Lemma supplied_on_breaks_hspf M a u t region v c1 c3 q1 p1 q3 p3 :
    library_model psy sol M -> DXUnit psy sol M a = Ok u -> a_heating_on a = Some t ->
    hspf sol M u region = Ok v ->
    rc_H1_full (u_conds u) = Some c1 -> rc_H3_full (u_conds u) = Some c3 ->
    net_steady_state_heating_capacity sol M u (Some c1) = Ok q1 ->
    net_steady_state_heating_power sol M u (Some c1) = Ok p1 ->
    net_steady_state_heating_capacity sol M u (Some c3) = Ok q3 ->
    net_steady_state_heating_power sol M u (Some c3) = Ok p3 ->
    let t1 := ps_db (c_outdoor c1) in let t3 := ps_db (c_outdoor c3) in
    deg_F 62 <= u_heating_off u
    \/ line t3 q3 t1 q1 (deg_F 62) / line t3 p3 t1 p1 (deg_F 62) < 1.
  Proof.
    intros HM Hu Hon Hv. eapply hspf_without_on; eauto.
    eapply heating_on_lost; eauto.
  Qed.
End Lost.

(** * Packaged *)
Lemma two_stage_reset psy sol M a u fc fh :
  library_model psy sol M -> DXUnit psy sol M a = Ok u -> u_staging u = TWO_STAGE ->
  (sd_int (u_c u) < match fc with Many l => List.length l | Scalar _ => sd_n (u_c u) end)%nat ->
  forall u', ex (reset_rated_flow_rates psy fc fh) u <> Ok u'.
Proof.
  intros L B S I. apply reset_never_ok; [|exact I].
  apply (no_int_condition psy sol M a u L B). rewrite S. discriminate.
Qed.

Lemma supplied_on_hspf_fails psy sol M a u t region c1 c3 q1 p1 q3 p3 :
  library_model psy sol M -> DXUnit psy sol M a = Ok u -> a_heating_on a = Some t ->
  rc_H1_full (u_conds u) = Some c1 -> rc_H3_full (u_conds u) = Some c3 ->
  net_steady_state_heating_capacity sol M u (Some c1) = Ok q1 ->
  net_steady_state_heating_power sol M u (Some c1) = Ok p1 ->
  net_steady_state_heating_capacity sol M u (Some c3) = Ok q3 ->
  net_steady_state_heating_power sol M u (Some c3) = Ok p3 ->
  u_heating_off u < deg_F 62 ->
  1 <= line (ps_db (c_outdoor c3)) q3 (ps_db (c_outdoor c1)) q1 (deg_F 62)
       / line (ps_db (c_outdoor c3)) p3 (ps_db (c_outdoor c1)) p1 (deg_F 62) ->
  forall v, hspf sol M u region <> Ok v.
Proof.
  intros L B T C1 C3 Q1 P1 Q3 P3 H1 H2 v H.
  destruct (supplied_on_breaks_hspf psy sol M a u t region v c1 c3 q1 p1 q3 p3 L B T H
    C1 C3 Q1 P1 Q3 P3) as [K|K]; lra.
Qed.
