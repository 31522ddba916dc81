(** The fan of a single-stage RESNET unit: its speeds, rated powers and pressures. *)
From Coq Require Import Reals QArith Lra Lia List Bool FunctionalExtensionality.
From Verif.Base Require Import Num Res Tac.
From Verif.Model Require Import Units Util Psychrometrics Conditions Fan Tabular Unit NREL BaseModel Resnet DXUnit.
From Verif.Proofs Require Import UnitsR FanProofs.
Import ListNotations.
Local Open Scope R_scope.

(** * Fans of the RESNET model *)
Definition rclass (f : fan R) : Prop := f_class f = RESNETPSCFan \/ f_class f = RESNETBPMFan.

(** [f'] has the speeds of [f] and possibly more. *)
Definition extends (f f' : fan R) : Prop :=
  exists n l r, f' = w_base n (f_airflow f ++ l) r f.

Lemma extends_trans f f1 f2 : extends f f1 -> extends f1 f2 -> extends f f2.
Proof.
  intros (n & l & r & ->) (n' & l' & r' & ->). exists n', (l ++ l'), r'.
  cbn [f_airflow w_base]. rewrite app_assoc. destruct f; reflexivity.
Qed.

Section Fans.
  Variable sol : solvers R.

  Lemma radd f f' a x u : rclass f -> add_speed a x f = (f', Ok u) ->
    exists r, f' = w_base (S (f_n f)) (f_airflow f ++ [a]) r f.
  Proof.
    intros K H. unfold add_speed in H. apply sbind_ok in H. destruct H as (s1 & f0 & E & H).
    unfold sget in E. apply pair_ok_inj in E. destruct E as [<- <-].
    destruct K as [K|K]; rewrite K in H; apply base_add_ok in H;
      destruct H as (a0 & _ & _ & ->); eexists; reflexivity.
  Qed.

  Lemma geti_app (l l' : list R) i : (i < length l)%nat -> geti (l ++ l') i = geti l i.
  Proof. intros H. unfold geti. rewrite nth_error_app1 by auto. reflexivity. Qed.

  Lemma extends_power f f' k p : rclass f -> extends f f' -> (k < length (f_airflow f))%nat ->
    power sol f' k (Some p) = power sol f k (Some p).
  Proof.
    intros K (n & l & r & ->) L.
    assert (L0 : (0 < length (f_airflow f))%nat) by lia.
    assert (G : geti (f_airflow f ++ l) k = geti (f_airflow f) k) by (apply geti_app; auto).
    assert (G0 : geti (f_airflow f ++ l) 0 = geti (f_airflow f) 0) by (apply geti_app; auto).
    unfold power, efficacy, airflow, resnet_psc_efficacy, resnet_bpm_efficacy, airflow_ratio,
      operating_pressure, airflow_at, airflow, system_flow, eff_num.
    cbn [f_class w_base f_airflow f_design_efficacy f_design_esp f_sysk].
    destruct K as [K|K]; rewrite K, G, G0; reflexivity.
  Qed.

  (** The power of a PSC fan does not depend on the pressure. *)
  Lemma psc_power f k p p' : f_class f = RESNETPSCFan ->
    power sol f k (Some p) = power sol f k (Some p').
  Proof.
    intros K. unfold power, efficacy, airflow. rewrite K. unfold resnet_psc_efficacy, airflow_ratio, airflow.
    rewrite K. reflexivity.
  Qed.

  Lemma rmake motor d f :
    match motor with MotorPSC => make_resnet_psc_fan [d] | MotorBPM => make_resnet_bpm_fan [d] end
      = Ok f ->
    f_class f = match motor with MotorPSC => RESNETPSCFan | MotorBPM => RESNETBPMFan end
    /\ f_airflow f = [d] /\ f_n f = 1%nat /\ d <> 0.
  Proof.
    intros H.
    assert (E : exists k esp e red fe, init_fan k [d] esp e red fe = Ok f /\
      (k = match motor with MotorPSC => RESNETPSCFan | MotorBPM => RESNETBPMFan end)).
    { destruct motor; do 5 eexists; (split; [exact H|reflexivity]). }
    clear H. destruct E as (k & esp & e & red & fe & H & ->).
    unfold init_fan in H. inv_ok. cbn [sfold] in H.
    match type of H with (match ?m ?b with _ => _ end) = _ => destruct (m b) as [f' [x|x]] eqn:E2; [|discriminate] end.
    apply Ok_inj in H. subst f'. apply sbind_ok in E2. destruct E2 as (f1 & y & E2 & E3).
    unfold sret in E3. apply pair_ok_inj in E3. destruct E3 as [-> _].
    assert (K : rclass (blank_fan (T:=R) match motor with MotorPSC => RESNETPSCFan | MotorBPM => RESNETBPMFan end
                  esp e v0 red fe)) by (destruct motor; [left|right]; reflexivity).
    unfold add_speed in E2. apply sbind_ok in E2. destruct E2 as (s1 & f0 & Eg & E2).
    unfold sget in Eg. apply pair_ok_inj in Eg. destruct Eg as [<- <-].
    assert (B : base_add_speed d (blank_fan (T:=R) match motor with MotorPSC => RESNETPSCFan | MotorBPM => RESNETBPMFan end
                  esp e v0 red fe) = (f, Ok y)) by (destruct motor; exact E2).
    apply base_add_ok in B. destruct B as (a0 & B0 & B1 & ->).
    cbn [blank_fan f_airflow app] in B0. unfold geti in B0. cbn in B0. apply Ok_inj in B0. subst a0.
    repeat split; auto.
  Qed.
End Fans.

(** * Steps on the unit's state *)
Ltac ucbn :=
  cbv beta iota delta [
    u_kwargs u_seer u_eer u_hspf u_hcop u_cycling u_ducted u_cooling_off u_defrost u_crank_setpoint
    u_standard u_charge u_staging u_heating_off u_heating_on u_c u_h u_shr u_bf u_ntu u_full_esp u_fan
    u_crank u_conds u_rn
    sd_n sd_full sd_boost sd_int sd_low sd_net_cap sd_gross_cap sd_fan_power sd_net_cop sd_net_power
    sd_gross_power sd_gross_cop sd_airflow sd_esp sd_fan_speed sd_rated_fan_speed sd_flow_per_cap
    sd_fan_efficacy sd_cd
    ws_n ws_full ws_boost ws_int ws_low ws_net_cap ws_gross_cap ws_fan_power ws_net_cop ws_net_power
    ws_gross_power ws_gross_cop ws_airflow ws_esp ws_fan_speed ws_rated_fan_speed ws_flow_per_cap
    ws_fan_efficacy ws_cd
    rn_net rn_gross rn_motor rn_cap17 rn_ratio95 rn_cop82 rn_map
    wr_net wr_gross wr_motor wr_cap17 wr_ratio95 wr_cop82 wr_map
    wu_kwargs wu_seer wu_eer wu_hspf wu_hcop wu_cycling wu_ducted wu_cooling_off wu_defrost
    wu_crank_setpoint wu_standard wu_charge wu_staging wu_heating_off wu_heating_on wu_c wu_h wu_shr
    wu_bf wu_ntu wu_full_esp wu_fan wu_crank wu_conds wu_rn side_of wu_side].
Ltac ucbn_in H :=
  cbv beta iota delta [
    u_kwargs u_seer u_eer u_hspf u_hcop u_cycling u_ducted u_cooling_off u_defrost u_crank_setpoint
    u_standard u_charge u_staging u_heating_off u_heating_on u_c u_h u_shr u_bf u_ntu u_full_esp u_fan
    u_crank u_conds u_rn
    sd_n sd_full sd_boost sd_int sd_low sd_net_cap sd_gross_cap sd_fan_power sd_net_cop sd_net_power
    sd_gross_power sd_gross_cop sd_airflow sd_esp sd_fan_speed sd_rated_fan_speed sd_flow_per_cap
    sd_fan_efficacy sd_cd
    ws_n ws_full ws_boost ws_int ws_low ws_net_cap ws_gross_cap ws_fan_power ws_net_cop ws_net_power
    ws_gross_power ws_gross_cop ws_airflow ws_esp ws_fan_speed ws_rated_fan_speed ws_flow_per_cap
    ws_fan_efficacy ws_cd
    rn_net rn_gross rn_motor rn_cap17 rn_ratio95 rn_cop82 rn_map
    wr_net wr_gross wr_motor wr_cap17 wr_ratio95 wr_cop82 wr_map
    wu_kwargs wu_seer wu_eer wu_hspf wu_hcop wu_cycling wu_ducted wu_cooling_off wu_defrost
    wu_crank_setpoint wu_standard wu_charge wu_staging wu_heating_off wu_heating_on wu_c wu_h wu_shr
    wu_bf wu_ntu wu_full_esp wu_fan wu_crank wu_conds wu_rn side_of wu_side] in H.

Section Steps.
  Variable sol : solvers R.
  Notation U := (dxunit R).

  Lemma side_put_inv m get set i v (s s' : U) b : side_put m get set i v s = (s', Ok b) ->
    s' = wu_side m (set (upd (get (side_of m s)) i (Some v)) (side_of m s)) s
    /\ (i < length (get (side_of m s)))%nat.
  Proof.
    unfold side_put. intros H. apply sbind_ok in H. destruct H as (s1 & x & E & H).
    unfold sget in E. apply pair_ok_inj in E. destruct E as [<- <-].
    apply sbind_ok in H. destruct H as (s1 & l & E & H). apply slift_ok in E. destruct E as [-> E].
    unfold seti in E. destruct (Nat.ltb_spec i (length (get (side_of m s)))); [|discriminate].
    apply Ok_inj in E. subst l. unfold on_side, smod in H. apply pair_ok_inj in H.
    destruct H as [H _]. split; [symmetry; exact H|assumption].
  Qed.
  Lemma put_fan_inv m i k (s s' : U) b : put_fan_speed m i k s = (s', Ok b) ->
    exists l, sd_fan_speed (side_of m s) = Some l /\ (i < length l)%nat /\
    s' = wu_side m (ws_fan_speed (Some (upd l i (Some k))) (side_of m s)) s.
  Proof.
    unfold put_fan_speed. intros H. apply sbind_ok in H. destruct H as (s1 & x & E & H).
    unfold sget in E. apply pair_ok_inj in E. destruct E as [<- <-].
    apply sbind_ok in H. destruct H as (s1 & l & E & H). apply slift_ok in E. destruct E as [-> E].
    apply need_ok in E. apply sbind_ok in H. destruct H as (s1 & l' & E' & H).
    apply slift_ok in E'. destruct E' as [-> E'].
    unfold seti in E'. destruct (Nat.ltb_spec i (length l)); [|discriminate].
    apply Ok_inj in E'. subst l'. unfold on_side, smod in H. apply pair_ok_inj in H.
    destruct H as [H _]. exists l. split; [exact E|]. split; [assumption|symmetry; exact H].
  Qed.
  Lemma put_rated_inv m i k (s s' : U) b : put_rated_fan_speed m i k s = (s', Ok b) ->
    exists l, sd_rated_fan_speed (side_of m s) = Some l /\ (i < length l)%nat /\
    s' = wu_side m (ws_rated_fan_speed (Some (upd l i (Some k))) (side_of m s)) s.
  Proof.
    unfold put_rated_fan_speed. intros H. apply sbind_ok in H. destruct H as (s1 & x & E & H).
    unfold sget in E. apply pair_ok_inj in E. destruct E as [<- <-].
    apply sbind_ok in H. destruct H as (s1 & l & E & H). apply slift_ok in E. destruct E as [-> E].
    apply need_ok in E. apply sbind_ok in H. destruct H as (s1 & l' & E' & H).
    apply slift_ok in E'. destruct E' as [-> E'].
    unfold seti in E'. destruct (Nat.ltb_spec i (length l)); [|discriminate].
    apply Ok_inj in E'. subst l'. unfold on_side, smod in H. apply pair_ok_inj in H.
    destruct H as [H _]. exists l. split; [exact E|]. split; [assumption|symmetry; exact H].
  Qed.
  Lemma on_fan_inv {A} (m : st (fan R) A) (s s' : U) a : on_fan m s = (s', Ok a) ->
    exists f f', u_fan s = Some f /\ m f = (f', Ok a) /\ s' = wu_fan (Some f') s.
  Proof.
    unfold on_fan. destruct (u_fan s) as [f|]; [|discriminate].
    destruct (m f) as [f' r] eqn:E. intros H. apply pair_ok_inj in H || idtac.
    exists f, f'. split; [reflexivity|].
    assert (Hs : wu_fan (Some f') s = s' /\ r = Ok a) by (split; congruence).
    destruct Hs as [Hs ->]. split; [exact E|symmetry; exact Hs].
  Qed.
  Lemma last_inv (s s' : U) k : last_fan_speed s = (s', Ok k) ->
    s' = s /\ exists f, u_fan s = Some f /\ k = Nat.pred (f_n f).
  Proof.
    unfold last_fan_speed. intros H. apply sread_ok in H. destruct H as [-> H]. split; [reflexivity|].
    apply rbind_ok in H. destruct H as (f & E & H). apply need_ok in E. exists f.
    split; [exact E|]. apply Ok_inj in H. auto.
  Qed.
  Lemma on_side_inv m g (s s' : U) b : on_side m g s = (s', Ok b) -> s' = wu_side m (g (side_of m s)) s.
  Proof. unfold on_side, smod. intros H. apply pair_ok_inj in H. destruct H as [H _]. auto. Qed.

  (** Fans with as many airflows as speeds. *)
  Definition rfan (f : fan R) : Prop := rclass f /\ length (f_airflow f) = f_n f /\ (0 < f_n f)%nat.
  Lemma radd_fan f f' a x u : rfan f -> add_speed a x f = (f', Ok u) ->
    rfan f' /\ extends f f' /\ f_class f' = f_class f
    /\ Nat.pred (f_n f') = f_n f /\ geti (f_airflow f') (f_n f) = Ok a.
  Proof.
    intros (K & L & P) H. destruct (radd _ _ _ _ _ K H) as [r ->].
    split; [split; [exact K|split]|]; cbn [f_n f_airflow w_base f_class].
    - rewrite app_length. cbn. lia.
    - lia.
    - split; [exists (S (f_n f)), [a], r; reflexivity|]. split; [reflexivity|]. split; [reflexivity|].
      apply geti_ok. rewrite <- L. apply nth_error_app_last.
  Qed.

  Lemma add_design_inv m i (s s' : U) b : add_design_speed m i s = (s', Ok b) ->
    exists a f f' l, arr (sd_airflow (side_of m s)) i = Ok a /\ u_fan s = Some f
      /\ add_speed a None f = (f', Ok tt) /\ sd_fan_speed (side_of m s) = Some l /\ (i < length l)%nat
      /\ s' = wu_side m (ws_fan_speed (Some (upd l i (Some (Nat.pred (f_n f'))))) (side_of m s))
                (wu_fan (Some f') s).
  Proof.
    unfold add_design_speed. intros H. apply sbind_ok in H. destruct H as (s1 & x & E & H).
    unfold sget in E. apply pair_ok_inj in E. destruct E as [<- <-].
    apply sbind_ok in H. destruct H as (s1 & a & E & H). apply slift_ok in E. destruct E as [-> E].
    apply sbind_ok in H. destruct H as (s1 & [] & E1 & H). apply on_fan_inv in E1.
    destruct E1 as (f & f' & E1 & E2 & ->).
    apply sbind_ok in H. destruct H as (s1 & k & E3 & H). apply last_inv in E3.
    destruct E3 as (-> & f0 & E3 & ->). replace f0 with f' in * by (cbn [u_fan wu_fan] in E3; congruence).
    apply put_fan_inv in H. destruct H as (l & E4 & L & ->).
    exists a, f, f', l. split; [exact E|]. split; [exact E1|]. split; [exact E2|].
    destruct m; split; auto.
  Qed.

  Lemma add_rated_inv m i full (s s' : U) b : add_rated_speed sol m i full s = (s', Ok b) ->
    exists a p f f' l w, arr (sd_airflow (side_of m s)) i = Ok a
      /\ calculate_rated_pressure s a full = Ok p /\ u_fan s = Some f
      /\ add_speed a (Some p) f = (f', Ok tt) /\ sd_rated_fan_speed (side_of m s) = Some l
      /\ (i < length l)%nat /\ (i < length (sd_esp (side_of m s)))%nat
      /\ (i < length (sd_fan_power (side_of m s)))%nat
      /\ power sol f' (Nat.pred (f_n f')) (Some p) = Ok w
      /\ s' = wu_side m
                (ws_fan_power (upd (sd_fan_power (side_of m s)) i (Some w))
                  (ws_rated_fan_speed (Some (upd l i (Some (Nat.pred (f_n f')))))
                    (ws_esp (upd (sd_esp (side_of m s)) i (Some p)) (side_of m s))))
                (wu_fan (Some f') s).
  Proof.
    unfold add_rated_speed. intros H. apply sbind_ok in H. destruct H as (s1 & x & E & H).
    unfold sget in E. apply pair_ok_inj in E. destruct E as [<- <-].
    apply sbind_ok in H. destruct H as (s1 & a & E & H). apply slift_ok in E. destruct E as [-> E].
    apply sbind_ok in H. destruct H as (s1 & p & Ep & H). apply slift_ok in Ep. destruct Ep as [-> Ep].
    apply sbind_ok in H. destruct H as (s1 & [] & E0 & H). apply side_put_inv in E0.
    destruct E0 as (-> & L0).
    apply sbind_ok in H. destruct H as (s1 & [] & E1 & H). apply on_fan_inv in E1.
    destruct E1 as (f & f' & E1 & E2 & ->).
    apply sbind_ok in H. destruct H as (s1 & k & E3 & H). apply last_inv in E3.
    destruct E3 as (-> & f0 & E3 & ->). replace f0 with f' in * by (cbn [u_fan wu_fan] in E3; congruence).
    apply sbind_ok in H. destruct H as (s1 & [] & E4 & H). apply put_rated_inv in E4.
    destruct E4 as (l & E4 & L & ->).
    apply sbind_ok in H. destruct H as (s1 & w & E5 & H). apply sread_ok in E5. destruct E5 as [-> E5].
    apply side_put_inv in H. destruct H as (-> & L2).
    exists a, p, f, f', l, w. apply rbind_ok in E5. destruct E5 as (f1 & E5 & E6). apply need_ok in E5.
    destruct m; cbn [side_of wu_side u_fan wu_fan wu_c wu_h] in *;
      (assert (f1 = f') by congruence); subst f1;
      repeat (split; [first [assumption|reflexivity]|]); reflexivity.
  Qed.
End Steps.
