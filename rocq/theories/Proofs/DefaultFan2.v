(** C78: the default fans of the base and Title 24 models. *)
From Coq Require Import Reals QArith Lra Lia List Bool String.
From Verif.Base Require Import Num Res Tac.
From Verif.Model Require Import Units Util Psychrometrics Conditions Defrost Fan Curves
  Tabular Unit NREL BaseModel Title24 Resnet DXUnit.
From Verif.Spec Require Import NrelSpec UnitModels DefaultSpec.
From Verif.Proofs Require Import UnitsR FanProofs MakeCond Frame StandardProofs UnitProofs
  UnitProofs2 DefaultFan.
Import ListNotations.
Local Open Scope R_scope.

(** * Constant efficacy fans *)
Lemma cef_airflow : forall l (f f' : fan R) u, f_class f = ConstantEfficacyFan ->
  sfold (fun a => add_speed a None) l f = (f', Ok u) -> f_airflow f' = (f_airflow f ++ l)%list.
Proof.
  induction l as [|a l IH]; intros f f' u K H; cbn [sfold] in H.
  - apply pair_ok_inj in H. destruct H as [<- _]. rewrite app_nil_r. reflexivity.
  - apply sbind_ok in H. destruct H as (f1 & x & H1 & H).
    unfold add_speed in H1. apply sbind_ok in H1. destruct H1 as (f2 & y & H0 & H1).
    unfold sget in H0. apply pair_ok_inj in H0. destruct H0 as [<- <-]. rewrite K in H1.
    apply const_add_ok in H1. destruct H1 as (z & _ & _ & ->).
    apply IH in H; [|exact K]. rewrite H. cbn [f_airflow w_base w_eff]. rewrite <- app_assoc. reflexivity.
Qed.

Definition effs (l : list R) (e : efficacy_attr R) : list R :=
  match e with EffNum x => repeat x (List.length l) | EffList es => es end.

Lemma cef_inv l p e (f : fan R) : make_constant_efficacy_fan l p e = Ok f ->
  f_class f = ConstantEfficacyFan /\ f_airflow f = l /\ f_design_efficacy f = EffList (effs l e).
Proof.
  unfold make_constant_efficacy_fan. intros H. apply rbind_ok in H. destruct H as (g & G & H).
  pose proof G as G1. apply init_fan_par0 in G1. destruct G1 as (_ & K & N).
  assert (A : f_airflow g = l /\ f_design_efficacy g = e).
  { clear K N H. unfold init_fan in G. inv_ok.
    destruct (sfold _ _ _) as [f1 [u|x]] eqn:Ef; [|discriminate]. inv_ok. subst.
    split; [|apply init_const_eff in Ef; auto].
    apply cef_airflow in Ef; [exact Ef|reflexivity]. }
  destruct A as [A1 A2]. rewrite A2 in H. destruct e as [x|es]; apply Ok_inj in H; subst f.
  - cbn [w_eff f_class f_airflow f_design_efficacy effs]. rewrite N. auto.
  - auto.
Qed.

Lemma cef_serves sol l p e (f : fan R) k v w :
  make_constant_efficacy_fan l p e = Ok f ->
  nth_error l k = Some v -> nth_error (effs l e) k = Some w ->
  forall q, airflow sol f k q = Ok v /\ power sol f k q = Ok (v * w).
Proof.
  intros F V W q. apply cef_inv in F. destruct F as (K & A & D).
  unfold power, airflow, efficacy. rewrite K, A, D.
  rewrite (proj2 (geti_ok _ _ _) V), (proj2 (geti_ok _ _ _) W). split; reflexivity.
Qed.

(** * One pass of the loop *)
Definition push_to (k : nat) (l : option (list (option nat))) : option (list (option nat)) :=
  match l with Some l => Some (l ++ [Some k])%list | None => None end.
Definition fan_put (m : mode) (i : nat) (air pw : R) (k : nat) : st (dxunit R) unit :=
  side_put m sd_airflow ws_airflow i air ;;;
  side_put m sd_fan_power ws_fan_power i pw ;;;
  on_side m (fun s => ws_rated_fan_speed (push_to k (sd_rated_fan_speed s))
                        (ws_fan_speed (push_to k (sd_fan_speed s)) s)).

Lemma fan_put_inv m i air pw k (u u' : dxunit R) :
  fan_put m i air pw k u = (u', Ok tt) ->
  (i < List.length (sd_airflow (side_of m u)))%nat /\ (i < List.length (sd_fan_power (side_of m u)))%nat
  /\ side_of (other m) u' = side_of (other m) u /\ u_fan u' = u_fan u
  /\ let s := side_of m u in let s' := side_of m u' in
     sd_n s' = sd_n s /\ sd_net_cap s' = sd_net_cap s /\ sd_flow_per_cap s' = sd_flow_per_cap s
     /\ sd_airflow s' = upd (sd_airflow s) i (Some air)
     /\ sd_fan_power s' = upd (sd_fan_power s) i (Some pw)
     /\ sd_fan_speed s' = push_to k (sd_fan_speed s)
     /\ sd_rated_fan_speed s' = push_to k (sd_rated_fan_speed s).
Proof.
  unfold fan_put. intros H.
  apply sbind_ok in H. destruct H as (u1 & [] & E1 & H).
  apply sbind_ok in H. destruct H as (u2 & [] & E2 & H).
  apply side_put_inv in E1. destruct E1 as [L1 ->].
  apply side_put_inv in E2. destruct E2 as [L2 ->]. rewrite side_wu in L2.
  unfold on_side, smod in H. apply pair_ok_inj in H. destruct H as [<- _].
  split; [exact L1|]. split; [exact L2|]. destruct m; repeat split.
Qed.

Lemma fan_loop m flow eff first : forall l k (u u' : dxunit R) fs rs,
  sd_fan_speed (side_of m u) = Some fs -> sd_rated_fan_speed (side_of m u) = Some rs ->
  sfold (base_fan_step m flow eff first) (combine (seq k (List.length l)) l) u = (u', Ok tt) ->
  side_of (other m) u' = side_of (other m) u /\ u_fan u' = u_fan u
  /\ let s := side_of m u in let s' := side_of m u' in
     sd_n s' = sd_n s /\ sd_net_cap s' = sd_net_cap s
     /\ sd_fan_speed s' = Some (fs ++ map (fun i => Some (first + i)%nat) (seq k (List.length l)))%list
     /\ sd_rated_fan_speed s' = Some (rs ++ map (fun i => Some (first + i)%nat) (seq k (List.length l)))%list
     /\ (forall j, (j < k)%nat -> nth_error (sd_airflow s') j = nth_error (sd_airflow s) j
                  /\ nth_error (sd_fan_power s') j = nth_error (sd_fan_power s) j)
     /\ (forall i q, nth_error l i = Some q ->
           entry (sd_airflow s') (k + i) (q * flow)
           /\ entry (sd_fan_power s') (k + i) (q * flow * eff)).
Proof.
  induction l as [|x l IH]; intros k u u' fs rs FS RS H; cbn [List.length seq combine sfold] in H.
  - apply pair_ok_inj in H. destruct H as [<- _]. cbn [List.length seq map]. rewrite !app_nil_r.
    cbv zeta. repeat split; auto; destruct i; discriminate.
  - apply sbind_ok in H. destruct H as (u1 & [] & E & H).
    change (fan_put m k (x * flow) (x * flow * eff) (first + k) u = (u1, Ok tt)) in E.
    apply fan_put_inv in E. cbv zeta in E. destruct E as (L1 & L2 & O & F & N & C & _ & A & P & S1 & S2).
    rewrite FS in S1. rewrite RS in S2. cbn [push_to] in S1, S2.
    destruct (IH _ _ _ _ _ S1 S2 H) as (O' & F' & N' & C' & S1' & S2' & B & D). clear IH H.
    cbv zeta. split; [congruence|]. split; [congruence|]. split; [congruence|]. split; [congruence|].
    cbn [List.length seq map]. rewrite S1', S2', <- !app_assoc. cbn [app].
    split; [reflexivity|]. split; [reflexivity|]. split.
    + intros j J. destruct (B j) as [B1 B2]; [lia|]. rewrite B1, B2, A, P.
      split; apply upd_other; lia.
    + intros i q Q. destruct i as [|i]; cbn [nth_error] in Q.
      * injection Q as ->. rewrite Nat.add_0_r. destruct (B k) as [B1 B2]; [lia|].
        unfold entry. rewrite B1, B2, A, P. split; apply upd_same; assumption.
      * replace (k + S i)%nat with (S k + i)%nat by lia. apply D. exact Q.
Qed.

(** * The base model's fan *)
Lemma base_fan_inv (u u' : dxunit R) :
  base_set_fan None u = (u', Ok tt) ->
  let qc := sd_net_cap (u_c u) in let qh := sd_net_cap (u_h u) in
  let fl := fr_cfm_per_ton (lit 375) in let ef := fr_W_per_cfm (lit 0.365) in
  sd_net_cap (u_c u') = qc /\ sd_net_cap (u_h u') = qh
  /\ (forall i q, nth_error qc i = Some q ->
        entry (sd_airflow (u_c u')) i (q * fl) /\ entry (sd_fan_power (u_c u')) i (q * fl * ef))
  /\ (forall i q, nth_error qh i = Some q ->
        entry (sd_airflow (u_h u')) i (q * fl) /\ entry (sd_fan_power (u_h u')) i (q * fl * ef))
  /\ sd_fan_speed (u_c u') = Some (map Some (seq 0 (List.length qc)))
  /\ sd_rated_fan_speed (u_c u') = Some (map Some (seq 0 (List.length qc)))
  /\ sd_fan_speed (u_h u') = Some (map Some (seq (List.length qc) (List.length qh)))
  /\ sd_rated_fan_speed (u_h u') = Some (map Some (seq (List.length qc) (List.length qh)))
  /\ exists f, u_fan u' = Some f
     /\ make_constant_efficacy_fan (map (fun q => q * fl) (qc ++ qh)) (fr_inH2O (lit 0.5)) (EffNum ef) = Ok f.
Proof.
  unfold base_set_fan. intros H.
  apply sbind_ok in H. destruct H as (s1 & [] & E1 & H). unfold on_side, smod in E1.
  apply pair_ok_inj in E1. destruct E1 as [<- _].
  apply sbind_ok in H. destruct H as (s2 & [] & E2 & H). unfold on_side, smod in E2.
  apply pair_ok_inj in E2. destruct E2 as [<- _].
  match type of H with _ ?v0 = _ => set (v := v0) in H end.
  assert (V : sd_net_cap (u_c v) = sd_net_cap (u_c u) /\ sd_net_cap (u_h v) = sd_net_cap (u_h u)
    /\ sd_fan_speed (side_of Cooling v) = Some [] /\ sd_rated_fan_speed (side_of Cooling v) = Some []
    /\ sd_fan_speed (side_of Heating v) = Some [] /\ sd_rated_fan_speed (side_of Heating v) = Some [])
    by (repeat split).
  clearbody v. destruct V as (V1 & V2 & V3 & V4 & V5 & V6).
  apply sbind_ok in H. destruct H as (s3 & y & E3 & H). unfold sget in E3.
  apply pair_ok_inj in E3. destruct E3 as [<- <-].
  apply sbind_ok in H. destruct H as (s4 & [] & E4 & H).
  apply sbind_ok in H. destruct H as (s5 & [] & E5 & H).
  apply sbind_ok in H. destruct H as (s6 & f & E6 & H). apply slift_ok in E6. destruct E6 as [-> E6].
  unfold smod in H. apply pair_ok_inj in H. destruct H as [<- _].
  unfold enumerate in E4, E5. rewrite V1 in E4, E5, E6. rewrite V2 in E5, E6.
  destruct (fan_loop Cooling _ _ _ _ _ _ _ [] [] V3 V4 E4)
    as (O4 & F4 & N4 & C4 & S4 & T4 & _ & D4).
  cbn [other] in O4. rewrite <- O4 in V5, V6.
  destruct (fan_loop Heating _ _ _ _ _ _ _ [] [] V5 V6 E5)
    as (O5 & F5 & N5 & C5 & S5 & T5 & _ & D5).
  assert (MS : forall a n, map (fun i => Some (a + i)%nat) (seq 0 n) = map Some (seq a n)).
  { assert (G : forall n a b, map (fun i => Some (a + i)%nat) (seq b n) = map Some (seq (a + b) n)).
    { induction n as [|n IH]; intros a b; cbn [seq map]; [reflexivity|]. rewrite IH.
      rewrite <- Nat.add_succ_r. reflexivity. }
    intros a n. rewrite G, Nat.add_0_r. reflexivity. }
  cbn [other side_of app Nat.add] in *.
  rewrite MS in S5, T5. cbv zeta. cbn [wu_fan u_c u_h u_fan]. rewrite O5.
  split; [congruence|]. split; [congruence|]. split; [exact D4|]. split; [exact D5|].
  split; [exact S4|]. split; [exact T4|]. split; [exact S5|]. split; [exact T5|].
  exists f. split; [reflexivity|exact E6].
Qed.

Lemma fl375 : fr_cfm_per_ton (T:=R) (lit 375) = per_ton 375.
Proof. unfold fr_cfm_per_ton, cfm, ton_ref, btu_h, per_ton. rnum. field. Qed.
Lemma ef365 : fr_W_per_cfm (T:=R) (lit 0.365) = per_cfm 0.365.
Proof. unfold fr_W_per_cfm, cfm, per_cfm. rnum. field. Qed.
Lemma fl350 : fr_cfm_per_ton (T:=R) (lit 350) = per_ton 350.
Proof. unfold fr_cfm_per_ton, cfm, ton_ref, btu_h, per_ton. rnum. field. Qed.

Section Theorems.
  Variable psy : psychro R.
  Variable sol : solvers R.
  Notation U := (dxunit R).

  Lemma base_fan_plain M : base_fan_model M -> plain_model sol M
    /\ md_set_net_capacities_and_fan M = base_set_net_capacities_and_fan.
  Proof.
    unfold base_fan_model, plain_model. simpl.
    intros [<-|[<-|[<-|[]]]]; (split; [auto 6|reflexivity]).
  Qed.

  Lemma nth_seq n : forall a i, (i < n)%nat -> nth_error (map Some (seq a n)) i = Some (Some (a + i)%nat).
  Proof.
    induction n as [|n IH]; intros a i I; [lia|]. cbn [seq map].
    destruct i as [|i]; cbn [nth_error]; [rewrite Nat.add_0_r; reflexivity|].
    rewrite IH by lia. f_equal. f_equal. lia.
  Qed.

  Lemma core_eqs (u v : U) : core u = core v ->
    u_fan u = u_fan v /\ forall m, let s := side_of m u in let s' := side_of m v in
    sd_n s = sd_n s' /\ sd_net_cap s = sd_net_cap s' /\ sd_airflow s = sd_airflow s'
    /\ sd_fan_power s = sd_fan_power s' /\ sd_fan_speed s = sd_fan_speed s'
    /\ sd_rated_fan_speed s = sd_rated_fan_speed s'.
  Proof.
    intros H. split; [exact (f_equal snd H)|]. intros m. pose proof (core_of m u v H) as K.
    unfold core_side in K. injection K as K1 K2 K3 K4 K5 K6. cbv zeta. auto 8.
  Qed.

  Lemma default_fan M a (u : U) : base_fan_model M -> a_fan a = None -> DXUnit psy sol M a = Ok u ->
    forall m i q, nth_error (sd_net_cap (side_of m u)) i = Some q ->
    served sol u m i (match m with Cooling => i | Heating => (sd_n (u_c u) + i)%nat end)
      (q * per_ton 375) (q * per_ton 375 * per_cfm 0.365).
  Proof.
    intros HM HF H. destruct (base_fan_plain M HM) as [HP HS].
    destruct (plain_build psy sol M a u HP H) as (u0 & u1 & u2 & I & P & S & C & _ & L).
    rewrite HS, HF in S. unfold base_set_net_capacities_and_fan in S.
    apply sbind_ok in S. destruct S as (v1 & [] & _ & S).
    apply sbind_ok in S. destruct S as (v2 & [] & _ & S).
    apply base_fan_inv in S. cbv zeta in S. rewrite fl375, ef365 in S.
    destruct S as (Qc & Qh & Ac & Ah & Sc & Rc & Sh & Rh & f & F & MF).
    destruct (core_eqs u u2 C) as [CF CS].
    pose proof (L Cooling) as Lc. cbn [side_of] in Lc.
    intros m i q Q. destruct (CS m) as (_ & C2 & C3 & C4 & C5 & C6).
    destruct (CS Cooling) as (_ & D2 & _). cbn [side_of] in D2.
    assert (LC : List.length (sd_net_cap (u_c v2)) = sd_n (u_c u)) by congruence.
    unfold served. rewrite C3, C4, C5, C6. rewrite C2 in Q.
    destruct m; cbn [side_of] in *.
    - rewrite Qc in Q.
      assert (I' : (i < List.length (sd_net_cap (u_c v2)))%nat) by (apply nth_error_Some; congruence).
      split; [apply Ac; exact Q|]. split; [apply Ac; exact Q|].
      split; [eexists; split; [exact Sc|apply (nth_seq _ 0); exact I']|].
      split; [eexists; split; [exact Rc|apply (nth_seq _ 0); exact I']|].
      exists f. split; [congruence|].
      apply (cef_serves sol _ _ _ _ i _ (per_cfm 0.365) MF).
      + rewrite nth_error_map, nth_error_app1, Q by exact I'. reflexivity.
      + cbn [effs]. rewrite map_length, app_length. apply nth_error_repeat. lia.
    - rewrite Qh in Q.
      assert (I' : (i < List.length (sd_net_cap (u_h v2)))%nat) by (apply nth_error_Some; congruence).
      split; [apply Ah; exact Q|]. split; [apply Ah; exact Q|]. rewrite <- LC.
      split; [eexists; split; [exact Sh|apply nth_seq; exact I']|].
      split; [eexists; split; [exact Rh|apply nth_seq; exact I']|].
      exists f. split; [congruence|].
      apply (cef_serves sol _ _ _ _ _ _ (per_cfm 0.365) MF).
      + rewrite nth_error_map, nth_error_app2 by lia.
        replace (_ + i - _)%nat with i by lia. rewrite Q. reflexivity.
      + cbn [effs]. rewrite map_length, app_length. apply nth_error_repeat. lia.
  Qed.

  Lemma gross_capacity M a (u : U) : plain_model sol M -> DXUnit psy sol M a = Ok u ->
    forall m i q w, nth_error (sd_net_cap (side_of m u)) i = Some q ->
    entry (sd_fan_power (side_of m u)) i w ->
    entry (sd_gross_cap (side_of m u)) i (gross_of_net m q w).
  Proof.
    intros HM H m i q w Q W.
    destruct (plain_build psy sol M a u HM H) as (u0 & u1 & u2 & _ & _ & _ & _ & G & L).
    destruct (G m i) as (q' & w' & Q' & W' & E).
    - rewrite <- L. apply nth_error_Some. congruence.
    - unfold entry in *. congruence.
  Qed.

  Lemma placeholder_power (u u' : U) m : set_placeholder_arrays u = (u', Ok tt) ->
    sd_fan_power (side_of m u') = repeat None (sd_n (side_of m u')).
  Proof.
    unfold set_placeholder_arrays, smod. intros H. apply pair_ok_inj in H. destruct H as [<- _].
    destruct m; reflexivity.
  Qed.

  (** What the plain models set besides net capacities leaves fan power alone if a fan is
      given. *)
  Lemma given_fan M qc qh f (u u' : U) : plain_model sol M ->
    md_set_net_capacities_and_fan M qc qh (Some f) u = (u', Ok tt) ->
    sd_fan_power (u_c u') = sd_fan_power (u_c u) /\ sd_n (u_c u') = sd_n (u_c u)
    /\ sd_net_cap (u_c u') <> [].
  Proof.
    intros HM.
    assert (G : forall v v', (base_set_net_cooling_capacity qc ;;; base_set_net_heating_capacity qh ;;;
                 smod (wu_fan (Some f))) v = (v', Ok tt) ->
      sd_fan_power (u_c v') = sd_fan_power (u_c v) /\ sd_n (u_c v') = sd_n (u_c v)
      /\ sd_net_cap (u_c v') <> []).
    { intros v v' H. apply sbind_ok in H. destruct H as (v1 & [] & E1 & H).
      apply sbind_ok in H. destruct H as (v2 & [] & E2 & H).
      unfold smod in H. apply pair_ok_inj in H. destruct H as [<- _].
      assert (A : sd_fan_power (u_c v1) = sd_fan_power (u_c v) /\ sd_n (u_c v1) = sd_n (u_c v)).
      { unfold base_set_net_cooling_capacity, on_side, smod in E1.
        destruct qc; apply pair_ok_inj in E1; destruct E1 as [<- _]; split; reflexivity. }
      unfold base_set_net_heating_capacity in E2.
      apply sbind_ok in E2. destruct E2 as (v3 & y & E3 & E2). unfold sget in E3.
      apply pair_ok_inj in E3. destruct E3 as [<- <-].
      apply sbind_ok in E2. destruct E2 as (v3 & q & E3 & E2). apply slift_ok in E3. destruct E3 as [-> E3].
      assert (B : u_c v2 = u_c v1).
      { destruct qh as [[x|l]|]; unfold on_side, smod in E2; apply pair_ok_inj in E2;
          destruct E2 as [<- _]; reflexivity. }
      cbn [wu_fan u_c]. rewrite B. split; [apply A|]. split; [apply A|].
      apply geti_ok in E3. intros N. rewrite N in E3. discriminate. }
    unfold plain_model in HM. simpl in HM. destruct HM as [<-|[<-|[<-|[<-|[]]]]].
    1-3: exact (G u u').
    intros H. unfold Title24DXModel in H. cbn [md_set_net_capacities_and_fan] in H.
    unfold t24_set_net_capacities_and_fan, t24_set_rated_fan_characteristics in H.
    apply sbind_ok in H. destruct H as (v1 & [] & E1 & H).
    unfold sret in E1. apply pair_ok_inj in E1. destruct E1 as [<- _]. exact (G u u' H).
  Qed.

  Lemma given_fan_rejected M a f : plain_model sol M -> a_fan a = Some f ->
    forall u, DXUnit psy sol M a <> Ok u.
  Proof.
    intros HM HF u H.
    destruct (plain_build psy sol M a u HM H) as (u0 & u1 & u2 & I & P & S & C & G & L).
    rewrite HF in S. apply given_fan in S; [|exact HM]. destruct S as (S1 & S2 & S3).
    pose proof (placeholder_power u0 u1 Cooling P) as PP. cbn [side_of] in PP.
    destruct (core_eqs u u2 C) as [_ CS]. destruct (CS Cooling) as (C1 & C2 & _ & C4 & _).
    cbn [side_of] in *. destruct (G Cooling 0%nat) as (q & w & _ & W & _).
    - pose proof (L Cooling) as LC. cbn [side_of] in LC |- *. rewrite <- LC, C2.
      destruct (sd_net_cap (u_c u2)); [congruence|simpl; lia].
    - cbn [side_of] in W. unfold entry in W. rewrite C4, S1, PP in W.
      apply nth_error_In, repeat_spec in W. discriminate.
  Qed.

  Lemma default_heating M a (u : U) : plain_model sol M -> a_hcap a = None ->
    DXUnit psy sol M a = Ok u ->
    exists q, nth_error (sd_net_cap (u_c u)) 0 = Some q
      /\ sd_net_cap (u_h u) = repeat q (sd_n (u_h u)).
  Proof.
    intros HM HH H.
    destruct (plain_build psy sol M a u HM H) as (u0 & u1 & u2 & I & P & S & C & G & L).
    rewrite HH in S. destruct (core_eqs u u2 C) as [_ CS].
    destruct (CS Cooling) as (_ & C2 & _). destruct (CS Heating) as (H1 & H2 & _).
    cbn [side_of] in *. rewrite C2, H2, H1. clear - S HM.
    assert (B : forall (v v' : U) (f : st U unit), (base_set_net_heating_capacity None ;;; f) v = (v', Ok tt) ->
       keeps (fun u : U => (sd_net_cap (u_c u), sd_net_cap (u_h u), sd_n (u_h u))) f ->
       exists q, nth_error (sd_net_cap (u_c v')) 0 = Some q
         /\ sd_net_cap (u_h v') = repeat q (sd_n (u_h v'))).
    { intros v v' f E K. apply sbind_ok in E. destruct E as (v1 & [] & E & F).
      pose proof (keeps_ok _ _ _ _ _ K F) as N. injection N as N1 N2 N3. rewrite N1, N2, N3. clear N1 N2 N3 F.
      unfold base_set_net_heating_capacity in E.
      apply sbind_ok in E. destruct E as (w & y & E3 & E). unfold sget in E3.
      apply pair_ok_inj in E3. destruct E3 as [<- <-].
      apply sbind_ok in E. destruct E as (w & q & E3 & E). apply slift_ok in E3. destruct E3 as [-> E3].
      unfold on_side, smod in E. apply pair_ok_inj in E. destruct E as [<- _].
      exists q. split; [apply geti_ok in E3; exact E3|reflexivity]. }
    assert (BF : forall f, keeps (fun u : U => (sd_net_cap (u_c u), sd_net_cap (u_h u), sd_n (u_h u))) (base_set_fan f)).
    { intros f. unfold base_set_fan, base_fan_step, side_put. keep; destruct m; reflexivity. }
    assert (TF : forall f, keeps (fun u : U => (sd_net_cap (u_c u), sd_net_cap (u_h u), sd_n (u_h u))) (t24_set_fan f)).
    { intros f. unfold t24_set_fan, t24_fan_step, side_put. keep; destruct m; reflexivity. }
    unfold plain_model in HM. simpl in HM. destruct HM as [<-|[<-|[<-|[<-|[]]]]].
    1-3: apply sbind_ok in S; destruct S as (v & [] & _ & S); exact (B _ _ _ S (BF _)).
    apply sbind_ok in S; destruct S as (v & [] & _ & S).
    apply sbind_ok in S; destruct S as (v' & [] & _ & S). exact (B _ _ _ S (TF _)).
  Qed.

  (** ** Title 24 *)
  Definition t24_eff : R := 500 * (1055.056 / 3600) / (12000 * (1055.056 / 3600)) / per_ton 350.
  Lemma t24_eff_ok : fan_efficacy_rated (T:=R) (fr_cfm_per_ton (lit 350)) true = Ok t24_eff.
  Proof.
    assert (N : per_ton 350 <> 0) by (unfold per_ton; apply Rgt_not_eq; lra).
    unfold fan_efficacy_rated. rewrite fl350, pydiv_ok by exact N.
    unfold t24_eff. do 2 f_equal. unfold btu_h, ton_ref, btu_h. rnum. field.
  Qed.
  Lemma t24_watts q : q * per_ton 350 * t24_eff = q * (500 / 12000).
  Proof.
    assert (N : per_ton 350 <> 0) by (unfold per_ton; apply Rgt_not_eq; lra).
    unfold t24_eff. generalize (per_ton 350) N. intros p P. field. split; [lra|exact P].
  Qed.

  Lemma t24_step_inv m e first i q (u u' : U) :
    t24_fan_step m e first (i, q) u = (u', Ok tt) ->
    exists a, flow_per_cap (side_of m u) i = Ok a
      /\ fan_put m i (q * a) (q * a * e) (first + i) u = (u', Ok tt).
  Proof.
    unfold t24_fan_step. intros H.
    apply sbind_ok in H. destruct H as (v & y & E & H). unfold sget in E.
    apply pair_ok_inj in E. destruct E as [<- <-].
    apply sbind_ok in H. destruct H as (v & x & E & H). apply slift_ok in E. destruct E as [-> E].
    exists x. split; [exact E|exact H].
  Qed.

  Lemma t24_default_fan a (u : U) : a_fan a = None -> DXUnit psy sol (Title24DXModel sol) a = Ok u ->
    exists q, sd_n (u_c u) = 1%nat /\ sd_n (u_h u) = 1%nat /\ sd_net_cap (u_c u) = [q]
      /\ served sol u Cooling 0 0 (q * per_ton 350) (q * (500 / 12000))
      /\ served sol u Heating 0 1 (q * per_ton 350) (q * (500 / 12000)).
  Proof.
    intros HF H.
    assert (HP : plain_model sol (Title24DXModel sol)) by (unfold plain_model; simpl; auto 6).
    destruct (plain_build psy sol _ a u HP H) as (u0 & u1 & u2 & I & P & S & C & G & L).
    rewrite HF in S. cbn [Title24DXModel md_set_net_capacities_and_fan] in S.
    unfold t24_set_net_capacities_and_fan, t24_set_rated_fan_characteristics in S.
    assert (PF : forall m, sd_fan_power (side_of m u1) = repeat None (sd_n (side_of m u1)))
      by (intros m; exact (placeholder_power u0 u1 m P)).
    apply sbind_ok in S. destruct S as (v1 & [] & E1 & S).
    apply sbind_ok in E1. destruct E1 as (w & [] & E0 & E1). unfold on_side, smod in E0, E1.
    apply pair_ok_inj in E0. destruct E0 as [<- _]. apply pair_ok_inj in E1. destruct E1 as [V1 _].
    assert (FC : forall m, sd_flow_per_cap (side_of m v1) = Some (Many [per_ton 350])).
    { rewrite <- fl350, <- V1. intros []; reflexivity. }
    assert (PW : forall m, sd_fan_power (side_of m v1) = repeat None (sd_n (side_of m v1))).
    { rewrite <- V1. intros []; [apply (PF Cooling)|apply (PF Heating)]. }
    clear V1 PF P I.
    apply sbind_ok in S. destruct S as (v2 & [] & E2 & S).
    apply sbind_ok in S. destruct S as (v3 & [] & E3 & S).
    assert (KC : forall m, sd_flow_per_cap (side_of m v3) = Some (Many [per_ton 350])
              /\ sd_fan_power (side_of m v3) = repeat None (sd_n (side_of m v3))).
    { assert (K : forall x, keeps (fun u : U => (sd_n (u_c u), sd_n (u_h u), sd_flow_per_cap (u_c u),
            sd_flow_per_cap (u_h u), sd_fan_power (u_c u), sd_fan_power (u_h u))) (base_set_net_cooling_capacity x)).
      { intros x. unfold base_set_net_cooling_capacity. keep. }
      assert (K' : forall x, keeps (fun u : U => (sd_n (u_c u), sd_n (u_h u), sd_flow_per_cap (u_c u),
            sd_flow_per_cap (u_h u), sd_fan_power (u_c u), sd_fan_power (u_h u))) (base_set_net_heating_capacity x)).
      { intros x. unfold base_set_net_heating_capacity. keep. }
      pose proof (keeps_ok _ _ _ _ _ (K _) E2) as N2. pose proof (keeps_ok _ _ _ _ _ (K' _) E3) as N3.
      injection N2 as A1 A2 A3 A4 A5 A6. injection N3 as B1 B2 B3 B4 B5 B6.
      intros []; cbn [side_of].
      - specialize (FC Cooling). specialize (PW Cooling). cbn [side_of] in *. split; congruence.
      - specialize (FC Heating). specialize (PW Heating). cbn [side_of] in *. split; congruence. }
    clear FC PW E2 E3. clear v1 v2.
    unfold t24_set_fan in S.
    apply sbind_ok in S. destruct S as (v & y & E & S). unfold sget in E.
    apply pair_ok_inj in E. destruct E as [<- <-]. cbv zeta in S.
    apply sbind_ok in S. destruct S as (c1 & [] & C1 & S).
    apply sbind_ok in S. destruct S as (c2 & [] & C2 & S).
    apply sbind_ok in S. destruct S as (v & e & E & S). apply slift_ok in E. destruct E as [-> E].
    rewrite t24_eff_ok in E. apply Ok_inj in E. subst e.
    apply sbind_ok in S. destruct S as (l1 & [] & L1 & S).
    apply sbind_ok in S. destruct S as (l2 & [] & L2 & S).
    apply sbind_ok in S. destruct S as (v & y & E & S). unfold sget in E.
    apply pair_ok_inj in E. destruct E as [<- <-].
    apply sbind_ok in S. destruct S as (v & ac & E & S). apply slift_ok in E. destruct E as [-> EA].
    apply sbind_ok in S. destruct S as (v & ah & E & S). apply slift_ok in E. destruct E as [-> EH].
    apply sbind_ok in S. destruct S as (v & f & E & S). apply slift_ok in E. destruct E as [-> EF].
    unfold smod in S. apply pair_ok_inj in S. destruct S as [<- _].
    remember (sd_net_cap (u_c v3)) as qs0 eqn:EQ. symmetry in EQ.
    assert (Q0 : qs0 <> []).
    { intros N. rewrite N in EA, EH. cbn in EA, EH. apply Ok_inj in EA, EH. subst ac ah. discriminate. }
    destruct qs0 as [|q qs]; [congruence|].
    assert (FR : forall m, sd_fan_speed (side_of m v3) = None).
    { cbn [enumerate List.length seq combine sfold] in L1, L2.
      apply sbind_ok in L1. destruct L1 as (z & [] & L1 & _).
      apply sbind_ok in L2. destruct L2 as (z' & [] & L2 & _).
      cbn [side_of] in L1, L2. intros []; cbn [side_of].
      - destruct (sd_fan_speed (u_c v3)); [|reflexivity]. apply slift_ok in L1. destruct L1; discriminate.
      - destruct (sd_fan_speed (u_h v3)); [|reflexivity]. apply slift_ok in L2. destruct L2; discriminate. }
    rewrite (FR Cooling) in C1, L1. rewrite (FR Heating) in C2, L2.
    unfold on_side, smod in C1, C2. apply pair_ok_inj in C1. destruct C1 as [C1 _].
    apply pair_ok_inj in C2. destruct C2 as [C2 _].
    assert (K2 : forall m, sd_fan_speed (side_of m c2) = Some [] /\ sd_rated_fan_speed (side_of m c2) = Some []
              /\ sd_flow_per_cap (side_of m c2) = Some (Many [per_ton 350])
              /\ sd_fan_power (side_of m c2) = repeat None (sd_n (side_of m c2))
              /\ sd_n (side_of m c2) = sd_n (side_of m v3)
              /\ sd_net_cap (side_of m c2) = sd_net_cap (side_of m v3)).
    { rewrite <- C2, <- C1. intros m. destruct (KC m) as [K1 K2]. destruct m; repeat split; assumption. }
    clear C1 C2 KC FR.
    cbn [enumerate List.length seq combine sfold] in L1, L2.
    apply sbind_ok in L1. destruct L1 as (d1 & [] & D1 & L1).
    apply t24_step_inv in D1. destruct D1 as (x1 & X1 & D1).
    apply fan_put_inv in D1. cbv zeta in D1. destruct D1 as (T1 & T2 & O & F & N & CC & FL & A & PP & S1 & S2).
    destruct (K2 Cooling) as (M1 & M2 & M3 & M4 & M5 & M6).
    unfold flow_per_cap in X1. rewrite M3 in X1. apply Ok_inj in X1. subst x1.
    destruct qs as [|q2 qs].
    2:{ exfalso. cbn [List.length seq combine sfold] in L1.
        apply sbind_ok in L1. destruct L1 as (d2 & [] & D2 & L1).
        apply t24_step_inv in D2. destruct D2 as (x2 & X2 & _).
        unfold flow_per_cap in X2. rewrite FL, M3 in X2. discriminate. }
    cbn [seq combine sfold List.length] in L1. apply pair_ok_inj in L1. destruct L1 as [<- _].
    cbn [List.length seq combine sfold] in L2.
    apply sbind_ok in L2. destruct L2 as (d2 & [] & D2 & L2).
    apply pair_ok_inj in L2. destruct L2 as [<- _].
    apply t24_step_inv in D2. destruct D2 as (x2 & X2 & D2).
    apply fan_put_inv in D2. cbv zeta in D2.
    destruct D2 as (U1 & U2 & O' & F' & N' & CC' & FL' & A' & PP' & S1' & S2').
    cbn [other] in O, O'. destruct (K2 Heating) as (J1 & J2 & J3 & J4 & J5 & J6).
    rewrite O in *. unfold flow_per_cap in X2. rewrite J3 in X2. apply Ok_inj in X2. subst x2.
    rewrite M1 in S1. rewrite M2 in S2. rewrite J1 in S1'. rewrite J2 in S2'.
    cbn [push_to app Nat.add] in S1, S2, S1', S2'.
    destruct (core_eqs u _ C) as [CF CS]. clear C H.
    destruct (CS Cooling) as (Y1 & Y2 & Y3 & Y4 & Y5 & Y6).
    destruct (CS Heating) as (Z1 & Z2 & Z3 & Z4 & Z5 & Z6).
    cbn [side_of wu_fan u_c u_h u_fan] in *. rewrite O' in *.
    assert (Nc : sd_n (u_c u) = 1%nat).
    { pose proof (L Cooling) as LL. cbn [side_of] in LL. rewrite <- LL, Y2, CC, M6, EQ. reflexivity. }
    assert (Nh : sd_n (u_h u) = 1%nat).
    { rewrite J4, repeat_length in U2.
      destruct (sd_n (u_h u)) as [|[|k]] eqn:EN; [lia|reflexivity|exfalso].
      destruct (G Heating 1%nat) as (q1 & w1 & _ & W & _); cbn [side_of]; [lia|].
      cbn [side_of] in W. rewrite Z4, PP' in W. unfold entry in W. rewrite upd_other, J4 in W by lia.
      apply nth_error_In, repeat_spec in W. discriminate. }
    exists q. split; [exact Nc|]. split; [exact Nh|]. split; [congruence|].
    assert (WF : forall k, (k < 2)%nat -> exists f, u_fan u = Some f /\ forall p,
      airflow sol f k p = Ok (q * per_ton 350) /\ power sol f k p = Ok (q * (500 / 12000))).
    { intros k K. exists f. split; [exact CF|].
      cbn [List.length seq rmapM] in EA, EH. unfold arr, geti in EA, EH.
      rewrite A, upd_same in EA by exact T1. rewrite A', upd_same in EH by exact U1.
      cbn in EA, EH. apply Ok_inj in EA, EH. subst ac ah. cbn [app List.length repeat] in EF.
      rewrite <- t24_watts.
      apply (cef_serves sol _ _ _ _ k _ t24_eff EF).
      - destruct k as [|[|k]]; [reflexivity|reflexivity|lia].
      - destruct k as [|[|k]]; [reflexivity|reflexivity|lia]. }
    rewrite t24_watts in PP, PP'.
    split; unfold served; cbn [side_of].
    - rewrite Y3, Y4, Y5, Y6, A, PP, S1, S2.
      split; [apply upd_same; exact T1|]. split; [apply upd_same; exact T2|].
      split; [eexists; split; reflexivity|]. split; [eexists; split; reflexivity|]. apply WF; lia.
    - rewrite Z3, Z4, Z5, Z6, A', PP', S1', S2'.
      split; [apply upd_same; exact U1|]. split; [apply upd_same; exact U2|].
      split; [eexists; split; reflexivity|]. split; [eexists; split; reflexivity|]. apply WF; lia.
  Qed.
End Theorems.
