(** What [resnet_set_fan] does to a single-stage unit. *)
From Coq Require Import Reals QArith Lra Lia List Bool.
From Verif.Base Require Import Num Res Tac.
From Verif.Model Require Import Units Util Psychrometrics Conditions Fan Tabular Unit NREL BaseModel Resnet DXUnit.
From Verif.Proofs Require Import UnitsR FanProofs SingleFan.
Import ListNotations.
Local Open Scope R_scope.

(** One speed per side, full speed 0, one (possibly unset) entry per array. *)
Definition one_speed (s : side R) (q : R) : Prop :=
  sd_n s = 1%nat /\ sd_full s = 0%nat /\ sd_net_cap s = [q]
  /\ (exists x, sd_airflow s = [x]) /\ (exists x, sd_esp s = [x]) /\ (exists x, sd_fan_power s = [x]).

(** The part of a side that [resnet_set_fan] does not touch. *)
Definition rest (s : side R) :=
  (sd_n s, sd_full s, sd_boost s, sd_int s, sd_low s, sd_net_cap s, sd_gross_cap s, sd_net_cop s,
   (sd_net_power s, sd_gross_power s, sd_gross_cop s, sd_fan_efficacy s, sd_cd s)).

Definition fan_side (sol : solvers R) (f : fan R) (s : side R) (p a d w : R) : Prop :=
  exists k f0, sd_rated_fan_speed s = Some [Some k] /\ sd_airflow s = [Some a]
  /\ sd_esp s = [Some (p * ((a / d) * (a / d)))] /\ sd_fan_power s = [Some w]
  /\ power sol f0 k (Some (p * ((a / d) * (a / d)))) = Ok w /\ geti (f_airflow f0) k = Ok a
  /\ rclass f0 /\ extends f0 f.

Section Single.
  Variable sol : solvers R.
  Notation U := (dxunit R).

  Lemma set_fan_single (u u' : U) b qc qh :
    one_speed (u_c u) qc -> one_speed (u_h u) qh ->
    resnet_set_fan sol None u = (u', Ok b) ->
    exists f p ac ah wc wh,
      let motor := match rn_motor (u_rn u) with
                   | Some k => k
                   | None => match u_staging u with SINGLE_STAGE => MotorPSC | _ => MotorBPM end
                   end in
      let d := if Rle_dec ah ac then ac else ah in
      get_rated_full_flow_rated_pressure u = Ok p
      /\ u_fan u' = Some f
      /\ f_class f = match motor with MotorPSC => RESNETPSCFan | MotorBPM => RESNETBPMFan end
      /\ fan_side sol f (u_c u') p ac d wc /\ fan_side sol f (u_h u') p ah d wh
      /\ rest (u_c u') = rest (u_c u) /\ rest (u_h u') = rest (u_h u)
      /\ u_rn u' = wr_motor (Some motor) (u_rn u) /\ u_staging u' = u_staging u
      /\ d <> 0.
  Proof.
    destruct u as [x1 x2 x3 x4 x5 x6 x7 x8 x9 x10 x11 x12 x13 x14 x15 C0 H0 x18 x19 x20 x21 x22 x23 x24 x25].
    destruct C0 as [c1 c2 c3 c4 c5 c6 c7 c8 c9 c10 c11 c12 c13 c14 c15 c16 c17 c18 c19].
    destruct H0 as [h1 h2 h3 h4 h5 h6 h7 h8 h9 h10 h11 h12 h13 h14 h15 h16 h17 h18 h19].
    destruct x25 as [r1 r2 r3 r4 r5 r6 r7].
    unfold one_speed. ucbn.
    intros (-> & -> & -> & [ca ->] & [ce ->] & [cp ->]) (-> & -> & -> & [ha ->] & [he ->] & [hp ->]) H.
    unfold resnet_set_fan in H.
    apply sbind_ok in H. destruct H as (s1 & p & E & H). apply sread_ok in E. destruct E as [-> Ep].
    apply sbind_ok in H. destruct H as (s1 & [] & E & H). unfold smod in E. apply pair_ok_inj in E.
    destruct E as [<- _]. cbv zeta in H.
    apply sbind_ok in H. destruct H as (s1 & [] & E & H). apply on_side_inv in E. ucbn_in E. subst s1.
    apply sbind_ok in H. destruct H as (s1 & [] & E & H). apply on_side_inv in E. ucbn_in E. subst s1.
    apply sbind_ok in H. destruct H as (s1 & [] & E & H). apply on_side_inv in E. ucbn_in E. subst s1.
    apply sbind_ok in H. destruct H as (s1 & [] & E & H). apply on_side_inv in E. ucbn_in E. subst s1.
    cbn [repeat] in H.
    apply sbind_ok in H. destruct H as (s1 & u & E & H). unfold sget in E. apply pair_ok_inj in E.
    destruct E as [<- <-].
    apply sbind_ok in H. destruct H as (s1 & ac & E & H). apply slift_ok in E. destruct E as [-> Eac].
    apply sbind_ok in H. destruct H as (s1 & [] & E & H). apply side_put_inv in E. destruct E as [E _].
    ucbn_in E. cbn [upd] in E. subst s1.
    apply sbind_ok in H. destruct H as (s1 & ah & E & H). apply slift_ok in E. destruct E as [-> Eah].
    apply sbind_ok in H. destruct H as (s1 & [] & E & H). apply side_put_inv in E. destruct E as [E _].
    ucbn_in E. cbn [upd] in E. subst s1. ucbn_in H.
    apply sbind_ok in H. destruct H as (s1 & [] & E & H). unfold smod in E. apply pair_ok_inj in E.
    destruct E as [E _]. ucbn_in E. subst s1.
    set (motor := match r3 with Some k => k | None => _ end) in *.
    apply sbind_ok in H. destruct H as (s1 & f & E & H). apply slift_ok in E. destruct E as [-> Ef].
    apply rmake in Ef.
    apply sbind_ok in H. destruct H as (s1 & [] & E & H). unfold smod in E. apply pair_ok_inj in E.
    destruct E as [E _]. ucbn_in E. subst s1.
    apply sbind_ok in H. destruct H as (s1 & k & E & H). apply last_inv in E.
    destruct E as (-> & f' & E & ->). ucbn_in E. replace f' with f in * by congruence. clear E f'.
    assert (Hd : (if nleb ah ac then ac else ah) = (if Rle_dec ah ac then ac else ah)).
    { cbn [nleb RNum]. unfold Rleb. destruct (Rle_dec ah ac); reflexivity. }
    change (ac >=? ah)%num with (nleb ah ac) in *.
    set (d := if nleb ah ac then ac else ah) in *.
    destruct Ef as (Kf & Af & Nf & Zd).
    assert (Rf : rfan f).
    { split; [unfold rclass; rewrite Kf; destruct motor; auto|]. rewrite Af, Nf. cbn. lia. }
    apply sbind_ok in H. destruct H as (s1 & [] & E & H).
    (* the design speeds *)
    assert (G : exists f1 kc kh, rfan f1 /\ f_class f1 = f_class f /\
      s1 = mkUnit x1 x2 x3 x4 x5 x6 x7 x8 x9 x10 x11 x12 x13 x14 x15
             (mkSide 1 0 c3 c4 c5 [qc] c7 [cp] c9 c10 c11 c12 [Some ac] [ce] (Some [kc]) (Some [None])
                (list_default c17 (fr_cfm_per_ton (lit 400)) 1) c18 c19)
             (mkSide 1 0 h3 h4 h5 [qh] h7 [hp] h9 h10 h11 h12 [Some ah] [he] (Some [kh]) (Some [None])
                (list_default h17 (fr_cfm_per_ton (lit 400)) 1) h18 h19)
             x18 x19 x20 (Some p) (Some f1) x23 x24 (mkRn r1 r2 (Some motor) r4 r5 r6 r7)).
    { destruct (nleb ah ac).
      - apply sbind_ok in E. destruct E as (s2 & [] & E & E'). apply put_fan_inv in E.
        destruct E as (l & E & _ & ->). ucbn_in E. assert (l = [None]) by congruence. subst l.
        apply add_design_inv in E'. destruct E' as (a & f0 & f1 & l & _ & E1 & E2 & E3 & _ & ->).
        ucbn_in E1. ucbn_in E3. assert (l = [None]) by congruence. assert (f0 = f) by congruence. subst l f0.
        destruct (radd_fan _ _ _ _ _ Rf E2) as (Rf1 & X1 & K1 & _).
        exists f1, (Some (Nat.pred (f_n f))), (Some (Nat.pred (f_n f1))).
        split; [exact Rf1|]. split; [exact K1|]. ucbn. reflexivity.
      - apply sbind_ok in E. destruct E as (s2 & [] & E & E'). apply put_fan_inv in E.
        destruct E as (l & E & _ & ->). ucbn_in E. assert (l = [None]) by congruence. subst l.
        apply add_design_inv in E'. destruct E' as (a & f0 & f1 & l & _ & E1 & E2 & E3 & _ & ->).
        ucbn_in E1. ucbn_in E3. assert (l = [None]) by congruence. assert (f0 = f) by congruence. subst l f0.
        destruct (radd_fan _ _ _ _ _ Rf E2) as (Rf1 & X1 & K1 & _).
        exists f1, (Some (Nat.pred (f_n f1))), (Some (Nat.pred (f_n f))).
        split; [exact Rf1|]. split; [exact K1|]. ucbn. reflexivity. }
    destruct G as (f1 & kc & kh & Rf1 & K1 & ->). clear E.
    apply sbind_ok in H. destruct H as (s1 & [] & E & H). apply add_rated_inv in E.
    destruct E as (a & pc & f0 & f2 & l & wc & E1 & E2 & E3 & E4 & E5 & _ & _ & _ & E6 & ->).
    ucbn_in E1. ucbn_in E3. ucbn_in E5.
    assert (l = [None]) by congruence. assert (f0 = f1) by congruence. subst l f0. clear E3 E5.
    unfold arr, geti in E1. cbn in E1. apply Ok_inj in E1. subst a.
    unfold calculate_rated_pressure in E2. ucbn_in E2. cbn [need rbind] in E2.
    rewrite (pydiv_ok _ _ Zd) in E2. cbn [rbind] in E2. apply Ok_inj in E2. unfold nsq in E2.
    cbn [nmul RNum] in E2.
    destruct (radd_fan _ _ _ _ _ Rf1 E4) as (Rf2 & X2 & K2 & N2 & A2).
    ucbn_in H. cbn [upd] in H.
    apply sbind_ok in H. destruct H as (s1 & [] & E & H). apply add_rated_inv in E.
    destruct E as (a & ph & f0 & f3 & l & wh & F1 & F2 & F3 & F4 & F5 & _ & _ & _ & F6 & ->).
    ucbn_in F1. ucbn_in F3. ucbn_in F5.
    assert (l = [None]) by congruence. assert (f0 = f2) by congruence. subst l f0. clear F3 F5.
    unfold arr, geti in F1. cbn in F1. apply Ok_inj in F1. subst a.
    unfold calculate_rated_pressure in F2. ucbn_in F2. cbn [need rbind] in F2.
    rewrite (pydiv_ok _ _ Zd) in F2. cbn [rbind] in F2. apply Ok_inj in F2. unfold nsq in F2.
    cbn [nmul RNum] in F2.
    destruct (radd_fan _ _ _ _ _ Rf2 F4) as (Rf3 & X3 & K3 & N3 & A3).
    ucbn_in H. cbn [upd] in H.
    apply sbind_ok in H. destruct H as (s1 & u & E & H). unfold sget in E. apply pair_ok_inj in E.
    destruct E as [<- <-]. ucbn_in H.
    apply sbind_ok in H. destruct H as (s1 & [] & E & H).
    cbn in E. unfold sbind, sret, other_speed in E. cbn in E. apply pair_ok_inj in E. destruct E as [<- _].
    apply sbind_ok in H. destruct H as (s1 & u & E & H). unfold sget in E. apply pair_ok_inj in E.
    destruct E as [<- <-]. ucbn_in H.
    cbn in H. unfold sbind, sret, other_speed in H. cbn in H. apply pair_ok_inj in H. destruct H as [<- _].
    exists f3, p, ac, ah, wc, wh. cbv zeta. rewrite <- Hd. fold d. fold motor.
    split; [exact Ep|]. split; [reflexivity|]. split; [congruence|].
    split.
    { exists (Nat.pred (f_n f2)), f2. rewrite E2. ucbn. repeat (split; [first [reflexivity|assumption]|]).
      split; [rewrite N2; exact A2|]. split; [exact (proj1 Rf2)|exact X3]. }
    split.
    { exists (Nat.pred (f_n f3)), f3. rewrite F2. ucbn. repeat (split; [first [reflexivity|assumption]|]).
      split; [rewrite N3; exact A3|]. split; [exact (proj1 Rf3)|].
      exists (f_n f3), [], (f_ratio f3). rewrite app_nil_r. destruct f3; reflexivity. }
    repeat split; auto.
  Qed.
End Single.
