(** The rated fan powers of a RESNET unit with any number of speeds. *)
From Coq Require Import Reals QArith Lra Lia List Bool String.
From Verif.Base Require Import Num Res Tac.
From Verif.Model Require Import Units Util Psychrometrics Conditions Fan Tabular Unit NREL BaseModel Title24 Resnet DXUnit.
From Verif.Proofs Require Import UnitsR FanProofs Frame SingleFan SingleUnit UnitProofs.
Import ListNotations.
Local Open Scope R_scope.

Lemma nth_upd {A} (l : list A) i j v : (i < List.length l)%nat ->
  nth_error (upd l i v) j = if Nat.eqb j i then Some v else nth_error l j.
Proof.
  revert i j. induction l as [|x l IH]; intros i j H; [simpl in H; lia|].
  destruct i, j; cbn [upd nth_error Nat.eqb]; auto. apply IH. simpl in H. lia.
Qed.

Section RatedFan.
  Variable sol : solvers R.
  Notation U := (dxunit R).

  (** Each stored rated fan power is the fan's power at the stored rated pressure. *)
  Definition rated_at (f : fan R) (s : side R) : Prop :=
    forall l i k, sd_rated_fan_speed s = Some l -> nth_error l i = Some (Some k) ->
    exists p w, nth_error (sd_esp s) i = Some (Some p) /\ nth_error (sd_fan_power s) i = Some (Some w)
      /\ power sol f k (Some p) = Ok w /\ (k < List.length (f_airflow f))%nat.

  Definition fan_ok (K : fan_class R) (u : U) : Prop :=
    exists f, u_fan u = Some f /\ rfan f /\ f_class f = K /\ rated_at f (u_c u) /\ rated_at f (u_h u).

  Lemma rated_more f f' s : rclass f -> extends f f' -> rated_at f s -> rated_at f' s.
  Proof.
    intros K X H l i k Hl Hi. destruct (H l i k Hl Hi) as (p & w & A & B & C & D).
    exists p, w. split; [exact A|]. split; [exact B|]. split.
    - rewrite (extends_power sol f f') by auto. exact C.
    - destruct X as (n & l' & r & ->). cbn [f_airflow w_base]. rewrite app_length. lia.
  Qed.
  Lemma rated_same f (s s' : side R) :
    sd_rated_fan_speed s' = sd_rated_fan_speed s -> sd_esp s' = sd_esp s -> sd_fan_power s' = sd_fan_power s ->
    rated_at f s -> rated_at f s'.
  Proof. intros A B C H l i k. rewrite A, B, C. apply H. Qed.

  Lemma ok_airflow K m i v (u u' : U) b :
    fan_ok K u -> side_put m sd_airflow ws_airflow i v u = (u', Ok b) -> fan_ok K u'.
  Proof.
    intros (f & F & A & B & C & D) E. apply side_put_inv in E. destruct E as [-> _].
    exists f. destruct m; cbn [wu_side]; (split; [exact F|]; split; [exact A|]; split; [exact B|]; split);
      cbn [u_c u_h wu_c wu_h side_of];
      first [exact C | exact D | (eapply rated_same; [..|eassumption]; reflexivity)].
  Qed.
  Lemma ok_put_fan K m i v (u u' : U) b :
    fan_ok K u -> put_fan_speed m i v u = (u', Ok b) -> fan_ok K u'.
  Proof.
    intros (f & F & A & B & C & D) E. apply put_fan_inv in E. destruct E as (l & _ & _ & ->).
    exists f. destruct m; cbn [wu_side]; (split; [exact F|]; split; [exact A|]; split; [exact B|]; split);
      cbn [u_c u_h wu_c wu_h side_of];
      first [exact C | exact D | (eapply rated_same; [..|eassumption]; reflexivity)].
  Qed.
  Lemma ok_design K m i (u u' : U) b :
    fan_ok K u -> add_design_speed m i u = (u', Ok b) -> fan_ok K u'.
  Proof.
    intros (f & F & A & B & C & D) E. apply add_design_inv in E.
    destruct E as (a & f0 & f' & l & _ & F0 & Ad & _ & _ & ->).
    assert (f0 = f) by congruence. subst f0.
    destruct (radd_fan _ _ _ _ _ A Ad) as (A' & X & K' & _).
    pose proof (rated_more _ _ _ (proj1 A) X C) as C'. pose proof (rated_more _ _ _ (proj1 A) X D) as D'.
    exists f'. destruct m; (split; [reflexivity|]; split; [exact A'|]; split; [congruence|]; split);
      cbn [u_c u_h wu_side wu_fan wu_c wu_h side_of];
      first [exact C' | exact D' | (eapply rated_same; [..|eassumption]; reflexivity)].
  Qed.

  Lemma rated_new f f' a p l i w u0 (s : side R) (x : unit) :
    rfan f -> add_speed a (Some p) f = (f', Ok x) -> rated_at f s ->
    sd_rated_fan_speed s = Some l -> (i < List.length l)%nat -> (i < List.length (sd_esp s))%nat ->
    (i < List.length (sd_fan_power s))%nat ->
    power sol f' (Nat.pred (f_n f')) (Some p) = Ok w ->
    u0 = ws_fan_power (upd (sd_fan_power s) i (Some w))
           (ws_rated_fan_speed (Some (upd l i (Some (Nat.pred (f_n f')))))
              (ws_esp (upd (sd_esp s) i (Some p)) s)) ->
    rated_at f' u0.
  Proof.
    intros A Ad C Hl L1 L2 L3 W ->.
    destruct (radd_fan _ _ _ _ _ A Ad) as (A' & X & K' & N & G).
    intros l' j k Hl' Hj. cbn [sd_rated_fan_speed ws_fan_power ws_rated_fan_speed] in Hl'.
    assert (l' = upd l i (Some (Nat.pred (f_n f')))) by congruence. subst l'. clear Hl'.
    cbn [sd_esp sd_fan_power ws_fan_power ws_rated_fan_speed ws_esp].
    rewrite nth_upd in Hj by exact L1. rewrite !nth_upd by assumption.
    destruct (Nat.eqb j i).
    - assert (k = Nat.pred (f_n f')) by congruence. subst k. exists p, w.
      repeat (split; [first [reflexivity|exact W]|]). destruct A' as (_ & A1 & A2). lia.
    - exact (rated_more _ _ _ (proj1 A) X C l j k Hl Hj).
  Qed.
  Lemma ok_rated K m i full (u u' : U) b :
    fan_ok K u -> add_rated_speed sol m i full u = (u', Ok b) -> fan_ok K u'.
  Proof.
    intros (f & F & A & B & C & D) E. apply add_rated_inv in E.
    destruct E as (a & p & f0 & f' & l & w & _ & _ & F0 & Ad & Hl & L1 & L2 & L3 & W & ->).
    assert (f0 = f) by congruence. subst f0.
    destruct (radd_fan _ _ _ _ _ A Ad) as (A' & X & K' & _).
    pose proof (rated_more _ _ _ (proj1 A) X C) as C'. pose proof (rated_more _ _ _ (proj1 A) X D) as D'.
    exists f'. destruct m; (split; [reflexivity|]; split; [exact A'|]; split; [congruence|]; split);
      cbn [u_c u_h wu_side wu_fan wu_c wu_h side_of] in *;
      first [exact C' | exact D' | exact (rated_new _ _ _ _ _ _ _ _ _ _ A Ad C Hl L1 L2 L3 W eq_refl) | exact (rated_new _ _ _ _ _ _ _ _ _ _ A Ad D Hl L1 L2 L3 W eq_refl)].
  Qed.
  Lemma ok_other K m full iq (u u' : U) b :
    fan_ok K u -> other_speed sol m full iq u = (u', Ok b) -> fan_ok K u'.
  Proof.
    intros O E. unfold other_speed in E. cbv zeta in E. destruct (Nat.eqb (fst iq) full).
    { unfold sret in E. apply pair_ok_inj in E. destruct E as [<- _]. exact O. }
    apply sbind_ok in E. destruct E as (s1 & x & E1 & E). unfold sget in E1. apply pair_ok_inj in E1.
    destruct E1 as [<- <-].
    apply sbind_ok in E. destruct E as (s1 & a & E1 & E). apply slift_ok in E1. destruct E1 as [-> _].
    apply sbind_ok in E. destruct E as (s1 & [] & E1 & E). apply (ok_airflow K) in E1; [|exact O].
    apply sbind_ok in E. destruct E as (s2 & [] & E2 & E). apply (ok_design K) in E2; [|exact E1].
    apply sbind_ok in E. destruct E as (s3 & x & E3 & E). unfold sget in E3. apply pair_ok_inj in E3.
    destruct E3 as [<- <-].
    apply sbind_ok in E. destruct E as (s3 & a0 & E3 & E). apply slift_ok in E3. destruct E3 as [-> _].
    exact (ok_rated K m _ _ _ _ _ E2 E).
  Qed.
  Lemma sfold_keep {X S} (I : S -> Prop) (f : X -> st S unit) l :
    (forall x s s' b, I s -> f x s = (s', Ok b) -> I s') ->
    forall s s' b, I s -> sfold f l s = (s', Ok b) -> I s'.
  Proof.
    intros H. induction l as [|x l IH]; intros s s' b Hs E; cbn [sfold] in E.
    - unfold sret in E. apply pair_ok_inj in E. destruct E as [<- _]. exact Hs.
    - apply sbind_ok in E. destruct E as (s1 & y & E1 & E). exact (IH _ _ _ (H _ _ _ _ Hs E1) E).
  Qed.

  Lemma cleared f (s : side R) n : sd_rated_fan_speed s = Some (repeat None n) -> rated_at f s.
  Proof.
    intros H l i k Hl Hi. rewrite H in Hl. assert (l = repeat None n) by congruence. subst l.
    apply nth_error_In in Hi. apply repeat_spec in Hi. discriminate.
  Qed.

  (** The motor stored with the unit is that of its fan. *)
  Definition motor_class (k : motor_type) : fan_class R :=
    match k with MotorPSC => RESNETPSCFan | MotorBPM => RESNETBPMFan end.

  Definition nview (u : U) := (rn_net (u_rn u), rn_gross (u_rn u), rn_map (u_rn u), u_staging u).
  Definition mview (u : U) := rn_motor (u_rn u).
  Definition fview (u : U) := (sd_rated_fan_speed (u_c u), sd_rated_fan_speed (u_h u)).

  Ltac keepf :=
    repeat (first [keep_step
      | match goal with |- keeps _ (on_side ?m _) => destruct m end
      | match goal with |- keeps _ (on_fan _) =>
        let u := fresh in intros u; unfold on_fan; destruct (u_fan u); [|reflexivity];
        match goal with |- context [let (_, _) := ?e in _] => destruct e end; reflexivity end ]; cbv zeta beta);
    try reflexivity.
  Ltac unfan := unfold other_speed, add_rated_speed, add_design_speed, given_fan_speed, put_rated_fan_speed,
    put_fan_speed, last_fan_speed, side_put, put_rn.

  Lemma nview_set_fan input : keeps nview (resnet_set_fan (T:=R) sol input).
  Proof. unfold resnet_set_fan. unfan. keepf. Qed.
  Lemma mview_other m k iq : keeps mview (other_speed (T:=R) sol m k iq).
  Proof. unfan. keepf. Qed.
  Lemma mview_rated m i x : keeps mview (add_rated_speed (T:=R) sol m i x).
  Proof. unfan. keepf. Qed.
  Lemma mview_design m i : keeps mview (add_design_speed (T:=R) m i).
  Proof. unfan. keepf. Qed.
  Lemma mview_put m i k : keeps mview (put_fan_speed (T:=R) m i k).
  Proof. unfan. keepf. Qed.

  Lemma set_fan_ok (u u' : U) b :
    resnet_set_fan sol None u = (u', Ok b) ->
    exists motor, rn_motor (u_rn u') = Some motor /\ fan_ok (motor_class motor) u'.
  Proof.
    intros H. unfold resnet_set_fan in H.
    apply sbind_ok in H. destruct H as (s1 & p & E & H). apply sread_ok in E. destruct E as [-> Ep].
    apply sbind_ok in H. destruct H as (s1 & [] & _ & H). cbv zeta in H.
    apply sbind_ok in H. destruct H as (s2 & [] & _ & H).
    apply sbind_ok in H. destruct H as (s3 & [] & _ & H).
    apply sbind_ok in H. destruct H as (s4 & [] & E4 & H). apply on_side_inv in E4.
    apply sbind_ok in H. destruct H as (s5 & [] & E5 & H). apply on_side_inv in E5.
    assert (V5 : exists n1 n2, fview s5 = (Some (repeat None n1), Some (repeat None n2))).
    { exists (sd_n (u_c s3)), (sd_n (u_h s4)). subst s5 s4. reflexivity. }
    clear E4 E5.
    apply sbind_ok in H. destruct H as (s6 & x & E & H). unfold sget in E. apply pair_ok_inj in E.
    destruct E as [<- <-].
    apply sbind_ok in H. destruct H as (s6 & ac & E & H). apply slift_ok in E. destruct E as [-> Eac].
    apply sbind_ok in H. destruct H as (s6 & [] & E6 & H). apply side_put_inv in E6. destruct E6 as [E6 _].
    apply sbind_ok in H. destruct H as (s7 & ah & E & H). apply slift_ok in E. destruct E as [-> Eah].
    apply sbind_ok in H. destruct H as (s7 & [] & E7 & H). apply side_put_inv in E7. destruct E7 as [E7 _].
    assert (V7 : exists n1 n2, fview s7 = (Some (repeat None n1), Some (repeat None n2))).
    { subst s7 s6. exact V5. }
    clear E6 E7 V5.
    set (motor := match rn_motor (u_rn s5) with Some k => k | None => _ end) in *.
    set (d := if (ac >=? ah)%num then ac else ah) in *.
    apply sbind_ok in H. destruct H as (s8 & [] & E & H). unfold smod in E. apply pair_ok_inj in E.
    destruct E as [E8 _].
    apply sbind_ok in H. destruct H as (s9 & f & E & H). apply slift_ok in E. destruct E as [-> Ef].
    apply rmake in Ef. destruct Ef as (Kf & Af & Nf & Zd).
    assert (Rf : rfan f).
    { split; [unfold rclass; rewrite Kf; destruct motor; auto|]. rewrite Af, Nf. cbn. lia. }
    apply sbind_ok in H. destruct H as (s9 & [] & E & H). unfold smod in E. apply pair_ok_inj in E.
    destruct E as [E9 _].
    assert (O9 : fan_ok (motor_class motor) s9).
    { exists f. subst s9 s8. split; [reflexivity|]. split; [exact Rf|]. split; [exact Kf|].
      destruct V7 as (n1 & n2 & V7).
      split; [apply (cleared f _ n1); exact (f_equal fst V7)|apply (cleared f _ n2); exact (f_equal snd V7)]. }
    assert (M9 : mview s9 = Some motor) by (subst s9 s8; reflexivity).
    exists motor. clearbody motor d. clear E8 E9 V7 Kf Af Nf Rf.
    apply sbind_ok in H. destruct H as (s10 & k & E & H). apply last_inv in E. destruct E as (-> & _).
    apply sbind_ok in H. destruct H as (s11 & [] & E & H).
    assert (O11 : fan_ok (motor_class motor) s11 /\ mview s11 = Some motor).
    { destruct (ac >=? ah)%num; apply sbind_ok in E; destruct E as (z & [] & Z1 & Z2).
      - split; [exact (ok_design _ _ _ _ _ _ (ok_put_fan _ _ _ _ _ _ _ O9 Z1) Z2)|].
        rewrite (keeps_ok mview _ _ _ _ (mview_design _ _) Z2), (keeps_ok mview _ _ _ _ (mview_put _ _ _) Z1). exact M9.
      - split; [exact (ok_design _ _ _ _ _ _ (ok_put_fan _ _ _ _ _ _ _ O9 Z1) Z2)|].
        rewrite (keeps_ok mview _ _ _ _ (mview_design _ _) Z2), (keeps_ok mview _ _ _ _ (mview_put _ _ _) Z1). exact M9. }
    destruct O11 as [O11 M11]. clear E O9 M9.
    apply sbind_ok in H. destruct H as (s12 & [] & E12 & H).
    pose proof (ok_rated _ _ _ _ _ _ _ O11 E12) as O12.
    apply sbind_ok in H. destruct H as (s13 & [] & E13 & H).
    pose proof (ok_rated _ _ _ _ _ _ _ O12 E13) as O13.
    apply sbind_ok in H. destruct H as (s14 & x & E & H). unfold sget in E. apply pair_ok_inj in E.
    destruct E as [<- <-].
    apply sbind_ok in H. destruct H as (s14 & [] & E14 & H).
    pose proof (sfold_keep (fan_ok (motor_class motor)) _ _
      (fun x s s' b => ok_other _ Cooling _ x s s' b) _ _ _ O13 E14) as O14.
    apply sbind_ok in H. destruct H as (s15 & x & E & H). unfold sget in E. apply pair_ok_inj in E.
    destruct E as [<- <-].
    split.
    - change (mview u' = Some motor).
      rewrite (keeps_ok mview _ _ _ _ (keeps_fold mview _ _ (mview_other Heating _)) H).
      rewrite (keeps_ok mview _ _ _ _ (keeps_fold mview _ _ (mview_other Cooling _)) E14).
      rewrite (keeps_ok mview _ _ _ _ (mview_rated _ _ _) E13), (keeps_ok mview _ _ _ _ (mview_rated _ _ _) E12).
      exact M11.
    - exact (sfold_keep (fan_ok (motor_class motor)) _ _
      (fun x s s' b => ok_other _ Heating _ x s s' b) _ _ _ O14 H).
  Qed.
End RatedFan.
