(** Lemmas for C32-C35. *)
From Coq Require Import Reals QArith Lra Psatz Lia List Bool String.
From Verif.Base Require Import Num Res Tac.
From Verif.Model Require Import Units Util Psychrometrics Conditions Defrost Fan Curves
  Tabular Unit NREL BaseModel Title24 Resnet DXUnit.
From Verif.Spec Require Import NrelSpec ModelSpec.
From Verif.Proofs Require Import UnitsR MakeCond NrelProofs NrelProofs2 T24Cache.
Import ListNotations.
Local Open Scope R_scope.

(** * C32 *)
Lemma carrier_eq (c : cond R) :
  carrier_fdef c = carrier_fraction (degF (ps_db (c_outdoor c))).
Proof.
  unfold carrier_fdef, carrier_fraction. rewrite <- to_F_degF.
  rewrite <- (fr_to_F (ps_db (c_outdoor c))) at 1.
  set (t := to_F (ps_db (c_outdoor c))). clearbody t.
  cbv [interp1d interp1d_from carrier_table]. unfold fr_F. rnum.
  repeat destruct (Rle_dec _ _); rcases; lra.
Qed.

Lemma carrier_bounds t : 0.075 <= carrier_fraction t <= 0.11.
Proof. unfold carrier_fraction. repeat destruct (Rle_dec _ _); lra. Qed.

Lemma carrier_lipschitz t t' :
  Rabs (carrier_fraction t - carrier_fraction t') <= 0.0025 * Rabs (t - t').
Proof.
  unfold carrier_fraction.
  assert (H : - Rabs (t - t') <= t - t' <= Rabs (t - t')).
  { unfold Rabs. destruct (Rcase_abs _); lra. }
  set (a := Rabs (t - t')) in *. clearbody a.
  unfold Rabs. destruct (Rcase_abs _);
  destruct (Rle_dec t (-20)), (Rle_dec t' (-20)); try lra;
  destruct (Rle_dec t 17), (Rle_dec t' 17); try lra;
  destruct (Rle_dec t 27), (Rle_dec t' 27); try lra;
  destruct (Rle_dec t 37), (Rle_dec t' 37); try lra.
Qed.

Lemma carrier_integrated steady u c s :
  steady u c = Ok s ->
  carrier_gross_integrated_heating_capacity (T:=R) steady u c
  = Ok (if in_defrost (u_defrost u) c
        then s * (1 - carrier_fraction (degF (ps_db (c_outdoor c)))) else s).
Proof.
  intros H. unfold carrier_gross_integrated_heating_capacity.
  destruct (in_defrost (u_defrost u) c); [|auto].
  rewrite H. cbn [rbind]. rewrite carrier_eq, lit1_R. reflexivity.
Qed.

Lemma carrier_reduction steady u c s v :
  steady u c = Ok s -> 0 <= s ->
  carrier_gross_integrated_heating_capacity (T:=R) steady u c = Ok v ->
  (in_defrost (u_defrost u) c = false -> v = s)
  /\ (in_defrost (u_defrost u) c = true -> 0.89 * s <= v <= 0.925 * s).
Proof.
  intros H Hs Hv. rewrite (carrier_integrated steady u c s H) in Hv.
  apply Ok_inj in Hv. subst v. pose proof (carrier_bounds (degF (ps_db (c_outdoor c)))).
  split; intros ->; [auto|]. nra.
Qed.

(** * C33 *)
Ltac rinner :=
  repeat (match goal with
          | |- context [Rltb ?a ?b] =>
              lazymatch a with context [Rltb] => fail | _ =>
              lazymatch b with context [Rltb] => fail | _ =>
              destruct (Rltb_spec a b) end end
          end; try lra).
Lemma t24_cd_bounds (h : R) : 0.05 <= t24_c_d_heating h <= 0.25.
Proof. unfold t24_c_d_heating. rnum. rcases; lra. Qed.
Lemma t24_cd_antitone (h h' : R) : h <= h' -> t24_c_d_heating h' <= t24_c_d_heating h.
Proof. intros H. unfold t24_c_d_heating. rnum. rinner. Qed.

Lemma eer_drops : eer_rated (T:=R) 15.999 > eer_rated 16.
Proof. unfold eer_rated. rnum. rcases; lra. Qed.
Lemma ratio_drops : cap17_ratio_rated (T:=R) 7.499 > cap17_ratio_rated 7.5.
Proof. unfold cap17_ratio_rated. rnum. rcases; lra. Qed.
Lemma ratio_eq (h : R) : cap17_ratio_rated h = t24_ratio h.
Proof.
  unfold cap17_ratio_rated, t24_ratio. rnum. repeat destruct (Rlt_dec _ _); rcases; lra.
Qed.

Lemma find_absent (u : dxunit R) key :
  find (fun x => String.eqb key (fst x)) (u_kwargs u) = None -> not_supplied u key.
Proof.
  intros H v Hin. pose proof (find_none _ _ H _ Hin) as E. simpl in E.
  rewrite String.eqb_refl in E. discriminate.
Qed.
Lemma kwarg_supplied (u : dxunit R) key i x :
  kwarg_entry key u i = Some (Ok x) -> supplied u key i x.
Proof.
  unfold kwarg_entry, supplied.
  destruct (find _ (u_kwargs u)) as [[k v]|] eqn:E; [|discriminate].
  destruct v; try discriminate. intros H. injection H as H. apply geti_ok in H.
  exists l. split; [|auto].
  apply find_some in E. destruct E as [_ E]. apply String.eqb_eq in E. simpl in E.
  subst. reflexivity.
Qed.
Lemma kwarg_absent (u : dxunit R) key i : kwarg_entry key u i = None -> not_supplied u key.
Proof.
  unfold kwarg_entry.
  destruct (find _ (u_kwargs u)) as [[k v]|] eqn:E.
  - destruct v; discriminate.
  - intros _. apply find_absent; auto.
Qed.

Lemma v17_anchor u i x : v17 u i = Ok x -> anchor17 u i x.
Proof.
  unfold v17. destruct (kwarg_entry "cap17" u i) as [r|] eqn:E; intros H.
  - left. apply kwarg_supplied. congruence.
  - right. split; [eapply kwarg_absent; eauto|].
    apply rbind_ok in H. destruct H as (q & Hq & H). apply geti_ok in Hq.
    apply rbind_ok in H. destruct H as (hs & Hh & H). apply need_ok in Hh.
    apply Ok_inj in H. subst x. rewrite ratio_eq. exists hs, q. auto.
Qed.
Lemma p17_anchor u i x : p17 u i = Ok x -> anchor17 u i x.
Proof. unfold p17. destruct (i <? _)%nat; [apply v17_anchor|discriminate]. Qed.
Lemma p35_anchor u i x : p35 u i = Ok x -> anchor35 u i x.
Proof.
  unfold p35. destruct (i <? _)%nat; [|discriminate].
  unfold v35. destruct (kwarg_entry "cap35" u i) as [r|] eqn:E; intros H.
  - left. apply kwarg_supplied. congruence.
  - right. split; [eapply kwarg_absent; eauto|].
    apply rbind_ok in H. destruct H as (q & Hq & H). apply geti_ok in Hq.
    apply rbind_ok in H. destruct H as (q17 & H17 & H). apply p17_anchor in H17.
    apply Ok_inj in H. subst x. exists q17, q. split; [auto|]. split; [auto|].
    replace ((35 - 17) / (47 - 17)) with 0.6 by lra.
    unfold has_defrost. destruct (df_strategy (u_defrost u)); rnum; lra.
Qed.

(** What a call returns from any correct cache. *)
Lemma capacity_value u c d d' v : capok u d ->
  t24_heating_capacity u c d = (d', Ok v) ->
  exists q47 q17 w, anchor47 u (c_speed c) q47 /\ anchor17 u (c_speed c) q17
    /\ entry (sd_fan_power (u_h u)) (c_speed c) w
    /\ v = q17 + (q47 - q17) / (47 - 17) * (degF (ps_db (c_outdoor c)) - 17) - w.
Proof.
  intros Hd H. unfold t24_heating_capacity in H. cbv zeta in H.
  apply sbind_ok in H. destruct H as (d1 & q47 & E1 & H).
  apply slift_ok in E1. destruct E1 as [-> E1]. apply geti_ok in E1.
  apply sbind_ok in H. destruct H as (d2 & q17 & E2 & H).
  destruct (get_cap17_pure u c d Hd) as (d2' & E2' & _).
  rewrite E2' in E2. injection E2 as <- E2. apply p17_anchor in E2.
  apply sbind_ok in H. destruct H as (d3 & w & E3 & H).
  apply slift_ok in E3. destruct E3 as [-> E3]. apply arr_ok in E3.
  unfold sret in H. apply pair_ok_inj in H. destruct H as [_ <-].
  exists q47, q17, w. repeat (split; [assumption|]).
  rewrite to_F_degF. set (t := degF _). clearbody t. rnum. field.
Qed.

Lemma icapacity_value u c d d' v : capok u d ->
  t24_integrated_capacity u c d = (d', Ok v) ->
  exists q47 q17 q35 w, anchor47 u (c_speed c) q47 /\ anchor17 u (c_speed c) q17
    /\ anchor35 u (c_speed c) q35 /\ entry (sd_fan_power (u_h u)) (c_speed c) w
    /\ let t := degF (ps_db (c_outdoor c)) in
       v = if in_defrost (u_defrost u) c then
             if Rlt_dec 17 t then if Rlt_dec t 45
             then q17 + (q35 - q17) / (35 - 17) * (t - 17) - w
             else q17 + (q47 - q17) / (47 - 17) * (t - 17) - w
             else q17 + (q47 - q17) / (47 - 17) * (t - 17) - w
           else q17 + (q47 - q17) / (47 - 17) * (t - 17) - w.
Proof.
  intros Hd H. unfold t24_integrated_capacity in H. cbv zeta in H.
  apply sbind_ok in H. destruct H as (d1 & q47 & E1 & H).
  apply slift_ok in E1. destruct E1 as [-> E1]. apply geti_ok in E1.
  apply sbind_ok in H. destruct H as (d2 & q17 & E2 & H).
  destruct (get_cap17_pure u c d Hd) as (d2' & E2' & Hd2 & _).
  rewrite E2' in E2. injection E2 as <- E2. apply p17_anchor in E2.
  apply sbind_ok in H. destruct H as (d3 & q35 & E3 & H).
  destruct (get_cap35_pure u c d2' Hd2) as (d3' & E3' & _).
  rewrite E3' in E3. injection E3 as <- E3. apply p35_anchor in E3.
  apply sbind_ok in H. destruct H as (d4 & w & E4 & H).
  apply slift_ok in E4. destruct E4 as [-> E4]. apply arr_ok in E4.
  unfold sret in H. apply pair_ok_inj in H. destruct H as [_ <-].
  exists q47, q17, q35, w. repeat (split; [assumption|]). cbv zeta.
  unfold uses_defrost_line. rewrite to_F_degF.
  set (t := degF _). clearbody t.
  destruct (in_defrost (u_defrost u) c); cbn [andb].
  - rnum. destruct (Rlt_dec 17 t), (Rlt_dec t 45); rcases; cbn [andb]; field.
  - rnum. field.
Qed.

Lemma anchor17_fun u i q q' : anchor17 u i q -> anchor17 u i q' -> q = q'.
Proof.
  intros [(l & H1 & H2)|(H1 & h & p & H2 & H3 & H4)] [(l' & G1 & G2)|(G1 & h' & p' & G2 & G3 & G4)].
  - congruence.
  - exfalso. apply find_some in H1. destruct H1 as [H1 _]. eapply G1; eauto.
  - exfalso. apply find_some in G1. destruct G1 as [G1 _]. eapply H1; eauto.
  - unfold anchor47 in *. congruence.
Qed.
Lemma anchor35_fun u i q q' : anchor35 u i q -> anchor35 u i q' -> q = q'.
Proof.
  intros [(l & H1 & H2)|(H1 & h & p & H2 & H3 & H4)] [(l' & G1 & G2)|(G1 & h' & p' & G2 & G3 & G4)].
  - congruence.
  - exfalso. apply find_some in H1. destruct H1 as [H1 _]. eapply G1; eauto.
  - exfalso. apply find_some in G1. destruct G1 as [G1 _]. eapply H1; eauto.
  - unfold anchor47 in *. rewrite (anchor17_fun _ _ _ _ H2 G2) in *. congruence.
Qed.

Lemma capok_blank u : capok u blank_t24.
Proof. split; exact I. Qed.

Lemma t24_steady_anchors sol u c v q47 q17 w :
  md_ghc (Title24DXModel sol) u c = Ok v ->
  anchor47 u (c_speed c) q47 -> anchor17 u (c_speed c) q17 ->
  entry (sd_fan_power (u_h u)) (c_speed c) w ->
  (degF (ps_db (c_outdoor c)) = 47 -> v = q47 - w)
  /\ (degF (ps_db (c_outdoor c)) = 17 -> v = q17 - w).
Proof.
  intros H H47 H17 Hw. cbn [md_ghc Title24DXModel] in H. unfold fresh in H.
  destruct (t24_heating_capacity u c blank_t24) as [d' r] eqn:E. simpl in H. subst r.
  destruct (capacity_value u c _ _ _ (capok_blank u) E) as (a & b & x & A & B & X & ->).
  unfold anchor47, entry in *.
  assert (a = q47) by congruence. assert (x = w) by congruence.
  assert (b = q17) by (eapply anchor17_fun; eauto). subst.
  split; intros ->; lra.
Qed.

Lemma t24_integrated_anchors sol u c v q17 q35 q47 w :
  md_gihc (Title24DXModel sol) u c = Ok v ->
  anchor17 u (c_speed c) q17 -> anchor35 u (c_speed c) q35 -> anchor47 u (c_speed c) q47 ->
  entry (sd_fan_power (u_h u)) (c_speed c) w ->
  (degF (ps_db (c_outdoor c)) = 17 -> v = q17 - w)
  /\ (degF (ps_db (c_outdoor c)) = 35 -> in_defrost (u_defrost u) c = true -> v = q35 - w)
  /\ (degF (ps_db (c_outdoor c)) = 47 -> v = q47 - w).
Proof.
  intros H H17 H35 H47 Hw. cbn [md_gihc Title24DXModel] in H. unfold fresh in H.
  destruct (t24_integrated_capacity u c blank_t24) as [d' r] eqn:E. simpl in H. subst r.
  destruct (icapacity_value u c _ _ _ (capok_blank u) E)
    as (a & b & b' & x & A & B & B' & X & Hv).
  unfold anchor47, entry in *.
  assert (a = q47) by congruence. assert (x = w) by congruence.
  assert (b = q17) by (eapply anchor17_fun; eauto).
  assert (b' = q35) by (eapply anchor35_fun; eauto). subst.
  split; [|split].
  - intros ->. destruct (in_defrost _ _); [|lra].
    destruct (Rlt_dec 17 17); [lra|]. lra.
  - intros -> ->. destruct (Rlt_dec 17 35); [|lra]. destruct (Rlt_dec 35 45); lra.
  - intros ->. destruct (in_defrost _ _); [|lra].
    destruct (Rlt_dec 17 47); [|lra]. destruct (Rlt_dec 47 45); lra.
Qed.

Lemma carrier_fdef_bounds (c : cond R) :
  carrier_fdef c = carrier_fraction (degF (ps_db (c_outdoor c)))
  /\ 0.075 <= carrier_fdef c <= 0.11.
Proof. rewrite carrier_eq. split; [reflexivity|]. apply carrier_bounds. Qed.
Lemma carrier_fdef_lipschitz (c c' : cond R) :
  Rabs (carrier_fdef c - carrier_fdef c')
  <= 0.0025 * Rabs (degF (ps_db (c_outdoor c)) - degF (ps_db (c_outdoor c'))).
Proof. rewrite !carrier_eq. apply carrier_lipschitz. Qed.
