(** HSPF: units that have a rating, and bounds for it (C46, C47, C58). *)
From Coq Require Import Reals QArith Lra Psatz Lia List Bool.
From Verif.Base Require Import Num Res Tac.
From Verif.Model Require Import Units Util Psychrometrics Conditions Defrost Fan Curves
  Tabular Unit DXUnit.
From Verif.Spec Require Import UtilSpec UnitSpec SeasonSpec.
From Verif.Proofs Require Import UnitsR UtilProofs UnitProofs3 UnitProofs4 SeerProofs
  HspfProofs.
Import ListNotations.
Local Open Scope R_scope.
Local Notation U := (dxunit R).

(** * Sums *)
Lemma over_add n f g : over n (fun i => f i + g i) = over n f + over n g.
Proof. induction n; [unfold over, total; simpl; lra|]. rewrite !over_S, IHn. lra. Qed.
Lemma over_nonneg n f : (forall i, (i < n)%nat -> 0 <= f i) -> 0 <= over n f.
Proof.
  induction n; intros H; [unfold over, total; simpl; lra|]. rewrite over_S.
  specialize (IHn ltac:(intros i I; apply H; lia)). specialize (H n ltac:(lia)). lra.
Qed.
Lemma over_some n f j : (j < n)%nat -> 0 < f j -> (forall i, (i < n)%nat -> 0 <= f i) ->
  0 < over n f.
Proof.
  induction n; intros J P H; [lia|]. rewrite over_S.
  assert (N := over_nonneg n f ltac:(intros i I; apply H; lia)).
  pose proof (H n ltac:(lia)). destruct (Nat.eq_dec j n) as [->|E]; [lra|].
  specialize (IHn ltac:(lia) P ltac:(intros i I; apply H; lia)). lra.
Qed.

(** The part of a bin run at [lo..hi]: heat [m] from energy [C], for the fraction [run] of
    the time, the rest of the load [bl] by resistance. *)
Lemma balance run m C bl lo hi lo' hi' :
  0 <= run <= 1 -> 0 <= C -> lo * C <= m <= hi * C -> m <= bl -> 0 <= bl ->
  lo' <= lo -> lo' <= 1 -> hi <= hi' -> 1 <= hi' -> 
  lo' * (run * C + (bl - run * m)) <= bl <= hi' * (run * C + (bl - run * m)).
Proof.
  intros R C0 [A B] M Z L1 L2 U1 U2.
  assert (X : 0 <= run * C) by nra.
  assert (Y1 : lo * (run * C) <= run * m) by nra.
  assert (Y2 : run * m <= hi * (run * C)) by nra.
  assert (Y3 : run * m <= bl) by nra.
  set (x := run * C) in *. set (y := run * m) in *. split; nra.
Qed.

Lemma season_bounds (n bl E RH : nat -> R) credit lo hi :
  (forall i, (i < 18)%nat -> 0 <= n i) -> 0 <= credit -> 0 <= hi ->
  (forall i, (i < 18)%nat -> lo * (E i + RH i) <= bl i <= hi * (E i + RH i)) ->
  0 < over 18 (fun i => n i * bl i) ->
  0 < over 18 (fun i => n i * E i) + over 18 (fun i => n i * RH i)
  /\ Btu_Wh (lo * credit) <= seasonal_heating n bl E RH credit <= Btu_Wh (hi * credit).
Proof.
  intros N C H B P.
  set (D := over 18 (fun i => n i * E i) + over 18 (fun i => n i * RH i)).
  set (S := over 18 (fun i => n i * bl i)) in *.
  assert (X : lo * D <= S <= hi * D).
  { unfold D, S. rewrite <- over_add, <- !over_scale.
    split; apply over_le; intros i I; specialize (N i I); specialize (B i I); nra. }
  assert (D0 : 0 < D).
  { destruct (Rlt_le_dec 0 D) as [Y|Y]; [exact Y|exfalso]. nra. }
  split; [exact D0|].
  assert (Y : lo <= S / D <= hi).
  { split; apply (Rmult_le_reg_r D); try exact D0;
      (replace (S / D * D) with S by (field; lra)); lra. }
  unfold seasonal_heating. fold S D. split; apply Btu_Wh_le; nra.
Qed.

(** * The loop succeeds *)
Lemma sums_ok (u : U) on d load L H1 H2 H3 bin (I : nat -> option R -> Prop) :
  List.length (hd_hours d) = 18%nat -> u_heating_on u = Some on ->
  (forall t, load t = Ok (L t)) -> pt_t H1 <> pt_t H3 -> pt_t H2 <> pt_t H3 ->
  I 0%nat None ->
  (forall i dl, (i < 18)%nat -> I i dl ->
     let t := heat_t i in
     let qf := full_line q_at H1 H2 H3 t in let pf := full_line p_at H1 H2 H3 t in
     pf <> 0 /\ (L t < qf -> qf <> 0)
     /\ exists r, bin (L t) t qf pf (run_fraction (u_heating_off u) on t (qf / pf))
                    (load_factor (L t) qf) (hours_of d i) dl = Ok r
                  /\ I (S i) (snd r)) ->
  exists acc, hspf_sums u d load H1 H2 H3 bin = Ok acc.
Proof.
  intros Len On Ld N1 N2 I0 B. unfold hspf_sums. rewrite (bins_eq _ Len).
  match goal with |- exists acc, rfold ?f _ _ = _ => set (g := f) end.
  assert (G : forall n k acc, (k + n <= 18)%nat -> I k (h_delta_low acc) ->
    exists acc', rfold g acc (map (fun i => (heat_t i, nth i (hd_hours d) 0)) (seq k n))
                 = Ok acc').
  { induction n as [|n IH]; intros k acc K Ia; cbn [seq map rfold]; [eauto|].
    destruct (B k (h_delta_low acc) ltac:(lia) Ia) as (P & Q & r & Hr & Hi).
    assert (E : exists a1, g acc (heat_t k, nth k (hd_hours d) 0) = Ok a1
                           /\ h_delta_low a1 = snd r).
    { unfold g. rewrite Ld. cbn [rbind].
      rewrite (full_ok pt_q q_at) by (try exact N1; try exact N2; reflexivity). cbn [rbind].
      rewrite (full_ok pt_p p_at) by (try exact N1; try exact N2; reflexivity). cbn [rbind].
      rewrite pydiv_ok by exact P. cbn [rbind].
      rewrite (cut_ok u on _ _ On). cbn [rbind].
      set (qf := full_line q_at H1 H2 H3 (heat_t k)) in *.
      set (pf := full_line p_at H1 H2 H3 (heat_t k)) in *.
      assert (F : (if nltb (L (heat_t k)) qf then pydiv (L (heat_t k)) qf else Ok (lit 1))
                  = Ok (load_factor (L (heat_t k)) qf)).
      { unfold load_factor. cbn [nltb RNum].
        destruct (Rltb_spec (L (heat_t k)) qf), (Rlt_dec (L (heat_t k)) qf); try lra.
        - apply pydiv_ok. auto.
        - rewrite lit1_R. reflexivity. }
      rewrite F. cbn [rbind]. unfold hours_of in Hr. rewrite Hr. cbn [rbind].
      destruct r as [[e rh] dl]. eexists. split; reflexivity. }
    destruct E as (a1 & E1 & E2). rewrite E1. cbn [rbind]. apply IH; [lia|].
    rewrite E2. exact Hi. }
  apply (G 18%nat 0%nat); [lia|exact I0].
Qed.

(** * The climates *)
Lemma nonneg_fractions h s l : (forall x, In x h -> 0 <= x) -> 0 <= s ->
  rmapM (fun n => pydiv n s) h = Ok l -> forall x, In x l -> 0 <= x.
Proof.
  revert l. induction h as [|a h IH]; intros l P S H x X; cbn [rmapM] in H.
  - apply Ok_inj in H. subst l. contradiction.
  - apply rbind_ok in H. destruct H as (y & Hy & H). apply pydiv_inv in Hy.
    destruct Hy as [N ->]. apply rbind_ok in H. destruct H as (m & Hm & H).
    apply Ok_inj in H. subst l. destruct X as [<-|X].
    + apply Rle_mult_inv_pos; [apply P; left; reflexivity|lra].
    + apply (IH m); auto. intros z Z. apply P. right. exact Z.
Qed.
Lemma total_nonneg (l : list R) : (forall x, In x l -> 0 <= x) -> 0 <= nsum l.
Proof.
  intros P. unfold nsum.
  assert (G : forall a, 0 <= a -> 0 <= fold_left nadd l a).
  { induction l as [|x l IH]; intros a A; cbn [fold_left]; [exact A|].
    apply IH; [intros z Z; apply P; right; exact Z|]. cbn [nadd RNum].
    specialize (P x ltac:(left; reflexivity)). lra. }
  apply G. rewrite lit0_R. lra.
Qed.
Lemma HD_nonneg design (h : list R) c cv z d : (forall x, In x h -> 0 <= x) ->
  HeatingDistribution design h c cv z = Ok d -> forall x, In x (hd_hours d) -> 0 <= x.
Proof.
  intros P H. unfold HeatingDistribution in H. apply rbind_ok in H. destruct H as (l & Hl & H).
  destruct (Nat.eqb _ _) in H; [|discriminate]. apply Ok_inj in H. subst d. cbn [hd_hours].
  destruct orb.
  - intros x X. eapply nonneg_fractions; [exact P|apply total_nonneg, P|exact Hl|exact X].
  - apply Ok_inj in Hl. subst l. exact P.
Qed.
Lemma hours_nonneg (l : list Q) : (forall q, In q l -> (0 <= q)%Q) ->
  forall x, In x (hours (T:=R) l) -> 0 <= x.
Proof.
  intros P x X. unfold hours in X. apply in_map_iff in X. destruct X as (q & <- & Q).
  unfold lit. cbn [nq RNum]. replace 0 with (Q2R 0) by (unfold Q2R; simpl; lra).
  apply Qreals.Qle_Rle. specialize (P q Q). unfold Qdiv.
  setoid_replace 0%Q with (0 * / 1000)%Q by reflexivity.
  apply Qmult_le_compat_r; [exact P|]. discriminate.
Qed.
Lemma climate_hours (u : U) region d : climate u region = Ok d ->
  forall i, 0 <= hours_of d i.
Proof.
  intros H i. unfold hours_of.
  assert (P : forall x, In x (hd_hours d) -> 0 <= x).
  { unfold climate in H. destruct (u_standard u); unfold distribution_2017, distribution_2023 in H;
      do 7 (destruct region as [|region]; try discriminate H;
            try (eapply HD_nonneg; [|exact H]; apply hours_nonneg; intros q Q;
                 cbn [In] in Q; repeat (destruct Q as [<-|Q]; [discriminate|]); contradiction)). }
  destruct (nth_in_or_default i (hd_hours d) 0) as [X|X]; [apply P, X|lra].
Qed.

Lemma first_nearest_unique l v a b : first_nearest l v a -> first_nearest l v b -> a = b.
Proof.
  intros (i & A1 & A2 & A3) (j & B1 & B2 & B3).
  assert (IA : In a l) by (eapply nth_error_In; exact A1).
  assert (IB : In b l) by (eapply nth_error_In; exact B1).
  destruct (Nat.lt_trichotomy i j) as [C|[C|C]].
  - specialize (B3 i a C A1). specialize (A2 b IB). lra.
  - congruence.
  - specialize (A3 j b C B1). specialize (B2 a IA). lra.
Qed.

Lemma tested_unique q p (u : U) oc P Q : tested q p u oc P -> tested q p u oc Q -> P = Q.
Proof.
  intros (c & C & T1 & Q1 & P1) (c' & C' & T2 & Q2 & P2). rewrite C in C'.
  injection C' as <-. rewrite Q1 in Q2. apply Ok_inj in Q2. rewrite P1 in P2.
  apply Ok_inj in P2. destruct P as [a1 a2 a3], Q as [b1 b2 b3]. cbn [pt_t pt_q pt_p] in *. congruence.
Qed.

Section Total.
  Variable sol : solvers R.
  Variable M : dxmodel R.

  Lemma load_ok (u : U) d H1 L :
    heating_test sol M u (rc_H1_full (u_conds u)) H1 -> heat_load sol M u d L ->
    exists load, hspf_load sol M u d (pt_q H1) = Ok load /\ forall t, load t = Ok (L t).
  Proof.
    intros T1 HL. unfold heat_load in HL. unfold hspf_load. destruct (u_standard u).
    - destruct HL as (P & dhr & TP & F & N & E). rewrite (tested_unique _ _ _ _ _ _ TP T1) in F.
      rewrite requirements_eq.
      destruct (find_nearest_first
        (nmul (pt_q H1) (fr_F (lit 65) - hd_design d) / fr_degR (lit 60))%num
        design_requirements) as (r & Hr & Fr); [discriminate|].
      rewrite Hr. cbn [rbind]. eexists. split; [reflexivity|]. intros t.
      rewrite !fr_F_deg in *. replace (lit (T:=R) 65) with 65 in * by (rnum; lra).
      cbv beta. rewrite heating_load_ok by (cbn [nsub RNum]; lra). f_equal. rewrite E.
      replace (deg_F 60 - deg_F 0) with (fr_degR (T:=R) (lit 60)) in F
        by (unfold fr_degR, deg_F; rnum; lra).
      assert (D : r = dhr) by (eapply first_nearest_unique; [exact Fr|exact F]).
      subst r. cbn [nsub RNum]. replace (lit (T:=R) 0.77) with 0.77 by (rnum; lra).
      reflexivity.
    - destruct HL as (c & zl & cA & qA & C & Z & HA & Q & N & E).
      rewrite C, Z. cbn [need rbind]. unfold rating. rewrite HA. cbn [need rbind].
      rewrite Q. cbn [rbind]. eexists. split; [reflexivity|]. intros t.
      cbv beta. rewrite heating_load_ok by (cbn [nsub RNum]; lra). rewrite E. reflexivity.
  Qed.

  (** Put together: the three tests, the load, the loop and the final division. *)
  Lemma value_ok (u : U) s credit :
    demand_credit (u_defrost u) = Ok credit -> h_e s + h_rh s <> 0 ->
    (let! credit := demand_credit (u_defrost u) in
     let! r := pydiv (h_q s) (nadd (h_e s) (h_rh s)) in
     Ok (to_Btu_Wh (nmul r credit))) = Ok (Btu_Wh (h_q s / (h_e s + h_rh s) * credit)).
  Proof.
    intros C N. rewrite C. cbn [rbind]. rewrite pydiv_ok by exact N. cbn [rbind].
    rewrite to_Btu_Wh_spec. reflexivity.
  Qed.

  Lemma div_bounds q p lo hi : 0 < p -> lo <= q / p <= hi -> lo * p <= q <= hi * p.
  Proof. intros P K. apply cop_of in K; [lra|exact P]. Qed.

  Lemma cycling_bounds0 cd bl q p lo hi :
    0 <= cd < 1 -> 0 <= bl <= q -> 0 < q -> 0 < p -> 0 < lo -> lo <= q / p <= hi ->
    0 <= cycling cd (bl / q) p
    /\ (1 - cd) * lo * cycling cd (bl / q) p <= bl <= hi * cycling cd (bl / q) p.
  Proof.
    intros D [B Q] Q0 P L K. destruct (Rle_lt_or_eq_dec 0 bl B) as [X|<-].
    - destruct (cycling_bounds cd bl q p lo hi D (conj X Q) P L K) as (Y & Z). split; lra.
    - assert (E : cycling cd (0 / q) p = 0) by (unfold cycling, Rdiv; ring).
      rewrite E. lra.
  Qed.

  Lemma factor_bounds cd bl q p lo hi :
    0 <= cd < 1 -> 0 <= bl -> 0 < q -> 0 < p -> 0 < lo -> lo <= q / p <= hi ->
    0 <= cycling cd (load_factor bl q) p
    /\ (1 - cd) * lo * cycling cd (load_factor bl q) p <= Rmin bl q
       <= hi * cycling cd (load_factor bl q) p.
  Proof.
    intros D B Q P L K. unfold load_factor. destruct (Rlt_dec bl q).
    - rewrite Rmin_left by lra. apply cycling_bounds0; auto. lra.
    - rewrite Rmin_right by lra.
      assert (E : cycling cd 1 p = p) by (unfold cycling; field; lra). rewrite E.
      apply (div_bounds q p lo hi P) in K. nra.
  Qed.

  Lemma degraded cd x : 0 <= cd < 1 -> 0 <= x <= 1 -> 1 - cd * (1 - x) <> 0.
  Proof. intros. nra. Qed.
  Lemma part q bl : 0 < q -> 0 <= bl <= q -> 0 <= bl / q <= 1.
  Proof.
    intros Q B. split; [apply Rle_mult_inv_pos; lra|]. apply (Rmult_le_reg_r q); [exact Q|].
    replace (bl / q * q) with bl by (field; lra). lra.
  Qed.

  Lemma hspf_single_total (u : U) region on d H1 H2 H3 L credit lo hi :
    u_staging u = SINGLE_STAGE -> u_heating_on u = Some on ->
    climate u region = Ok d ->
    heating_test sol M u (rc_H1_full (u_conds u)) H1 ->
    frost_test sol M u (rc_H2_full (u_conds u)) H2 ->
    heating_test sol M u (rc_H3_full (u_conds u)) H3 ->
    pt_t H1 <> pt_t H3 -> pt_t H2 <> pt_t H3 ->
    heat_load sol M u d L -> 0 < over 18 (fun i => hours_of d i * L (heat_t i)) ->
    demand_credit (u_defrost u) = Ok credit -> 0 <= credit ->
    0 <= sd_cd (u_h u) < 1 -> 0 < lo ->
    (forall i, (i < 18)%nat ->
       let q := full_line q_at H1 H2 H3 (heat_t i) in
       let p := full_line p_at H1 H2 H3 (heat_t i) in
       0 < q /\ 0 < p /\ lo <= q / p <= hi) ->
    exists v, hspf sol M u region = Ok v
      /\ v = seasonal_heating (hours_of d) (fun i => L (heat_t i))
               (single_energy (u_heating_off u) on (sd_cd (u_h u)) L H1 H2 H3)
               (single_resistance (u_heating_off u) on L H1 H2 H3) credit
      /\ Btu_Wh (Rmin ((1 - sd_cd (u_h u)) * lo) 1 * credit) <= v
         <= Btu_Wh (Rmax hi 1 * credit).
  Proof.
    intros S On Hd T1 T2 T3 N1 N2 HL Lpos Cr C0 D L0 K.
    set (off := u_heating_off u). set (cd := sd_cd (u_h u)) in *.
    pose proof (heat_load_pos sol M u d L HL) as LP.
    destruct (load_ok u d H1 L T1 HL) as (load & Hl & Ld).
    pose proof (climate_length u region d Hd) as Len.
    destruct (sums_ok u on d load L H1 H2 H3 (hspf_bin_single u) (fun _ _ => True))
      as [s Hs]; auto.
    { intros i dl I _. destruct (K i I) as (Q & P & _). cbv zeta.
      split; [lra|]. split; [lra|]. unfold hspf_bin_single.
      assert (X : 0 <= load_factor (L (heat_t i)) (full_line q_at H1 H2 H3 (heat_t i)) <= 1).
      { unfold load_factor. destruct Rlt_dec; [|lra]. apply part; auto.
        specialize (LP (heat_t i)). lra. }
      rewrite pydiv_ok by (rewrite lit1_R; cbn [nsub nmul RNum]; apply degraded; assumption).
      cbn [rbind]. eauto. }
    destruct (sums_single u on d load L H1 H2 H3 s Len On Ld Hs) as (Eq & Ee & Er).
    destruct (season_bounds (hours_of d) (fun i => L (heat_t i))
      (single_energy off on cd L H1 H2 H3) (single_resistance off on L H1 H2 H3)
      credit (Rmin ((1 - cd) * lo) 1) (Rmax hi 1)) as [Dpos B].
    - intros i _. apply (climate_hours u region d Hd).
    - exact C0.
    - apply Rle_trans with 1; [lra|apply Rmax_r].
    - intros i I. destruct (K i I) as (Q & P & Kb). 
      unfold single_resistance, single_energy, single_heat.
      destruct (factor_bounds cd (L (heat_t i)) (full_line q_at H1 H2 H3 (heat_t i))
        (full_line p_at H1 H2 H3 (heat_t i)) lo hi D (LP _) Q P L0 Kb) as (X & Y).
      apply (balance _ _ _ _ ((1 - cd) * lo) hi); auto.
      + apply run_bounds.
      + apply Rmin_l.
      + apply Rmin_l.
      + apply Rmin_r.
      + apply Rmax_l.
      + apply Rmax_r.
    - exact Lpos.
    - eexists. split; [|split; [reflexivity|exact B]]. unfold hspf.
      fold (climate u region). rewrite Hd. cbn [rbind].
      unfold hspf_with, heating_point, frost_point.
      rewrite (proj1 (tested_point _ _ _ _ _) T1). cbn [rbind].
      rewrite (proj1 (tested_point _ _ _ _ _) T2). cbn [rbind].
      rewrite (proj1 (tested_point _ _ _ _ _) T3). cbn [rbind].
      rewrite Hl. cbn [rbind]. rewrite S, Hs. cbn [rbind].
      rewrite (value_ok u s credit Cr).
      + rewrite Eq, Ee, Er. reflexivity.
      + rewrite Ee, Er. fold off cd. apply Rgt_not_eq. exact Dpos.
  Qed.

  (** ** Low speed *)
  Lemma low_ok (u : U) on bl t ql pl n :
    u_heating_on u = Some on -> 0 <= sd_cd (u_h u) < 1 -> 0 < pl -> 0 < ql -> 0 <= bl <= ql ->
    exists r, hspf_low u bl t ql pl n = Ok r /\ snd r <> None.
  Proof.
    intros On D P Q B. unfold hspf_low. rewrite pydiv_ok by lra. cbn [rbind].
    rewrite (cut_ok u on _ _ On). cbn [rbind]. rewrite pydiv_ok by lra. cbn [rbind].
    rewrite pydiv_ok; [cbn [rbind]; eexists; split; [reflexivity|discriminate]|].
    rewrite lit1_R. cbn [nsub nmul RNum]. apply degraded; [exact D|]. apply part; assumption.
  Qed.

  (** ** Two stages, cycling between low and full *)
  Lemma bin_two_ok (u : U) on bl t ql pl qf pf df hlf n dl :
    u_heating_on u = Some on -> u_cycling u = BETWEEN_LOW_FULL ->
    0 <= sd_cd (u_h u) < 1 -> 0 < pl -> 0 < ql -> 0 <= bl -> (bl <= ql \/ dl <> None) ->
    exists r, hspf_bin_two u bl t ql pl qf pf df hlf n dl = Ok r /\ snd r <> None.
  Proof.
    intros On Cy D P Q B A. unfold hspf_bin_two. rewrite pydiv_ok by lra. cbn [rbind].
    cbn [nleb nltb RNum]. destruct (Rleb_spec bl ql) as [C|C].
    - apply (low_ok u on); auto.
    - destruct A as [A|A]; [lra|]. destruct dl as [y|]; [|contradiction].
      destruct (Rltb_spec bl qf) as [E|E].
      + rewrite pydiv_ok by (cbn [nsub RNum]; lra). cbn [rbind]. rewrite Cy.
        cbn [need rbind]. eexists. split; [reflexivity|discriminate].
      + eexists. split; [reflexivity|discriminate].
  Qed.

  Lemma two_low_ok f g (H0 H1 H2 H3 : point R) t :
    (forall a b x, g a b x = line (pt_t a) (f a) (pt_t b) (f b) x) ->
    pt_t H1 <> pt_t H0 -> pt_t H3 <> pt_t H1 -> pt_t H3 <> pt_t H2 ->
    hspf_two_low f H0 H1 H2 H3 t = Ok (low_line g H0 H1 H2 H3 t).
  Proof.
    intros G N1 N2 N3. destruct (hspf_two_low f H0 H1 H2 H3 t) as [v|e] eqn:E.
    - f_equal. eapply two_low_inv; eassumption.
    - exfalso. unfold hspf_two_low in E. rewrite !along_ok in E by assumption.
      destruct (nleb _ t); [discriminate|]. destruct (nleb t _); discriminate.
  Qed.

  Lemma carried_some off on L s i x : carried off on L s i = Some x -> 0 <= x <= 1.
  Proof.
    unfold carried. induction i as [|i IH]; cbn [latest_low]; [discriminate|].
    destruct (Rle_dec _ _); [|exact IH]. intros H. injection H as <-. apply run_bounds.
  Qed.
  Lemma carried_later off on L s i : (0 < i)%nat -> L (heat_t 0) <= low_of q_at s 0 ->
    carried off on L s i <> None.
  Proof.
    intros I H0. unfold carried. induction i as [|i IH]; [lia|]. cbn [latest_low].
    destruct (Rle_dec (L (heat_t i)) (low_of q_at s i)) as [A|A]; [discriminate|].
    destruct i as [|i]; [contradiction|]. apply IH. lia.
  Qed.

  Lemma hspf_two_total (u : U) region on d s L credit lo hi :
    u_staging u = TWO_STAGE -> u_cycling u = BETWEEN_LOW_FULL -> u_heating_on u = Some on ->
    climate u region = Ok d ->
    heating_test sol M u (rc_H0_low (u_conds u)) (s_H0l s) ->
    heating_test sol M u (rc_H1_low (u_conds u)) (s_H1l s) ->
    frost_test sol M u (rc_H2_low (u_conds u)) (s_H2l s) ->
    heating_test sol M u (rc_H3_low (u_conds u)) (s_H3l s) ->
    heating_test sol M u (rc_H1_full (u_conds u)) (s_H1 s) ->
    frost_test sol M u (rc_H2_full (u_conds u)) (s_H2 s) ->
    heating_test sol M u (rc_H3_full (u_conds u)) (s_H3 s) ->
    heat_load sol M u d L -> 0 < over 18 (fun i => hours_of d i * L (heat_t i)) ->
    L (heat_t 0) <= low_of q_at s 0 ->
    demand_credit (u_defrost u) = Ok credit -> 0 <= credit ->
    0 <= sd_cd (u_h u) < 1 -> 0 < lo -> stages_ok lo hi s ->
    let bin := two_stage_bin (u_cycling u) (u_heating_off u) on (sd_cd (u_h u)) L s in
    exists v, hspf sol M u region = Ok v
      /\ v = seasonal_heating (hours_of d) (fun i => L (heat_t i))
               (fun i => fst (bin i)) (fun i => snd (bin i)) credit
      /\ Btu_Wh (Rmin ((1 - sd_cd (u_h u)) * lo) 1 * credit) <= v
         <= Btu_Wh (Rmax hi 1 * credit).
  Proof.
    intros St Cy On Hd T0l T1l T2l T3l T1 T2 T3 HL Lpos First Cr C0 D L0
      (N1 & N2 & N3 & N4 & N5 & K) bin.
    set (off := u_heating_off u) in *. set (cd := sd_cd (u_h u)) in *.
    pose proof (heat_load_pos sol M u d L HL) as LP.
    destruct (load_ok u d (s_H1 s) L T1 HL) as (load & Hl & Ld).
    pose proof (climate_length u region d Hd) as Len.
    destruct (sums_ok u on d load L (s_H1 s) (s_H2 s) (s_H3 s)
      (two_step u (s_H0l s) (s_H1l s) (s_H2l s) (s_H3l s))
      (fun i dl => i = 0%nat \/ dl <> None)) as [acc Hs]; auto.
    { intros i dl I J. destruct (K i I) as (Q1 & P1 & Q2 & P2 & _). cbv zeta.
      fold (full_of q_at s i) (full_of p_at s i).
      split; [lra|]. split; [lra|]. unfold two_step.
      rewrite (two_low_ok pt_q q_at) by (try assumption; reflexivity). cbn [rbind].
      rewrite (two_low_ok pt_p p_at) by (try assumption; reflexivity). cbn [rbind].
      fold (low_of q_at s i) (low_of p_at s i).
      match goal with |- exists r, hspf_bin_two ?u ?b ?t ?ql ?pl ?qf ?pf ?df ?h ?n ?dl = _ /\ _ =>
        destruct (bin_two_ok u on b t ql pl qf pf df h n dl On Cy D P1 Q1 (LP _)) as (r & R1 & R2)
      end.
      { destruct J as [->|J]; [left; exact First|right; exact J]. }
      exists r. split; [exact R1|right; exact R2]. }
    destruct (sums_two u on d load L s acc Len On Ld Hs) as (Eq & Ee & Er & _).
    destruct (season_bounds (hours_of d) (fun i => L (heat_t i))
      (fun i => fst (bin i)) (fun i => snd (bin i))
      credit (Rmin ((1 - cd) * lo) 1) (Rmax hi 1)) as [Dpos B].
    - intros i _. apply (climate_hours u region d Hd).
    - exact C0.
    - apply Rle_trans with 1; [lra|apply Rmax_r].
    - intros i I. destruct (K i I) as (Q1 & P1 & Q2 & P2 & K1 & K2).
      specialize (LP (heat_t i)). unfold bin, two_stage_bin, two_stage_heat. rewrite Cy.
      set (bl := L (heat_t i)) in *. set (ql := low_of q_at s i) in *.
      set (pl := low_of p_at s i) in *. set (qf := full_of q_at s i) in *.
      set (pf := full_of p_at s i) in *.
      assert (Lo : Rmin ((1 - cd) * lo) 1 <= (1 - cd) * lo) by apply Rmin_l.
      assert (Lo1 : Rmin ((1 - cd) * lo) 1 <= 1) by apply Rmin_r.
      assert (Hi : hi <= Rmax hi 1) by apply Rmax_l.
      assert (Hi1 : 1 <= Rmax hi 1) by apply Rmax_r.
      destruct (Rle_dec bl ql) as [A|A]; cbn [fst snd].
      + destruct (cycling_bounds0 cd bl ql pl lo hi D ltac:(lra) Q1 P1 L0 K1) as (X & Y).
        replace ((1 - low_run off on s i) * bl) with (bl - low_run off on s i * bl) by ring.
        apply (balance _ _ _ _ ((1 - cd) * lo) hi); auto; [apply run_bounds|lra].
      + apply (div_bounds ql pl lo hi P1) in K1. apply (div_bounds qf pf lo hi P2) in K2.
        destruct (Rlt_dec bl qf) as [F|F]; cbn [fst snd].
        * assert (O : exists x, carried off on L s i = Some x).
          { destruct (carried off on L s i) eqn:E; [eauto|]. exfalso.
            destruct i as [|i]; [contradiction|].
            apply (carried_later off on L s (S i)); [lia|exact First|exact E]. }
          destruct O as (x & Ox). pose proof (carried_some _ _ _ _ _ _ Ox) as Bx. rewrite Ox.
          assert (Ln : line ql pl qf pf bl
                       = pl * ((qf - bl) / (qf - ql)) + pf * ((bl - ql) / (qf - ql))).
          { unfold line. field. lra. }
          assert (W1 : 0 <= (qf - bl) / (qf - ql)) by (apply Rle_mult_inv_pos; lra).
          assert (W2 : 0 <= (bl - ql) / (qf - ql)) by (apply Rle_mult_inv_pos; lra).
          assert (W : ql * ((qf - bl) / (qf - ql)) + qf * ((bl - ql) / (qf - ql)) = bl)
            by (field; lra).
          set (w1 := (qf - bl) / (qf - ql)) in *. set (w2 := (bl - ql) / (qf - ql)) in *.
          replace ((1 - x) * bl) with (bl - x * bl) by ring.
          rewrite Ln.
          assert (X : 0 <= pl * w1 + pf * w2) by nra.
          assert (Y1 : lo * (pl * w1 + pf * w2) <= bl) by nra.
          assert (Y2 : bl <= hi * (pl * w1 + pf * w2)) by nra.
          apply (balance _ _ _ _ ((1 - cd) * lo) hi); auto; [split; [|lra]|lra]. nra.
        * apply (balance _ _ _ _ ((1 - cd) * lo) hi); auto; try lra.
          -- apply run_bounds.
          -- split; [|lra]. nra.
    - exact Lpos.
    - eexists. split; [|split; [reflexivity|exact B]]. unfold hspf.
      fold (climate u region). rewrite Hd. cbn [rbind].
      unfold hspf_with, heating_point, frost_point.
      rewrite (proj1 (tested_point _ _ _ _ _) T1). cbn [rbind].
      rewrite (proj1 (tested_point _ _ _ _ _) T2). cbn [rbind].
      rewrite (proj1 (tested_point _ _ _ _ _) T3). cbn [rbind].
      rewrite Hl. cbn [rbind]. rewrite St.
      rewrite (proj1 (tested_point _ _ _ _ _) T0l). cbn [rbind].
      rewrite (proj1 (tested_point _ _ _ _ _) T1l). cbn [rbind].
      rewrite (proj1 (tested_point _ _ _ _ _) T2l). cbn [rbind].
      rewrite (proj1 (tested_point _ _ _ _ _) T3l). cbn [rbind].
      unfold two_step in Hs. rewrite Hs. cbn [rbind].
      rewrite (value_ok u acc credit Cr).
      + rewrite Eq, Ee, Er. reflexivity.
      + rewrite Ee, Er. fold off cd. apply Rgt_not_eq. exact Dpos.
  Qed.

  (** ** Variable speed *)
  Lemma hslope_ok f (H0 H1l H2i H2 H3 : point R) :
    pt_t H1l <> pt_t H0 ->
    line (pt_t H0) (f H0) (pt_t H1l) (f H1l) (deg_F 35) <> f H2 ->
    exists m, hspf_slope f H0 H1l H2i H2 H3 = Ok m.
  Proof.
    intros N1 N2. unfold hspf_slope. rewrite along_ok by assumption. cbn [rbind].
    rewrite fr_F_deg. replace (lit (T:=R) 35) with 35 by (rnum; lra).
    rewrite pydiv_ok by (cbn [nsub RNum]; intros E; apply N2; lra). cbn [rbind]. eauto.
  Qed.

  Lemma speed_cop_bounds bl ql pl qi pi qf pf lo hi :
    ql < bl < qf -> 0 < lo ->
    lo <= ql / pl <= hi -> lo <= qi / pi <= hi -> lo <= qf / pf <= hi ->
    lo <= speed_cop bl ql pl qi pi qf pf <= hi.
  Proof.
    intros B L A1 A2 A3. unfold speed_cop.
    destruct (Rle_dec bl qi).
    - apply line_between; try assumption; lra.
    - apply line_between; try assumption; lra.
  Qed.

  Lemma bin_variable_heat_ok (u : U) on bl t ql pl qi pi qf pf q4 p4 df n dl lo hi :
    u_heating_on u = Some on -> 0 <= sd_cd (u_h u) < 1 ->
    0 <= bl -> 0 < ql -> 0 < pl -> 0 < pi -> 0 < pf -> 0 < lo ->
    lo <= ql / pl <= hi -> lo <= qi / pi <= hi -> lo <= qf / pf <= hi ->
    exists r, hspf_bin_variable u bl t ql pl qi pi qf pf q4 p4 df n dl = Ok r.
  Proof.
    intros On D B Q P1 P2 P3 L A1 A2 A3. unfold hspf_bin_variable.
    rewrite !pydiv_ok by lra. cbn [rbind]. cbn [nleb nltb RNum].
    destruct (Rleb_spec bl ql) as [C|C].
    { destruct (low_ok u on bl t ql pl n On D P1 Q (conj B C)) as (r & Hr & _). eauto. }
    destruct (Rltb_spec bl qf) as [E|E]; [|eauto].
    pose proof (speed_cop_bounds bl ql pl qi pi qf pf lo hi ltac:(lra) L A1 A2 A3) as SC.
    unfold speed_cop, line in SC. revert SC.
    destruct (Rleb_spec bl qi), (Rle_dec bl qi); try lra; intros SC;
      (rewrite pydiv_ok by (cbn [nsub RNum]; lra)); cbn [rbind];
      rewrite (cut_ok u on _ _ On); cbn [rbind];
      (rewrite pydiv_ok; [cbn [rbind]; eauto|]);
      cbn [nadd nsub nmul RNum]; lra.
  Qed.

  Lemma hspf_variable_value (u : U) region on d H0l H1l H2i H1 H2 H3 H4 L credit lo hi :
    u_staging u = VARIABLE_SPEED -> u_heating_on u = Some on ->
    climate u region = Ok d ->
    heating_test sol M u (rc_H0_low (u_conds u)) H0l ->
    heating_test sol M u (rc_H1_low (u_conds u)) H1l ->
    frost_test sol M u (rc_H2_int (u_conds u)) H2i ->
    heating_test sol M u (rc_H1_full (u_conds u)) H1 ->
    frost_test sol M u (rc_H2_full (u_conds u)) H2 ->
    heating_test sol M u (rc_H3_full (u_conds u)) H3 ->
    heating_test sol M u (rc_H4_full (u_conds u)) H4 ->
    heat_load sol M u d L -> demand_credit (u_defrost u) = Ok credit ->
    0 <= sd_cd (u_h u) < 1 -> 0 < lo -> speeds_ok lo hi H0l H1l H2i H1 H2 H3 H4 ->
    let bin := variable_bin (u_heating_off u) on (sd_cd (u_h u)) L
                 H0l H1l H2i H1 H2 H3 H4 in
    0 < over 18 (fun i => hours_of d i * fst (bin i))
        + over 18 (fun i => hours_of d i * snd (bin i)) ->
    hspf sol M u region
    = Ok (seasonal_heating (hours_of d) (fun i => L (heat_t i))
            (fun i => fst (bin i)) (fun i => snd (bin i)) credit).
  Proof.
    intros St On Hd T0l T1l T2i T1 T2 T3 T4 HL Cr D L0
      (N1 & N2 & N3 & N4 & N5 & N6 & K) bin Dpos.
    pose proof (heat_load_pos sol M u d L HL) as LP.
    destruct (load_ok u d H1 L T1 HL) as (load & Hl & Ld).
    pose proof (climate_length u region d Hd) as Len.
    destruct (hslope_ok pt_q H0l H1l H2i H2 H3 N3 N5) as (mq & Hmq).
    destruct (hslope_ok pt_p H0l H1l H2i H2 H3 N3 N6) as (mp & Hmp).
    destruct (sums_ok u on d load L H1 H2 H3 (variable_step u H0l H1l H2i H3 H4 mq mp)
      (fun _ _ => True)) as [acc Hs]; auto.
    { intros i dl I _. destruct (K i I) as (Q1 & P1 & P2 & Q3 & P3 & K1 & K2 & K3). cbv zeta.
      split; [lra|]. split; [lra|]. unfold variable_step.
      rewrite !along_ok by assumption. cbn [rbind].
      rewrite (hslope_inv _ _ _ _ _ _ _ (heat_t i) Hmq).
      rewrite (hslope_inv _ _ _ _ _ _ _ (heat_t i) Hmp).
      match goal with |- exists r, hspf_bin_variable ?u ?b ?t ?ql ?pl ?qi ?pi ?qf ?pf ?q4 ?p4
          ?df ?n ?dl = _ /\ _ =>
        destruct (bin_variable_heat_ok u on b t ql pl qi pi qf pf q4 p4 df n dl lo hi On D (LP _)
          Q1 P1 P2 P3 L0 K1 K2 K3) as (r & Hr) end.
      eauto. }
    destruct (sums_variable u on d load L H0l H1l H2i H1 H2 H3 H4 mq mp acc Len On Ld Hmq Hmp Hs)
      as (Eq & Ee & Er).
    unfold hspf. fold (climate u region). rewrite Hd. cbn [rbind].
    unfold hspf_with, heating_point, frost_point.
    rewrite (proj1 (tested_point _ _ _ _ _) T1). cbn [rbind].
    rewrite (proj1 (tested_point _ _ _ _ _) T2). cbn [rbind].
    rewrite (proj1 (tested_point _ _ _ _ _) T3). cbn [rbind].
    rewrite Hl. cbn [rbind]. rewrite St.
    rewrite (proj1 (tested_point _ _ _ _ _) T0l). cbn [rbind].
    rewrite (proj1 (tested_point _ _ _ _ _) T1l). cbn [rbind].
    rewrite (proj1 (tested_point _ _ _ _ _) T2i). cbn [rbind].
    rewrite (proj1 (tested_point _ _ _ _ _) T4). cbn [rbind].
    rewrite Hmq. cbn [rbind]. rewrite Hmp. cbn [rbind].
    unfold variable_step in Hs. rewrite Hs. cbn [rbind].
    rewrite (value_ok u acc credit Cr).
    - rewrite Eq, Ee, Er. reflexivity.
    - rewrite Ee, Er. apply Rgt_not_eq. exact Dpos.
  Qed.

  Lemma hspf_variable_total (u : U) region on d H0l H1l H2i H1 H2 H3 H4 L credit lo hi :
    u_staging u = VARIABLE_SPEED -> u_heating_on u = Some on ->
    climate u region = Ok d ->
    heating_test sol M u (rc_H0_low (u_conds u)) H0l ->
    heating_test sol M u (rc_H1_low (u_conds u)) H1l ->
    frost_test sol M u (rc_H2_int (u_conds u)) H2i ->
    heating_test sol M u (rc_H1_full (u_conds u)) H1 ->
    frost_test sol M u (rc_H2_full (u_conds u)) H2 ->
    heating_test sol M u (rc_H3_full (u_conds u)) H3 ->
    heating_test sol M u (rc_H4_full (u_conds u)) H4 ->
    heat_load sol M u d L -> 0 < over 18 (fun i => hours_of d i * L (heat_t i)) ->
    demand_credit (u_defrost u) = Ok credit -> 0 <= credit ->
    0 <= sd_cd (u_h u) < 1 -> 0 < lo -> speeds_ok lo hi H0l H1l H2i H1 H2 H3 H4 ->
    (forall i, (i < 18)%nat -> let t := heat_t i in full_line q_at H1 H2 H3 t <= L t ->
       0 < p_at H4 H3 t /\ lo <= q_at H4 H3 t / p_at H4 H3 t <= hi /\ q_at H4 H3 t <= L t) ->
    let bin := variable_bin (u_heating_off u) on (sd_cd (u_h u)) L
                 H0l H1l H2i H1 H2 H3 H4 in
    exists v, hspf sol M u region = Ok v
      /\ v = seasonal_heating (hours_of d) (fun i => L (heat_t i))
               (fun i => fst (bin i)) (fun i => snd (bin i)) credit
      /\ Btu_Wh (Rmin ((1 - sd_cd (u_h u)) * lo) 1 * credit) <= v
         <= Btu_Wh (Rmax hi 1 * credit).
  Proof.
    intros St On Hd T0l T1l T2i T1 T2 T3 T4 HL Lpos Cr C0 D L0 Sp Ov bin.
    set (off := u_heating_off u) in *. set (cd := sd_cd (u_h u)) in *.
    pose proof (heat_load_pos sol M u d L HL) as LP.
    destruct (season_bounds (hours_of d) (fun i => L (heat_t i))
      (fun i => fst (bin i)) (fun i => snd (bin i))
      credit (Rmin ((1 - cd) * lo) 1) (Rmax hi 1)) as [Dpos B].
    - intros i _. apply (climate_hours u region d Hd).
    - exact C0.
    - apply Rle_trans with 1; [lra|apply Rmax_r].
    - intros i I. destruct Sp as (_ & _ & _ & _ & _ & _ & K).
      destruct (K i I) as (Q1 & P1 & P2 & Q3 & P3 & K1 & K2 & K3). specialize (Ov i I).
      specialize (LP (heat_t i)). cbv zeta in Ov. unfold bin, variable_bin, variable_heat.
      set (bl := L (heat_t i)) in *. set (ql := q_at H0l H1l (heat_t i)) in *.
      set (pl := p_at H0l H1l (heat_t i)) in *.
      set (qf := full_line q_at H1 H2 H3 (heat_t i)) in *.
      set (pf := full_line p_at H1 H2 H3 (heat_t i)) in *.
      set (qi := q_int_heat H0l H1l H2i H2 H3 (heat_t i)) in *.
      set (pi := p_int_heat H0l H1l H2i H2 H3 (heat_t i)) in *.
      set (q4 := q_at H4 H3 (heat_t i)) in *. set (p4 := p_at H4 H3 (heat_t i)) in *.
      assert (Lo : Rmin ((1 - cd) * lo) 1 <= (1 - cd) * lo) by apply Rmin_l.
      assert (Lo1 : Rmin ((1 - cd) * lo) 1 <= 1) by apply Rmin_r.
      assert (Hi : hi <= Rmax hi 1) by apply Rmax_l.
      assert (Hi1 : 1 <= Rmax hi 1) by apply Rmax_r.
      destruct (Rle_dec bl ql) as [A|A]; cbn [fst snd].
      + destruct (cycling_bounds0 cd bl ql pl lo hi D ltac:(lra) Q1 P1 L0 K1) as (X & Y).
        match goal with |- context [(1 - ?r) * bl] =>
          replace ((1 - r) * bl) with (bl - r * bl) by ring end.
        apply (balance _ _ _ _ ((1 - cd) * lo) hi); auto; [apply run_bounds|lra].
      + destruct (Rlt_dec bl qf) as [F|F]; cbv zeta; cbn [fst snd].
        * assert (SC := speed_cop_bounds bl ql pl qi pi qf pf lo hi ltac:(lra) L0 K1 K2 K3).
          set (c := speed_cop _ _ _ _ _ _ _) in *.
          match goal with |- context [(1 - ?r) * bl] =>
            replace ((1 - r) * bl) with (bl - r * bl) by ring end.
          assert (X : 0 <= bl / c) by (apply Rle_mult_inv_pos; lra).
          assert (E : c * (bl / c) = bl) by (field; lra).
          apply (balance _ _ _ _ ((1 - cd) * lo) hi); auto; [apply run_bounds| |lra].
          split; [|nra]. apply Rle_trans with (lo * (bl / c)); [|nra].
          apply Rmult_le_compat_r; [exact X|]. nra.
        * destruct (Ov ltac:(lra)) as (P4 & K4 & Q4). apply (div_bounds q4 p4 lo hi P4) in K4.
          apply (balance _ _ _ _ ((1 - cd) * lo) hi); auto; try lra.
          -- apply run_bounds.
          -- destruct K4 as [K4 K5]. split; [|exact K5]. apply Rle_trans with (lo * p4); [|exact K4].
             apply Rmult_le_compat_r; [apply Rlt_le; exact P4|]. nra.
    - exact Lpos.
    - eexists. split; [|split; [reflexivity|exact B]].
      exact (hspf_variable_value u region on d H0l H1l H2i H1 H2 H3 H4 L credit lo hi
        St On Hd T0l T1l T2i T1 T2 T3 T4 HL Cr D L0 Sp Dpos).
  Qed.
End Total.
