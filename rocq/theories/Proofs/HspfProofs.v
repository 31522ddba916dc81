(** HSPF (C46, C47). *)
From Coq Require Import Reals QArith Lra Psatz Lia List Bool.
From Verif.Base Require Import Num Res Tac.
From Verif.Model Require Import Units Util Psychrometrics Conditions Defrost Fan Curves
  Tabular Unit DXUnit.
From Verif.Spec Require Import UtilSpec UnitSpec SeasonSpec.
From Verif.Proofs Require Import UnitsR UtilProofs UnitProofs3 UnitProofs4 SeerProofs.
Import ListNotations.
Local Open Scope R_scope.
Local Notation U := (dxunit R).

(** * The loop *)
Lemma rfold_trace {A B} (f : A -> B -> res A) (x : nat -> B) n k a b :
  rfold f a (map x (seq k n)) = Ok b ->
  exists st : nat -> A, st 0%nat = a /\ st n = b
    /\ forall i, (i < n)%nat -> f (st i) (x (k + i)%nat) = Ok (st (S i)).
Proof.
  revert k a. induction n as [|n IH]; intros k a H; cbn [seq map rfold] in H.
  - apply Ok_inj in H. subst b. exists (fun _ => a). repeat split. intros; lia.
  - apply rbind_ok in H. destruct H as (a1 & H1 & H). apply IH in H.
    destruct H as (st & S0 & Sn & F).
    exists (fun i => match i with O => a | S j => st j end). repeat split; [exact Sn|].
    intros [|i] I.
    + rewrite Nat.add_0_r, S0. exact H1.
    + rewrite <- plus_n_Sm. apply F. lia.
Qed.
Lemma trace_rfold {A B} (f : A -> B -> res A) (x : nat -> B) n k (st : nat -> A) :
  (forall i, (i < n)%nat -> f (st i) (x (k + i)%nat) = Ok (st (S i))) ->
  rfold f (st 0%nat) (map x (seq k n)) = Ok (st n).
Proof.
  revert k st. induction n as [|n IH]; intros k st H; cbn [seq map rfold]; [reflexivity|].
  pose proof (H 0%nat ltac:(lia)) as H0. rewrite Nat.add_0_r in H0. rewrite H0. cbn [rbind].
  apply (IH (S k) (fun i => st (S i))). intros i I. specialize (H (S i) ltac:(lia)).
  rewrite <- plus_n_Sm in H. exact H.
Qed.

Lemma deg_cons a c l l' : a = c -> l = l' -> deg_F a :: l = deg_F c :: l'.
Proof. intros -> ->. reflexivity. Qed.
(** Finitely many choices. *)
Lemma choose {A} (P : nat -> A -> Prop) n : (forall i, exists x, (i < n)%nat -> P i x) ->
  exists f, forall i, (i < n)%nat -> P i (f i).
Proof.
  intros H. induction n as [|n IH].
  - destruct (H 0%nat) as [x _]. exists (fun _ => x). intros; lia.
  - destruct IH as [f F].
    { intros i. destruct (H i) as [x X]. exists x. intros I. apply X. lia. }
    destruct (H n) as [y Y]. exists (fun i => if Nat.eqb i n then y else f i).
    intros i I. destruct (Nat.eqb_spec i n) as [->|N]; [apply Y; lia|apply F; lia].
Qed.
Lemma bins_eq (h : list R) : List.length h = 18%nat ->
  combine (heating_drybulbs (T:=R)) h = map (fun i => (heat_t i, nth i h 0)) (seq 0 18).
Proof.
  intros L. unfold heating_drybulbs.
  assert (E : map (fun i => fr_F (lit 62 - nZ (Z.of_nat i) * lit 5)%num) (seq 0 18)
              = map heat_t (seq 0 18)).
  { cbn [seq map]. unfold heat_t. rewrite !fr_F_deg.
    repeat (apply deg_cons;
            [cbn [nadd nsub nmul RNum Z.of_nat Pos.of_succ_nat Pos.succ INR]; rnum; lra|]).
    reflexivity. }
  rewrite E.
  do 18 (destruct h as [|? h]; [discriminate|]). destruct h; [|discriminate].
  reflexivity.
Qed.

Lemma cut_inv (u : U) on t cop d : u_heating_on u = Some on -> cut_out u t cop = Ok d ->
  d = run_fraction (u_heating_off u) on t cop.
Proof.
  intros On. unfold cut_out, run_fraction. cbn [nleb nltb RNum]. rewrite On, lit1_R, lit0_R.
  destruct (Rleb_spec t (u_heating_off u)); destruct Rle_dec; try lra; cbn [orb].
  - intros H. apply Ok_inj in H. congruence.
  - destruct (Rltb_spec cop 1); destruct Rlt_dec; try lra; cbn [need rbind].
    + intros H. apply Ok_inj in H. congruence.
    + destruct (Rltb_spec on t); destruct Rlt_dec; try lra; intros H; apply Ok_inj in H;
        [congruence|]. rewrite <- H. rnum. lra.
Qed.
Lemma cut_ok (u : U) on t cop : u_heating_on u = Some on ->
  cut_out u t cop = Ok (run_fraction (u_heating_off u) on t cop).
Proof.
  intros On. destruct (cut_out u t cop) as [d|e] eqn:E.
  - f_equal. apply (cut_inv u on t cop d On E).
  - exfalso. unfold cut_out in E. rewrite On in E. destruct orb; discriminate.
Qed.
Lemma run_bounds off on t cop : 0 <= run_fraction off on t cop <= 1.
Proof. unfold run_fraction. destruct (Rle_dec t off), (Rlt_dec cop 1), (Rlt_dec on t); lra. Qed.
Lemma run_cut off on t cop : t <= off \/ cop < 1 -> run_fraction off on t cop = 0.
Proof. intros H. unfold run_fraction. destruct (Rle_dec t off), (Rlt_dec cop 1); lra. Qed.

Lemma full_inv f g (H1 H2 H3 : point R) t v :
  (forall a b x, g a b x = line (pt_t a) (f a) (pt_t b) (f b) x) ->
  hspf_full f H1 H2 H3 t = Ok v -> v = full_line g H1 H2 H3 t.
Proof.
  intros G. unfold hspf_full, full_line. cbn [nleb RNum]. rewrite !fr_F_deg.
  replace (lit (T:=R) 45) with 45 by (rnum; lra). replace (lit (T:=R) 17) with 17 by (rnum; lra).
  destruct (Rleb_spec (deg_F 45) t), (Rle_dec (deg_F 45) t); try lra;
    destruct (Rleb_spec t (deg_F 17)), (Rle_dec t (deg_F 17)); try lra; cbn [orb];
    intros H; apply along_inv in H; destruct H as [_ ->]; rewrite G; reflexivity.
Qed.
Lemma full_ok f g (H1 H2 H3 : point R) t :
  (forall a b x, g a b x = line (pt_t a) (f a) (pt_t b) (f b) x) ->
  pt_t H1 <> pt_t H3 -> pt_t H2 <> pt_t H3 ->
  hspf_full f H1 H2 H3 t = Ok (full_line g H1 H2 H3 t).
Proof.
  intros G N1 N2. destruct (hspf_full f H1 H2 H3 t) as [v|e] eqn:E.
  - f_equal. apply (full_inv f g H1 H2 H3 t v G E).
  - exfalso. unfold hspf_full in E. destruct orb; rewrite along_ok in E by auto; discriminate.
Qed.
Lemma q_at_line a b x : q_at a b x = line (pt_t a) (pt_q a) (pt_t b) (pt_q b) x.
Proof. reflexivity. Qed.
Lemma p_at_line a b x : p_at a b x = line (pt_t a) (pt_p a) (pt_t b) (pt_p b) x.
Proof. reflexivity. Qed.

Lemma over_tele n (x f : nat -> R) :
  x 0%nat = 0 -> (forall i, (i < n)%nat -> x (S i) = x i + f i) -> x n = over n f.
Proof.
  intros Z H. induction n as [|n IH]; [rewrite Z; reflexivity|].
  rewrite over_S, H by lia. rewrite IH; [reflexivity|]. intros i I. apply H. lia.
Qed.

(** What a successful loop computed: the bins [r i = (e, rh)] and the history [dl]. *)
Lemma sums_inv (u : U) d load H1 H2 H3 bin acc :
  List.length (hd_hours d) = 18%nat ->
  hspf_sums u d load H1 H2 H3 bin = Ok acc ->
  exists (bl : nat -> R) (r : nat -> R * R) (df hlf : nat -> R) (dl : nat -> option R),
    dl 0%nat = None
    /\ (forall i, (i < 18)%nat ->
          let t := heat_t i in
          let qf := full_line q_at H1 H2 H3 t in let pf := full_line p_at H1 H2 H3 t in
          load t = Ok (bl i) /\ pf <> 0 /\ cut_out u t (qf / pf) = Ok (df i)
          /\ hlf i = load_factor (bl i) qf
          /\ (bl i < qf -> qf <> 0)
          /\ bin (bl i) t qf pf (df i) (hlf i) (hours_of d i) (dl i)
             = Ok (fst (r i), snd (r i), dl (S i)))
    /\ h_q acc = over 18 (fun i => hours_of d i * bl i)
    /\ h_e acc = over 18 (fun i => fst (r i))
    /\ h_rh acc = over 18 (fun i => snd (r i)).
Proof.
  intros L H. unfold hspf_sums in H. rewrite (bins_eq _ L) in H.
  apply rfold_trace in H. destruct H as (st & S0 & Sn & F).
  assert (G : forall i, exists x : R * (R * R) * R * R, (i < 18)%nat ->
          let '(b, (e, rh), df, hlf) := x in
          let t := heat_t i in
          let qf := full_line q_at H1 H2 H3 t in let pf := full_line p_at H1 H2 H3 t in
          load t = Ok b /\ pf <> 0 /\ cut_out u t (qf / pf) = Ok df
          /\ hlf = load_factor b qf
          /\ (b < qf -> qf <> 0)
          /\ bin b t qf pf df hlf (hours_of d i) (h_delta_low (st i))
             = Ok (e, rh, h_delta_low (st (S i)))
          /\ h_q (st (S i)) = h_q (st i) + hours_of d i * b
          /\ h_e (st (S i)) = h_e (st i) + e
          /\ h_rh (st (S i)) = h_rh (st i) + rh).
  { intros i. destruct (lt_dec i 18) as [I|I];
      [|exists (0, (0, 0), 0, 0); intros C; contradiction].
    specialize (F i I). change (0 + i)%nat with i in F.
    apply rbind_ok in F. destruct F as (b & Hb & F).
    apply rbind_ok in F. destruct F as (qf & Hq & F).
    apply (full_inv pt_q q_at) in Hq; [|reflexivity].
    apply rbind_ok in F. destruct F as (pf & Hp & F).
    apply (full_inv pt_p p_at) in Hp; [|reflexivity].
    apply rbind_ok in F. destruct F as (cop & Hc & F). apply pydiv_inv in Hc.
    destruct Hc as [Hn Hc].
    apply rbind_ok in F. destruct F as (df & Hd & F).
    apply rbind_ok in F. destruct F as (hlf & Hh & F).
    apply rbind_ok in F. destruct F as ([[e rh] dl] & Hr & F). apply Ok_inj in F.
    exists (b, (e, rh), df, hlf). intros _. cbv zeta. rewrite <- Hq, <- Hp.
    assert (X : hlf = load_factor b qf /\ (b < qf -> qf <> 0)).
    { unfold load_factor. cbn [nltb RNum] in Hh. revert Hh.
      destruct (Rltb_spec b qf), (Rlt_dec b qf); try lra; intros Hh.
      - apply pydiv_inv in Hh. destruct Hh as [Hz ->]. split; [reflexivity|auto].
      - apply Ok_inj in Hh. rewrite lit1_R in Hh. split; [congruence|lra]. }
    rewrite <- F. cbn [h_q h_e h_rh h_delta_low]. subst cop.
    split; [exact Hb|]. split; [exact Hn|]. split; [exact Hd|]. split; [apply X|].
    split; [apply X|]. split; [exact Hr|]. repeat split. }
  assert (Ch : exists x : nat -> R * (R * R) * R * R, forall i, (i < 18)%nat ->
          let '(b, (e, rh), df, hlf) := x i in
          let t := heat_t i in
          let qf := full_line q_at H1 H2 H3 t in let pf := full_line p_at H1 H2 H3 t in
          load t = Ok b /\ pf <> 0 /\ cut_out u t (qf / pf) = Ok df
          /\ hlf = load_factor b qf
          /\ (b < qf -> qf <> 0)
          /\ bin b t qf pf df hlf (hours_of d i) (h_delta_low (st i))
             = Ok (e, rh, h_delta_low (st (S i)))
          /\ h_q (st (S i)) = h_q (st i) + hours_of d i * b
          /\ h_e (st (S i)) = h_e (st i) + e
          /\ h_rh (st (S i)) = h_rh (st i) + rh).
  { exact (choose _ 18 G). }
  destruct Ch as (x & X).
  exists (fun i => fst (fst (fst (x i)))), (fun i => snd (fst (fst (x i)))),
    (fun i => snd (fst (x i))), (fun i => snd (x i)), (fun i => h_delta_low (st i)).
  split; [rewrite S0; reflexivity|].
  assert (Y : forall i, (i < 18)%nat ->
    h_q (st (S i)) = h_q (st i) + hours_of d i * fst (fst (fst (x i)))
    /\ h_e (st (S i)) = h_e (st i) + fst (snd (fst (fst (x i))))
    /\ h_rh (st (S i)) = h_rh (st i) + snd (snd (fst (fst (x i))))).
  { intros i I. specialize (X i I). destruct (x i) as [[[b [e rh]] df] hlf].
    cbv zeta in X. cbn [fst snd]. tauto. }
  split; [|split; [|split]].
  - intros i I. specialize (X i I). destruct (x i) as [[[b [e rh]] df] hlf].
    cbv zeta in X. cbn [fst snd]. cbv zeta. tauto.
  - rewrite <- Sn. apply (over_tele 18 (fun i => h_q (st i))); [rewrite S0; apply lit0_R|].
    intros i I. apply (Y i I).
  - rewrite <- Sn. apply (over_tele 18 (fun i => h_e (st i))); [rewrite S0; apply lit0_R|].
    intros i I. apply (Y i I).
  - rewrite <- Sn. apply (over_tele 18 (fun i => h_rh (st i))); [rewrite S0; apply lit0_R|].
    intros i I. apply (Y i I).
Qed.

Lemma sums_load (u : U) d load H1 H2 H3 bin acc :
  List.length (hd_hours d) = 18%nat ->
  hspf_sums u d load H1 H2 H3 bin = Ok acc -> exists b, load (heat_t 0) = Ok b.
Proof.
  intros L H. apply sums_inv in H; [|exact L]. destruct H as (bl & r & df & hlf & dl & _ & F & _).
  destruct (F 0%nat ltac:(lia)) as (L0 & _). eauto.
Qed.

(** * The climate and the load *)
Lemma HD_length design (h : list R) c cv z d :
  HeatingDistribution design h c cv z = Ok d -> List.length (hd_hours d) = 18%nat.
Proof.
  unfold HeatingDistribution. intros H. apply rbind_ok in H. destruct H as (l & _ & H).
  destruct (Nat.eqb_spec (List.length l) 18) as [E|N]; [|discriminate].
  apply Ok_inj in H. subst d. exact E.
Qed.
Lemma climate_length (u : U) region d :
  climate u region = Ok d -> List.length (hd_hours d) = 18%nat.
Proof.
  unfold climate. destruct (u_standard u); unfold distribution_2017, distribution_2023;
    do 7 (destruct region as [|region]; try discriminate; try apply HD_length).
Qed.

Lemma requirements_eq : standard_design_heating_requirements (T:=R) = design_requirements.
Proof.
  unfold standard_design_heating_requirements, design_requirements.
  cbn [seq map app]. rewrite !Btuh_R. unfold Btu_h.
  repeat (apply f_equal2;
          [cbn [nadd nsub nmul RNum Z.of_nat Pos.of_succ_nat Pos.succ INR]; rnum; lra|]).
  reflexivity.
Qed.

Lemma pymax_max (a b : R) : pymax a b = Rmax a b.
Proof.
  unfold pymax, Rmax. cbn [nltb RNum].
  destruct (Rltb_spec a b), (Rle_dec a b); lra.
Qed.
Lemma heating_load_inv num den c q x : heating_load (T:=R) num den c q = Ok x ->
  den <> 0 /\ x = Rmax (c * q * (num / den)) 0.
Proof.
  unfold heating_load. intros H. apply rbind_ok in H. destruct H as (r & Hr & H).
  apply pydiv_inv in Hr. destruct Hr as [N ->]. split; [exact N|]. apply Ok_inj in H.
  subst x. rewrite pymax_max, lit0_R. cbn [nmul RNum]. f_equal. ring.
Qed.
Lemma heating_load_ok num den c q : den <> 0 ->
  heating_load (T:=R) num den c q = Ok (Rmax (c * q * (num / den)) 0).
Proof.
  intros N. unfold heating_load. rewrite pydiv_ok by exact N. cbn [rbind].
  rewrite pymax_max, lit0_R. cbn [nmul RNum]. do 2 f_equal. ring.
Qed.

Section Hspf.
  Variable sol : solvers R.
  Variable M : dxmodel R.

  Lemma load_inv (u : U) d H1 load t0 b0 :
    heating_test sol M u (rc_H1_full (u_conds u)) H1 ->
    hspf_load sol M u d (pt_q H1) = Ok load -> load t0 = Ok b0 ->
    exists L, heat_load sol M u d L /\ (forall t, load t = Ok (L t)) /\ forall t, 0 <= L t.
  Proof.
    intros T1 H B0. unfold hspf_load in H. unfold heat_load. destruct (u_standard u).
    - apply rbind_ok in H. destruct H as (dhr & Hd & H). apply Ok_inj in H. subst load.
      apply heating_load_inv in B0. destruct B0 as [N _].
      exists (fun t => Rmax (0.77 * dhr * ((deg_F 65 - t) / (deg_F 65 - hd_design d))) 0).
      rewrite requirements_eq in Hd.
      destruct (find_nearest_first
        (nmul (pt_q H1) (fr_F (lit 65) - hd_design d) / fr_degR (lit 60))%num
        design_requirements) as (r & Hr & F); [discriminate|].
      rewrite Hr in Hd. apply Ok_inj in Hd. subst r.
      rewrite fr_F_deg in F, N. cbn [nsub RNum] in N.
      replace (lit (T:=R) 65) with 65 in F, N by (rnum; lra).
      split; [|split].
      + exists H1, dhr. split; [exact T1|]. split; [|split; [lra|reflexivity]].
        replace (deg_F 60 - deg_F 0) with (fr_degR (T:=R) (lit 60)); [exact F|].
        unfold fr_degR, deg_F. rnum. lra.
      + intros t. rewrite !fr_F_deg. replace (lit (T:=R) 65) with 65 by (rnum; lra).
        rewrite heating_load_ok by exact N. cbn [nsub RNum].
        replace (lit (T:=R) 0.77) with 0.77 by (rnum; lra). reflexivity.
      + intros t. apply Rmax_r.
    - apply rbind_ok in H. destruct H as (c & Hc & H). apply need_ok in Hc.
      apply rbind_ok in H. destruct H as (zl & Hz & H). apply need_ok in Hz.
      apply rbind_ok in H. destruct H as (cA & HA & H). unfold rating in HA.
      apply need_ok in HA.
      apply rbind_ok in H. destruct H as (q & Hq & H). apply Ok_inj in H. subst load.
      apply heating_load_inv in B0. destruct B0 as [N _]. cbn [nsub RNum] in N.
      exists (fun t => Rmax (c * q * ((zl - t) / (zl - hd_design d))) 0).
      split; [|split].
      + exists c, zl, cA, q. repeat (split; [assumption|]). split; [lra|reflexivity].
      + intros t. rewrite heating_load_ok by exact N. reflexivity.
      + intros t. apply Rmax_r.
  Qed.

  (** What the three branches have in common. *)
  Lemma hspf_common (u : U) region v :
    hspf sol M u region = Ok v ->
    exists d H1 H2 H3 load,
      climate u region = Ok d
      /\ heating_test sol M u (rc_H1_full (u_conds u)) H1
      /\ frost_test sol M u (rc_H2_full (u_conds u)) H2
      /\ heating_test sol M u (rc_H3_full (u_conds u)) H3
      /\ hspf_load sol M u d (pt_q H1) = Ok load
      /\ hspf_with sol M u d = Ok v.
  Proof.
    intros H. unfold hspf in H. apply rbind_ok in H. destruct H as (d & Hd & H).
    pose proof H as H0. unfold hspf_with in H.
    apply rbind_ok in H. destruct H as (P1 & T1 & H).
    apply rbind_ok in H. destruct H as (P2 & T2 & H).
    apply rbind_ok in H. destruct H as (P3 & T3 & H).
    apply rbind_ok in H. destruct H as (load & Hl & H).
    exists d, P1, P2, P3, load. split; [unfold climate; destruct (u_standard u); exact Hd|].
    split; [apply tested_point, T1|]. split; [apply tested_point, T2|].
    split; [apply tested_point, T3|]. split; [exact Hl|exact H0].
  Qed.

  Lemma rated_value s (u : U) v :
    (let! credit := demand_credit (u_defrost u) in
     let! r := pydiv (h_q s) (nadd (h_e s) (h_rh s)) in
     Ok (to_Btu_Wh (nmul r credit))) = Ok v ->
    exists credit, demand_credit (u_defrost u) = Ok credit
      /\ v = Btu_Wh (h_q s / (h_e s + h_rh s) * credit).
  Proof.
    intros H. apply rbind_ok in H. destruct H as (cr & Hc & H).
    apply rbind_ok in H. destruct H as (r & Hr & H). apply pydiv_inv in Hr.
    destruct Hr as [_ ->]. apply Ok_inj in H. subst v. exists cr. split; [exact Hc|].
    rewrite to_Btu_Wh_spec. reflexivity.
  Qed.

  (** ** Single stage *)
  Lemma bin_single_inv (u : U) bl t qf pf df n dl r :
    hspf_bin_single u bl t qf pf df (load_factor bl qf) n dl = Ok r ->
    (bl < qf -> qf <> 0) ->
    r = (n * (df * cycling (sd_cd (u_h u)) (load_factor bl qf) pf),
         n * (bl - df * Rmin bl qf), dl).
  Proof.
    unfold hspf_bin_single. intros H N. apply rbind_ok in H. destruct H as (e & He & H).
    apply pydiv_inv in He. destruct He as [Z ->]. apply Ok_inj in H. subst r.
    rewrite lit1_R in *. cbn [nadd nsub nmul RNum] in *.
    apply f_equal2; [apply f_equal2|reflexivity].
    - unfold cycling. field. exact Z.
    - assert (E : qf * load_factor bl qf = Rmin bl qf).
      { unfold load_factor. destruct (Rlt_dec bl qf) as [l|l].
        - rewrite Rmin_left by lra. field. auto.
        - rewrite Rmin_right by lra. ring. }
      rewrite E. ring.
  Qed.

  Lemma sums_single (u : U) on d load L H1 H2 H3 acc :
    List.length (hd_hours d) = 18%nat -> u_heating_on u = Some on ->
    (forall t, load t = Ok (L t)) ->
    hspf_sums u d load H1 H2 H3 (hspf_bin_single u) = Ok acc ->
    h_q acc = over 18 (fun i => hours_of d i * L (heat_t i))
    /\ h_e acc = over 18 (fun i => hours_of d i
            * single_energy (u_heating_off u) on (sd_cd (u_h u)) L H1 H2 H3 i)
    /\ h_rh acc = over 18 (fun i => hours_of d i
            * single_resistance (u_heating_off u) on L H1 H2 H3 i).
  Proof.
    intros Len On Ld Hs. apply sums_inv in Hs; [|exact Len].
    destruct Hs as (bl & r & df & hlf & dl & _ & F & Eq & Ee & Er).
    rewrite Eq, Ee, Er.
    assert (G : forall i, (i < 18)%nat ->
       bl i = L (heat_t i)
       /\ fst (r i) = hours_of d i
            * single_energy (u_heating_off u) on (sd_cd (u_h u)) L H1 H2 H3 i
       /\ snd (r i) = hours_of d i * single_resistance (u_heating_off u) on L H1 H2 H3 i).
    { intros i I. destruct (F i I) as (Lb & Np & Cd & Hh & Nq & Hb).
      rewrite Ld in Lb. apply Ok_inj in Lb. apply (cut_inv u on _ _ _ On) in Cd.
      rewrite Hh in Hb. apply bin_single_inv in Hb; [|exact Nq].
      injection Hb as Hb1 Hb2 _. split; [congruence|].
      rewrite Hb1, Hb2, Cd, <- Lb. split; reflexivity. }
    split; [apply over_ext; intros i I; destruct (G i I) as (-> & _); reflexivity|].
    split; apply over_ext; intros i I; apply (G i I).
  Qed.

  Lemma hspf_single (u : U) region on v :
    u_staging u = SINGLE_STAGE -> u_heating_on u = Some on ->
    hspf sol M u region = Ok v ->
    exists d H1 H2 H3 L credit,
      climate u region = Ok d
      /\ heating_test sol M u (rc_H1_full (u_conds u)) H1
      /\ frost_test sol M u (rc_H2_full (u_conds u)) H2
      /\ heating_test sol M u (rc_H3_full (u_conds u)) H3
      /\ heat_load sol M u d L
      /\ demand_credit (u_defrost u) = Ok credit
      /\ v = seasonal_heating (hours_of d) (fun i => L (heat_t i))
               (single_energy (u_heating_off u) on (sd_cd (u_h u)) L H1 H2 H3)
               (single_resistance (u_heating_off u) on L H1 H2 H3) credit.
  Proof.
    intros S On H. apply hspf_common in H.
    destruct H as (d & H1 & H2 & H3 & load & Hd & T1 & T2 & T3 & Hl & H).
    unfold hspf_with in H. unfold heating_point, frost_point in H.
    rewrite (proj1 (tested_point _ _ _ _ _) T1) in H. cbn [rbind] in H.
    rewrite (proj1 (tested_point _ _ _ _ _) T2) in H. cbn [rbind] in H.
    rewrite (proj1 (tested_point _ _ _ _ _) T3) in H. cbn [rbind] in H.
    rewrite Hl in H. cbn [rbind] in H. rewrite S in H.
    apply rbind_ok in H. destruct H as (s & Hs & H).
    apply rated_value in H. destruct H as (credit & Cr & Ev).
    destruct (sums_load _ _ _ _ _ _ _ _ (climate_length u region d Hd) Hs) as (b0 & L0).
    destruct (load_inv u d H1 load (heat_t 0) b0 T1 Hl L0) as (L & HL & Ld & Lp).
    exists d, H1, H2, H3, L, credit. repeat (split; [assumption|]).
    apply (sums_single u on d load L H1 H2 H3 s) in Hs;
      [|apply (climate_length u region d Hd)|assumption..].
    destruct Hs as (Eq & Ee & Er). rewrite Ev, Eq, Ee, Er. reflexivity.
  Qed.

  Lemma single_bin off on cd (L : R -> R) H1 H2 H3 i :
    (forall t, 0 <= L t) ->
    single_heat off on L H1 H2 H3 i + single_resistance off on L H1 H2 H3 i = L (heat_t i)
    /\ 0 <= single_resistance off on L H1 H2 H3 i
    /\ (heat_t i <= off \/ full_line q_at H1 H2 H3 (heat_t i)
                           / full_line p_at H1 H2 H3 (heat_t i) < 1 ->
        single_energy off on cd L H1 H2 H3 i = 0
        /\ single_resistance off on L H1 H2 H3 i = L (heat_t i)).
  Proof.
    intros P. specialize (P (heat_t i)). unfold single_resistance, single_heat, single_energy.
    split; [ring|]. split.
    - assert (B := run_bounds off on (heat_t i)
        (full_line q_at H1 H2 H3 (heat_t i) / full_line p_at H1 H2 H3 (heat_t i))).
      fold (single_run off on H1 H2 H3 i) in B.
      set (m := Rmin _ _). assert (m <= L (heat_t i)) by apply Rmin_l. nra.
    - intros C. unfold single_run. rewrite (run_cut _ _ _ _ C). split; ring.
  Qed.
  Lemma heat_load_pos u d L : heat_load sol M u d L -> forall t, 0 <= L t.
  Proof.
    unfold heat_load. intros H t. destruct (u_standard u).
    - destruct H as (? & ? & _ & _ & _ & E). rewrite E. apply Rmax_r.
    - destruct H as (? & ? & ? & ? & _ & _ & _ & _ & _ & E). rewrite E. apply Rmax_r.
  Qed.

  (** ** Low speed *)
  Lemma low_inv (u : U) on bl t ql pl n r :
    u_heating_on u = Some on -> hspf_low u bl t ql pl n = Ok r ->
    let run := run_fraction (u_heating_off u) on t (ql / pl) in
    r = (n * (run * cycling (sd_cd (u_h u)) (bl / ql) pl), n * ((1 - run) * bl), Some run).
  Proof.
    intros On H run. unfold hspf_low in H.
    apply rbind_ok in H. destruct H as (cop & Hc & H). apply pydiv_inv in Hc.
    destruct Hc as [_ ->].
    apply rbind_ok in H. destruct H as (d & Hd & H). apply (cut_inv u on _ _ _ On) in Hd.
    apply rbind_ok in H. destruct H as (h & Hh & H). apply pydiv_inv in Hh.
    destruct Hh as [_ ->].
    apply rbind_ok in H. destruct H as (e & He & H). apply pydiv_inv in He.
    destruct He as [Z ->]. apply Ok_inj in H. subst r. fold run in Hd. rewrite Hd.
    rewrite lit1_R in *. cbn [nadd nsub nmul ndiv RNum] in *.
    apply f_equal2; [apply f_equal2|reflexivity].
    - unfold cycling, Rdiv. ring.
    - ring.
  Qed.

  (** ** Variable speed *)
  Lemma bin_variable_heat_inv (u : U) on bl t ql pl qi pi qf pf q4 p4 n dl r :
    u_heating_on u = Some on ->
    hspf_bin_variable u bl t ql pl qi pi qf pf q4 p4
      (run_fraction (u_heating_off u) on t (qf / pf)) n dl = Ok r ->
    let x := variable_heat (run_fraction (u_heating_off u) on t) (sd_cd (u_h u))
               bl ql pl qi pi qf pf q4 p4 in
    fst (fst r) = n * fst x /\ snd (fst r) = n * snd x.
  Proof.
    intros On H. unfold hspf_bin_variable in H.
    apply rbind_ok in H. destruct H as (cl & Hcl & H). apply pydiv_inv in Hcl.
    apply rbind_ok in H. destruct H as (ci & Hci & H). apply pydiv_inv in Hci.
    apply rbind_ok in H. destruct H as (cf & Hcf & H). apply pydiv_inv in Hcf.
    destruct Hcl as [_ Hcl]. destruct Hci as [_ Hci]. destruct Hcf as [_ Hcf].
    cbv zeta. unfold variable_heat. cbn [nleb nltb RNum] in H. revert H.
    destruct (Rleb_spec bl ql), (Rle_dec bl ql); try lra.
    - intros H. apply (low_inv u on) in H; [|exact On]. subst r. cbn [fst snd].
      split; reflexivity.
    - destruct (Rltb_spec bl qf), (Rlt_dec bl qf); try lra.
      + intros H. apply rbind_ok in H. destruct H as (cop & Hcop & H).
        assert (E : cop = speed_cop bl ql pl qi pi qf pf).
        { unfold speed_cop, line. revert Hcop.
          destruct (Rleb_spec bl qi), (Rle_dec bl qi); try lra; intros Hcop;
            apply rbind_ok in Hcop; destruct Hcop as (s & Hs & Hcop);
            apply pydiv_inv in Hs; destruct Hs as [_ ->]; apply Ok_inj in Hcop;
            rewrite <- Hcop, Hci; [rewrite Hcl|rewrite Hcf];
            cbn [nadd nsub nmul ndiv RNum]; unfold Rdiv; ring. }
        apply rbind_ok in H. destruct H as (d & Hd & H).
        apply (cut_inv u on _ _ _ On) in Hd.
        apply rbind_ok in H. destruct H as (e & He & H). apply pydiv_inv in He.
        destruct He as [_ ->]. apply Ok_inj in H. subst r. cbn [fst snd].
        rewrite <- E, Hd, lit1_R. cbn [nadd nsub nmul ndiv RNum]. unfold Rdiv.
        split; ring.
      + intros H. apply Ok_inj in H. subst r. cbn [fst snd]. rewrite lit1_R.
        cbn [nadd nsub nmul RNum]. split; ring.
  Qed.

  Lemma hslope_inv f (H0 H1l H2i H2 H3 : point R) m t :
    hspf_slope f H0 H1l H2i H2 H3 = Ok m ->
    (f H2i + m * (t - fr_F (lit 35)))%num
    = f H2i + mixed_slope (f H2i) (line (pt_t H0) (f H0) (pt_t H1l) (f H1l) (deg_F 35)) (f H2)
          ((f H0 - f H1l) / (deg_F 62 - deg_F 47)) ((f H2 - f H3) / (deg_F 35 - deg_F 17))
        * (t - deg_F 35).
  Proof.
    unfold hspf_slope. intros H. apply rbind_ok in H. destruct H as (a & Ha & H).
    apply rbind_ok in H. destruct H as (n & Hn & H).
    apply along_inv in Ha. apply pydiv_inv in Hn.
    destruct Ha as [_ ->]. destruct Hn as [_ ->].
    apply Ok_inj in H. subst m. rewrite !fr_F_deg.
    replace (lit (T:=R) 62) with 62 by (rnum; lra). replace (lit (T:=R) 47) with 47 by (rnum; lra).
    replace (lit (T:=R) 35) with 35 by (rnum; lra). replace (lit (T:=R) 17) with 17 by (rnum; lra).
    rewrite lit1_R. cbn [nadd nsub nmul ndiv RNum]. unfold mixed_slope. reflexivity.
  Qed.

  Definition variable_step (u : U) H0l H1l H2i H3 H4 mq mp :=
    fun bl t qf pf (df hlf n : R) dl =>
      let! ql := along pt_q H0l H1l t in
      let! pl := along pt_p H0l H1l t in
      let! q4 := along pt_q H4 H3 t in
      let! p4 := along pt_p H4 H3 t in
      hspf_bin_variable u bl t ql pl
        (pt_q H2i + mq * (t - fr_F (lit 35)))%num
        (pt_p H2i + mp * (t - fr_F (lit 35)))%num qf pf q4 p4 df n dl.
  Lemma sums_variable (u : U) on d load L H0l H1l H2i H1 H2 H3 H4 mq mp acc :
    List.length (hd_hours d) = 18%nat -> u_heating_on u = Some on ->
    (forall t, load t = Ok (L t)) ->
    hspf_slope pt_q H0l H1l H2i H2 H3 = Ok mq -> hspf_slope pt_p H0l H1l H2i H2 H3 = Ok mp ->
    hspf_sums u d load H1 H2 H3 (variable_step u H0l H1l H2i H3 H4 mq mp) = Ok acc ->
    let bin := variable_bin (u_heating_off u) on (sd_cd (u_h u)) L H0l H1l H2i H1 H2 H3 H4 in
    h_q acc = over 18 (fun i => hours_of d i * L (heat_t i))
    /\ h_e acc = over 18 (fun i => hours_of d i * fst (bin i))
    /\ h_rh acc = over 18 (fun i => hours_of d i * snd (bin i)).
  Proof.
    intros Len On Ld Hmq Hmp Hs. apply sums_inv in Hs; [|exact Len].
    destruct Hs as (bl & r & df & hlf & dl & _ & F & Eq & Ee & Er).
    cbv zeta. rewrite Eq, Ee, Er.
    assert (G : forall i, (i < 18)%nat ->
       bl i = L (heat_t i)
       /\ fst (r i) = hours_of d i * fst (variable_bin (u_heating_off u) on (sd_cd (u_h u)) L
                      H0l H1l H2i H1 H2 H3 H4 i)
       /\ snd (r i) = hours_of d i * snd (variable_bin (u_heating_off u) on (sd_cd (u_h u)) L
                      H0l H1l H2i H1 H2 H3 H4 i)).
    { intros i I. destruct (F i I) as (Lb & Np & Cd & Hh & Nq & Hb). clear F.
      rewrite Ld in Lb. apply Ok_inj in Lb. apply (cut_inv u on _ _ _ On) in Cd.
      rewrite Cd in Hb. split; [congruence|]. unfold variable_step in Hb.
      apply rbind_ok in Hb. destruct Hb as (ql & Hql & Hb). apply along_inv in Hql.
      apply rbind_ok in Hb. destruct Hb as (pl & Hpl & Hb). apply along_inv in Hpl.
      apply rbind_ok in Hb. destruct Hb as (q4 & Hq4 & Hb). apply along_inv in Hq4.
      apply rbind_ok in Hb. destruct Hb as (p4 & Hp4 & Hb). apply along_inv in Hp4.
      destruct Hql as [_ Hql]. destruct Hpl as [_ Hpl]. destruct Hq4 as [_ Hq4].
      destruct Hp4 as [_ Hp4].
      rewrite (hslope_inv _ _ _ _ _ _ _ (heat_t i) Hmq) in Hb.
      rewrite (hslope_inv _ _ _ _ _ _ _ (heat_t i) Hmp) in Hb.
      apply (bin_variable_heat_inv u on) in Hb; [|exact On]. cbn [fst snd] in Hb.
      rewrite Hql, Hpl, Hq4, Hp4, <- Lb in Hb. exact Hb. }
    split; [apply over_ext; intros i I; destruct (G i I) as (-> & _); reflexivity|].
    split; apply over_ext; intros i I; apply (G i I).
  Qed.

  Lemma hspf_variable (u : U) region on v :
    u_staging u = VARIABLE_SPEED -> u_heating_on u = Some on ->
    hspf sol M u region = Ok v ->
    exists d H0l H1l H2i H1 H2 H3 H4 L credit,
      climate u region = Ok d
      /\ heating_test sol M u (rc_H0_low (u_conds u)) H0l
      /\ heating_test sol M u (rc_H1_low (u_conds u)) H1l
      /\ frost_test sol M u (rc_H2_int (u_conds u)) H2i
      /\ heating_test sol M u (rc_H1_full (u_conds u)) H1
      /\ frost_test sol M u (rc_H2_full (u_conds u)) H2
      /\ heating_test sol M u (rc_H3_full (u_conds u)) H3
      /\ heating_test sol M u (rc_H4_full (u_conds u)) H4
      /\ heat_load sol M u d L
      /\ demand_credit (u_defrost u) = Ok credit
      /\ let bin := variable_bin (u_heating_off u) on (sd_cd (u_h u)) L
                      H0l H1l H2i H1 H2 H3 H4 in
         v = seasonal_heating (hours_of d) (fun i => L (heat_t i))
               (fun i => fst (bin i)) (fun i => snd (bin i)) credit.
  Proof.
    intros S On H. apply hspf_common in H.
    destruct H as (d & H1 & H2 & H3 & load & Hd & T1 & T2 & T3 & Hl & H).
    unfold hspf_with in H. unfold heating_point, frost_point in H.
    rewrite (proj1 (tested_point _ _ _ _ _) T1) in H. cbn [rbind] in H.
    rewrite (proj1 (tested_point _ _ _ _ _) T2) in H. cbn [rbind] in H.
    rewrite (proj1 (tested_point _ _ _ _ _) T3) in H. cbn [rbind] in H.
    rewrite Hl in H. cbn [rbind] in H. rewrite S in H.
    apply rbind_ok in H. destruct H as (s & Hs & H).
    apply rated_value in H. destruct H as (credit & Cr & Ev).
    apply rbind_ok in Hs. destruct Hs as (H0l & T0l & Hs).
    apply rbind_ok in Hs. destruct Hs as (H1l & T1l & Hs).
    apply rbind_ok in Hs. destruct Hs as (H2i & T2i & Hs).
    apply rbind_ok in Hs. destruct Hs as (H4 & T4 & Hs).
    apply rbind_ok in Hs. destruct Hs as (mq & Hmq & Hs).
    apply rbind_ok in Hs. destruct Hs as (mp & Hmp & Hs).
    destruct (sums_load _ _ _ _ _ _ _ _ (climate_length u region d Hd) Hs) as (b0 & L0).
    destruct (load_inv u d H1 load (heat_t 0) b0 T1 Hl L0) as (L & HL & Ld & Lp).
    exists d, H0l, H1l, H2i, H1, H2, H3, H4, L, credit.
    split; [assumption|].
    split; [apply tested_point, T0l|]. split; [apply tested_point, T1l|].
    split; [apply tested_point, T2i|].
    repeat (split; [assumption|]). split; [apply tested_point, T4|].
    repeat (split; [assumption|]). cbv zeta.
    apply (sums_variable u on d load L H0l H1l H2i H1 H2 H3 H4 mq mp s) in Hs;
      [|apply (climate_length u region d Hd)|assumption..].
    cbv zeta in Hs. destruct Hs as (Eq & Ee & Er). rewrite Ev, Eq, Ee, Er. reflexivity.
  Qed.

  Lemma variable_cut (run : R -> R) cd bl ql pl qi pi qf pf q4 p4 :
    (forall c, run c = 0) -> variable_heat run cd bl ql pl qi pi qf pf q4 p4 = (0, bl).
  Proof.
    intros Z. unfold variable_heat. destruct (Rle_dec bl ql); [rewrite !Z; f_equal; ring|].
    destruct (Rlt_dec bl qf); cbv zeta; rewrite !Z; f_equal; ring.
  Qed.
  Lemma variable_bin_cut off on cd L H0l H1l H2i H1 H2 H3 H4 i :
    heat_t i <= off ->
    variable_bin off on cd L H0l H1l H2i H1 H2 H3 H4 i = (0, L (heat_t i)).
  Proof.
    intros C. unfold variable_bin. apply variable_cut. intros c. apply run_cut. left. exact C.
  Qed.
  (** The resistance heat when the load is not met. *)
  Lemma variable_bin_over off on cd L H0l H1l H2i H1 H2 H3 H4 i :
    let t := heat_t i in
    q_at H0l H1l t < L t -> full_line q_at H1 H2 H3 t <= L t ->
    on < t -> off < t -> 1 <= full_line q_at H1 H2 H3 t / full_line p_at H1 H2 H3 t ->
    snd (variable_bin off on cd L H0l H1l H2i H1 H2 H3 H4 i) = L t - q_at H4 H3 t.
  Proof.
    intros t A B C D E. unfold variable_bin. fold t. unfold variable_heat.
    destruct (Rle_dec (L t) (q_at H0l H1l t)); [lra|].
    destruct (Rlt_dec (L t) (full_line q_at H1 H2 H3 t)); [lra|]. cbn [snd].
    unfold run_fraction. destruct (Rle_dec t off); [lra|].
    match goal with |- context [Rlt_dec ?a 1] => destruct (Rlt_dec a 1); [lra|] end.
    destruct (Rlt_dec on t); [|lra]. ring.
  Qed.

  (** ** Two stages *)
  Lemma two_low_inv f g (H0 H1 H2 H3 : point R) t v :
    (forall a b x, g a b x = line (pt_t a) (f a) (pt_t b) (f b) x) ->
    hspf_two_low f H0 H1 H2 H3 t = Ok v -> v = low_line g H0 H1 H2 H3 t.
  Proof.
    intros G. unfold hspf_two_low, low_line. cbn [nleb RNum]. rewrite !fr_F_deg.
    replace (lit (T:=R) 40) with 40 by (rnum; lra). replace (lit (T:=R) 17) with 17 by (rnum; lra).
    destruct (Rleb_spec (deg_F 40) t), (Rle_dec (deg_F 40) t); try lra;
      [|destruct (Rleb_spec t (deg_F 17)), (Rle_dec t (deg_F 17)); try lra];
      intros H; apply along_inv in H; destruct H as [_ ->]; rewrite G; reflexivity.
  Qed.

  Lemma bin_two_heat_inv (u : U) on bl t ql pl qf pf n dl r :
    u_heating_on u = Some on ->
    let df := run_fraction (u_heating_off u) on t (qf / pf) in
    let run := run_fraction (u_heating_off u) on t (ql / pl) in
    hspf_bin_two u bl t ql pl qf pf df (load_factor bl qf) n dl = Ok r ->
    let old := match dl with Some d => d | None => 0 end in
    let x := two_stage_heat (u_cycling u) (sd_cd (u_h u)) bl ql pl qf pf run df old in
    fst (fst r) = n * fst x /\ snd (fst r) = n * snd x
    /\ snd r = (if Rle_dec bl ql then Some run else dl)
    /\ (ql < bl < qf -> dl <> None).
  Proof.
    intros On df run H. unfold hspf_bin_two in H.
    apply rbind_ok in H. destruct H as (cl & Hcl & H). clear Hcl cl.
    cbv zeta. unfold two_stage_heat. cbn [nleb nltb RNum] in H. revert H.
    destruct (Rleb_spec bl ql), (Rle_dec bl ql); try lra.
    - intros H. apply (low_inv u on) in H; [|exact On]. subst r. cbn [fst snd].
      repeat split. lra.
    - destruct (Rltb_spec bl qf), (Rlt_dec bl qf); try lra.
      + intros H. apply rbind_ok in H. destruct H as (low & Hlow & H).
        apply pydiv_inv in Hlow. destruct Hlow as [Nz ->]. cbn [nsub RNum] in Nz.
        destruct (u_cycling u).
        * apply rbind_ok in H. destruct H as (d & Hd & H). apply need_ok in Hd.
          apply Ok_inj in H. subst r dl. cbn [fst snd]. rewrite lit1_R.
          cbn [nadd nsub nmul ndiv RNum]. repeat split; [|ring|congruence].
          unfold line. field. exact Nz.
        * apply rbind_ok in H. destruct H as (e & He & H). apply pydiv_inv in He.
          destruct He as [_ ->].
          apply rbind_ok in H. destruct H as (d & Hd & H). apply need_ok in Hd.
          apply Ok_inj in H. subst r dl. cbn [fst snd]. rewrite lit1_R.
          cbn [nadd nsub nmul ndiv RNum]. repeat split; [|ring|congruence].
          unfold load_factor. destruct (Rlt_dec bl qf); [|lra]. unfold Rdiv. ring.
      + intros H. apply Ok_inj in H. subst r. cbn [fst snd]. rewrite lit1_R.
        cbn [nadd nsub nmul RNum]. repeat split; try ring. lra.
  Qed.

  Definition two_step (u : U) H0l H1l H2l H3l :=
    fun bl t qf pf (df hlf n : R) dl =>
      let! ql := hspf_two_low pt_q H0l H1l H2l H3l t in
      let! pl := hspf_two_low pt_p H0l H1l H2l H3l t in
      hspf_bin_two u bl t ql pl qf pf df hlf n dl.
  Lemma sums_two (u : U) on d load L (st : stage_tests) acc :
    List.length (hd_hours d) = 18%nat -> u_heating_on u = Some on ->
    (forall t, load t = Ok (L t)) ->
    hspf_sums u d load (s_H1 st) (s_H2 st) (s_H3 st)
      (two_step u (s_H0l st) (s_H1l st) (s_H2l st) (s_H3l st)) = Ok acc ->
    let bin := two_stage_bin (u_cycling u) (u_heating_off u) on (sd_cd (u_h u)) L st in
    h_q acc = over 18 (fun i => hours_of d i * L (heat_t i))
    /\ h_e acc = over 18 (fun i => hours_of d i * fst (bin i))
    /\ h_rh acc = over 18 (fun i => hours_of d i * snd (bin i))
    /\ forall i, (i < 18)%nat ->
         low_of q_at st i < L (heat_t i) < full_of q_at st i ->
         carried (u_heating_off u) on L st i <> None.
  Proof.
    intros Len On Ld Hs. apply sums_inv in Hs; [|exact Len].
    destruct Hs as (bl & r & df & hlf & dl & D0 & F & Eq & Ee & Er). cbv zeta.
    set (off := u_heating_off u) in *. set (cd := sd_cd (u_h u)) in *.
    assert (G : forall i, (i < 18)%nat ->
       bl i = L (heat_t i)
       /\ let x := two_stage_heat (u_cycling u) cd (L (heat_t i)) (low_of q_at st i)
             (low_of p_at st i) (full_of q_at st i) (full_of p_at st i)
             (low_run off on st i) (full_run off on st i)
             (match dl i with Some y => y | None => 0 end) in
          fst (r i) = hours_of d i * fst x /\ snd (r i) = hours_of d i * snd x
          /\ dl (S i) = (if Rle_dec (L (heat_t i)) (low_of q_at st i)
                         then Some (low_run off on st i) else dl i)
          /\ (low_of q_at st i < L (heat_t i) < full_of q_at st i -> dl i <> None)).
    { intros i I. destruct (F i I) as (Lb & Np & Cd & Hh & Nq & Hb). clear F.
      rewrite Ld in Lb. apply Ok_inj in Lb. apply (cut_inv u on _ _ _ On) in Cd.
      rewrite Cd, Hh in Hb. split; [congruence|]. unfold two_step in Hb.
      apply rbind_ok in Hb. destruct Hb as (ql & Hql & Hb).
      apply (two_low_inv pt_q q_at) in Hql; [|reflexivity].
      apply rbind_ok in Hb. destruct Hb as (pl & Hpl & Hb).
      apply (two_low_inv pt_p p_at) in Hpl; [|reflexivity].
      apply (bin_two_heat_inv u on) in Hb; [|exact On]. cbn [fst snd] in Hb.
      rewrite Hql, Hpl, <- Lb in Hb. exact Hb. }
    assert (K : forall i, (i <= 18)%nat -> dl i = carried off on L st i).
    { induction i as [|i IH]; intros I; [exact D0|].
      destruct (G i ltac:(lia)) as (_ & _ & _ & E & _). rewrite E, IH by lia. reflexivity. }
    rewrite Eq, Ee, Er.
    split; [apply over_ext; intros i I; destruct (G i I) as (-> & _); reflexivity|].
    split; [|split].
    - apply over_ext; intros i I; unfold two_stage_bin; rewrite <- K by lia; apply (G i I).
    - apply over_ext; intros i I; unfold two_stage_bin; rewrite <- K by lia; apply (G i I).
    - intros i I J. rewrite <- K by lia. apply (G i I). exact J.
  Qed.

  Lemma hspf_two (u : U) region on v :
    u_staging u = TWO_STAGE -> u_heating_on u = Some on ->
    hspf sol M u region = Ok v ->
    exists d s L credit,
      climate u region = Ok d
      /\ heating_test sol M u (rc_H0_low (u_conds u)) (s_H0l s)
      /\ heating_test sol M u (rc_H1_low (u_conds u)) (s_H1l s)
      /\ frost_test sol M u (rc_H2_low (u_conds u)) (s_H2l s)
      /\ heating_test sol M u (rc_H3_low (u_conds u)) (s_H3l s)
      /\ heating_test sol M u (rc_H1_full (u_conds u)) (s_H1 s)
      /\ frost_test sol M u (rc_H2_full (u_conds u)) (s_H2 s)
      /\ heating_test sol M u (rc_H3_full (u_conds u)) (s_H3 s)
      /\ heat_load sol M u d L
      /\ demand_credit (u_defrost u) = Ok credit
      /\ let bin := two_stage_bin (u_cycling u) (u_heating_off u) on (sd_cd (u_h u)) L s in
         v = seasonal_heating (hours_of d) (fun i => L (heat_t i))
               (fun i => fst (bin i)) (fun i => snd (bin i)) credit
      /\ forall i, (i < 18)%nat ->
           low_of q_at s i < L (heat_t i) < full_of q_at s i ->
           carried (u_heating_off u) on L s i <> None.
  Proof.
    intros St On H. apply hspf_common in H.
    destruct H as (d & H1 & H2 & H3 & load & Hd & T1 & T2 & T3 & Hl & H).
    unfold hspf_with in H. unfold heating_point, frost_point in H.
    rewrite (proj1 (tested_point _ _ _ _ _) T1) in H. cbn [rbind] in H.
    rewrite (proj1 (tested_point _ _ _ _ _) T2) in H. cbn [rbind] in H.
    rewrite (proj1 (tested_point _ _ _ _ _) T3) in H. cbn [rbind] in H.
    rewrite Hl in H. cbn [rbind] in H. rewrite St in H.
    apply rbind_ok in H. destruct H as (s & Hs & H).
    apply rated_value in H. destruct H as (credit & Cr & Ev).
    apply rbind_ok in Hs. destruct Hs as (H0l & T0l & Hs).
    apply rbind_ok in Hs. destruct Hs as (H1l & T1l & Hs).
    apply rbind_ok in Hs. destruct Hs as (H2l & T2l & Hs).
    apply rbind_ok in Hs. destruct Hs as (H3l & T3l & Hs).
    destruct (sums_load _ _ _ _ _ _ _ _ (climate_length u region d Hd) Hs) as (b0 & L0).
    destruct (load_inv u d H1 load (heat_t 0) b0 T1 Hl L0) as (L & HL & Ld & Lp).
    pose (st := mkStages H0l H1l H2l H3l H1 H2 H3).
    exists d, st, L, credit. split; [assumption|].
    split; [apply tested_point, T0l|]. split; [apply tested_point, T1l|].
    split; [apply tested_point, T2l|]. split; [apply tested_point, T3l|].
    repeat (split; [assumption|]). cbv zeta.
    apply (sums_two u on d load L st s) in Hs;
      [|apply (climate_length u region d Hd)|assumption..].
    cbv zeta in Hs. destruct Hs as (Eq & Ee & Er & Nn). split; [|exact Nn].
    rewrite Ev, Eq, Ee, Er. reflexivity.
  Qed.
End Hspf.
