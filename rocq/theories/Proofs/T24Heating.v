(** Heating power of the Title 24 model (C77). *)
From Coq Require Import Reals QArith Lra Psatz Lia List Bool String.
From Verif.Base Require Import Num Res Tac.
From Verif.Model Require Import Units Util Psychrometrics Conditions Defrost Fan Tabular Unit
  NREL BaseModel Title24 DXUnit.
From Verif.Spec Require Import NrelSpec ModelSpec RatingSpec Title24Spec.
From Verif.Proofs Require Import UnitsR NrelProofs T24Cache ModelProofs.
Import ListNotations.
Local Open Scope R_scope.

(** * The bins *)
Lemma bins_eq : t24_bins (T:=R) = heating_bins.
Proof. unfold t24_bins, heating_bins. repeat (f_equal; [f_equal; rnum; lra|]). do 2 f_equal; rnum; lra. Qed.

Section Bins.
  Variables cd q47 q35 q17 e47 e35 e17 : R.
  Notation load := (bin_load q47).
  Notation elec := (bin_electricity cd q17 q35 q47 e17 e35 e47).

  Lemma bin_inv acc tb r : t24_bin cd q47 q35 q17 e47 e35 e17 acc tb = Ok r ->
    fst r = fst acc + load (fst tb) * snd tb /\ snd r = snd acc + elec (fst tb) * snd tb.
  Proof.
    destruct tb as [t fr]. unfold t24_bin. cbv zeta. intros H.
    set (low := (_ && _)%bool) in H.
    assert (LOW : low = true /\ (17 < t < 45) \/ low = false /\ ~ (17 < t < 45)).
    { unfold low. cbn [nltb RNum]. replace (lit 17) with 17 by (rnum; lra). replace (lit 45) with 45 by (rnum; lra).
      destruct (Rltb_spec 17 t), (Rltb_spec t 45); cbn [andb]; [left|right|right|right]; split; auto; lra. }
    clearbody low.
    assert (LINE : forall a17 a35 a47 : R,
      nadd a17 (nmul (if low then ndiv (nsub a35 a17) (nsub (lit 35) (lit 17))
                  else ndiv (nsub a47 a17) (nsub (lit 47) (lit 17))) (nsub t (lit 17)))
      = frosted_line a17 a35 a47 t).
    { intros a b e. unfold frosted_line. destruct LOW as [[-> L]|[-> L]].
      - destruct (Rlt_dec 17 t), (Rlt_dec t 45); try (exfalso; lra). rnum. field.
      - destruct (Rlt_dec 17 t), (Rlt_dec t 45); try (exfalso; lra); rnum; field. }
    rewrite (LINE q17 q35 q47), (LINE e17 e35 e47) in H.
    assert (LD : nmul (nmul (ndiv (nsub (lit 65) t) (nsub (lit 65) (lit 5))) (lit 0.77)) q47 = load t).
    { unfold bin_load. rnum. field. }
    rewrite LD in H.
    unfold bin_electricity. cbv zeta. cbn [fst snd].
    set (cap := frosted_line q17 q35 q47 t) in *. set (e := frosted_line e17 e35 e47 t) in *.
    set (bl := load t) in *. clearbody cap e bl.
    apply rbind_ok in H. destruct H as (x0 & X0 & H). apply pydiv_inv in X0. destruct X0 as [NC ->].
    apply rbind_ok in H. destruct H as (sg & SG & H).
    apply rbind_ok in H. destruct H as (en & EN & H). apply pydiv_inv in EN. destruct EN as [NP ->].
    apply Ok_inj in H. subst r. cbn [fst snd].
    assert (X : pymin (bl / cap) (lit 1) = Rmin (bl / cap) 1).
    { generalize (bl / cap). intros z. rewrite lit1_R. unfold pymin, Rmin. cbn [nltb RNum].
      destruct (Rltb_spec 1 z), (Rle_dec z 1); lra. }
    assert (S : sg = bin_running t cap e).
    { unfold bin_running. cbn [nleb RNum] in SG. rewrite lit0_R in SG.
      destruct (Rleb_spec t 0), (Rle_dec t 0); try (exfalso; lra).
      - apply Ok_inj in SG. auto.
      - apply rbind_ok in SG. destruct SG as (k & K & SG). apply pydiv_inv in K. destruct K as [_ ->].
        cbn [nltb RNum] in SG. rewrite lit1_R in SG.
        destruct (Rltb_spec (cap / e) 1), (Rlt_dec (cap / e) 1); try (exfalso; lra).
        + apply Ok_inj in SG. auto.
        + replace (lit 5) with 5 in SG by (rnum; lra).
          destruct (Rleb_spec t 5), (Rle_dec t 5); try (exfalso; lra);
            apply Ok_inj in SG; subst sg; rnum; lra. }
    rewrite X, S. clear - NP. cbn [nadd nsub nmul ndiv RNum]. rewrite lit1_R. split; [reflexivity|].
    f_equal. set (a := _ / _). set (b := _ - _). clearbody a b. lra.
  Qed.

  Lemma bins_inv l : forall acc r, rfold (t24_bin cd q47 q35 q17 e47 e35 e17) acc l = Ok r ->
    fst r = fst acc + fold_right Rplus 0 (map (fun b => load (fst b) * snd b) l)
    /\ snd r = snd acc + fold_right Rplus 0 (map (fun b => elec (fst b) * snd b) l).
  Proof.
    induction l as [|b l IH]; intros acc r H; cbn [rfold] in H; cbn [map fold_right].
    - apply Ok_inj in H. subst. lra.
    - apply rbind_ok in H. destruct H as (acc' & E & H). apply bin_inv in E. destruct E as [E1 E2].
      apply IH in H. lra.
  Qed.
End Bins.

(** * The error handed to the root finder, without the caches *)
Section Solve.
  Variable sol : solvers R.
  Variable u : dxunit R.
  Notation D := (t24 R).
  Notation n := (sd_n (u_h u)).

  (** Input and COP at 35 F. *)
  Definition side35 (i : nat) (cap35 inp17 inp47 : R) : res (R * R) :=
    match kwarg_entry "cop35" u i with
    | Some r => let! k := r in let! e := pydiv cap35 k in Ok (e, k)
    | None =>
        let x := (inp17 + lit 0.6 * (inp47 - inp17))%num in
        let x := if has_defrost u then (x * lit 0.985)%num else x in
        let! k := pydiv cap35 x in Ok (x, k)
    end.
  (** The error, and the COP at 35 F. *)
  Definition pair_of (i : nat) (cop17 : R) : res (R * R) :=
    let! cap47 := geti (sd_net_cap (u_h u)) i in
    let! cop47 := arr (sd_net_cop (u_h u)) i in
    let! inp47 := pydiv cap47 cop47 in
    let! cap35 := p35 u i in
    let! cap17 := p17 u i in
    let! inp17 := pydiv cap17 cop17 in
    let! ek := side35 i cap35 inp17 inp47 in
    let! tot := rfold (t24_bin (sd_cd (u_h u)) cap47 cap35 cap17 inp47 (fst ek) inp17)
                  (lit 0, lit 0) t24_bins in
    let! h := pydiv (fst tot) (snd tot) in
    let! target := need TypeError (u_hspf u) in
    Ok (to_Btu_Wh h - target, snd ek).
  Definition error_of (i : nat) (x : R) : res R := let! p := pair_of i x in Ok (fst p).

  Definition probe (c : cond R) (cop17 : R) : st D R :=
    do h <- check_hspf u c cop17 ;;
    do target <- slift (need TypeError (u_hspf u)) ;;
    sret (h - target)%num.

  (** The cache while solving. *)
  Definition ready (d : D) : Prop :=
    capok u d /\ exists l, t_cop35 d = Some l /\ List.length l = n.
  Definition at35 (d : D) (i : nat) (o : option R) : Prop :=
    exists l, t_cop35 d = Some l /\ nth_error l i = Some o.

  Lemma write35 d i k : ready d -> (i < n)%nat ->
    exists d', write_key t_cop35 wt_cop35 i k d = (d', Ok tt) /\ ready d'
      /\ t_cop17 d' = t_cop17 d /\ at35 d' i (Some k).
  Proof.
    intros [[C1 C2] (l & L & N)] I. unfold write_key. rewrite sbind_eq. unfold sread. rewrite L.
    cbn [need rbind]. unfold seti. destruct (Nat.ltb_spec i (List.length l)); [|lia].
    unfold smod. eexists. split; [reflexivity|]. split; [|split; [reflexivity|]].
    - split; [split; assumption|]. eexists. split; [reflexivity|]. rewrite upd_length. exact N.
    - eexists. split; [reflexivity|]. rewrite upd_same by lia. reflexivity.
  Qed.
  Lemma pure_ready {A} (m : st D A) r d : pureop u m r -> ready d ->
    exists d', m d = (d', r) /\ ready d' /\ t_cop17 d' = t_cop17 d /\ t_cop35 d' = t_cop35 d.
  Proof.
    intros H [C (l & L & N)]. destruct (H d C) as (d' & E & C' & [S1 S2] & _).
    exists d'. split; [exact E|]. split; [|auto]. split; [exact C'|]. exists l. rewrite S2. auto.
  Qed.

  Lemma p35_lt i v : p35 u i = Ok v -> (i < n)%nat.
  Proof. unfold p35. destruct (Nat.ltb_spec i n); [auto|discriminate]. Qed.

  (** One trial. *)
  Lemma probe_run c x d : ready d ->
    exists d', probe c x d = (d', error_of (c_speed c) x) /\ ready d' /\ t_cop17 d' = t_cop17 d
      /\ forall p, pair_of (c_speed c) x = Ok p -> at35 d' (c_speed c) (Some (snd p)).
  Proof.
    intros Rd. set (i := c_speed c). unfold probe, error_of, pair_of. rewrite sbind_eq.
    unfold check_hspf. cbv zeta. fold i.
    rewrite sbind_eq. unfold slift at 1. destruct (geti (sd_net_cap (u_h u)) i) as [cap47|e] eqn:E47;
      [cbn [rbind]|cbn [rbind]; exists d; repeat (split; [auto|]); discriminate].
    rewrite sbind_eq. unfold slift at 1. destruct (arr (sd_net_cop (u_h u)) i) as [cop47|e] eqn:EC;
      [cbn [rbind]|cbn [rbind]; exists d; repeat (split; [auto|]); discriminate].
    rewrite sbind_eq. unfold slift at 1. destruct (pydiv cap47 cop47) as [inp47|e] eqn:EI;
      [cbn [rbind]|cbn [rbind]; exists d; repeat (split; [auto|]); discriminate].
    rewrite sbind_eq.
    destruct (pure_ready _ _ d (get_cap35_pure u c) Rd) as (d1 & E1 & R1 & S1 & T1). fold i in E1.
    rewrite E1. destruct (p35 u i) as [cap35|e] eqn:E35;
      [cbn [rbind]|cbn [rbind]; exists d1; repeat (split; [auto|]); discriminate].
    pose proof (p35_lt _ _ E35) as LT.
    rewrite sbind_eq.
    destruct (pure_ready _ _ d1 (get_cap17_pure u c) R1) as (d2 & E2 & R2 & S2 & T2). fold i in E2.
    rewrite E2. destruct (p17 u i) as [cap17|e] eqn:E17;
      [cbn [rbind]|cbn [rbind]; exists d2; split; [reflexivity|]; split; [auto|]; split; [congruence|discriminate]].
    rewrite sbind_eq. unfold slift at 1. destruct (pydiv cap17 x) as [inp17|e] eqn:EX;
      [cbn [rbind]|cbn [rbind]; exists d2; split; [reflexivity|]; split; [auto|]; split; [congruence|discriminate]].
    rewrite sbind_eq.
    match goal with |- context [match ?m d2 with _ => _ end] => set (M := m) end.
    assert (HM : exists d3, M d2 = (d3, rbind (side35 i cap35 inp17 inp47) (fun p => Ok (fst p)))
      /\ ready d3 /\ t_cop17 d3 = t_cop17 d2
      /\ forall p, side35 i cap35 inp17 inp47 = Ok p -> at35 d3 i (Some (snd p))).
    { unfold M, side35. destruct (kwarg_entry "cop35" u i) as [r|].
      - rewrite sbind_eq. unfold slift at 1. destruct r as [k|e]; cbn [rbind];
          [|exists d2; repeat (split; [auto|]); discriminate].
        rewrite sbind_eq. destruct (write35 d2 i k R2 LT) as (d3 & E3 & R3 & S3 & A3). rewrite E3.
        unfold slift. exists d3. destruct (pydiv cap35 k) as [e|e]; cbn [rbind];
          (split; [reflexivity|]); (split; [auto|]); (split; [auto|]); intros p P;
          [|discriminate]. apply Ok_inj in P. subst p. exact A3.
      - cbv zeta. set (y := if has_defrost u then _ else _).
        rewrite sbind_eq. unfold slift at 1. destruct (pydiv cap35 y) as [k|e]; cbn [rbind];
          [|exists d2; repeat (split; [auto|]); discriminate].
        rewrite sbind_eq. destruct (write35 d2 i k R2 LT) as (d3 & E3 & R3 & S3 & A3). rewrite E3.
        unfold sret. exists d3. split; [reflexivity|]. split; [auto|]. split; [auto|].
        intros p P. apply Ok_inj in P. subst p. exact A3. }
    destruct HM as (d3 & E3 & R3 & S3 & A3). rewrite E3. clear M E3.
    destruct (side35 i cap35 inp17 inp47) as [ek|e];
      [cbn [rbind]|cbn [rbind]; exists d3; split; [reflexivity|]; split; [auto|]; split; [congruence|discriminate]].
    rewrite sbind_eq. unfold slift at 1. destruct (rfold _ _ t24_bins) as [tot|e];
      [cbn [rbind]|cbn [rbind]; exists d3; split; [reflexivity|]; split; [auto|]; split; [congruence|discriminate]].
    rewrite sbind_eq. unfold slift at 1. destruct (pydiv (fst tot) (snd tot)) as [h|e];
      [cbn [rbind]|cbn [rbind]; exists d3; split; [reflexivity|]; split; [auto|]; split; [congruence|discriminate]].
    unfold sret at 1. rewrite sbind_eq. unfold slift.
    destruct (need TypeError (u_hspf u)) as [tg|e];
      [cbn [rbind]|cbn [rbind]; exists d3; split; [reflexivity|]; split; [auto|]; split; [congruence|discriminate]].
    unfold sret. exists d3. split; [reflexivity|]. split; [auto|]. split; [congruence|].
    intros p P. apply Ok_inj in P. subst p. exact (A3 ek eq_refl).
  Qed.

  (** A run of the root finder. *)
  Lemma prober_run c p : forall d, ready d ->
    exists d', run_prober (probe c) p d = (d', run_prober_pure (error_of (c_speed c)) p)
      /\ ready d' /\ t_cop17 d' = t_cop17 d
      /\ forall r, run_prober_pure (error_of (c_speed c)) p = Ok r ->
         match rev (trials (error_of (c_speed c)) p) with
         | [] => t_cop35 d' = t_cop35 d
         | y :: _ => exists q, pair_of (c_speed c) y = Ok q /\ at35 d' (c_speed c) (Some (snd q))
         end.
  Proof.
    induction p as [x|e|x k IH]; intros d Rd; cbn [run_prober run_prober_pure trials rev].
    - exists d. unfold sret. auto.
    - exists d. unfold slift. auto.
    - rewrite sbind_eq. destruct (probe_run c x d Rd) as (d1 & E1 & R1 & S1 & A1). rewrite E1.
      destruct (error_of (c_speed c) x) as [y|e] eqn:EY; cbn [rbind].
      + destruct (IH y d1 R1) as (d2 & E2 & R2 & S2 & A2). exists d2. split; [exact E2|].
        split; [exact R2|]. split; [congruence|]. intros r Hr. specialize (A2 r Hr).
        destruct (rev (trials (error_of (c_speed c)) (k y))) as [|z l]; cbn [app].
        * unfold error_of in EY. apply rbind_ok in EY. destruct EY as (q & Q & _).
          exists q. split; [exact Q|]. destruct (A1 q Q) as (l & L & N). exists l. rewrite A2. auto.
        * exact A2.
      + exists d1. split; [reflexivity|]. split; [auto|]. split; [auto|]. discriminate.
  Qed.

  (** ** What the error is *)
  Lemma kwarg35 i cap35 inp17 inp47 ek q17 : side35 i cap35 inp17 inp47 = Ok ek ->
    input35 u i q17 cap35 inp17 inp47 (fst ek) /\ (snd ek <> 0 -> cap35 / snd ek = fst ek).
  Proof.
    unfold side35, input35. destruct (kwarg_entry "cop35" u i) as [r|] eqn:E; intros H.
    - apply rbind_ok in H. destruct H as (k & -> & H).
      apply rbind_ok in H. destruct H as (e & X & H). apply pydiv_inv in X. destruct X as [N ->].
      apply Ok_inj in H. subst ek. cbn [fst snd]. split; [|reflexivity]. left. exists k.
      split; [apply kwarg_supplied; exact E|reflexivity].
    - cbv zeta in H. apply rbind_ok in H. destruct H as (k & X & H). apply pydiv_inv in X.
      destruct X as [N X]. apply Ok_inj in H. subst ek. cbn [fst snd].
      set (y := if has_defrost u then _ else _) in *.
      assert (Y : y = (inp17 + (35 - 17) / (47 - 17) * (inp47 - inp17))
                      * match df_strategy (u_defrost u) with DSNone => 1 | _ => 0.985 end).
      { unfold y, has_defrost. replace ((35 - 17) / (47 - 17)) with 0.6 by lra.
        destruct (df_strategy (u_defrost u)); rnum; lra. }
      split; [right; split; [eapply kwarg_absent; exact E|exact Y]|].
      clearbody y. subst k. intros K. assert (cap35 <> 0).
      { intros ->. apply K. unfold Rdiv. apply Rmult_0_l. }
      field. auto.
  Qed.

  (** The values behind a successful trial. *)
  Lemma pair_inv i x p : pair_of i x = Ok p ->
    exists q17 q35 q47 k47 e35 target, anchor17 u i q17 /\ anchor35 u i q35 /\ anchor47 u i q47
      /\ entry (sd_net_cop (u_h u)) i k47 /\ k47 <> 0 /\ x <> 0
      /\ input35 u i q17 q35 (q17 / x) (q47 / k47) e35
      /\ (snd p <> 0 -> q35 / snd p = e35)
      /\ u_hspf u = Some target
      /\ fst p = seasonal_heating (sd_cd (u_h u)) q17 q35 q47 (q17 / x) e35 (q47 / k47) - target.
  Proof.
    unfold pair_of. intros H.
    apply rbind_ok in H. destruct H as (q47 & Q47 & H). apply geti_ok in Q47.
    apply rbind_ok in H. destruct H as (k47 & K47 & H). apply arr_ok in K47.
    apply rbind_ok in H. destruct H as (e47 & E47 & H). apply pydiv_inv in E47. destruct E47 as [N47 ->].
    apply rbind_ok in H. destruct H as (q35 & Q35 & H). apply p35_anchor in Q35.
    apply rbind_ok in H. destruct H as (q17 & Q17 & H). apply p17_anchor in Q17.
    apply rbind_ok in H. destruct H as (e17 & E17 & H). apply pydiv_inv in E17. destruct E17 as [NX ->].
    apply rbind_ok in H. destruct H as (ek & EK & H). apply (kwarg35 _ _ _ _ _ q17) in EK. destruct EK as [IN K35].
    apply rbind_ok in H. destruct H as (tot & TOT & H). apply bins_inv in TOT. destruct TOT as [T1 T2].
    apply rbind_ok in H. destruct H as (h & HH & H). apply pydiv_inv in HH. destruct HH as [NH ->].
    apply rbind_ok in H. destruct H as (tg & TG & H). apply need_ok in TG.
    apply Ok_inj in H. subst p. cbn [fst snd].
    exists q17, q35, q47, k47, (fst ek), tg. repeat (split; [assumption|]).
    rewrite T1, T2, bins_eq. cbn [fst snd]. rewrite lit0_R, !Rplus_0_l.
    unfold seasonal_heating, over_bins, to_Btu_Wh, btu_h. cbn [ndiv nsub RNum].
    replace (lit 1055.056) with 1055.056 by (rnum; lra). replace (lit 3600) with 3600 by (rnum; lra).
    reflexivity.
  Qed.
  Lemma error_is_hspf_error i : is_hspf_error u i (error_of i).
  Proof.
    intros k y H. unfold error_of in H. apply rbind_ok in H. destruct H as (p & P & H).
    apply Ok_inj in H. subst y.
    destruct (pair_inv _ _ _ P) as (q17 & q35 & q47 & k47 & e35 & tg & A & B & C & K & _ & _ & I & _ & T & E).
    eexists _, tg. split; [|split; [exact T|exact E]].
    exists q17, q35, q47, k47, e35. auto 10.
  Qed.

  (** ** Calculating the COPs *)
  Lemma calc_inv c d d' : capok u d -> t_cop17 d = None -> t_cop35 d = None ->
    calculate_cops sol u c d = (d', Ok tt) ->
    exists x, run_prober_pure (error_of (c_speed c)) (newton sol 3) = Ok x /\ capok u d'
      /\ (exists l, t_cop17 d' = Some l /\ nth_error l (c_speed c) = Some (Some x))
      /\ match rev (trials (error_of (c_speed c)) (newton sol 3)) with
         | [] => at35 d' (c_speed c) None
         | y :: _ => exists q, pair_of (c_speed c) y = Ok q /\ at35 d' (c_speed c) (Some (snd q))
         end.
  Proof.
    intros C N17 N35 H. unfold calculate_cops in H. cbv zeta in H.
    rewrite sbind_eq in H. unfold init_key at 1, smod at 1 in H. rewrite N35 in H.
    rewrite sbind_eq in H. unfold init_key at 1, smod at 1 in H. cbn [wt_cop35 t_cop17] in H. rewrite N17 in H.
    rewrite sbind_eq in H. replace (lit 3) with 3 in H by (rnum; lra).
    set (d0 := wt_cop17 _ _) in H.
    assert (R0 : ready d0).
    { split; [exact C|]. eexists. split; [reflexivity|apply repeat_length]. }
    destruct (prober_run c (newton sol 3) d0 R0) as (d1 & E1 & R1 & S1 & A1).
    change (run_prober _ (newton sol 3) d0) with (run_prober (probe c) (newton sol 3) d0) in H.
    rewrite E1 in H. clear E1.
    destruct (run_prober_pure (error_of (c_speed c)) (newton sol 3)) as [x|e]; [|discriminate].
    specialize (A1 x eq_refl). exists x. split; [reflexivity|].
    unfold write_key in H. rewrite sbind_eq in H. unfold sread in H. rewrite S1 in H. unfold d0 in H.
    cbn [wt_cop17 t_cop17 need rbind] in H. unfold seti in H. rewrite repeat_length in H.
    destruct (Nat.ltb_spec (c_speed c) n) as [L|L]; [|discriminate].
    unfold smod in H. injection H as <-. split; [destruct R1 as [X _]; exact X|]. split.
    - eexists. split; [reflexivity|]. rewrite upd_same by (rewrite repeat_length; exact L). reflexivity.
    - destruct (rev (trials (error_of (c_speed c)) (newton sol 3))) as [|y l].
      + unfold d0 in A1. cbn [wt_cop17 wt_cop35 t_cop35] in A1. eexists. split; [exact A1|].
        assert (X : forall m k, (k < m)%nat -> nth_error (repeat (@None R) m) k = Some None).
        { induction m as [|m IH]; intros k K; [lia|]. destruct k as [|k]; [reflexivity|]. apply IH. lia. }
        apply X. exact L.
      + exact A1.
  Qed.

  (** ** The two powers *)
  Lemma after17 c d q17 : get_cap17 u c blank_t24 = (d, Ok q17) ->
    capok u d /\ t_cop17 d = None /\ t_cop35 d = None /\ anchor17 u (c_speed c) q17.
  Proof.
    intros H. destruct (get_cap17_pure u c blank_t24 (capok_blank u)) as (d' & E & C & [S1 S2] & _).
    rewrite E in H. injection H as <- Q. split; [exact C|]. split; [exact S1|]. split; [exact S2|].
    apply p17_anchor. exact Q.
  Qed.

  Lemma steady_inv c p : fresh (t24_heating_power sol) u c = Ok p ->
    exists x q17 q47 k47 w, run_prober_pure (error_of (c_speed c)) (newton sol 3) = Ok x
      /\ anchor17 u (c_speed c) q17 /\ anchor47 u (c_speed c) q47
      /\ entry (sd_net_cop (u_h u)) (c_speed c) k47
      /\ entry (sd_fan_power (u_h u)) (c_speed c) w
      /\ p = clear_line (q17 / x) (q47 / k47) (degF (ps_db (c_outdoor c))) - w.
  Proof.
    unfold fresh. destruct (t24_heating_power sol u c blank_t24) as [d' r] eqn:H. cbn [snd]. intros ->.
    unfold t24_heating_power in H. cbv zeta in H.
    apply sbind_ok in H. destruct H as (d1 & q47 & E1 & H). apply slift_ok in E1. destruct E1 as [-> E1].
    apply geti_ok in E1.
    apply sbind_ok in H. destruct H as (d2 & q17 & E2 & H). apply after17 in E2.
    destruct E2 as (C2 & N17 & N35 & Q17).
    apply sbind_ok in H. destruct H as (d3 & ok47 & E3 & H). apply slift_ok in E3. destruct E3 as [-> E3].
    apply geti_ok in E3.
    apply sbind_ok in H. destruct H as (d4 & ok17 & E4 & H).
    unfold get_cop17 in E4. rewrite sbind_eq in E4. unfold sget in E4. rewrite N17 in E4.
    apply sbind_ok in E4. destruct E4 as (d5 & [] & E5 & E4).
    destruct (calc_inv _ _ _ C2 N17 N35 E5) as (x & X & C5 & (l & L & NX) & _).
    unfold read_key in E4. apply sread_ok in E4. destruct E4 as [-> E4]. rewrite L in E4. cbn [need rbind] in E4.
    apply geti_ok in E4. rewrite NX in E4. injection E4 as <-.
    apply sbind_ok in H. destruct H as (d6 & k47 & E6 & H). apply slift_ok in E6. destruct E6 as [-> E6].
    apply need_ok in E6. subst ok47.
    apply sbind_ok in H. destruct H as (d7 & e47 & E7 & H). apply slift_ok in E7. destruct E7 as [-> E7].
    apply pydiv_inv in E7. destruct E7 as [N47 ->]. cbn [need] in H.
    apply sbind_ok in H. destruct H as (d8 & k17 & E8 & H). apply slift_ok in E8. destruct E8 as [-> E8].
    apply Ok_inj in E8. subst k17.
    apply sbind_ok in H. destruct H as (d9 & e17 & E9 & H). apply slift_ok in E9. destruct E9 as [-> E9].
    apply pydiv_inv in E9. destruct E9 as [NX' ->].
    apply sbind_ok in H. destruct H as (d10 & w & E10 & H). apply slift_ok in E10. destruct E10 as [-> E10].
    apply arr_ok in E10. unfold sret in H. apply pair_ok_inj in H. destruct H as [_ <-].
    exists x, q17, q47, k47, w. repeat (split; [assumption|]).
    rewrite to_F_degF. unfold clear_line. generalize (degF (ps_db (c_outdoor c))) (q17 / x) (q47 / k47).
    intros t a b. rnum. field.
  Qed.

  Lemma integrated_inv c p : fresh (t24_integrated_power sol) u c = Ok p ->
    exists x y rest q17 q35 q47 k47 e35 w,
      run_prober_pure (error_of (c_speed c)) (newton sol 3) = Ok x
      /\ rev (trials (error_of (c_speed c)) (newton sol 3)) = y :: rest
      /\ anchor17 u (c_speed c) q17 /\ anchor35 u (c_speed c) q35 /\ anchor47 u (c_speed c) q47
      /\ entry (sd_net_cop (u_h u)) (c_speed c) k47
      /\ entry (sd_fan_power (u_h u)) (c_speed c) w
      /\ input35 u (c_speed c) q17 q35 (q17 / y) (q47 / k47) e35
      /\ p = (if in_defrost (u_defrost u) c
              then frosted_line (q17 / x) e35 (q47 / k47) (degF (ps_db (c_outdoor c)))
              else clear_line (q17 / x) (q47 / k47) (degF (ps_db (c_outdoor c)))) - w.
  Proof.
    unfold fresh. destruct (t24_integrated_power sol u c blank_t24) as [d' r] eqn:H. cbn [snd]. intros ->.
    unfold t24_integrated_power in H. cbv zeta in H.
    apply sbind_ok in H. destruct H as (d1 & q47 & E1 & H). apply slift_ok in E1. destruct E1 as [-> E1].
    apply geti_ok in E1.
    apply sbind_ok in H. destruct H as (d2 & q35 & E2 & H).
    destruct (get_cap35_pure u c blank_t24 (capok_blank u)) as (d2' & X2 & C2 & [S1 S2] & _).
    rewrite X2 in E2. injection E2 as <- Q35. apply p35_anchor in Q35.
    apply sbind_ok in H. destruct H as (d3 & q17 & E3 & H).
    destruct (get_cap17_pure u c d2' C2) as (d3' & X3 & C3 & [S3 S4] & _).
    rewrite X3 in E3. injection E3 as <- Q17. apply p17_anchor in Q17.
    apply sbind_ok in H. destruct H as (d4 & ok47 & E4 & H). apply slift_ok in E4. destruct E4 as [-> E4].
    apply geti_ok in E4.
    assert (N17 : t_cop17 d3' = None) by (rewrite S3, S1; reflexivity).
    assert (N35 : t_cop35 d3' = None) by (rewrite S4, S2; reflexivity).
    apply sbind_ok in H. destruct H as (d5 & ok35 & E5 & H).
    unfold get_cop35 in E5. rewrite sbind_eq in E5. unfold sget in E5. rewrite N35 in E5.
    apply sbind_ok in E5. destruct E5 as (d6 & [] & E6 & E5).
    destruct (calc_inv _ _ _ C3 N17 N35 E6) as (x & X & C6 & (l & L & NX) & Y).
    unfold read_key in E5. apply sread_ok in E5. destruct E5 as [-> E5].
    apply sbind_ok in H. destruct H as (d7 & ok17 & E7 & H).
    unfold get_cop17 in E7. rewrite sbind_eq in E7. unfold sget in E7. rewrite L in E7.
    rewrite sbind_eq in E7. unfold sret in E7.
    unfold read_key in E7. apply sread_ok in E7. destruct E7 as [-> E7]. rewrite L in E7. cbn [need rbind] in E7.
    apply geti_ok in E7. rewrite NX in E7. injection E7 as <-.
    apply sbind_ok in H. destruct H as (d8 & k47 & E8 & H). apply slift_ok in E8. destruct E8 as [-> E8].
    apply need_ok in E8. subst ok47.
    apply sbind_ok in H. destruct H as (d9 & e47 & E9 & H). apply slift_ok in E9. destruct E9 as [-> E9].
    apply pydiv_inv in E9. destruct E9 as [N47 ->].
    apply sbind_ok in H. destruct H as (d10 & k35 & E10 & H). apply slift_ok in E10. destruct E10 as [-> E10].
    apply need_ok in E10. subst ok35.
    apply sbind_ok in H. destruct H as (d11 & e35 & E11 & H). apply slift_ok in E11. destruct E11 as [-> E11].
    apply pydiv_inv in E11. destruct E11 as [NK35 ->]. cbn [need] in H.
    apply sbind_ok in H. destruct H as (d12 & k17 & E12 & H). apply slift_ok in E12. destruct E12 as [-> E12].
    apply Ok_inj in E12. subst k17.
    apply sbind_ok in H. destruct H as (d13 & e17 & E13 & H). apply slift_ok in E13. destruct E13 as [-> E13].
    apply pydiv_inv in E13. destruct E13 as [NX' ->].
    apply sbind_ok in H. destruct H as (d14 & w & E14 & H). apply slift_ok in E14. destruct E14 as [-> E14].
    apply arr_ok in E14. unfold sret in H. apply pair_ok_inj in H. destruct H as [_ <-].
    destruct (rev (trials (error_of (c_speed c)) (newton sol 3))) as [|y rest].
    { destruct Y as (l' & L' & N'). rewrite L' in E5. cbn [need rbind] in E5. apply geti_ok in E5. congruence. }
    destruct Y as (q & Q & (l' & L' & N')). rewrite L' in E5. cbn [need rbind] in E5. apply geti_ok in E5.
    assert (snd q = k35) by congruence. clear E5.
    destruct (pair_inv _ _ _ Q) as (a17 & a35 & a47 & b47 & e35 & tg & A & B & C & K & _ & _ & I & EE & _).
    assert (a17 = q17) by (eapply anchor17_fun; eauto). assert (a35 = q35) by (eapply anchor35_fun; eauto).
    unfold anchor47, entry in *. assert (a47 = q47) by congruence. assert (b47 = k47) by congruence. subst.
    specialize (EE NK35).
    exists x, y, rest, q17, q35, q47, k47, e35, w. repeat (split; [assumption || reflexivity|]).
    rewrite EE. unfold uses_defrost_line. rewrite to_F_degF. unfold clear_line, frosted_line.
    generalize (degF (ps_db (c_outdoor c))) (q17 / x) (q47 / k47).
    intros t f g. clear. destruct (in_defrost (u_defrost u) c); cbn [andb]; [|rnum; field].
    cbn [nltb RNum]. replace (lit 17) with 17 by (rnum; lra). replace (lit 45) with 45 by (rnum; lra).
    destruct (Rltb_spec 17 t), (Rlt_dec 17 t); try (exfalso; lra);
      destruct (Rltb_spec t 45), (Rlt_dec t 45); try (exfalso; lra); cbn [andb]; rnum; field.
  Qed.
End Solve.

(** * The theorems of C77 *)
Lemma root_value sol tol u i x : newton_finds_roots tol sol ->
  run_prober_pure (error_of u i) (newton sol 3) = Ok x ->
  exists h target, hspf_if u i x h /\ u_hspf u = Some target /\ Rabs (h - target) <= tol.
Proof.
  intros N H. destruct (N _ _ _ H) as (e & E & A).
  destruct (error_is_hspf_error u i _ _ E) as (h & tg & HI & T & ->). eauto.
Qed.

Lemma ghp24 sol u c p : gross_steady_state_heating_power (Title24DXModel sol) u (Some c) = Ok p ->
  fresh (t24_heating_power sol) u c = Ok p.
Proof.
  unfold gross_steady_state_heating_power, heating_conditions, product. cbn [rbind].
  change (md_ghp (Title24DXModel sol) u c) with (fresh (t24_heating_power sol) u c).
  change (md_f_ghp (Title24DXModel sol)) with (unit_factor (T:=R)). unfold unit_factor.
  destruct (fresh (t24_heating_power sol) u c) as [x|e]; [|discriminate]. cbn [rbind].
  cbn [nmul RNum]. rewrite lit1_R, Rmult_1_r. auto.
Qed.

Lemma steady24 sol tol u c p : newton_finds_roots tol sol ->
  gross_steady_state_heating_power (Title24DXModel sol) u (Some c) = Ok p ->
  exists k17 h target q17 q47 k47 w,
    hspf_if u (c_speed c) k17 h /\ u_hspf u = Some target /\ Rabs (h - target) <= tol
    /\ anchor17 u (c_speed c) q17 /\ anchor47 u (c_speed c) q47
    /\ entry (sd_net_cop (u_h u)) (c_speed c) k47
    /\ entry (sd_fan_power (u_h u)) (c_speed c) w
    /\ p = clear_line (q17 / k17) (q47 / k47) (degF (ps_db (c_outdoor c))) - w.
Proof.
  intros N H. apply ghp24, steady_inv in H. destruct H as (x & q17 & q47 & k47 & w & X & H).
  destruct (root_value _ _ _ _ _ N X) as (h & tg & A & B & C).
  exists x, h, tg, q17, q47, k47, w. auto.
Qed.

Lemma supplied_absent u key i x : supplied u key i x -> not_supplied u key -> False.
Proof.
  intros (l & F & _) A. apply find_some in F. destruct F as [F _]. exact (A _ F).
Qed.
Lemma input35_fun u i q17 q35 a b e e' :
  input35 u i q17 q35 a b e -> input35 u i q17 q35 a b e' -> e = e'.
Proof.
  intros [(k & K & ->)|[A ->]] [(k' & K' & ->)|[A' ->]].
  - destruct K as (l & F & E), K' as (l' & F' & E'). congruence.
  - destruct (supplied_absent _ _ _ _ K A').
  - destruct (supplied_absent _ _ _ _ K' A).
  - reflexivity.
Qed.

Lemma integrated24 sol tol u c p : newton_finds_roots tol sol ->
  gross_integrated_heating_power (Title24DXModel sol) u (Some c) = Ok p ->
  exists f k17 last rest h target q17 q35 q47 k47 e35 w,
    is_hspf_error u (c_speed c) f
    /\ run_prober_pure f (newton sol 3) = Ok k17 /\ rev (trials f (newton sol 3)) = last :: rest
    /\ hspf_if u (c_speed c) k17 h /\ u_hspf u = Some target /\ Rabs (h - target) <= tol
    /\ anchor17 u (c_speed c) q17 /\ anchor35 u (c_speed c) q35 /\ anchor47 u (c_speed c) q47
    /\ entry (sd_net_cop (u_h u)) (c_speed c) k47
    /\ entry (sd_fan_power (u_h u)) (c_speed c) w
    /\ input35 u (c_speed c) q17 q35 (q17 / last) (q47 / k47) e35
    /\ p = (if in_defrost (u_defrost u) c
            then frosted_line (q17 / k17) e35 (q47 / k47) (degF (ps_db (c_outdoor c)))
            else clear_line (q17 / k17) (q47 / k47) (degF (ps_db (c_outdoor c)))) - w.
Proof.
  intros N H. unfold gross_integrated_heating_power, heating_conditions in H. cbn [rbind] in H.
  change (md_gihp (Title24DXModel sol) u c) with (fresh (t24_integrated_power sol) u c) in H.
  apply integrated_inv in H. destruct H as (x & y & rest & q17 & q35 & q47 & k47 & e35 & w & X & Y & H).
  destruct (root_value _ _ _ _ _ N X) as (h & tg & A & B & C).
  exists (error_of u (c_speed c)), x, y, rest, h, tg, q17, q35, q47, k47, e35, w.
  split; [apply error_is_hspf_error|]. auto 10.
Qed.

(** Steady-state power at 17 and 47 F, and integrated power at 35 F. *)
Lemma powers24_exact sol u c17 c47 c35 p17 p47 p35 w :
  c_speed c17 = c_speed c35 -> c_speed c47 = c_speed c35 ->
  degF (ps_db (c_outdoor c17)) = 17 -> degF (ps_db (c_outdoor c47)) = 47 ->
  degF (ps_db (c_outdoor c35)) = 35 -> in_defrost (u_defrost u) c35 = true ->
  not_supplied u "cop35" ->
  entry (sd_fan_power (u_h u)) (c_speed c35) w ->
  gross_steady_state_heating_power (Title24DXModel sol) u (Some c17) = Ok p17 ->
  gross_steady_state_heating_power (Title24DXModel sol) u (Some c47) = Ok p47 ->
  gross_integrated_heating_power (Title24DXModel sol) u (Some c35) = Ok p35 ->
  exists k17 last rest q17,
    run_prober_pure (error_of u (c_speed c35)) (newton sol 3) = Ok k17
    /\ rev (trials (error_of u (c_speed c35)) (newton sol 3)) = last :: rest
    /\ anchor17 u (c_speed c35) q17
    /\ p35 = (0.4 * (p17 + w) + 0.6 * (p47 + w) + 0.4 * (q17 / last - q17 / k17))
             * match df_strategy (u_defrost u) with DSNone => 1 | _ => 0.985 end - w.
Proof.
  intros S1 S2 T17 T47 T35 DEF NS W H17 H47 H35.
  apply ghp24, steady_inv in H17, H47.
  destruct H17 as (x & q17 & q47' & k47 & w1 & X & A & B & K & W1 & ->).
  destruct H47 as (x' & q17' & q47'' & k47' & w2 & X' & A' & B' & K' & W2 & ->).
  unfold gross_integrated_heating_power, heating_conditions in H35. cbn [rbind] in H35.
  change (md_gihp (Title24DXModel sol) u c35) with (fresh (t24_integrated_power sol) u c35) in H35.
  apply integrated_inv in H35.
  destruct H35 as (x3 & y & rest & q & q35 & q47 & k47a & e35 & w3 & X3 & Y & A3 & _ & B3 & K3 & W3 & I & ->).
  rewrite S1 in *. rewrite S2 in *. unfold anchor47, entry in *.
  assert (x = x3) by congruence. assert (x' = x3) by congruence.
  assert (w1 = w) by congruence. assert (w2 = w) by congruence. assert (w3 = w) by congruence.
  assert (q47' = q47) by congruence. assert (q47'' = q47) by congruence.
  assert (k47' = k47) by congruence. assert (k47a = k47) by congruence.
  assert (q17 = q) by (eapply anchor17_fun; eauto). assert (q17' = q) by (eapply anchor17_fun; eauto).
  subst. rewrite T17, T47, T35, DEF.
  exists x3, y, rest, q.
  repeat (split; [assumption|]).
  destruct I as [(k & KS & _)|[_ ->]]; [destruct (supplied_absent _ _ _ _ KS NS)|].
  unfold frosted_line, clear_line. destruct (Rlt_dec 17 35); [|lra]. destruct (Rlt_dec 35 45); [|lra].
  generalize (q / x3) (q / y) (q47 / k47). intros a b e.
  replace ((35 - 17) / (47 - 17)) with 0.6 by lra.
  destruct (df_strategy (u_defrost u)); lra.
Qed.

Lemma powers24 sol u c17 c47 c35 p17 p47 p35 w :
  c_speed c17 = c_speed c35 -> c_speed c47 = c_speed c35 ->
  degF (ps_db (c_outdoor c17)) = 17 -> degF (ps_db (c_outdoor c47)) = 47 ->
  degF (ps_db (c_outdoor c35)) = 35 -> in_defrost (u_defrost u) c35 = true ->
  not_supplied u "cop35" ->
  entry (sd_fan_power (u_h u)) (c_speed c35) w ->
  gross_steady_state_heating_power (Title24DXModel sol) u (Some c17) = Ok p17 ->
  gross_steady_state_heating_power (Title24DXModel sol) u (Some c47) = Ok p47 ->
  gross_integrated_heating_power (Title24DXModel sol) u (Some c35) = Ok p35 ->
  exists f k17 last rest q17, is_hspf_error u (c_speed c35) f
    /\ run_prober_pure f (newton sol 3) = Ok k17 /\ rev (trials f (newton sol 3)) = last :: rest
    /\ anchor17 u (c_speed c35) q17
    /\ p35 = (0.4 * (p17 + w) + 0.6 * (p47 + w) + 0.4 * (q17 / last - q17 / k17))
             * match df_strategy (u_defrost u) with DSNone => 1 | _ => 0.985 end - w.
Proof.
  intros S1 S2 T17 T47 T35 DEF NS W H17 H47 H35. exists (error_of u (c_speed c35)).
  destruct (powers24_exact sol u c17 c47 c35 p17 p47 p35 w S1 S2 T17 T47 T35 DEF NS W H17 H47 H35)
    as (k17 & last & rest & q17 & H). exists k17, last, rest, q17.
  split; [apply error_is_hspf_error|exact H].
Qed.

Lemma powers24_last sol u c17 c47 c35 p17 p47 p35 w : answers_last_trial sol ->
  c_speed c17 = c_speed c35 -> c_speed c47 = c_speed c35 ->
  degF (ps_db (c_outdoor c17)) = 17 -> degF (ps_db (c_outdoor c47)) = 47 ->
  degF (ps_db (c_outdoor c35)) = 35 -> in_defrost (u_defrost u) c35 = true ->
  not_supplied u "cop35" ->
  entry (sd_fan_power (u_h u)) (c_speed c35) w ->
  gross_steady_state_heating_power (Title24DXModel sol) u (Some c17) = Ok p17 ->
  gross_steady_state_heating_power (Title24DXModel sol) u (Some c47) = Ok p47 ->
  gross_integrated_heating_power (Title24DXModel sol) u (Some c35) = Ok p35 ->
  expected_at_35 u p17 p47 w p35.
Proof.
  intros L S1 S2 T17 T47 T35 DEF NS W H17 H47 H35.
  destruct (powers24_exact sol u c17 c47 c35 p17 p47 p35 w S1 S2 T17 T47 T35 DEF NS W H17 H47 H35)
    as (k17 & last & rest & q17 & K & LL & _ & ->).
  destruct (L _ _ _ K) as (rest' & R'). rewrite LL in R'. injection R' as -> _. unfold expected_at_35. rewrite Rminus_eq_0, Rmult_0_r, Rplus_0_r. reflexivity.
Qed.
