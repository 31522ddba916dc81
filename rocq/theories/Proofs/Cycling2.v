(** C97: ratings of two-stage units under the two cycling methods. *)
From Coq Require Import Reals QArith Lra Psatz Lia List Bool.
From Verif.Base Require Import Num Res Tac.
From Verif.Model Require Import Units Util Psychrometrics Conditions Defrost Fan Curves
  Tabular Unit BaseModel DXUnit.
From Verif.Spec Require Import UtilSpec UnitSpec UnitModels SeasonSpec CompareSpec CyclingSpec.
From Verif.Proofs Require Import UnitsR UtilProofs UnitProofs UnitProofs3 UnitProofs4 SeerProofs HspfProofs
  HspfProofs2 HspfProofs3 Dominance Cycling.
Import ListNotations.
Local Open Scope R_scope.
Local Notation U := (dxunit R).

(** ** Cooling *)
Lemma low_full_saves cd bl ql pl qf pf : 0 <= cd < 1 -> 0 < ql -> 0 < pl -> 0 < pf ->
  qf / pf <= ql / pl -> ql < bl < qf ->
  line ql pl qf pf bl <= bl / qf * pf
  /\ bl / qf * pf <= cycling cd (bl / qf) pf
  /\ (0 < cd -> bl / qf * pf < cycling cd (bl / qf) pf).
Proof.
  intros D Q P P' C B.
  assert (X : 0 < bl / qf < 1).
  { split; [apply Rdiv_lt_0_compat; lra|]. apply (Rmult_lt_reg_r qf); [lra|].
    replace (bl / qf * qf) with bl by (field; lra). lra. }
  assert (C' : pl * qf <= ql * pf).
  { apply (Rmult_le_compat_r (pl * pf)) in C; [|nra].
    replace (qf / pf * (pl * pf)) with (pl * qf) in C by (field; lra).
    replace (ql / pl * (pl * pf)) with (ql * pf) in C by (field; lra). exact C. }
  split; [|unfold cycling; set (x := bl / qf) in *; clearbody x].
  - apply (Rmult_le_reg_r (qf * (qf - ql))); [nra|].
    replace (line ql pl qf pf bl * (qf * (qf - ql)))
      with (qf * (pl * (qf - bl) + pf * (bl - ql))) by (unfold line; field; lra).
    replace (bl / qf * pf * (qf * (qf - ql))) with (bl * pf * (qf - ql)) by (field; lra).
    nra.
  - assert (F : 0 < 1 - cd * (1 - x) <= 1) by (split; nra).
    assert (Z : x * pf / (1 - cd * (1 - x)) * (1 - cd * (1 - x)) = x * pf) by (field; apply Rgt_not_eq; apply (proj1 F)).
    assert (XP : 0 < x * pf) by (apply Rmult_lt_0_compat; lra).
    split; [|intros Cp; assert (1 - cd * (1 - x) < 1) by nra].
    + apply (Rmult_le_reg_r (1 - cd * (1 - x))); [lra|]. rewrite Z.
      rewrite <- (Rmult_1_r (x * pf)) at 2. apply Rmult_le_compat_l; lra.
    + apply (Rmult_lt_reg_r (1 - cd * (1 - x))); [lra|]. rewrite Z.
      rewrite <- (Rmult_1_r (x * pf)) at 2. apply Rmult_lt_compat_l; lra.
Qed.

Section Ratings.
  Variable sol : solvers R.
  Variable M : dxmodel R.

  Lemma cycled_test c (u : U) get P : plain_model sol M ->
    cooling_test sol M u (get (u_conds u)) P ->
    cooling_test sol M (cycled c u) (get (u_conds (cycled c u))) P.
  Proof.
    intros PM (k & E & T & Q & W). exists k. split; [exact E|]. split; [exact T|].
    destruct (cycling_results c sol M u PM (Some k)) as (_ & R1 & _ & R2 & _).
    split; congruence.
  Qed.

  Lemma low_full_higher (u : U) A B Bl Fl : plain_model sol M -> u_staging u = TWO_STAGE ->
    cooling_tests sol M u A B Bl Fl ->
    pt_t Bl <> pt_t Fl -> pt_t A <> pt_t B -> 0 < pt_q A -> 0 <= sd_cd (u_c u) < 1 ->
    (forall i, (i < 8)%nat ->
       let t := cool_t i in
       0 < q_at Fl Bl t <= q_at B A t /\ 0 < p_at Fl Bl t /\ 0 < p_at B A t
       /\ q_at B A t / p_at B A t <= q_at Fl Bl t / p_at Fl Bl t) ->
    exists v v', seer sol M (cycled BETWEEN_OFF_FULL u) = Ok v
      /\ seer sol M (cycled BETWEEN_LOW_FULL u) = Ok v' /\ v <= v'
      /\ (0 < sd_cd (u_c u) ->
          (exists i, (i < 8)%nat
             /\ q_at Fl Bl (cool_t i) < cool_load (pt_q A) (cool_t i) < q_at B A (cool_t i)) ->
          v < v').
  Proof.
    intros PM S (TA & TB & TBl & TFl) N1 N2 Q D K.
    destruct (finite_range 8 (fun i => q_at Fl Bl (cool_t i) / p_at Fl Bl (cool_t i)))
      as (l1 & h1 & L1 & F1).
    { intros i I. destruct (K i I) as (? & ? & ? & ?). apply Rdiv_lt_0_compat; lra. }
    destruct (finite_range 8 (fun i => q_at B A (cool_t i) / p_at B A (cool_t i)))
      as (l2 & h2 & L2 & F2).
    { intros i I. destruct (K i I) as (? & ? & ? & ?). apply Rdiv_lt_0_compat; lra. }
    assert (V : forall c, exists v, seer sol M (cycled c u) = Ok v
      /\ (forall i, (i < 8)%nat -> 0 < two_energy c (sd_cd (u_c u)) A B Bl Fl i)
      /\ v = Btu_Wh (over 8 (fun i => cool_hours i
                                * Rmin (cool_load (pt_q A) (cool_t i)) (q_at B A (cool_t i)))
                     / over 8 (fun i => cool_hours i * two_energy c (sd_cd (u_c u)) A B Bl Fl i))).
    { intros c. destruct (seer_two_bounds sol M (cycled c u) A B Bl Fl (Rmin l1 l2) (Rmax h1 h2))
        as (v & Hv & Ep & Ev & _);
        [exact S|apply cycled_test; assumption|apply cycled_test; assumption|apply cycled_test; assumption
        |apply cycled_test; assumption|exact N1|exact N2|exact D|exact Q|apply Rmin_glb_lt; assumption| |].
      - intros i I. cbv zeta. destruct (K i I) as (A1 & A2 & A3 & A4). cbv zeta in *.
        specialize (F1 i I). specialize (F2 i I).
        pose proof (Rmin_l l1 l2). pose proof (Rmin_r l1 l2).
        pose proof (Rmax_l h1 h2). pose proof (Rmax_r h1 h2). repeat split; lra.
      - exists v. split; [exact Hv|]. split; [exact Ep|exact Ev]. }
    destruct (V BETWEEN_OFF_FULL) as (v & Hv & Ep & ->). destruct (V BETWEEN_LOW_FULL) as (v' & Hv' & Ep' & ->).
    eexists. eexists. split; [exact Hv|]. split; [exact Hv'|].
    pose proof (cool_pos A (fun i => q_at B A (cool_t i)) Q) as SP. cbv beta in SP.
    specialize (SP ltac:(intros i I; destruct (K i I); lra)).
    set (E := two_energy BETWEEN_OFF_FULL (sd_cd (u_c u)) A B Bl Fl) in *.
    set (E' := two_energy BETWEEN_LOW_FULL (sd_cd (u_c u)) A B Bl Fl) in *.
    assert (DP : 0 < over 8 (fun i => cool_hours i * E' i)).
    { apply over_pos; [lia|]. intros i I. apply Rmult_lt_0_compat; [apply cool_hours_pos, I|].
      apply Ep', I. }
    assert (Le : forall i, (i < 8)%nat -> E' i <= E i /\ (0 < sd_cd (u_c u) ->
        q_at Fl Bl (cool_t i) < cool_load (pt_q A) (cool_t i) < q_at B A (cool_t i) -> E' i < E i)).
    { intros i I. destruct (K i I) as (A1 & A2 & A3 & A4). cbv zeta in *.
      unfold E, E', two_energy, two_stage_energy.
      destruct (Rle_dec _ _) as [X|X]; [split; intros; lra|].
      destruct (Rlt_dec _ _) as [Y|Y]; [|split; intros; lra].
      destruct (low_full_saves (sd_cd (u_c u)) _ _ _ _ _ D (proj1 A1) A2 A3 A4 (conj (Rnot_le_lt _ _ X) Y)) as (G1 & G2 & G3).
      split; [lra|]. intros Cp _. specialize (G3 Cp). lra. }
    assert (Le' : forall i, (i < 8)%nat -> cool_hours i * E' i <= cool_hours i * E i).
    { intros i I. apply Rmult_le_compat_l; [left; apply cool_hours_pos, I|]. apply Le, I. }
    split.
    - apply ratio_le; [lra|]. split; [exact DP|apply over_le, Le'].
    - intros Cp (k & Kk & B0). apply ratio_lt; [exact SP|]. split; [exact DP|].
      apply (over_lt 8 _ _ k Kk Le'). cbv beta. apply Rmult_lt_compat_l; [apply cool_hours_pos, Kk|].
      apply (Le k Kk); assumption.
  Qed.

  (** ** Heating *)
  Lemma off_full_heat (u : U) region on v :
    u_staging u = TWO_STAGE -> u_cycling u = BETWEEN_OFF_FULL -> u_heating_on u = Some on ->
    0 <= sd_cd (u_h u) < 1 -> hspf sol M u region = Ok v ->
    exists d s L credit,
      climate u region = Ok d /\ two_stage_tests sol M u s /\ heat_load sol M u d L
      /\ demand_credit (u_defrost u) = Ok credit
      /\ let bin := two_stage_bin BETWEEN_OFF_FULL (u_heating_off u) on (sd_cd (u_h u)) L s in
         v = seasonal_heating (hours_of d) (fun i => L (heat_t i))
               (fun i => fst (bin i)) (fun i => snd (bin i)) credit
      /\ forall i, (i < 18)%nat -> low_of q_at s i < L (heat_t i) < full_of q_at s i ->
         exists x, carried (u_heating_off u) on L s i = Some x
           /\ snd (bin i) = (1 - x) * L (heat_t i)
           /\ (heat_t i <= u_heating_off u -> fst (bin i) = 0)
           /\ (u_heating_off u < heat_t i -> on < heat_t i ->
               1 <= full_of q_at s i / full_of p_at s i ->
               fst (bin i) = L (heat_t i) / (full_of q_at s i / full_of p_at s i)
                 / (1 - sd_cd (u_h u) * between (low_of q_at s i) (full_of q_at s i) (L (heat_t i)))
               /\ 0 < between (low_of q_at s i) (full_of q_at s i) (L (heat_t i)) < 1).
  Proof.
    intros St Cy On D H.
    destruct (hspf_two sol M u region on v St On H)
      as (d & s & L & cr & Hd & T1 & T2 & T3 & T4 & T5 & T6 & T7 & HL & Cr & V & N).
    exists d, s, L, cr. split; [exact Hd|]. split; [repeat split; assumption|].
    split; [exact HL|]. split; [exact Cr|]. cbv zeta. rewrite Cy in V. split; [exact V|].
    intros i I B. specialize (N i I B).
    destruct (carried (u_heating_off u) on L s i) as [x|] eqn:Ex; [|contradiction].
    exists x. split; [reflexivity|]. unfold two_stage_bin, two_stage_heat. rewrite Ex.
    destruct (Rle_dec _ _) as [X|X]; [lra|]. destruct (Rlt_dec _ _) as [Y|Y]; [|lra]. cbn [fst snd].
    split; [reflexivity|]. split.
    - intros Z. unfold full_run, run_fraction. destruct (Rle_dec (heat_t i) (u_heating_off u)); [|lra].
      unfold Rdiv. rewrite !Rmult_0_l. reflexivity.
    - intros Z1 Z2 Z3.
      assert (Rn : full_run (u_heating_off u) on s i = 1).
      { unfold full_run, run_fraction. destruct (Rle_dec (heat_t i) (u_heating_off u)); [lra|].
        destruct (Rlt_dec _ 1); [lra|]. destruct (Rlt_dec on (heat_t i)); [reflexivity|lra]. }
      rewrite Rn.
      assert (P0 : full_of p_at s i <> 0).
      { intros P0. rewrite P0 in Z3. unfold Rdiv in Z3. rewrite Rinv_0 in Z3. lra. }
      destruct (Req_dec (full_of q_at s i) 0) as [Q0|Q0].
      { rewrite Q0 in Z3. unfold Rdiv in Z3. rewrite Rmult_0_l in Z3. lra. }
      unfold between.
      set (w := (L (heat_t i) - low_of q_at s i) / (full_of q_at s i - low_of q_at s i)).
      replace (1 - (full_of q_at s i - L (heat_t i)) / (full_of q_at s i - low_of q_at s i)) with w
        by (unfold w; field; lra).
      assert (W : 0 < w < 1).
      { assert (W : w * (full_of q_at s i - low_of q_at s i) = L (heat_t i) - low_of q_at s i) by (unfold w; field; lra).
        split; nra. }
      split; [|exact W]. clearbody w. field. repeat split; try assumption. nra.
  Qed.
End Ratings.
