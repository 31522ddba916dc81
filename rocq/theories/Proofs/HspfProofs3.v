(** The heating season, bin by bin: heat balance and low-temperature cut-out. *)
From Coq Require Import Reals QArith Lra Psatz Lia List Bool.
From Verif.Base Require Import Num Res Tac.
From Verif.Model Require Import Units Util Psychrometrics Conditions Defrost Fan Curves Unit
  BaseModel DXUnit.
From Verif.Spec Require Import UtilSpec UnitSpec SeasonSpec.
From Verif.Proofs Require Import UnitsR UnitProofs4 SeerProofs HspfProofs HspfProofs2.
Import ListNotations.
Local Open Scope R_scope.

Notation U := (dxunit R).

(** * The loop fails at the first bin that raises *)
Lemma sums_err (u : U) on d load L H1 H2 H3 bin (I : nat -> option R -> Prop) k e :
  List.length (hd_hours d) = 18%nat -> u_heating_on u = Some on ->
  (forall t, load t = Ok (L t)) -> pt_t H1 <> pt_t H3 -> pt_t H2 <> pt_t H3 ->
  I 0%nat None -> (k < 18)%nat ->
  (forall i dl, (i <= k)%nat -> I i dl ->
     let t := heat_t i in
     let qf := full_line q_at H1 H2 H3 t in let pf := full_line p_at H1 H2 H3 t in
     let r := bin (L t) t qf pf (run_fraction (u_heating_off u) on t (qf / pf))
                    (load_factor (L t) qf) (hours_of d i) dl in
     pf <> 0 /\ (L t < qf -> qf <> 0)
     /\ if Nat.eq_dec i k then r = Err e else exists x, r = Ok x /\ I (S i) (snd x)) ->
  hspf_sums u d load H1 H2 H3 bin = Err e.
Proof.
  intros Len On Ld N1 N2 I0 K B. unfold hspf_sums. rewrite (bins_eq _ Len).
  match goal with |- rfold ?f _ _ = _ => set (g := f) end.
  assert (G : forall n j acc, (j + n = 18)%nat -> (j <= k)%nat -> I j (h_delta_low acc) ->
    rfold g acc (map (fun i => (heat_t i, nth i (hd_hours d) 0)) (seq j n)) = Err e).
  { induction n as [|n IH]; intros j acc J Jk Ia; cbn [seq map rfold]; [lia|].
    destruct (B j (h_delta_low acc) Jk Ia) as (P & Q & Hr).
    assert (E : match (if Nat.eq_dec j k then None else Some tt) with
                | None => g acc (heat_t j, nth j (hd_hours d) 0) = Err e
                | Some _ => exists a1, g acc (heat_t j, nth j (hd_hours d) 0) = Ok a1
                           /\ I (S j) (h_delta_low a1) end).
    { unfold g. rewrite Ld. cbn [rbind].
      rewrite (full_ok pt_q q_at) by (try exact N1; try exact N2; reflexivity). cbn [rbind].
      rewrite (full_ok pt_p p_at) by (try exact N1; try exact N2; reflexivity). cbn [rbind].
      rewrite pydiv_ok by exact P. cbn [rbind].
      rewrite (cut_ok u on _ _ On). cbn [rbind].
      set (qf := full_line q_at H1 H2 H3 (heat_t j)) in *.
      set (pf := full_line p_at H1 H2 H3 (heat_t j)) in *.
      assert (F : (if nltb (L (heat_t j)) qf then pydiv (L (heat_t j)) qf else Ok (lit 1))
                  = Ok (load_factor (L (heat_t j)) qf)).
      { unfold load_factor. cbn [nltb RNum].
        destruct (Rltb_spec (L (heat_t j)) qf), (Rlt_dec (L (heat_t j)) qf); try lra.
        - apply pydiv_ok. auto.
        - rewrite lit1_R. reflexivity. }
      rewrite F. cbn [rbind]. unfold hours_of in Hr.
      destruct (Nat.eq_dec j k).
      - rewrite Hr. reflexivity.
      - destruct Hr as (x & Hx & Hi). rewrite Hx. cbn [rbind].
        destruct x as [[a b] dl]. eexists. split; [reflexivity|exact Hi]. }
    destruct (Nat.eq_dec j k) as [->|N].
    - rewrite E. reflexivity.
    - destruct E as (a1 & E1 & E2). rewrite E1. cbn [rbind]. apply IH; [lia|lia|exact E2]. }
  apply (G 18%nat 0%nat); [lia|lia|exact I0].
Qed.

(** The first element satisfying a decidable property. *)
Lemma first_such (P : nat -> Prop) (D : forall i, {P i} + {~ P i}) n :
  P n -> exists k, (k <= n)%nat /\ P k /\ forall j, (j < k)%nat -> ~ P j.
Proof.
  revert P D. induction n as [|n IH]; intros P D H.
  - exists 0%nat. repeat split; auto. intros; lia.
  - destruct (D 0%nat) as [Z|Z]; [exists 0%nat; repeat split; auto; [lia|intros; lia]|].
    destruct (IH (fun i => P (S i)) (fun i => D (S i)) H) as (k & K & Pk & F).
    exists (S k). repeat split; auto; [lia|]. intros [|j] J; [exact Z|apply F; lia].
Qed.
Lemma latest_none bl ql d i : latest_low bl ql d i = None ->
  forall j, (j < i)%nat -> ql j < bl j.
Proof.
  induction i as [|i IH]; intros H j J; [lia|]. cbn [latest_low] in H.
  destruct (Rle_dec (bl i) (ql i)) as [A|A]; [discriminate|].
  destruct (Nat.eq_dec j i) as [->|N]; [lra|]. apply IH; [exact H|lia].
Qed.

Section Bins.
  Context (sol : solvers R) (M : dxmodel R).

  (** ** Two stages: no earlier bin that the low stage can carry *)
  Lemma hspf_two_unbound (u : U) region on d s L lo hi i :
    u_staging u = TWO_STAGE -> u_heating_on u = Some on ->
    climate u region = Ok d ->
    heating_test sol M u (rc_H0_low (u_conds u)) (s_H0l s) ->
    heating_test sol M u (rc_H1_low (u_conds u)) (s_H1l s) ->
    frost_test sol M u (rc_H2_low (u_conds u)) (s_H2l s) ->
    heating_test sol M u (rc_H3_low (u_conds u)) (s_H3l s) ->
    heating_test sol M u (rc_H1_full (u_conds u)) (s_H1 s) ->
    frost_test sol M u (rc_H2_full (u_conds u)) (s_H2 s) ->
    heating_test sol M u (rc_H3_full (u_conds u)) (s_H3 s) ->
    heat_load sol M u d L -> 0 <= sd_cd (u_h u) < 1 -> stages_ok lo hi s ->
    (i < 18)%nat -> low_of q_at s i < L (heat_t i) < full_of q_at s i ->
    carried (u_heating_off u) on L s i = None ->
    hspf sol M u region = Err UnboundLocalError.
  Proof.
    intros St On Hd T0l T1l T2l T3l T1 T2 T3 HL D (N1 & N2 & N3 & N4 & N5 & K) I Mid Non.
    pose proof (latest_none _ _ _ _ Non) as Early.
    destruct (load_ok sol M u d (s_H1 s) L T1 HL) as (load & Hl & Ld).
    pose proof (climate_length u region d Hd) as Len.
    destruct (first_such (fun j => low_of q_at s j < L (heat_t j) < full_of q_at s j)) with (n := i)
      as (k & Ki & Mk & Fk); [|exact Mid|].
    { intros j. destruct (Rlt_dec (low_of q_at s j) (L (heat_t j)));
        [destruct (Rlt_dec (L (heat_t j)) (full_of q_at s j)); [left; auto|right; lra]|right; lra]. }
    unfold hspf. fold (climate u region). rewrite Hd. cbn [rbind].
    unfold hspf_with, heating_point, frost_point.
    rewrite (proj1 (tested_point _ _ _ _ _) T1). cbn [rbind].
    rewrite (proj1 (tested_point _ _ _ _ _) T2). cbn [rbind].
    rewrite (proj1 (tested_point _ _ _ _ _) T3). cbn [rbind].
    rewrite Hl. cbn [rbind]. rewrite St.
    rewrite (proj1 (tested_point _ _ _ _ _) T0l). cbn [rbind].
    rewrite (proj1 (tested_point _ _ _ _ _) T1l). cbn [rbind].
    rewrite (proj1 (tested_point _ _ _ _ _) T2l). cbn [rbind].
    rewrite (proj1 (tested_point _ _ _ _ _) T3l). cbn [rbind].
    match goal with |- rbind ?x _ = _ => assert (E : x = Err UnboundLocalError) end;
      [|rewrite E; reflexivity].
    apply (sums_err u on d load L (s_H1 s) (s_H2 s) (s_H3 s) _ (fun _ dl => dl = None) k);
      auto; [lia|].
    intros j dl J ->. destruct (K j ltac:(lia)) as (Q1 & P1 & Q2 & P2 & _). cbv zeta.
    fold (full_of q_at s j) (full_of p_at s j).
    split; [lra|]. split; [lra|].
    rewrite (two_low_ok pt_q q_at) by (try assumption; reflexivity). cbn [rbind].
    rewrite (two_low_ok pt_p p_at) by (try assumption; reflexivity). cbn [rbind].
    fold (low_of q_at s j) (low_of p_at s j).
    assert (Ej : low_of q_at s j < L (heat_t j)).
    { destruct (Nat.eq_dec j i) as [->|Nj]; [lra|]. apply (Early j). lia. }
    unfold hspf_bin_two. rewrite pydiv_ok by lra. cbn [rbind nleb nltb RNum].
    rewrite (proj2 (Rleb_false _ _)) by lra.
    destruct (Nat.eq_dec j k) as [->|Nj].
    - rewrite (proj2 (Rltb_true _ _)) by lra. cbn [nsub RNum].
      rewrite pydiv_ok by lra. cbn [rbind].
      destruct (u_cycling u); [reflexivity|].
      rewrite pydiv_ok; [reflexivity|]. rewrite lit1_R. cbn [nsub nmul RNum].
      set (b := L (heat_t k)) in *. set (ql := low_of q_at s k) in *.
      set (qf := full_of q_at s k) in *.
      assert (X : 0 < (qf - b) / (qf - ql)) by (apply Rdiv_lt_0_compat; lra).
      assert (Y : 0 < (b - ql) / (qf - ql)) by (apply Rdiv_lt_0_compat; lra).
      assert (Z : 1 - (qf - b) / (qf - ql) = (b - ql) / (qf - ql)) by (field; lra).
      rewrite Z. assert ((b - ql) / (qf - ql) < 1) by lra.
      apply Rgt_not_eq. red. nra.
    - assert (full_of q_at s j <= L (heat_t j)).
      { apply Rnot_lt_le. intros C. apply (Fk j); [lia|split; assumption]. }
      rewrite (proj2 (Rltb_false _ _)) by lra. eexists. split; reflexivity.
  Qed.

  (** ** Heat balance *)
  Lemma single_balance (u : U) region on v :
    u_staging u = SINGLE_STAGE -> u_heating_on u = Some on -> hspf sol M u region = Ok v ->
    exists d H1 H2 H3 L credit,
      climate u region = Ok d
      /\ heating_test sol M u (rc_H1_full (u_conds u)) H1
      /\ frost_test sol M u (rc_H2_full (u_conds u)) H2
      /\ heating_test sol M u (rc_H3_full (u_conds u)) H3
      /\ heat_load sol M u d L
      /\ demand_credit (u_defrost u) = Ok credit
      /\ v = seasonal_heating (hours_of d) (fun i => L (heat_t i))
               (single_energy (u_heating_off u) on (sd_cd (u_h u)) L H1 H2 H3)
               (single_resistance (u_heating_off u) on L H1 H2 H3) credit
      /\ forall i, (i < 18)%nat ->
           single_heat (u_heating_off u) on L H1 H2 H3 i
             + single_resistance (u_heating_off u) on L H1 H2 H3 i = L (heat_t i)
           /\ 0 <= single_resistance (u_heating_off u) on L H1 H2 H3 i.
  Proof.
    intros St On H. destruct (hspf_single sol M u region on v St On H)
      as (d & H1 & H2 & H3 & L & cr & Hd & T1 & T2 & T3 & HL & Cr & V).
    exists d, H1, H2, H3, L, cr. do 7 (split; [assumption|]).
    intros i _. destruct (single_bin (u_heating_off u) on (sd_cd (u_h u)) L H1 H2 H3 i
      (heat_load_pos sol M u d L HL)) as (A & B & _). auto.
  Qed.
  (** ** Cut-out *)
  Lemma single_cut (u : U) region on v :
    u_staging u = SINGLE_STAGE -> u_heating_on u = Some on -> hspf sol M u region = Ok v ->
    exists d H1 H2 H3 L credit,
      climate u region = Ok d
      /\ heating_test sol M u (rc_H1_full (u_conds u)) H1
      /\ frost_test sol M u (rc_H2_full (u_conds u)) H2
      /\ heating_test sol M u (rc_H3_full (u_conds u)) H3
      /\ heat_load sol M u d L
      /\ demand_credit (u_defrost u) = Ok credit
      /\ let E := single_energy (u_heating_off u) on (sd_cd (u_h u)) L H1 H2 H3 in
         let RH := single_resistance (u_heating_off u) on L H1 H2 H3 in
         v = seasonal_heating (hours_of d) (fun i => L (heat_t i)) E RH credit
      /\ forall i, (i < 18)%nat ->
           heat_t i <= u_heating_off u
           \/ full_line q_at H1 H2 H3 (heat_t i) / full_line p_at H1 H2 H3 (heat_t i) < 1 ->
           E i = 0 /\ RH i = L (heat_t i).
  Proof.
    intros St On H. destruct (hspf_single sol M u region on v St On H)
      as (d & H1 & H2 & H3 & L & cr & Hd & T1 & T2 & T3 & HL & Cr & V).
    exists d, H1, H2, H3, L, cr. do 7 (split; [assumption|]).
    intros i _. apply (single_bin (u_heating_off u) on (sd_cd (u_h u)) L H1 H2 H3 i
      (heat_load_pos sol M u d L HL)).
  Qed.
  Lemma variable_bin_low off on cd L H0l H1l H2i H1 H2 H3 H4 i :
    variable_cop L H0l H1l H2i H1 H2 H3 i < 1 ->
    variable_bin off on cd L H0l H1l H2i H1 H2 H3 H4 i = (0, L (heat_t i)).
  Proof.
    unfold variable_cop, variable_bin, variable_heat. cbv zeta.
    assert (Z : forall c, c < 1 -> run_fraction off on (heat_t i) c = 0).
    { intros c C. unfold run_fraction. destruct (Rle_dec (heat_t i) off); [reflexivity|].
      destruct (Rlt_dec c 1); [reflexivity|contradiction]. }
    destruct (Rle_dec _ _); [|destruct (Rlt_dec _ _)]; intros H; rewrite (Z _ H); f_equal; ring.
  Qed.
  Lemma variable_cuts (u : U) region on v :
    u_staging u = VARIABLE_SPEED -> u_heating_on u = Some on ->
    hspf sol M u region = Ok v ->
    exists d H0l H1l H2i H1 H2 H3 H4 L credit,
      climate u region = Ok d
      /\ heating_test sol M u (rc_H0_low (u_conds u)) H0l
      /\ heating_test sol M u (rc_H1_low (u_conds u)) H1l
      /\ frost_test sol M u (rc_H2_int (u_conds u)) H2i
      /\ heating_test sol M u (rc_H1_full (u_conds u)) H1
      /\ frost_test sol M u (rc_H2_full (u_conds u)) H2
      /\ heating_test sol M u (rc_H3_full (u_conds u)) H3
      /\ heating_test sol M u (rc_H4_full (u_conds u)) H4
      /\ heat_load sol M u d L
      /\ demand_credit (u_defrost u) = Ok credit
      /\ let bin := variable_bin (u_heating_off u) on (sd_cd (u_h u)) L
                      H0l H1l H2i H1 H2 H3 H4 in
         v = seasonal_heating (hours_of d) (fun i => L (heat_t i))
               (fun i => fst (bin i)) (fun i => snd (bin i)) credit
      /\ forall i, (i < 18)%nat ->
           heat_t i <= u_heating_off u \/ variable_cop L H0l H1l H2i H1 H2 H3 i < 1 ->
           bin i = (0, L (heat_t i)).
  Proof.
    intros St On H. destruct (hspf_variable sol M u region on v St On H)
      as (d & H0l & H1l & H2i & H1 & H2 & H3 & H4 & L & cr & Hd & T1 & T2 & T3 & T4 & T5 & T6
          & T7 & HL & Cr & V).
    exists d, H0l, H1l, H2i, H1, H2, H3, H4, L, cr. do 11 (split; [assumption|]).
    intros i _ [A|A]; [apply variable_bin_cut, A|apply variable_bin_low, A].
  Qed.
  (** A two-stage unit obeys the cut-out except in bins between the two stages. *)
  Lemma two_cut (cyc : cycling_method) off on cd L s i :
    heat_t i <= off -> L (heat_t i) <= low_of q_at s i \/ full_of q_at s i <= L (heat_t i) ->
    two_stage_bin cyc off on cd L s i = (0, L (heat_t i)).
  Proof.
    intros C A. unfold two_stage_bin, two_stage_heat, low_run, full_run.
    assert (Z : forall c, run_fraction off on (heat_t i) c = 0).
    { intros c. unfold run_fraction. destruct (Rle_dec (heat_t i) off); [reflexivity|contradiction]. }
    rewrite !Z. destruct (Rle_dec _ _) as [B|B]; [f_equal; ring|].
    destruct (Rlt_dec _ _) as [E|E]; [lra|]. f_equal; ring.
  Qed.
  Lemma two_cuts (u : U) region on v :
    u_staging u = TWO_STAGE -> u_heating_on u = Some on ->
    hspf sol M u region = Ok v ->
    exists d s L credit,
      climate u region = Ok d
      /\ heating_test sol M u (rc_H0_low (u_conds u)) (s_H0l s)
      /\ heating_test sol M u (rc_H1_low (u_conds u)) (s_H1l s)
      /\ frost_test sol M u (rc_H2_low (u_conds u)) (s_H2l s)
      /\ heating_test sol M u (rc_H3_low (u_conds u)) (s_H3l s)
      /\ heating_test sol M u (rc_H1_full (u_conds u)) (s_H1 s)
      /\ frost_test sol M u (rc_H2_full (u_conds u)) (s_H2 s)
      /\ heating_test sol M u (rc_H3_full (u_conds u)) (s_H3 s)
      /\ heat_load sol M u d L
      /\ demand_credit (u_defrost u) = Ok credit
      /\ let bin := two_stage_bin (u_cycling u) (u_heating_off u) on (sd_cd (u_h u)) L s in
         v = seasonal_heating (hours_of d) (fun i => L (heat_t i))
               (fun i => fst (bin i)) (fun i => snd (bin i)) credit
      /\ (forall i, (i < 18)%nat -> heat_t i <= u_heating_off u ->
            L (heat_t i) <= low_of q_at s i \/ full_of q_at s i <= L (heat_t i) ->
            bin i = (0, L (heat_t i)))
      /\ forall i, (i < 18)%nat ->
           low_of q_at s i < L (heat_t i) < full_of q_at s i ->
           carried (u_heating_off u) on L s i <> None.
  Proof.
    intros St On H. destruct (hspf_two sol M u region on v St On H)
      as (d & s & L & cr & Hd & T1 & T2 & T3 & T4 & T5 & T6 & T7 & HL & Cr & V & N).
    exists d, s, L, cr. do 11 (split; [assumption|]). split; [|exact N].
    intros i _ A B. apply two_cut; assumption.
  Qed.
End Bins.
