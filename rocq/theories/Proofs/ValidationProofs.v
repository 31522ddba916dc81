(** C71: the validation table. *)
From Coq Require Import Reals QArith Lra Lia List Bool String.
From Verif.Base Require Import Num Res Tac.
From Verif.Model Require Import Units Psychrometrics Conditions Defrost Fan Tabular Unit
  DXUnit Validation.
From Verif.Spec Require Import UnitSpec TestSpec ValidationSpec.
From Verif.Proofs Require Import UnitsR UnitProofs4.
Import ListNotations.
Local Open Scope string_scope.
Local Open Scope R_scope.

Section V.
  Variables (sol : solvers R) (M : dxmodel R) (eere : option motor_type).
  Notation U := (dxunit R).
  Notation write := (write_validation_tables sol M eere).

  Definition entry_run (u : U) (e : string * (U -> res (cell R))) : res (string * cell R) :=
    let! c := snd e u in Ok (fst e, c).
  Definition blower (f : fan R) := indoor_blower_type (T:=R) (fan_motor_type eere f).

  Lemma write_inv u f0 f :
    write u f0 = (f, Ok tt) ->
    exists fn d, u_fan u = Some fn /\ u_staging u = VARIABLE_SPEED
      /\ Forall2 (fun e y => entry_run u e = Ok y) (heating_entries sol M (blower fn)) d
      /\ f = Table (map fst d) [map snd d].
  Proof.
    unfold write_validation_tables. intros H.
    apply sbind_ok in H. destruct H as (s1 & fn & H1 & H).
    apply slift_ok in H1. destruct H1 as (<- & H1). apply need_ok in H1.
    apply sbind_ok in H. destruct H as (s2 & hd & H2 & H).
    apply slift_ok in H2. destruct H2 as (<- & H2).
    apply sbind_ok in H. destruct H as (s3 & [] & H3 & H).
    apply sbind_ok in H. destruct H as (s4 & d & H4 & H).
    apply slift_ok in H4. destruct H4 as (<- & H4). apply need_ok in H4. subst hd.
    exists fn, d. split; [exact H1|].
    destruct (u_staging u); try discriminate. split; [reflexivity|].
    apply rbind_ok in H2. destruct H2 as (d' & R1 & H2). apply Ok_inj in H2.
    injection H2 as <-. split.
    - apply rmapM_ok in R1. exact R1.
    - unfold sput in H. congruence.
  Qed.

  Lemma entry_cell u l d name g :
    Forall2 (fun e y => entry_run u e = Ok y) l d -> In (name, g) l ->
    exists c, g u = Ok c /\ under (map fst d) (map snd d) name c.
  Proof.
    induction 1 as [|e y l d E F IH]; intros I; [destruct I|].
    destruct I as [->|I].
    - unfold entry_run in E. apply rbind_ok in E. destruct E as (c & E1 & E2).
      apply Ok_inj in E2. subst y. exists c. split; [exact E1|]. exists O. split; reflexivity.
    - destruct (IH I) as (c & E1 & i & A & B). exists c. split; [exact E1|].
      exists (S i). split; [exact A|exact B].
  Qed.

  Lemma header_names u l d :
    Forall2 (fun e y => entry_run u e = Ok y) l d -> map fst d = map fst l.
  Proof.
    induction 1 as [|e y l d E F IH]; [reflexivity|]. cbn [map]. rewrite IH. f_equal.
    unfold entry_run in E. apply rbind_ok in E. destruct E as (c & E1 & E2).
    apply Ok_inj in E2. subst y. reflexivity.
  Qed.

  Lemma entries_nodup b : NoDup (map fst (heating_entries sol M b)).
  Proof.
    unfold heating_entries. cbn [map fst].
    repeat (constructor; [cbn [In]; intuition discriminate|]). constructor.
  Qed.

  Lemma Btu_h_to x : Btu_h (to_Btuh x) = x.
  Proof. unfold Btu_h, to_Btuh, btu_h. rnum. field. Qed.
  Lemma ft3_to x : ft3_min (to_cfm x) = x.
  Proof. unfold ft3_min, to_cfm, cfm. rnum. field. Qed.
  Lemma deg_to x : deg_F (to_F x) = x.
  Proof. unfold deg_F, to_F. rnum. field. Qed.

  Lemma at_cond_inv (f : U -> option (cond R) -> res R) to get u c :
    at_cond f to get u = Ok c ->
    exists k x, get (u_conds u) = Some k /\ f u (Some k) = Ok x /\ c = CNum (to x).
  Proof.
    unfold at_cond. intros H. apply rbind_ok in H. destruct H as (k & H1 & H).
    apply need_ok in H1. apply rbind_ok in H. destruct H as (x & H2 & H).
    apply Ok_inj in H. eauto.
  Qed.
  Lemma scfm_inv get (u : U) c :
    scfm get u = Ok c ->
    exists k x, get (u_conds u) = Some k /\ c_rated_standard_volumetric_airflow k = Some x
      /\ c = CNum (to_cfm x).
  Proof.
    unfold scfm. intros H. apply rbind_ok in H. destruct H as (k & H1 & H).
    apply need_ok in H1. apply rbind_ok in H. destruct H as (x & H2 & H).
    apply need_ok in H2. apply Ok_inj in H. eauto.
  Qed.

  (** The entry of a column. *)
  Definition column_entry (q : quantity) (t : test) : U -> res (cell R) :=
    match q with
    | HeatCapacity =>
        at_cond (if frost t then net_integrated_heating_capacity sol M
                 else net_steady_state_heating_capacity sol M) to_Btuh (stored t)
    | Power =>
        at_cond (if frost t then net_integrated_heating_power sol M
                 else net_steady_state_heating_power sol M) (fun x => x) (stored t)
    | Airflow => scfm (stored t)
    end.

  Lemma column_in b q l t :
    In (l, t) heat_points -> (q, l) <> (Power, "47full") ->
    In (column q l, column_entry q t) (heating_entries sol M b).
  Proof.
    intros I N. unfold heat_points in I.
    repeat (destruct I as [I|I];
      [injection I as <- <-; destruct q;
       first [exfalso; apply N; reflexivity
             |unfold heating_entries;
              repeat first [left; reflexivity | right]]|]).
    destruct I.
  Qed.

  Lemma column_value q t u c :
    column_entry q t u = Ok c -> exists v, c = CNum v /\ measured sol M q t u v.
  Proof.
    destruct q; cbn [column_entry]; intros H.
    - apply at_cond_inv in H. destruct H as (k & x & H1 & H2 & ->).
      eexists. split; [reflexivity|]. exists k. split; [exact H1|]. rewrite Btu_h_to.
      destruct (frost t); exact H2.
    - apply at_cond_inv in H. destruct H as (k & x & H1 & H2 & ->).
      eexists. split; [reflexivity|]. exists k. split; [exact H1|].
      destruct (frost t); exact H2.
    - apply scfm_inv in H. destruct H as (k & x & H1 & H2 & ->).
      eexists. split; [reflexivity|]. exists k. split; [exact H1|]. rewrite ft3_to. exact H2.
  Qed.

  Lemma table_columns u f0 f :
    write u f0 = (f, Ok tt) ->
    u_staging u = VARIABLE_SPEED /\
    exists header row, f = Table header [row] /\ NoDup header
      /\ List.length row = List.length header
      /\ (forall q l t, In (l, t) heat_points -> (q, l) <> (Power, "47full") ->
          exists v, under header row (column q l) (CNum v) /\ measured sol M q t u v)
      /\ unit_cells sol M u header row.
  Proof.
    intros H. apply write_inv in H. destruct H as (fn & d & Fn & St & F & ->).
    split; [exact St|]. exists (map fst d), (map snd d).
    pose proof (fun name g => entry_cell u _ d name g F) as C.
    split; [reflexivity|].
    split; [rewrite (header_names u _ d F); apply entries_nodup|].
    split; [rewrite !map_length; reflexivity|]. split.
    - intros q l t I N.
      destruct (C _ _ (column_in (blower fn) q l t I N)) as (c & E & K).
      apply column_value in E. destruct E as (v & -> & Mv). eauto.
    - unfold unit_cells.
      assert (P : forall name g, In (name, g) (heating_entries sol M (blower fn)) ->
                  exists c, g u = Ok c /\ under (map fst d) (map snd d) name c) by exact C.
      split; [|split; [|split; [|split; [|split; [|split]]]]].
      + destruct (P "T_off" _ ltac:(unfold heating_entries; repeat first [left; reflexivity | right]))
          as (c & E & K).
        cbv beta in E. apply Ok_inj in E. subst c. eexists. split; [|exact K].
        symmetry. apply deg_to.
      + destruct (P "T_on" _ ltac:(unfold heating_entries; repeat first [left; reflexivity | right]))
          as (c & E & K).
        cbv beta in E. apply rbind_ok in E. destruct E as (t & E1 & E2). apply need_ok in E1.
        apply Ok_inj in E2. subst c. eexists. split; [|exact K]. rewrite deg_to. exact E1.
      + destruct (P "isDemandDefrost" _ ltac:(unfold heating_entries; repeat first [left; reflexivity | right]))
          as (c & E & K).
        cbv beta in E. apply Ok_inj in E. subst c. eexists. split; [exact K|].
        destruct (df_control (u_defrost u)); split; intros; congruence.
      + destruct (P "demandDefrostCredit" _ ltac:(unfold heating_entries; repeat first [left; reflexivity | right]))
          as (c & E & K).
        cbv beta in E. apply rbind_ok in E. destruct E as (t & E1 & E2).
        apply Ok_inj in E2. subst c. eauto.
      + destruct (P "degCoeffHeat" _ ltac:(unfold heating_entries; repeat first [left; reflexivity | right]))
          as (c & E & K).
        cbv beta in E. apply Ok_inj in E. subst c. exact K.
      + destruct (P "coolCapacity95Full" _ ltac:(unfold heating_entries; repeat first [left; reflexivity | right]))
          as (c & E & K).
        apply at_cond_inv in E. destruct E as (k & x & H1 & H2 & ->).
        exists k. eexists. split; [exact H1|]. split; [|exact K]. rewrite Btu_h_to. exact H2.
      + destruct (P "scfm95full" (column_entry Airflow A_full) ltac:(unfold heating_entries; repeat first [left; reflexivity | right]))
          as (c & E & K).
        apply column_value in E. destruct E as (v & -> & Mv). eauto.
  Qed.

  Lemma table_answers u f0 header row :
    write u f0 = (Table header [row], Ok tt) ->
    (forall name b, In (name, b) answers -> under header row name (CBool b))
    /\ under header row "compressorDesignStage" (CText "Variable Speed")
    /\ exists fn x, u_fan u = Some fn /\ has_blower fn x /\ under header row "indoorBlowerType" x.
  Proof.
    intros H. apply write_inv in H. destruct H as (fn & d & Fn & St & F & E).
    injection E as -> ->.
    pose proof (fun name g => entry_cell u _ d name g F) as C. split; [|split].
    - intros name b I. unfold answers in I.
      repeat match type of I with In _ (_ :: _) => destruct I as [I|I] | In _ nil => destruct I end;
      injection I as <- <-;
      match goal with |- under _ _ ?name _ =>
        destruct (C name (fun _ => Ok (CBool _)) ltac:(unfold heating_entries; repeat first [left; reflexivity | right]))
          as (c & E & K) end; apply Ok_inj in E; subst c; exact K.
    - destruct (C "compressorDesignStage" (fun _ => Ok _) ltac:(unfold heating_entries; repeat first [left; reflexivity | right]))
          as (c & E & K). apply Ok_inj in E; subst c; exact K.
    - destruct (C "indoorBlowerType" (fun _ => Ok _) ltac:(unfold heating_entries; repeat first [left; reflexivity | right]))
          as (c & E & K). apply Ok_inj in E; subst c.
      exists fn. eexists. split; [exact Fn|]. split; [|exact K].
      unfold has_blower, blower, fan_motor_type. destruct (f_class fn); try reflexivity; exact I.
  Qed.

  (** The power at 47 F full load is that of the 62 F test at low speed. *)
  Lemma power_47full u f0 header row v :
    write u f0 = (Table header [row], Ok tt) ->
    under header row (column Power "47full") (CNum v) -> measured sol M Power H0_low u v.
  Proof.
    intros H K. apply write_inv in H. destruct H as (fn & d & Fn & St & F & E).
    injection E as -> ->.
    destruct (entry_cell u _ d "powerConsumption47full" (column_entry Power H0_low) F)
      as (c & E1 & K1); [unfold heating_entries; repeat first [left; reflexivity | right]|].
    apply column_value in E1. destruct E1 as (w & -> & Mv).
    assert (w = v); [|subst; exact Mv].
    destruct K as (i & A & B), K1 as (j & A1 & B1).
    assert (i = j).
    { apply (proj1 (NoDup_nth_error (map fst d))).
      - rewrite (header_names u _ d F). apply entries_nodup.
      - apply nth_error_Some. change string with String.string in *. rewrite A. discriminate.
      - rewrite A, A1. reflexivity. }
    subst j. congruence.
  Qed.

  (** Other staging types: the file is left empty. *)
  Lemma other_stagings u fn f0 :
    u_fan u = Some fn -> u_staging u <> VARIABLE_SPEED ->
    write u f0 = (Empty, Err UnboundLocalError).
  Proof.
    intros F S. unfold write_validation_tables. rewrite F.
    destruct (u_staging u); [reflexivity|reflexivity|congruence].
  Qed.

  (** An exception while computing the values leaves the file alone. *)
  Lemma file_kept u f0 f e :
    write u f0 = (f, Err e) -> u_staging u = VARIABLE_SPEED -> f = f0.
  Proof.
    intros H S. unfold write_validation_tables in H. rewrite S in H.
    unfold sbind, slift in H.
    destruct (need AttributeError (u_fan u)) as [fn|e1]; [|congruence].
    cbn [fst snd] in H.
    destruct (rmapM _ _) as [d|e2]; cbn [rbind] in H; [|congruence].
    unfold sput, need in H. cbn in H. congruence.
  Qed.

  (** When every quantity is available, the table is written. *)
  Lemma at_cond_some (f : U -> option (cond R) -> res R) to get u k x :
    get (u_conds u) = Some k -> f u (Some k) = Ok x -> at_cond f to get u = Ok (CNum (to x)).
  Proof. unfold at_cond. intros -> E. cbn [need rbind]. rewrite E. reflexivity. Qed.

  Lemma measured_entry q t u v :
    measured sol M q t u v -> exists c, column_entry q t u = Ok c.
  Proof.
    intros (k & E & H). destruct q; cbn [column_entry].
    - eexists. eapply at_cond_some; [exact E|]. destruct (frost t); exact H.
    - eexists. eapply at_cond_some; [exact E|]. destruct (frost t); exact H.
    - unfold scfm. rewrite E. cbn [need rbind]. rewrite H. eexists. reflexivity.
  Qed.

  Lemma entries_written u l :
    (forall e, In e l -> exists c, snd e u = Ok c) ->
    exists d, rmapM (entry_run u) l = Ok d.
  Proof.
    induction l as [|e l IH]; intros H; [eexists; reflexivity|].
    destruct (H e (or_introl eq_refl)) as (c & E).
    destruct IH as (d & D); [intros x I; apply H; right; exact I|].
    exists ((fst e, c) :: d). cbn [rmapM]. unfold entry_run at 1. rewrite E. cbn [rbind].
    rewrite D. reflexivity.
  Qed.

  Local Ltac heat_column ME q :=
    first [apply (ME q H0_low); cbn; tauto | apply (ME q H1_full); cbn; tauto
          |apply (ME q H1_low); cbn; tauto | apply (ME q H2_full); cbn; tauto
          |apply (ME q H2_int); cbn; tauto | apply (ME q H2_low); cbn; tauto
          |apply (ME q H3_full); cbn; tauto | apply (ME q H3_low); cbn; tauto
          |apply (ME q H4_full); cbn; tauto].

  Lemma table_written u fn on credit cA qA aA f0 :
    u_staging u = VARIABLE_SPEED -> u_fan u = Some fn -> u_heating_on u = Some on ->
    demand_credit (u_defrost u) = Ok credit ->
    (forall q l t, In (l, t) heat_points -> exists v, measured sol M q t u v) ->
    stored A_full (u_conds u) = Some cA ->
    net_total_cooling_capacity sol M u (Some cA) = Ok qA ->
    c_rated_standard_volumetric_airflow cA = Some aA ->
    exists f, write u f0 = (f, Ok tt).
  Proof.
    intros S F On Cr Me Ca Qa Aa.
    assert (ME : forall q t, In t (map snd heat_points) -> exists c, column_entry q t u = Ok c).
    { intros q t I. apply in_map_iff in I. destruct I as ((l, t') & <- & I).
      destruct (Me q l t' I) as (v & Mv). eapply measured_entry; exact Mv. }
    destruct (entries_written u (heating_entries sol M (blower fn))) as (d & D).
    { intros e I. unfold heating_entries in I.
      repeat (destruct I as [<-|I];
        [cbn [snd];
         first [eexists; reflexivity
               | rewrite On; eexists; reflexivity
               | rewrite Cr; eexists; reflexivity
               | eexists; eapply at_cond_some; [exact Ca|exact Qa]
               | match goal with
                 | |- exists c, scfm rc_A_full u = Ok c =>
                     unfold scfm; change (rc_A_full (u_conds u)) with (stored A_full (u_conds u));
                     rewrite Ca; cbn [need rbind]; rewrite Aa; eexists; reflexivity
                 | |- _ => idtac
                 end]|]).
      all: try (destruct I).
      all: match goal with
           | |- exists c, at_cond (net_steady_state_heating_capacity _ _) _ _ _ = _ =>
               heat_column ME HeatCapacity
           | |- exists c, at_cond (net_integrated_heating_capacity _ _) _ _ _ = _ =>
               heat_column ME HeatCapacity
           | |- exists c, scfm _ _ = _ => heat_column ME Airflow
           | _ => heat_column ME Power
           end. }
    eexists. unfold write_validation_tables. rewrite F, S. unfold sbind, slift.
    cbn [need fst snd]. unfold entry_run in D.
    fold (blower fn). rewrite D. cbn [rbind need]. reflexivity.
  Qed.
End V.
