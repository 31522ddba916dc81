(** C54, C63: axes, airflow and fan map of the ASHRAE 205 export. *)
From Coq Require Import QArith Reals Lra Psatz Lia List Bool String Sorting Permutation.
From Verif.Base Require Import Num Res Tac.
From Verif.Model Require Import Units Util Psychrometrics Conditions Defrost Fan Tabular
  Unit DXUnit Repr205.
From Verif.Spec Require Import FanSpec IdfSpec Repr205Spec.
From Verif.Proofs Require Import UnitsR MakeCond FanProofs3 Repr205Proofs.
Import ListNotations.
Local Open Scope R_scope.

(** * Axes *)

Lemma linspace_spaced (a b : R) n : (1 < n)%nat -> evenly_spaced a b n (linspace a b n).
Proof.
  intros N. unfold linspace, evenly_spaced. rewrite map_length, seq_length.
  split; [reflexivity |]. intros i Hi. rewrite nth_error_map.
  rewrite nth_error_nth' with (d := 0%nat) by (rewrite seq_length; exact Hi).
  rewrite seq_nth by exact Hi. cbn [option_map Nat.add]. f_equal.
  assert (Z : forall k, nZ (T:=R) (Z.of_nat k) = INR k).
  { intros k. unfold nZ. change (Q2R (inject_Z (Z.of_nat k)) = INR k).
    unfold Q2R, inject_Z. cbn [Qnum Qden]. rewrite <- INR_IZR_INZ. field. }
  rewrite !Z. cbn [nadd nsub nmul ndiv RNum]. assert (INR (n - 1) <> 0) by (apply not_0_INR; lia). field. assumption.
Qed.

Lemma spaced_increasing (a b : R) n l : evenly_spaced a b n l -> (1 < n)%nat -> a < b ->
  StronglySorted Rlt l.
Proof.
  intros [L E] N AB.
  assert (P : 0 < (b - a) / INR (n - 1)).
  { apply Rdiv_lt_0_compat; [lra | apply lt_0_INR; lia]. }
  set (d := (b - a) / INR (n - 1)) in *.
  assert (G : forall l k, (forall i, (i < List.length l)%nat ->
      nth_error l i = Some (a + INR (k + i) * d)) -> StronglySorted Rlt l).
  { clear L E. induction l0 as [| x l0 IH]; intros k E; constructor.
    - apply (IH (S k)). intros i Hi. specialize (E (S i)). cbn [List.length nth_error] in E.
      rewrite E by lia. replace (k + S i)%nat with (S k + i)%nat by lia. reflexivity.
    - apply Forall_forall. intros y I. apply In_nth_error in I. destruct I as [i I].
      assert (Hi : (i < List.length l0)%nat) by (apply nth_error_Some; congruence).
      pose proof (E 0%nat) as E0. pose proof (E (S i)) as E1.
      cbn [List.length nth_error] in E0, E1. rewrite I in E1.
      assert (X : x = a + INR (k + 0) * d) by (enough (Some x = Some (a + INR (k + 0) * d)) by congruence; apply E0; lia).
      assert (Y : y = a + INR (k + S i) * d) by (enough (Some y = Some (a + INR (k + S i) * d)) by congruence; apply E1; lia).
      rewrite X, Y. assert (INR (k + 0) < INR (k + S i)) by (apply lt_INR; lia). nra. }
  apply (G l 0%nat). intros i Hi. rewrite L in Hi. apply E, Hi.
Qed.

Lemma cooling_axes psy M (u : dxunit R) m : cooling_205 psy M u = Ok m ->
  exists q_first q_last rho,
    nth_error (sd_net_cap (u_c u)) 0 = Some q_first /\
    last (map Some (sd_net_cap (u_c u))) None = Some q_last /\ std_rho psy = Ok rho /\
    evenly_spaced (fr_F 55) (fr_F 125) 4 (g_outdoor m) /\
    evenly_spaced 0 1 4 (g_humidity m) /\
    evenly_spaced (fr_F 65) (fr_F 90) 4 (g_indoor m) /\
    evenly_spaced (fr_cfm_per_ton 280 * q_last * rho) (fr_cfm_per_ton 500 * q_first * rho) 4
      (g_flow m) /\
    evenly_spaced 57226.508 106868.78 4 (g_pressure m).
Proof.
  unfold cooling_205. intros E.
  apply rbind_ok in E. destruct E as (ql & El & E).
  apply rbind_ok in E. destruct E as (rho & Er & E).
  apply rbind_ok in E. destruct E as (qf & Ef & E).
  apply rbind_ok in E. destruct E as (rows & _ & E).
  apply Ok_inj in E. subst m.
  exists qf, ql, rho. apply geti_ok in Ef. split; [exact Ef |].
  split.
  { unfold lasti in El. destruct (rev (sd_net_cap (u_c u))) as [| x r] eqn:Rv; [discriminate |].
    apply Ok_inj in El. subst x. apply (f_equal (@rev R)) in Rv. rewrite rev_involutive in Rv.
    rewrite Rv. cbn [rev]. rewrite map_app. cbn [map]. apply last_last. }
  split; [exact Er |].
  cbn [g_outdoor g_humidity g_indoor g_flow g_pressure].
  assert (X : forall q : Q, lit (T:=R) q = Q2R q) by reflexivity.
  assert (L55 : lit (T:=R) 55 = 55) by (rewrite X; unfold Q2R; cbn [Qnum Qden]; lra).
  assert (L125 : lit (T:=R) 125 = 125) by (rewrite X; unfold Q2R; cbn [Qnum Qden]; lra).
  assert (L65 : lit (T:=R) 65 = 65) by (rewrite X; unfold Q2R; cbn [Qnum Qden]; lra).
  assert (L90 : lit (T:=R) 90 = 90) by (rewrite X; unfold Q2R; cbn [Qnum Qden]; lra).
  assert (L280 : lit (T:=R) 280 = 280) by (rewrite X; unfold Q2R; cbn [Qnum Qden]; lra).
  assert (L500 : lit (T:=R) 500 = 500) by (rewrite X; unfold Q2R; cbn [Qnum Qden]; lra).
  assert (La : lit (T:=R) 57226.508 = 57226.508) by (rewrite X; unfold Q2R; cbn [Qnum Qden]; lra).
  assert (Lb : lit (T:=R) 106868.78 = 106868.78) by (rewrite X; unfold Q2R; cbn [Qnum Qden]; lra).
  rewrite L55, L125, L65, L90, L280, L500, La, Lb, lit0_R, lit1_R.
  repeat split; apply linspace_spaced; lia.
Qed.

Lemma cooling_axes_increase psy M (u : dxunit R) m : cooling_205 psy M u = Ok m ->
  StronglySorted Rlt (g_outdoor m) /\ StronglySorted Rlt (g_humidity m) /\
  StronglySorted Rlt (g_indoor m) /\ StronglySorted Rlt (g_pressure m) /\
  StronglySorted lt (g_sequence m) /\
  forall q_first q_last rho,
    nth_error (sd_net_cap (u_c u)) 0 = Some q_first ->
    last (map Some (sd_net_cap (u_c u))) None = Some q_last -> std_rho psy = Ok rho ->
    0 < rho -> 280 * q_last < 500 * q_first -> StronglySorted Rlt (g_flow m).
Proof.
  intros E. pose proof (proj1 (cooling_map_layout psy M u m E)) as S5.
  destruct (cooling_axes psy M u m E) as (qf & ql & rho & E1 & E2 & E3 & S1 & S2 & S3 & S4 & S6).
  split; [| split; [| split; [| split; [| split]]]].
  - eapply spaced_increasing; [exact S1 | lia |]. unfold fr_F. rnum. lra.
  - eapply spaced_increasing; [exact S2 | lia | lra].
  - eapply spaced_increasing; [exact S3 | lia |]. unfold fr_F. rnum. lra.
  - eapply spaced_increasing; [exact S6 | lia | lra].
  - rewrite S5. clear. generalize 1%nat as k. induction (sd_n (u_c u)) as [| n IH]; intros k;
      cbn [seq]; constructor; [apply IH |].
    apply Forall_forall. intros x I. apply in_seq in I. lia.
  - intros qf' ql' rho' E1' E2' E3' P Q. rewrite E1 in E1'. rewrite E2 in E2'. rewrite E3 in E3'.
    injection E1' as <-. injection E2' as <-. apply Ok_inj in E3'. subst rho'.
    eapply spaced_increasing; [exact S4 | lia |].
    assert (C : forall x : R, fr_cfm_per_ton x = x * fr_cfm_per_ton 1).
    { intros x. unfold fr_cfm_per_ton. rnum. unfold Rdiv. ring. }
    assert (D : 0 < fr_cfm_per_ton (T:=R) 1).
    { unfold fr_cfm_per_ton, cfm, ton_ref, btu_h. rnum. 
      unfold Q2R; cbn [Qnum Qden]; lra. }
    rewrite (C 280), (C 500). cbn [nmul RNum]. set (f := fr_cfm_per_ton 1) in *.
    replace (280 * f * ql * rho) with (f * rho * (280 * ql)) by ring.
    replace (500 * f * qf * rho) with (f * rho * (500 * qf)) by ring.
    apply Rmult_lt_compat_l; [apply Rmult_lt_0_compat; assumption | exact Q].
Qed.

(** * The airflow of a grid point *)

Lemma set_mass_flow_cond psy o i s f p rho srho a q r ext m :
  rho_of psy i = Ok rho -> std_rho psy = Ok srho -> rho <> 0 -> srho <> 0 -> q <> 0 -> m <> 0 ->
  exists c : cond R, ex (set_mass_airflow psy m) (flow_cond o i s f p rho srho a q r ext) = Ok c /\
    c_mass_airflow c = Some m /\ c_rated_mass_airflow c = Some (a * srho) /\
    c_mass_airflow_ratio c = Some (a * srho / m) /\ c_speed c = s /\ c_indoor c = i /\
    c_outdoor c = o.
Proof.
  intros Hr Hs H1 H2 H3 H4. unfold ex.
  destruct p as [p |]; cond_go; eexists; (split; [reflexivity |]); repeat split; reflexivity.
Qed.

Lemma grid_flow psy (u : dxunit R) t_o rh t_i m_dot k p c :
  grid_condition psy u t_o rh t_i m_dot k p c ->
  exists rated, c_rated_mass_airflow c = Some rated /\ c_mass_airflow c = Some m_dot /\
    c_mass_airflow_ratio c = Some (rated / m_dot).
Proof.
  intros (o & i & c0 & _ & _ & E0 & Ec). apply make_condition_inv in E0.
  destruct E0 as (q & a & full & pr & fl & rho & srho & _ & _ & _ & _ & _ & Hs & Hr
                   & H1 & H2 & H3 & H4 & ->).
  destruct (Req_dec m_dot 0) as [-> | N].
  - exfalso. revert Ec. unfold ex. cond_go. rewrite pydiv_zero. discriminate.
  - destruct (set_mass_flow_cond psy o i (sd_n (u_c u) - k) fl (Some pr) rho srho a q 1 None m_dot)
      as (c' & E & C1 & C2 & C3 & _); auto.
    rewrite E in Ec. apply Ok_inj in Ec. subst c'. eauto.
Qed.

(** * Standby *)

Lemma standby_map psy sol M (u : dxunit R) r crank :
  generate_205_representation psy sol M u = Ok r -> u_crank u = Some crank ->
  forall t, exists w, read_two_points (r_standby_outdoor r) (r_standby_power r) t = Some w /\
    (t <= u_crank_setpoint u - 1 / 2 -> w = crank) /\
    (u_crank_setpoint u + 1 / 2 <= t -> w = 0) /\
    (0 <= crank -> 0 <= w <= crank).
Proof.
  unfold generate_205_representation. intros E C t.
  apply rbind_ok in E. destruct E as (? & _ & E).
  apply rbind_ok in E. destruct E as (? & _ & E).
  apply rbind_ok in E. destruct E as (? & _ & E).
  apply rbind_ok in E. destruct E as (cm & _ & E).
  apply rbind_ok in E. destruct E as (crank' & Hc & E).
  apply need_ok in Hc. rewrite C in Hc. injection Hc as <-.
  apply rbind_ok in E. destruct E as (? & _ & E).
  apply rbind_ok in E. destruct E as (? & _ & E).
  apply Ok_inj in E. subst r. cbn [r_standby_outdoor r_standby_power read_two_points].
  assert (L1 : lit (T:=R) (-0.5) = - (1 / 2)) by (unfold lit; rnum; lra).
  assert (L2 : lit (T:=R) 0.5 = 1 / 2) by (unfold lit; rnum; lra).
  rewrite L1, L2, lit0_R. cbn [nadd RNum].
  set (sp := u_crank_setpoint u).
  destruct (Rle_dec t (sp + - (1 / 2))); [| destruct (Rle_dec (sp + 1 / 2) t)];
    (eexists; split; [reflexivity |]); repeat split; intros; try lra.
  - replace (sp + 1 / 2 - (sp + - (1 / 2))) with 1 by lra. unfold Rdiv. rewrite Rinv_1. nra.
  - replace (sp + 1 / 2 - (sp + - (1 / 2))) with 1 by lra. unfold Rdiv. rewrite Rinv_1. nra.
Qed.

(** * The fan map *)
Section FanMap.
  Variable sol : solvers R.

  Lemma fan_map_entry_inv (f : fan R) order k p r : fan_map_entry sol f order k p = Ok r ->
    exists i w a x, nth_error order (k - 1) = Some i /\ power sol f i (Some p) = Ok w /\
      airflow sol f i (Some p) = Ok a /\ rotational_speed sol f i (Some p) = Ok x /\
      r = (w, a, to_rps x).
  Proof.
    unfold fan_map_entry. intros E.
    apply rbind_ok in E. destruct E as (i & Ei & E). apply geti_ok in Ei.
    apply rbind_ok in E. destruct E as (w & Ew & E).
    apply rbind_ok in E. destruct E as (a & Ea & E).
    apply rbind_ok in E. destruct E as (x & Ex & E). apply Ok_inj in E.
    exists i, w, a, x. auto.
  Qed.

  Lemma fan_map_layout (f : fan R) r : fan_205 sol f = Ok r ->
    fr_speed_number r = seq 1 (f_n f) /\
    (exists top, evenly_spaced 0 top 6 (fr_pressure r) /\
       (match f_class f with PSCFan => False | _ => True end -> top = fr_inH2O 1.2)) /\
    fills (fan_dims r) (fr_power r) /\ fills (fan_dims r) (fr_flow r) /\
    fills (fan_dims r) (fr_rotation r) /\ fills (fan_dims r) (fr_state r) /\
    exists order, get_speed_order_map sol f = Ok order /\
    (forall k p j, (1 <= k <= f_n f)%nat -> nth_error (fr_pressure r) j = Some p ->
       let entry {A} (l : list A) := value_at (fan_dims r) [(k - 1)%nat; j] l in
       exists i w a x,
         nth_error order (k - 1) = Some i /\
         power sol f i (Some p) = Ok w /\ entry (fr_power r) = Some w /\
         airflow sol f i (Some p) = Ok a /\ entry (fr_flow r) = Some a /\
         rotational_speed sol f i (Some p) = Ok x /\ entry (fr_rotation r) = Some (to_rps x) /\
         entry (fr_state r) = Some "NORMAL"%string) /\
    exists i, last (map Some order) None = Some i /\
      airflow sol f i (Some (f_design_esp f)) = Ok (fr_nominal r).
  Proof.
    unfold fan_205. intros E.
    apply rbind_ok in E. destruct E as (order & Eo & E).
    apply rbind_ok in E. destruct E as (mx & Em & E).
    apply rbind_ok in E. destruct E as (mp & _ & E).
    apply rbind_ok in E. destruct E as (m & Ef & E).
    apply rbind_ok in E. destruct E as (nom & En & E).
    apply Ok_inj in E. subst r.
    cbn [fr_speed_number fr_pressure fr_power fr_flow fr_rotation fr_state fr_nominal fan_dims].
    unfold fan_205_map in Ef. rewrite Eo in Ef. cbn [rbind] in Ef. rewrite Em in Ef.
    cbn [rbind] in Ef.
    apply rbind_ok in Ef. destruct Ef as (top & Et & Ef).
    apply rbind_ok in Ef. destruct Ef as (rows & Er & Ef). apply Ok_inj in Ef. subst m.
    cbn [fst snd].
    assert (Z : fr_inH2O (lit (T:=R) 0) = 0) by (rewrite lit0_R; unfold fr_inH2O; rnum; lra).
    rewrite Z in Er |- *.
    set (A1 := seq 1 (f_n f)) in *. set (A2 := linspace 0 top 6) in *.
    assert (Er' : rloop (fun s => rloop (fun p => let! e := fan_map_entry sol f order s p in Ok [e])
                           A2) A1 = Ok (List.concat rows)).
    { unfold rloop at 1.
      replace (rmapM (fun s => rloop (fun p => let! e := fan_map_entry sol f order s p in Ok [e]) A2) A1)
        with (Ok rows); [reflexivity |]. rewrite <- Er. clear Er.
      induction A1 as [| s l IH]; [reflexivity |]. cbn [rmapM]. rewrite <- IH. clear IH.
      assert (X : forall l, rmapM (fun p => fan_map_entry sol f order s p) l
        = rloop (fun p => let! e := fan_map_entry sol f order s p in Ok [e]) l).
      { intros l'. unfold rloop. induction l' as [| p l' IH]; [reflexivity |]. cbn [rmapM].
        destruct (fan_map_entry sol f order s p) as [e | e]; [| reflexivity]. cbn [rbind].
        rewrite IH.
        destruct (rmapM (fun p => let! e := fan_map_entry sol f order s p in Ok [e]) l');
          reflexivity. }
      rewrite X. reflexivity. }
    pose proof (rloop_holds _ [List.length A2] A1 (List.concat rows)
      (fun s index r => match index with
        | [j] => exists p, nth_error A2 j = Some p /\ fan_map_entry sol f order s p = Ok r
        | _ => False end) Er') as H.
    assert (H' := H). clear H. specialize (H' ltac:(
      intros s row _ E1;
      eapply holds_weaken; [| eapply (rloop_holds _ [] A2 row
        (fun p index r => match index with
          | [] => fan_map_entry sol f order s p = Ok r | _ => False end) E1)];
      [ intros [| j [|]] r Hr; cbv beta iota in Hr; try contradiction;
        destruct Hr as (p & N & Hr); try contradiction; exists p; split; assumption
      | intros p row' _ E2; apply rbind_ok in E2; destruct E2 as (e & Ee & E2);
        apply Ok_inj in E2; subst row'; apply holds_one; exact Ee ])).
    assert (Fm : forall {B} (g : R * R * R -> B),
      fills [List.length A1; List.length A2] (map g (List.concat rows))).
    { intros B g. unfold fills. rewrite map_length. exact (proj1 H'). }
    split; [reflexivity |].
    split.
    { exists top. split; [apply linspace_spaced; lia |]. intros Np.
      assert (L : lit (T:=R) 1.2 = 1.2) by (unfold lit; rnum; lra). rewrite L in Et.
      destruct (f_class f); try contradiction; apply Ok_inj in Et; symmetry; exact Et. }
    do 4 (split; [apply Fm |]).
    exists order. split; [exact Eo |]. split.
    - intros k p j K N.
      assert (NA : nth_error A1 (k - 1) = Some k).
      { unfold A1. rewrite nth_error_nth' with (d := 0%nat) by (rewrite seq_length; lia).
        rewrite seq_nth by lia. f_equal. lia. }
      assert (Lt : Forall2 lt [(k - 1)%nat; j] [List.length A1; List.length A2]).
      { apply Forall2_cons; [apply nth_error_Some; congruence |].
        apply Forall2_cons; [apply nth_error_Some; congruence | apply Forall2_nil]. }
      destruct (proj2 H' _ Lt) as (e & V & k' & Nk & p' & Np & Ee).
      rewrite NA in Nk. injection Nk as <-. rewrite N in Np. injection Np as <-.
      apply fan_map_entry_inv in Ee.
      destruct Ee as (i & w & a & x & Ni & Ew & Ea & Ex & ->).
      exists i, w, a, x. unfold fan_dims. cbn [fr_speed_number fr_pressure].
      rewrite (holds_map (fun r => fst (fst r)) _ _ _ _ _ H' V),
        (holds_map (fun r => snd (fst r)) _ _ _ _ _ H' V), (holds_map snd _ _ _ _ _ H' V),
        (holds_map (fun _ => "NORMAL"%string) _ _ _ _ _ H' V).
      repeat split; assumption.
    - exists mx. split; [| exact En].
      unfold lasti in Em. destruct (rev order) as [| y l] eqn:Rv; [discriminate |].
      apply Ok_inj in Em. subst y. apply (f_equal (@rev nat)) in Rv.
      rewrite rev_involutive in Rv. rewrite Rv. cbn [rev]. rewrite map_app. apply last_last.
  Qed.

  (** Without pressure, a higher speed number never moves less air. *)
  Lemma fan_map_sorted (f : fan R) r : fan_205 sol f = Ok r ->
    forall k k', (1 <= k <= k')%nat -> (k' <= f_n f)%nat ->
    exists a a', value_at (fan_dims r) [(k - 1)%nat; 0%nat] (fr_flow r) = Some a /\
      value_at (fan_dims r) [(k' - 1)%nat; 0%nat] (fr_flow r) = Some a' /\ a <= a'.
  Proof.
    intros E k k' K K'.
    destruct (fan_map_layout f r E) as (_ & (top & (Lp & Sp) & _) & _ & _ & _ & _ & order & Eo & H & _).
    destruct (speed_order_map_spec sol f order Eo) as (q & Q & Perm & Srt).
    assert (P0 : nth_error (fr_pressure r) 0 = Some 0).
    { rewrite Sp by lia. f_equal. cbn [INR]. ring. }
    destruct (H k 0 0%nat) as (i & w & a & x & Ni & _ & _ & Ea & Va & _); [lia | exact P0 |].
    destruct (H k' 0 0%nat) as (i' & w' & a' & x' & Ni' & _ & _ & Ea' & Va' & _); [lia | exact P0 |].
    exists a, a'. split; [exact Va |]. split; [exact Va' |].
    assert (Hi : forall j, In j order -> (j < f_n f)%nat).
    { intros j I. apply (Permutation_in j (Permutation_sym Perm)), in_seq in I. lia. }
    rewrite Q in Ea by (apply Hi; eapply nth_error_In; exact Ni). apply Ok_inj in Ea. subst a.
    rewrite Q in Ea' by (apply Hi; eapply nth_error_In; exact Ni'). apply Ok_inj in Ea'. subst a'.
    destruct (Nat.eq_dec k k') as [<- | N].
    - rewrite Ni in Ni'. injection Ni' as <-. lra.
    - assert (G : forall l a b x y, StronglySorted (fun i j => q i <= q j) l -> (a < b)%nat ->
        nth_error l a = Some x -> nth_error l b = Some y -> q x <= q y).
      { clear. induction l as [| z l IH]; intros a b x y S L Na Nb; [destruct a; discriminate |].
        inversion S; subst. destruct a as [| a], b as [| b]; try lia; cbn [nth_error] in *.
        - injection Na as <-. eapply Forall_forall in H2; [exact H2 | eapply nth_error_In, Nb].
        - apply (IH a b); auto. lia. }
      apply (G order (k - 1)%nat (k' - 1)%nat); auto. lia.
  Qed.
End FanMap.

(** * Whole representation *)

Lemma repr_inv psy sol M (u : dxunit R) r : generate_205_representation psy sol M u = Ok r ->
  cooling_205 psy M u = Ok (r_cooling r) /\
  exists f, u_fan u = Some f /\ fan_205 sol f = Ok (r_fan r).
Proof.
  unfold generate_205_representation. intros E.
  apply rbind_ok in E. destruct E as (? & _ & E).
  apply rbind_ok in E. destruct E as (? & _ & E).
  apply rbind_ok in E. destruct E as (? & _ & E).
  apply rbind_ok in E. destruct E as (cm & Ec & E).
  apply rbind_ok in E. destruct E as (? & _ & E).
  apply rbind_ok in E. destruct E as (f & Hf & E). apply need_ok in Hf.
  apply rbind_ok in E. destruct E as (fr & Ef & E). apply Ok_inj in E. subst r.
  split; [exact Ec |]. exists f. split; assumption.
Qed.

Lemma repr_layout psy sol M (u : dxunit R) r : generate_205_representation psy sol M u = Ok r ->
  let m := r_cooling r in
  g_sequence m = seq 1 (sd_n (u_c u)) /\
  fills (cooling_dims m) (l_total m) /\ fills (cooling_dims m) (l_sensible m) /\
  fills (cooling_dims m) (l_power m) /\ fills (cooling_dims m) (l_state m) /\
  forall i1 i2 i3 i4 i5 i6 t_o rh t_i m_dot k p,
    nth_error (g_outdoor m) i1 = Some t_o -> nth_error (g_humidity m) i2 = Some rh ->
    nth_error (g_indoor m) i3 = Some t_i -> nth_error (g_flow m) i4 = Some m_dot ->
    nth_error (g_sequence m) i5 = Some k -> nth_error (g_pressure m) i6 = Some p ->
    let entry {A} (l : list A) := value_at (cooling_dims m) [i1; i2; i3; i4; i5; i6] l in
    exists c q s w,
      grid_condition psy u t_o rh t_i m_dot k p c /\
      gross_total_cooling_capacity M u (Some c) = Ok q /\ entry (l_total m) = Some q /\
      gross_sensible_cooling_capacity M u (Some c) = Ok s /\ entry (l_sensible m) = Some s /\
      gross_cooling_power M u (Some c) = Ok w /\ entry (l_power m) = Some w /\
      entry (l_state m) = Some "NORMAL"%string.
Proof. intros E. exact (cooling_map_layout psy M u _ (proj1 (repr_inv _ _ _ _ _ E))). Qed.

Lemma repr_axes psy sol M (u : dxunit R) r : generate_205_representation psy sol M u = Ok r ->
  let m := r_cooling r in
  exists q_first q_last rho,
    nth_error (sd_net_cap (u_c u)) 0 = Some q_first /\
    last (map Some (sd_net_cap (u_c u))) None = Some q_last /\ std_rho psy = Ok rho /\
    evenly_spaced (fr_F 55) (fr_F 125) 4 (g_outdoor m) /\
    evenly_spaced 0 1 4 (g_humidity m) /\
    evenly_spaced (fr_F 65) (fr_F 90) 4 (g_indoor m) /\
    evenly_spaced (fr_cfm_per_ton 280 * q_last * rho) (fr_cfm_per_ton 500 * q_first * rho) 4
      (g_flow m) /\
    evenly_spaced 57226.508 106868.78 4 (g_pressure m).
Proof. intros E. exact (cooling_axes psy M u _ (proj1 (repr_inv _ _ _ _ _ E))). Qed.

Lemma repr_axes_increase psy sol M (u : dxunit R) r :
  generate_205_representation psy sol M u = Ok r ->
  let m := r_cooling r in
  StronglySorted Rlt (g_outdoor m) /\ StronglySorted Rlt (g_humidity m) /\
  StronglySorted Rlt (g_indoor m) /\ StronglySorted Rlt (g_pressure m) /\
  StronglySorted lt (g_sequence m) /\
  forall q_first q_last rho,
    nth_error (sd_net_cap (u_c u)) 0 = Some q_first ->
    last (map Some (sd_net_cap (u_c u))) None = Some q_last -> std_rho psy = Ok rho ->
    0 < rho -> 280 * q_last < 500 * q_first -> StronglySorted Rlt (g_flow m).
Proof. intros E. exact (cooling_axes_increase psy M u _ (proj1 (repr_inv _ _ _ _ _ E))). Qed.

Lemma repr_fan psy sol M (u : dxunit R) r : generate_205_representation psy sol M u = Ok r ->
  exists f order, u_fan u = Some f /\ get_speed_order_map sol f = Ok order /\
  let m := r_fan r in
    fr_speed_number m = seq 1 (f_n f) /\
    (exists top, evenly_spaced 0 top 6 (fr_pressure m) /\
       (match f_class f with PSCFan => False | _ => True end -> top = fr_inH2O 1.2)) /\
    fills (fan_dims m) (fr_power m) /\ fills (fan_dims m) (fr_flow m) /\
    fills (fan_dims m) (fr_rotation m) /\ fills (fan_dims m) (fr_state m) /\
    (forall k p j, (1 <= k <= f_n f)%nat -> nth_error (fr_pressure m) j = Some p ->
       let entry {A} (l : list A) := value_at (fan_dims m) [(k - 1)%nat; j] l in
       exists i w a x,
         nth_error order (k - 1) = Some i /\
         power sol f i (Some p) = Ok w /\ entry (fr_power m) = Some w /\
         airflow sol f i (Some p) = Ok a /\ entry (fr_flow m) = Some a /\
         rotational_speed sol f i (Some p) = Ok x /\ entry (fr_rotation m) = Some (to_rps x) /\
         entry (fr_state m) = Some "NORMAL"%string) /\
    exists i, last (map Some order) None = Some i /\
      airflow sol f i (Some (f_design_esp f)) = Ok (fr_nominal m).
Proof.
  intros E. destruct (proj2 (repr_inv _ _ _ _ _ E)) as (f & Uf & Ef).
  destruct (fan_map_layout sol f _ Ef) as (A1 & A2 & A3 & A4 & A5 & A6 & order & Eo & A7).
  exists f, order. split; [exact Uf |]. split; [exact Eo |]. cbv zeta.
  repeat (split; [assumption |]). exact A7.
Qed.

Lemma repr_fan_sorted psy sol M (u : dxunit R) r :
  generate_205_representation psy sol M u = Ok r ->
  let m := r_fan r in
  forall k k', (1 <= k <= k')%nat -> (k' <= List.length (fr_speed_number m))%nat ->
  exists a a', value_at (fan_dims m) [(k - 1)%nat; 0%nat] (fr_flow m) = Some a /\
    value_at (fan_dims m) [(k' - 1)%nat; 0%nat] (fr_flow m) = Some a' /\ a <= a'.
Proof.
  intros E m k k' K K'. destruct (proj2 (repr_inv _ _ _ _ _ E)) as (f & Uf & Ef).
  apply (fan_map_sorted sol f _ Ef); [exact K |].
  destruct (fan_map_layout sol f _ Ef) as (A1 & _). unfold m in K'. rewrite A1, seq_length in K'.
  exact K'.
Qed.
