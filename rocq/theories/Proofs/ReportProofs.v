(** Printed and plotted values (C74, C75). *)
From Coq Require Import Reals QArith Lra Lia List Bool String Sorting.Sorted.
From Verif.Base Require Import Num Res Tac.
From Verif.Model Require Import Units Util Psychrometrics Conditions Defrost Fan Tabular Unit DXUnit Idf Report.
From Verif.Spec Require Import UnitSpec ReportSpec.
From Verif.Proofs Require Import UnitsR UnitProofs4.
Import ListNotations.
Local Open Scope string_scope.
Local Open Scope R_scope.

(** ** Printing *)
Lemma print_value_inv before v d after (l l' : list (text_line R)) b :
  print_value before v d after l = (l', Ok b) ->
  exists x, v = Ok x /\ l' = (l ++ [Line before x d after])%list.
Proof.
  intros H. unfold print_value in H. apply sbind_ok in H. destruct H as (s & x & E & H).
  apply slift_ok in E. destruct E as [-> E]. unfold print_line, smod in H. apply pair_ok_inj in H.
  destruct H as [<- _]. exists x. auto.
Qed.
Lemma stage_in_inv what k v units (l l' : list (text_line R)) b :
  stage_in what k v units l = (l', Ok b) ->
  exists x, v = Ok x /\ l' = (l ++ [Line (stage_label what (S k)) (snd units x) 2 (" " ++ fst units)])%list.
Proof.
  intros H. unfold stage_in in H. apply print_value_inv in H. destruct H as (x & E & ->).
  apply rbind_ok in E. destruct E as (y & E & X). apply Ok_inj in X. subst x. exists y.
  replace (k + 1)%nat with (S k) by lia. auto.
Qed.
Lemma stage_of_inv what k v d (l l' : list (text_line R)) b :
  stage_of what k v d l = (l', Ok b) ->
  exists x, v = Ok x /\ l' = (l ++ [Line (stage_label what (S k)) x d ""])%list.
Proof.
  intros H. unfold stage_of in H. apply print_value_inv in H. destruct H as (x & E & ->).
  exists x. replace (k + 1)%nat with (S k) by lia. auto.
Qed.

(** A loop that prints one block per speed. *)
Lemma blocks_printed (f : nat -> st (list (text_line R)) unit) (P : nat -> list (text_line R) -> Prop) n i l l' b :
  (forall k l l' b, f k l = (l', Ok b) -> exists x, P (S k) x /\ l' = (l ++ x)%list) ->
  sfold f (seq i n) l = (l', Ok b) ->
  exists blocks, Forall2 P (seq (S i) n) blocks /\ l' = (l ++ List.concat blocks)%list.
Proof.
  intros F. revert i l. induction n as [|n IH]; intros i l H.
  - cbn [seq sfold] in H. unfold sret in H. apply pair_ok_inj in H. destruct H as [<- _].
    exists []. split; [constructor|]. cbn. rewrite app_nil_r. reflexivity.
  - cbn [seq sfold] in H. apply sbind_ok in H. destruct H as (l1 & x & E & H).
    apply F in E. destruct E as (y & Py & ->).
    destruct (IH (S i) _ H) as (blocks & B & ->).
    exists (y :: blocks). split.
    + cbn [seq]. constructor; assumption.
    + cbn [List.concat]. rewrite <- app_assoc. reflexivity.
Qed.

Section Print.
  Variable psy : psychro R.
  Variable sol : solvers R.
  Variable M : dxmodel R.

  Lemma at_made m u k c f v :
    make_condition psy m u k None None = Ok c -> f u (Some c) = Ok v -> at_stage psy m u (S k) f v.
  Proof. intros C V. exists c. replace (S k - 1)%nat with k by lia. auto. Qed.

  Lemma cooling_printed pu cu (u : dxunit R) before after :
    print_cooling_info psy sol M pu cu u before = (after, Ok tt) ->
    exists s text, seer sol M u = Ok s /\ after = (before ++ text)%list
      /\ listing (sd_n (u_c u)) (Line "SEER: " s 2 "") (cooling_block psy sol M pu cu u) text.
  Proof.
    intros H. unfold print_cooling_info in H.
    apply sbind_ok in H. destruct H as (l1 & [] & E & H). apply print_value_inv in E.
    destruct E as (s & S0 & ->).
    apply sbind_ok in H. destruct H as (l2 & [] & E & H).
    unfold print_line, smod in H. apply pair_ok_inj in H. destruct H as [<- _].
    apply (blocks_printed _ (cooling_block psy sol M pu cu u)) in E.
    - destruct E as (blocks & B & ->).
      eexists s, _. split; [exact S0|]. split; [rewrite <- !app_assoc; reflexivity|].
      exists blocks. split; [reflexivity|exact B].
    - clear. intros k l l' b H. apply sbind_ok in H. destruct H as (s & c & E & H).
      apply slift_ok in E. destruct E as [-> E].
      apply sbind_ok in H. destruct H as (s & [] & E1 & H). apply stage_in_inv in E1. destruct E1 as (p & P & ->).
      apply sbind_ok in H. destruct H as (s & [] & E1 & H). apply stage_in_inv in E1. destruct E1 as (q & Q & ->).
      apply sbind_ok in H. destruct H as (s & [] & E1 & H). apply stage_of_inv in E1. destruct E1 as (e & Ee & ->).
      apply sbind_ok in H. destruct H as (s & [] & E1 & H). apply stage_of_inv in E1. destruct E1 as (cop & Ec & ->).
      apply stage_of_inv in H. destruct H as (shr & Es & ->).
      eexists. split; [exists p, q, e, cop, shr; split; [reflexivity|]; repeat split; eapply at_made; eassumption|].
      rewrite <- !app_assoc. reflexivity.
  Qed.

  Lemma heating_printed pu cu region (u : dxunit R) before after :
    print_heating_info psy sol M pu cu region u before = (after, Ok tt) ->
    exists s text, hspf sol M u region = Ok s /\ after = (before ++ text)%list
      /\ listing (sd_n (u_h u)) (Line ("HSPF (region " ++ show region ++ "): ") s 2 "")
           (heating_block psy sol M pu cu u) text.
  Proof.
    intros H. unfold print_heating_info in H.
    apply sbind_ok in H. destruct H as (l1 & [] & E & H). apply print_value_inv in E.
    destruct E as (s & S0 & ->).
    apply sbind_ok in H. destruct H as (l2 & [] & E & H).
    unfold print_line, smod in H. apply pair_ok_inj in H. destruct H as [<- _].
    apply (blocks_printed _ (heating_block psy sol M pu cu u)) in E.
    - destruct E as (blocks & B & ->).
      eexists s, _. split; [exact S0|]. split; [rewrite <- !app_assoc; reflexivity|].
      exists blocks. split; [reflexivity|exact B].
    - clear. intros k l l' b H. apply sbind_ok in H. destruct H as (s & c & E & H).
      apply slift_ok in E. destruct E as [-> E].
      apply sbind_ok in H. destruct H as (s & [] & E1 & H). apply stage_in_inv in E1. destruct E1 as (p & P & ->).
      apply sbind_ok in H. destruct H as (s & [] & E1 & H). apply stage_in_inv in E1. destruct E1 as (q & Q & ->).
      apply stage_of_inv in H. destruct H as (cop & Ec & ->).
      eexists. split; [exists p, q, cop; split; [reflexivity|]; repeat split; eapply at_made; eassumption|].
      rewrite <- !app_assoc. reflexivity.
  Qed.

  (** The printed numbers of a stage agree with each other. *)
  Lemma stage_unique m u k f v w : at_stage psy m u k f v -> at_stage psy m u k f w -> v = w.
  Proof.
    intros (c & C & V) (c' & C' & W). rewrite C in C'. apply Ok_inj in C'. subst c'.
    rewrite V in W. apply Ok_inj in W. exact W.
  Qed.
  Lemma eer_of_stage u k p q e :
    at_stage psy Cooling u k (net_cooling_power sol M) p ->
    at_stage psy Cooling u k (net_total_cooling_capacity sol M) q ->
    at_stage psy Cooling u k (eer sol M) e -> p <> 0 /\ e = q / p / btu_h.
  Proof.
    intros (c & C & P) (c1 & C1 & Q) (c2 & C2 & E).
    rewrite C in C1. apply Ok_inj in C1. subst c1. rewrite C in C2. apply Ok_inj in C2. subst c2.
    unfold eer in E. apply rbind_ok in E. destruct E as (x & E & X). apply Ok_inj in X. subst e.
    unfold net_total_cooling_cop, both in E. rewrite Q, P in E. cbn [rbind] in E.
    apply pydiv_inv in E. destruct E as [N ->]. split; [exact N|]. unfold to_Btu_Wh. reflexivity.
  Qed.

  (** In the units the methods print by default, [EER = 12000 Btu/h per ton * tons / W]. *)
  Lemma printed_eer (u : dxunit R) before after k :
    print_cooling_info psy sol M watts tons u before = (after, Ok tt) ->
    (1 <= k <= sd_n (u_c u))%nat ->
    exists p q e,
      In (Line (stage_label "Net cooling power" k) p 2 " W") after
      /\ In (Line (stage_label "Net cooling capacity" k) q 2 " ton_ref") after
      /\ In (Line (stage_label "Net cooling EER" k) e 2 "") after
      /\ p <> 0 /\ e = 12000 * q / p.
  Proof.
    intros H K. apply cooling_printed in H. destruct H as (s & text & _ & -> & blocks & -> & B).
    assert (I : In k (seq 1 (sd_n (u_c u)))) by (apply in_seq; lia).
    destruct (In_nth_error _ _ I) as (j & J).
    assert (X : exists b, In b blocks /\ cooling_block psy sol M watts tons u k b).
    { clear - B J. revert j J. induction B; intros j J; [destruct j; discriminate|].
      destruct j; cbn in J.
      - injection J as ->. exists y. split; [left; reflexivity|assumption].
      - destruct (IHB _ J) as (b & Ib & Hb). exists b. split; [right|]; assumption. }
    destruct X as (b & Ib & p & q & e & cop & shr & -> & P & Q & E & _ & _).
    assert (L : forall x, In x [Line (stage_label "Net cooling power" k) (snd watts p) 2 (" " ++ fst (watts (T := R)));
      Line (stage_label "Net cooling capacity" k) (snd tons q) 2 (" " ++ fst (tons (T := R)));
      Line (stage_label "Net cooling EER" k) e 2 ""; Line (stage_label "Gross cooling COP" k) cop 3 "";
      Line (stage_label "Net SHR" k) shr 3 ""] ->
      In x (before ++ Line "SEER: " s 2 "" :: List.concat blocks ++ [Blank])%list).
    { intros x X. apply in_or_app. right. right. apply in_or_app. left. apply in_concat. eauto. }
    destruct (eer_of_stage u k p q e P Q E) as [N ->].
    exists p, (to_ton q), (q / p / btu_h).
    split; [apply L; left; reflexivity|]. split; [apply L; right; left; reflexivity|].
    split; [apply L; right; right; left; reflexivity|]. split; [exact N|].
    unfold to_ton, ton_ref. assert (D : btu_h (T := R) <> 0) by (unfold btu_h; rnum; lra).
    replace (lit 12000) with 12000 by (rnum; lra). cbn [nmul ndiv RNum]. field. auto.
  Qed.
End Print.

(** ** Plotting *)
Definition all_curves : list curve :=
  [HeatingCurve Net false Capacity; HeatingCurve Net true Capacity;
   HeatingCurve Net false Power; HeatingCurve Net true Power;
   HeatingCurve Net false Cop; HeatingCurve Net true Cop;
   CoolingCurve Net false false; CoolingCurve Net true false; CoolingPower Net;
   CoolingCurve Net false true; CoolingCurve Net true true;
   HeatingCurve Gross false Capacity; HeatingCurve Gross true Capacity;
   HeatingCurve Gross false Power; HeatingCurve Gross true Power;
   HeatingCurve Gross false Cop; HeatingCurve Gross true Cop;
   CoolingCurve Gross false false; CoolingCurve Gross true false; CoolingPower Gross;
   CoolingCurve Gross false true; CoolingCurve Gross true true].
Lemma all_curves_all c : In c all_curves.
Proof.
  destruct c as [l f a|l s c|l]; destruct l; try destruct f; try destruct a; try destruct s; try destruct c;
    unfold all_curves; cbn; tauto.
Qed.
Fixpoint distinct (l : list string) : bool :=
  match l with [] => true | x :: r => negb (existsb (String.eqb x) r) && distinct r end.
Lemma legends_distinct : distinct (map legend all_curves) = true.
Proof. vm_compute. reflexivity. Qed.

Lemma Forall2_imply {A B} (P Q : A -> B -> Prop) l m :
  (forall a b, P a b -> Q a b) -> Forall2 P l m -> Forall2 Q l m.
Proof. intros H F. induction F; constructor; auto. Qed.

Lemma Forall2_len {A B} (P : A -> B -> Prop) l m : Forall2 P l m -> List.length l = List.length m.
Proof. intros F. induction F; cbn; congruence. Qed.

Section Groups.
  Context {A : Type} (group : A -> string) (name : curve -> string).
  Notation keep c := (filter (fun s => String.eqb (group s) (name c))).
  Lemma filter_other c d l :
    String.eqb (name d) (name c) = false -> Forall (fun s => group s = name d) l -> keep c l = [].
  Proof.
    intros N F. induction F as [|s l E F IH]; [reflexivity|]. cbn [filter]. rewrite E, N. exact IH.
  Qed.
  Lemma filter_same c l : Forall (fun s => group s = name c) l -> keep c l = l.
  Proof.
    intros F. induction F as [|s l E F IH]; [reflexivity|]. cbn [filter]. rewrite E, String.eqb_refl, IH. reflexivity.
  Qed.
  Lemma filter_absent c cs ls :
    existsb (String.eqb (name c)) (map name cs) = false ->
    Forall2 (fun c l => Forall (fun s => group s = name c) l) cs ls -> keep c (List.concat ls) = [].
  Proof.
    intros N F. induction F as [|d l cs ls E F IH]; [reflexivity|]. cbn [map existsb] in N.
    apply orb_false_iff in N. destruct N as [N N']. cbn [List.concat]. rewrite filter_app, IH by exact N'.
    rewrite (filter_other c d) by first [rewrite String.eqb_sym; exact N | exact E]. reflexivity.
  Qed.
  Lemma filter_groups (P : curve -> list A -> Prop) cs ls c :
    distinct (map name cs) = true -> In c cs ->
    Forall2 (fun c l => P c l /\ Forall (fun s => group s = name c) l) cs ls ->
    P c (keep c (List.concat ls)).
  Proof.
    intros D I F. induction F as [|d l cs ls [Pd E] F IH]; [destruct I|].
    cbn [map distinct] in D. apply andb_true_iff in D. destruct D as [N D]. apply negb_true_iff in N.
    cbn [List.concat]. rewrite filter_app. destruct I as [->|I].
    - rewrite (filter_same c l E), (filter_absent c cs ls N), app_nil_r; [exact Pd|].
      eapply Forall2_imply; [|exact F]. cbn. tauto.
    - rewrite (filter_other c d); [cbn [List.app]; apply IH; assumption| |exact E].
      destruct (String.eqb_spec (name d) (name c)) as [X|X]; [|reflexivity]. exfalso.
      assert (Y : existsb (String.eqb (name d)) (map name cs) = true).
      { apply existsb_exists. exists (name c). split; [apply in_map; exact I|]. apply String.eqb_eq. exact X. }
      congruence.
  Qed.
End Groups.

Section Plot.
  Variable psy : psychro R.
  Variable sol : solvers R.
  Variable M : dxmodel R.

  Lemma axis_eq m (u : dxunit R) : plot_temperatures m u = axis m u.
  Proof.
    unfold plot_temperatures, axis. cbn [map List.app]. rewrite !fr_F_deg.
    assert (E : lit (T := R) 5 = 5 /\ lit (T := R) 17 = 17 /\ lit (T := R) 35 = 35 /\ lit (T := R) 47 = 47
      /\ lit (T := R) 60 = 60 /\ lit (T := R) 82 = 82 /\ lit (T := R) 95 = 95).
    { repeat split; rnum; lra. }
    destruct E as (-> & -> & -> & -> & -> & -> & ->). reflexivity.
  Qed.

  (** The display specification that belongs to a curve. *)
  Definition draws (c : curve) (d : display_spec (T := R)) : Prop :=
    ds_mode d = curve_mode c
    /\ ds_net_or_gross d = match curve_level c with Net => "Net" | Gross => "Gross" end
    /\ ds_quantity d = amount_name (curve_amount c)
    /\ orb (String.eqb (ds_version d) "Integrated") (String.eqb (ds_version d) "Sensible") = curve_dotted c
    /\ (ds_net_or_gross d ++ " " ++ (if String.eqb (ds_version d) "" then "" else ds_version d ++ " ")
        ++ (match ds_mode d with Cooling => "Cooling" | Heating => "Heating" end) ++ " " ++ ds_quantity d) = legend c
    /\ (forall u k v, ds_function d u (Some k) = Ok v -> shown sol M c u k v).

  Lemma cop_shown (f g : dxunit R -> option (cond R) -> res R) u k v :
    both pydiv f g u k = Ok v -> exists q p, f u k = Ok q /\ g u k = Ok p /\ p <> 0 /\ v = q / p.
  Proof.
    unfold both. intros H. apply rbind_ok in H. destruct H as (q & Q & H). apply rbind_ok in H.
    destruct H as (p & P & H). apply pydiv_inv in H. destruct H as [N ->]. exists q, p. auto.
  Qed.
  Lemma specs_draw : Forall2 draws all_curves (display_specs sol M).
  Proof.
    unfold all_curves, display_specs.
    repeat (apply Forall2_cons; [|]); [..|apply Forall2_nil];
      (split; [reflexivity|split; [reflexivity|split; [reflexivity|split; [reflexivity|split; [reflexivity|]]]]]);
      intros u k v H; cbn [ds_function] in H; unfold shown; cbn [curve_amount capacity_of power_of];
      first [exact H | exact (cop_shown _ _ _ _ _ H)].
  Qed.

  Lemma conditions_of m u cs speed c :
    plot_conditions psy m u = Ok cs -> (speed < sd_n (side_of m u))%nat -> nth_error cs speed = Some c ->
    Forall2 (fun t k => exists o, PsychState psy t 101325 [("rel_hum", 0.4)] = Ok o
      /\ make_condition psy m u speed None (Some o) = Ok k) (axis m u) c.
  Proof.
    intros H L N. unfold plot_conditions in H. apply rmapM_ok in H.
    assert (S : nth_error (seq 0 (sd_n (side_of m u))) speed = Some speed).
    { rewrite (nth_error_nth' _ 0%nat) by (rewrite seq_length; lia). rewrite seq_nth by lia. reflexivity. }
    pose proof (Forall2_nth_error _ _ _ _ _ _ H S N) as E. cbv beta in E. apply rmapM_ok in E. rewrite <- axis_eq.
    eapply Forall2_imply; [|exact E]. cbv beta. intros t k K. apply rbind_ok in K. destruct K as (o & O & K).
    exists o. split; [|exact K]. rewrite <- O.
    replace (atm (T := R)) with 101325 by (unfold atm; rnum; lra).
    replace (lit (T := R) 0.4) with 0.4 by (rnum; lra). reflexivity.
  Qed.

  Lemma curve_drawn u c d speed cs k s :
    draws c d -> plot_conditions psy (curve_mode c) u = Ok cs -> (speed < sd_n (side_of (curve_mode c) u))%nat ->
    nth_error cs speed = Some k -> plot_curve u d speed k = Ok s ->
    drawn psy sol M u c speed s /\ s_group s = legend c
    /\ exists name, speed_name (side_of (curve_mode c) u) speed = Ok name /\ s_name s = name ++ " Speed".
  Proof.
    intros (Dm & Dl & Dq & Dv & Dg & Df) C L N H.
    pose proof (conditions_of _ _ _ _ _ C L N) as F. unfold plot_curve in H. cbv zeta in H.
    destruct (quantity_units (ds_quantity d)) as [[sub un] di] eqn:Q. cbv iota beta in H.
    apply rbind_ok in H. destruct H as (vs & V & H). apply rbind_ok in H. destruct H as (name & Nm & H).
    apply Ok_inj in H. subst s. rewrite Dm in *. rewrite Dg. split; [|split; [reflexivity|exists name; auto]].
    unfold drawn. cbn [s_x s_values s_units s_display s_axis s_subplot s_line s_visible].
    apply rmapM_ok in V. split; [apply axis_eq|]. split.
    { rewrite axis_eq. clear - F V Df. revert vs V. induction F as [|t k ts ks (o & O & K) F IH]; intros vs V;
        inversion V as [|? v ? vs' Hv V']; subst; constructor; [|apply IH; exact V'].
      exists o, k. split; [exact O|]. split; [exact K|]. apply Df. exact Hv. }
    rewrite Dv, Dl, Dq. rewrite Dq in Q.
    destruct (curve_amount c); cbn in Q; injection Q as <- <- <-; destruct (curve_level c); cbn; repeat split.
  Qed.

  Lemma plot_inv u f :
    plot psy sol M u = Ok f ->
    fg_x f = (axis Heating u ++ tl (axis Cooling u))%list
    /\ exists curves, fg_series f = List.concat curves
    /\ Forall2 (fun c l => (Forall2 (drawn psy sol M u c) (seq 0 (sd_n (side_of (curve_mode c) u))) l
         /\ Forall2 (fun i s => exists name, speed_name (side_of (curve_mode c) u) i = Ok name
              /\ s_name s = name ++ " Speed") (seq 0 (sd_n (side_of (curve_mode c) u))) l)
         /\ Forall (fun s => s_group s = legend c) l) all_curves curves.
  Proof.
    intros H. unfold plot in H. apply rbind_ok in H. destruct H as (hs & Hh & H).
    apply rbind_ok in H. destruct H as (cs & Hc & H). apply rbind_ok in H. destruct H as (curves & V & H).
    apply Ok_inj in H. subst f. cbn [fg_x fg_series]. split; [rewrite !axis_eq; reflexivity|].
    exists curves. split; [reflexivity|]. apply rmapM_ok in V.
    pose proof specs_draw as D. revert curves V. induction D as [|c d rc rd Dc D IH]; intros curves V;
      inversion V as [|? l ? ls Hl V']; subst; constructor; [|apply IH; exact V'].
    clear IH V V' D rc rd ls. cbv zeta in Hl. apply rmapM_ok in Hl.
    pose proof Dc as [Dm _]. rewrite Dm in Hl.
    assert (C : plot_conditions psy (curve_mode c) u
                = Ok (match curve_mode c with Heating => hs | Cooling => cs end)) by (destruct (curve_mode c); assumption).
    remember (match curve_mode c with Heating => hs | Cooling => cs end) as ks.
    remember (seq 0 (sd_n (side_of (curve_mode c) u))) as is.
    assert (B : forall i, In i is -> (i < sd_n (side_of (curve_mode c) u))%nat).
    { subst is. intros i I. apply in_seq in I. lia. }
    clear Heqis Heqks Hh Hc. induction Hl as [|i s is l Hs Hl IH]; [repeat constructor|].
    destruct IH as [[I1 I2] I3]; [intros j J; apply B; right; exact J|].
    apply rbind_ok in Hs. destruct Hs as (k & K & Hs). apply geti_ok in K.
    destruct (curve_drawn u c d i ks k s Dc C (B i (or_introl eq_refl)) K Hs) as (X1 & X2 & X3).
    repeat split; constructor; assumption.
  Qed.

  Lemma plot_curves u f c :
    plot psy sol M u = Ok f ->
    Forall2 (drawn psy sol M u c) (seq 0 (sd_n (side_of (curve_mode c) u))) (under_legend f c).
  Proof.
    intros H. apply plot_inv in H. destruct H as (_ & curves & E & F). unfold under_legend. rewrite E.
    apply (filter_groups _ legend (fun c l => Forall2 (drawn psy sol M u c)
      (seq 0 (sd_n (side_of (curve_mode c) u))) l) all_curves); [exact legends_distinct|apply all_curves_all|].
    eapply Forall2_imply; [|exact F]. cbn. tauto.
  Qed.
  Lemma plot_complete u f s :
    plot psy sol M u = Ok f -> In s (fg_series f) -> exists c, In s (under_legend f c).
  Proof.
    intros H I. apply plot_inv in H. destruct H as (_ & curves & E & F).
    assert (X : exists c, s_group s = legend c).
    { rewrite E in I. apply in_concat in I. destruct I as (l & L & I).
      clear E. induction F as [|c l' cs ls [_ G] F IH]; [destruct L|]. destruct L as [->|L]; [|apply IH; exact L].
      rewrite Forall_forall in G. exists c. apply G. exact I. }
    destruct X as (c & X). exists c. apply filter_In. split; [exact I|]. apply String.eqb_eq. exact X.
  Qed.
  Lemma plot_names u f c :
    plot psy sol M u = Ok f ->
    Forall2 (fun i s => exists name, speed_name (side_of (curve_mode c) u) i = Ok name /\ s_name s = name ++ " Speed")
      (seq 0 (sd_n (side_of (curve_mode c) u))) (under_legend f c).
  Proof.
    intros H. apply plot_inv in H. destruct H as (_ & curves & E & F). unfold under_legend. rewrite E.
    apply (filter_groups _ legend (fun c l => Forall2 (fun i s => exists name,
      speed_name (side_of (curve_mode c) u) i = Ok name /\ s_name s = name ++ " Speed")
      (seq 0 (sd_n (side_of (curve_mode c) u))) l) all_curves); [exact legends_distinct|apply all_curves_all|].
    eapply Forall2_imply; [|exact F]. cbn. tauto.
  Qed.
End Plot.

Section Axis.
  Variable psy : psychro R.
  Variable sol : solvers R.
  Variable M : dxmodel R.

  Lemma plot_axis u f :
    plot psy sol M u = Ok f ->
    fg_x f = (axis Heating u ++ tl (axis Cooling u))%list
    /\ (StronglySorted Rlt (fg_x f) <-> u_heating_off u < deg_F 5 /\ deg_F 95 < u_cooling_off u).
  Proof.
    intros H. apply plot_inv in H. destruct H as (-> & _). split; [reflexivity|].
    cbn [axis tl List.app]. unfold deg_F. split.
    - intros S. inversion S as [|? ? S1 F1]; subst. split; [inversion F1; assumption|].
      clear F1. do 6 (apply StronglySorted_inv in S1; destruct S1 as [S1 _]).
      apply StronglySorted_inv in S1. destruct S1 as [_ F]. inversion F; assumption.
    - intros [A B]. repeat (apply SSorted_cons; [|repeat constructor; lra]). apply SSorted_nil.
  Qed.

  Lemma names_of_speeds (s : side R) names :
    regular_speeds s -> Forall2 (fun i x => speed_name s i = Ok x) (seq 0 (sd_n s)) names ->
    speed_labels (sd_n s) (sd_full s) = Some names.
  Proof.
    intros (P & L & I & B & F) N.
    assert (E : forall i, (i < sd_n s)%nat -> exists x, speed_name s i = Ok x).
    { intros i Hi. assert (X : nth_error (seq 0 (sd_n s)) i = Some i).
      { rewrite (nth_error_nth' _ 0%nat) by (rewrite seq_length; lia). rewrite seq_nth by lia. reflexivity. }
      destruct (nth_error names i) as [x|] eqn:Y.
      - exists x. exact (Forall2_nth_error _ _ _ _ _ _ N X Y).
      - apply nth_error_None in Y. apply Forall2_len in N. rewrite seq_length in N. lia. }
    unfold speed_name in N, E. cbv zeta in N, E. rewrite L, I, B in N, E.
    remember (sd_n s) as n. remember (sd_full s) as k. clear Heqn Heqk L I B.
    destruct n as [|[|[|[|[|n]]]]]; [lia| | | | |].
    - destruct k; [|lia]. inversion N as [|? x ? xs E1 N1]; subst. inversion N1; subst.
      cbn in E1. injection E1 as <-. reflexivity.
    - destruct k; [|lia]. inversion N as [|? x ? xs E1 N1]; subst. inversion N1 as [|? x' ? xs' E2 N2]; subst.
      inversion N2; subst. cbn in E1, E2. injection E1 as <-. injection E2 as <-. reflexivity.
    - destruct k as [|[|k]]; [| |lia]; inversion N as [|? x ? xs E1 N1]; subst;
        inversion N1 as [|? x' ? xs' E2 N2]; subst; inversion N2 as [|? x'' ? xs'' E3 N3]; subst;
        inversion N3; subst; cbn in E1, E2, E3; injection E1 as <-; injection E2 as <-; injection E3 as <-; reflexivity.
    - destruct k as [|[|[|k]]]; [| | |lia].
      + destruct (E 2%nat) as (x & X); [lia|]. cbn in X. discriminate.
      + inversion N as [|? x ? xs E1 N1]; subst; inversion N1 as [|? x' ? xs' E2 N2]; subst;
        inversion N2 as [|? x'' ? xs'' E3 N3]; subst; inversion N3 as [|? y ? ys E4 N4]; subst; inversion N4; subst.
        cbn in E1, E2, E3, E4. injection E1 as <-; injection E2 as <-; injection E3 as <-; injection E4 as <-. reflexivity.
      + destruct (E 1%nat) as (x & X); [lia|]. cbn in X. discriminate.
    - exfalso. cbn [Nat.eqb] in E. clear N. destruct k as [|[|k]].
      + destruct (E 2%nat) as (x & X); [lia|]. cbn in X. destruct n; discriminate.
      + destruct (E 3%nat) as (x & X); [lia|]. cbn in X. discriminate.
      + destruct (E 1%nat) as (x & X); [lia|]. cbn in X. discriminate.
  Qed.

  Lemma plot_labels u f c :
    plot psy sol M u = Ok f -> regular_speeds (side_of (curve_mode c) u) ->
    exists labels, speed_labels (sd_n (side_of (curve_mode c) u)) (sd_full (side_of (curve_mode c) u)) = Some labels
      /\ map s_name (under_legend f c) = map (fun x => x ++ " Speed") labels.
  Proof.
    intros H S. pose proof (plot_names psy sol M u f c H) as N.
    assert (X : exists names, Forall2 (fun i x => speed_name (side_of (curve_mode c) u) i = Ok x)
        (seq 0 (sd_n (side_of (curve_mode c) u))) names
      /\ map s_name (under_legend f c) = map (fun x => x ++ " Speed") names).
    { clear H S. induction N as [|i s is l (x & X & Y) N (names & IH & Z)].
      - exists []. split; [constructor|reflexivity].
      - exists (x :: names). split; [constructor; assumption|]. cbn [map]. rewrite Y, Z. reflexivity. }
    destruct X as (names & F & E). exists names. split; [apply names_of_speeds; assumption|exact E].
  Qed.
End Axis.
