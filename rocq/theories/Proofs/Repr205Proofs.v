(** C54, C63: layout of the ASHRAE 205 export. *)
From Coq Require Import QArith Reals Lra Psatz Lia List Bool String Sorting.
From Verif.Base Require Import Num Res Tac.
From Verif.Model Require Import Units Util Psychrometrics Conditions Defrost Fan Tabular
  Unit DXUnit Repr205.
From Verif.Spec Require Import FanSpec IdfSpec Repr205Spec.
From Verif.Proofs Require Import UnitsR MakeCond FanProofs3.
Import ListNotations.
Local Open Scope R_scope.

(** * Loops *)

Lemma rloop_grid {A B} (f : A -> res (list B)) k (P : A -> nat -> B -> Prop) : forall l out,
  rloop f l = Ok out ->
  (forall x row, In x l -> f x = Ok row -> List.length row = k /\
     forall j, (j < k)%nat -> exists b, nth_error row j = Some b /\ P x j b) ->
  List.length out = (List.length l * k)%nat /\
  forall i x j, nth_error l i = Some x -> (j < k)%nat ->
    exists b, nth_error out (i * k + j) = Some b /\ P x j b.
Proof.
  unfold rloop. induction l as [| a l IH]; intros out E H.
  - cbn [rmapM rbind List.concat] in E. apply Ok_inj in E. subst out.
    split; [reflexivity |]. intros [|] x j N; discriminate N.
  - cbn [rmapM] in E. apply rbind_ok in E. destruct E as (rows & E & Eo).
    apply rbind_ok in E. destruct E as (row & Er & E).
    apply rbind_ok in E. destruct E as (rest & Es & E).
    apply Ok_inj in E. subst rows. apply Ok_inj in Eo. subst out. cbn [List.concat].
    destruct (H a row (or_introl eq_refl) Er) as [L Q].
    destruct (IH (List.concat rest)) as [L' Q'].
    { rewrite Es. reflexivity. }
    { intros x r I. apply H. right. exact I. }
    split.
    + rewrite app_length, L, L'. reflexivity.
    + intros [| i] x j N J; cbn [nth_error] in N.
      * injection N as <-. destruct (Q j J) as (b & Nb & Pb). exists b. split; [| exact Pb].
        rewrite nth_error_app1 by lia. exact Nb.
      * destruct (Q' i x j N J) as (b & Nb & Pb). exists b. split; [| exact Pb].
        rewrite nth_error_app2 by lia.
        replace (S i * k + j - List.length row)%nat with (i * k + j)%nat by lia. exact Nb.
Qed.

(** A lookup array built by nested loops, innermost last. *)
Definition holds {B} (dims : list nat) (out : list B) (P : list nat -> B -> Prop) : Prop :=
  fills dims out /\
  forall index, Forall2 lt index dims -> exists b, value_at dims index out = Some b /\ P index b.

Lemma position_lt : forall dims index, Forall2 lt index dims ->
  exists p, position dims index = Some p /\ (p < fold_right Nat.mul 1 dims)%nat.
Proof.
  induction dims as [| d dims IH]; intros index F; inversion F; subst.
  - exists 0%nat. split; [reflexivity | cbn; lia].
  - destruct (IH _ H3) as (p & E & L). cbn [position].
    rewrite (proj2 (Nat.ltb_lt _ _) H2), E. cbn [option_map].
    eexists. split; [reflexivity |]. cbn [fold_right]. nia.
Qed.

Lemma rloop_holds {A B} (f : A -> res (list B)) dims l out (P : A -> list nat -> B -> Prop) :
  rloop f l = Ok out ->
  (forall x row, In x l -> f x = Ok row -> holds dims row (P x)) ->
  holds (List.length l :: dims) out
    (fun index b => match index with
                    | i :: index' => exists x, nth_error l i = Some x /\ P x index' b
                    | [] => False
                    end).
Proof.
  intros E H.
  destruct (rloop_grid f (fold_right Nat.mul 1%nat dims)
    (fun x j b => forall index, Forall2 lt index dims -> position dims index = Some j ->
       P x index b) l out E) as [L Q].
  { intros x row I Er. destruct (H x row I Er) as [Fi Va]. split; [exact Fi |].
    intros j J. destruct (nth_error row j) as [b |] eqn:N.
    - exists b. split; [reflexivity |]. intros index F Po.
      destruct (Va index F) as (b' & V & Pb). unfold value_at in V. rewrite Po, N in V.
      injection V as ->. exact Pb.
    - apply nth_error_None in N. unfold fills in Fi. lia. }
  split; [exact L |].
  intros index F. destruct index as [| i index]; inversion F; subst.
  destruct (nth_error l i) as [x |] eqn:N.
  - destruct (position_lt dims index H5) as (p & Po & Lp).
    destruct (Q i x p N Lp) as (b & Nb & Pb). exists b. split.
    + unfold value_at. cbn [position]. rewrite (proj2 (Nat.ltb_lt _ _) H3), Po.
      cbn [option_map]. exact Nb.
    + exists x. split; [reflexivity |]. apply Pb; assumption.
  - apply nth_error_None in N. lia.
Qed.

Lemma holds_one {B} (b : B) (P : list nat -> B -> Prop) : P [] b -> holds [] [b] P.
Proof.
  intros H. split; [reflexivity |]. intros index F. inversion F; subst.
  exists b. split; [reflexivity | exact H].
Qed.

Lemma holds_weaken {B} dims (out : list B) (P Q : list nat -> B -> Prop) :
  (forall i b, P i b -> Q i b) -> holds dims out P -> holds dims out Q.
Proof.
  intros W [F V]. split; [exact F |]. intros index L. destruct (V index L) as (b & E & H).
  exists b. split; [exact E | apply W, H].
Qed.

Lemma holds_map {B C} (g : B -> C) dims out (P : list nat -> B -> Prop) index b :
  holds dims out P -> value_at dims index out = Some b ->
  value_at dims index (map g out) = Some (g b).
Proof.
  intros _ V. unfold value_at in *. destruct (position dims index); [| discriminate].
  rewrite nth_error_map, V. reflexivity.
Qed.

Section Cooling.
  Context {T : Type} {NT : Num T} {NX : NumX T}.
  Variable psy : psychro T.
  Variable sol : solvers T.
  Variable M : dxmodel T.

  Definition performs_205 (u : dxunit T) (c : cond T) (r : T * T * T) : Prop :=
    gross_total_cooling_capacity M u (Some c) = Ok (fst (fst r)) /\
    gross_sensible_cooling_capacity M u (Some c) = Ok (snd (fst r)) /\
    gross_cooling_power M u (Some c) = Ok (snd r).

  Definition at_point (u : dxunit T) t_o rh t_i md s p (r : T * T * T) : Prop :=
    exists o i c0 c,
      PsychState psy t_o p [("rel_hum"%string, lit 0.4)] = Ok o /\
      PsychState psy t_i p [("rel_hum"%string, rh)] = Ok i /\
      make_condition psy Cooling u s (Some i) (Some o) = Ok c0 /\
      ex (set_mass_airflow psy md) c0 = Ok c /\ performs_205 u c r.

  Lemma point_inv u t_o rh t_i md s p row :
    point_205 psy M u t_o rh t_i md s p = Ok row ->
    exists r, row = [r] /\ at_point u t_o rh t_i md s p r.
  Proof.
    unfold point_205. intros E.
    apply rbind_ok in E. destruct E as (o & Eo & E).
    apply rbind_ok in E. destruct E as (i & Ei & E).
    apply rbind_ok in E. destruct E as (c0 & E0 & E).
    apply rbind_ok in E. destruct E as (c & Ec & E).
    apply rbind_ok in E. destruct E as (q & Eq & E).
    apply rbind_ok in E. destruct E as (se & Es & E).
    apply rbind_ok in E. destruct E as (w & Ew & E).
    apply Ok_inj in E. exists (q, se, w). split; [symmetry; exact E |].
    exists o, i, c0, c. repeat (split; [assumption |]). repeat split; assumption.
  Qed.

  Lemma cooling_map_layout u m : cooling_205 psy M u = Ok m ->
    g_sequence m = seq 1 (sd_n (u_c u)) /\
    fills (cooling_dims m) (l_total m) /\ fills (cooling_dims m) (l_sensible m) /\
    fills (cooling_dims m) (l_power m) /\ fills (cooling_dims m) (l_state m) /\
    forall i1 i2 i3 i4 i5 i6 t_o rh t_i m_dot k p,
      nth_error (g_outdoor m) i1 = Some t_o -> nth_error (g_humidity m) i2 = Some rh ->
      nth_error (g_indoor m) i3 = Some t_i -> nth_error (g_flow m) i4 = Some m_dot ->
      nth_error (g_sequence m) i5 = Some k -> nth_error (g_pressure m) i6 = Some p ->
      let entry {A} (l : list A) := value_at (cooling_dims m) [i1; i2; i3; i4; i5; i6] l in
      exists c q s w,
        grid_condition psy u t_o rh t_i m_dot k p c /\
        gross_total_cooling_capacity M u (Some c) = Ok q /\ entry (l_total m) = Some q /\
        gross_sensible_cooling_capacity M u (Some c) = Ok s /\ entry (l_sensible m) = Some s /\
        gross_cooling_power M u (Some c) = Ok w /\ entry (l_power m) = Some w /\
        entry (l_state m) = Some "NORMAL"%string.
  Proof.
    unfold cooling_205. intros E.
    apply rbind_ok in E. destruct E as (ql & El & E).
    apply rbind_ok in E. destruct E as (rho & Er & E).
    apply rbind_ok in E. destruct E as (qf & Ef & E).
    apply rbind_ok in E. destruct E as (rows & Ew & E).
    apply Ok_inj in E. subst m.
    cbn [g_sequence g_outdoor g_humidity g_indoor g_flow g_pressure l_total l_sensible l_power
         l_state cooling_dims].
    set (A1 := linspace (fr_F (lit 55)) _ 4) in *.
    set (A2 := linspace (lit 0) _ 4) in *.
    set (A3 := linspace (fr_F (lit 65)) _ 4) in *.
    set (A4 := linspace (fr_cfm_per_ton (lit 280) * ql * rho)%num _ 4) in *.
    set (A5 := seq 1 (sd_n (u_c u))) in *.
    set (A6 := linspace (lit 57226.508) _ 4) in *.
    pose proof (rloop_holds _ [List.length A2; List.length A3; List.length A4;
        List.length (map (fun k => sd_n (u_c u) - k)%nat A5); List.length A6] A1 rows
      (fun t_o index r => match index with
        | [i2; i3; i4; i5; i6] => exists rh t_i md s p,
            nth_error A2 i2 = Some rh /\ nth_error A3 i3 = Some t_i /\
            nth_error A4 i4 = Some md /\
            nth_error (map (fun k => sd_n (u_c u) - k)%nat A5) i5 = Some s /\
            nth_error A6 i6 = Some p /\
            at_point u t_o rh t_i md s p r
        | _ => False end) Ew) as H.
    assert (H' : holds [List.length A1; List.length A2; List.length A3; List.length A4;
        List.length (map (fun k => sd_n (u_c u) - k)%nat A5); List.length A6] rows
      (fun index r => match index with
        | [i1; i2; i3; i4; i5; i6] => exists t_o rh t_i md s p,
            nth_error A1 i1 = Some t_o /\
            nth_error A2 i2 = Some rh /\ nth_error A3 i3 = Some t_i /\
            nth_error A4 i4 = Some md /\
            nth_error (map (fun k => sd_n (u_c u) - k)%nat A5) i5 = Some s /\
            nth_error A6 i6 = Some p /\
            at_point u t_o rh t_i md s p r
        | _ => False end)).
    { eapply holds_weaken; [| apply H].
      - intros [| i1 [| i2 [| i3 [| i4 [| i5 [| i6 [|]]]]]]] r Hr; cbv beta iota in Hr;
          try contradiction; destruct Hr as (t_o & N & Hr); try contradiction.
        destruct Hr as (rh & t_i & md & s & p & Hr). exists t_o, rh, t_i, md, s, p.
        split; [exact N | exact Hr].
      - clear H Ew. intros t_o row1 _ E1.
        eapply holds_weaken; [| eapply (rloop_holds _ _ A2 row1
          (fun rh index r => match index with
            | [i3; i4; i5; i6] => exists t_i md s p,
                nth_error A3 i3 = Some t_i /\
                nth_error A4 i4 = Some md /\
                nth_error (map (fun k => sd_n (u_c u) - k)%nat A5) i5 = Some s /\
                nth_error A6 i6 = Some p /\ at_point u t_o rh t_i md s p r
            | _ => False end) E1)].
        { intros [| i2 [| i3 [| i4 [| i5 [| i6 [|]]]]]] r Hr; cbv beta iota in Hr;
            try contradiction; destruct Hr as (rh & N & Hr); try contradiction.
          destruct Hr as (t_i & md & s & p & Hr). exists rh, t_i, md, s, p.
          split; [exact N | exact Hr]. }
        clear E1 row1. intros rh row _ E1.
        eapply holds_weaken; [| eapply (rloop_holds _ _ A3 row
          (fun t_i index r => match index with
            | [i4; i5; i6] => exists md s p,
                nth_error A4 i4 = Some md /\
                nth_error (map (fun k => sd_n (u_c u) - k)%nat A5) i5 = Some s /\
                nth_error A6 i6 = Some p /\ at_point u t_o rh t_i md s p r
            | _ => False end) E1)].
        { intros [| i3 [| i4 [| i5 [| i6 [|]]]]] r Hr; cbv beta iota in Hr;
            try contradiction; destruct Hr as (t_i & N & Hr); try contradiction.
          destruct Hr as (md & s & p & Hr). exists t_i, md, s, p.
          split; [exact N | exact Hr]. }
        clear E1 row. intros t_i row _ E1.
        eapply holds_weaken; [| eapply (rloop_holds _ _ A4 row
          (fun md index r => match index with
            | [i5; i6] => exists s p,
                nth_error (map (fun k => sd_n (u_c u) - k)%nat A5) i5 = Some s /\
                nth_error A6 i6 = Some p /\ at_point u t_o rh t_i md s p r
            | _ => False end) E1)].
        { intros [| i4 [| i5 [| i6 [|]]]] r Hr; cbv beta iota in Hr;
            try contradiction; destruct Hr as (md & N & Hr); try contradiction.
          destruct Hr as (s & p & Hr). exists md, s, p.
          split; [exact N | exact Hr]. }
        clear E1 row. intros md row _ E1.
        eapply holds_weaken; [| eapply (rloop_holds _ _ _ row
          (fun s index r => match index with
            | [i6] => exists p, nth_error A6 i6 = Some p /\ at_point u t_o rh t_i md s p r
            | _ => False end) E1)].
        { intros [| i5 [| i6 [|]]] r Hr; cbv beta iota in Hr;
            try contradiction; destruct Hr as (s & N & Hr); try contradiction.
          destruct Hr as (p & Hr). exists s, p.
          split; [exact N | exact Hr]. }
        clear E1 row. intros s row _ E1.
        eapply holds_weaken; [| eapply (rloop_holds _ _ A6 row
          (fun p index r => match index with
            | [] => at_point u t_o rh t_i md s p r
            | _ => False end) E1)].
        { intros [| i6 [|]] r Hr; cbv beta iota in Hr;
            try contradiction; destruct Hr as (p & N & Hr); try contradiction.
          exists p. split; [exact N | exact Hr]. }
        clear E1 row. intros p row _ E1.
        apply point_inv in E1. destruct E1 as (r & -> & Hr).
        apply holds_one. exact Hr. }
    rewrite map_length in H'.
    assert (Fm : forall {B} (g : T * T * T -> B),
      fills [List.length A1; List.length A2; List.length A3; List.length A4; List.length A5;
             List.length A6] (map g rows)).
    { intros B g. unfold fills. rewrite map_length. exact (proj1 H'). }
    split; [reflexivity |]. do 4 (split; [apply Fm |]).
    intros i1 i2 i3 i4 i5 i6 t_o rh t_i md k p N1 N2 N3 N4 N5 N6.
    assert (Lt : Forall2 lt [i1; i2; i3; i4; i5; i6] [List.length A1; List.length A2;
      List.length A3; List.length A4; List.length A5; List.length A6]).
    { repeat (apply Forall2_cons; [apply nth_error_Some; congruence |]). apply Forall2_nil. }
    destruct (proj2 H' _ Lt) as (r & V & t_o' & rh' & t_i' & md' & s' & p' & M1 & M2 & M3 & M4
      & M5 & M6 & o & i & c0 & c & Eo & Ei & E0 & Ec & P1 & P2 & P3).
    rewrite N1 in M1. injection M1 as <-. rewrite N2 in M2. injection M2 as <-.
    rewrite N3 in M3. injection M3 as <-. rewrite N4 in M4. injection M4 as <-.
    rewrite N6 in M6. injection M6 as <-. rewrite nth_error_map, N5 in M5. injection M5 as <-.
    exists c, (fst (fst r)), (snd (fst r)), (snd r).
    split; [exists o, i, c0; auto |].
    unfold cooling_dims. cbn [g_sequence g_outdoor g_humidity g_indoor g_flow g_pressure].
    rewrite (holds_map (fun r => fst (fst r)) _ _ _ _ _ H' V),
      (holds_map (fun r => snd (fst r)) _ _ _ _ _ H' V), (holds_map snd _ _ _ _ _ H' V),
      (holds_map (fun _ => "NORMAL"%string) _ _ _ _ _ H' V).
    repeat split; assumption.
  Qed.
End Cooling.
