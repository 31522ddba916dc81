(** A single-speed table made from ratings, with lower bounds for its cells, for the
    examples beside the rating theorems. *)
From Coq Require Import Reals QArith Lra Lia List Bool Sorted ZArith.
From Verif.Base Require Import Num Res Tac.
From Verif.Model Require Import Units Util Curves Tabular.
From Verif.Spec Require Import TabularSpec.
From Verif.Proofs Require Import UtilProofs UnitsR Lin1 TabCells TabAdd TabInterp TabBuild TabGross TabMisc TabTotal.
Import ListNotations.
Local Open Scope R_scope.

(** Adding a temperature to a table of one speed, with the value of the new cell. *)
Definition low_value (ext : bool) (lim : option R) (u1 v1 u2 v2 x : R) : R :=
  if ext then match lim with
              | Some r => Rmax (line u1 v1 u2 v2 x) (v1 * r)
              | None => line u1 v1 u2 v2 x
              end
  else v1.
Definition high_value (ext : bool) (lim : option R) (u1 v1 u2 v2 x : R) : R :=
  if ext then match lim with
              | Some r => Rmin (line u1 v1 u2 v2 x) (v2 * r)
              | None => line u1 v1 u2 v2 x
              end
  else v2.

Lemma one_below k T t l u1 u2 T' x ext lim v1 v2 : kt k 1 T t l -> full 1 T l ->
  T = u1 :: u2 :: T' -> x < u1 -> In (1%Z, u1, v1) l -> In (1%Z, u2, v2) l ->
  exists t', ex (add_temperature x ext lim) t = Ok t'
    /\ kt k 1 (x :: T) t' ((1%Z, x, low_value ext lim u1 v1 u2 v2 x) :: l)
    /\ full 1 (x :: T) ((1%Z, x, low_value ext lim u1 v1 u2 v2 x) :: l).
Proof.
  intros Kt Fu ET0 Hx I1 I2. assert (Kt' := Kt). destruct Kt' as ((W & K & N & H) & ET).
  pose proof (full_filled _ _ _ _ _ Kt Fu) as F.
  destruct (below_entry t x u1 u2 T' ext lim W F) as (t1 & E & G); [congruence|auto|].
  pose proof (proj2 (ex_ok _ _ _) E) as E'.
  assert (T1 : t_temps t1 = x :: T).
  { rewrite (add_below t u1 u2 T' x ext lim W F) in E by (congruence || auto). inversion E.
    cbn [t_temps put_row w_data w_temps]. congruence. }
  destruct (knows_add k 1 t t1 l x ext lim E' (conj W (conj K (conj N H)))) as (W1 & K1 & N1 & H1).
  exists t1. split; [exact E'|]. split.
  - split; [|exact T1]. split; [exact W1|]. split; [exact K1|]. split; [exact N1|].
    intros s y v [Q|Q]; [|auto]. inversion Q; subst s y v. split; [lia|].
    apply (G 1%Z v1 v2); [unfold valid_speed; lia| |]; apply H; assumption.
  - intros s y V [<-|Hy].
    + assert (s = 1%Z) by (cbn in V; lia). subst s. eexists. left. reflexivity.
    + destruct (Fu s y V Hy) as (v & Hv). exists v. right. exact Hv.
Qed.

Lemma one_above k T t l u1 u2 T' x ext lim v1 v2 : kt k 1 T t l -> full 1 T l ->
  T = T' ++ [u1; u2] -> u2 < x -> In (1%Z, u1, v1) l -> In (1%Z, u2, v2) l ->
  exists t', ex (add_temperature x ext lim) t = Ok t'
    /\ kt k 1 (T ++ [x]) t' ((1%Z, x, high_value ext lim u1 v1 u2 v2 x) :: l)
    /\ full 1 (T ++ [x]) ((1%Z, x, high_value ext lim u1 v1 u2 v2 x) :: l).
Proof.
  intros Kt Fu ET0 Hx I1 I2. assert (Kt' := Kt). destruct Kt' as ((W & K & N & H) & ET).
  pose proof (full_filled _ _ _ _ _ Kt Fu) as F.
  destruct (above_entry t x u1 u2 T' ext lim W F) as (t1 & E & G); [congruence|auto|].
  pose proof (proj2 (ex_ok _ _ _) E) as E'.
  assert (T1 : t_temps t1 = T ++ [x]).
  { rewrite (add_above t u1 u2 T' x ext lim W F) in E by (congruence || auto). inversion E.
    cbn [t_temps put_row w_data w_temps]. congruence. }
  destruct (knows_add k 1 t t1 l x ext lim E' (conj W (conj K (conj N H)))) as (W1 & K1 & N1 & H1).
  exists t1. split; [exact E'|]. split.
  - split; [|exact T1]. split; [exact W1|]. split; [exact K1|]. split; [exact N1|].
    intros s y v [Q|Q]; [|auto]. inversion Q; subst s y v. split; [lia|].
    apply (G 1%Z v1 v2); [unfold valid_speed; lia| |]; apply H; assumption.
  - intros s y V Hy. apply in_app_iff in Hy. destruct Hy as [Hy|[<-|[]]].
    + destruct (Fu s y V Hy) as (v & Hv). exists v. right. exact Hv.
    + assert (s = 1%Z) by (cbn in V; lia). subst s. eexists. left. reflexivity.
Qed.

Lemma line_F a v1 b v2 x : a <> b ->
  line (fr_F a) v1 (fr_F b) v2 (fr_F x) = line a v1 b v2 x.
Proof.
  intros H. unfold line, fr_F. rnum. field. lra.
Qed.

(** Every cell of a table whose cells are all listed is one of them. *)
Lemma kt_bound k T t l (P : R -> Prop) : kt k 1 T t l -> full 1 T l ->
  (forall x v, In (1%Z, x, v) l -> P v) ->
  forall x v, t_get 1 x t = Ok (Some v) -> P v.
Proof.
  intros ((W & K & N & H) & ET) F B x v G.
  assert (I : In x T) by (rewrite <- ET; eapply get_In; eauto).
  destruct (F 1%Z x ltac:(lia) I) as (v' & Hv).
  destruct (H _ _ _ Hv) as (_ & G'). rewrite G in G'.
  assert (v = v') by congruence. subst v'. exact (B _ _ Hv).
Qed.

Lemma finish_gets qc pc qh ph (p : perf R) : finish qc pc qh ph = Ok p ->
  forall s x, t_get s x (p_cc p) = t_get s x qc /\ t_get s x (p_cp p) = t_get s x pc
    /\ t_get s x (p_hc p) = t_get s x qh /\ t_get s x (p_hp p) = t_get s x ph.
Proof.
  unfold finish, make_perf. intros H. inv_ok. subst p. cbn [p_cc p_cp p_hc p_hp].
  apply ex_ok in E, E0, E1, E2. intros s x.
  split; [exact (interpolated_get _ _ E s x)|]. split; [exact (interpolated_get _ _ E0 s x)|].
  split; [exact (interpolated_get _ _ E1 s x)|exact (interpolated_get _ _ E2 s x)].
Qed.

Lemma finish_n qc pc qh ph (p : perf R) : finish qc pc qh ph = Ok p ->
  t_n (p_cc p) = t_n qc /\ t_n (p_cp p) = t_n pc /\ t_n (p_hc p) = t_n qh /\ t_n (p_hp p) = t_n ph.
Proof.
  unfold finish, make_perf. intros H. inv_ok. subst p. cbn [p_cc p_cp p_hc p_hp].
  apply ex_ok in E, E0, E1, E2.
  split; [exact (interpolated_n _ _ E)|]. split; [exact (interpolated_n _ _ E0)|].
  split; [exact (interpolated_n _ _ E1)|exact (interpolated_n _ _ E2)].
Qed.

Lemma finish_temps qc pc qh ph (p : perf R) : finish qc pc qh ph = Ok p ->
  t_temps (p_hc p) = t_temps qh /\ t_temps (p_hp p) = t_temps ph.
Proof.
  unfold finish, make_perf. intros H. inv_ok. subst p. cbn [p_cc p_cp p_hc p_hp].
  apply ex_ok in E1, E2.
  split; [destruct (interpolated_inv _ _ E1) as (g & _ & ->)|destruct (interpolated_inv _ _ E2) as (g & _ & ->)];
    reflexivity.
Qed.
(** No column between 17 F and 47 F. *)
Definition heating_columns (p : perf R) : Prop :=
  consecutive (t_temps (p_hc p)) (fr_F 17) (fr_F 47) /\ consecutive (t_temps (p_hp p)) (fr_F 17) (fr_F 47).

Definition cells_above (b : R) (p : perf R) : Prop :=
  (t_n (p_cc p) = 1 /\ t_n (p_cp p) = 1 /\ t_n (p_hc p) = 1 /\ t_n (p_hp p) = 1)%nat /\
  forall x v, (t_get 1 x (p_cc p) = Ok (Some v) \/ t_get 1 x (p_cp p) = Ok (Some v)
    \/ t_get 1 x (p_hc p) = Ok (Some v) \/ t_get 1 x (p_hp p) = Ok (Some v)) -> b < v.

(** The outdoor temperatures (F) of the columns, with bounds for the values. *)
Definition columns (p : perf R) : Prop :=
  (forall x, In x [60; 82; 95; 125] -> exists q w, cooling_capacity p 1 (fr_F x) = Ok q
     /\ cooling_power p 1 (fr_F x) = Ok w /\ 6500 < q /\ 1000 < w)
  /\ (forall x, In x [0; 5; 17; 47; 60] -> exists q w, heating_capacity p 1 (fr_F x) = Ok q
     /\ heating_power p 1 (fr_F x) = Ok w /\ 1000 < q /\ 1000 < w).

Ltac addrow :=
  match goal with
  | K : kt ?k 1 ?T ?t ?l |- context [add_temperature ?x ?e ?m] =>
      match goal with
      | |- context [ex (sbind (add_temperature x e m) _) t] => idtac
      | |- context [ex (add_temperature x e m) t] => idtac end;
      let FF := fresh "FF" in assert (FF : full 1 T l) by first [assumption | fullt];
      let t' := fresh "t" in let E := fresh "E" in let K' := fresh "K" in let F := fresh "F" in
      let low u1 u2 T' :=
        match l with context [(1%Z, u1, ?v1)] => match l with context [(1%Z, u2, ?v2)] =>
          destruct (one_below k T t l u1 u2 T' x e m v1 v2 K FF eq_refl) as (t' & E & K' & F);
            [lra|inlist|inlist|] end end in
      let high u1 u2 T' :=
        match l with context [(1%Z, u1, ?v1)] => match l with context [(1%Z, u2, ?v2)] =>
          destruct (one_above k T t l u1 u2 T' x e m v1 v2 K FF eq_refl) as (t' & E & K' & F);
            [lra|inlist|inlist|] end end in
      first
      [ match T with ?u1 :: ?u2 :: ?T' => low u1 u2 T' end
      | match T with
        | [?u1; ?u2] => high u1 u2 (@nil R)
        | [?a; ?u1; ?u2] => high u1 u2 [a]
        | [?a; ?b; ?u1; ?u2] => high u1 u2 [a; b]
        end ];
      cbn [app] in K', F; fgo E; clear FF
  end.

Lemma div_bounds a b lo hi : 0 < b -> lo * b < a < hi * b -> lo < a / b < hi.
Proof.
  intros Hb (H1 & H2).
  assert (E : a / b * b = a) by (field; lra).
  split; apply (Rmult_lt_reg_r b); lra.
Qed.

Ltac bound_cells :=
  let x := fresh "x" in let v := fresh "v" in let I := fresh "I" in
  intros x v I; cbn [In] in I;
  repeat (destruct I as [I | I]; [apply (f_equal snd) in I; cbn [snd] in I; subst v;
    unfold low_value, high_value; rewrite ?line_F by lra; unfold line; rnum;
    repeat match goal with |- context [Rmax ?a ?b] => pose proof (Rmax_l a b); pose proof (Rmax_r a b); set (Rmax a b) in * end;
    try lra|]);
  contradiction.
Ltac inchoose := cbn [In]; repeat (first [left; reflexivity | right]).

(** 10 kW cooling and heating, SEER 14, EER 12, 6.5 kW at 17 F. *)
Lemma toy_table_columns c hs : 3 <= c <= 4 ->
  exists p, make_single_speed_model_data 10000 14 12 10000 (Some 6500) hs (fr_F (lit 125)) (fr_F (lit 0))
      (Some c) (lit 0.15) = Ok p
    /\ heating_columns p /\ cells_above 1000 p /\ columns p.
Proof.
  intros Hc.
  unfold make_single_speed_model_data. cbv zeta.
  replace (fr_F (lit (T:=R) 82)) with (fr_F 82) by (f_equal; rnum; lra).
  replace (fr_F (lit (T:=R) 95)) with (fr_F 95) by (f_equal; rnum; lra).
  replace (fr_F (lit (T:=R) 17)) with (fr_F 17) by (f_equal; rnum; lra).
  replace (fr_F (lit (T:=R) 47)) with (fr_F 47) by (f_equal; rnum; lra).
  replace (fr_F (lit (T:=R) 60)) with (fr_F 60) by (f_equal; rnum; lra).
  replace (fr_F (lit (T:=R) 5)) with (fr_F 5) by (f_equal; rnum; lra).
  replace (fr_F (lit (T:=R) 125)) with (fr_F 125) by (f_equal; rnum; lra).
  replace (fr_F (lit (T:=R) 0)) with (fr_F 0) by (f_equal; rnum; lra).
  assert (PA : 1.05 < calc_biquad COOLING_CAP_FT (lit (T:=R) 67) (lit 82) < 1.1).
  { unfold calc_biquad, COOLING_CAP_FT. rnum. lra. }
  assert (PB : 1.3 < calc_biquad HEATING_EIR_FT (lit (T:=R) 70) (lit 17) < 1.4).
  { unfold calc_biquad, HEATING_EIR_FT. rnum. lra. }
  set (CA := calc_biquad COOLING_CAP_FT _ _) in *. set (CB := calc_biquad HEATING_EIR_FT _ _) in *.
  clearbody CA CB.
  assert (L1 : fr_F 82 < fr_F 95) by (apply fr_F_lt; lra).
  assert (L2 : fr_F 17 < fr_F 47) by (apply fr_F_lt; lra).
  assert (L3 : fr_F 60 < fr_F 82) by (apply fr_F_lt; lra).
  assert (L4 : fr_F 5 < fr_F 17) by (apply fr_F_lt; lra).
  assert (L5 : fr_F 47 < fr_F 60) by (apply fr_F_lt; lra).
  assert (L6 : fr_F 95 < fr_F 125) by (apply fr_F_lt; lra).
  assert (L7 : fr_F 0 < fr_F 5) by (apply fr_F_lt; lra).
  assert (Be : 3.5 < fr_Btu_Wh (T:=R) 12 < 3.52) by (unfold fr_Btu_Wh, btu_h; rnum; lra).
  set (e' := fr_Btu_Wh 12) in *. clearbody e'.
  assert (Pd : (lit 1 - lit 0.5 * lit 0.15)%num = 0.925) by (rnum; lra).
  rewrite Pd.
  assert (Bs : 4.4 < fr_Btu_Wh (T:=R) (14 / 0.925) < 4.45) by (unfold fr_Btu_Wh, btu_h; rnum; lra).
  pose proof (conj (knows_new CoolingTable 1 _ (sorted2 _ _ L1)) eq_refl : kt CoolingTable 1 [fr_F 82; fr_F 95] _ _) as KC.
  pose proof (conj (knows_new HeatingTable 1 _ (sorted2 _ _ L2)) eq_refl : kt HeatingTable 1 [fr_F 17; fr_F 47] _ _) as KH.
  rewrite (pydiv_ok (lit 1) CA) by lra. cbn [rbind].
  repeat (first [addrow | fstep]).
  match goal with |- exists p, finish ?qc ?pc ?qh ?ph = _ /\ _ =>
    destruct (tot_finish 1 1 _ _ _ _ qc pc qh ph _ _ _ _ ltac:(eassumption) ltac:(eassumption)
      ltac:(eassumption) ltac:(eassumption)) as (p & Ep); try eassumption; try discriminate; try reflexivity
  end.
  exists p. split; [exact Ep|].
  split.
  { unfold heating_columns. destruct (finish_temps _ _ _ _ _ Ep) as (-> & ->).
    split; match goal with K : kt _ _ _ ?t _ |- consecutive (t_temps ?t) _ _ => rewrite (proj2 K) end;
      exists [fr_F 0; fr_F 5], [fr_F 60]; reflexivity. }
  assert (P82 : 10500 < 10000 / (lit 1 / CA) < 11000).
  { replace (10000 / (lit 1 / CA)) with (10000 * CA) by (rnum; field; lra). lra. }
  set (q82 := 10000 / (lit 1 / CA)) in *. clearbody q82.
  assert (P95 : 2800 < 10000 / e' < 2900).
  { apply div_bounds; lra. }
  set (p95 := 10000 / e') in *. clearbody p95.
  assert (Pp82 : 2350 < q82 / fr_Btu_Wh (14 / 0.925) < 2500) by (apply div_bounds; lra).
  set (p82 := q82 / fr_Btu_Wh (14 / 0.925)) in *. clearbody p82.
  assert (P47 : 2499 < 10000 / c < 3334) by (apply div_bounds; lra).
  set (p47 := 10000 / c) in *. clearbody p47.
  assert (P17 : 0.84 * p47 < p47 * ((6500 / 10000)%R * CB)%num < 0.92 * p47) by (rnum; nra).
  set (p17 := p47 * ((6500 / 10000)%R * CB)%num) in *. clearbody p17.
  replace (10000 * (6500 / 10000)) with 6500 in * by lra.
  match type of Ep with finish ?qc ?pc ?qh ?ph = _ =>
    match goal with K1 : kt _ _ _ qc ?l1, K2 : kt _ _ _ pc ?l2, K3 : kt _ _ _ qh ?l3, K4 : kt _ _ _ ph ?l4,
        F1 : full _ _ ?l1, F2 : full _ _ ?l2, F3 : full _ _ ?l3, F4 : full _ _ ?l4 |- _ =>
      rename K1 into J1, K2 into J2, K3 into J3, K4 into J4, F1 into D1, F2 into D2, F3 into D3, F4 into D4;
      assert (Q1 : forall x' v', In (1%Z, x', v') l1 -> 6500 < v');
      [|assert (Q2 : forall x' v', In (1%Z, x', v') l2 -> 1000 < v');
      [|assert (Q3 : forall x' v', In (1%Z, x', v') l3 -> 1000 < v');
      [|assert (Q4 : forall x' v', In (1%Z, x', v') l4 -> 1000 < v');
      [|assert (C1 : forall x, In x [60; 82; 95; 125] -> exists q w, In (1%Z, fr_F x, q) l1 /\ In (1%Z, fr_F x, w) l2);
      [|assert (C2 : forall x, In x [0; 5; 17; 47; 60] -> exists q w, In (1%Z, fr_F x, q) l3 /\ In (1%Z, fr_F x, w) l4)]]]]]
    end
  end.
  1-4: clear - P82 P95 Pp82 P47 P17; bound_cells.
  1-2: intros x I; cbn [In] in I; repeat (destruct I as [<- | I]; [do 2 eexists; split; inchoose|]); contradiction.
  pose proof (kt_bound _ _ _ _ (fun v => 6500 < v) J1 D1 Q1) as B1.
  pose proof (kt_bound _ _ _ _ (fun v => 1000 < v) J2 D2 Q2) as B2.
  pose proof (kt_bound _ _ _ _ (fun v => 1000 < v) J3 D3 Q3) as B3.
  pose proof (kt_bound _ _ _ _ (fun v => 1000 < v) J4 D4 Q4) as B4.
  destruct (finish_calc _ _ _ _ _ _ _ _ _ _ _ Ep (proj1 J1) (proj1 J2) (proj1 J3) (proj1 J4)) as (HC & HP & HQ & HW).
  split; [split|split].
  - destruct (finish_n _ _ _ _ _ Ep) as (-> & -> & -> & ->).
    repeat split; match goal with K : kt _ _ _ ?t _ |- t_n ?t = _ => exact (proj1 (proj2 (proj2 (proj1 K)))) end.
  - intros x v H. destruct (finish_gets _ _ _ _ _ Ep 1%Z x) as (G1 & G2 & G3 & G4).
    rewrite G1, G2, G3, G4 in H.
    destruct H as [H | [H | [H | H]]]; [apply B1 in H; lra|exact (B2 _ _ H)|exact (B3 _ _ H)|exact (B4 _ _ H)].
  - intros x I. destruct (C1 x I) as (q & w & I1 & I2). exists q, w.
    split; [exact (HC _ _ _ I1)|]. split; [exact (HP _ _ _ I2)|]. split; [exact (Q1 _ _ I1)|exact (Q2 _ _ I2)].
  - intros x I. destruct (C2 x I) as (q & w & I1 & I2). exists q, w.
    split; [exact (HQ _ _ _ I1)|]. split; [exact (HW _ _ _ I2)|]. split; [exact (Q3 _ _ I1)|exact (Q4 _ _ I2)].
Qed.

Lemma toy_table c hs : 3 <= c <= 4 ->
  exists p, make_single_speed_model_data 10000 14 12 10000 (Some 6500) hs (fr_F (lit 125)) (fr_F (lit 0))
      (Some c) (lit 0.15) = Ok p
    /\ heating_columns p /\ cells_above 1000 p.
Proof.
  intros Hc. destruct (toy_table_columns c hs Hc) as (p & E & H & Cl & _). exists p. auto.
Qed.
