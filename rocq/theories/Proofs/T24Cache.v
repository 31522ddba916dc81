(** The heating data cached by the Title 24 model does not change what the heating
    methods return when there is one heating speed (C57). *)
From Coq Require Import Reals QArith Lra Lia List Bool String.
From Verif.Base Require Import Num Res Tac.
From Verif.Model Require Import Units Psychrometrics Conditions Defrost Fan Tabular Unit
  NREL Title24.
From Verif.Spec Require Import NrelSpec ModelSpec.
Import ListNotations.
Local Open Scope nat_scope.

Lemma sbind_eq {S A B} (m : st S A) (k : A -> st S B) s :
  sbind m k s = match m s with (s', Ok a) => k a s' | (s', Err e) => (s', Err e) end.
Proof. reflexivity. Qed.

Section Cache.
  Variable sol : solvers R.
  Variable u : dxunit R.
  Notation D := (t24 R).
  Notation n := (sd_n (u_h u)).

  (** What the cache of a capacity holds. *)
  Definition v17 (i : nat) : res R :=
    match kwarg_entry "cap17" u i with
    | Some r => r
    | None =>
        let! cap47 := geti (sd_net_cap (u_h u)) i in
        let! hspf := need TypeError (u_hspf u) in
        Ok (cap17_ratio_rated hspf * cap47)%num
    end.
  Definition p17 (i : nat) : res R := if i <? n then v17 i else Err IndexError.
  Definition v35 (i : nat) : res R :=
    match kwarg_entry "cap35" u i with
    | Some r => r
    | None =>
        let! cap47 := geti (sd_net_cap (u_h u)) i in
        let! cap17 := p17 i in
        let x := (cap17 + lit 0.6 * (cap47 - cap17))%num in
        Ok (if has_defrost u then x * lit 0.9 else x)%num
    end.
  Definition p35 (i : nat) : res R := if i <? n then v35 i else Err IndexError.

  Definition holds (o : option (list (option R))) (v : nat -> res R) : Prop :=
    match o with
    | None => True
    | Some l => List.length l = n /\ forall i x, nth_error l i = Some (Some x) -> v i = Ok x
    end.
  Definition capok (d : D) : Prop := holds (t_cap17 d) v17 /\ holds (t_cap35 d) v35.
  Definition samecops (d d' : D) : Prop :=
    t_cop17 d = t_cop17 d' /\ t_cop35 d = t_cop35 d'.

  Definition grows (d d' : D) : Prop :=
    (t_cap17 d <> None -> t_cap17 d' <> None) /\ (t_cap35 d <> None -> t_cap35 d' <> None).

  (** Returns [r] whatever is cached; the caches stay correct. *)
  Definition pureop {A} (m : st D A) (r : res A) : Prop :=
    forall d, capok d -> exists d', m d = (d', r) /\ capok d' /\ samecops d' d /\ grows d d'.

  Lemma pure_lift {A} (r : res A) : pureop (slift r) r.
  Proof. intros d H. exists d. unfold samecops, grows. auto. Qed.
  Lemma pure_ret {A} (a : A) : pureop (sret a) (Ok a).
  Proof. intros d H. exists d. unfold samecops, grows. auto. Qed.
  Lemma pure_bind {A B} (m : st D A) (k : A -> st D B) r f :
    pureop m r -> (forall a, r = Ok a -> pureop (k a) (f a)) ->
    pureop (sbind m k) (rbind r f).
  Proof.
    intros Hm Hk d Hd. destruct (Hm d Hd) as (d1 & E & H1 & [H2 H3] & [G1 G2]).
    rewrite sbind_eq, E. destruct r as [a|e]; cbn [rbind].
    - destruct (Hk a eq_refl d1 H1) as (d2 & E2 & H4 & [H5 H6] & [G3 G4]).
      exists d2. unfold samecops, grows. intuition congruence.
    - exists d1. unfold samecops, grows. intuition congruence.
  Qed.

  Lemma holds_upd l v i x :
    holds (Some l) v -> v i = Ok x -> holds (Some (upd l i (Some x))) v.
  Proof.
    intros [H1 H2] Hv. split; [rewrite upd_length; auto|].
    intros j y Hj. destruct (Nat.eq_dec i j) as [<-|Hn].
    - destruct (Nat.lt_ge_cases i (List.length l)) as [Hl|Hl].
      + rewrite upd_same in Hj by auto. congruence.
      + assert (nth_error (upd l i (Some x)) i = None)
          by (apply nth_error_None; rewrite upd_length; auto). congruence.
    - rewrite upd_other in Hj by auto. auto.
  Qed.

  Lemma holds_blank v : holds (Some (repeat None n)) v.
  Proof.
    split; [apply repeat_length|]. intros i x H.
    apply nth_error_In, repeat_spec in H. discriminate.
  Qed.

  Definition cached (get : D -> option (list (option R)))
      (set : option (list (option R)) -> D -> D) (i : nat) (comp : st D R) : st D R :=
    init_key get set n ;;;
    do o <- read_key get i ;;
    match o with
    | Some v => sret v
    | None => do v <- comp ;; write_key get set i v ;;; sret v
    end.

  Lemma cached_pure get set v i comp :
    (forall d, capok d -> holds (get d) v) ->
    (forall o d, get (set o d) = o) ->
    (forall o d, capok d -> holds o v -> o <> None ->
       capok (set o d) /\ samecops (set o d) d /\ grows d (set o d)) ->
    (forall d d', grows d d' -> get d <> None -> get d' <> None) ->
    pureop comp (v i) ->
    pureop (cached get set i comp) (if i <? n then v i else Err IndexError).
  Proof.
    intros Hh Hgs Hset Hgrow Hcomp d Hd. unfold cached.
    set (d1 := match get d with Some _ => d | None => set (Some (repeat None n)) d end).
    assert (H1 : capok d1 /\ samecops d1 d /\ grows d d1 /\ exists l, get d1 = Some l).
    { unfold d1. destruct (get d) as [l|] eqn:E.
      - unfold samecops, grows. eauto 10.
      - destruct (Hset (Some (repeat None n)) d Hd (holds_blank v)) as (A & B & C);
          [discriminate|]. rewrite Hgs. eauto 10. }
    destruct H1 as (C1 & [S1 S2] & [G1 G2] & l & El).
    rewrite sbind_eq. unfold init_key, smod. fold d1.
    rewrite sbind_eq. unfold read_key, sread. rewrite El. cbn [need rbind].
    pose proof (Hh d1 C1) as Hl. rewrite El in Hl. destruct Hl as [Hlen Hl].
    unfold geti. destruct (nth_error l i) as [[x|]|] eqn:En; cbn [need]; cbv beta iota.
    - assert (i < n) by (rewrite <- Hlen; apply nth_error_Some; congruence).
      destruct (Nat.ltb_spec i n); [|lia]. exists d1. rewrite (Hl i x En).
      unfold samecops, grows. auto 10.
    - assert (i < n) by (rewrite <- Hlen; apply nth_error_Some; congruence).
      destruct (Nat.ltb_spec i n); [|lia].
      destruct (Hcomp d1 C1) as (d2 & E2 & C2 & [S3 S4] & [G3 G4]).
      rewrite sbind_eq, E2. destruct (v i) as [x|e] eqn:Ev.
      + destruct (get d2) as [l2|] eqn:El2.
        2: { exfalso. refine (Hgrow d1 d2 (conj G3 G4) _ El2). congruence. }
        pose proof (Hh d2 C2) as Hl2. rewrite El2 in Hl2. pose proof Hl2 as [Hlen2 _].
        rewrite sbind_eq. unfold write_key. rewrite sbind_eq. unfold sread.
        rewrite El2. cbn [need rbind]. unfold seti.
        destruct (Nat.ltb_spec i (List.length l2)); [|lia].
        destruct (Hset (Some (upd l2 i (Some x))) d2 C2) as (C3 & [S5 S6] & [G5 G6]).
        { apply holds_upd; auto. }
        { discriminate. }
        eexists. split; [reflexivity|].
        unfold samecops, grows. intuition congruence.
      + exists d2. unfold samecops, grows. intuition congruence.
    - assert (n <= i) by (rewrite <- Hlen; apply nth_error_None; auto).
      destruct (Nat.ltb_spec i n); [lia|]. exists d1. unfold samecops, grows. auto 10.
  Qed.

  Lemma get_cap17_pure c : pureop (get_cap17 u c) (p17 (c_speed c)).
  Proof.
    change (get_cap17 u c) with (cached t_cap17 wt_cap17 (c_speed c) (slift (v17 (c_speed c)))).
    apply cached_pure.
    - intros d [H _]; auto.
    - reflexivity.
    - intros o d [H1 H2] Ho Hn. unfold capok, samecops, grows. simpl. auto.
    - intros d d' [H _]; auto.
    - apply pure_lift.
  Qed.

  Lemma get_cap35_pure c : pureop (get_cap35 u c) (p35 (c_speed c)).
  Proof.
    change (get_cap35 u c) with (cached t_cap35 wt_cap35 (c_speed c)
      match kwarg_entry "cap35" u (c_speed c) with
      | Some r => slift r
      | None =>
          do cap47 <- slift (geti (sd_net_cap (u_h u)) (c_speed c)) ;;
          do cap17 <- get_cap17 u c ;;
          let x := (cap17 + lit 0.6 * (cap47 - cap17))%num in
          sret (if has_defrost u then x * lit 0.9 else x)%num
      end).
    apply cached_pure.
    - intros d [_ H]; auto.
    - reflexivity.
    - intros o d [H1 H2] Ho Hn. unfold capok, samecops, grows. simpl. auto.
    - intros d d' [_ H]; auto.
    - unfold v35. destruct (kwarg_entry "cap35" u (c_speed c)); [apply pure_lift|].
      apply pure_bind; [apply pure_lift|]. intros cap47 _.
      apply pure_bind; [apply get_cap17_pure|]. intros cap17 _. apply pure_ret.
  Qed.

  (** ** Two runs from caches that agree on the COPs *)
  Definition rel (d1 d2 : D) : Prop := capok d1 /\ capok d2 /\ samecops d1 d2.
  Definition resp {A} (m : st D A) : Prop :=
    forall d1 d2, rel d1 d2 ->
      rel (fst (m d1)) (fst (m d2)) /\ snd (m d1) = snd (m d2)
      /\ t_cop17 (fst (m d1)) = t_cop17 d1
      /\ (t_cop35 d1 <> None -> t_cop35 (fst (m d1)) <> None).

  Lemma pure_resp {A} (m : st D A) r : pureop m r -> resp m.
  Proof.
    intros H d1 d2 (H1 & H2 & H3 & H4).
    destruct (H d1 H1) as (d1' & E1 & C1 & [S1 S2] & _).
    destruct (H d2 H2) as (d2' & E2 & C2 & [S3 S4] & _).
    rewrite E1, E2. unfold rel, samecops. simpl. intuition congruence.
  Qed.
  Lemma resp_bind {A B} (m : st D A) (k : A -> st D B) :
    resp m -> (forall a, resp (k a)) -> resp (sbind m k).
  Proof.
    intros Hm Hk d1 d2 H. destruct (Hm d1 d2 H) as (H1 & H2 & H3 & H3').
    rewrite !sbind_eq.
    destruct (m d1) as [e1 r1], (m d2) as [e2 r2]. simpl in H1, H2, H3, H3'. subst r2.
    destruct r1 as [a|e]; [|simpl; auto].
    destruct (Hk a e1 e2 H1) as (H4 & H5 & H6 & H7). intuition congruence.
  Qed.
  Lemma resp_lift {A} (r : res A) : resp (slift r).
  Proof. eapply pure_resp, pure_lift. Qed.
  Lemma resp_ret {A} (a : A) : resp (sret a).
  Proof. eapply pure_resp, pure_ret. Qed.
  Lemma resp_write35 i v : resp (write_key t_cop35 wt_cop35 i v).
  Proof.
    intros d1 d2 (H1 & H2 & H3 & H4). unfold write_key. rewrite !sbind_eq. unfold sread.
    rewrite H4. destruct (rbind _ _); unfold rel, samecops, capok in *; simpl;
      intuition (congruence || discriminate).
  Qed.

  Ltac resp_go := repeat first
    [ apply resp_lift | apply resp_ret | apply resp_write35
    | eapply pure_resp, get_cap35_pure | eapply pure_resp, get_cap17_pure
    | match goal with |- resp (match ?x with _ => _ end) => destruct x end
    | apply resp_bind; [|intros]; cbv zeta ].

  Lemma check_hspf_resp c x : resp (check_hspf u c x).
  Proof.
    unfold check_hspf. cbv zeta. resp_go.
  Qed.

  Lemma prober_resp (f : R -> st D R) (p : prober R) :
    (forall x, resp (f x)) -> resp (run_prober f p).
  Proof.
    intros Hf. induction p as [x|e|x k IH]; simpl.
    - apply resp_ret.
    - apply resp_lift.
    - apply resp_bind; auto.
  Qed.

  Definition solve (c : cond R) : st D R :=
    run_prober (fun cop17 =>
              do h <- check_hspf u c cop17 ;;
              do target <- slift (need TypeError (u_hspf u)) ;;
              sret (h - target)%num) (newton sol (lit 3)).
  Lemma solve_resp c : resp (solve c).
  Proof. apply prober_resp. intros x. resp_go. Qed.

  (** ** One heating speed *)
  Hypothesis one : n = 1.

  Definition blanked (d : D) : D :=
    match t_cop17 d with
    | Some _ => d
    | None => wt_cop17 (Some [None]) (wt_cop35 (Some [None]) d)
    end.

  Lemma calc_eq c d : t_cop17 d = None -> t_cop35 d = None ->
    calculate_cops sol u c d
    = sbind (solve c) (fun x => write_key t_cop17 wt_cop17 (c_speed c) x)
        (wt_cop17 (Some [None]) (wt_cop35 (Some [None]) d)).
  Proof.
    intros H1 H2. unfold calculate_cops. rewrite one. rewrite sbind_eq.
    unfold init_key, smod. rewrite H2. rewrite sbind_eq. simpl t_cop17. rewrite H1.
    reflexivity.
  Qed.

  Definition d0 : D := wt_cop17 (Some [None]) (wt_cop35 (Some [None]) blank_t24).
  Lemma capok_d0 : capok d0.
  Proof. split; exact I. Qed.

  (** The outcome of solving for the COP at 17 F starting from nothing. *)
  Definition c0 : cond R := OperatingConditions (blank 0%R 0%R) (blank 0%R 0%R) 0 None None.
  Definition r0 : res R := snd (solve c0 d0).
  Definition k0 : D := fst (solve c0 d0).

  Lemma solve_speed c : c_speed c = 0 -> solve c = solve c0.
  Proof.
    intros H. unfold solve, check_hspf, get_cap35, get_cap17. rewrite H. reflexivity.
  Qed.

  (** The COP entries of the cache. *)
  Definition inv (d : D) : Prop :=
    capok d
    /\ (t_cop17 d = None /\ t_cop35 d = None
        \/ t_cop17 d = Some [match r0 with Ok x => Some x | Err _ => None end]
           /\ t_cop35 d = t_cop35 k0).

  Lemma solve_run c d :
    c_speed c = 0 -> capok d -> t_cop17 d = Some [None] -> t_cop35 d = Some [None] ->
    exists d', solve c d = (d', r0) /\ capok d' /\ t_cop17 d' = Some [None]
               /\ t_cop35 d' = t_cop35 k0.
  Proof.
    intros Hs H1 H2 H3. rewrite (solve_speed c Hs).
    destruct (solve_resp c0 d d0) as ((C1 & C2 & S1 & S2) & E & E17 & _).
    { split; [auto|]. split; [exact capok_d0|]. split; auto. }
    destruct (solve c0 d) as [d' r'] eqn:Ed. simpl in *.
    exists d'. unfold r0. unfold k0. intuition congruence.
  Qed.

  Lemma solve_k0_17 : t_cop17 k0 = Some [None].
  Proof.
    destruct (solve_run c0 d0 eq_refl capok_d0 eq_refl eq_refl) as (d' & E & _ & H & _).
    unfold k0. rewrite E. auto.
  Qed.

  Lemma calc_run c d : c_speed c = 0 -> capok d -> t_cop17 d = None -> t_cop35 d = None ->
    exists d', calculate_cops sol u c d = (d', rbind r0 (fun _ => Ok tt))
      /\ capok d'
      /\ t_cop17 d' = Some [match r0 with Ok x => Some x | Err _ => None end]
      /\ t_cop35 d' = t_cop35 k0.
  Proof.
    intros Hs Hd H17 H35. rewrite calc_eq by auto. rewrite sbind_eq.
    destruct (solve_run c (wt_cop17 (Some [None]) (wt_cop35 (Some [None]) d)) Hs)
      as (d' & E & C & E17 & E35); auto.
    rewrite E. destruct r0 as [x|e]; cbn [rbind].
    - unfold write_key. rewrite sbind_eq. unfold sread. rewrite E17, Hs.
      cbn [need rbind seti List.length Nat.ltb Nat.leb upd].
      eexists. split; [reflexivity|]. simpl. auto.
    - exists d'. auto.
  Qed.

  Definition keeps {A} (m : st D A) (P : res A -> Prop) : Prop :=
    forall d, inv d -> inv (fst (m d)) /\ P (snd (m d)).

  Lemma keeps_bind {A B} (m : st D A) (k : A -> st D B)
      (P : res A -> Prop) (Q : res B -> Prop) :
    keeps m P -> (forall e, P (Err e) -> Q (Err e)) ->
    (forall a, P (Ok a) -> keeps (k a) Q) -> keeps (sbind m k) Q.
  Proof.
    intros Hm He Hk d Hd. destruct (Hm d Hd) as [H1 H2]. rewrite sbind_eq.
    destruct (m d) as [d' [a|e]]; simpl in *.
    - apply (Hk a H2 d' H1).
    - auto.
  Qed.
  Lemma keeps_pure {A} (m : st D A) r : pureop m r -> keeps m (eq r).
  Proof.
    intros H d [H1 H2]. destruct (H d H1) as (d' & E & C & [S1 S2] & _).
    rewrite E. simpl. split; [|auto]. split; [auto|].
    destruct H2 as [[X Y]|[X Y]]; [left|right]; split; congruence.
  Qed.
  Lemma keeps_weaken {A} (m : st D A) (P Q : res A -> Prop) :
    keeps m P -> (forall r, P r -> Q r) -> keeps m Q.
  Proof. intros H HQ d Hd. destruct (H d Hd). auto. Qed.

  Lemma get_cop17_keeps c : c_speed c = 0 ->
    keeps (get_cop17 sol u c)
      (fun r => match r0 with
                | Ok x => r = Ok (Some x)
                | Err _ => forall a, r = Ok a -> a = None
                end).
  Proof.
    intros Hs d [Hd H]. unfold get_cop17. rewrite sbind_eq. unfold sget.
    destruct H as [[A B]|[A B]].
    - rewrite A. rewrite sbind_eq.
      destruct (calc_run c d Hs Hd A B) as (d' & E & C & E17 & E35). rewrite E.
      assert (Hinv : inv d') by (split; [auto|right; auto]).
      destruct r0 as [x|e]; cbn [rbind].
      + unfold read_key, sread. rewrite E17, Hs. simpl. auto.
      + simpl. split; [auto|]. discriminate.
    - rewrite A. rewrite sbind_eq. unfold sret.
      unfold read_key, sread. rewrite A, Hs. simpl. split; [split; [auto|right; auto]|].
      destruct r0; [auto|]. intros a E. injection E as <-. reflexivity.
  Qed.

  Lemma get_cop35_keeps c : c_speed c = 0 ->
    keeps (get_cop35 sol u c)
      (fun r => match r0 with
                | Ok _ => r = (let! l := need KeyError (t_cop35 k0) in geti l 0)
                | Err _ => True
                end).
  Proof.
    intros Hs d [Hd H]. unfold get_cop35. rewrite sbind_eq. unfold sget.
    destruct H as [[A B]|[A B]].
    - rewrite B. rewrite sbind_eq.
      destruct (calc_run c d Hs Hd A B) as (d' & E & C & E17 & E35). rewrite E.
      assert (Hinv : inv d') by (split; [auto|right; auto]).
      destruct r0 as [x|e]; cbn [rbind].
      + unfold read_key, sread. rewrite E35, Hs. simpl. auto.
      + simpl. auto.
    - assert (E : exists l, t_cop35 d = Some l).
      { rewrite B. destruct (t_cop35 k0) as [l|] eqn:E; [eauto|].
        destruct (solve_resp c0 d0 d0) as (_ & _ & _ & H).
        { split; [exact capok_d0|]. split; [exact capok_d0|]. split; auto. }
        exfalso. apply H; [discriminate|exact E]. }
      destruct E as (l & El). rewrite El. rewrite sbind_eq. unfold sret.
      unfold read_key, sread. rewrite Hs. simpl. split; [split; [auto|right; auto]|].
      destruct r0; [|auto]. rewrite B. reflexivity.
  Qed.

  (** ** The four methods *)
  Lemma inv_blank : inv blank_t24.
  Proof. split; [split; exact I|left; auto]. Qed.

  Lemma keeps_pure_bind {A B} (m : st D A) (k : A -> st D B) r (Q : res B -> Prop) :
    pureop m r -> (forall e, r = Err e -> Q (Err e)) ->
    (forall a, r = Ok a -> keeps (k a) Q) -> keeps (sbind m k) Q.
  Proof.
    intros Hm He Hk. eapply keeps_bind; [apply keeps_pure; eauto| |]; eauto.
  Qed.

  (** The result is the same from every cache, or never a value. *)
  Definition stable {A} (m : st D A) : Prop :=
    (exists r, keeps m (eq r)) \/ keeps m (fun r => forall v, r <> Ok v).

  Lemma stable_pure {A} (m : st D A) r : pureop m r -> stable m.
  Proof. intros H. left. exists r. apply keeps_pure. auto. Qed.
  Lemma stable_bind {A B} (m : st D A) (k : A -> st D B) r :
    pureop m r -> (forall a, r = Ok a -> stable (k a)) -> stable (sbind m k).
  Proof.
    intros Hm Hk. destruct r as [a|e].
    - destruct (Hk a eq_refl) as [[r' H]|H]; [left; exists r'|right];
        (eapply keeps_pure_bind; [eauto|discriminate|]); intros a' E; injection E as <-; auto.
    - left. exists (Err e). eapply keeps_pure_bind; [eauto| |].
      + intros e' E; congruence.
      + discriminate.
  Qed.

  Ltac pure_go := repeat first
    [ apply pure_lift | apply pure_ret
    | apply get_cap35_pure | apply get_cap17_pure
    | eapply pure_bind; [|intros]; cbv zeta ].
  Ltac pre := eapply stable_bind; [solve [apply pure_lift | apply get_cap35_pure | apply get_cap17_pure]|];
              intros; cbv zeta.

  Lemma capacity_stable c : stable (t24_heating_capacity u c).
  Proof. unfold t24_heating_capacity. cbv zeta. repeat pre. eapply stable_pure, pure_ret. Qed.
  Lemma icapacity_stable c : stable (t24_integrated_capacity u c).
  Proof. unfold t24_integrated_capacity. cbv zeta. repeat pre. eapply stable_pure, pure_ret. Qed.

  Lemma p17_speed (c : cond R) v : p17 (c_speed c) = Ok v -> c_speed c = 0.
  Proof.
    unfold p17. rewrite one. destruct (Nat.ltb_spec (c_speed c) 1); [lia|discriminate].
  Qed.

  (** Reading a COP, then computing something from it. *)
  Lemma cop17_stable {A} (c : cond R) (k : option R -> st D A) :
    c_speed c = 0 -> (forall x, stable (k (Some x))) ->
    keeps (k None) (fun r => forall v, r <> Ok v) ->
    stable (sbind (get_cop17 sol u c) k)
    /\ (forall e, r0 = Err e ->
        keeps (sbind (get_cop17 sol u c) k) (fun r => forall v, r <> Ok v)).
  Proof.
    intros Hs Hk Hn. pose proof (get_cop17_keeps c Hs) as G.
    assert (HF : forall e, r0 = Err e ->
        keeps (sbind (get_cop17 sol u c) k) (fun r => forall v, r <> Ok v)).
    { intros e E. rewrite E in G. eapply keeps_bind; [exact G|discriminate|].
      intros a Ha. rewrite (Ha a eq_refl). exact Hn. }
    split; [|exact HF].
    destruct r0 as [x|e] eqn:E; [|right; eapply HF; eauto].
    destruct (Hk x) as [[r H]|H]; [left; exists r|right];
      (eapply keeps_bind; [exact G|discriminate|]; intros a Ha; injection Ha as ->; exact H).
  Qed.

  Lemma lift_fails {A B} e (k : A -> st D B) :
    keeps (sbind (slift (Err e)) k) (fun r => forall v, r <> Ok v).
  Proof. intros d Hd. rewrite sbind_eq. simpl. split; [auto|discriminate]. Qed.
  Lemma pre_fails {A B} (r : res A) (k : A -> st D B) :
    (forall a, keeps (k a) (fun r => forall v, r <> Ok v)) ->
    keeps (sbind (slift r) k) (fun r => forall v, r <> Ok v).
  Proof.
    intros H. eapply keeps_pure_bind; [apply pure_lift|discriminate|]. auto.
  Qed.
  Ltac fails_go := repeat first [apply lift_fails | apply pre_fails; intros].

  Lemma power_stable c : stable (t24_heating_power sol u c).
  Proof.
    unfold t24_heating_power. cbv zeta.
    pre. eapply stable_bind; [apply get_cap17_pure|]. intros v Hv.
    apply p17_speed in Hv. pre.
    apply cop17_stable; [auto| |].
    - intros x. repeat pre. eapply stable_pure, pure_ret.
    - cbn [need]. fails_go.
  Qed.

  Lemma ipower_stable c : stable (t24_integrated_power sol u c).
  Proof.
    unfold t24_integrated_power. cbv zeta.
    pre. pre. eapply stable_bind; [apply get_cap17_pure|]. intros v Hv.
    apply p17_speed in Hv. pre.
    pose proof (get_cop35_keeps c Hv) as G.
    match goal with |- stable (sbind _ ?k) => set (K := k) end.
    assert (HK : forall o, stable (K o)
      /\ (forall e, r0 = Err e -> keeps (K o) (fun r => forall v, r <> Ok v))).
    { intros o. unfold K. apply cop17_stable; [auto| |].
      - intros x. repeat pre. eapply stable_pure, pure_ret.
      - cbn [need]. fails_go. }
    destruct r0 as [x|e] eqn:E.
    - set (r35 := let! l := need KeyError (t_cop35 k0) in geti l 0) in *.
      destruct r35 as [o|e].
      + destruct (HK o) as [[[r HH]|HH] _]; [left; exists r|right];
          (eapply keeps_bind; [exact G|discriminate|]; intros a' Ha; injection Ha as ->; exact HH).
      + left. exists (Err e). eapply keeps_bind; [exact G| |].
        * intros e' He. congruence.
        * discriminate.
    - right. eapply keeps_bind; [exact G|discriminate|]. intros a' _.
      eapply HK. eauto.
  Qed.

  Lemma call_stable m c : stable (t24_call sol m u c).
  Proof.
    destruct m; simpl; auto using capacity_stable, power_stable, icapacity_stable, ipower_stable.
  Qed.

  Lemma stable_inv {A} (m : st D A) d : stable m -> inv d -> inv (fst (m d)).
  Proof. intros [[r H]|H] Hd; apply (H d Hd). Qed.

  Lemma after_inv h d : inv d -> inv (t24_after sol u h d).
  Proof.
    revert d. induction h as [|[m c] h IH]; intros d Hd; simpl; auto.
    apply IH. apply stable_inv; auto using call_stable.
  Qed.

  Lemma call_history_free h m c v :
    snd (t24_call sol m u c (t24_after sol u h blank_t24)) = Ok v
    <-> snd (t24_call sol m u c blank_t24) = Ok v.
  Proof.
    pose proof (after_inv h blank_t24 inv_blank) as H1.
    destruct (call_stable m c) as [[r H]|H].
    - rewrite <- (proj2 (H _ H1)), <- (proj2 (H _ inv_blank)). tauto.
    - pose proof (proj2 (H _ H1) v). pose proof (proj2 (H _ inv_blank) v). tauto.
  Qed.
End Cache.
