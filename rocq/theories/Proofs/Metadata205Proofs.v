(** Metadata of 205 representations (C88). *)
From Coq Require Import Reals QArith ZArith List String Lra Lia.
From Verif.Base Require Import Num Res Tac.
From Verif.Model Require Import Units Util Psychrometrics Conditions Defrost Fan Tabular
  Unit DXUnit Repr205 Metadata205.
From Verif.Spec Require Import Metadata205Spec.
Import ListNotations.

Section Docs.
  Variables (psy : psychro R) (sol : solvers R) (M : dxmodel R).
  Variables (uuid_of : seed -> string) (fmt : nat -> R -> string).

  Definition seeded (h : Z) (m : metadata) : metadata :=
    match md_seed m with Some _ => m | None => w_seed h m end.
  Definition seed_of (h : Z) (m : metadata) : Z :=
    match md_seed m with Some z => z | None => h end.

  Lemma take_id_eq h m :
    take_id uuid_of h m = (seeded h m, Ok (uuid_of (SeedInt (seed_of h m)))).
  Proof.
    unfold take_id, sbind, sget, seeded, seed_of. destruct (md_seed m); reflexivity.
  Qed.

  Definition described (d : string) (m : metadata) : metadata :=
    if String.eqb (md_description m) "" then w_description d m else m.

  Definition first_eff (f : fan R) : res R :=
    match f_design_efficacy f with EffList l => geti l 0 | EffNum x => Ok x end.

  Definition fan_metas (r : run) (d : string) (m : metadata) : doc_meta * doc_meta :=
    let id := uuid_of (SeedInt (seed_of (run_hash_fan r) m)) in
    (mkDocMeta "RS0003" (if String.eqb (md_description m) "" then d else md_description m) id
       (stamp r) (md_version m) (md_source m) (notes_of m),
     mkDocMeta "RS0005"
      "Placeholder motor representation (performance characterized in parent RS0003 fan assembly)"
      (uuid_of (SeedString id)) (stamp r) (md_version m) (md_source m) None).

  Lemma seeded_fields h m :
    md_description (seeded h m) = md_description m /\ md_source (seeded h m) = md_source m
    /\ md_notes (seeded h m) = md_notes m /\ md_version (seeded h m) = md_version m
    /\ md_seed (seeded h m) = Some (seed_of h m).
  Proof. unfold seeded, seed_of. destruct (md_seed m) eqn:E; repeat split; auto. Qed.

  Lemma fan_doc_ok r f m m' d :
    fan_205_doc sol uuid_of fmt r f m = (m', Ok d) <->
    exists a e, geti (f_airflow f) 0 = Ok a /\ first_eff f = Ok e
      /\ fan_205 sol f = Ok (fd_performance d)
      /\ m' = described (fan_description fmt f a e) (seeded (run_hash_fan r) m)
      /\ d = mkFanDoc (fst (fan_metas r (fan_description fmt f a e) m))
                      (snd (fan_metas r (fan_description fmt f a e) m)) (fd_performance d).
  Proof.
    destruct (seeded_fields (run_hash_fan r) m) as (S1 & S2 & S3 & S4 & S5).
    unfold fan_205_doc. unfold sbind at 1. rewrite take_id_eq.
    set (m1 := seeded (run_hash_fan r) m) in *. split.
    - intros H. apply sbind_ok in H as (s & order & E1 & H). apply slift_ok in E1 as (-> & E1).
      apply sbind_ok in H as (s & mx & E2 & H). apply slift_ok in E2 as (-> & E2).
      apply sbind_ok in H as (s & mp & E3 & H). apply slift_ok in E3 as (-> & E3).
      apply sbind_ok in H as (s & m2 & E4 & H). unfold sget in E4. apply pair_ok_inj in E4 as (<- & <-).
      apply sbind_ok in H as (s & a & E5 & H). apply slift_ok in E5 as (-> & E5).
      apply sbind_ok in H as (s & e & E6 & H). apply slift_ok in E6 as (-> & E6).
      apply sbind_ok in H as (s & u0 & E7 & H).
      apply sbind_ok in H as (s2 & m3 & E8 & H). unfold sget in E8. apply pair_ok_inj in E8 as (<- & <-).
      apply sbind_ok in H as (s2 & perf & E9 & H). apply slift_ok in E9 as (-> & E9).
      unfold sret in H. apply pair_ok_inj in H as (<- & <-). cbn [fd_performance].
      exists a, e. split; [auto|]. split; [auto|]. split; [auto|].
      assert (Es : s = described (fan_description fmt f a e) m1).
      { unfold described. destruct (String.eqb (md_description m1) "").
        - unfold smod in E7. apply pair_ok_inj in E7 as (<- & _). auto.
        - unfold sret in E7. apply pair_ok_inj in E7 as (<- & _). auto. }
      subst s. split; [auto|]. unfold fan_metas, described, notes_of. cbn [fst snd].
      rewrite S1. destruct (String.eqb (md_description m) "");
        cbn [w_description md_description md_version md_source md_notes];
        rewrite ?S1, ?S2, ?S3, ?S4; reflexivity.
    - intros (a & e & E5 & E6 & E9 & -> & Ed). pose proof E9 as E9'. unfold fan_205 in E9'.
      apply rbind_ok in E9' as (order & E1 & E9').
      apply rbind_ok in E9' as (mx & E2 & E9').
      apply rbind_ok in E9' as (mp & E3 & _).
      unfold sbind, slift, sget. rewrite E1, E2, E3, E5. fold (first_eff f). rewrite E6.
      rewrite S1. unfold described. rewrite S1.
      destruct (String.eqb (md_description m) "") eqn:Eq; unfold smod, sret; rewrite E9;
        f_equal; f_equal; rewrite Ed at 2; unfold fan_metas; cbn [fst snd]; rewrite Eq;
        unfold notes_of; cbn [w_description md_description md_version md_source md_notes];
        rewrite ?S1, ?S2, ?S3, ?S4; reflexivity.
  Qed.

  Lemma unit_doc_ok r u s s' d :
    unit_205_doc psy sol M uuid_of fmt r u s = (s', Ok d) <->
    exists f a e q cop shr,
      u_fan u = Some f /\ geti (f_airflow f) 0 = Ok a /\ first_eff f = Ok e
      /\ gross_total_cooling_capacity M u None = Ok q
      /\ gross_total_cooling_cop M u None = Ok cop /\ gross_shr M u None = Ok shr
      /\ generate_205_representation psy sol M u = Ok (ud_performance d)
      /\ s' = (seeded (run_hash_unit r) (fst s),
               described (fan_description fmt f a e) (seeded (run_hash_fan r) (snd s)))
      /\ let fm := fan_metas r (fan_description fmt f a e) (snd s) in
         let id := uuid_of (SeedInt (seed_of (run_hash_unit r) (fst s))) in
         d = mkUnitDoc
          (mkDocMeta "RS0002" (md_description (fst s))
             (uuid_of (SeedInt (run_hash_pair r id (dm_id (fst fm))))) (stamp r)
             (md_version (fst s)) (md_source (fst s)) (notes_of (fst s)))
          (mkDocMeta "RS0004" (coil_description fmt q cop shr) id (stamp r)
             (md_version (fst s)) (md_source (fst s)) None)
          (fst fm) (snd fm) (ud_performance d).
  Proof.
    destruct (seeded_fields (run_hash_unit r) (fst s)) as (S1 & S2 & S3 & S4 & S5).
    unfold unit_205_doc. unfold sbind at 1, on_unit at 1. rewrite take_id_eq.
    set (um := seeded (run_hash_unit r) (fst s)) in *. split.
    - intros H. apply sbind_ok in H as (x & q & E1 & H). apply slift_ok in E1 as (-> & E1).
      apply sbind_ok in H as (x & cop & E2 & H). apply slift_ok in E2 as (-> & E2).
      apply sbind_ok in H as (x & shr & E3 & H). apply slift_ok in E3 as (-> & E3).
      apply sbind_ok in H as (x & m & E4 & H). unfold on_unit, sget in E4. cbn [fst snd] in E4.
      apply pair_ok_inj in E4 as (<- & <-).
      apply sbind_ok in H as (x & cm & E5 & H). apply slift_ok in E5 as (-> & E5).
      apply sbind_ok in H as (x & crank & E6 & H). apply slift_ok in E6 as (-> & E6).
      apply sbind_ok in H as (x & f & E7 & H). apply slift_ok in E7 as (-> & E7).
      apply sbind_ok in H as (x & fd & E8 & H). unfold on_fan in E8. cbn [fst snd] in E8.
      destruct (fan_205_doc sol uuid_of fmt r f (snd s)) as [fm' rr] eqn:Ef.
      injection E8 as <- ->.
      unfold sret in H. apply pair_ok_inj in H as (<- & <-).
      pose proof E7 as E7'. apply need_ok in E7'.
      apply fan_doc_ok in Ef as (a & e & A1 & A2 & A3 & -> & A4).
      exists f, a, e, q, cop, shr. cbn [ud_performance].
      split; [auto|]. split; [auto|]. split; [auto|]. split; [auto|]. split; [auto|]. split; [auto|].
      split.
      { unfold generate_205_representation. rewrite E1, E2, E3, E5, E6, E7. cbn [rbind].
        rewrite A3. reflexivity. }
      split; [reflexivity|]. rewrite A4. cbn [fd_meta fd_motor_meta fd_performance].
      unfold notes_of. rewrite S1, S2, S3, S4. reflexivity.
    - intros (f & a & e & q & cop & shr & Uf & A1 & A2 & E1 & E2 & E3 & G & -> & Ed).
      pose proof G as G'. unfold generate_205_representation in G'. rewrite E1, E2, E3 in G'.
      cbn [rbind] in G'. apply rbind_ok in G' as (cm & E5 & G').
      apply rbind_ok in G' as (crank & E6 & G'). apply rbind_ok in G' as (f' & E7 & G').
      apply rbind_ok in G' as (fp & E8 & G'). apply Ok_inj in G'.
      pose proof E7 as E7'. apply need_ok in E7'. rewrite Uf in E7'. injection E7' as <-.
      unfold sbind, slift, on_unit, sget. cbn [fst snd]. rewrite E1, E2, E3, E5, E6, E7.
      unfold on_fan. cbn [fst snd].
      assert (Fd : fan_205_doc sol uuid_of fmt r f (snd s)
        = (described (fan_description fmt f a e) (seeded (run_hash_fan r) (snd s)),
           Ok (mkFanDoc (fst (fan_metas r (fan_description fmt f a e) (snd s)))
                        (snd (fan_metas r (fan_description fmt f a e) (snd s))) fp))).
      { apply fan_doc_ok. exists a, e. cbn [fd_performance]. auto 6. }
      rewrite Fd. unfold sret. f_equal. f_equal. rewrite Ed at 1.
      cbn [fd_meta fd_motor_meta fd_performance].
      unfold notes_of. rewrite S1, S2, S3, S4, <- G'. reflexivity.
  Qed.

  (** ** Reproducibility *)

  Lemma same_in_every_process r1 r2 u um fm s1 s2 d1 d2 zu zf :
    md_seed um = Some zu -> md_seed fm = Some zf ->
    unit_205_doc psy sol M uuid_of fmt r1 u (um, fm) = (s1, Ok d1) ->
    unit_205_doc psy sol M uuid_of fmt r2 u (um, fm) = (s2, Ok d2) ->
    same_but_time (ud_coil_meta d1) (ud_coil_meta d2)
    /\ same_but_time (ud_fan_meta d1) (ud_fan_meta d2)
    /\ same_but_time (ud_motor_meta d1) (ud_motor_meta d2)
    /\ same_but_time_and_id (ud_meta d1) (ud_meta d2)
    /\ ud_performance d1 = ud_performance d2 /\ s1 = s2.
  Proof.
    intros Hu Hf H1 H2.
    apply unit_doc_ok in H1 as (f1 & a1 & e1 & q1 & c1 & h1 & U1 & A1 & B1 & Q1 & C1 & D1 & G1 & -> & E1).
    apply unit_doc_ok in H2 as (f2 & a2 & e2 & q2 & c2 & h2 & U2 & A2 & B2 & Q2 & C2 & D2 & G2 & -> & E2).
    rewrite U1 in U2. injection U2 as <-. rewrite A1 in A2. apply Ok_inj in A2. subst a2.
    rewrite B1 in B2. apply Ok_inj in B2. subst e2. rewrite Q1 in Q2. apply Ok_inj in Q2. subst q2.
    rewrite C1 in C2. apply Ok_inj in C2. subst c2. rewrite D1 in D2. apply Ok_inj in D2. subst h2.
    rewrite G1 in G2. apply Ok_inj in G2.
    cbn [fst snd] in E1, E2. rewrite E1, E2. unfold fan_metas, seed_of, seeded. cbn [fst snd].
    rewrite Hu, Hf.
    unfold same_but_time, same_but_time_and_id.
    cbn [ud_coil_meta ud_fan_meta ud_motor_meta ud_meta ud_performance dm_schema dm_description dm_id
         dm_version dm_source dm_notes].
    repeat split; auto.
  Qed.

  Lemma unitary_id r u um fm s d :
    unit_205_doc psy sol M uuid_of fmt r u (um, fm) = (s, Ok d) ->
    dm_id (ud_meta d)
    = uuid_of (SeedInt (run_hash_pair r (dm_id (ud_coil_meta d)) (dm_id (ud_fan_meta d)))).
  Proof.
    intros H.
    apply unit_doc_ok in H as (f1 & a1 & e1 & q1 & c1 & h1 & U1 & A1 & B1 & Q1 & C1 & D1 & G1 & -> & E1).
    rewrite E1. reflexivity.
  Qed.

  Lemma unitary_id_changes r1 r2 u um fm s1 s2 d1 d2 zu zf :
    md_seed um = Some zu -> md_seed fm = Some zf ->
    unit_205_doc psy sol M uuid_of fmt r1 u (um, fm) = (s1, Ok d1) ->
    unit_205_doc psy sol M uuid_of fmt r2 u (um, fm) = (s2, Ok d2) ->
    let coil := uuid_of (SeedInt zu) in let fan := uuid_of (SeedInt zf) in
    uuid_of (SeedInt (run_hash_pair r1 coil fan)) <> uuid_of (SeedInt (run_hash_pair r2 coil fan)) ->
    dm_id (ud_meta d1) <> dm_id (ud_meta d2).
  Proof.
    intros Hu Hf H1 H2 coil fan N.
    apply unit_doc_ok in H1 as (f1 & a1 & e1 & q1 & c1 & h1 & U1 & A1 & B1 & Q1 & C1 & D1 & G1 & -> & E1).
    apply unit_doc_ok in H2 as (f2 & a2 & e2 & q2 & c2 & h2 & U2 & A2 & B2 & Q2 & C2 & D2 & G2 & -> & E2).
    cbn [fst snd] in E1, E2. rewrite E1, E2. unfold fan_metas, seed_of. cbn [fst snd].
    rewrite Hu, Hf. exact N.
  Qed.

  (** Exporting a second time, later, in the same process. *)
  Lemma seeded_twice h m : seeded h (seeded h m) = seeded h m.
  Proof. unfold seeded. destruct (md_seed m) eqn:E; rewrite ?E; reflexivity. Qed.
  Lemma seed_of_seeded h m : seed_of h (seeded h m) = seed_of h m.
  Proof. unfold seeded, seed_of. destruct (md_seed m) eqn:E; rewrite ?E; reflexivity. Qed.
  Lemma seed_of_described h d m : seed_of h (described d m) = seed_of h m.
  Proof. unfold described, seed_of. destruct (String.eqb _ _); reflexivity. Qed.
  Lemma seeded_described h d m : seeded h (described d m) = described d (seeded h m).
  Proof.
    unfold described, seeded. destruct (md_seed m) eqn:E.
    - destruct (String.eqb (md_description m) ""); cbn [w_description md_seed]; rewrite E; reflexivity.
    - cbn [w_seed md_description]. destruct (String.eqb (md_description m) "");
        cbn [w_description md_seed]; rewrite E; reflexivity.
  Qed.
  Lemma described_twice d m : described d (described d m) = described d m.
  Proof.
    unfold described. destruct (String.eqb (md_description m) "") eqn:E.
    - cbn [w_description md_description]. destruct (String.eqb d "") eqn:E2; auto.
    - rewrite E. auto.
  Qed.

  Lemma fan_metas_again r1 r2 d m :
    run_hash_fan r1 = run_hash_fan r2 -> d <> ""%string ->
    same_but_time (fst (fan_metas r1 d m))
      (fst (fan_metas r2 d (described d (seeded (run_hash_fan r1) m))))
    /\ same_but_time (snd (fan_metas r1 d m))
      (snd (fan_metas r2 d (described d (seeded (run_hash_fan r1) m)))).
  Proof.
    intros Eh Nd. unfold fan_metas, same_but_time. rewrite <- Eh, seed_of_described, seed_of_seeded.
    cbn [fst snd dm_schema dm_description dm_id dm_version dm_source dm_notes].
    destruct (seeded_fields (run_hash_fan r1) m) as (S1 & S2 & S3 & S4 & S5).
    unfold notes_of, described. rewrite S1.
    destruct (String.eqb (md_description m) "") eqn:E;
      cbn [w_description md_description md_version md_source md_notes]; rewrite ?S1, ?S2, ?S3, ?S4, ?E;
      repeat split; auto.
    destruct (String.eqb d "") eqn:E2; auto.
  Qed.

  Lemma app_nonempty (a b : string) : b <> ""%string -> (a ++ b)%string <> ""%string.
  Proof. destruct a; simpl; auto. discriminate. Qed.

  Lemma description_nonempty f a e : fan_description fmt f a e <> ""%string.
  Proof. unfold fan_description. apply app_nonempty. discriminate. Qed.

  Lemma same_again r1 r2 u s s1 d1 :
    run_hash_unit r1 = run_hash_unit r2 -> run_hash_fan r1 = run_hash_fan r2 ->
    (forall x y, run_hash_pair r1 x y = run_hash_pair r2 x y) ->
    unit_205_doc psy sol M uuid_of fmt r1 u s = (s1, Ok d1) ->
    exists d2, unit_205_doc psy sol M uuid_of fmt r2 u s1 = (s1, Ok d2)
      /\ same_but_time (ud_meta d1) (ud_meta d2)
      /\ same_but_time (ud_coil_meta d1) (ud_coil_meta d2)
      /\ same_but_time (ud_fan_meta d1) (ud_fan_meta d2)
      /\ same_but_time (ud_motor_meta d1) (ud_motor_meta d2)
      /\ ud_performance d1 = ud_performance d2.
  Proof.
    intros Hu Hf Hp H1. destruct s as [um fm].
    apply unit_doc_ok in H1 as (f1 & a1 & e1 & q1 & c1 & h1 & U1 & A1 & B1 & Q1 & C1 & D1 & G1 & -> & E1).
    cbn [fst snd] in *.
    set (ds := fan_description fmt f1 a1 e1) in *.
    assert (Nd : ds <> ""%string) by apply description_nonempty.
    set (um' := seeded (run_hash_unit r1) um). set (fm' := described ds (seeded (run_hash_fan r1) fm)).
    set (fmm := fan_metas r2 ds fm').
    set (id := uuid_of (SeedInt (seed_of (run_hash_unit r2) um'))).
    destruct (fan_metas_again r1 r2 ds fm Hf Nd) as (F1 & F2). fold fm' in F1, F2. fold fmm in F1, F2.
    destruct (seeded_fields (run_hash_unit r1) um) as (S1 & S2 & S3 & S4 & S5). fold um' in S1, S2, S3, S4, S5.
    assert (Eid : uuid_of (SeedInt (seed_of (run_hash_unit r1) um)) = id).
    { unfold id, um'. rewrite <- Hu, seed_of_seeded. reflexivity. }
    eexists (mkUnitDoc
          (mkDocMeta "RS0002" (md_description um')
             (uuid_of (SeedInt (run_hash_pair r2 id (dm_id (fst fmm))))) (stamp r2)
             (md_version um') (md_source um') (notes_of um'))
          (mkDocMeta "RS0004" (coil_description fmt q1 c1 h1) id (stamp r2)
             (md_version um') (md_source um') None)
          (fst fmm) (snd fmm) (ud_performance d1)).
    split.
    - apply unit_doc_ok. exists f1, a1, e1, q1, c1, h1. cbn [fst snd ud_performance].
      split; [auto|]. split; [auto|]. split; [auto|]. split; [auto|]. split; [auto|]. split; [auto|].
      split; [auto|]. split; [|reflexivity]. fold ds. f_equal.
      + rewrite <- Hu. unfold um'. rewrite seeded_twice. reflexivity.
      + rewrite <- Hf. unfold fm'. rewrite seeded_described, seeded_twice, described_twice. reflexivity.
    - rewrite E1. cbn [ud_coil_meta ud_fan_meta ud_motor_meta ud_meta ud_performance].
      split; [|split; [|split; [|split]]]; auto.
      + unfold same_but_time. cbn [dm_schema dm_description dm_id dm_version dm_source dm_notes].
        destruct F1 as (_ & _ & F1 & _). unfold notes_of. rewrite S1, S2, S3, S4, Eid, F1, Hp. repeat split; auto.
      + unfold same_but_time. cbn [dm_schema dm_description dm_id dm_version dm_source dm_notes].
        rewrite S2, S4, Eid. repeat split; auto.
  Qed.

  Lemma entries_copied r u um fm s d :
    unit_205_doc psy sol M uuid_of fmt r u (um, fm) = (s, Ok d) ->
    user_entries_kept um (fst s) /\ user_entries_kept fm (snd s)
    /\ generate_205_representation psy sol M u = Ok (ud_performance d)
    /\ (forall m, In m [ud_meta d; ud_coil_meta d] ->
          dm_version m = md_version um /\ dm_source m = md_source um)
    /\ (forall m, In m [ud_fan_meta d; ud_motor_meta d] ->
          dm_version m = md_version fm /\ dm_source m = md_source fm)
    /\ dm_description (ud_meta d) = md_description um
    /\ dm_description (ud_fan_meta d) = md_description (snd s)
    /\ (forall t, dm_notes (ud_meta d) = Some t <-> md_notes um = t /\ t <> ""%string)
    /\ (forall t, dm_notes (ud_fan_meta d) = Some t <-> md_notes fm = t /\ t <> ""%string)
    /\ map dm_schema [ud_meta d; ud_coil_meta d; ud_fan_meta d; ud_motor_meta d]
       = ["RS0002"; "RS0004"; "RS0003"; "RS0005"]%string.
  Proof.
    intros H.
    apply unit_doc_ok in H as (f1 & a1 & e1 & q1 & c1 & h1 & U1 & A1 & B1 & Q1 & C1 & D1 & G1 & -> & E1).
    cbn [fst snd] in *.
    assert (Nt : forall m t, notes_of m = Some t <-> md_notes m = t /\ t <> ""%string).
    { intros m t. unfold notes_of. destruct (String.eqb_spec (md_notes m) "").
      - split; [discriminate|]. intros (<- & N). congruence.
      - split; [injection 1 as <-; auto|]. intros (-> & _). reflexivity. }
    assert (K : forall h m, user_entries_kept m (seeded h m)).
    { intros h m. destruct (seeded_fields h m) as (S1 & S2 & S3 & S4 & S5).
      unfold user_entries_kept. rewrite S1, S2, S3, S4, S5. repeat split; auto.
      intros z Hz. unfold seed_of. rewrite Hz. reflexivity. }
    assert (K2 : forall ds m, user_entries_kept m (described ds m)).
    { intros ds m. unfold described, user_entries_kept. destruct (String.eqb_spec (md_description m) "");
        cbn [w_description md_source md_notes md_version md_description md_seed]; repeat split; auto.
      congruence. }
    assert (K3 : forall a b c, user_entries_kept a b -> user_entries_kept b c -> user_entries_kept a c).
    { unfold user_entries_kept. intros a b c (X1 & X2 & X3 & X4 & X5) (Y1 & Y2 & Y3 & Y4 & Y5).
      repeat split; try congruence.
      - intros N. rewrite Y4; [auto|]. rewrite X4; auto.
      - intros z Hz. auto. }
    split; [apply K|]. split; [eapply K3; [apply K|apply K2]|]. split; [auto|].
    rewrite E1. unfold fan_metas.
    cbn [fst snd map ud_coil_meta ud_fan_meta ud_motor_meta ud_meta dm_schema dm_description dm_id dm_version
         dm_source dm_notes].
    split; [|split; [|split; [|split; [|split; [|split]]]]]; auto.
    - intros m [<-|[<-|[]]]; auto.
    - intros m [<-|[<-|[]]]; auto.
    - unfold described. destruct (seeded_fields (run_hash_fan r) fm) as (S1 & _). rewrite S1.
      destruct (String.eqb (md_description fm) ""); auto.
  Qed.

  (** The generated description is that of the fan of the first export. *)
  Lemma description_filled r u um fm s d :
    md_description fm = ""%string ->
    unit_205_doc psy sol M uuid_of fmt r u (um, fm) = (s, Ok d) ->
    exists f a e, u_fan u = Some f /\ geti (f_airflow f) 0 = Ok a
      /\ (f_design_efficacy f = EffNum e \/ exists l, f_design_efficacy f = EffList l /\ geti l 0 = Ok e)
      /\ dm_description (ud_fan_meta d) = fan_description fmt f a e.
  Proof.
    intros Hd H.
    apply unit_doc_ok in H as (f1 & a1 & e1 & q1 & c1 & h1 & U1 & A1 & B1 & Q1 & C1 & D1 & G1 & -> & E1).
    cbn [fst snd] in *. exists f1, a1, e1. split; [auto|]. split; [auto|]. split.
    { unfold first_eff in B1. destruct (f_design_efficacy f1); [left|right; eauto].
      apply Ok_inj in B1. subst. auto. }
    rewrite E1. unfold fan_metas. cbn [fst snd ud_fan_meta dm_description]. rewrite Hd. reflexivity.
  Qed.

  Lemma description_stale r r' u u' um fm s s' d d' :
    unit_205_doc psy sol M uuid_of fmt r u (um, fm) = (s, Ok d) ->
    unit_205_doc psy sol M uuid_of fmt r' u' s = (s', Ok d') ->
    dm_description (ud_fan_meta d') = dm_description (ud_fan_meta d).
  Proof.
    intros H H'.
    apply unit_doc_ok in H as (f1 & a1 & e1 & q1 & c1 & h1 & U1 & A1 & B1 & Q1 & C1 & D1 & G1 & -> & E1).
    apply unit_doc_ok in H' as (f2 & a2 & e2 & q2 & c2 & h2 & U2 & A2 & B2 & Q2 & C2 & D2 & G2 & -> & E2).
    cbn [fst snd] in *. rewrite E1, E2. unfold fan_metas. cbn [fst snd ud_fan_meta dm_description].
    unfold described. destruct (seeded_fields (run_hash_fan r) fm) as (S1 & _). rewrite S1.
    destruct (String.eqb (md_description fm) "") eqn:E; cbn [w_description md_description].
    - destruct (String.eqb_spec (fan_description fmt f1 a1 e1) ""); auto.
      exfalso. eapply description_nonempty; eauto.
    - rewrite S1, E. auto.
  Qed.
End Docs.

(** A unit whose performance part can be exported has a document. *)
Lemma doc_works psy sol M uuid_of fmt r (u : dxunit R) s perf f a e :
  generate_205_representation psy sol M u = Ok perf -> u_fan u = Some f ->
  geti (f_airflow f) 0 = Ok a -> first_eff f = Ok e ->
  exists s' d, unit_205_doc psy sol M uuid_of fmt r u s = (s', Ok d).
Proof.
  intros G Uf A E. pose proof G as G'. unfold generate_205_representation in G'.
  apply rbind_ok in G' as (q & E1 & G'). apply rbind_ok in G' as (cop & E2 & G').
  apply rbind_ok in G' as (shr & E3 & _).
  set (fm := fan_metas uuid_of r (fan_description fmt f a e) (snd s)).
  set (id := uuid_of (SeedInt (seed_of (run_hash_unit r) (fst s)))).
  exists (seeded (run_hash_unit r) (fst s),
          described (fan_description fmt f a e) (seeded (run_hash_fan r) (snd s))).
  exists (mkUnitDoc
          (mkDocMeta "RS0002" (md_description (fst s))
             (uuid_of (SeedInt (run_hash_pair r id (dm_id (fst fm))))) (stamp r)
             (md_version (fst s)) (md_source (fst s)) (notes_of (fst s)))
          (mkDocMeta "RS0004" (coil_description fmt q cop shr) id (stamp r)
             (md_version (fst s)) (md_source (fst s)) None)
          (fst fm) (snd fm) perf).
  apply unit_doc_ok. exists f, a, e, q, cop, shr. cbn [ud_performance].
  split; [auto|]. split; [auto|]. split; [auto|]. split; [auto|]. split; [auto|]. split; [auto|].
  split; [auto|]. split; reflexivity.
Qed.
