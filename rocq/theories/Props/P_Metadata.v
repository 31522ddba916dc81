(** C88: identifiers and descriptions of the ASHRAE 205 export. *)
From Coq Require Import ZArith QArith Reals Lra List String Bool.
From Verif.Base Require Import Num Res Tac.
From Verif.Model Require Import Units Util Psychrometrics Conditions Defrost Fan Tabular Unit
  DXUnit BaseModel Repr205 Metadata205.
From Verif.Spec Require Import Metadata205Spec.
From Verif.Proofs Require Import ToyUnit ToyBuild ToyIdf Toy205 Metadata205Proofs.
Import ListNotations.

(** With given seeds, two exports in any two processes agree in everything but the
    time stamps and the identifier of the unitary (RS0002) representation. *)
Theorem C88_same_in_every_process : forall psy sol M uuid_of fmt r1 r2 (u : dxunit R)
    um fm s1 s2 d1 d2 zu zf,
  md_seed um = Some zu -> md_seed fm = Some zf ->
  unit_205_doc psy sol M uuid_of fmt r1 u (um, fm) = (s1, Ok d1) ->
  unit_205_doc psy sol M uuid_of fmt r2 u (um, fm) = (s2, Ok d2) ->
  same_but_time (ud_coil_meta d1) (ud_coil_meta d2)
  /\ same_but_time (ud_fan_meta d1) (ud_fan_meta d2)
  /\ same_but_time (ud_motor_meta d1) (ud_motor_meta d2)
  /\ same_but_time_and_id (ud_meta d1) (ud_meta d2)
  /\ ud_performance d1 = ud_performance d2 /\ s1 = s2.
Proof. exact same_in_every_process. Qed.
Print Assumptions C88_same_in_every_process.

(** That identifier comes from the hash of two strings, which differs between processes. *)
Theorem C88_unitary_id_refuted : forall psy sol M uuid_of fmt r1 r2 (u : dxunit R)
    um fm s1 s2 d1 d2 zu zf,
  md_seed um = Some zu -> md_seed fm = Some zf ->
  unit_205_doc psy sol M uuid_of fmt r1 u (um, fm) = (s1, Ok d1) ->
  unit_205_doc psy sol M uuid_of fmt r2 u (um, fm) = (s2, Ok d2) ->
  let coil := uuid_of (SeedInt zu) in let fan := uuid_of (SeedInt zf) in
  uuid_of (SeedInt (run_hash_pair r1 coil fan)) <> uuid_of (SeedInt (run_hash_pair r2 coil fan)) ->
  dm_id (ud_meta d1) <> dm_id (ud_meta d2).
Proof. exact unitary_id_changes. Qed.
Print Assumptions C88_unitary_id_refuted.

(** A second export in the same process repeats the first, whether or not seeds
    were given, and changes no metadata. *)
Theorem C88_same_again : forall psy sol M uuid_of fmt r1 r2 (u : dxunit R) s s1 d1,
  run_hash_unit r1 = run_hash_unit r2 -> run_hash_fan r1 = run_hash_fan r2 ->
  (forall x y, run_hash_pair r1 x y = run_hash_pair r2 x y) ->
  unit_205_doc psy sol M uuid_of fmt r1 u s = (s1, Ok d1) ->
  exists d2, unit_205_doc psy sol M uuid_of fmt r2 u s1 = (s1, Ok d2)
    /\ same_but_time (ud_meta d1) (ud_meta d2)
    /\ same_but_time (ud_coil_meta d1) (ud_coil_meta d2)
    /\ same_but_time (ud_fan_meta d1) (ud_fan_meta d2)
    /\ same_but_time (ud_motor_meta d1) (ud_motor_meta d2)
    /\ ud_performance d1 = ud_performance d2.
Proof. exact same_again. Qed.
Print Assumptions C88_same_again.

(** Version, source, description and notes are those of the unit's and the fan's
    metadata; generation overwrites nothing the user set. *)
Theorem C88_entries : forall psy sol M uuid_of fmt r (u : dxunit R) um fm s d,
  unit_205_doc psy sol M uuid_of fmt r u (um, fm) = (s, Ok d) ->
  user_entries_kept um (fst s) /\ user_entries_kept fm (snd s)
  /\ generate_205_representation psy sol M u = Ok (ud_performance d)
  /\ (forall m, In m [ud_meta d; ud_coil_meta d] ->
        dm_version m = md_version um /\ dm_source m = md_source um)
  /\ (forall m, In m [ud_fan_meta d; ud_motor_meta d] ->
        dm_version m = md_version fm /\ dm_source m = md_source fm)
  /\ dm_description (ud_meta d) = md_description um
  /\ dm_description (ud_fan_meta d) = md_description (snd s)
  /\ (forall t, dm_notes (ud_meta d) = Some t <-> md_notes um = t /\ t <> ""%string)
  /\ (forall t, dm_notes (ud_fan_meta d) = Some t <-> md_notes fm = t /\ t <> ""%string)
  /\ map dm_schema [ud_meta d; ud_coil_meta d; ud_fan_meta d; ud_motor_meta d]
     = ["RS0002"; "RS0004"; "RS0003"; "RS0005"]%string.
Proof. exact entries_copied. Qed.
Print Assumptions C88_entries.

(** An empty fan description is replaced by the design point of the fan. *)
Theorem C88_fan_description : forall psy sol M uuid_of fmt r (u : dxunit R) um fm s d,
  md_description fm = ""%string ->
  unit_205_doc psy sol M uuid_of fmt r u (um, fm) = (s, Ok d) ->
  exists f a e, u_fan u = Some f /\ geti (f_airflow f) 0 = Ok a
    /\ (f_design_efficacy f = EffNum e \/ exists l, f_design_efficacy f = EffList l /\ geti l 0 = Ok e)
    /\ dm_description (ud_fan_meta d) = fan_description fmt f a e.
Proof. exact description_filled. Qed.
Print Assumptions C88_fan_description.

(** ... once: later exports repeat it whatever has become of the fan. *)
Theorem C88_fan_description_refuted : forall psy sol M uuid_of fmt r r' (u u' : dxunit R)
    um fm s s' d d',
  unit_205_doc psy sol M uuid_of fmt r u (um, fm) = (s, Ok d) ->
  unit_205_doc psy sol M uuid_of fmt r' u' s = (s', Ok d') ->
  dm_description (ud_fan_meta d') = dm_description (ud_fan_meta d).
Proof. exact description_stale. Qed.
Print Assumptions C88_fan_description_refuted.

(** A unit with seeds exported in two processes with different hashes, and exported
    twice without seeds. *)
Example C88_nonvacuous :
  let uuid_of (s : seed) := match s with
    | SeedInt z => if Z.eqb z 0 then "a" else if Z.eqb z 1 then "b" else "c"
    | SeedString s => append "m" s end%string in
  let fmt := fun (_ : nat) (_ : R) => "1"%string in
  let r1 := mkRun "2026-01-01T00:00" 10 11 (fun _ _ => 0%Z) in
  let r2 := mkRun "2026-01-02T00:00" 12 13 (fun _ _ => 1%Z) in
  let um := mkMetadata "" "here" "" (Some 5%Z) 2 in
  let blank := mkMetadata "" "here" "" None 1 in
  let doc r := unit_205_doc lin_psy lin_sol flow_model uuid_of fmt r (idf_unit 255) in
  (exists s1 d1, doc r1 (um, um) = (s1, Ok d1)) /\ (exists s2 d2, doc r2 (um, um) = (s2, Ok d2))
  /\ uuid_of (SeedInt (run_hash_pair r1 "c" "c")) <> uuid_of (SeedInt (run_hash_pair r2 "c" "c"))
  /\ (exists s d, doc r1 (blank, blank) = (s, Ok d) /\ exists s' d', doc r2 s = (s', Ok d')).
Proof.
  intros uuid_of fmt r1 r2 um blank doc.
  destruct (repr_works 255) as [perf G].
  assert (W : forall r s, exists s' d, doc r s = (s', Ok d)).
  { intros r s. eapply doc_works; [exact G | reflexivity | reflexivity | reflexivity]. }
  split; [apply W|]. split; [apply W|]. split; [discriminate|].
  destruct (W r1 (blank, blank)) as (s & d & E). exists s, d. split; [exact E|]. apply W.
Qed.
