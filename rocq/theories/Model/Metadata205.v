(** Model of the metadata part of [generate_205_representation] of
    /repo/resdx/dx_unit.py and /repo/resdx/fan.py.  The performance part is in
    Repr205.v.

    Left out are the entries that are the same in every representation:
    data_model, schema_version, disclaimer. *)
From Coq Require Import QArith ZArith List String.
From Verif.Base Require Import Num Res.
From Verif.Model Require Import Units Util Psychrometrics Conditions Defrost Fan Tabular
  Unit DXUnit Repr205.
Import ListNotations.
Local Open Scope string_scope.

(** [DXUnitMetadata] (dx_unit.py:96-111) without the unused compressor_type, and
    [FanMetadata] (fan.py:15-28).  A given uuid_seed is an integer. *)
Record metadata := mkMetadata {
  md_description : string;
  md_source : string;
  md_notes : string;
  md_seed : option Z;
  md_version : Z
}.
Definition w_seed (z : Z) (m : metadata) : metadata :=
  mkMetadata (md_description m) (md_source m) (md_notes m) (Some z) (md_version m).
Definition w_description (s : string) (m : metadata) : metadata :=
  mkMetadata s (md_source m) (md_notes m) (md_seed m) (md_version m).

(** A "metadata" dictionary of the representation. *)
Record doc_meta := mkDocMeta {
  dm_schema : string;
  dm_description : string;
  dm_id : string;
  dm_timestamp : string;
  dm_version : Z;
  dm_source : string;
  dm_notes : option string      (* present or not *)
}.

(** What the interpreter contributes and may change from run to run: the time,
    the default hash of an object (its address), the hash of a pair of strings
    (Python salts the hash of a string anew in every process). *)
Record run := mkRun {
  run_now : string;
  run_hash_unit : Z;
  run_hash_fan : Z;
  run_hash_pair : string -> string -> Z
}.

(** The argument of [Random.seed]: an integer or a string. *)
Inductive seed := SeedInt (z : Z) | SeedString (s : string).

Record fan_doc (T : Type) := mkFanDoc {
  fd_meta : doc_meta;            (* RS0003 *)
  fd_motor_meta : doc_meta;      (* RS0005 *)
  fd_performance : fan_repr T
}.
Arguments mkFanDoc {T}. Arguments fd_meta {T}. Arguments fd_motor_meta {T}.
Arguments fd_performance {T}.

Record unit_doc (T : Type) := mkUnitDoc {
  ud_meta : doc_meta;            (* RS0002 *)
  ud_coil_meta : doc_meta;       (* RS0004 *)
  ud_fan_meta : doc_meta;        (* RS0003, of the fan inside *)
  ud_motor_meta : doc_meta;      (* RS0005 *)
  ud_performance : unit_repr T
}.
Arguments mkUnitDoc {T}. Arguments ud_meta {T}. Arguments ud_coil_meta {T}.
Arguments ud_fan_meta {T}. Arguments ud_motor_meta {T}. Arguments ud_performance {T}.

Section Metadata.
  Context {T : Type} {NT : Num T} {NX : NumX T}.
  Variable psy : psychro T.
  Variable sol : solvers T.
  Variable M : dxmodel T.
  (** [str(uuid.UUID(int=rnd.getrandbits(128), version=4))] after [rnd.seed(s)]:
      Python's generator is the same in every process. *)
  Variable uuid_of : seed -> string.
  (** [f"{x:.nf}"] *)
  Variable fmt : nat -> T -> string.
  Local Open Scope num_scope.

  (** dx_unit.py:1413-1416, fan.py:222-225 *)
  Definition take_id (hash : Z) : st metadata string :=
    do m <- sget ;;
    match md_seed m with
    | Some z => sret (uuid_of (SeedInt z))
    | None => smod (w_seed hash) ;;; sret (uuid_of (SeedInt hash))
    end.

  Definition stamp (r : run) : string := run_now r ++ "Z".
  Definition notes_of (m : metadata) : option string :=
    if String.eqb (md_notes m) "" then None else Some (md_notes m).

  (** fan.py:285-295 *)
  Definition fan_description (f : fan T) (a e : T) : string :=
    fmt 0 (to_cfm a) ++ " cfm "
    ++ match f_class f with
       | PSCFan => "Permanent Split Capacitor (PSC) fan"
       | ECMFlowFan _ => "Electronically Commutated Motor (ECM) fan"
       | _ => "fan"
       end
    ++ " (" ++ fmt 3 (to_W_per_cfm e) ++ " W/cfm @ " ++ fmt 2 (to_inH2O (f_design_esp f))
    ++ " in. H2O)".

  (** fan.py:219-393.  The performance part is evaluated in one step at its end. *)
  Definition fan_205_doc (r : run) (f : fan T) : st metadata (fan_doc T) :=
    do id <- take_id (run_hash_fan r) ;;
    do order <- slift (get_speed_order_map sol f) ;;
    do max_speed <- slift (lasti order) ;;
    do _max_power <- slift (fan_max_power sol f max_speed) ;;
    do m <- sget ;;
    let motor := mkDocMeta "RS0005"
      "Placeholder motor representation (performance characterized in parent RS0003 fan assembly)"
      (uuid_of (SeedString id)) (stamp r) (md_version m) (md_source m) None in
    do a <- slift (geti (f_airflow f) 0) ;;
    do e <- slift (match f_design_efficacy f with
                   | EffList l => geti l 0
                   | EffNum x => Ok x
                   end) ;;
    (if String.eqb (md_description m) "" then smod (w_description (fan_description f a e))
     else sret tt) ;;;
    do m <- sget ;;
    let meta := mkDocMeta "RS0003" (md_description m) id (stamp r) (md_version m)
      (md_source m) (notes_of m) in
    do perf <- slift (fan_205 sol f) ;;
    sret (mkFanDoc meta motor perf).

  (** Operations on the metadata of the unit and of its fan. *)
  Definition on_unit {A} (m : st metadata A) : st (metadata * metadata) A :=
    fun s => let (x, r) := m (fst s) in ((x, snd s), r).
  Definition on_fan {A} (m : st metadata A) : st (metadata * metadata) A :=
    fun s => let (x, r) := m (snd s) in ((fst s, x), r).

  (** dx_unit.py:1428 *)
  Definition coil_description (q cop shr : T) : string :=
    fmt 1 (to_kBtuh q) ++ " kBtu/h, " ++ fmt 2 cop ++ " COP, " ++ fmt 2 shr
    ++ " SHR cooling coil".

  (** dx_unit.py:1410-1575; the state is the metadata of the unit and of its fan. *)
  Definition unit_205_doc (r : run) (u : dxunit T)
      : st (metadata * metadata) (unit_doc T) :=
    do id <- on_unit (take_id (run_hash_unit r)) ;;
    do q <- slift (gross_total_cooling_capacity M u None) ;;
    do cop <- slift (gross_total_cooling_cop M u None) ;;
    do shr <- slift (gross_shr M u None) ;;
    do m <- on_unit sget ;;
    let coil := mkDocMeta "RS0004" (coil_description q cop shr) id (stamp r)
      (md_version m) (md_source m) None in
    do cooling <- slift (cooling_205 psy M u) ;;
    do crank <- slift (need AttributeError (u_crank u)) ;;
    do f <- slift (need AttributeError (u_fan u)) ;;
    do fd <- on_fan (fan_205_doc r f) ;;
    let id2 := uuid_of (SeedInt (run_hash_pair r id (dm_id (fd_meta fd)))) in
    let meta := mkDocMeta "RS0002" (md_description m) id2 (stamp r) (md_version m)
      (md_source m) (notes_of m) in
    sret (mkUnitDoc meta coil (fd_meta fd) (fd_motor_meta fd)
      (mkRepr (if (sd_n (u_c u) <? 3)%nat then "DISCRETE" else "CONTINUOUS")
         (sd_cd (u_c u)) cooling
         [u_crank_setpoint u + lit (-0.5); u_crank_setpoint u + lit 0.5]
         [crank; lit 0] (fd_performance fd))).
End Metadata.
