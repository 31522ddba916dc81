(** Model of /repo/resdx/psychrometrics.py *)
From Coq Require Import QArith List String.
From Verif.Base Require Import Num Res.
From Verif.Model Require Import Units.
Import ListNotations.

(** The psychrolib functions the package calls (SI units: degC, Pa, J/kg,
    kg/m3).  psychrolib is external: every theorem holds for all values of this
    record, except where it states a hypothesis about it.  A function may raise
    (psychrolib validates its arguments). *)
Record psychro (T : Type) := {
  GetHumRatioFromTWetBulb : T -> T -> T -> res T;
  GetTWetBulbFromHumRatio : T -> T -> T -> res T;
  GetTWetBulbFromRelHum : T -> T -> T -> res T;
  GetMoistAirEnthalpy : T -> T -> res T;
  GetHumRatioFromEnthalpyAndTDryBulb : T -> T -> res T;
  GetMoistAirDensity : T -> T -> T -> res T;
  GetSatHumRatio : T -> T -> res T;
  GetSatAirEnthalpy : T -> T -> res T;
  GetTDryBulbFromEnthalpyAndHumRatio : T -> T -> res T;
  GetRelHumFromTWetBulb : T -> T -> T -> res T;
  GetHumRatioFromRelHum : T -> T -> T -> res T
}.
Arguments GetHumRatioFromTWetBulb {T}.
Arguments GetTWetBulbFromHumRatio {T}.
Arguments GetTWetBulbFromRelHum {T}.
Arguments GetMoistAirEnthalpy {T}.
Arguments GetHumRatioFromEnthalpyAndTDryBulb {T}.
Arguments GetMoistAirDensity {T}.
Arguments GetSatHumRatio {T}.
Arguments GetSatAirEnthalpy {T}.
Arguments GetTDryBulbFromEnthalpyAndHumRatio {T}.
Arguments GetRelHumFromTWetBulb {T}.
Arguments GetHumRatioFromRelHum {T}.

(** The attributes of a [PsychState] (psychrometrics.py:11-25).  A pair
    (flag [x_set], value [_x]) is an option: [None] is "flag False" (the
    placeholder -999.0 is never read while the flag is False).  [dp_set] is
    never used.  [C_p] is the constant 1006 J/kg/K. *)
Record psych_state (T : Type) := mkPsych {
  ps_db : T;
  ps_p : T;
  ps_wb : option T;
  ps_hr : option T;
  ps_rh : option T;
  ps_h : option T;
  ps_rho : option T
}.
Arguments mkPsych {T}.
Arguments ps_db {T}.
Arguments ps_p {T}.
Arguments ps_wb {T}.
Arguments ps_hr {T}.
Arguments ps_rh {T}.
Arguments ps_h {T}.
Arguments ps_rho {T}.

Section Psych.
  Context {T : Type} {NT : Num T}.
  Variable psy : psychro T.
  Local Open Scope num_scope.
  Notation state := (psych_state T).

  (** psychrometrics.py:12, 52: the Celsius copies. *)
  Definition db_C (s : state) : T := to_C (ps_db s).

  Definition put_wb (s : state) (w : T) : state :=
    mkPsych (ps_db s) (ps_p s) (Some w) (ps_hr s) (ps_rh s) (ps_h s) (ps_rho s).
  Definition put_hr (s : state) (v : T) : state :=
    mkPsych (ps_db s) (ps_p s) (ps_wb s) (Some v) (ps_rh s) (ps_h s) (ps_rho s).
  Definition put_rh (s : state) (v : T) : state :=
    mkPsych (ps_db s) (ps_p s) (ps_wb s) (ps_hr s) (Some v) (ps_h s) (ps_rho s).
  Definition put_h (s : state) (v : T) : state :=
    mkPsych (ps_db s) (ps_p s) (ps_wb s) (ps_hr s) (ps_rh s) (Some v) (ps_rho s).
  Definition put_rho (s : state) (v : T) : state :=
    mkPsych (ps_db s) (ps_p s) (ps_wb s) (ps_hr s) (ps_rh s) (ps_h s) (Some v).

  (** psychrometrics.py:43-47, the [wb] getter *)
  Definition get_wb : st state T := sread (fun s => need RuntimeError (ps_wb s)).

  (** psychrometrics.py:49-53, the [wb] setter *)
  Definition set_wb (w : T) : st state unit := smod (fun s => put_wb s w).

  (** psychrometrics.py:55-59 *)
  Definition get_wb_C : st state T :=
    sread (fun s => let! w := need RuntimeError (ps_wb s) in Ok (to_C w)).

  (** psychrometrics.py:71-80, the [hr] setter.  [_hr] is assigned first but is
      only visible once [hr_set] is assigned last, after the wet bulb. *)
  Definition set_hr (v : T) : st state unit :=
    do s <- sget ;;
    do _ <- match ps_wb s with
            | Some _ => sret tt
            | None =>
                do w <- slift (GetTWetBulbFromHumRatio psy (db_C s) v (ps_p s)) ;;
                set_wb (fr_C w)
            end ;;
    smod (fun s => put_hr s v).

  (** psychrometrics.py:61-69, the [hr] getter *)
  Definition get_hr : st state T :=
    do s <- sget ;;
    match ps_hr s with
    | Some v => sret v
    | None =>
        do wc <- get_wb_C ;;
        do v <- slift (GetHumRatioFromTWetBulb psy (db_C s) wc (ps_p s)) ;;
        do _ <- set_hr v ;;
        sret v
    end.

  (** psychrometrics.py:92-99, the [rh] setter *)
  Definition set_rh (v : T) : st state unit :=
    do s <- sget ;;
    do _ <- match ps_wb s with
            | Some _ => sret tt
            | None =>
                do w <- slift (GetTWetBulbFromRelHum psy (db_C s) v (ps_p s)) ;;
                set_wb (fr_C w)
            end ;;
    smod (fun s => put_rh s v).

  (** psychrometrics.py:82-90, the [rh] getter (it calls
      [GetHumRatioFromTWetBulb], exactly as [hr] does). *)
  Definition get_rh : st state T :=
    do s <- sget ;;
    match ps_rh s with
    | Some v => sret v
    | None =>
        do wc <- get_wb_C ;;
        do v <- slift (GetHumRatioFromTWetBulb psy (db_C s) wc (ps_p s)) ;;
        do _ <- set_rh v ;;
        sret v
    end.

  (** psychrometrics.py:109-114, the [h] setter *)
  Definition set_h (v : T) : st state unit :=
    do s <- sget ;;
    do _ <- match ps_hr s with
            | Some _ => sret tt
            | None =>
                do w <- slift (GetHumRatioFromEnthalpyAndTDryBulb psy v (db_C s)) ;;
                set_hr w
            end ;;
    smod (fun s => put_h s v).

  (** psychrometrics.py:101-107, the [h] getter *)
  Definition get_h : st state T :=
    do s <- sget ;;
    match ps_h s with
    | Some v => sret v
    | None =>
        do hr <- get_hr ;;
        do v <- slift (GetMoistAirEnthalpy psy (db_C s) hr) ;;
        do _ <- set_h v ;;
        sret v
    end.

  (** psychrometrics.py:124-127, the [rho] setter *)
  Definition set_rho (v : T) : st state unit := smod (fun s => put_rho s v).

  (** psychrometrics.py:116-122, the [rho] getter *)
  Definition get_rho : st state T :=
    do s <- sget ;;
    match ps_rho s with
    | Some v => sret v
    | None =>
        do hr <- get_hr ;;
        do v <- slift (GetMoistAirDensity psy (db_C s) hr (ps_p s)) ;;
        do _ <- set_rho v ;;
        sret v
    end.

  (** psychrometrics.py:11-25: the object before the keyword is processed. *)
  Definition blank (db p : T) : state := mkPsych db p None None None None None.

  Definition has_kw (k : string) (kwargs : list (string * T)) : option T :=
    match List.find (fun kv => String.eqb k (fst kv)) kwargs with
    | Some kv => Some (snd kv)
    | None => None
    end.

  (** psychrometrics.py:10-41.  [kwargs] is the keyword dictionary (an
      association list with distinct keys). *)
  Definition PsychState (db p : T) (kwargs : list (string * T)) : res state :=
    if Nat.ltb 1 (List.length kwargs) then Err RuntimeError
    else
      let run (m : st state unit) :=
        match m (blank db p) with (s, Ok _) => Ok s | (_, Err e) => Err e end in
      match has_kw "wetbulb" kwargs, has_kw "hum_rat" kwargs,
            has_kw "rel_hum" kwargs, has_kw "enthalpy" kwargs with
      | Some w, _, _, _ => run (set_wb w)
      | None, Some v, _, _ => run (set_hr v)
      | None, None, Some v, _ => run (set_rh v)
      | None, None, None, Some v => run (set_h v)
      | None, None, None, None => Err RuntimeError
      end.

  (** What a read of the attribute returns; the cache update is dropped.  Used
      by the rest of the model; [Props/C05] shows that dropping the cache is
      unobservable. *)
  Definition obs {A} (m : st state A) (s : state) : res A := snd (m s).
  Definition wb_of (s : state) : res T := obs get_wb s.
  Definition hr_of (s : state) : res T := obs get_hr s.
  Definition rh_of (s : state) : res T := obs get_rh s.
  Definition h_of (s : state) : res T := obs get_h s.
  Definition rho_of (s : state) : res T := obs get_rho s.
  (** psychrometrics.py:25 *)
  Definition C_p : T := lit 1006.

  (** [PsychState(drybulb=..., wetbulb=...)] cannot fail. *)
  Definition psych_wetbulb (db p w : T) : state := put_wb (blank db p) w.

  (** psychrometrics.py:130 *)
  Definition STANDARD_CONDITIONS : res state :=
    PsychState (fr_F (lit 70)) atm [("hum_rat"%string, lit 0)].
End Psych.
