(** Model of /repo/resdx/fan.py *)
From Coq Require Import QArith List.
From Verif.Base Require Import Num Res.
From Verif.Model Require Import Units Util.
Import ListNotations.
Local Open Scope nat_scope.

(** * Root finders (scipy.optimize), external *)

(** A root finder that queries its function adaptively: it either stops with a
    result, raises, or asks for the function value at a point and continues
    with the answer.  [scipy.optimize.newton] (secant method) is such a process
    started at its initial guess.  The type is inductive: every run is finite
    (scipy stops after 50 iterations). *)
Inductive prober (T : Type) : Type :=
| PDone (x : T)
| PFail (e : exn)
| PAsk (x : T) (k : T -> prober T).
Arguments PDone {T} x.
Arguments PFail {T} e.
Arguments PAsk {T} x k.

(** Run a prober against a function with side effects on a state. *)
Fixpoint run_prober {T S} (f : T -> st S T) (p : prober T) : st S T :=
  match p with
  | PDone x => sret x
  | PFail e => slift (Err e)
  | PAsk x k => do y <- f x ;; run_prober f (k y)
  end.

(** Run a prober against a function without side effects. *)
Fixpoint run_prober_pure {T} (f : T -> res T) (p : prober T) : res T :=
  match p with
  | PDone x => Ok x
  | PFail e => Err e
  | PAsk x k => let! y := f x in run_prober_pure f (k y)
  end.

(** [scipy.optimize.brentq(f, a, b)] and [scipy.optimize.newton(f, x0)]. *)
Record solvers (T : Type) := {
  brentq : (T -> res T) -> T -> T -> res T;
  newton : T -> prober T
}.
Arguments brentq {T}.
Arguments newton {T}.

(** * Fans *)

(** Class attributes of an EERE fan subclass (fan.py:640-642, 719-794). *)
Record eere_class (T : Type) := mkEere {
  e_flow : T * T;            (* FLOW_COEFFICIENTS *)
  e_base : list T;           (* BASE_EFFICACIES *)
  e_eff : T * T              (* EFFICACY_COEFFICIENTS *)
}.
Arguments mkEere {T}.
Arguments e_flow {T}. Arguments e_base {T}. Arguments e_eff {T}.

(** The concrete subclasses of [Fan].  ECM carries [maximum_power]
    ([None] = infinity). *)
Inductive fan_class (T : Type) : Type :=
| ConstantEfficacyFan
| PSCFan
| ECMFlowFan (maximum_power : option T)
| EEREFan (c : eere_class T)
| RESNETPSCFan
| RESNETBPMFan.
Arguments ConstantEfficacyFan {T}. Arguments PSCFan {T}. Arguments ECMFlowFan {T}.
Arguments EEREFan {T}. Arguments RESNETPSCFan {T}. Arguments RESNETBPMFan {T}.

(** [design_efficacy] is a number or (ConstantEfficacyFan) a list. *)
Inductive efficacy_attr (T : Type) : Type :=
| EffNum (x : T)
| EffList (l : list T).
Arguments EffNum {T} x.
Arguments EffList {T} l.

(** Attributes of a fan.  Lists that a class does not have stay empty. *)
Record fan (T : Type) := mkFan {
  f_class : fan_class T;
  f_design_esp : T;                  (* design_external_static_pressure *)
  f_design_efficacy : efficacy_attr T;
  f_n : nat;                         (* number_of_speeds *)
  f_airflow : list T;                (* design_airflow *)
  f_ratio : list T;                  (* design_airflow_ratio *)
  f_sysk : T;                        (* system_curve_constant *)
  f_reduction : T;                   (* PSC: design_airflow_reduction *)
  f_free_airflow : list T;           (* PSC, EERE *)
  f_free_ratio : list T;             (* PSC: free_airflow_ratio *)
  f_speed_efficacy : list T;         (* PSC *)
  f_block_pressure : list T;         (* PSC *)
  f_free_speed : list T;             (* PSC *)
  f_free_eff0 : T;                   (* ECM: design_free_efficacy *)
  f_free_efficacy : list T;          (* ECM *)
  f_nominal : option T;              (* EERE: nominal_system_capacity *)
  f_index : option (nat * nat);      (* EERE: lower_index, upper_index *)
  f_weight : option T                (* EERE: capacity_weight *)
}.
Arguments mkFan {T}.
Arguments f_class {T}. Arguments f_design_esp {T}. Arguments f_design_efficacy {T}.
Arguments f_n {T}. Arguments f_airflow {T}. Arguments f_ratio {T}.
Arguments f_sysk {T}. Arguments f_reduction {T}. Arguments f_free_airflow {T}.
Arguments f_free_ratio {T}. Arguments f_speed_efficacy {T}.
Arguments f_block_pressure {T}. Arguments f_free_speed {T}.
Arguments f_free_eff0 {T}. Arguments f_free_efficacy {T}.
Arguments f_nominal {T}. Arguments f_index {T}. Arguments f_weight {T}.

Section Fan.
  Context {T : Type} {NT : Num T} {NX : NumX T}.
  Variable sol : solvers T.
  Local Open Scope num_scope.
  Notation F := (fan T).

  (** [math.log] raises ValueError for a non-positive argument. *)
  Definition pylog (x : T) : res T :=
    if x <=? lit 0 then Err ValueError else Ok (nln x).
  (** [x ** 0.5].  For a negative base Python returns a complex number, which
      the comparisons that follow reject with TypeError; modelled as that. *)
  Definition pysqrt (x : T) : res T :=
    if x <? lit 0 then Err TypeError else Ok (nsqrt x).
  (** [x ** y] for a positive literal exponent; negative bases as above. *)
  Definition pypow (x y : T) : res T :=
    if x <? lit 0 then Err TypeError
    else if x =? lit 0 then Ok (lit 0) else Ok (npow x y).

  (** ** Attribute assignments *)
  Definition w_base (n : nat) (a r : list T) (f : F) : F :=
    mkFan (f_class f) (f_design_esp f) (f_design_efficacy f) n a r (f_sysk f)
      (f_reduction f) (f_free_airflow f) (f_free_ratio f) (f_speed_efficacy f)
      (f_block_pressure f) (f_free_speed f) (f_free_eff0 f) (f_free_efficacy f)
      (f_nominal f) (f_index f) (f_weight f).
  Definition w_eff (e : efficacy_attr T) (f : F) : F :=
    mkFan (f_class f) (f_design_esp f) e (f_n f) (f_airflow f) (f_ratio f)
      (f_sysk f) (f_reduction f) (f_free_airflow f) (f_free_ratio f)
      (f_speed_efficacy f) (f_block_pressure f) (f_free_speed f) (f_free_eff0 f)
      (f_free_efficacy f) (f_nominal f) (f_index f) (f_weight f).
  Definition w_free (fa fr se bp fs : list T) (f : F) : F :=
    mkFan (f_class f) (f_design_esp f) (f_design_efficacy f) (f_n f)
      (f_airflow f) (f_ratio f) (f_sysk f) (f_reduction f) fa fr se bp fs
      (f_free_eff0 f) (f_free_efficacy f) (f_nominal f) (f_index f) (f_weight f).
  Definition w_fe (fe : list T) (f : F) : F :=
    mkFan (f_class f) (f_design_esp f) (f_design_efficacy f) (f_n f)
      (f_airflow f) (f_ratio f) (f_sysk f) (f_reduction f) (f_free_airflow f)
      (f_free_ratio f) (f_speed_efficacy f) (f_block_pressure f)
      (f_free_speed f) (f_free_eff0 f) fe (f_nominal f) (f_index f) (f_weight f).
  Definition w_size (nom : option T) (ix : option (nat * nat)) (w : option T)
      (f : F) : F :=
    mkFan (f_class f) (f_design_esp f) (f_design_efficacy f) (f_n f)
      (f_airflow f) (f_ratio f) (f_sysk f) (f_reduction f) (f_free_airflow f)
      (f_free_ratio f) (f_speed_efficacy f) (f_block_pressure f)
      (f_free_speed f) (f_free_eff0 f) (f_free_efficacy f) nom ix w.

  (** ** System curve *)

  (** fan.py:81-82 ([SYSTEM_EXPONENT] is 0.5, so the exponent is 2.0) *)
  Definition system_pressure (f : F) (airflow : T) : T := nsq (airflow * f_sysk f).

  (** fan.py:84-88 *)
  Definition system_flow (f : F) (esp : T) : res T :=
    let! r := pysqrt esp in pydiv r (f_sysk f).

  (** fan.py:90-94 *)
  Definition system_curve_constant (esp nominal_airflow : T) : res T :=
    let! r := pysqrt esp in pydiv r nominal_airflow.

  (** ** Speeds *)

  (** fan.py:69-74 *)
  Definition base_add_speed (airflow : T) : st F unit :=
    smod (fun f => w_base (f_n f) (f_airflow f ++ [airflow]) (f_ratio f) f) ;;;
    smod (fun f => w_base (S (f_n f)) (f_airflow f) (f_ratio f) f) ;;;
    do f <- sget ;;
    do a <- slift (lasti (f_airflow f)) ;;
    do a0 <- slift (geti (f_airflow f) 0) ;;
    do r <- slift (pydiv a a0) ;;
    smod (fun f => w_base (f_n f) (f_airflow f) (f_ratio f ++ [r]) f).

  (** fan.py:76-79 *)
  Definition base_remove_speed (i : nat) : st F unit :=
    do f <- sget ;;
    do a <- slift (popi (f_airflow f) i) ;;
    smod (fun f => w_base (f_n f) a (f_ratio f) f) ;;;
    smod (fun f => w_base (Nat.pred (f_n f)) (f_airflow f) (f_ratio f) f) ;;;
    do r <- slift (popi (f_ratio f) i) ;;
    smod (fun f => w_base (f_n f) (f_airflow f) r f).

  (** fan.py:430-432 *)
  Definition AIRFLOW_COEFFICIENT : T := fr_cfm (lit 10).
  Definition AIRFLOW_EXP_COEFFICIENT : T := fr_per_inH2O (lit 5.35).
  Definition EFFICACY_SLOPE : T := lit 0.3.

  (** fan.py:510-513 *)
  Definition airflow_reduction (esp : T) : T :=
    AIRFLOW_COEFFICIENT * (nexp (esp * AIRFLOW_EXP_COEFFICIENT) - lit 1).

  (** [design_efficacy] used as a number; a list times a float is a TypeError. *)
  Definition eff_num (f : F) : res T :=
    match f_design_efficacy f with EffNum x => Ok x | EffList _ => Err TypeError end.

  (** fan.py:453-474, PSCFan.add_speed *)
  Definition psc_add_speed (airflow : T) (esp : option T) : st F unit :=
    do f <- sget ;;
    let design := match esp with
                  | Some p => airflow - (f_reduction f - airflow_reduction p)
                  | None => airflow
                  end in
    base_add_speed design ;;;
    let fa := design + f_reduction f in
    smod (fun f => w_free (f_free_airflow f ++ [fa]) (f_free_ratio f)
                     (f_speed_efficacy f) (f_block_pressure f) (f_free_speed f) f) ;;;
    do f <- sget ;;
    do fa0 <- slift (geti (f_free_airflow f) 0) ;;
    do r <- slift (pydiv fa fa0) ;;
    smod (fun f => w_free (f_free_airflow f) (f_free_ratio f ++ [r])
                     (f_speed_efficacy f) (f_block_pressure f) (f_free_speed f) f) ;;;
    do e <- slift (eff_num f) ;;
    smod (fun f => w_free (f_free_airflow f) (f_free_ratio f)
                     (f_speed_efficacy f
                        ++ [e * (lit 1 + EFFICACY_SLOPE * (r - lit 1))])
                     (f_block_pressure f) (f_free_speed f) f) ;;;
    do l <- slift (pylog (fa / AIRFLOW_COEFFICIENT + lit 1)) ;;
    smod (fun f => w_free (f_free_airflow f) (f_free_ratio f) (f_speed_efficacy f)
                     (f_block_pressure f ++ [l / AIRFLOW_EXP_COEFFICIENT])
                     (f_free_speed f) f) ;;;
    smod (fun f => w_free (f_free_airflow f) (f_free_ratio f) (f_speed_efficacy f)
                     (f_block_pressure f)
                     (f_free_speed f ++ [fr_rpm (lit 1040) * r]) f).

  (** fan.py:476-482 *)
  Definition psc_remove_speed (i : nat) : st F unit :=
    base_remove_speed i ;;;
    do f <- sget ;;
    do fa <- slift (popi (f_free_airflow f) i) ;;
    smod (w_free fa (f_free_ratio f) (f_speed_efficacy f) (f_block_pressure f)
            (f_free_speed f)) ;;;
    do fr <- slift (popi (f_free_ratio f) i) ;;
    smod (w_free fa fr (f_speed_efficacy f) (f_block_pressure f) (f_free_speed f)) ;;;
    do se <- slift (popi (f_speed_efficacy f) i) ;;
    smod (w_free fa fr se (f_block_pressure f) (f_free_speed f)) ;;;
    do bp <- slift (popi (f_block_pressure f) i) ;;
    smod (w_free fa fr se bp (f_free_speed f)) ;;;
    do fs <- slift (popi (f_free_speed f) i) ;;
    smod (w_free fa fr se bp fs).

  (** fan.py:409-412: the second positional argument is the efficacy.
      [design_efficacy.append] on a number is an AttributeError (only possible
      while the base constructor runs, which never passes an efficacy). *)
  Definition const_add_speed (airflow : T) (efficacy : option T) : st F unit :=
    base_add_speed airflow ;;;
    match efficacy with
    | None => sret tt
    | Some e =>
        do f <- sget ;;
        match f_design_efficacy f with
        | EffList l => smod (w_eff (EffList (l ++ [e])))
        | EffNum _ => slift (Err AttributeError)
        end
    end.

  (** fan.py:414-416 *)
  Definition const_remove_speed (i : nat) : st F unit :=
    base_remove_speed i ;;;
    do f <- sget ;;
    match f_design_efficacy f with
    | EffList l => do l' <- slift (popi l i) ;; smod (w_eff (EffList l'))
    | EffNum _ => slift (Err AttributeError)
    end.

  (** fan.py:529-531 *)
  Definition EFFICACY_SLOPE_ESP : T := fr_W_per_cfm_inH2O (lit 0.235).
  (** fan.py:532-534 *)
  Definition SPEED_SLOPE_ESP : T := fr_rpm_per_inH2O (lit 463.5).

  (** fan.py:561-567, 569-571 *)
  Definition ecm_add_speed (airflow : T) : st F unit :=
    base_add_speed airflow ;;;
    do f <- sget ;;
    do r <- slift (lasti (f_ratio f)) ;;
    smod (w_fe (f_free_efficacy f ++ [f_free_eff0 f * r * r])).
  Definition ecm_remove_speed (i : nat) : st F unit :=
    base_remove_speed i ;;;
    do f <- sget ;;
    do l <- slift (popi (f_free_efficacy f) i) ;;
    smod (w_fe l).

  (** fan.py:699-709, 711-713 *)
  Definition eere_add_speed (k : eere_class T) (airflow : T) (esp : option T)
      : st F unit :=
    do f <- sget ;;
    let p := match esp with Some p => p | None => system_pressure f airflow end in
    base_add_speed airflow ;;;
    let offset := fst (e_flow k) * p + snd (e_flow k) * p * p in
    smod (fun f => w_free (f_free_airflow f ++ [airflow - offset]) (f_free_ratio f)
                     (f_speed_efficacy f) (f_block_pressure f) (f_free_speed f) f).
  Definition eere_remove_speed (i : nat) : st F unit :=
    base_remove_speed i ;;;
    do f <- sget ;;
    do l <- slift (popi (f_free_airflow f) i) ;;
    smod (w_free l (f_free_ratio f) (f_speed_efficacy f) (f_block_pressure f)
            (f_free_speed f)).

  (** [self.add_speed(airflow, x)]: dynamic dispatch.  The second positional
      argument is a static pressure for all classes but ConstantEfficacyFan,
      where it is the efficacy (fan.py:69, 409, 453, 561, 699). *)
  Definition add_speed (airflow : T) (x : option T) : st F unit :=
    do f <- sget ;;
    match f_class f with
    | ConstantEfficacyFan => const_add_speed airflow x
    | PSCFan => psc_add_speed airflow x
    | ECMFlowFan _ => ecm_add_speed airflow
    | EEREFan k => eere_add_speed k airflow x
    | RESNETPSCFan | RESNETBPMFan => base_add_speed airflow
    end.

  Definition remove_speed (i : nat) : st F unit :=
    do f <- sget ;;
    match f_class f with
    | ConstantEfficacyFan => const_remove_speed i
    | PSCFan => psc_remove_speed i
    | ECMFlowFan _ => ecm_remove_speed i
    | EEREFan _ => eere_remove_speed i
    | RESNETPSCFan | RESNETBPMFan => base_remove_speed i
    end.

  (** ** Airflow at an explicit static pressure *)

  (** fan.py:573-582 *)
  Definition unconstrained_efficacy (f : F) (i : nat) (p : T) : res T :=
    let! e := geti (f_free_efficacy f) i in Ok (e + EFFICACY_SLOPE_ESP * p).
  Definition unconstrained_power (f : F) (i : nat) (p : T) : res T :=
    let! a := geti (f_airflow f) i in
    let! e := unconstrained_efficacy f i p in
    Ok (a * e).

  (** fan.py:587-590 *)
  Definition ecm_power_at (mx : option T) (f : F) (i : nat) (p : T) : res T :=
    let! u := unconstrained_power f i p in
    Ok (match mx with Some m => pymin u m | None => u end).

  (** fan.py:595-607 *)
  Definition ecm_airflow_at (mx : option T) (f : F) (i : nat) (p : T) : res T :=
    if p =? lit 0 then geti (f_airflow f) i
    else
      let! a := geti (f_airflow f) i in
      let! w := ecm_power_at mx f i p in
      let! u := unconstrained_power f i p in
      let! q := pydiv w u in
      let! r := pysqrt q in
      pydiv (a * p * r) p.

  (** The [airflow] methods with a pressure given: fan.py:421-422, 490-494,
      595-607, 678-682, 799-800. *)
  Definition airflow_at (f : F) (i : nat) (p : T) : res T :=
    match f_class f with
    | ConstantEfficacyFan | RESNETPSCFan | RESNETBPMFan => geti (f_airflow f) i
    | PSCFan =>
        let! a := geti (f_free_airflow f) i in
        Ok (pymax (a - airflow_reduction p) (lit 0))
    | ECMFlowFan mx => ecm_airflow_at mx f i p
    | EEREFan k =>
        let! a := geti (f_free_airflow f) i in
        Ok (calc_quad (a, fst (e_flow k), snd (e_flow k)) p)
    end.

  (** fan.py:139-151 and 515-520 (without an explicit system curve, the only
      use in the package). *)
  Definition operating_pressure (f : F) (i : nat) : res T :=
    brentq sol
      (fun x => let! a := airflow_at f i x in
                let! s := system_flow f x in Ok (a - s))
      (lit 0) (lit 3 * f_design_esp f).

  (** The [airflow] methods. *)
  Definition airflow (f : F) (i : nat) (esp : option T) : res T :=
    match f_class f, esp with
    | (ConstantEfficacyFan | RESNETPSCFan | RESNETBPMFan), _ => geti (f_airflow f) i
    | _, Some p => airflow_at f i p
    | (PSCFan | ECMFlowFan _), None =>
        let! p := operating_pressure f i in airflow_at f i p
    | EEREFan _, None => let! _ := geti (f_free_airflow f) i in Err TypeError
    end.

  (** fan.py:102-105 *)
  Definition airflow_ratio (f : F) (i base : nat) (esp : option T) : res T :=
    let! a := airflow f i esp in
    let! b := airflow f base esp in
    pydiv a b.

  (** ** Efficacy and power *)

  (** fan.py:684-697, EEREFan.efficacy *)
  Definition eere_efficacy_at (k : eere_class T) (f : F) (p : T) : res T :=
    let! ix := need AttributeError (f_index f) in
    let! lo := geti (e_base k) (fst ix) in
    let! hi := geti (e_base k) (snd ix) in
    let el := calc_quad (lo, fst (e_eff k), snd (e_eff k)) p in
    let eu := calc_quad (hi, fst (e_eff k), snd (e_eff k)) p in
    let! w := need AttributeError (f_weight f) in
    Ok (el + (eu - el) * w).

  (** fan.py:813-818, RESNETPSCFan.efficacy *)
  Definition resnet_psc_efficacy (f : F) (i : nat) (esp : option T) : res T :=
    let! e := eff_num f in
    let! r := airflow_ratio f i 0 esp in
    Ok (e * (EFFICACY_SLOPE * r + (lit 1 - EFFICACY_SLOPE))).

  (** fan.py:822-823 *)
  Definition DUCTED_DESIGN_EFFICACY : T := fr_W_per_cfm (lit 0.281).
  Definition DUCTLESS_DESIGN_EFFICACY : T := fr_W_per_cfm (lit 0.171).

  (** fan.py:834-861, RESNETBPMFan.efficacy *)
  Definition resnet_bpm_efficacy (f : F) (i : nat) (esp : option T) : res T :=
    let! dp := operating_pressure f i in
    let p := match esp with Some p => p | None => dp end in
    let! ducted_ratio := airflow_ratio f i 0 (Some dp) in
    let! ductless_ratio := airflow_ratio f i 0 (Some (lit 0)) in
    let! w := pypow ducted_ratio (lit 1.75) in
    let ducted := DUCTED_DESIGN_EFFICACY * w in
    let ductless := DUCTLESS_DESIGN_EFFICACY * ductless_ratio * ductless_ratio in
    let! q := pydiv ((ducted - ductless) * p) dp in
    Ok (ductless + q).

  (** The pressure a [None] argument stands for in ECMFlowFan (fan.py:585-586,
      593-594, 610-611). *)
  Definition esp_or_operating (f : F) (i : nat) (esp : option T) : res T :=
    match esp with Some p => Ok p | None => operating_pressure f i end.

  (** The [efficacy] methods: fan.py:418-419, 484-485, 609-614, 684-697,
      813-818, 834-861. *)
  Definition efficacy (f : F) (i : nat) (esp : option T) : res T :=
    match f_class f with
    | ConstantEfficacyFan =>
        match f_design_efficacy f with
        | EffList l => geti l i
        | EffNum _ => Err TypeError
        end
    | PSCFan => geti (f_speed_efficacy f) i
    | ECMFlowFan mx =>
        let! p := esp_or_operating f i esp in
        let! w := ecm_power_at mx f i p in
        let! a := airflow_at f i p in
        pydiv w a
    | EEREFan k =>
        match esp with Some p => eere_efficacy_at k f p | None => Err TypeError end
    | RESNETPSCFan => resnet_psc_efficacy f i esp
    | RESNETBPMFan => resnet_bpm_efficacy f i esp
    end.

  (** The [power] methods: fan.py:107-110 and (ECM) 584-590. *)
  Definition power (f : F) (i : nat) (esp : option T) : res T :=
    match f_class f with
    | ECMFlowFan mx =>
        let! p := esp_or_operating f i esp in ecm_power_at mx f i p
    | _ =>
        let! a := airflow f i esp in
        let! e := efficacy f i esp in
        Ok (a * e)
    end.

  (** fan.py:112-115 *)
  Definition power_ratio (f : F) (i base : nat) (esp : option T) : res T :=
    let! a := power f i esp in
    let! b := power f base esp in
    pydiv a b.

  (** fan.py:117-126 *)
  Definition fluid_power (f : F) (i : nat) (esp : option T) : res T :=
    let! a := airflow f i esp in
    let! p := esp_or_operating f i esp in
    Ok (a * p).

  (** fan.py:128-131 *)
  Definition efficiency (f : F) (i : nat) (esp : option T) : res T :=
    let! a := fluid_power f i esp in
    let! b := power f i esp in
    pydiv a b.

  (** fan.py:616-621 *)
  Definition unconstrained_rotational_speed (f : F) (i : nat) (p : T) : res T :=
    let! r := geti (f_ratio f) i in
    Ok ((fr_rpm (lit 1100) - SPEED_SLOPE_ESP * (f_design_esp f - p)) * r).

  (** The [rotational_speed] methods: fan.py:133-137, 496-508, 623-631. *)
  Definition rotational_speed (f : F) (i : nat) (esp : option T) : res T :=
    match f_class f with
    | PSCFan =>
        let! p := esp_or_operating f i esp in
        let! bp := geti (f_block_pressure f) i in
        if p >? bp then Ok (fr_rpm (lit 1100))
        else
          let! fs := geti (f_free_speed f) i in
          let! q := pydiv ((fr_rpm (lit 1100) - fs) * p) bp in
          Ok (fs + q)
    | ECMFlowFan _ =>
        let! p := esp_or_operating f i esp in
        let! u := unconstrained_rotational_speed f i p in
        let! e := efficacy f i (Some p) in
        let! ue := unconstrained_efficacy f i p in
        let! q := pydiv e ue in
        Ok (u * q)
    | _ =>
        let! r := airflow_ratio f i 0 esp in
        Ok (fr_rpm (lit 1100) * r)
    end.

  (** ** Probing *)

  (** fan.py:153-158 *)
  Definition check_power (air : T) (esp : option T) : st F T :=
    add_speed air None ;;;
    do f <- sget ;;
    let i := Nat.pred (f_n f) in
    do p <- sread (fun f => power f i esp) ;;
    remove_speed i ;;;
    sret p.

  (** fan.py:173-185: the pressure assigned to a trial airflow. *)
  Definition pressure_function (full : option (T * T)) (air : T) : res (option T) :=
    match full with
    | Some (full_esp, full_airflow) =>
        let! q := pydiv air full_airflow in Ok (Some (full_esp * nsq q))
    | None => Ok None
    end.

  (** fan.py:201-205 with 187-199: the function whose root is sought. *)
  Definition rated_speed_residual (gross flow_per_cap : T) (full : option (T * T))
      (cooling : bool) (air : T) : st F T :=
    do esp <- slift (pressure_function full air) ;;
    do w <- check_power air esp ;;
    let net := if cooling then gross - w else gross + w in
    do q <- slift (pydiv air flow_per_cap) ;;
    sret (net - q).

  (** fan.py:160-211 *)
  Definition find_rated_fan_speed (gross flow_per_cap : T) (guess : option T)
      (full_esp : option T) (cooling : bool) : st F T :=
    let g := match guess with Some g => g | None => gross * flow_per_cap end in
    do full <- match full_esp with
               | Some p => do a <- sread (fun f => airflow f 0 (Some p)) ;;
                           sret (Some (p, a))
               | None => sret None
               end ;;
    do air <- run_prober (rated_speed_residual gross flow_per_cap full cooling)
                (newton sol g) ;;
    do esp <- slift (pressure_function full air) ;;
    add_speed air esp ;;;
    sret air.

  (** ** Construction *)

  Definition blank_fan (k : fan_class T) (esp : T) (e : efficacy_attr T)
      (sysk reduction free_eff0 : T) : F :=
    mkFan k esp e 0 [] [] sysk reduction [] [] [] [] [] free_eff0 [] None None None.

  (** fan.py:42-67: the base constructor.  [airflows] is the list given, or the
      singleton of the number given; for an empty list [design_airflow[0]]
      raises IndexError. *)
  Definition init_fan (k : fan_class T) (airflows : list T) (esp : T)
      (e : efficacy_attr T) (reduction free_eff0 : T) : res F :=
    let! a0 := geti airflows 0 in
    let! sysk := system_curve_constant esp a0 in
    match sfold (fun a => add_speed a None) airflows
            (blank_fan k esp e sysk reduction free_eff0) with
    | (f, Ok _) => Ok f
    | (_, Err x) => Err x
    end.

  (** fan.py:396-407 *)
  Definition make_constant_efficacy_fan (airflows : list T) (esp : T)
      (e : efficacy_attr T) : res F :=
    let! f := init_fan ConstantEfficacyFan airflows esp e (lit 0) (lit 0) in
    match f_design_efficacy f with
    | EffList _ => Ok f
    | EffNum x => Ok (w_eff (EffList (repeat x (f_n f))) f)
    end.

  (** fan.py:434-451 *)
  Definition make_psc_fan (airflows : list T) (esp eff : T) : res F :=
    init_fan PSCFan airflows esp (EffNum eff) (airflow_reduction esp) (lit 0).

  (** fan.py:536-559 *)
  Definition make_ecm_fan (airflows : list T) (esp eff : T) (mx : option T) : res F :=
    let! a0 := geti airflows 0 in
    let design_power := a0 * eff in
    let! _ := match mx with
              | Some m => if design_power >? m then Err RuntimeError else Ok tt
              | None => Ok tt
              end in
    init_fan (ECMFlowFan mx) airflows esp (EffNum eff) (lit 0)
      (eff - EFFICACY_SLOPE_ESP * esp).

  (** fan.py:637-639 *)
  Definition NOMINAL_CAPACITIES : list T :=
    [fr_ton (lit 2); fr_ton (lit 3); fr_ton (lit 4); fr_ton (lit 5)].

  (** fan.py:666-669: the loop that looks for the size interval; the indices
      stay unset when no iteration assigns them. *)
  Definition select_loop (nominal : T) (l : list (nat * T)) : option (nat * nat) :=
    fold_left (fun acc ic => if nominal >? snd ic then Some (fst ic, S (fst ic)) else acc)
      l None.

  (** fan.py:655-669 *)
  Definition select_size (nominal : T) : option (nat * nat) :=
    let n := length NOMINAL_CAPACITIES in
    if nominal <? nth 0 NOMINAL_CAPACITIES (lit 0) then Some (0, 1)%nat
    else if nominal >? nth (n - 1)%nat NOMINAL_CAPACITIES (lit 0)
    then Some ((n - 2)%nat, (n - 1)%nat)
    else select_loop nominal (enumerate NOMINAL_CAPACITIES).

  (** fan.py:644-676 *)
  Definition make_eere_fan (k : eere_class T) (airflows : list T) (esp : T) : res F :=
    let! f := init_fan (EEREFan k) airflows esp (EffNum (fr_W_per_cfm (lit 0.365)))
                (lit 0) (lit 0) in
    let! a0 := geti (f_airflow f) 0 in
    let nominal := a0 / fr_cfm_per_ton (lit 400) in
    let ix := select_size nominal in
    let! lu := need AttributeError ix in
    let! lo := geti NOMINAL_CAPACITIES (fst lu) in
    let! hi := geti NOMINAL_CAPACITIES (snd lu) in
    let! w := pydiv (nominal - lo) (hi - lo) in
    Ok (w_size (Some nominal) ix (Some w) f).

  (** fan.py:719-724 *)
  Definition EEREBaselinePSC : eere_class T :=
    mkEere (fr_cfm_per_inH2O (lit 49), fr_cfm_per_inH2O2 (lit (-570)))
      (map fr_W_per_cfm [lit 0.49; lit 0.52; lit 0.55; lit 0.57])
      (fr_W_per_cfm_inH2O (lit (-0.2)), fr_W_per_cfm_inH2O2 (lit 0.19)).
  (** fan.py:732-733 *)
  Definition EEREImprovedPSC : eere_class T :=
    mkEere (e_flow EEREBaselinePSC)
      (map fr_W_per_cfm [lit 0.44; lit 0.47; lit 0.49; lit 0.52])
      (e_eff EEREBaselinePSC).
  (** fan.py:740-746 *)
  Definition EEREPSCWithControls : eere_class T :=
    mkEere (fr_cfm_per_inH2O (lit 267), fr_cfm_per_inH2O2 (lit (-338)))
      (map fr_W_per_cfm [lit 0.25; lit 0.27; lit 0.29; lit 0.31])
      (fr_W_per_cfm_inH2O (lit 0.14), fr_W_per_cfm_inH2O2 (lit 0.06)).
  (** fan.py:753-759 *)
  Definition EEREBPMSingleStageConstantTorque : eere_class T :=
    mkEere (fr_cfm_per_inH2O (lit (-456)), fr_cfm_per_inH2O2 (lit 8))
      (map fr_W_per_cfm [lit 0.18; lit 0.19; lit 0.21; lit 0.23])
      (fr_W_per_cfm_inH2O (lit 0.12), fr_W_per_cfm_inH2O2 (lit 0.07)).
  (** fan.py:766-767 *)
  Definition EEREBPMMultiStageConstantTorque : eere_class T :=
    mkEere (e_flow EEREBPMSingleStageConstantTorque)
      (map fr_W_per_cfm [lit 0.14; lit 0.15; lit 0.17; lit 0.16])
      (e_eff EEREBPMSingleStageConstantTorque).
  (** fan.py:774-780 *)
  Definition EEREBPMMultiStageConstantAirflow : eere_class T :=
    mkEere (fr_cfm_per_inH2O (lit 99), fr_cfm_per_inH2O2 (lit (-103)))
      (map fr_W_per_cfm [lit 0.11; lit 0.12; lit 0.13; lit 0.15])
      (fr_W_per_cfm_inH2O (lit 0.25), fr_W_per_cfm_inH2O2 (lit (-0.01))).
  (** fan.py:787-790 *)
  Definition EEREBPMMultiStageBackwardCurved : eere_class T :=
    mkEere (e_flow EEREBPMMultiStageConstantAirflow)
      (map fr_W_per_cfm [lit 0.09; lit 0.10; lit 0.11; lit 0.12])
      (e_eff EEREBPMMultiStageConstantAirflow).

  (** fan.py:806-811 *)
  Definition make_resnet_psc_fan (airflows : list T) : res F :=
    init_fan RESNETPSCFan airflows (fr_inH2O (lit 0.5))
      (EffNum (fr_W_per_cfm (lit 0.414))) (lit 0) (lit 0).

  (** fan.py:825-832 *)
  Definition make_resnet_bpm_fan (airflows : list T) : res F :=
    init_fan RESNETBPMFan airflows (fr_inH2O (lit 0.5))
      (EffNum DUCTED_DESIGN_EFFICACY) (lit 0) (lit 0).

  (** ** Speed order and the 205 representation *)

  (** [numpy.argsort] for the small arrays used here: insertion sort of the
      indices by value (ties keep their order). *)
  Fixpoint insert_by (key : nat -> T) (i : nat) (l : list nat) : list nat :=
    match l with
    | [] => [i]
    | j :: l' => if key i <? key j then i :: l else j :: insert_by key i l'
    end.
  Definition argsort (l : list T) : list nat :=
    fold_left (fun acc i => insert_by (fun k => nth k l (lit 0)) i acc)
      (seq 0 (length l)) [].

  (** fan.py:213-217 *)
  Definition get_speed_order_map (f : F) : res (list nat) :=
    let! l := rmapM (fun i => airflow f i (Some (lit 0))) (seq 0 (f_n f)) in
    Ok (argsort l).

  (** [numpy.linspace(a, b, n)] for n >= 2 *)
  Definition linspace (a b : T) (n : nat) : list T :=
    map (fun i => a + (b - a) * nZ (Z.of_nat i) / nZ (Z.of_nat (n - 1))) (seq 0 n).

  (** One entry of the 205 fan performance map: shaft_power,
      standard_air_volumetric_flow_rate, impeller_rotational_speed. *)
  Definition fan_map_entry (f : F) (order : list nat) (speed : nat) (esp : T)
      : res (T * T * T) :=
    let! i := geti order (speed - 1)%nat in
    let! w := power f i (Some esp) in
    let! a := airflow f i (Some esp) in
    let! r := rotational_speed f i (Some esp) in
    Ok (w, a, to_rps r).

  (** fan.py:312-358: grid variables and lookup variables (the metadata part of
      fan.py:219-393 is not modelled). *)
  Definition fan_205_map (f : F)
      : res (list nat * list T * list (T * T * T)) :=
    let! order := get_speed_order_map f in
    let! max_speed := lasti order in
    let speed_number := seq 1 (f_n f) in
    let! max_p := match f_class f with
                  | PSCFan => geti (f_block_pressure f) max_speed
                  | _ => Ok (fr_inH2O (lit 1.2))
                  end in
    let pressures := linspace (fr_inH2O (lit 0)) max_p 6 in
    let! rows :=
      rmapM (fun s => rmapM (fun p => fan_map_entry f order s p) pressures)
        speed_number in
    Ok (speed_number, pressures, concat rows).
End Fan.
