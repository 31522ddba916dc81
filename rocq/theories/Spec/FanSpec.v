(** Specifications for fans (C11-C19). *)
From Coq Require Import Reals List Sorting.Permutation Sorting.Sorted.
From Verif.Base Require Import Num Res.
From Verif.Model Require Import Units Util Fan.
Import ListNotations.
Local Open Scope R_scope.

(** * C11 *)

(** The per-speed lists a fan has besides airflows and airflow ratios. *)
Definition own_lists (f : fan R) : option (list (list R)) :=
  match f_class f with
  | ConstantEfficacyFan =>
      match f_design_efficacy f with EffList l => Some [l] | EffNum _ => None end
  | PSCFan => Some [f_free_airflow f; f_free_ratio f; f_speed_efficacy f;
                    f_block_pressure f; f_free_speed f]
  | ECMFlowFan _ => Some [f_free_efficacy f]
  | EEREFan _ => Some [f_free_airflow f]
  | RESNETPSCFan | RESNETBPMFan => Some []
  end.

Definition parallel (f : fan R) : Prop :=
  exists ls, own_lists f = Some ls
    /\ Forall (fun l => length l = f_n f) (f_airflow f :: f_ratio f :: ls).

(** A fan made by one of the constructors.  A ConstantEfficacyFan given a list
    of efficacies must get one per airflow. *)
Inductive made : fan R -> Prop :=
| made_const airflows esp e f :
    (forall l, e = EffList l -> length l = length airflows) ->
    make_constant_efficacy_fan airflows esp e = Ok f -> made f
| made_psc airflows esp eff f : make_psc_fan airflows esp eff = Ok f -> made f
| made_ecm airflows esp eff mx f : make_ecm_fan airflows esp eff mx = Ok f -> made f
| made_eere k airflows esp f : make_eere_fan k airflows esp = Ok f -> made f
| made_resnet_psc airflows f : make_resnet_psc_fan airflows = Ok f -> made f
| made_resnet_bpm airflows f : make_resnet_bpm_fan airflows = Ok f -> made f.

Inductive fan_op :=
| AddSpeed (airflow : R) (arg : option R)  (* pressure; efficacy for ConstantEfficacyFan *)
| RemoveSpeed (i : nat).

Definition run_op (o : fan_op) : st (fan R) unit :=
  match o with
  | AddSpeed a x => add_speed a x
  | RemoveSpeed i => remove_speed i
  end.

(** Speeds of a ConstantEfficacyFan must be added with their efficacy. *)
Definition efficacy_given (k : fan_class R) (o : fan_op) : Prop :=
  match k, o with
  | ConstantEfficacyFan, AddSpeed _ None => False
  | _, _ => True
  end.

(** * C12 *)

(** [f'] is [f] with one more speed: nothing about the earlier speeds or the
    fan as a whole changed. *)
Definition one_more (l l' : list R) : Prop := exists x, l' = l ++ [x].
Definition one_speed_appended (f f' : fan R) : Prop :=
  f_class f' = f_class f /\ f_design_esp f' = f_design_esp f
  /\ f_sysk f' = f_sysk f /\ f_reduction f' = f_reduction f
  /\ f_free_eff0 f' = f_free_eff0 f /\ f_nominal f' = f_nominal f
  /\ f_index f' = f_index f /\ f_weight f' = f_weight f
  /\ f_n f' = S (f_n f)
  /\ one_more (f_airflow f) (f_airflow f') /\ one_more (f_ratio f) (f_ratio f')
  /\ exists ls ls', own_lists f = Some ls /\ own_lists f' = Some ls'
       /\ Forall2 one_more ls ls'.

(** * C14: what is assumed of [scipy.optimize.brentq], an external solver.

    A returned point is within [tol] of an exact root inside the bracket; a
    bracket without a sign change is rejected with ValueError; for a function
    that is continuous on the bracket and changes sign, a point is returned. *)
Definition sound_brentq (tol : R) (sol : solvers R) : Prop :=
  (forall g a b x, brentq sol g a b = Ok x ->
     exists x0, a <= x0 <= b /\ g x0 = Ok 0 /\ Rabs (x - x0) <= tol)
  /\ (forall g a b ya yb, g a = Ok ya -> g b = Ok yb -> 0 < ya * yb ->
     brentq sol g a b = Err ValueError)
  /\ (forall g (h : R -> R) a b, a <= b ->
     (forall x, a <= x <= b -> g x = Ok (h x) /\ continuity_pt h x) ->
     h a * h b <= 0 -> exists x, brentq sol g a b = Ok x).

(** The fans whose airflow does not depend on the pressure. *)
Definition constant_flow (f : fan R) : Prop :=
  f_class f = ConstantEfficacyFan \/ f_class f = RESNETPSCFan
  \/ f_class f = RESNETBPMFan.

(** * C19 *)
Definition orders_by (key : nat -> R) (n : nat) (order : list nat) : Prop :=
  Permutation (seq 0 n) order
  /\ StronglySorted (fun i j => key i <= key j) order.

(** * C17: the sizes of the EERE tables, 2, 3, 4 and 5 tons. *)
Definition table_size (j : nat) : R := (2 + INR j) * ton_ref.

(** Efficacy law of a size: base efficacy plus a quadratic in the pressure. *)
Definition eere_law (k : eere_class R) (base p : R) : R :=
  base + fst (e_eff k) * p + snd (e_eff k) * p ^ 2.

(** * C18: efficacies in W per m3/s as functions of the speed ratio. *)
Definition psc_law (r : R) : R := fr_W_per_cfm 0.414 * (0.3 * r + 0.7).
Definition ducted_law (r : R) : R := fr_W_per_cfm 0.281 * Rpower r 1.75.
Definition ductless_law (r : R) : R := fr_W_per_cfm 0.171 * r ^ 2.
