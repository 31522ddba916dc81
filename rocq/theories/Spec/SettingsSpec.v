(** The settings of a constructed unit (C82). *)
From Coq Require Import Reals List.
From Verif.Base Require Import Num Res.
From Verif.Model Require Import Units Psychrometrics Conditions Defrost Fan Tabular Unit DXUnit.
From Verif.Spec Require Import UnitSpec.
Import ListNotations.
Local Open Scope R_scope.

(** The value the caller gave, or the default. *)
Definition given_or {A} (o : option A) (d : A) : A := match o with Some x => x | None => d end.

(** Compressor speeds asked for: one per entry of a list of capacities, else one, two or
    four by staging type, else one. *)
Definition speeds_asked (caps : option (num_or_list R)) (s : option staging_type) : nat :=
  match caps, s with
  | Some (Many l), _ => length l
  | _, Some VARIABLE_SPEED => 4
  | _, Some TWO_STAGE => 2
  | _, _ => 1
  end.
(** Without a staging type the heating speeds decide it. *)
Definition staging_asked (a : dxargs R) : staging_type :=
  match a_staging a with
  | Some s => s
  | None => match speeds_asked (a_hcap a) None with
            | 1%nat => SINGLE_STAGE
            | 2%nat => TWO_STAGE
            | _ => VARIABLE_SPEED
            end
  end.

(** EER expected of a SEER. *)
Definition eer_of_seer (s : R) : R :=
  if Rlt_dec s 13 then 10 + 0.84 * (s - 11.5) else 11.3 + 0.57 * (s - 13).

(** The default defrost: reverse cycle below 41 °F, 3.5 minutes per hour. *)
Definition usual_defrost (d : defrost R) : Prop :=
  df_strategy d = DSReverseCycle /\ df_control d = DCTimed /\
  df_high_temperature d = deg_F 41 /\ df_low_temperature d = None /\
  df_period d = 90 * 60 /\ df_max_time d = 720 * 60 /\
  forall c, df_time_fraction d c = Ok (3.5 / 60).

(** Speed numbers of one mode: how many, which is full load, intermediate, boost, low. *)
Definition numbered (n full : nat) (int : option nat) (s : side R) : Prop :=
  sd_n s = n /\ sd_full s = full /\ sd_int s = given_or int (S full) /\
  sd_boost s = (match full with O => None | _ => Some 0%nat end) /\
  sd_low s = (match n with O | 1%nat => None | S k => Some k end).
