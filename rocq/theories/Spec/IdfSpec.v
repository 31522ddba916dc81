(** What the EnergyPlus export is supposed to mean. *)
From Coq Require Import ZArith List String Ascii Bool.
From Verif.Model Require Import Idf.
Import ListNotations.
Local Open Scope string_scope.

(** * Reading an input data file

    A line is data followed by an optional comment that starts at the first [!].
    The data consists of items ended by [,] or [;].  The items up to a [;] form an
    object: its class, then its fields.  The comment [!- name] of a line gives the
    name of the fields on it. *)

Fixpoint lines (s : string) : list string :=
  match s with
  | "" => [""]
  | String c s' =>
      if (c =? "010")%char then "" :: lines s'
      else match lines s' with
           | l :: ls => String c l :: ls
           | [] => [String c ""]
           end
  end.

Fixpoint data_part (s : string) : string :=
  match s with
  | "" => ""
  | String c s' => if (c =? "!")%char then "" else String c (data_part s')
  end.

Fixpoint comment_part (s : string) : string :=
  match s with
  | "" => ""
  | String c s' =>
      if (c =? "!")%char
      then match s' with String "-" (String " " s'') => s'' | _ => s' end
      else comment_part s'
  end.

Fixpoint trim_left (s : string) : string :=
  match s with
  | String " " s' => trim_left s'
  | _ => s
  end.
Fixpoint trim_right (s : string) : string :=
  match s with
  | "" => ""
  | String c s' =>
      match trim_right s' with
      | "" => if (c =? " ")%char then "" else String c ""
      | s'' => String c s''
      end
  end.
Definition trim (s : string) : string := trim_right (trim_left s).

(** The items of a piece of data with [true] for those ended by [;]; text after
    the last separator is not an item. *)
Fixpoint items (s : string) : list (string * bool) :=
  match s with
  | "" => []
  | String c s' =>
      if (c =? ",")%char then ("", false) :: items s'
      else if (c =? ";")%char then ("", true) :: items s'
      else match items s' with
           | (t, e) :: l => (String c t, e) :: l
           | [] => []
           end
  end.

Definition read_line (s : string) : list (string * string * bool) :=
  map (fun t => (trim (fst t), comment_part s, snd t)) (items (data_part s)).

Definition as_object (l : list (string * string)) : string * list (string * string) :=
  match l with
  | (class, _) :: fs => (class, fs)
  | [] => ("", [])
  end.

Fixpoint read_items (seen : list (string * string)) (l : list (string * string * bool))
    : list (string * list (string * string)) :=
  match l with
  | [] => []
  | (v, n, e) :: l' =>
      if e then as_object (seen ++ [(v, n)]) :: read_items [] l'
      else read_items (seen ++ [(v, n)]) l'
  end.

Definition read_idf (s : string) : list (string * list (string * string)) :=
  read_items [] (List.concat (map read_line (lines s))).

(** Text that can stand as a class or value: no separator, comment sign or line
    break, and no blank at either end. *)
Definition separator (c : ascii) : bool :=
  existsb (Ascii.eqb c) [","; ";"; "!"; "010"]%char.
Fixpoint all_chars (p : ascii -> bool) (s : string) : bool :=
  match s with "" => true | String c s' => p c && all_chars p s' end.
Definition clean (s : string) : Prop :=
  all_chars (fun c => negb (separator c)) s = true /\ trim s = s.
Definition one_line (s : string) : Prop :=
  all_chars (fun c => negb (c =? "010")%char) s = true.

Definition readable (o : string * list (string * string)) : Prop :=
  clean (fst o) /\ snd o <> [] /\
  Forall (fun f => clean (fst f) /\ one_line (snd f)) (snd o).

(** * References between objects *)

Fixpoint ends_with (suffix s : string) : bool :=
  (suffix =? s) || match s with "" => false | String _ s' => ends_with suffix s' end.

(** The classes of object the value of a field refers to, by the field's name. *)
Definition refers_to (name : string) : option (list string) :=
  if ends_with "Schedule Name" name then Some ["Schedule:Compact"]
  else if ends_with "Supply Fan Name" name then Some ["Fan:SystemModel"]
  else if name =? "Heating Coil Name" then Some ["Coil:Heating:DX:VariableSpeed"]
  else if name =? "Cooling Coil Name" then Some ["Coil:Cooling:DX:VariableSpeed"]
  else if name =? "Supplemental Heating Coil Name" then Some ["Coil:Heating:Electric"]
  else if ends_with "Curve Name" name
  then Some ["Curve:Linear"; "Curve:Biquadratic"; "Table:Lookup"]
  else if ends_with "Variable List Name" name
  then Some ["Table:IndependentVariableList"]
  else if String.prefix "Independent Variable" name then Some ["Table:IndependentVariable"]
  else None.

Section References.
  Context {T : Type}.

  (** The object is of one of the classes and its first field is the name [s]. *)
  Definition defines (classes : list string) (s : string) (o : idf_object T) : bool :=
    existsb (String.eqb (fst o)) classes &&
    match snd o with
    | f :: _ => match fd_value f with VText t => (t =? s) | _ => false end
    | [] => false
    end.

  Definition defined_once (objects : list (idf_object T)) (classes : list string)
      (s : string) : Prop :=
    exists o, filter (defines classes s) objects = [o].

  Definition no_dangling_references (objects : list (idf_object T)) : Prop :=
    forall o f classes, In o objects -> In f (snd o) ->
    refers_to (fd_name f) = Some classes -> fd_value f <> VText "" ->
    exists s, fd_value f = VText s /\ defined_once objects classes s.

  (** * Reading the exported numbers *)

  (** The value of the field with a given name. *)
  Definition field_of (o : idf_object T) (name : string) : option (idf_value T) :=
    option_map fd_value (find (fun f => fd_name f =? name) (snd o)).

  (** The object of class [class] called [s] has value [v] in field [name]. *)
  Definition exported (objects : list (idf_object T)) (class s name : string)
      (v : idf_value T) : Prop :=
    exists o, filter (defines [class] s) objects = [o] /\ field_of o name = Some v.
End References.

(** * Reading the exported tables

    The output values of a table are listed with the last variable of its list
    varying fastest. *)
Section Tables.
  Context {T : Type}.

  (** The one object of class [class] called [s]. *)
  Definition named (objects : list (idf_object T)) (class s : string)
      : option (idf_object T) :=
    match filter (defines [class] s) objects with [o] => Some o | _ => None end.

  (** The numbers and texts in the fields called "[label] ...". *)
  Definition numbers_of (o : idf_object T) (label : string) : list T :=
    flat_map (fun f => if String.prefix (label ++ " ") (fd_name f)
                       then match fd_value f with VNum _ x => [x] | _ => [] end
                       else []) (snd o).
  Definition texts_of (o : idf_object T) (label : string) : list string :=
    flat_map (fun f => if String.prefix (label ++ " ") (fd_name f)
                       then match fd_value f with VText s => [s] | _ => [] end
                       else []) (snd o).

  Definition table_outputs (objects : list (idf_object T)) (table : string)
      : option (list T) :=
    option_map (fun o => numbers_of o "Output Value") (named objects "Table:Lookup" table).

  Definition axis (objects : list (idf_object T)) (variable : string) : option (list T) :=
    option_map (fun o => numbers_of o "Value")
      (named objects "Table:IndependentVariable" variable).

  Fixpoint all_some {A} (l : list (option A)) : option (list A) :=
    match l with
    | [] => Some []
    | Some x :: l' => option_map (cons x) (all_some l')
    | None :: _ => None
    end.

  (** The axes of a table, slowest first. *)
  Definition table_axes (objects : list (idf_object T)) (table : string)
      : option (list (list T)) :=
    match named objects "Table:Lookup" table with
    | None => None
    | Some o =>
        match field_of o "Independent Variable List Name" with
        | Some (VText l) =>
            match named objects "Table:IndependentVariableList" l with
            | Some lo => all_some (map (axis objects) (texts_of lo "Independent Variable"))
            | None => None
            end
        | _ => None
        end
    end.

  (** Row-major position of an index in a grid. *)
  Fixpoint position (dims index : list nat) : option nat :=
    match dims, index with
    | [], [] => Some 0
    | d :: dims', i :: index' =>
        if (i <? d)%nat
        then option_map (fun p => i * fold_right Nat.mul 1 dims' + p)%nat
               (position dims' index')
        else None
    | _, _ => None
    end.

  (** The coordinates and the output value of a table at an index. *)
  Definition table_entry (objects : list (idf_object T)) (table : string) (index : list nat)
      : option (list T * T) :=
    match table_axes objects table, table_outputs objects table with
    | Some axes, Some outputs =>
        match all_some (map (fun ai => nth_error (fst ai) (snd ai)) (combine axes index)),
              position (map (@List.length T) axes) index with
        | Some xs, Some p => option_map (pair xs) (nth_error outputs p)
        | _, _ => None
        end
    | _, _ => None
    end.
End Tables.
