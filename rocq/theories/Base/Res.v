(** Python exceptions as values, mutable objects, Python lists. *)
From Coq Require Import List ZArith QArith Bool.
Local Open Scope nat_scope.
From Verif.Base Require Import Num.
Import ListNotations.

(** The exception classes the modelled code can raise. *)
Inductive exn : Type :=
| PyException            (* raise Exception(...) *)
| RuntimeError
| ZeroDivisionError
| IndexError
| KeyError
| AttributeError
| UnboundLocalError
| TypeError
| ValueError
| AssertionError
| NotImplementedError
| OverflowError
| SystemExit
| LibraryError (n : nat). (* an exception raised inside an external library *)

Inductive res (A : Type) : Type :=
| Ok (a : A)
| Err (e : exn).
Arguments Ok {A} a.
Arguments Err {A} e.

Definition rbind {A B} (m : res A) (k : A -> res B) : res B :=
  match m with Ok a => k a | Err e => Err e end.

Notation "'let!' x ':=' m 'in' k" := (rbind m (fun x => k))
  (at level 200, x pattern, m at level 100, k at level 200, right associativity,
   format "'[v' 'let!'  x  ':='  m  'in' '/' k ']'").

Definition rmap {A B} (f : A -> B) (m : res A) : res B :=
  let! a := m in Ok (f a).

Definition is_ok {A} (m : res A) : bool :=
  match m with Ok _ => true | Err _ => false end.

(** Reading something that may be unset raises [e]. *)
Definition need {A} (e : exn) (o : option A) : res A :=
  match o with Some a => Ok a | None => Err e end.

(** [raise e] unless [b]. *)
Definition guard (e : exn) (b : bool) : res unit :=
  if b then Ok tt else Err e.

(** Methods on a mutable object of type [S]; an exception keeps the changes
    made so far, as in Python. *)
Definition st (S A : Type) : Type := S -> S * res A.
Definition sret {S A} (a : A) : st S A := fun s => (s, Ok a).
Definition sbind {S A B} (m : st S A) (k : A -> st S B) : st S B :=
  fun s => match m s with
           | (s', Ok a) => k a s'
           | (s', Err e) => (s', Err e)
           end.
Definition sget {S} : st S S := fun s => (s, Ok s).
Definition sput {S} (s : S) : st S unit := fun _ => (s, Ok tt).
Definition smod {S} (f : S -> S) : st S unit := fun s => (f s, Ok tt).
Definition slift {S A} (m : res A) : st S A := fun s => (s, m).
(** Evaluate something that reads the object only. *)
Definition sread {S A} (f : S -> res A) : st S A := fun s => (s, f s).

Notation "'do' x '<-' m ';;' k" := (sbind m (fun x => k))
  (at level 200, x pattern, m at level 100, k at level 200, right associativity,
   format "'[v' 'do'  x  '<-'  m  ';;' '/' k ']'").
Notation "m ';;;' k" := (sbind m (fun _ => k))
  (at level 199, right associativity, format "'[v' m  ';;;' '/' k ']'").

(** Run a sequence of methods; stops at the first exception. *)
Fixpoint sfold {S A} (f : A -> st S unit) (l : list A) : st S unit :=
  match l with
  | [] => sret tt
  | x :: l' => sbind (f x) (fun _ => sfold f l')
  end.

(** [[f x for x in l]] where [f] may raise. *)
Fixpoint rmapM {A B} (f : A -> res B) (l : list A) : res (list B) :=
  match l with
  | [] => Ok []
  | x :: l' => let! y := f x in let! ys := rmapM f l' in Ok (y :: ys)
  end.

(** A loop [for x in l: acc = f(acc, x)] whose body may raise. *)
Fixpoint rfold {A B} (f : A -> B -> res A) (a : A) (l : list B) : res A :=
  match l with
  | [] => Ok a
  | x :: l' => let! a' := f a x in rfold f a' l'
  end.

(** * Python lists *)

(** [l[i]] with a non-negative index. *)
Definition geti {A} (l : list A) (i : nat) : res A := need IndexError (nth_error l i).

(** The position a Python index denotes: negative indices count from the end. *)
Definition pyindex {A} (l : list A) (i : Z) : res nat :=
  let n := Z.of_nat (length l) in
  if (i <? 0)%Z
  then if (i + n <? 0)%Z then Err IndexError else Ok (Z.to_nat (i + n))
  else if (i <? n)%Z then Ok (Z.to_nat i) else Err IndexError.

(** [l[i]] with any integer index. *)
Definition pyget {A} (l : list A) (i : Z) : res A :=
  let! k := pyindex l i in geti l k.

(** The list with position [i] replaced (unchanged when out of range). *)
Fixpoint upd {A} (l : list A) (i : nat) (a : A) : list A :=
  match l, i with
  | [], _ => []
  | _ :: l', O => a :: l'
  | x :: l', S i' => x :: upd l' i' a
  end.

(** [l[i] = a] *)
Definition seti {A} (l : list A) (i : nat) (a : A) : res (list A) :=
  if Nat.ltb i (length l) then Ok (upd l i a) else Err IndexError.

(** The list without position [i] (unchanged when out of range). *)
Fixpoint del {A} (l : list A) (i : nat) : list A :=
  match l, i with
  | [], _ => []
  | _ :: l', O => l'
  | x :: l', S i' => x :: del l' i'
  end.

(** [l.pop(i)], the value discarded. *)
Definition popi {A} (l : list A) (i : nat) : res (list A) :=
  if Nat.ltb i (length l) then Ok (del l i) else Err IndexError.

(** The list with [a] put before position [i] ([l.insert(i, a)]). *)
Fixpoint ins {A} (l : list A) (i : nat) (a : A) : list A :=
  match i, l with
  | O, _ => a :: l
  | S i', x :: l' => x :: ins l' i' a
  | S _, [] => [a]
  end.

(** [l[-1]] *)
Definition lasti {A} (l : list A) : res A :=
  match rev l with x :: _ => Ok x | [] => Err IndexError end.

(** [enumerate(l)] *)
Definition enumerate {A} (l : list A) : list (nat * A) :=
  combine (seq 0 (length l)) l.

Section CheckedDivision.
  Context {T : Type} {NT : Num T}.

  (** Python float division: raises on a zero denominator. *)
  Definition pydiv (x y : T) : res T :=
    if neqb y (lit 0) then Err ZeroDivisionError else Ok (ndiv x y).
End CheckedDivision.

Notation "x /? y" := (pydiv x y) (at level 40, left associativity) : num_scope.
