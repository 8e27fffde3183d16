(** * Outcomes of C++ operations and ordered maps. *)
From Coq Require Import List String Ascii Bool ZArith DecimalString DecimalZ.
Import ListNotations.
Local Open Scope string_scope.

(** A C++ operation returns normally, throws an exception, or has undefined
    behaviour.  [UB] is never identified with a defined result. *)
Inductive outcome (A : Type) : Type :=
| Ok (a : A)
| Throw (msg : string)
| UB (msg : string).
Arguments Ok {A} a.
Arguments Throw {A} msg.
Arguments UB {A} msg.

Definition bind {A B : Type} (o : outcome A) (f : A -> outcome B) : outcome B :=
  match o with
  | Ok a => f a
  | Throw m => Throw m
  | UB m => UB m
  end.
Declare Scope outcome_scope.
Delimit Scope outcome_scope with outcome.
Notation "'do' x <- e1 ; e2" := (bind e1 (fun x => e2))
  (at level 200, x pattern, e1 at level 100, e2 at level 200, right associativity)
  : outcome_scope.

(** Sequencing over a list: a C++ [for] loop whose body may throw. *)
Fixpoint foldM {A S : Type} (f : S -> A -> outcome S) (l : list A) (s : S)
  : outcome S :=
  match l with
  | [] => Ok s
  | x :: r => bind (f s x) (fun s' => foldM f r s')
  end.

(** [std::map<std::string, V>]: association list kept in key order
    ([std::less<std::string>], i.e. lexicographic on bytes). *)
Definition smap (V : Type) : Type := list (string * V).

Fixpoint mget {V : Type} (k : string) (m : smap V) : option V :=
  match m with
  | [] => None
  | (k', v) :: r => if String.eqb k k' then Some v else mget k r
  end.

(** [m[k] = v]. *)
Fixpoint mset {V : Type} (k : string) (v : V) (m : smap V) : smap V :=
  match m with
  | [] => [(k, v)]
  | (k', v') :: r =>
      if String.eqb k k' then (k, v) :: r
      else if String.ltb k k' then (k, v) :: (k', v') :: r
      else (k', v') :: mset k v r
  end.

(** [m.erase(k)]. *)
Fixpoint mdel {V : Type} (k : string) (m : smap V) : smap V :=
  match m with
  | [] => []
  | (k', v') :: r => if String.eqb k k' then mdel k r else (k', v') :: mdel k r
  end.

Definition mmem {V : Type} (k : string) (m : smap V) : bool :=
  match mget k m with Some _ => true | None => false end.

(** Membership in a [std::set<std::string>] / [std::find] in a vector. *)
Fixpoint smem (k : string) (l : list string) : bool :=
  match l with
  | [] => false
  | x :: r => if String.eqb k x then true else smem k r
  end.

(** [haystack.find(needle) != npos]. *)
Definition str_contains (needle haystack : string) : bool :=
  match String.index 0 needle haystack with Some _ => true | None => false end.

(** [std::to_string] of an integer.  /repo/pid/builder.cpp:36,
    /repo/ipmi/dbus_mode.cpp:33, /repo/pid/buildjson.cpp:134. *)
Definition to_string (n : Z) : string := NilEmpty.string_of_int (Z.to_int n).
