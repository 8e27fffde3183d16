(** * Vocabulary for the requester when setpoints are accumulated (C86). *)
From Coq Require Import ZArith Bool List String.
From Verif Require Import Base Dbl PidModel ZoneModel LoopModel SpecZone SpecWrite.
Import ListNotations.
Local Open Scope string_scope.

(** The profiles in the order of the requests, each with the sum reached. *)
Definition profile_sums (reqs : list (string * dbl)) : list (string * dbl) :=
  combine (map (fun r => profile_of (fst r)) reqs) (running_sums reqs).

(** [picks P l l']: [l'] is what remains of [l] without the elements that are
    not in [P]. *)
Inductive picks (P : string -> Prop) : list string -> list string -> Prop :=
| picks_nil : picks P [] []
| picks_yes x l l' : P x -> picks P l l' -> picks P (x :: l) (x :: l')
| picks_no x l l' : ~ P x -> picks P l l' -> picks P (x :: l) l'.

(** The names of all controllers containing [part], joined by " + ". *)
Definition all_named (part : string) (z : zone) (names : string) : Prop :=
  exists l, picks (contains part) (map thermal_id (z_thermals z)) l /\ names = String.concat " + " l.
