(** * Vocabulary of the configuration properties (C36, C37, C43, C44). *)
From Coq Require Import ZArith Bool List String.
From Verif Require Import Base Dbl ZoneModel ConfigModel.
Import ListNotations.
Local Open Scope string_scope.
Local Open Scope Z_scope.

(** The number a name has; a number some name has. *)
Definition number_of (name : string) (zones : smap Z) : option Z := mget name zones.
Definition taken (i : Z) (zones : smap Z) : Prop := exists n, number_of n zones = Some i.

(** [needle] occurs in [s]. *)
Definition occurs (needle s : string) : Prop := exists a b, s = a ++ needle ++ b.
