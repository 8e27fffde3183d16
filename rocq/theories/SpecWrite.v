(** * Vocabulary of the fan writer properties (C32-C35). *)
From Coq Require Import ZArith Bool List String.
From Verif Require Import Base Dbl WriteModel.
Import ListNotations.
Local Open Scope Z_scope.

(** The bounds of a PWM range that doubles represent exactly. *)
Definition usable_range (min max : Z) : Prop :=
  0 <= min /\ min <= max /\ max <= 2 ^ 53.

(** The raw integers of a sequence of write requests to one fan. *)
Definition raws (w : dbus_writer) (ws : list (dbl * bool * bool)) (rs : list Z) : Prop :=
  Forall2 (fun '(v, _, _) r => 0 <= r /\ to_int64 (dw_target w v) = Some r) ws rs.

(** Which requests must reach the bus: the forced ones and those whose raw value
    differs from the request before.  Oldest first: (value, success). *)
Fixpoint expected_calls (prev : Z) (ws : list (dbl * bool * bool)) (rs : list Z) : list (Z * bool) :=
  match ws, rs with
  | (_, force, ok) :: ws', r :: rs' =>
      (if negb (r =? prev) || force then [(r, ok)] else []) ++ expected_calls r ws' rs'
  | _, _ => []
  end.

(** ** Wildcards in sysfs paths (C85) *)
Definition contains (part s : string) : Prop := exists a b, s = (a ++ part ++ b)%string.
(** The first [**] of [p] stands between [base] and [rest]. *)
Definition first_stars (p base rest : string) : Prop :=
  p = (base ++ "**" ++ rest)%string /\ ~ contains "**" (base ++ "*").
(** The path of the entry [name] of the directory [base]. *)
Definition in_directory (base name path : string) : Prop :=
  ((base = ""%string \/ exists b, base = (b ++ "/")%string) /\ path = (base ++ name)%string) \/
  (base <> ""%string /\ (~ exists b, base = (b ++ "/")%string) /\ path = (base ++ "/" ++ name)%string).
(** [resolves dir p q]: the file meant by the configured path [p] is [q], when
    [dir] lists the directories. *)
Definition resolves (dir : string -> option (list string)) (p q : string) : Prop :=
  (~ contains "**" p /\ q = p) \/
  (exists base rest, first_stars p base rest /\
     ((dir base = Some [] /\ q = p) \/
      (exists name others d, dir base = Some (name :: others) /\ in_directory base name d /\
         q = (d ++ rest)%string))).
