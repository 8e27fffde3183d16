(** * Vocabulary for counting attempts to stop or restart (C45). *)
From Coq Require Import ZArith Bool List.
From Verif Require Import MainModel.
Import ListNotations.

Definition count_of {A : Type} (p : A -> bool) (l : list A) : nat := List.length (filter p l).
(** Every attempt to stop the loops, for a restart or for the end, is one of these. *)
Definition an_attempt (e : main_event) : bool := match e with MStopped | MStopFailed => true | _ => false end.
Definition a_failed_stop (e : main_event) : bool := match e with MStopFailed => true | _ => false end.
(** Somebody asked for a restart or for the end. *)
Definition a_request (e : main_ev) : bool := match e with EPostRestart | EPostTerminate => true | _ => false end.
(** The configuration a handler finds cannot be built or started. *)
Definition a_failed_build (e : main_ev) : bool :=
  match e with
  | ERun _ BThrow => true
  | ERun _ (BZones ids good) => (good <? List.length ids)%nat
  | _ => false
  end.
