(** * Vocabulary for the start/stop properties. *)
From Coq Require Import ZArith Bool List.
From Verif Require Import MainModel.
Import ListNotations.

(** What happened, oldest first. *)
Definition history (s : main_st) : list main_event := rev (m_log s).

(** A loop is live if it waits for its timer or is about to run a cycle. *)
Definition live_op (o : op) : list inst :=
  match o with OLoop i false => [i] | _ => [] end.
Definition live (s : main_st) : list inst := m_armed s ++ flat_map live_op (m_ready s).

(** A queued attempt to restart or to end. *)
Definition is_attempt (o : op) : bool :=
  match o with ORestart false | OTerminate false => true | _ => false end.

(** Events that queue an attempt. *)
Definition queues_attempt (s : main_st) (e : main_ev) : bool :=
  match e with
  | ERetry => m_rtimer s
  | ETermRetry => m_ttimer s
  | EPostRestart | EPostTerminate => true
  | _ => false
  end.

(** Attempts do not overlap: one is queued only when none is queued. *)
Fixpoint no_overlap (evs : list main_ev) (s : main_st) : Prop :=
  match evs with
  | [] => True
  | e :: r =>
      (queues_attempt s e = true -> existsb is_attempt (m_ready s) = false) /\
      no_overlap r (main_step s e)
  end.

(** At most one zone in every configuration that gets built. *)
Definition single_zone (evs : list main_ev) : Prop :=
  forall ok ids good, In (ERun ok (BZones ids good)) evs -> (List.length ids <= 1)%nat.

Definition after_last_stop (h : list main_event) : list main_event :=
  fold_left (fun acc e => match e with MStopped => [] | _ => acc ++ [e] end) h [].
