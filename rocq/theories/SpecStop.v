(** * Vocabulary for how long stopping takes. *)
From Coq Require Import ZArith Bool List String.
From Verif Require Import Base MainModel SpecMain ReloadModel SpecReload DaemonModel SpecDaemon.
Import ListNotations.

(** How many handlers are run in these events, and how many wait in the queue. *)
Definition is_run (e : daemon_ev) : bool := match e with DRun _ _ => true | _ => false end.
Definition handlers (evs : list daemon_ev) : nat := List.length (filter is_run evs).
Definition queued (d : daemon) : nat := List.length (m_ready (dm_main d)).

(** No reload is queued or waits for a timer. *)
Definition no_reload_pending (d : daemon) : Prop :=
  rl_timer (dm_reload d) = None /\ rl_hup (dm_reload d) = None /\
  (forall o, In o (rl_done (dm_reload d)) -> o = TReload true \/ o = THup true) /\
  m_rtimer (dm_main d) = false /\ ~ In (ORestart false) (m_ready (dm_main d)).
(** The event asks for a reload: SIGHUP, or a signal on the bus. *)
Definition asks_reload (e : daemon_ev) : Prop := e = DMove VHup \/ exists m, e = DMove (VSignal m).
