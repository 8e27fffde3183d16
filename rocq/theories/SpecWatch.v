(** * Vocabulary for which daemons notice changes on the bus. *)
From Coq Require Import ZArith Bool List String.
From Verif Require Import Base MainModel SpecMain DbusConfigModel ReloadModel SpecReload StartModel SpecStart DaemonModel SpecDaemon.
Import ListNotations.

(** A signal on the bus. *)
Definition is_signal_event (e : daemon_ev) : bool := match e with DMove (VSignal _) => true | _ => false end.
(** These events without the signals on the bus. *)
Definition without_signals (evs : list daemon_ev) : list daemon_ev := filter (fun e => negb (is_signal_event e)) evs.
(** Whenever a handler runs, there is a configuration file. *)
Definition file_installed (named : string) (evs : list daemon_ev) : Prop :=
  forall w k, In (DRun w k) evs -> exists p, file_used named (su_disk w) p.

(** How many milliseconds pass in these events. *)
Definition wait_of (e : daemon_ev) : Z := match e with DMove (VWait ms) => Z.of_N ms | _ => 0%Z end.
Definition waited (evs : list daemon_ev) : Z := fold_right (fun e t => (wait_of e + t)%Z) 0%Z evs.
(** No signal about the configuration among these events. *)
Definition nothing_new (evs : list daemon_ev) : Prop := forall m, In (DMove (VSignal m)) evs -> ~ about_configuration m.
(** How many handlers of the two timers are run in these events, and how many wait. *)
Definition is_timer_run (e : daemon_ev) : bool := match e with DMove VHandler => true | _ => false end.
Definition timer_handlers (evs : list daemon_ev) : nat := List.length (filter is_timer_run evs).
Definition timers_queued (d : daemon) : nat := List.length (rl_done (dm_reload d)).
