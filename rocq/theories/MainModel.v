(** * Model of starting, stopping and restarting the control loops.

    Source: main.cpp, pid/pidloop.cpp (only when handlers are queued, re-armed
    or dropped; what a cycle does is in LoopModel.v).

    The event loop of boost::asio runs one handler at a time, in the order in
    which handlers became ready.  A handler waiting on a timer becomes ready
    when the timer expires (no error) or is cancelled (error
    [operation_aborted]); cancelling does not change a handler that is ready
    already.

    Simplified: building zones is an outcome chosen from outside ([build]); the
    1 s delay timer of SIGHUP and the reload timer of the D-Bus configuration,
    which decide when [EPostRestart] happens, are in ReloadModel.v. *)
From Coq Require Import ZArith Bool List Arith.
Import ListNotations.

(** A zone object: its number and the restart that built it.
    One object of /repo/main.cpp:66; the second part tells builds apart. *)
Definition inst : Type := (Z * nat)%type.
(** Identity of zone objects, /repo/main.cpp:66. *)
Definition inst_eqb (a b : inst) : bool := (fst a =? fst b)%Z && (snd a =? snd b)%nat.
(** Membership, no counterpart in /repo. *)
Definition imem (i : inst) (l : list inst) : bool := existsb (inst_eqb i) l.

(** Ready handlers.  [aborted] is [error == operation_aborted].
    /repo/pid/pidloop.cpp:70, /repo/main.cpp:193-210, 234-253. *)
Inductive op : Type :=
| OLoop (i : inst) (aborted : bool)      (* /repo/pid/pidloop.cpp:70-142 *)
| ORestart (aborted : bool)              (* restartLbd, /repo/main.cpp:193-210 *)
| OTerminate (aborted : bool).           (* stopLbd, /repo/main.cpp:234-253 *)

(** What is visible from outside.
    /repo/pid/pidloop.cpp:69-70, /repo/main.cpp:215-223, 258-265, 273-303. *)
Inductive main_event : Type :=
| MStopped              (* stopControlLoops returned *)
| MStopFailed           (* stopControlLoops threw *)
| MStarted (i : inst)   (* the loop of a zone was started and its timer armed *)
| MRan (i : inst)       (* the loop of a zone woke up and ran a cycle *)
| MExit.                (* the daemon ends *)

(** /repo/main.cpp:61-71 and the timers of :191 and :232.  [m_timers] is the
    vector of shared timers, each named by the zone object whose loop it drives;
    [m_armed] are the loops waiting for their timer.  [m_log] is newest first
    and is not part of the program. *)
Record main_st : Type := MainSt {
  m_canceling : bool;
  m_zones : list inst;     (* state::zones in its iteration order *)
  m_timers : list inst;
  m_armed : list inst;
  m_ready : list op;
  m_rtimer : bool;         (* the 10 s restart timer is waiting *)
  m_ttimer : bool;         (* the 50 ms terminate timer is waiting *)
  m_gen : nat;             (* how many times zones have been built *)
  m_stopped : bool;        (* io.stop(), exit() or an uncaught exception *)
  m_log : list main_event
}.

(** /repo/main.cpp:61-71. *)
Definition main_init : main_st :=
  MainSt false [] [] [] [] false false 0 false [].

(** Adds to the ghost trace; no counterpart in /repo. *)
Definition say (e : main_event) (s : main_st) : main_st :=
  MainSt (m_canceling s) (m_zones s) (m_timers s) (m_armed s) (m_ready s) (m_rtimer s)
         (m_ttimer s) (m_gen s) (m_stopped s) (e :: m_log s).
(** [io.run()] returns or is left by an exception, /repo/main.cpp:252, 423. *)
Definition quit (s : main_st) : main_st :=
  MainSt (m_canceling s) (m_zones s) (m_timers s) (m_armed s) (m_ready s) (m_rtimer s)
         (m_ttimer s) (m_gen s) true (MExit :: m_log s).
(** The queue of boost::asio; no counterpart in /repo. *)
Definition set_ready (l : list op) (s : main_st) : main_st :=
  MainSt (m_canceling s) (m_zones s) (m_timers s) (m_armed s) l (m_rtimer s)
         (m_ttimer s) (m_gen s) (m_stopped s) (m_log s).
(** The queue of boost::asio; no counterpart in /repo. *)
Definition enqueue (o : op) (s : main_st) : main_st := set_ready (m_ready s ++ [o]) s.
(** Waiting handlers of the zone timers, /repo/pid/pidloop.cpp:69-70. *)
Definition set_armed (l : list inst) (s : main_st) : main_st :=
  MainSt (m_canceling s) (m_zones s) (m_timers s) l (m_ready s) (m_rtimer s)
         (m_ttimer s) (m_gen s) (m_stopped s) (m_log s).
(** Waiting handlers of the timer of /repo/main.cpp:191, 222-223. *)
Definition set_retry (r t : bool) (s : main_st) : main_st :=
  MainSt (m_canceling s) (m_zones s) (m_timers s) (m_armed s) (m_ready s) r t
         (m_gen s) (m_stopped s) (m_log s).

(** The zone captured by the handler, /repo/pid/pidloop.cpp:70. *)
Definition is_loop_of (i : inst) (o : op) : bool :=
  match o with OLoop j _ => inst_eqb i j | _ => false end.

(** [shared_ptr::use_count] of a zone in [state::zones]: the map, and every
    handler that captured it (/repo/pid/pidloop.cpp:70). *)
Definition use_count (i : inst) (s : main_st) : nat :=
  1 + List.length (filter (inst_eqb i) (m_armed s))
    + List.length (filter (is_loop_of i) (m_ready s)).

(** /repo/main.cpp:109-125, [stopControlLoops]; [false] means it threw. *)
Definition stopControlLoops (s : main_st) : bool * main_st :=
  let hit := filter (fun i => imem i (m_armed s)) (m_timers s) in
  let s1 := MainSt true (m_zones s) []
              (filter (fun i => negb (imem i (m_timers s))) (m_armed s))
              (m_ready s ++ map (fun i => OLoop i true) hit)
              (m_rtimer s) (m_ttimer s) (m_gen s) (m_stopped s) (m_log s) in
  match m_zones s1 with
  | z :: _ =>
      if (1 <? use_count z s1)%nat then (false, say MStopFailed s1)
      else (true, say MStopped (MainSt false [] [] (m_armed s1) (m_ready s1) (m_rtimer s1)
                                  (m_ttimer s1) (m_gen s1) (m_stopped s1) (m_log s1)))
  | [] => (true, say MStopped (MainSt false [] [] (m_armed s1) (m_ready s1) (m_rtimer s1)
                                 (m_ttimer s1) (m_gen s1) (m_stopped s1) (m_log s1)))
  end.

(** What reading the configuration and building the zones comes to
    (/repo/main.cpp:131-175), decided by the outside world; computed from it in
    StartModel.v, [restart]. *)
Inductive build : Type :=
| BNotReady                         (* dbus_configuration::init returned false *)
| BExit                             (* bad JSON: exit(EXIT_FAILURE) *)
| BThrow                            (* buildSensors or buildZones threw *)
| BZones (ids : list Z) (good : nat).  (* zones, in map order; the first thermal
                                          cycle of number [good] throws *)

(** /repo/main.cpp:178-185: push a timer, run [pidControlLoop] with [first].
    [isCanceling] is false here. *)
Fixpoint start_loops (zs : list inst) (good : nat) (s : main_st) : bool * main_st :=
  match zs with
  | [] => (true, s)
  | z :: r =>
      let s1 := MainSt (m_canceling s) (m_zones s) (m_timers s ++ [z]) (m_armed s) (m_ready s)
                  (m_rtimer s) (m_ttimer s) (m_gen s) (m_stopped s) (m_log s) in
      match good with
      | O => (false, s1)
      | S g => start_loops r g (say (MStarted z) (set_armed (m_armed s1 ++ [z]) s1))
      end
  end.

(** /repo/main.cpp:127-186, [restartControlLoops]. *)
Definition restartControlLoops (b : build) (s : main_st) : bool * main_st :=
  match stopControlLoops s with
  | (false, s1) => (false, s1)
  | (true, s1) =>
      match b with
      | BNotReady => (true, s1)
      | BExit => (true, quit s1)
      | BThrow => (false, s1)
      | BZones ids good =>
          match nodup Z.eq_dec ids with
          | [] => (true, quit s1)
          | ids' =>
              let g := S (m_gen s1) in
              let zs := map (fun z => (z, g)) ids' in
              start_loops zs good
                (MainSt (m_canceling s1) zs (m_timers s1) (m_armed s1) (m_ready s1)
                   (m_rtimer s1) (m_ttimer s1) g (m_stopped s1) (m_log s1))
          end
      end
  end.

(** [timer.expires_after(...)] cancels a wait in progress, then a new one is
    started (/repo/main.cpp:222-223, :264-265). *)
Definition arm_retry (s : main_st) : main_st :=
  let s := if m_rtimer s then enqueue (ORestart true) s else s in
  set_retry true (m_ttimer s) s.
(** /repo/main.cpp:229-269. *)
Definition arm_term (s : main_st) : main_st :=
  let s := if m_ttimer s then enqueue (OTerminate true) s else s in
  set_retry (m_rtimer s) true s.

(** One ready handler runs.  [ok = false]: the cycle throws; nothing catches it
    and the daemon dies. /repo/pid/pidloop.cpp:70-142, /repo/main.cpp:193-210, 234-253. *)
Definition run_op (o : op) (ok : bool) (b : build) (s : main_st) : main_st :=
  match o with
  | OLoop _ true => s
  | OLoop i false =>
      let s := say (MRan i) s in
      if ok then
        if m_canceling s then s          (* /repo/pid/pidloop.cpp:39-42 *)
        else set_armed (m_armed s ++ [i]) s
      else quit s
  | ORestart true => s
  | ORestart false =>
      match restartControlLoops b s with
      | (true, s1) => s1
      | (false, s1) => arm_retry s1
      end
  | OTerminate true => s
  | OTerminate false =>
      match stopControlLoops s with
      | (true, s1) => quit s1
      | (false, s1) => arm_term s1
      end
  end.

(** What can happen next: a timer expires, a restart is asked for (start-up,
    SIGHUP, configuration change: [tryRestartControlLoops]), the daemon is told
    to end (SIGTERM), or the oldest ready handler runs.
    /repo/main.cpp:188-303, /repo/pid/pidloop.cpp:69-70. *)
Inductive main_ev : Type :=
| EExpire (i : inst)
| ERetry
| ETermRetry
| EPostRestart
| EPostTerminate
| ERun (ok : bool) (b : build).

(** The queue of boost::asio; no counterpart in /repo. *)
Fixpoint remove_first (i : inst) (l : list inst) : list inst :=
  match l with
  | [] => []
  | x :: r => if inst_eqb i x then r else x :: remove_first i r
  end.

(** /repo/main.cpp:109-303, /repo/pid/pidloop.cpp:35-143. *)
Definition main_step (s : main_st) (e : main_ev) : main_st :=
  if m_stopped s then s else
  match e with
  | EExpire i =>
      if imem i (m_armed s)
      then enqueue (OLoop i false) (set_armed (remove_first i (m_armed s)) s) else s
  | ERetry => if m_rtimer s then enqueue (ORestart false) (set_retry false (m_ttimer s) s) else s
  | ETermRetry => if m_ttimer s then enqueue (OTerminate false) (set_retry (m_rtimer s) false s) else s
  | EPostRestart => enqueue (ORestart false) s
  | EPostTerminate => enqueue (OTerminate false) s
  | ERun ok b =>
      match m_ready s with
      | [] => s
      | o :: r => run_op o ok b (set_ready r s)
      end
  end.

(** Any number of events, /repo/main.cpp:423. *)
Definition main_run (evs : list main_ev) (s : main_st) : main_st := fold_left main_step evs s.
