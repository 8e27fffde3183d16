(** * Model of the control loop of one zone and of several zones.

    Source: pid/pidloop.cpp.  Handlers of the event loop run one at a time, so
    one wake-up is one atomic step.  Time points of the steady clock are in
    nanoseconds. *)
From Coq Require Import ZArith Bool List String.
From Verif Require Import Base Dbl PidModel ZoneModel.
Import ListNotations.
Local Open Scope Z_scope.
Local Open Scope outcome_scope.

(** What the outside world shows to one wake-up: the two sensor polls, the fan
    writers and the tuning files.
    What one wake-up reads and is answered, /repo/pid/pidloop.cpp:104-135. *)
Record tick_env : Type := TickEnv {
  tk_fan : poll_env;
  tk_therm : poll_env;
  tk_write : write_env;
  tk_tune : tune_env
}.

(** The variables captured by the timer handler
    (/repo/pid/pidloop.cpp:66-68). *)
Record loop : Type := MkLoop {
  l_zone : zone;
  l_cycleCnt : Z;      (* uint64_t, milliseconds *)
  l_expiry : Z         (* timer->expiry() *)
}.

(** [cycleCnt], /repo/pid/pidloop.cpp:37, 139. *)
Definition uint64_mod : Z := 18446744073709551616.
(** /repo/pid/pidloop.cpp:68. *)
Definition ms_to_ns (ms : Z) : Z := ms * 1000000.

(** /repo/pid/pidloop.cpp:22-33, [processThermals].  The [EvThermalCycle] entry
    is a marker for counting cycles; the code has no such output. *)
Definition thermal_cycle (f : flags) (env : poll_env) (te : tune_env) (z : zone) : outcome zone :=
  let z := emit EvThermalCycle z in
  do z <- updateSensors f env z;
  let z := clearSetPoints z in
  let z := clearRPMCeilings z in
  do z <- processThermals z;
  determineMaxSetPointRequest f te z.

(** /repo/pid/pidloop.cpp:35-69 with [first = true]: [now] is the steady clock
    after the first thermal cycle. *)
Definition loop_start (f : flags) (env : poll_env) (te : tune_env) (now : Z) (z : zone)
  : outcome loop :=
  let z := initializeLog f z in
  let z := initializeCache z in
  do z <- thermal_cycle f env te z;
  Ok (MkLoop z 0 (now + ms_to_ns (z_cycleIntervalTimeMS z))).

(** Re-arming of the timer, /repo/pid/pidloop.cpp:58-69 with [first = false]. *)
Definition rearm (z : zone) (cnt : Z) (l : loop) : loop :=
  MkLoop z cnt (l_expiry l + ms_to_ns (z_cycleIntervalTimeMS z)).

(** /repo/pid/pidloop.cpp:67-142: the timer handler, not cancelled. *)
Definition loop_tick (f : flags) (e : tick_env) (l : loop) : outcome loop :=
  let z := l_zone l in
  if z_manualMode z then Ok (rearm z (l_cycleCnt l) l)
  else
    let fanMs := z_cycleIntervalTimeMS z in
    do z <- updateFanTelemetry f (tk_fan e) z;
    let thermMs := z_updateThermalsTimeMS z in
    do zc <-
      if thermMs <=? l_cycleCnt l
      then do z <- thermal_cycle f (tk_therm e) (tk_tune e) z;
           Ok (z, l_cycleCnt l - thermMs)
      else Ok (z, l_cycleCnt l);
    let '(z, cnt) := zc in
    do z <- processFans f (tk_write e) z;
    let z := log_tokens f [LComma; LBool (getFailSafeMode z); LEndl] z in
    Ok (rearm z ((cnt + fanMs) mod uint64_mod) l).

(** What can happen to a zone while it runs: a wake-up, a D-Bus write of the
    Manual property (/repo/pid/zone.cpp:579-584), a D-Bus write of the Enabled
    property of one of its controllers. *)
Inductive loop_event : Type :=
| LTick (e : tick_env)
| LManual (mode : bool)
| LEnable (pid : string) (b : bool).

(** Record update; no counterpart in /repo. *)
Definition with_zone (z : zone) (l : loop) : loop := MkLoop z (l_cycleCnt l) (l_expiry l).

(** /repo/pid/pidloop.cpp:70-142 and the D-Bus setters of /repo/pid/zone.cpp:579-584. *)
Definition loop_step (f : flags) (l : loop) (ev : loop_event) : outcome loop :=
  match ev with
  | LTick e => loop_tick f e l
  | LManual b => Ok (with_zone (setManualMode b (l_zone l)) l)
  | LEnable p b => Ok (with_zone (setProcessEnabled p b (l_zone l)) l)
  end.

(** Any number of events, /repo/pid/pidloop.cpp:35-143. *)
Definition loop_run (f : flags) (evs : list loop_event) (l : loop) : outcome loop :=
  foldM (loop_step f) evs l.

(** Several zones on one event loop: [i] picks the zone whose handler runs
    (/repo/main.cpp:178-185).  An index outside the list does nothing.
    Simplified: the zones share nothing but the event loop (the failsafe loggers
    they also share are in LogModel.v, the sensors are arguments). *)
Fixpoint update_nth {A : Type} (i : nat) (g : A -> outcome A) (l : list A) : outcome (list A) :=
  match l, i with
  | [], _ => Ok []
  | x :: r, O => do x' <- g x; Ok (x' :: r)
  | x :: r, S i => do r' <- update_nth i g r; Ok (x :: r')
  end.
(** One event of one zone, /repo/main.cpp:178-185. *)
Definition system_step (f : flags) (ls : list loop) (ev : nat * loop_event) : outcome (list loop) :=
  update_nth (fst ev) (fun l => loop_step f l (snd ev)) ls.
(** Any number of events of any zones, /repo/main.cpp:178-185. *)
Definition system_run (f : flags) (evs : list (nat * loop_event)) (ls : list loop)
  : outcome (list loop) :=
  foldM (system_step f) evs ls.
