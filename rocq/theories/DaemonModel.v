(** * Model of the whole daemon: reloads around the running system.

    Source: main.cpp, with what MainModel.v, ReloadModel.v, StartModel.v and
    SystemModel.v take from it.

    Simplified: what an event source outside finds is chosen with each event; a
    zone whose last handlers were cancelled is destroyed when the loops are
    stopped, not when these handlers have run; destroying a zone whose loop was
    never started writes nothing (matters only with OFFLINE_FAILSAFE_PWM); a
    change of fan redundancy is heard before the redundancy object is made, too,
    and its effect is replaced then. *)
From Coq Require Import ZArith Bool List String.
From Verif Require Import Base Dbl ZoneModel LoopModel SensorModel SystemModel DbusConfigModel LogModel MainModel ReloadModel StartModel.
Import ListNotations.
Local Open Scope string_scope.
Local Open Scope outcome_scope.

(** The daemon: handlers and timers; sensors, zones and devices, and which zone
    object each loop drives; the objects the sensors have on the bus.
    /repo/main.cpp:61-85. *)
Record daemon : Type := Daemon {
  dm_reload : reload_st;
  dm_sys : system;
  dm_ids : list inst;
  dm_exports : list string
}.

(** The handlers of MainModel.v; no counterpart in /repo. *)
Definition dm_main (d : daemon) : main_st := rl_main (dm_reload d).

(** Before [io.run()]: a first attempt is posted, the state of the host is read.
    /repo/main.cpp:417-423, /repo/hoststatemonitor.hpp:66-71. *)
Definition daemon_init (first : option string) (devices : smap Z) : daemon :=
  Daemon reload_init (Sys [] [] (host_initial first) [] devices) [] [].

(** What can happen: timers, signals of the operating system and signals about the
    configuration (ReloadModel.v, except that a handler runs), the oldest ready
    handler runs, or something reaches sensors or zones (SystemModel.v, except
    wake-ups).  /repo/main.cpp:423. *)
Inductive daemon_ev : Type :=
| DMove (e : reload_ev)
| DRun (w : surroundings) (k : wake)
| DSys (e : sys_event).

(** Assignments; no counterpart in /repo. *)
Definition set_reload (r : reload_st) (d : daemon) : daemon :=
  Daemon r (dm_sys d) (dm_ids d) (dm_exports d).
(** Assignment; no counterpart in /repo. *)
Definition set_sys (s : system) (d : daemon) : daemon :=
  Daemon (dm_reload d) s (dm_ids d) (dm_exports d).
(** An exception leaves a handler, /repo/main.cpp:423. *)
Definition die (d : daemon) : daemon := set_reload (set_main (quit (dm_main d)) (dm_reload d)) d.

(** The first position of the zone object; no counterpart in /repo. *)
Fixpoint index_of (i : inst) (l : list inst) : option nat :=
  match l with
  | [] => None
  | x :: r => if inst_eqb i x then Some 0 else option_map S (index_of i r)
  end.

(** A handler of the zone's loop is waiting or about to run, /repo/pid/pidloop.cpp:69-70. *)
Definition handled (m : main_st) (i : inst) : bool :=
  imem i (m_armed m) ||
  existsb (fun o => match o with OLoop j false => inst_eqb i j | _ => false end) (m_ready m).

(** The fan controllers of a zone are destroyed, /repo/pid/fancontroller.cpp:222-252.
    The writes are numbered on from the zones before. *)
Definition destroy_zone (f : flags) (ok : nat -> bool) (ks : nat * system) (l : loop) : outcome (nat * system) :=
  do z <- foldM (fun z c => match c with
                            | Some c => fan_destroy f (sensors_write_env (sy_sensors (snd ks))) c z
                            | None => Ok z
                            end) (z_fans (l_zone l)) (l_zone l);
  foldM (apply_write ok) (new_writes (l_zone l) z) ks.

(** [state::zones.clear()]: the zones without a handler go, /repo/main.cpp:123.
    [m]: the handlers then. *)
Definition clear_zones (f : flags) (ok : nat -> bool) (m : main_st) (d : daemon) : outcome daemon :=
  let all := combine (dm_ids d) (sy_loops (dm_sys d)) in
  let rest := filter (fun x => handled m (fst x)) all in
  do ks <- foldM (destroy_zone f ok) (map snd (filter (fun x => negb (handled m (fst x))) all)) (O, dm_sys d);
  Ok (Daemon (dm_reload d) (set_loops (map snd rest) (snd ks)) (map fst rest) (dm_exports d)).

(** There is no configuration file, /repo/main.cpp:131-134. *)
Definition no_config_file (configPath : string) (dk : disk) : bool :=
  match (do path <- if String.eqb configPath "" then searchConfigurationPath dk else Ok configPath;
         exists_file dk path) with
  | Ok b => negb b
  | _ => false
  end.

(** How many loops were started, /repo/main.cpp:178-185. *)
Definition started (b : build) : nat := match b with BZones _ n => n | _ => 0 end.

(** The oldest ready handler runs, /repo/main.cpp:193-210, 234-253,
    /repo/pid/pidloop.cpp:70-142. *)
Definition run_handler (f : flags) (sf : sflags) (pow10 : Z -> dbl) (re : regex) (configPath : string)
    (w : surroundings) (k : wake) (d : daemon) : outcome daemon :=
  let plain d := set_reload (reload_step (dm_reload d) (VRun true BNotReady false)) d in
  match m_ready (dm_main d) with
  | OLoop i false :: _ =>
      match index_of i (dm_ids d) with
      | None => Ok (plain d)
      | Some n =>
          match sys_tick f n k (dm_sys d) with
          | Ok s => Ok (set_sys s (plain d))
          | Throw _ => Ok (set_reload (reload_step (dm_reload d) (VRun false BNotReady false)) d)
          | UB m => UB m
          end
      end
  | ORestart false :: r =>
      match stopControlLoops (set_ready r (dm_main d)) with
      | (false, _) => Ok (plain d)
      | (true, m) =>
          match clear_zones f (wk_write_ok k) m d with
          | UB m => UB m
          | Throw _ => Ok (die d)
          | Ok d1 =>
              do x <- restart f sf pow10 re configPath w (dm_exports d1) (dm_sys d1);
              let '(b, (ex, s)) := x in
              let rl := reload_step (dm_reload d) (VRun true b (no_config_file configPath (su_disk w))) in
              Ok (Daemon rl s (dm_ids d1 ++ firstn (started b) (m_zones (rl_main rl))) ex)
          end
      end
  | OTerminate false :: r =>
      match stopControlLoops (set_ready r (dm_main d)) with
      | (false, _) => Ok (plain d)
      | (true, m) =>
          match clear_zones f (wk_write_ok k) m d with
          | UB m => UB m
          | Throw _ => Ok (die d)
          | Ok d1 => Ok (plain d1)
          end
      end
  | _ => Ok (plain d)
  end.

(** One event, /repo/main.cpp:423.  Nothing happens once the daemon has ended. *)
Definition daemon_step (f : flags) (sf : sflags) (pow10 : Z -> dbl) (re : regex) (configPath : string)
    (d : daemon) (e : daemon_ev) : outcome daemon :=
  if m_stopped (dm_main d) then Ok d else
  match e with
  | DMove (VRun _ _ _) => Ok d
  | DMove e => Ok (set_reload (reload_step (dm_reload d) e) d)
  | DRun w k => run_handler f sf pow10 re configPath w k d
  | DSys (STick _ _) => Ok d
  | DSys e =>
      match sys_step f sf pow10 (dm_sys d) e with
      | Ok s => Ok (set_sys s d)
      | Throw _ => Ok (die d)
      | UB m => UB m
      end
  end.

(** Any number of events, /repo/main.cpp:423. *)
Definition daemon_run (f : flags) (sf : sflags) (pow10 : Z -> dbl) (re : regex) (configPath : string)
    (evs : list daemon_ev) (d : daemon) : outcome daemon :=
  foldM (daemon_step f sf pow10 re configPath) evs d.
