(** * Model of IPMI requests to the running daemon.

    Sources: ipmi/dbus_mode.cpp and ipmi/manualcmds.cpp (IpmiModel.v), the
    properties of the zone objects in pid/zone.cpp, and the daemon
    (DaemonModel.v).

    Simplified: a request is answered at one moment of the daemon's life; a "Set"
    message that was sent arrives at any later moment, in any order, or never. *)
From Coq Require Import ZArith Bool List String.
From Verif Require Import Base Dbl ZoneModel LoopModel SensorModel SystemModel DbusConfigModel IpmiModel MainModel ReloadModel StartModel DaemonModel.
From Verif Require BuilderModel.
Import ListNotations.
Local Open Scope string_scope.
Local Open Scope outcome_scope.

(** The properties of xyz.openbmc_project.Control.Mode of a zone object,
    /repo/pid/zone.cpp:579-589.  [Manual] is kept twice, by [setManualMode] and by
    the generated [ModeObject::manual]; both are only set there. *)
Definition zone_props (z : zone) : smap bool := [("FailSafe", getFailSafeMode z); ("Manual", z_manualMode z)].

(** The zone object with this path: its position and the zone,
    /repo/pid/builder.cpp:34-37, 67-73. *)
Fixpoint zone_at (path : string) (ls : list loop) : option (nat * zone) :=
  match ls with
  | [] => None
  | l :: r =>
      if String.eqb (BuilderModel.getControlPath (z_zoneId (l_zone l))) path then Some (O, l_zone l)
      else option_map (fun x => (S (fst x), snd x)) (zone_at path r)
  end.

(** What the daemon answers to GetAll, /repo/ipmi/dbus_mode.cpp:41-55.  Zones that
    were built but whose loop could not be started have objects, too; what these
    say is [others]. *)
Definition daemon_bus (others : bus_props) (d : daemon) : bus_props := fun path =>
  if m_stopped (dm_main d) then None else
  match zone_at path (sy_loops (dm_sys d)) with
  | Some (_, z) => Some (zone_props z)
  | None =>
      if existsb (fun i => String.eqb (BuilderModel.getControlPath (fst i)) path) (m_zones (dm_main d)) then others path
      else None
  end.

(** The daemon, the "Set Manual" messages on their way (path, value), and the requests
    answered so far, oldest first; no counterpart in /repo. *)
Record world : Type := World {
  wd_daemon : daemon;
  wd_flight : list (string * bool);
  wd_replies : list (list Z * reply)
}.
(** Nothing was asked yet, /repo/main.cpp:417-423. *)
Definition world_init (first : option string) (devices : smap Z) : world := World (daemon_init first devices) [] [].

(** An IPMI request is made; a message arrives at the daemon; the daemon moves on.
    [sends]: the bus takes messages, /repo/ipmi/dbus_mode.cpp:80-87. *)
Inductive world_ev : Type :=
| WRequest (others : bus_props) (sends : string -> bool) (req : list Z)
| WArrive (path : string) (value : bool)
| WDaemon (e : daemon_ev).

(** The messages a request sends, /repo/ipmi/dbus_mode.cpp:65-91. *)
Definition messages_sent (r : reply) : list (string * bool) :=
  match rp_code r with
  | Ok 0%Z => flat_map (fun c => match c with ZcSet zone v _ => [(ipmi_getControlPath zone, v)] | ZcGet _ _ => [] end) (rp_calls r)
  | _ => []
  end.

(** Equality of messages; no counterpart in /repo. *)
Definition same_message (a b : string * bool) : bool := String.eqb (fst a) (fst b) && Bool.eqb (snd a) (snd b).
(** One message less on the way; no counterpart in /repo. *)
Fixpoint take (m : string * bool) (l : list (string * bool)) : list (string * bool) :=
  match l with
  | [] => []
  | x :: r => if same_message m x then r else x :: take m r
  end.

(** Which event in the daemon something is: an arriving message is a call of
    [manual(bool)] of the zone with that path, if there is one,
    /repo/pid/zone.cpp:579-584. *)
Definition daemon_event (w : world) (e : world_ev) : option daemon_ev :=
  match e with
  | WRequest _ _ _ => None
  | WArrive path v =>
      if existsb (same_message (path, v)) (wd_flight w)
      then option_map (fun x => DSys (SManual (fst x) v)) (zone_at path (sy_loops (dm_sys (wd_daemon w))))
      else None
  | WDaemon e => Some e
  end.

(** One event; no counterpart in /repo (the processes run side by side). *)
Definition world_step (f : flags) (sf : sflags) (pow10 : Z -> dbl) (re : regex) (configPath : string)
    (w : world) (e : world_ev) : outcome world :=
  do d <- match daemon_event w e with
          | Some x => daemon_step f sf pow10 re configPath (wd_daemon w) x
          | None => Ok (wd_daemon w)
          end;
  match e with
  | WRequest others sends req =>
      let r := manualModeControl (dbus_backend (daemon_bus others d) sends) req in
      Ok (World d (wd_flight w ++ messages_sent r) (wd_replies w ++ [(req, r)]))
  | WArrive path v => Ok (World d (take (path, v) (wd_flight w)) (wd_replies w))
  | WDaemon _ => Ok (World d (wd_flight w) (wd_replies w))
  end.

(** Any number of events; no counterpart in /repo. *)
Definition world_run (f : flags) (sf : sflags) (pow10 : Z -> dbl) (re : regex) (configPath : string)
    (evs : list world_ev) (w : world) : outcome world :=
  foldM (world_step f sf pow10 re configPath) evs w.
