(** * Sensors, zones, bus messages and fan devices together.

    Sources: sensors/builder.cpp, sensors/manager.{hpp,cpp},
    sensors/{pluggable,host}.{hpp,cpp}, notimpl/*.cpp, interfaces.hpp and the
    calls from main.cpp and pid/pidloop.cpp into them. *)
From Coq Require Import ZArith Bool List String.
From Verif Require Import Base Dbl PidModel ZoneModel LoopModel SensorModel WriteModel ConfigModel.
Import ListNotations.
Local Open Scope string_scope.
Local Open Scope Z_scope.
Local Open Scope outcome_scope.

(** ** Sensor objects *)

(** The readers that buildSensors plugs in (/repo/sensors/builder.cpp:67-104).
    [RPassive p red]: [red] tells whether it was given the redundancy object.
    [RNull] is the null pointer left for external paths. *)
Inductive reader : Type :=
| RPassive (p : passive) (red : bool)
| RSysfs (path : string)
| RWriteOnly
| RNull.

(** The writers (/repo/sensors/builder.cpp:103-145, 175). *)
Inductive writer : Type :=
| WDbus (path : string) (w : dbus_writer)
| WSysfs (path : string) (percent : bool) (min max : Z)
| WReadOnlyNoExcept.

(** [PluggableSensor] (/repo/sensors/pluggable.hpp:17-38) and [HostSensor]
    (/repo/sensors/host.hpp:29-60), with [_timeout] and [_ignoreFailIfHostOff]
    of /repo/sensors/sensor.hpp:31-35.  The name is the key in the manager. *)
Inductive sensor : Type :=
| Pluggable (timeout : Z) (r : reader) (w : writer) (ignoreFailIfHostOff : bool)
| Host (timeout : Z) (ignoreFailIfHostOff : bool) (h : host_sensor).

(** ** Building them *)

(** What the outside answers while sensors are created: the replies about the
    object of a passive sensor (by sensor name), whether the mapper knows a
    writable object, the clock, the entries of directories ([None] for one that
    cannot be opened), the object paths that are still free.  Simplified:
    directories do not change while the sensors are built.
    /repo/sensors/builder.cpp:72-84, 121-139, 168-170, /repo/sysfs/util.cpp:35,
    /repo/sensors/host.hpp:36-43. *)
Record sensor_bus : Type := SensorBus {
  sb_replies : string -> bus_replies;
  sb_writable : string -> bool;
  sb_now : string -> Z;
  sb_dir : string -> option (list string);
  sb_free : string -> bool
}.

(** /repo/sensors/builder.cpp:67-104: the reader of one entry;
    /repo/sysfs/sysfsread.hpp:18-20. *)
Definition make_reader (sf : sflags) (pow10 : Z -> dbl) (sb : sensor_bus) (name : string)
    (info : SensorConfig) : outcome reader :=
  match getReadInterfaceType (sc_readPath info) with
  | IoDBUSPASSIVE =>
      match createDbusPassive sf pow10 (sb_now sb name) (sc_type info) name
              (sb_replies sb name) info with
      | Some p => Ok (RPassive p (String.eqb (sc_type info) "fan"))
      | None => Throw "Failed to create dbus passive sensor"
      end
  | IoEXTERNAL => Ok RNull
  | IoSYSFS => do path <- FixupPath (sb_dir sb) (sc_readPath info); Ok (RSysfs path)
  | _ => Ok RWriteOnly
  end.

(** /repo/sensors/builder.cpp:106-149: the writer of one fan;
    /repo/sysfs/sysfswrite.hpp:19-21, 32-34. *)
Definition make_writer (sb : sensor_bus) (info : SensorConfig) : outcome writer :=
  match getWriteInterfaceType (sc_writePath info) with
  | IoSYSFS =>
      do path <- FixupPath (sb_dir sb) (sc_writePath info);
      Ok (WSysfs path (0 <? sc_max info) (sc_min info) (sc_max info))
  | IoDBUSACTIVE =>
      if sb_writable sb (sc_writePath info)
      then Ok (WDbus (sc_writePath info)
                 (dbus_writer_new (0 <? sc_max info) (sc_min info) (sc_max info)))
      else Throw "Unable to create write dbus interface for path"
  | _ => Ok WReadOnlyNoExcept
  end.

(** /repo/sensors/builder.cpp:44-179, the body of the loop. *)
Definition build_sensor (sf : sflags) (pow10 : Z -> dbl) (sb : sensor_bus)
    (m : smap sensor) (e : string * SensorConfig) : outcome (smap sensor) :=
  let '(name, info) := e in
  do r <- make_reader sf pow10 sb name info;
  if String.eqb (sc_type info) "fan"
  then do w <- make_writer sb info;
       Ok (mset name (Pluggable (sc_timeout info) r w (sc_ignoreFailIfHostOff info)) m)
  else if smem (sc_type info) ["temp"; "margin"; "power"; "powersum"]
  then match getReadInterfaceType (sc_readPath info) with
       | IoEXTERNAL => Ok (mset name (Host (sc_timeout info) false (host_createTemp (sb_now sb name))) m)
       | _ => Ok (mset name (Pluggable (sc_timeout info) r WReadOnlyNoExcept
                               (sc_ignoreFailIfHostOff info)) m)
       end
  else Ok m.

(** The object an entry puts on the bus: the sensor itself, if it is external.
    /repo/sensors/builder.cpp:152-171, /repo/sensors/host.hpp:36-43. *)
Definition exported (info : SensorConfig) : list string :=
  if negb (String.eqb (sc_type info) "fan") && smem (sc_type info) ["temp"; "margin"; "power"; "powersum"]
  then match getReadInterfaceType (sc_readPath info) with IoEXTERNAL => [sc_readPath info] | _ => [] end
  else [].
(** All of them, /repo/sensors/builder.cpp:44-179. *)
Definition exports (config : smap SensorConfig) : list string := flat_map (fun e => exported (snd e)) config.
(** They can be registered one after the other: sd-bus refuses to put the same
    interface on a path twice.  /repo/sensors/host.hpp:40-42. *)
Fixpoint can_register (free : string -> bool) (l : list string) : bool :=
  match l with
  | [] => true
  | p :: r => free p && negb (smem p r) && can_register free r
  end.

(** /repo/sensors/builder.cpp:35-185, [buildSensors].  Simplified: the
    redundancy object is the same for all sensors and survives rebuilding (it is
    a function-local static); its set of failed paths is kept in [system].  If
    several entries cannot be built, the exception is not always the one of the
    first. *)
Definition buildSensors (sf : sflags) (pow10 : Z -> dbl) (sb : sensor_bus)
    (config : smap SensorConfig) : outcome (smap sensor) :=
  if can_register (sb_free sb) (exports config) then foldM (build_sensor sf pow10 sb) config []
  else Throw "sd_bus_add_object_vtable".

(** ** Reading and writing sensors *)

(** [_reader->read()]: /repo/sensors/pluggable.cpp:15-18 and the readers.
    Simplified: a sysfs file is read at the time [now] of the poll, in the code
    a moment later. *)
Definition reader_read (files : string -> file_content) (now : Z) (r : reader) : outcome ReadReturn :=
  match r with
  | RPassive p _ => Ok (passive_read p)
  | RSysfs path => sysfs_read (files path) now
  | RWriteOnly => Throw "Not supported."
  | RNull => UB "null reader"
  end.
(** [_reader->getFailed()]: /repo/dbus/dbuspassive.cpp:194-280 and the default of
    /repo/interfaces.hpp:46-49.  A null reader has failed [read] before. *)
Definition reader_getFailed (failures : list string) (r : reader) : bool :=
  match r with
  | RPassive p red => fst (passive_getFailed (if red then Some failures else None) p)
  | _ => false
  end.
(** [_reader->getFailReason()]: /repo/dbus/dbuspassive.cpp:282-309 and the
    default of /repo/interfaces.hpp:51-54. *)
Definition reader_getFailReason (r : reader) : string :=
  match r with RPassive p _ => passive_getFailReason p | _ => "Unimplemented" end.

(** One poll, /repo/pid/zone.hpp:150-185: [read], [getTimeout], [getFailed],
    [getFailReason].  [power] is [HostStateMonitor::isPowerOn]. *)
Definition sensor_poll (failures : list string) (power : bool) (files : string -> file_content)
    (now : Z) (s : sensor) : outcome sensor_view :=
  match s with
  | Pluggable timeout r _ ignore =>
      do v <- reader_read files now r;
      Ok (View (rr_value v) (rr_unscaled v) (rr_updated v) timeout
            (pluggable_getFailed ignore power (reader_getFailed failures r))
            (reader_getFailReason r))
  | Host timeout ignore h =>
      let v := host_read h in
      Ok (View (rr_value v) (rr_unscaled v) (rr_updated v) timeout
            (fst (host_getFailed ignore power h)) "Unimplemented")
  end.

(** [write(value, force, &raw)] of the sensor, /repo/sensors/pluggable.cpp:25-28,
    /repo/sensors/sensor.hpp:42-47 and /repo/sensors/host.cpp:71-74: the raw
    value stored, if any. *)
Definition sensor_write (s : sensor) (value : dbl) (force : bool) : outcome (option Z) :=
  match s with
  | Pluggable _ _ (WDbus _ w) _ => do r <- dbus_write value force true w; Ok (Some (snd r))
  | Pluggable _ _ (WSysfs _ percent min max) _ =>
      do _ <- sysfs_write percent min max value true None; Ok None
  | Pluggable _ _ WReadOnlyNoExcept _ => Ok None
  | Host _ _ _ => Throw "Not Implemented."
  end.

(** ** The system *)

(** Everything that lives between two wake-ups: the sensor manager, the failed
    paths of the redundancy object, the host state, the loops of the zones
    (/repo/main.cpp:54-71) and, outside the daemon what the fan devices hold
    (Target property or sysfs file, by path). *)
Record system : Type := Sys {
  sy_sensors : smap sensor;
  sy_failures : list string;
  sy_power : bool;
  sy_loops : list loop;
  sy_devices : smap Z
}.

(** What the manager shows to one polling pass, /repo/sensors/manager.hpp:44-47. *)
Definition view_env (s : system) (files : string -> file_content) (now : Z) : poll_env :=
  PollEnv now (fun n =>
    match mget n (sy_sensors s) with
    | Some x => match sensor_poll (sy_failures s) (sy_power s) files now x with
                | Ok v => Some v
                | _ => None
                end
    | None => None
    end).

(** The first sensor of the list that cannot be read, if any: an unknown name
    ([std::map::at]), an exception or undefined behaviour of [read].  [poll_env]
    has no place for the last, so it is looked for before the zone polls; nothing
    else can go wrong while it polls (/repo/pid/zone.hpp:148-152). *)
Definition poll_check (s : system) (files : string -> file_content) (now : Z)
    (names : list string) : outcome unit :=
  foldM (fun _ n =>
    match mget n (sy_sensors s) with
    | None => Throw "out_of_range"
    | Some x => do _ <- sensor_poll (sy_failures s) (sy_power s) files now x; Ok tt
    end) names tt.

(** What the manager offers to the fan controllers, /repo/sensors/manager.hpp:44-47. *)
Definition sensors_write_env (m : smap sensor) : write_env :=
  fun n => option_map sensor_write (mget n m).

(** What one wake-up finds outside the daemon: clock and files at the two polls,
    the tuning files, and whether the k-th fan write of the wake-up succeeds (the
    bus call returns, the file opens).  /repo/pid/pidloop.cpp:104-135. *)
Record wake : Type := Wake {
  wk_fan_now : Z;
  wk_fan_files : string -> file_content;
  wk_therm_now : Z;
  wk_therm_files : string -> file_content;
  wk_tune : tune_env;
  wk_write_ok : nat -> bool
}.

(** The surroundings of the timer handler, /repo/pid/pidloop.cpp:104-135. *)
Definition tick_of (s : system) (w : wake) : tick_env :=
  TickEnv (view_env s (wk_fan_files w) (wk_fan_now w))
          (view_env s (wk_therm_files w) (wk_therm_now w))
          (sensors_write_env (sy_sensors s)) (wk_tune w).

(** The value of the Set call made by [dbus_write], if one was made and it
    succeeded; no counterpart in /repo. *)
Definition sent (w w' : dbus_writer) : option Z :=
  if (List.length (dw_calls w) <? List.length (dw_calls w'))%nat
  then match dw_calls w' with (v, true) :: _ => Some v | _ => None end
  else None.

(** Assignments to the parts of [system]; no counterpart in /repo. *)
Definition set_sensors (m : smap sensor) (s : system) : system :=
  Sys m (sy_failures s) (sy_power s) (sy_loops s) (sy_devices s).
(** Assignment; no counterpart in /repo. *)
Definition set_failures (l : list string) (s : system) : system :=
  Sys (sy_sensors s) l (sy_power s) (sy_loops s) (sy_devices s).
(** Assignment; no counterpart in /repo. *)
Definition set_power (b : bool) (s : system) : system :=
  Sys (sy_sensors s) (sy_failures s) b (sy_loops s) (sy_devices s).
(** Assignment; no counterpart in /repo. *)
Definition set_loops (l : list loop) (s : system) : system :=
  Sys (sy_sensors s) (sy_failures s) (sy_power s) l (sy_devices s).
(** Assignment; no counterpart in /repo. *)
Definition set_devices (d : smap Z) (s : system) : system :=
  Sys (sy_sensors s) (sy_failures s) (sy_power s) (sy_loops s) d.

(** The effect of one fan write on the writer and on the device,
    /repo/dbus/dbuswrite.cpp:63-107, 132-169, /repo/sysfs/sysfswrite.cpp:13-38. *)
Definition apply_write (ok : nat -> bool) (ks : nat * system) (ev : string * dbl * bool)
  : outcome (nat * system) :=
  let '(k, s) := ks in
  let '(name, value, force) := ev in
  match mget name (sy_sensors s) with
  | Some (Pluggable t r (WDbus path w) i) =>
      do rw <- dbus_write value force (ok k) w;
      let s' := set_sensors (mset name (Pluggable t r (WDbus path (fst rw)) i) (sy_sensors s)) s in
      Ok (S k, match sent w (fst rw) with
               | Some v => set_devices (mset path v (sy_devices s')) s'
               | None => s'
               end)
  | Some (Pluggable t r (WSysfs path percent min max) i) =>
      do v <- sysfs_write percent min max value (ok k) (mget path (sy_devices s));
      Ok (S k, match v with
               | Some v => set_devices (mset path v (sy_devices s)) s
               | None => s
               end)
  | _ => Ok (S k, s)
  end.

(** The fan writes of a wake-up, oldest first: the effects added to the zone's
    record; no counterpart in /repo. *)
Definition new_writes (before after : zone) : list (string * dbl * bool) :=
  flat_map (fun e => match e with EvWrite n v b => [(n, v, b)] | _ => [] end)
    (rev (firstn (List.length (z_trace after) - List.length (z_trace before)) (z_trace after))).

(** The timer handler of zone [i], /repo/pid/pidloop.cpp:70-142.  The zone's
    part is [loop_tick]; the writes it records are then carried out in order.
    [dbus_write] answers the same raw value whatever the writer's state, except
    for the undefined conversion of raw value -1, which is not reached when the
    writer still holds its initial -1; carrying out the writes decides that
    case.  Simplified: if the handler throws after such a conversion the model
    says [Throw], not [UB]. *)
Definition sys_tick (f : flags) (i : nat) (w : wake) (s : system) : outcome system :=
  match nth_error (sy_loops s) i with
  | None => Ok s
  | Some l =>
      let z := l_zone l in
      do _ <- (if z_manualMode z then Ok tt
               else do _ <- poll_check s (wk_fan_files w) (wk_fan_now w) (z_fanInputs z);
                    if z_updateThermalsTimeMS z <=? l_cycleCnt l
                    then poll_check s (wk_therm_files w) (wk_therm_now w) (z_thermalInputs z)
                    else Ok tt);
      do ls <- update_nth i (fun l => loop_step f l (LTick (tick_of s w))) (sy_loops s);
      do ks <- match nth_error ls i with
               | Some l' => foldM (apply_write (wk_write_ok w)) (new_writes z (l_zone l'))
                              (O, set_loops ls s)
               | None => Ok (O, set_loops ls s)
               end;
      Ok (snd ks)
  end.

(** A PropertiesChanged signal reaches every passive sensor of that object:
    /repo/dbus/dbuspassive.cpp:160, 509-516, /repo/dbus/dbusutil.cpp:144-148. *)
Definition sensor_signal (sf : sflags) (pow10 : Z -> dbl) (path : string) (m : sensor_msg)
    (s : sensor) : outcome sensor :=
  match s with
  | Pluggable t (RPassive p red) w i =>
      if String.eqb (p_path p) path
      then do p' <- handleSensorValue sf pow10 p m; Ok (Pluggable t (RPassive p' red) w i)
      else Ok s
  | _ => Ok s
  end.
(** All sensors of the manager, /repo/sensors/manager.hpp:60. *)
Fixpoint signal_all (sf : sflags) (pow10 : Z -> dbl) (path : string) (m : sensor_msg)
    (l : smap sensor) : outcome (smap sensor) :=
  match l with
  | [] => Ok []
  | (n, x) :: r =>
      do x' <- sensor_signal sf pow10 path m x;
      do r' <- signal_all sf pow10 path m r;
      Ok ((n, x') :: r')
  end.

(** A Set of the Value property of an external sensor, /repo/sensors/host.cpp:51-59. *)
Definition host_write (name : string) (e : dbl * Z) (m : smap sensor) : smap sensor :=
  match mget name m with
  | Some (Host t i h) => mset name (Host t i (host_setValue h e)) m
  | _ => m
  end.

(** What can happen to the running daemon.  A signal for an object, a new value of
    an external sensor, a signal of a redundancy object, a change of the host
    state, and for zone [i]: a wake-up, a write of Manual, a write of Enabled.
    An index without zone does nothing.  The handlers are registered at
    /repo/dbus/dbuspassive.cpp:160, /repo/sensors/host.cpp:51,
    /repo/dbus/dbuspassiveredundancy.cpp:51-55, /repo/hoststatemonitor.hpp:73-86,
    /repo/pid/pidloop.cpp:70 and by the D-Bus objects of the zone. *)
Inductive sys_event : Type :=
| SSignal (path : string) (m : sensor_msg)
| SHost (name : string) (v : dbl) (now : Z)
| SRedundancy (m : redundancy_msg)
| SHostState (c : option string)
| STick (i : nat) (w : wake)
| SManual (i : nat) (b : bool)
| SEnable (i : nat) (pid : string) (b : bool).

(** One event of the io_context, /repo/main.cpp:423.  An exception that
    leaves a handler ends the daemon ([Throw]). *)
Definition sys_step (f : flags) (sf : sflags) (pow10 : Z -> dbl) (s : system) (e : sys_event)
  : outcome system :=
  match e with
  | SSignal path m =>
      do l <- signal_all sf pow10 path m (sy_sensors s);
      Ok (set_sensors l s)
  | SHost n v now => Ok (set_sensors (host_write n (v, now) (sy_sensors s)) s)
  | SRedundancy m =>
      do l <- handleRedundancy (sy_failures s) m;
      Ok (set_failures l s)
  | SHostState c => Ok (set_power (handleStateChange (sy_power s) c) s)
  | STick i w => sys_tick f i w s
  | SManual i b =>
      do ls <- update_nth i (fun l => loop_step f l (LManual b)) (sy_loops s);
      Ok (set_loops ls s)
  | SEnable i p b =>
      do ls <- update_nth i (fun l => loop_step f l (LEnable p b)) (sy_loops s);
      Ok (set_loops ls s)
  end.
(** Any number of events, /repo/main.cpp:423. *)
Definition sys_run (f : flags) (sf : sflags) (pow10 : Z -> dbl) (evs : list sys_event) (s : system)
  : outcome system := foldM (sys_step f sf pow10) evs s.

(** ** Starting *)

(** Clock, files and tuning files when the loop of one zone starts; the second
    time is the one of the timer.  /repo/pid/pidloop.cpp:35-69. *)
Record start_in : Type := StartIn {
  st_now : Z;
  st_files : string -> file_content;
  st_tune : tune_env;
  st_timer : Z
}.

(** /repo/main.cpp:178-185 and /repo/pid/pidloop.cpp:35-69 for one zone. *)
Definition start_zone (f : flags) (s : system) (e : start_in * zone) : outcome system :=
  let '(i, z) := e in
  do _ <- poll_check s (st_files i) (st_now i) (z_thermalInputs z);
  do l <- loop_start f (view_env s (st_files i) (st_now i)) (st_tune i) (st_timer i) z;
  Ok (set_loops (sy_loops s ++ [l])%list s).
(** /repo/main.cpp:127-186: sensors built, zones built, loops started.  [zs] are
    the zones that buildZones made, in starting order. *)
Definition sys_start (f : flags) (sensors : smap sensor) (failures : list string) (power : bool)
    (devices : smap Z) (zs : list (start_in * zone)) : outcome system :=
  foldM (start_zone f) zs (Sys sensors failures power [] devices).
