(** * Vocabulary of the whole-daemon properties (C60-C64).

    Paths are classified by their text, sensors by what the bus said about them,
    fan devices by what they hold.  Nothing here refers to the model's event
    handlers. *)
From Coq Require Import ZArith Bool List String Permutation.
From Verif Require Import Base Dbl PidModel ZoneModel LoopModel SpecZone SensorModel SpecSensor
  WriteModel SpecWrite BuilderModel SpecBuilder SystemModel.
Import ListNotations.
Local Open Scope string_scope.

(** ** Paths *)
Definition no_path (p : string) : Prop := p = "" \/ p = "None".

(** Where a sensor is read from. *)
Definition external_path (p : string) : Prop :=
  ~ no_path p /\ contains "/xyz/openbmc_project/extsensors/" p.
Definition bus_path (p : string) : Prop :=
  ~ no_path p /\ ~ external_path p /\ contains "/xyz/openbmc_project/" p.
Definition sysfs_path (p : string) : Prop :=
  ~ no_path p /\ ~ contains "/xyz/openbmc_project/" p /\ contains "/sys/" p.
(** Where a fan is written to. *)
Definition sysfs_out (p : string) : Prop := ~ no_path p /\ contains "/sys/" p.
Definition bus_out (p : string) : Prop :=
  ~ no_path p /\ ~ sysfs_out p /\ contains "/xyz/openbmc_project/" p.

(** ** Sensors as configured (C60) *)
Definition known_type (t : string) : Prop :=
  t = "fan" \/ t = "temp" \/ t = "margin" \/ t = "power" \/ t = "powersum".

Definition reader_for (sf : sflags) (pow10 : Z -> dbl) (sb : sensor_bus) (name : string)
    (info : SensorConfig) (r : reader) : Prop :=
  match r with
  | RPassive p red =>
      bus_path (sc_readPath info) /\
      createDbusPassive sf pow10 (sb_now sb name) (sc_type info) name (sb_replies sb name) info = Some p /\
      (red = true <-> sc_type info = "fan")
  | RSysfs path => sysfs_path (sc_readPath info) /\ resolves (sb_dir sb) (sc_readPath info) path
  | RWriteOnly =>
      ~ external_path (sc_readPath info) /\ ~ bus_path (sc_readPath info) /\ ~ sysfs_path (sc_readPath info)
  | RNull => external_path (sc_readPath info)
  end.

(** Only fans are writable; a positive maximum means commands are scaled. *)
Definition writer_for (sb : sensor_bus) (info : SensorConfig) (w : writer) : Prop :=
  match w with
  | WDbus path d =>
      sc_type info = "fan" /\ bus_out (sc_writePath info) /\ path = sc_writePath info /\
      sb_writable sb path = true /\
      (dw_percent d = true <-> (0 < sc_max info)%Z) /\ dw_min d = sc_min info /\ dw_max d = sc_max info /\
      dw_oldValue d = (-1)%Z /\ dw_calls d = []
  | WSysfs path percent min max =>
      sc_type info = "fan" /\ sysfs_out (sc_writePath info) /\
      resolves (sb_dir sb) (sc_writePath info) path /\
      (percent = true <-> (0 < sc_max info)%Z) /\ min = sc_min info /\ max = sc_max info
  | WReadOnlyNoExcept =>
      sc_type info <> "fan" \/ (~ sysfs_out (sc_writePath info) /\ ~ bus_out (sc_writePath info))
  end.

Definition sensor_for (sf : sflags) (pow10 : Z -> dbl) (sb : sensor_bus) (name : string)
    (info : SensorConfig) (x : sensor) : Prop :=
  known_type (sc_type info) /\
  match x with
  | Pluggable t r w i =>
      (sc_type info = "fan" \/ ~ external_path (sc_readPath info)) /\
      t = sc_timeout info /\ i = sc_ignoreFailIfHostOff info /\
      reader_for sf pow10 sb name info r /\ writer_for sb info w
  | Host t i h =>
      sc_type info <> "fan" /\ external_path (sc_readPath info) /\
      t = sc_timeout info /\ i = false /\ hs_value h = dmul d0 (D 1) /\ hs_updated h = sb_now sb name
  end.

(** An external sensor; the daemon puts its object on the bus. *)
Definition published_sensor (info : SensorConfig) : Prop :=
  known_type (sc_type info) /\ sc_type info <> "fan" /\ external_path (sc_readPath info).
(** The entries that can be built. *)
Definition buildable_sensor (sf : sflags) (pow10 : Z -> dbl) (sb : sensor_bus)
    (e : string * SensorConfig) : Prop :=
  let '(name, info) := e in
  (bus_path (sc_readPath info) ->
   createDbusPassive sf pow10 (sb_now sb name) (sc_type info) name (sb_replies sb name) info <> None) /\
  (sysfs_path (sc_readPath info) -> exists path, resolves (sb_dir sb) (sc_readPath info) path) /\
  (sc_type info = "fan" -> bus_out (sc_writePath info) -> sb_writable sb (sc_writePath info) = true) /\
  (sc_type info = "fan" -> sysfs_out (sc_writePath info) ->
   exists path, resolves (sb_dir sb) (sc_writePath info) path) /\
  (published_sensor info -> sb_free sb (sc_readPath info) = true).
(** No two external sensors have the same object. *)
Definition own_objects (config : smap SensorConfig) : Prop :=
  ForallOrdPairs (fun a b => published_sensor (snd a) -> published_sensor (snd b) ->
    sc_readPath (snd a) <> sc_readPath (snd b)) config.

(** ** What the bus said (C61) *)
Definition heard (path : string) (evs : list sys_event) : list sensor_msg :=
  flat_map (fun e => match e with SSignal p m => if String.eqb path p then [m] else [] | _ => [] end) evs.
Definition host_values (name : string) (evs : list sys_event) : list (dbl * Z) :=
  flat_map (fun e => match e with SHost n v t => if String.eqb name n then [(v, t)] else [] | _ => [] end) evs.
Definition redundancy_news (evs : list sys_event) : list redundancy_msg :=
  flat_map (fun e => match e with SRedundancy m => [m] | _ => [] end) evs.
Definition host_changes (evs : list sys_event) : list (option string) :=
  flat_map (fun e => match e with SHostState c => [c] | _ => [] end) evs.

(** The path counts as failed in the redundancy news. *)
Definition marked_failed (failures : list string) (path : string) (evs : list sys_event) : Prop :=
  let last := latest (fun m => option_map Some (covers path m)) None (redundancy_news evs) in
  (exists s, last = Some s /\ mentions_failed s) \/ (last = None /\ In path failures).

(** The passive sensor [name] is to be reported failed after the history [evs]. *)
Definition bus_failed (sf : sflags) (pow10 : Z -> dbl) (sb : sensor_bus) (failures : list string)
    (name : string) (info : SensorConfig) (evs : list sys_event) : Prop :=
  let b := sb_replies sb name in
  let h := heard (sc_readPath info) evs in
  (sc_type info = "fan" /\ marked_failed failures (sc_readPath info) evs) \/
  missing b \/
  (exists i, starts sf (sb_now sb name) b info i /\
     ~ is_exempt (sc_type info) info i h /\
     (is_bad i h \/ (sc_type info = "margin" /\ is_hot pow10 i h) \/ is_alarmed (UNC_FAILSAFE sf) i h \/
      ~ is_available i h \/ ~ is_functional h)).

(** When the value that polls show was received. *)
Definition updated_at (sb : sensor_bus) (name : string) (info : SensorConfig) (evs : list sys_event)
    (t : Z) : Prop :=
  (bus_path (sc_readPath info) /\ ~ missing (sb_replies sb name) /\
   t = latest (fun m => option_map snd (accepted m)) (sb_now sb name) (heard (sc_readPath info) evs)) \/
  (external_path (sc_readPath info) /\ sc_type info <> "fan" /\
   t = latest (fun e => Some (snd e)) (sb_now sb name) (host_values name evs)).

(** A poll at time [now] must count the sensor as failing: it is to be reported
    failed, or its value is too old. *)
Definition bad_at (sf : sflags) (pow10 : Z -> dbl) (sb : sensor_bus) (failures : list string)
    (first : option string) (name : string) (info : SensorConfig) (evs : list sys_event) (now : Z) : Prop :=
  (bus_path (sc_readPath info) /\ bus_failed sf pow10 sb failures name info evs /\
   (sc_ignoreFailIfHostOff info = true -> host_on first (host_changes evs))) \/
  (external_path (sc_readPath info) /\ sc_type info <> "fan" /\
   disfinite (latest (fun e => Some (fst e)) d0 (host_values name evs)) = false) \/
  (exists t, updated_at sb name info evs t /\ sc_timeout info <> 0%Z /\
     (sc_timeout info <= Z.quot (now - t) 1000000000)%Z).

(** ** A daemon and its history *)

(** [s] is the state after the events [evs], the daemon having been built from
    [config] and started with zones [zs]. *)
Record runs (f : flags) (sf : sflags) (pow10 : Z -> dbl) (sb : sensor_bus) (config : smap SensorConfig)
    (failures : list string) (first : option string) (devices : smap Z)
    (zs : list (start_in * zone)) (evs : list sys_event) (s : system) : Prop := Runs {
  rn_keys : NoDup (map fst config);
  rn_fresh : Forall (fun e => fresh (snd e)) zs;
  rn_run : exists m s0,
    buildSensors sf pow10 sb config = Ok m /\
    sys_start f m failures (host_initial first) devices zs = Ok s0 /\
    sys_run f sf pow10 evs s0 = Ok s
}.

(** ** Fan devices (C62, C64) *)

(** Every fan write of every wake-up in the history reached its device. *)
Definition all_writes_ok (evs : list sys_event) : Prop :=
  forall i w, In (STick i w) evs -> forall k, wk_write_ok w k = true.
(** The device (Target property or file) a fan is written to. *)
Definition drives (sb : sensor_bus) (info : SensorConfig) (path : string) : Prop :=
  (bus_out (sc_writePath info) /\ path = sc_writePath info) \/
  (sysfs_out (sc_writePath info) /\ resolves (sb_dir sb) (sc_writePath info) path).
(** No other configured fan is written to the same device. *)
Definition own_device (sb : sensor_bus) (config : smap SensorConfig) (name path : string) : Prop :=
  forall n' info', In (n', info') config -> sc_type info' = "fan" -> drives sb info' path -> n' = name.
(** The value of the last write to [name] in a list of writes, oldest first. *)
Definition last_request (name : string) (ws : list (string * dbl * bool)) : option dbl :=
  fold_left (fun a e => if String.eqb name (fst (fst e)) then Some (snd (fst e)) else a) ws None.
(** The raw value a fan with limits [min], [max] is given for a fraction. *)
Definition raw_for (info : SensorConfig) (v : dbl) : option Z :=
  to_int64 (if (0 <? sc_max info)%Z
            then dadd (dmul (dsub (D (sc_max info)) (D (sc_min info))) v) (D (sc_min info))
            else v).

(** Wake-ups and mode of zone [i] in a history. *)
Definition wakes (i : nat) (evs : list sys_event) : nat :=
  List.length (filter (fun e => match e with STick j _ => Nat.eqb j i | _ => false end) evs).
Definition is_manual (i : nat) (evs : list sys_event) : bool :=
  fold_left (fun m e => match e with SManual j b => if Nat.eqb j i then b else m | _ => m end) evs false.

(** ** Keeping running (C63) *)

(** A name that polls can read: a configured sensor of a known type with a D-Bus
    path, an external path (not for fans) or a sysfs path. *)
Definition readable (config : smap SensorConfig) (n : string) : Prop :=
  exists info, In (n, info) config /\ known_type (sc_type info) /\
    (bus_path (sc_readPath info) \/ (external_path (sc_readPath info) /\ sc_type info <> "fan") \/
     sysfs_path (sc_readPath info)).
(** A name that can be written: a configured fan. *)
Definition writable (config : smap SensorConfig) (n : string) : Prop :=
  exists info, In (n, info) config /\ sc_type info = "fan".

(** Every PID of a zone can be served by the configured sensors. *)
Definition pids_served (config : smap SensorConfig) (pids : PIDConf) : Prop :=
  no_empty_fan_pid pids /\ zeros_finite pids /\
  (forall n, listed_by is_thermal_pid pids n -> readable config n) /\
  (forall n, listed_by is_fan_pid pids n -> readable config n /\ writable config n).

(** Every sysfs file of the configuration holds a number. *)
Definition files_ok (sb : sensor_bus) (config : smap SensorConfig) (files : string -> file_content)
  : Prop :=
  forall n info path, In (n, info) config -> sysfs_path (sc_readPath info) ->
    resolves (sb_dir sb) (sc_readPath info) path -> exists v, files path = FileInt v.

(** Messages carry values of the documented types. *)
Definition well_typed (m : sensor_msg) : Prop :=
  (forall t, says value_intf "Value" m <> Some (VStr t)) /\
  (forall i k v, In (i, k) [(critical_intf, "CriticalAlarmLow"); (critical_intf, "CriticalAlarmHigh");
                            (warning_intf, "WarningAlarmHigh"); (available_intf, "Available");
                            (functional_intf, "Functional")] ->
     says i k m = Some v -> exists b, v = VBool b).

(** What an event needs from outside. *)
Definition served (f : flags) (sb : sensor_bus) (config : smap SensorConfig) (e : sys_event) : Prop :=
  match e with
  | SSignal _ m => well_typed m
  | SRedundancy m => rm_status m <> RNotString
  | STick _ w =>
      files_ok sb config (wk_fan_files w) /\ files_ok sb config (wk_therm_files w) /\
      tuning_readable f (wk_tune w)
  | _ => True
  end.

(** Everything is well, except that a fan command may be out of the range of
    the integer type it is converted to. *)
Definition returns_or_bad_command {A : Type} (o : outcome A) : Prop :=
  (exists a, o = Ok a) \/ o = UB "floating-integral conversion".

(** [zs] are the zones built from [zp] and [confs], in any order, each with what
    its start finds. *)
Definition built_from (bus_ok : string -> bool) (zp : list (Z * PIDConf)) (confs : list (Z * ZoneConfig))
    (zs : list (start_in * zone)) : Prop :=
  NoDup (map fst zp) /\ exists built, buildZones bus_ok zp confs = Ok built /\ Permutation (map snd zs) (map snd built).
