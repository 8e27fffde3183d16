(** * Vocabulary for IPMI requests to the running daemon. *)
From Coq Require Import ZArith Bool List String.
From Verif Require Import Base Dbl ZoneModel LoopModel ConfigModel SensorModel SpecSensor SystemModel SpecSystem IpmiModel MainModel StartModel DaemonModel SpecDaemon SpecLife RemoteModel.
Import ListNotations.

(** The numbers of the zones that run, and of all zones that were built. *)
Definition running_numbers (d : daemon) : list Z := map (fun l => z_zoneId (l_zone l)) (sy_loops (dm_sys d)).
Definition zone_numbers (d : daemon) : list Z := (running_numbers d ++ map fst (m_zones (dm_main d)))%list.

(** The object of a zone. *)
Definition object_of (number : Z) : string := ("/xyz/openbmc_project/settings/fanctrl/zone" ++ to_string number)%string.

(** The answer of the daemon in state [d] to a request. *)
Definition answer (others : bus_props) (sends : string -> bool) (d : daemon) (req : list Z) : reply :=
  manualModeControl (dbus_backend (daemon_bus others d) sends) req.

(** Some sensor of the zone counts as failing. *)
Definition some_failure (z : zone) : Prop := exists name, mget name (z_failSafeSensors z) <> None.

(** The bytes of a request. *)
Definition bytes (req : list Z) : Prop := Forall (fun b => (0 <= b < 256)%Z) req.

(** Nobody but the IPMI handler writes to [Manual]; zones may be started in any order. *)
Definition only_ipmi (e : world_ev) : Prop := forall i b, e <> WDaemon (DSys (SManual i b)).
Definition any_start (e : world_ev) : Prop := forall x, e = WDaemon x -> ordered x.

(** A poll at time [now] must not count the sensor as failing: nothing that was received
    makes it fail, and its value is one that was received or a file that is read anew. *)
Definition well_since (sf : sflags) (pow10 : Z -> dbl) (sb : sensor_bus) (failures : list string)
    (first : option string) (name : string) (info : SensorConfig) (before since : list sys_event) (now : Z) : Prop :=
  ~ bad_since sf pow10 sb failures first name info before since now /\
  ((exists t, updated_at sb name info since t) \/ (sysfs_path (sc_readPath info) /\ (0 <= sc_timeout info)%Z)).
