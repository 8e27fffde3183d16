(** * Vocabulary for manual mode and failing sensors over the life of the daemon. *)
From Coq Require Import ZArith Bool List String.
From Verif Require Import Base Dbl ZoneModel LoopModel ConfigModel SensorModel SpecSensor SystemModel SpecSystem MainModel SpecMain StartModel DaemonModel SpecDaemon.
Import ListNotations.

(** Commands for the fan [name] go to the device [path]. *)
Definition commands (s : system) (name path : string) : Prop :=
  exists timeout r ignore,
    (exists w, mget name (sy_sensors s) = Some (Pluggable timeout r (WDbus path w) ignore)) \/
    (exists percent min max, mget name (sy_sensors s) = Some (Pluggable timeout r (WSysfs path percent min max) ignore)).
(** Only the loop at position [n] has fans with the device [path]. *)
Definition only_from (n : nat) (s : system) (path : string) : Prop :=
  forall j l name, j <> n -> nth_error (sy_loops s) j = Some l -> lists_fan l name -> ~ commands s name path.

(** How often the loop [z] has run so far. *)
Definition cycles_of (z : inst) (d : daemon) : nat :=
  List.length (filter (fun x => match x with MRan i => (fst i =? fst z)%Z && Nat.eqb (snd i) (snd z) | _ => false end)
    (history (dm_main d))).

(** The fans that count as failed when the loops are started in the system [s]: the
    answer of the redundancy service, or what is known already. *)
Definition known_failures (w : surroundings) (s : system) : list string :=
  match su_redundancy w with Some l => l | None => sy_failures s end.

(** A poll at time [now] must count the sensor as failing, given what was received
    before and since the sensors were built: [bad_at], but the state of the host is
    what it said last in the whole life. *)
Definition bad_since (sf : sflags) (pow10 : Z -> dbl) (sb : sensor_bus) (failures : list string)
    (first : option string) (name : string) (info : SensorConfig) (before since : list sys_event) (now : Z) : Prop :=
  (bus_path (sc_readPath info) /\ bus_failed sf pow10 sb failures name info since /\
   (sc_ignoreFailIfHostOff info = true -> host_on first (host_changes (before ++ since)))) \/
  (external_path (sc_readPath info) /\ sc_type info <> "fan"%string /\
   disfinite (latest (fun e => Some (fst e)) d0 (host_values name since)) = false) \/
  (exists t, updated_at sb name info since t /\ sc_timeout info <> 0%Z /\
     (sc_timeout info <= Z.quot (now - t) 1000000000)%Z).
