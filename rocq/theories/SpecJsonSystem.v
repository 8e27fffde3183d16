(** * What a JSON configuration needs for the daemon to run (C68). *)
From Coq Require Import ZArith Bool List String.
From Verif Require Import Base Dbl DblFacts PidModel ZoneModel LoopModel BuilderModel SpecBuilder ConfigModel
  SensorModel WriteModel SystemModel SpecSystem JsonModel SpecJson.
Import ListNotations.
Local Open Scope string_scope.

Definition thermal_type (t : string) : Prop := In t ["temp"; "margin"; "power"; "powersum"; "stepwise"].

(** Sensor [n] of the text can be read. *)
Definition text_readable (sensors : list sensor_text) (n : string) : Prop :=
  exists s, last_sensor n sensors = Some s /\ known_type (st_type s) /\
    (bus_path (st_readPath s) \/ (external_path (st_readPath s) /\ st_type s <> "fan") \/
     sysfs_path (st_readPath s)).
(** It is a fan. *)
Definition text_fan (sensors : list sensor_text) (n : string) : Prop :=
  exists s, last_sensor n sensors = Some s /\ st_type s = "fan".

(** A PID has inputs, all of them among the sensors; the inputs of a fan PID are
    fans; the zeros given to a margin PID are numbers. *)
Definition pid_text_served (sensors : list sensor_text) (p : pid_text) : Prop :=
  (pt_type p = "fan" \/ thermal_type (pt_type p) ->
     pt_inputs p <> [] /\ forall n, In n (pt_inputs p) -> text_readable sensors n) /\
  (pt_type p = "fan" -> forall n, In n (pt_inputs p) -> text_fan sensors n) /\
  (pt_type p = "margin" -> Forall (fun x => dfinite (num_val x)) (or_default [] (pt_tempToMargin p))).
Definition text_served (sensors : list sensor_text) (zones : list zone_text) : Prop :=
  forall z p, In z zones -> In p (zt_pids z) -> pid_text_served sensors p.

(** The D-Bus sensors are there, the D-Bus fans are writable, every external sensor
    has its own object, and the bus accepts the objects the daemon publishes. *)
Definition bus_serves (sf : sflags) (pow10 : Z -> dbl) (sb : sensor_bus) (bus_ok : string -> bool)
    (sensors : list sensor_text) (zones : list zone_text) : Prop :=
  (forall s, In s sensors -> buildable_sensor sf pow10 sb (st_name s, sensor_of s)) /\
  (forall s s', In s sensors -> In s' sensors -> published_sensor (sensor_of s) -> published_sensor (sensor_of s') ->
     st_readPath s = st_readPath s' -> st_name s = st_name s') /\
  (forall z, In z zones -> bus_ok (zone_path (zt_id z)) = true /\
     forall p, In p (zt_pids z) -> thermal_type (pt_type p) ->
       bus_ok (pid_path (zt_id z) (pt_name p)) = true).
