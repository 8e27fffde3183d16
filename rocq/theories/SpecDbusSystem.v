(** * What a configuration on D-Bus needs for the daemon to run (C72). *)
From Coq Require Import ZArith Bool List String.
From Verif Require Import Base Dbl DblFacts PidModel ZoneModel LoopModel BuilderModel SpecBuilder
  SensorModel WriteModel SystemModel SpecSystem JsonModel SpecJson ConfigModel DbusConfigModel SpecDbus.
Import ListNotations.
Local Open Scope string_scope.

(** Every zone a controller is in has an object of its own. *)
Definition zones_described (ps : list part) : Prop :=
  forall props zone, In (PPid props zone) ps \/ In (PStep props zone) ps ->
    exists z, In (PZone z) ps /\ says_text z "Name" zone.
(** PIDs have a known class; fan and margin PIDs have no offset, and the zeros
    of a margin PID are numbers. *)
Definition classes_served (ps : list part) : Prop :=
  forall props zone class, In (PPid props zone) ps -> says_text props "Class" class ->
    known_type class /\
    (class = "fan" \/ class = "margin" -> plain props) /\
    (class = "margin" -> forall margins, numbers_or_none props "TempToMargin" margins -> Forall dfinite margins).
(** No thermal sensor is called like a fan with its PWM. *)
Definition fans_apart (w : setting) (ps : list part) : Prop :=
  forall props zone missing sources e n c,
    In (PPid props zone) ps -> says_text props "Class" "fan" -> pid_sources w props missing sources ->
    In e sources -> fan_name e n -> ~ thermal_entry w ps n c.
(** Sensors are below /xyz/openbmc_project/, and they and the fans answer. *)
Definition sensors_served (sf : sflags) (pow10 : Z -> dbl) (sb : sensor_bus) (w : setting)
    (ps : list part) : Prop :=
  forall n c, sensor_entry w ps n c -> bus_path (sc_readPath c) /\ buildable_sensor sf pow10 sb (n, c).

(** All of this, and the bus accepts the objects the daemon publishes. *)
Definition daemon_served (sf : sflags) (re : regex) (cb : config_bus) (pow10 : Z -> dbl)
    (sb : sensor_bus) (bus_ok : string -> bool) : Prop :=
  (forall i n, bus_ok (zone_path i) = true /\ bus_ok (SpecBuilder.pid_path i n) = true) /\
  forall resp bus objs, cb_subtree cb = Some resp -> searched resp bus -> reads cb resp objs ->
    let w := Setting sf re resp bus (cb_thresholds cb) in
    zones_described (parts objs) /\ classes_served (parts objs) /\ fans_apart w (parts objs) /\
    sensors_served sf pow10 sb w (parts objs).
