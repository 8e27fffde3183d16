(** * When a sensor can be set up (C60). *)
From Coq Require Import ZArith Bool List String.
From Verif Require Import Base Dbl ConfigModel SensorModel SpecSensor WriteModel SpecWrite SystemModel SpecSystem.
Import ListNotations.
Local Open Scope string_scope.

(** A property is absent, or has a value of the right kind. *)
Definition is_text (v : dvalue) : Prop := exists s, v = VStr s.
Definition is_integer (v : dvalue) : Prop := exists n, v = VInt n.
Definition is_number (v : dvalue) : Prop := ~ is_text v.
Definition is_flag (v : dvalue) : Prop := exists b, v = VBool b.
Definition if_present (kind : dvalue -> Prop) (key : string) (props : smap dvalue) : Prop :=
  forall v, mget key props = Some v -> kind v.
Definition raised (key : string) (props : smap dvalue) : Prop := mget key props = Some (VBool true).

(** The object answers, with values of the right kinds. *)
Definition values_fit (b : bus_replies) : Prop :=
  exists props, br_value b = Some props /\
    if_present is_text "Unit" props /\ if_present is_integer "Scale" props /\
    if_present is_number "MaxValue" props /\ if_present is_number "MinValue" props /\
    if_present is_number "Value" props.
(** The alarms are flags, as far as they are looked at: in the order low, high,
    warning, up to the first one that is raised. *)
Definition warning_fits (sf : sflags) (b : bus_replies) : Prop :=
  UNC_FAILSAFE sf = true -> forall w, br_warning b = Some w -> if_present is_flag "WarningAlarmHigh" w.
Definition alarms_fit (sf : sflags) (b : bus_replies) : Prop :=
  (br_critical b = None -> warning_fits sf b) /\
  (forall c, br_critical b = Some c ->
     if_present is_flag "CriticalAlarmLow" c /\
     (raised "CriticalAlarmLow" c \/
      (if_present is_flag "CriticalAlarmHigh" c /\ (raised "CriticalAlarmHigh" c \/ warning_fits sf b)))).

Definition bus_sensor_fits (sf : sflags) (b : bus_replies) (type : string) : Prop :=
  known_type type /\
  ((missing b /\ HANDLE_MISSING_OBJECT_PATHS sf = true) \/
   (~ missing b /\ values_fit b /\ alarms_fit sf b)).

Definition can_be_built (sf : sflags) (sb : sensor_bus) (e : string * SensorConfig) : Prop :=
  let '(name, info) := e in
  (bus_path (sc_readPath info) -> bus_sensor_fits sf (sb_replies sb name) (sc_type info)) /\
  (sysfs_path (sc_readPath info) -> exists path, resolves (sb_dir sb) (sc_readPath info) path) /\
  (sc_type info = "fan" -> bus_out (sc_writePath info) -> sb_writable sb (sc_writePath info) = true) /\
  (sc_type info = "fan" -> sysfs_out (sc_writePath info) ->
   exists path, resolves (sb_dir sb) (sc_writePath info) path) /\
  (published_sensor info -> sb_free sb (sc_readPath info) = true).
