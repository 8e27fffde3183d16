(** * Model of a control zone and its controllers.

    Sources: pid/zone.{hpp,cpp}, pid/zone_interface.hpp,
    pid/fancontroller.{hpp,cpp}, pid/thermalcontroller.{hpp,cpp},
    pid/stepwisecontroller.{hpp,cpp}, pid/pidcontroller.{hpp,cpp}. *)
From Coq Require Import ZArith Bool List String Ascii.
From Verif Require Import Base Dbl PidModel.
Import ListNotations.
Local Open Scope string_scope.
Local Open Scope outcome_scope.

(** ** Global switches *)

(** Build options (meson: strict-failsafe-pwm, offline-failsafe-pwm) and the
    command-line flags of main.cpp that reach zones and controllers.
    Simplified: debug printing ([debugEnabled]) has no effect on any other state and is left
    out, except where it suppresses a message (see [fan_outputProc]).
    /repo/meson.options:8-19 and /repo/pid/tuning.hpp:5-24. *)
Record flags : Type := Flags {
  STRICT_FAILSAFE_PWM : bool;
  OFFLINE_FAILSAFE_PWM : bool;
  tuningEnabled : bool;
  loggingEnabled : bool;
  debugEnabled : bool
}.

(** ** Observations and effects *)

(** /repo/interfaces.hpp, [struct ValueCacheEntry]. *)
Record ValueCacheEntry : Type := Entry { scaled : dbl; unscaled : dbl }.

(** What one poll of a sensor returns: [Sensor::read] (value, unscaled,
    updated in ns), [getTimeout] (s), [getFailed], [getFailReason].
    /repo/sensors/sensor.hpp:39-70, /repo/interfaces.hpp:11-22. *)
Record sensor_view : Type := View {
  sv_value : dbl;
  sv_unscaled : dbl;
  sv_updated : Z;
  sv_timeout : Z;
  sv_failed : bool;
  sv_reason : string
}.

(** The sensors as seen by one call that polls: [None] means the manager has
    no sensor of that name and [SensorManager::getSensor] throws
    ([std::map::at], /repo/sensors/manager.hpp). *)
Record poll_env : Type := PollEnv {
  pe_now : Z;                              (* high_resolution_clock::now(), ns *)
  pe_sensor : string -> option sensor_view
}.

(** [Sensor::write(value, force, &raw)] as seen by a fan controller: the value
    stored through the pointer, [None] when the writer leaves it untouched.
    What the write does to the device is modelled in WriteModel.v.
    /repo/sensors/sensor.hpp:42-47. *)
Definition write_env : Type := string -> option (dbl -> bool -> outcome (option Z)).

(** Content of a tuning file as consumed by [ifs >> value]
    (/repo/pid/zone.cpp:293-298): the file cannot be opened; extraction stores
    an int (0 when there is no number, the nearest bound on overflow); or the
    stream is already at end of file, the extraction sentry fails and the
    local variable stays uninitialised. *)
Inductive file_content : Type := NoFile | FileInt (v : Z) | FileEmpty.
(** The two files of /repo/pid/zone.cpp:411-420. *)
Record tune_env : Type := TuneEnv { te_global : file_content; te_zone : file_content }.

(** Effects observable outside the zone, newest first in [z_trace].
    Polls: /repo/pid/zone.hpp:150-151; writes: /repo/pid/fancontroller.cpp:210, 244; messages: /repo/pid/zone.cpp:391-401; failsafe log attempts: /repo/pid/zone.cpp:103, 118 and /repo/pid/zone.hpp:200-218. *)
Inductive event : Type :=
| EvRead (sensor : string) (now : Z) (seen : sensor_view)
| EvThermalCycle
| EvWrite (sensor : string) (value : dbl) (force : bool)
| EvFailsafeLog (zone : Z) (state : bool) (location reason : string)
| EvRequester (zone : Z) (setpoint : dbl) (name : string) (sensors : list string)
| EvFanMode (zone : Z) (failsafe : bool) (percent : dbl) (sensors : list (string * string))
| EvFileError (global : bool) (text : string).

(** Tokens sent to the zone's CSV log stream.  Simplified: the stream always
    accepts them, numbers are kept as doubles, the time stamp is not kept.
    /repo/pid/zone.cpp:431-444, 474-490, /repo/pid/zone.hpp:167-173, /repo/pid/pidloop.cpp:130-135. *)
Inductive log_token : Type :=
| LText (s : string) | LNum (d : dbl) | LStamp | LBool (b : bool) | LComma | LEndl.

(** ** Controllers *)

(** /repo/conf.hpp, [struct SensorInput]. *)
Record SensorInput : Type := MkInput {
  si_name : string;
  si_convertMarginZero : dbl;
  si_convertTempToMargin : bool;
  si_missingIsAcceptable : bool
}.

(** /repo/pid/thermalcontroller.hpp, [enum class ThermalType]. *)
Inductive ThermalType : Type := margin | absolute | summation.

(** /repo/pid/fancontroller.hpp:19-53 with its [PIDController] base
    (/repo/pid/pidcontroller.hpp).  [FanSpeedDirection] is UP/DOWN/NEUTRAL. *)
Inductive FanSpeedDirection : Type := DirUp | DirDown | DirNeutral.
(** /repo/pid/fancontroller.hpp:46-52. *)
Record FanController : Type := MkFan {
  fan_id : string;
  fan_inputs : list string;
  fan_pid : pid_ctrl;
  fan_setpoint : dbl;
  fan_direction : FanSpeedDirection;
  fan_failsafeTransition : bool;
  fan_failsafePrevState : bool
}.

(** The two kinds of controller stored in [_thermals].
    /repo/pid/zone.hpp:254, /repo/pid/thermalcontroller.hpp:63-65, /repo/pid/stepwisecontroller.hpp:54-60. *)
Inductive ThermalCtl : Type :=
| TPid (id : string) (inputs : list SensorInput) (type : ThermalType)
       (setpoint : dbl) (pid : pid_ctrl)
| TStep (id : string) (inputs : list string) (ctl : stepwise_ctrl).

(** [getID], /repo/pid/pidcontroller.hpp:52-55, /repo/pid/stepwisecontroller.hpp:36-39. *)
Definition thermal_id (t : ThermalCtl) : string :=
  match t with TPid id _ _ _ _ => id | TStep id _ _ => id end.

(** The D-Bus object of a controller (Object.Enable and Debug.Pid.ThermalPower
    interfaces, /repo/pid/zone.hpp:38-43). *)
Record ProcessObject : Type := MkProcess {
  po_enabled : bool;
  po_setpoint : dbl;
  po_classType : string;
  po_leader : string;
  po_input : dbl;
  po_output : dbl
}.

(** ** The zone object *)

(** /repo/pid/zone.hpp:225-261.  Simplified: [_sensorFailSafePercent] is
    read with default 0; the entries that [operator[]] inserts on such reads (zone.cpp:108) are
    not represented, they are 0 and absent reads as 0.  Simplified also: the sensor manager
    [_mgr] is not a member; what it answers is an argument ([poll_env],
    [write_env]).  [z_trace] and [z_log]
    collect effects (newest first). *)
Record zone : Type := MkZone {
  z_zoneId : Z;
  z_accumulateSetPoint : bool;
  z_minThermalOutputSetPt : dbl;
  z_zoneFailSafePercent : dbl;
  z_cycleIntervalTimeMS : Z;
  z_updateThermalsTimeMS : Z;
  z_fanInputs : list string;
  z_thermalInputs : list string;
  z_missingAcceptable : list string;
  z_sensorFailSafePercent : smap dbl;
  z_maximumSetPoint : dbl;
  z_maximumSetPointName : string;
  z_maximumSetPointNamePrev : string;
  z_manualMode : bool;
  z_redundantWrite : bool;
  z_failSafeSensors : smap (string * dbl);
  z_setPoints : smap dbl;
  z_rpmCeilings : list dbl;
  z_cachedValuesByName : smap ValueCacheEntry;
  z_cachedFanOutputs : smap ValueCacheEntry;
  z_fans : list (option FanController);
  z_thermals : list ThermalCtl;
  z_pidsControlProcess : smap ProcessObject;
  z_trace : list event;
  z_log : list log_token
}.

(** Assignment to the member of /repo/pid/zone.hpp:227. *)
Definition set_zoneId (v : Z) (z : zone) : zone :=
    MkZone v (z_accumulateSetPoint z) (z_minThermalOutputSetPt z) (z_zoneFailSafePercent z)
    (z_cycleIntervalTimeMS z) (z_updateThermalsTimeMS z) (z_fanInputs z) (z_thermalInputs z)
    (z_missingAcceptable z) (z_sensorFailSafePercent z) (z_maximumSetPoint z)
    (z_maximumSetPointName z) (z_maximumSetPointNamePrev z) (z_manualMode z) (z_redundantWrite
    z) (z_failSafeSensors z) (z_setPoints z) (z_rpmCeilings z) (z_cachedValuesByName z)
    (z_cachedFanOutputs z) (z_fans z) (z_thermals z) (z_pidsControlProcess z) (z_trace z)
    (z_log z).
(** Assignment to the member of /repo/pid/zone.hpp:233. *)
Definition set_accumulateSetPoint (v : bool) (z : zone) : zone :=
    MkZone (z_zoneId z) v (z_minThermalOutputSetPt z) (z_zoneFailSafePercent z)
    (z_cycleIntervalTimeMS z) (z_updateThermalsTimeMS z) (z_fanInputs z) (z_thermalInputs z)
    (z_missingAcceptable z) (z_sensorFailSafePercent z) (z_maximumSetPoint z)
    (z_maximumSetPointName z) (z_maximumSetPointNamePrev z) (z_manualMode z) (z_redundantWrite
    z) (z_failSafeSensors z) (z_setPoints z) (z_rpmCeilings z) (z_cachedValuesByName z)
    (z_cachedFanOutputs z) (z_fans z) (z_thermals z) (z_pidsControlProcess z) (z_trace z)
    (z_log z).
(** Assignment to the member of /repo/pid/zone.hpp:234. *)
Definition set_minThermalOutputSetPt (v : dbl) (z : zone) : zone :=
    MkZone (z_zoneId z) (z_accumulateSetPoint z) v (z_zoneFailSafePercent z)
    (z_cycleIntervalTimeMS z) (z_updateThermalsTimeMS z) (z_fanInputs z) (z_thermalInputs z)
    (z_missingAcceptable z) (z_sensorFailSafePercent z) (z_maximumSetPoint z)
    (z_maximumSetPointName z) (z_maximumSetPointNamePrev z) (z_manualMode z) (z_redundantWrite
    z) (z_failSafeSensors z) (z_setPoints z) (z_rpmCeilings z) (z_cachedValuesByName z)
    (z_cachedFanOutputs z) (z_fans z) (z_thermals z) (z_pidsControlProcess z) (z_trace z)
    (z_log z).
(** Assignment to the member of /repo/pid/zone.hpp:236. *)
Definition set_zoneFailSafePercent (v : dbl) (z : zone) : zone :=
    MkZone (z_zoneId z) (z_accumulateSetPoint z) (z_minThermalOutputSetPt z) v
    (z_cycleIntervalTimeMS z) (z_updateThermalsTimeMS z) (z_fanInputs z) (z_thermalInputs z)
    (z_missingAcceptable z) (z_sensorFailSafePercent z) (z_maximumSetPoint z)
    (z_maximumSetPointName z) (z_maximumSetPointNamePrev z) (z_manualMode z) (z_redundantWrite
    z) (z_failSafeSensors z) (z_setPoints z) (z_rpmCeilings z) (z_cachedValuesByName z)
    (z_cachedFanOutputs z) (z_fans z) (z_thermals z) (z_pidsControlProcess z) (z_trace z)
    (z_log z).
(** Assignment to the member of /repo/pid/zone.hpp:237. *)
Definition set_cycleIntervalTimeMS (v : Z) (z : zone) : zone :=
    MkZone (z_zoneId z) (z_accumulateSetPoint z) (z_minThermalOutputSetPt z)
    (z_zoneFailSafePercent z) v (z_updateThermalsTimeMS z) (z_fanInputs z) (z_thermalInputs z)
    (z_missingAcceptable z) (z_sensorFailSafePercent z) (z_maximumSetPoint z)
    (z_maximumSetPointName z) (z_maximumSetPointNamePrev z) (z_manualMode z) (z_redundantWrite
    z) (z_failSafeSensors z) (z_setPoints z) (z_rpmCeilings z) (z_cachedValuesByName z)
    (z_cachedFanOutputs z) (z_fans z) (z_thermals z) (z_pidsControlProcess z) (z_trace z)
    (z_log z).
(** Assignment to the member of /repo/pid/zone.hpp:237. *)
Definition set_updateThermalsTimeMS (v : Z) (z : zone) : zone :=
    MkZone (z_zoneId z) (z_accumulateSetPoint z) (z_minThermalOutputSetPt z)
    (z_zoneFailSafePercent z) (z_cycleIntervalTimeMS z) v (z_fanInputs z) (z_thermalInputs z)
    (z_missingAcceptable z) (z_sensorFailSafePercent z) (z_maximumSetPoint z)
    (z_maximumSetPointName z) (z_maximumSetPointNamePrev z) (z_manualMode z) (z_redundantWrite
    z) (z_failSafeSensors z) (z_setPoints z) (z_rpmCeilings z) (z_cachedValuesByName z)
    (z_cachedFanOutputs z) (z_fans z) (z_thermals z) (z_pidsControlProcess z) (z_trace z)
    (z_log z).
(** Assignment to the member of /repo/pid/zone.hpp:247. *)
Definition set_fanInputs (v : list string) (z : zone) : zone :=
    MkZone (z_zoneId z) (z_accumulateSetPoint z) (z_minThermalOutputSetPt z)
    (z_zoneFailSafePercent z) (z_cycleIntervalTimeMS z) (z_updateThermalsTimeMS z) v
    (z_thermalInputs z) (z_missingAcceptable z) (z_sensorFailSafePercent z) (z_maximumSetPoint
    z) (z_maximumSetPointName z) (z_maximumSetPointNamePrev z) (z_manualMode z)
    (z_redundantWrite z) (z_failSafeSensors z) (z_setPoints z) (z_rpmCeilings z)
    (z_cachedValuesByName z) (z_cachedFanOutputs z) (z_fans z) (z_thermals z)
    (z_pidsControlProcess z) (z_trace z) (z_log z).
(** Assignment to the member of /repo/pid/zone.hpp:248. *)
Definition set_thermalInputs (v : list string) (z : zone) : zone :=
    MkZone (z_zoneId z) (z_accumulateSetPoint z) (z_minThermalOutputSetPt z)
    (z_zoneFailSafePercent z) (z_cycleIntervalTimeMS z) (z_updateThermalsTimeMS z) (z_fanInputs
    z) v (z_missingAcceptable z) (z_sensorFailSafePercent z) (z_maximumSetPoint z)
    (z_maximumSetPointName z) (z_maximumSetPointNamePrev z) (z_manualMode z) (z_redundantWrite
    z) (z_failSafeSensors z) (z_setPoints z) (z_rpmCeilings z) (z_cachedValuesByName z)
    (z_cachedFanOutputs z) (z_fans z) (z_thermals z) (z_pidsControlProcess z) (z_trace z)
    (z_log z).
(** Assignment to the member of /repo/pid/zone.hpp:243. *)
Definition set_missingAcceptable (v : list string) (z : zone) : zone :=
    MkZone (z_zoneId z) (z_accumulateSetPoint z) (z_minThermalOutputSetPt z)
    (z_zoneFailSafePercent z) (z_cycleIntervalTimeMS z) (z_updateThermalsTimeMS z) (z_fanInputs
    z) (z_thermalInputs z) v (z_sensorFailSafePercent z) (z_maximumSetPoint z)
    (z_maximumSetPointName z) (z_maximumSetPointNamePrev z) (z_manualMode z) (z_redundantWrite
    z) (z_failSafeSensors z) (z_setPoints z) (z_rpmCeilings z) (z_cachedValuesByName z)
    (z_cachedFanOutputs z) (z_fans z) (z_thermals z) (z_pidsControlProcess z) (z_trace z)
    (z_log z).
(** Assignment to the member of /repo/pid/zone.hpp:261. *)
Definition set_sensorFailSafePercent (v : smap dbl) (z : zone) : zone :=
    MkZone (z_zoneId z) (z_accumulateSetPoint z) (z_minThermalOutputSetPt z)
    (z_zoneFailSafePercent z) (z_cycleIntervalTimeMS z) (z_updateThermalsTimeMS z) (z_fanInputs
    z) (z_thermalInputs z) (z_missingAcceptable z) v (z_maximumSetPoint z)
    (z_maximumSetPointName z) (z_maximumSetPointNamePrev z) (z_manualMode z) (z_redundantWrite
    z) (z_failSafeSensors z) (z_setPoints z) (z_rpmCeilings z) (z_cachedValuesByName z)
    (z_cachedFanOutputs z) (z_fans z) (z_thermals z) (z_pidsControlProcess z) (z_trace z)
    (z_log z).
(** Assignment to the member of /repo/pid/zone.hpp:228. *)
Definition set_maximumSetPoint (v : dbl) (z : zone) : zone :=
    MkZone (z_zoneId z) (z_accumulateSetPoint z) (z_minThermalOutputSetPt z)
    (z_zoneFailSafePercent z) (z_cycleIntervalTimeMS z) (z_updateThermalsTimeMS z) (z_fanInputs
    z) (z_thermalInputs z) (z_missingAcceptable z) (z_sensorFailSafePercent z) v
    (z_maximumSetPointName z) (z_maximumSetPointNamePrev z) (z_manualMode z) (z_redundantWrite
    z) (z_failSafeSensors z) (z_setPoints z) (z_rpmCeilings z) (z_cachedValuesByName z)
    (z_cachedFanOutputs z) (z_fans z) (z_thermals z) (z_pidsControlProcess z) (z_trace z)
    (z_log z).
(** Assignment to the member of /repo/pid/zone.hpp:229. *)
Definition set_maximumSetPointName (v : string) (z : zone) : zone :=
    MkZone (z_zoneId z) (z_accumulateSetPoint z) (z_minThermalOutputSetPt z)
    (z_zoneFailSafePercent z) (z_cycleIntervalTimeMS z) (z_updateThermalsTimeMS z) (z_fanInputs
    z) (z_thermalInputs z) (z_missingAcceptable z) (z_sensorFailSafePercent z)
    (z_maximumSetPoint z) v (z_maximumSetPointNamePrev z) (z_manualMode z) (z_redundantWrite z)
    (z_failSafeSensors z) (z_setPoints z) (z_rpmCeilings z) (z_cachedValuesByName z)
    (z_cachedFanOutputs z) (z_fans z) (z_thermals z) (z_pidsControlProcess z) (z_trace z)
    (z_log z).
(** Assignment to the member of /repo/pid/zone.hpp:230. *)
Definition set_maximumSetPointNamePrev (v : string) (z : zone) : zone :=
    MkZone (z_zoneId z) (z_accumulateSetPoint z) (z_minThermalOutputSetPt z)
    (z_zoneFailSafePercent z) (z_cycleIntervalTimeMS z) (z_updateThermalsTimeMS z) (z_fanInputs
    z) (z_thermalInputs z) (z_missingAcceptable z) (z_sensorFailSafePercent z)
    (z_maximumSetPoint z) (z_maximumSetPointName z) v (z_manualMode z) (z_redundantWrite z)
    (z_failSafeSensors z) (z_setPoints z) (z_rpmCeilings z) (z_cachedValuesByName z)
    (z_cachedFanOutputs z) (z_fans z) (z_thermals z) (z_pidsControlProcess z) (z_trace z)
    (z_log z).
(** Assignment to the member of /repo/pid/zone.hpp:231. *)
Definition set_manualMode (v : bool) (z : zone) : zone :=
    MkZone (z_zoneId z) (z_accumulateSetPoint z) (z_minThermalOutputSetPt z)
    (z_zoneFailSafePercent z) (z_cycleIntervalTimeMS z) (z_updateThermalsTimeMS z) (z_fanInputs
    z) (z_thermalInputs z) (z_missingAcceptable z) (z_sensorFailSafePercent z)
    (z_maximumSetPoint z) (z_maximumSetPointName z) (z_maximumSetPointNamePrev z) v
    (z_redundantWrite z) (z_failSafeSensors z) (z_setPoints z) (z_rpmCeilings z)
    (z_cachedValuesByName z) (z_cachedFanOutputs z) (z_fans z) (z_thermals z)
    (z_pidsControlProcess z) (z_trace z) (z_log z).
(** Assignment to the member of /repo/pid/zone.hpp:232. *)
Definition set_redundantWrite (v : bool) (z : zone) : zone :=
    MkZone (z_zoneId z) (z_accumulateSetPoint z) (z_minThermalOutputSetPt z)
    (z_zoneFailSafePercent z) (z_cycleIntervalTimeMS z) (z_updateThermalsTimeMS z) (z_fanInputs
    z) (z_thermalInputs z) (z_missingAcceptable z) (z_sensorFailSafePercent z)
    (z_maximumSetPoint z) (z_maximumSetPointName z) (z_maximumSetPointNamePrev z) (z_manualMode
    z) v (z_failSafeSensors z) (z_setPoints z) (z_rpmCeilings z) (z_cachedValuesByName z)
    (z_cachedFanOutputs z) (z_fans z) (z_thermals z) (z_pidsControlProcess z) (z_trace z)
    (z_log z).
(** Assignment to the member of /repo/pid/zone.hpp:242. *)
Definition set_failSafeSensors (v : smap (string * dbl)) (z : zone) : zone :=
    MkZone (z_zoneId z) (z_accumulateSetPoint z) (z_minThermalOutputSetPt z)
    (z_zoneFailSafePercent z) (z_cycleIntervalTimeMS z) (z_updateThermalsTimeMS z) (z_fanInputs
    z) (z_thermalInputs z) (z_missingAcceptable z) (z_sensorFailSafePercent z)
    (z_maximumSetPoint z) (z_maximumSetPointName z) (z_maximumSetPointNamePrev z) (z_manualMode
    z) (z_redundantWrite z) v (z_setPoints z) (z_rpmCeilings z) (z_cachedValuesByName z)
    (z_cachedFanOutputs z) (z_fans z) (z_thermals z) (z_pidsControlProcess z) (z_trace z)
    (z_log z).
(** Assignment to the member of /repo/pid/zone.hpp:245. *)
Definition set_setPoints (v : smap dbl) (z : zone) : zone :=
    MkZone (z_zoneId z) (z_accumulateSetPoint z) (z_minThermalOutputSetPt z)
    (z_zoneFailSafePercent z) (z_cycleIntervalTimeMS z) (z_updateThermalsTimeMS z) (z_fanInputs
    z) (z_thermalInputs z) (z_missingAcceptable z) (z_sensorFailSafePercent z)
    (z_maximumSetPoint z) (z_maximumSetPointName z) (z_maximumSetPointNamePrev z) (z_manualMode
    z) (z_redundantWrite z) (z_failSafeSensors z) v (z_rpmCeilings z) (z_cachedValuesByName z)
    (z_cachedFanOutputs z) (z_fans z) (z_thermals z) (z_pidsControlProcess z) (z_trace z)
    (z_log z).
(** Assignment to the member of /repo/pid/zone.hpp:246. *)
Definition set_rpmCeilings (v : list dbl) (z : zone) : zone :=
    MkZone (z_zoneId z) (z_accumulateSetPoint z) (z_minThermalOutputSetPt z)
    (z_zoneFailSafePercent z) (z_cycleIntervalTimeMS z) (z_updateThermalsTimeMS z) (z_fanInputs
    z) (z_thermalInputs z) (z_missingAcceptable z) (z_sensorFailSafePercent z)
    (z_maximumSetPoint z) (z_maximumSetPointName z) (z_maximumSetPointNamePrev z) (z_manualMode
    z) (z_redundantWrite z) (z_failSafeSensors z) (z_setPoints z) v (z_cachedValuesByName z)
    (z_cachedFanOutputs z) (z_fans z) (z_thermals z) (z_pidsControlProcess z) (z_trace z)
    (z_log z).
(** Assignment to the member of /repo/pid/zone.hpp:249. *)
Definition set_cachedValuesByName (v : smap ValueCacheEntry) (z : zone) : zone :=
    MkZone (z_zoneId z) (z_accumulateSetPoint z) (z_minThermalOutputSetPt z)
    (z_zoneFailSafePercent z) (z_cycleIntervalTimeMS z) (z_updateThermalsTimeMS z) (z_fanInputs
    z) (z_thermalInputs z) (z_missingAcceptable z) (z_sensorFailSafePercent z)
    (z_maximumSetPoint z) (z_maximumSetPointName z) (z_maximumSetPointNamePrev z) (z_manualMode
    z) (z_redundantWrite z) (z_failSafeSensors z) (z_setPoints z) (z_rpmCeilings z) v
    (z_cachedFanOutputs z) (z_fans z) (z_thermals z) (z_pidsControlProcess z) (z_trace z)
    (z_log z).
(** Assignment to the member of /repo/pid/zone.hpp:250. *)
Definition set_cachedFanOutputs (v : smap ValueCacheEntry) (z : zone) : zone :=
    MkZone (z_zoneId z) (z_accumulateSetPoint z) (z_minThermalOutputSetPt z)
    (z_zoneFailSafePercent z) (z_cycleIntervalTimeMS z) (z_updateThermalsTimeMS z) (z_fanInputs
    z) (z_thermalInputs z) (z_missingAcceptable z) (z_sensorFailSafePercent z)
    (z_maximumSetPoint z) (z_maximumSetPointName z) (z_maximumSetPointNamePrev z) (z_manualMode
    z) (z_redundantWrite z) (z_failSafeSensors z) (z_setPoints z) (z_rpmCeilings z)
    (z_cachedValuesByName z) v (z_fans z) (z_thermals z) (z_pidsControlProcess z) (z_trace z)
    (z_log z).
(** Assignment to the member of /repo/pid/zone.hpp:253. *)
Definition set_fans (v : list (option FanController)) (z : zone) : zone :=
    MkZone (z_zoneId z) (z_accumulateSetPoint z) (z_minThermalOutputSetPt z)
    (z_zoneFailSafePercent z) (z_cycleIntervalTimeMS z) (z_updateThermalsTimeMS z) (z_fanInputs
    z) (z_thermalInputs z) (z_missingAcceptable z) (z_sensorFailSafePercent z)
    (z_maximumSetPoint z) (z_maximumSetPointName z) (z_maximumSetPointNamePrev z) (z_manualMode
    z) (z_redundantWrite z) (z_failSafeSensors z) (z_setPoints z) (z_rpmCeilings z)
    (z_cachedValuesByName z) (z_cachedFanOutputs z) v (z_thermals z) (z_pidsControlProcess z)
    (z_trace z) (z_log z).
(** Assignment to the member of /repo/pid/zone.hpp:254. *)
Definition set_thermals (v : list ThermalCtl) (z : zone) : zone :=
    MkZone (z_zoneId z) (z_accumulateSetPoint z) (z_minThermalOutputSetPt z)
    (z_zoneFailSafePercent z) (z_cycleIntervalTimeMS z) (z_updateThermalsTimeMS z) (z_fanInputs
    z) (z_thermalInputs z) (z_missingAcceptable z) (z_sensorFailSafePercent z)
    (z_maximumSetPoint z) (z_maximumSetPointName z) (z_maximumSetPointNamePrev z) (z_manualMode
    z) (z_redundantWrite z) (z_failSafeSensors z) (z_setPoints z) (z_rpmCeilings z)
    (z_cachedValuesByName z) (z_cachedFanOutputs z) (z_fans z) v (z_pidsControlProcess z)
    (z_trace z) (z_log z).
(** Assignment to the member of /repo/pid/zone.hpp:256. *)
Definition set_pidsControlProcess (v : smap ProcessObject) (z : zone) : zone :=
    MkZone (z_zoneId z) (z_accumulateSetPoint z) (z_minThermalOutputSetPt z)
    (z_zoneFailSafePercent z) (z_cycleIntervalTimeMS z) (z_updateThermalsTimeMS z) (z_fanInputs
    z) (z_thermalInputs z) (z_missingAcceptable z) (z_sensorFailSafePercent z)
    (z_maximumSetPoint z) (z_maximumSetPointName z) (z_maximumSetPointNamePrev z) (z_manualMode
    z) (z_redundantWrite z) (z_failSafeSensors z) (z_setPoints z) (z_rpmCeilings z)
    (z_cachedValuesByName z) (z_cachedFanOutputs z) (z_fans z) (z_thermals z) v (z_trace z)
    (z_log z).
(** The ghost trace of effects; no counterpart in /repo. *)
Definition set_trace (v : list event) (z : zone) : zone :=
    MkZone (z_zoneId z) (z_accumulateSetPoint z) (z_minThermalOutputSetPt z)
    (z_zoneFailSafePercent z) (z_cycleIntervalTimeMS z) (z_updateThermalsTimeMS z) (z_fanInputs
    z) (z_thermalInputs z) (z_missingAcceptable z) (z_sensorFailSafePercent z)
    (z_maximumSetPoint z) (z_maximumSetPointName z) (z_maximumSetPointNamePrev z) (z_manualMode
    z) (z_redundantWrite z) (z_failSafeSensors z) (z_setPoints z) (z_rpmCeilings z)
    (z_cachedValuesByName z) (z_cachedFanOutputs z) (z_fans z) (z_thermals z)
    (z_pidsControlProcess z) v (z_log z).
(** The stream [_log], /repo/pid/zone.hpp:225. *)
Definition set_log (v : list log_token) (z : zone) : zone :=
    MkZone (z_zoneId z) (z_accumulateSetPoint z) (z_minThermalOutputSetPt z)
    (z_zoneFailSafePercent z) (z_cycleIntervalTimeMS z) (z_updateThermalsTimeMS z) (z_fanInputs
    z) (z_thermalInputs z) (z_missingAcceptable z) (z_sensorFailSafePercent z)
    (z_maximumSetPoint z) (z_maximumSetPointName z) (z_maximumSetPointNamePrev z) (z_manualMode
    z) (z_redundantWrite z) (z_failSafeSensors z) (z_setPoints z) (z_rpmCeilings z)
    (z_cachedValuesByName z) (z_cachedFanOutputs z) (z_fans z) (z_thermals z)
    (z_pidsControlProcess z) (z_trace z) v.

(** Adds to the ghost trace; no counterpart in /repo. *)
Definition emit (e : event) (z : zone) : zone := set_trace (e :: z_trace z) z.
(** Output to [_log], /repo/pid/zone.cpp:447-450. *)
Definition log_tokens (f : flags) (ts : list log_token) (z : zone) : zone :=
  if loggingEnabled f then set_log (rev ts ++ z_log z) z else z.

(** Constructor, /repo/pid/zone.hpp:60-75 with the member initialisers of
    227-245. *)
Definition zone_new (zoneId : Z) (minThermalOutput failSafePercent : dbl)
    (cycleIntervalTimeMS updateThermalsTimeMS : Z) (accumulateSetPoint : bool) : zone :=
  MkZone zoneId accumulateSetPoint minThermalOutput failSafePercent
    cycleIntervalTimeMS updateThermalsTimeMS
    [] [] [] [] d0 "" "" false false [] [] [] [] [] [] [] [] [] [].

(** /repo/pid/zone.cpp:75-84, [setManualMode] (also reached from the D-Bus
    property setter, 579-584). *)
Definition setManualMode (mode : bool) (z : zone) : zone :=
  let z := set_manualMode mode z in
  if mode then z else set_redundantWrite true z.

(** /repo/pid/zone.cpp:86-90. *)
Definition getFailSafeMode (z : zone) : bool :=
  match z_failSafeSensors z with [] => false | _ => true end.

(** [outputFailsafeLogWithZone] as called from zones; what the logger does
    with the attempt is modelled in LogModel.v.  Simplified: every call is
    recorded, whether a logger for the zone exists or not.
    /repo/failsafeloggers/failsafe_logger_utility.hpp:43-52. *)
Definition failsafe_log (location reason : string) (z : zone) : zone :=
  emit (EvFailsafeLog (z_zoneId z) (getFailSafeMode z) location reason) z.

(** [_sensorFailSafePercent[name]]. /repo/pid/zone.cpp:108, 115. *)
Definition sensor_percent (z : zone) (name : string) : dbl :=
  match mget name (z_sensorFailSafePercent z) with Some p => p | None => d0 end.

(** /repo/pid/zone.cpp:97-125, [markSensorMissing]. *)
Definition markSensorMissing (name failReason : string) (z : zone) : zone :=
  if smem name (z_missingAcceptable z)
  then failsafe_log name "The sensor is missing but is acceptable." z
  else
    let p := sensor_percent z name in
    let percent := if deqb p d0 then z_zoneFailSafePercent z else p in
    let z := set_failSafeSensors (mset name (failReason, percent) (z_failSafeSensors z)) z in
    failsafe_log name "The sensor is missing." z.

(** /repo/pid/zone.cpp:621-624, [isPidProcessEnabled]: [operator[]] on an
    unregistered name yields a null pointer, dereferencing it is undefined. *)
Definition isPidProcessEnabled (name : string) (z : zone) : outcome bool :=
  match mget name (z_pidsControlProcess z) with
  | Some p => Ok (po_enabled p)
  | None => UB "null ProcessObject"
  end.

(** [name.substr(name.find('_') + 1)]: [find] returns npos when there is no
    underscore and npos + 1 is 0. /repo/pid/zone.cpp:147. *)
Fixpoint after_first_underscore (s : string) : option string :=
  match s with
  | EmptyString => None
  | String c r => if Ascii.eqb c "_"%char then Some r else after_first_underscore r
  end.
(** /repo/pid/zone.cpp:147. *)
Definition profile_of (name : string) : string :=
  match after_first_underscore name with Some r => r | None => name end.

(** [setPoints[profile]] (default-inserted value is 0). /repo/pid/zone.cpp:148-152, [operator[]]. *)
Definition setpoint_of (z : zone) (profile : string) : dbl :=
  match mget profile (z_setPoints z) with Some v => v | None => d0 end.

(** /repo/pid/zone.cpp:132-167, [addSetPoint]. *)
Definition addSetPoint (setPoint : dbl) (name : string) (z : zone) : outcome zone :=
  do enabled <- isPidProcessEnabled name z;
  if negb enabled then Ok z
  else
    let profileName := if z_accumulateSetPoint z then profile_of name else name in
    let old := setpoint_of z profileName in
    let new :=
      if z_accumulateSetPoint z then dadd old setPoint
      else if dltb old setPoint then setPoint else old in
    let z := set_setPoints (mset profileName new (z_setPoints z)) z in
    if dltb (z_maximumSetPoint z) new
    then Ok (set_maximumSetPointName profileName (set_maximumSetPoint new z))
    else Ok z.

(** /repo/pid/zone.cpp:169-184. *)
Definition addRPMCeiling (ceiling : dbl) (z : zone) : zone :=
  set_rpmCeilings (z_rpmCeilings z ++ [ceiling]) z.
(** /repo/pid/zone.cpp:174-177. *)
Definition clearRPMCeilings (z : zone) : zone := set_rpmCeilings [] z.
(** /repo/pid/zone.cpp:179-184. *)
Definition clearSetPoints (z : zone) : zone :=
  set_maximumSetPointName "" (set_maximumSetPoint d0 (set_setPoints [] z)).

(** [std::max_element] over the percents of a non-empty map. /repo/pid/zone.cpp:193-198. *)
Fixpoint max_percent (best : dbl) (l : smap (string * dbl)) : dbl :=
  match l with
  | [] => best
  | (_, (_, p)) :: r => max_percent (if dltb best p then p else best) r
  end.

(** /repo/pid/zone.cpp:186-210, [getFailSafePercent]. *)
Definition getFailSafePercent (z : zone) : dbl :=
  match z_failSafeSensors z with
  | [] => z_zoneFailSafePercent z
  | (_, (_, p)) :: r =>
      let m := max_percent p r in
      if deqb m d0 then z_zoneFailSafePercent z else m
  end.

(** /repo/pid/zone.cpp:237-251. *)
Definition getCachedValues (name : string) (z : zone) : outcome ValueCacheEntry :=
  match mget name (z_cachedValuesByName z) with
  | Some e => Ok e
  | None => Throw "out_of_range"
  end.
(** /repo/pid/zone.cpp:237-240. *)
Definition getCachedValue (name : string) (z : zone) : outcome dbl :=
  do e <- getCachedValues name z; Ok (scaled e).
(** /repo/pid/zone.cpp:247-251. *)
Definition setOutputCache (name : string) (e : ValueCacheEntry) (z : zone) : zone :=
  set_cachedFanOutputs (mset name e (z_cachedFanOutputs z)) z.

(** /repo/pid/zone.cpp:253-281, [addFanInput], [addThermalInput]. *)
Definition addFanInput (fan : string) (missingAcceptable : bool) (z : zone) : zone :=
  let z := set_fanInputs (z_fanInputs z ++ [fan]) z in
  if missingAcceptable && negb (smem fan (z_missingAcceptable z))
  then set_missingAcceptable (z_missingAcceptable z ++ [fan]) z else z.
(** /repo/pid/zone.cpp:263-281. *)
Definition addThermalInput (therm : string) (missingAcceptable : bool) (z : zone) : zone :=
  let z :=
    if smem therm (z_thermalInputs z) then z
    else set_thermalInputs (z_thermalInputs z ++ [therm]) z in
  if missingAcceptable && negb (smem therm (z_missingAcceptable z))
  then set_missingAcceptable (z_missingAcceptable z ++ [therm]) z else z.

(** /repo/pid/zone.cpp:227-235. *)
Definition addFanPID (p : option FanController) (z : zone) : zone :=
  set_fans (z_fans z ++ [p]) z.
(** /repo/pid/zone.cpp:232-235. *)
Definition addThermalPID (p : ThermalCtl) (z : zone) : zone :=
  set_thermals (z_thermals z ++ [p]) z.

(** /repo/pid/zone.cpp:591-619, [addPidControlProcess].  Simplified: the D-Bus
    registration is in BuilderModel.v ([register]). *)
Definition addPidControlProcess (name type : string) (setpoint : dbl) (z : zone) : zone :=
  let cls :=
    if String.eqb type "temp" then "Temperature"
    else if String.eqb type "margin" then "Margin"
    else if String.eqb type "power" then "Power"
    else if String.eqb type "powersum" then "PowerSum"
    else "" in
  set_pidsControlProcess
    (mset name (MkProcess true setpoint cls "" d0 d0) (z_pidsControlProcess z)) z.

(** D-Bus write of Object.Enable.Enabled on a controller's object (sdbusplus
    generated setter); no object, no effect.
    The object is the one of /repo/pid/zone.cpp:595-600; the setter is generated code outside /repo. *)
Definition setProcessEnabled (name : string) (b : bool) (z : zone) : zone :=
  match mget name (z_pidsControlProcess z) with
  | Some p =>
      set_pidsControlProcess
        (mset name (MkProcess b (po_setpoint p) (po_classType p) (po_leader p)
                      (po_input p) (po_output p)) (z_pidsControlProcess z)) z
  | None => z
  end.

(** /repo/pid/zone.cpp:626-653, [addPidFailSafePercent]. *)
Definition addPidFailSafePercent1 (percent : dbl) (z : zone) (name : string) : zone :=
  let v :=
    match mget name (z_sensorFailSafePercent z) with
    | Some old => dmax old percent
    | None => percent
    end in
  set_sensorFailSafePercent (mset name v (z_sensorFailSafePercent z)) z.
(** /repo/pid/zone.cpp:626-653. *)
Definition addPidFailSafePercent (inputs : list string) (percent : dbl) (z : zone) : zone :=
  fold_left (addPidFailSafePercent1 percent) inputs z.

(** /repo/pid/zone.cpp:660-672, [updateThermalPowerDebugInterface]. *)
Definition updateThermalPowerDebugInterface (pidName leader : string)
    (input output : dbl) (z : zone) : outcome zone :=
  match mget pidName (z_pidsControlProcess z) with
  | None => UB "null ProcessObject"
  | Some p =>
      let p' :=
        if String.eqb leader ""
        then MkProcess (po_enabled p) (po_setpoint p) (po_classType p) (po_leader p)
               (po_input p) output
        else MkProcess (po_enabled p) (po_setpoint p) (po_classType p) leader
               input (po_output p) in
      Ok (set_pidsControlProcess (mset pidName p' (z_pidsControlProcess z)) z)
  end.

(** /repo/pid/zone.cpp:285-333, [fileParseRpm].  The throttling of the error
    message is modelled in LogModel.v. *)
Definition fileParseRpm (global : bool) (c : file_content) (z : zone) : outcome zone :=
  match c with
  | NoFile => Ok z
  | FileEmpty => UB "uninitialised int read after failed extraction"
  | FileInt v =>
      if (v <=? 0)%Z
      then Ok (emit (EvFileError global "File content could not be parsed to a number") z)
      else if (v <=? 100)%Z
      then Ok (emit (EvFileError global "File must contain RPM value, not PWM value") z)
      else Ok (set_maximumSetPoint (D v) z)
  end.

(** The loop of /repo/pid/zone.cpp:362-377. *)
Definition join_leaders (profileName : string) (thermals : list ThermalCtl) : string :=
  fold_left
    (fun acc t =>
       let id := thermal_id t in
       if str_contains profileName id
       then (if String.eqb acc "" then id else acc ++ " + " ++ id)
       else acc) thermals "".

(** /repo/pid/zone.cpp:335-423, [determineMaxSetPointRequest]. *)
Definition apply_ceilings (z : zone) : zone :=
  match z_rpmCeilings z with
  | [] => z
  | c :: r =>
      let lowest := min_element c r in
      if dltb lowest (z_maximumSetPoint z)
      then set_maximumSetPointName "Ceiling" (set_maximumSetPoint lowest z)
      else z
  end.
(** /repo/pid/zone.cpp:394-400. *)
Definition not_fan_sensors (z : zone) : list string :=
  filter (fun n => negb (str_contains "Fan" n)) (map fst (z_failSafeSensors z)).
(** /repo/pid/zone.cpp:335-423. *)
Definition determineMaxSetPointRequest (f : flags) (te : tune_env) (z : zone) : outcome zone :=
  let minThermalThreshold := z_minThermalOutputSetPt z in
  let z := apply_ceilings z in
  let z :=
    if z_accumulateSetPoint z
    then set_maximumSetPointName (join_leaders (z_maximumSetPointName z) (z_thermals z)) z
    else z in
  let z :=
    if dgeb minThermalThreshold (z_maximumSetPoint z)
    then set_maximumSetPointName "Minimum" (set_maximumSetPoint minThermalThreshold z)
    else if negb (String.eqb (z_maximumSetPointName z) (z_maximumSetPointNamePrev z))
    then set_maximumSetPointNamePrev (z_maximumSetPointName z)
           (emit (EvRequester (z_zoneId z) (z_maximumSetPoint z) (z_maximumSetPointName z)
                    (not_fan_sensors z)) z)
    else z in
  if tuningEnabled f
  then do z <- fileParseRpm true (te_global te) z;
       fileParseRpm false (te_zone te) z
  else Ok z.

(** /repo/pid/zone.cpp:425-445, [initializeLog]. *)
Definition initializeLog (f : flags) (z : zone) : zone :=
  log_tokens f
    ([LText "epoch_ms"; LComma; LText "setpt"; LComma; LText "requester"] ++
     flat_map (fun n => [LComma; LText n; LComma; LText (n ++ "_raw"); LComma;
                         LText (n ++ "_pwm"); LComma; LText (n ++ "_pwm_raw")]) (z_fanInputs z) ++
     flat_map (fun n => [LComma; LText n; LComma; LText (n ++ "_raw")]) (z_thermalInputs z) ++
     [LComma; LText "failsafe"; LEndl]) z.

(** [operator[]] on the caches, /repo/pid/zone.hpp:169, 171, /repo/pid/zone.cpp:487. *)
Definition cached_or_default (m : smap ValueCacheEntry) (n : string) : ValueCacheEntry :=
  match mget n m with Some e => e | None => Entry d0 d0 end.

(** Seconds of [now - then] truncated toward zero ([duration_cast]). /repo/pid/zone.hpp:156-158. *)
Definition whole_seconds (ns : Z) : Z := Z.quot ns 1000000000.

(** /repo/pid/zone.hpp:148-222: the body of the loop of
    [processSensorInputs<fanSensorLogging>]. *)
Definition processSensorInput (f : flags) (fanSensorLogging : bool) (env : poll_env)
    (z : zone) (sensorInput : string) : outcome zone :=
  match pe_sensor env sensorInput with
  | None => Throw "out_of_range"
  | Some r =>
      let z := emit (EvRead sensorInput (pe_now env) r) z in
      let z := set_cachedValuesByName
                 (mset sensorInput (Entry (sv_value r) (sv_unscaled r)) (z_cachedValuesByName z)) z in
      let timeout := sv_timeout r in
      let duration := whole_seconds (pe_now env - sv_updated r) in
      let z :=
        if fanSensorLogging
        then let v := Entry (sv_value r) (sv_unscaled r) in
             let p := cached_or_default (z_cachedFanOutputs z) sensorInput in
             log_tokens f [LComma; LNum (scaled v); LComma; LNum (unscaled v);
                           LComma; LNum (scaled p); LComma; LNum (unscaled p)] z
        else z in
      if sv_failed r then Ok (markSensorMissing sensorInput (sv_reason r) z)
      else if negb (timeout =? 0)%Z && (timeout <=? duration)%Z
      then Ok (failsafe_log sensorInput "The sensor has timed out."
                 (markSensorMissing sensorInput "Sensor timeout" z))
      else if mmem sensorInput (z_failSafeSensors z)
      then Ok (failsafe_log sensorInput "The sensor has recovered."
                 (set_failSafeSensors (mdel sensorInput (z_failSafeSensors z)) z))
      else Ok z
  end.
(** /repo/pid/zone.hpp:144-223, the loop. *)
Definition processSensorInputs (f : flags) (fanSensorLogging : bool) (env : poll_env)
    (inputs : list string) (z : zone) : outcome zone :=
  foldM (processSensorInput f fanSensorLogging env) inputs z.

(** /repo/pid/zone.cpp:465-493, [updateFanTelemetry]. *)
Definition updateFanTelemetry (f : flags) (env : poll_env) (z : zone) : outcome zone :=
  let z := log_tokens f [LStamp; LComma; LNum (z_maximumSetPoint z); LComma;
                         LText (z_maximumSetPointName z)] z in
  do z <- processSensorInputs f true env (z_fanInputs z) z;
  Ok (log_tokens f
        (flat_map (fun t => let v := cached_or_default (z_cachedValuesByName z) t in
                            [LComma; LNum (scaled v); LComma; LNum (unscaled v)])
                  (z_thermalInputs z)) z).

(** /repo/pid/zone.cpp:495-501, [updateSensors]. *)
Definition updateSensors (f : flags) (env : poll_env) (z : zone) : outcome zone :=
  processSensorInputs f false env (z_thermalInputs z) z.

(** /repo/pid/zone.cpp:503-523, [initializeCache]. *)
Definition initializeCache_fan (z : zone) (n : string) : zone :=
  let z := set_cachedValuesByName (mset n (Entry dnan dnan) (z_cachedValuesByName z)) z in
  let z := set_cachedFanOutputs (mset n (Entry dnan dnan) (z_cachedFanOutputs z)) z in
  markSensorMissing n "" z.
(** /repo/pid/zone.cpp:516-522, one round. *)
Definition initializeCache_thermal (z : zone) (n : string) : zone :=
  let z := set_cachedValuesByName (mset n (Entry dnan dnan) (z_cachedValuesByName z)) z in
  markSensorMissing n "" z.
(** /repo/pid/zone.cpp:503-523. *)
Definition initializeCache (z : zone) : zone :=
  let z := fold_left initializeCache_fan (z_fanInputs z) z in
  fold_left initializeCache_thermal (z_thermalInputs z) z.

(** ** Fan controllers *)

(** /repo/pid/fancontroller.cpp:29-43, [createFanPid]: [None] is nullptr. *)
Definition createFanPid (id : string) (inputs : list string) (initial : pidinfo)
  : option FanController :=
  match inputs with
  | [] => None
  | _ => Some (MkFan id inputs (pid_ctrl_init initial) d0 DirNeutral true false)
  end.

(** The loop of /repo/pid/fancontroller.cpp:53-76. *)
Fixpoint fan_values (names : list string) (z : zone) : outcome (list dbl) :=
  match names with
  | [] => Ok []
  | n :: r =>
      do e <- getCachedValues n z;
      do vs <- fan_values r z;
      let value := unscaled e in
      if negb (disfinite value) then Ok vs
      else if dleb value d0 then Ok vs
      else Ok (value :: vs)
  end.
(** /repo/pid/fancontroller.cpp:45-97, [inputProc]. *)
Definition fan_inputProc (c : FanController) (z : zone) : outcome dbl :=
  do vs <- fan_values (fan_inputs c) z;
  Ok (match vs with [] => d0 | v :: r => min_element v r end).

(** /repo/pid/fancontroller.cpp:99-122, [setptProc]. *)
Definition fan_setptProc (c : FanController) (z : zone) : FanController * dbl :=
  let maxRPM := z_maximumSetPoint z in
  let prev := fan_setpoint c in
  let dir := if dgtb maxRPM prev then DirUp
             else if dgtb prev maxRPM then DirDown else DirNeutral in
  (MkFan (fan_id c) (fan_inputs c) (fan_pid c) maxRPM dir
     (fan_failsafeTransition c) (fan_failsafePrevState c), maxRPM).

(** The loop of /repo/pid/fancontroller.cpp:205-217: [percent] is already
    divided by 100.  [init] is the initial content of the raw variable: [Some
    (-1)] in [outputProc], [None] (uninitialised) in the destructor.  The
    sensor's own name equals its key in the manager. *)
Definition write_fan (w : write_env) (percent : dbl) (init : option Z)
    (z : zone) (name : string) : outcome zone :=
  match w name with
  | None => Throw "out_of_range"
  | Some wr =>
      let force := z_redundantWrite z in
      do r <- wr percent force;
      let z := emit (EvWrite name percent force) z in
      match (match r with Some v => Some v | None => init end) with
      | Some raw => Ok (setOutputCache name (Entry percent (D raw)) z)
      | None => UB "uninitialised rawWritten"
      end
  end.

(** /repo/pid/fancontroller.cpp:128-190: the percentage actually written. *)
Definition fan_percent (f : flags) (z : zone) (value : dbl) : dbl :=
  if tuningEnabled f then value
  else if getFailSafeMode z
  then let failsafePercent := getFailSafePercent z in
       if STRICT_FAILSAFE_PWM f then failsafePercent
       else if dltb value failsafePercent then failsafePercent else value
  else value.

(** /repo/pid/fancontroller.cpp:124-220, [outputProc]. *)
Definition fan_outputProc (f : flags) (w : write_env) (c : FanController) (value : dbl)
    (z : zone) : outcome (FanController * zone) :=
  let cur := getFailSafeMode z in
  let changed := negb (Bool.eqb (fan_failsafePrevState c) cur) in
  let percent := fan_percent f z value in
  let prev' := if tuningEnabled f then fan_failsafePrevState c else cur in
  let tr := if tuningEnabled f then fan_failsafeTransition c
            else fan_failsafeTransition c || changed in
  let print := negb (tuningEnabled f) && negb (debugEnabled f) && tr in
  let tr' := if print then false else tr in
  let z := if print
           then emit (EvFanMode (z_zoneId z) cur percent
                        (map (fun s => (fst s, fst (snd s))) (z_failSafeSensors z))) z
           else z in
  let c := MkFan (fan_id c) (fan_inputs c) (fan_pid c) (fan_setpoint c) (fan_direction c)
             tr' prev' in
  do z <- foldM (write_fan w (ddiv percent (D 100)) (Some (-1)%Z)) (fan_inputs c) z;
  Ok (c, z).

(** /repo/pid/pidcontroller.cpp:88-111 for a fan controller. *)
Definition fan_process (f : flags) (w : write_env) (c : FanController) (z : zone)
  : outcome (FanController * zone) :=
  let '(c, setpt) := fan_setptProc c z in
  do input <- fan_inputProc c z;
  let '(p, output) := pid_process (fan_pid c) setpt input in
  let c := MkFan (fan_id c) (fan_inputs c) p (fan_setpoint c) (fan_direction c)
             (fan_failsafeTransition c) (fan_failsafePrevState c) in
  fan_outputProc f w c output z.

(** /repo/pid/fancontroller.cpp:222-252, [~FanController]. *)
Definition fan_destroy (f : flags) (w : write_env) (c : FanController) (z : zone) : outcome zone :=
  if negb (OFFLINE_FAILSAFE_PWM f) then Ok z
  else foldM (write_fan w (ddiv (getFailSafePercent z) (D 100)) None) (fan_inputs c) z.

(** ** Thermal and stepwise controllers *)

(** /repo/pid/thermalcontroller.cpp:25-41, [getThermalType]. *)
Definition getThermalType (s : string) : outcome ThermalType :=
  if String.eqb s "margin" then Ok margin
  else if String.eqb s "temp" || String.eqb s "power" then Ok absolute
  else if String.eqb s "powersum" then Ok summation
  else Throw "Unrecognized PID Type/Class string".
(** /repo/pid/thermalcontroller.cpp:43-48, [isThermalType]. *)
Definition isThermalType (s : string) : bool := smem s ["temp"; "margin"; "power"; "powersum"].

(** /repo/pid/thermalcontroller.cpp:50-69 and stepwisecontroller.cpp:70-84. *)
Definition createThermalPid (id : string) (inputs : list SensorInput) (setpoint : dbl)
    (initial : pidinfo) (type : ThermalType) : outcome ThermalCtl :=
  match inputs with
  | [] => Throw "Thermal controller missing inputs"
  | _ => Ok (TPid id inputs type setpoint (pid_ctrl_init initial))
  end.
(** /repo/pid/stepwisecontroller.cpp:70-84. *)
Definition createStepwiseController (id : string) (inputs : list string) (initial : StepwiseInfo)
  : outcome ThermalCtl :=
  match inputs with
  | [] => Throw "Stepwise controller missing inputs"
  | _ => Ok (TStep id inputs (stepwise_ctrl_init initial))
  end.

(** Loop state of [ThermalController::inputProc]: (value, acceptable, zone).
    /repo/pid/thermalcontroller.cpp:101-153, one round. *)
Definition thermal_input1 (id : string) (type : ThermalType)
    (acc : dbl * bool * zone) (i : SensorInput) : outcome (dbl * bool * zone) :=
  let '(value, acceptable, z) := acc in
  do cached <- getCachedValue (si_name i) z;
  if negb (disfinite cached) then Ok acc
  else
    do cached <-
      match type with
      | margin =>
          if si_convertTempToMargin i
          then if negb (disfinite (si_convertMarginZero i))
               then Throw "Unrecognized TempToMargin"
               else Ok (dsub (si_convertMarginZero i) cached)
          else Ok cached
      | _ => Ok cached
      end;
    let value' :=
      match type with
      | summation => dadd value cached
      | margin => dmin value cached
      | absolute => dmax value cached
      end in
    do z <- if dneb value value'
            then updateThermalPowerDebugInterface id (si_name i) value' d0 z
            else Ok z;
    Ok (value', true, z).

(** /repo/pid/thermalcontroller.cpp:72-171, [inputProc]. *)
Definition thermal_start (type : ThermalType) : dbl :=
  match type with margin => dmax_float | absolute => dlowest | summation => d0 end.
(** /repo/pid/thermalcontroller.cpp:72-171. *)
Definition thermal_inputProc (id : string) (inputs : list SensorInput) (type : ThermalType)
    (setpoint : dbl) (z : zone) : outcome (dbl * zone) :=
  do r <- foldM (thermal_input1 id type) inputs (thermal_start type, false, z);
  let '(value, acceptable, z) := r in
  Ok (if acceptable then value else setpoint, z).

(** /repo/pid/thermalcontroller.cpp:180-191, [outputProc]. *)
Definition thermal_outputProc (id : string) (value : dbl) (z : zone) : outcome zone :=
  do z <- addSetPoint value id z;
  updateThermalPowerDebugInterface id "" d0 value z.

(** /repo/pid/stepwisecontroller.cpp:86-101, [inputProc]. *)
Definition stepwise_inputProc (inputs : list string) (z : zone) : outcome dbl :=
  foldM (fun value n => do c <- getCachedValue n z; Ok (dmax value c)) inputs dlowest.
(** /repo/pid/stepwisecontroller.cpp:103-118, [outputProc]. *)
Definition stepwise_outputProc (id : string) (c : stepwise_ctrl) (value : dbl) (z : zone)
  : outcome zone :=
  if sw_isCeiling (sc_info c) then Ok (addRPMCeiling value z)
  else addSetPoint value id z.

(** [Controller::process] of a member of [_thermals]
    (/repo/pid/pidcontroller.cpp:88-111, stepwisecontroller.cpp:37-68). *)
Definition thermal_process (t : ThermalCtl) (z : zone) : outcome (ThermalCtl * zone) :=
  match t with
  | TPid id inputs type setpoint p =>
      do r <- thermal_inputProc id inputs type setpoint z;
      let '(input, z) := r in
      let '(p', output) := pid_process p setpoint input in
      do z <- thermal_outputProc id output z;
      Ok (TPid id inputs type setpoint p', z)
  | TStep id inputs c =>
      do input <- stepwise_inputProc inputs z;
      let '(c', output) := stepwise_process c input in
      do z <- stepwise_outputProc id c' output z;
      Ok (TStep id inputs c', z)
  end.

(** ** Running all controllers *)

(** A loop over controllers that may change the zone. /repo/pid/zone.cpp:544-547, 558-561. *)
Fixpoint run_all {C : Type} (step : C -> zone -> outcome (C * zone)) (l : list C) (z : zone)
  : outcome (list C * zone) :=
  match l with
  | [] => Ok ([], z)
  | c :: r =>
      do x <- step c z;
      let '(c', z) := x in
      do y <- run_all step r z;
      let '(r', z) := y in
      Ok (c' :: r', z)
  end.

(** /repo/pid/zone.cpp:546, on an element that may be null. *)
Definition opt_fan_process (f : flags) (w : write_env) (c : option FanController) (z : zone)
  : outcome (option FanController * zone) :=
  match c with
  | None => UB "null fan controller"
  | Some c => do r <- fan_process f w c z; let '(c, z) := r in Ok (Some c, z)
  end.

(** /repo/pid/zone.cpp:542-554, [processFans].  A controller's own state is not
    readable through the zone, so (simplified) the updated controllers are
    stored back at the end. *)
Definition processFans (f : flags) (w : write_env) (z : zone) : outcome zone :=
  do r <- run_all (opt_fan_process f w) (z_fans z) z;
  let '(fs, z) := r in
  let z := set_fans fs z in
  Ok (if z_redundantWrite z then set_redundantWrite false z else z).

(** /repo/pid/zone.cpp:556-562, [processThermals]. *)
Definition processThermals (z : zone) : outcome zone :=
  do r <- run_all thermal_process (z_thermals z) z;
  let '(ts, z) := r in
  Ok (set_thermals ts z).
