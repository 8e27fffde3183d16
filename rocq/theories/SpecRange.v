(** * Vocabulary of the range properties (C79, C80): sensible configurations.

    Only configuration records, sensor answers and events appear here. *)
From Coq Require Import ZArith Bool List String.
From Verif Require Import Base Dbl PidModel SpecPid ZoneModel LoopModel SpecZone SensorModel SpecSensor
  WriteModel SpecWrite BuilderModel SpecBuilder SystemModel SpecSystem.
Import ListNotations.
Local Open Scope string_scope.

(** A percentage. *)
Definition percent_ok (x : dbl) : Prop := dle d0 x /\ dle x (D 100).

(** A fan PID that asks for percentages: its output limits are percentages, all
    limits are ordered, the slew rates have the right signs and no parameter is
    astronomically large. *)
Record sensible_fan (p : pidinfo) : Prop := SensibleFan {
  sf_bounded : bounded_cfg p;
  sf_integral : limits_ordered (integralLimit p);
  sf_out : limits_ordered (outLim p);
  sf_slew : sane_slew p;
  sf_min : percent_ok (lim_min (outLim p));
  sf_max : percent_ok (lim_max (outLim p))
}.
(** A thermal PID: output limits in order and not astronomically large (2^100). *)
Definition sensible_thermal (p : pidinfo) : Prop :=
  limits_ordered (outLim p) /\ sane_slew p /\ dle (lim_max (outLim p)) (D2 1 100).
(** A stepwise controller: no step above 2^100; unused steps are NaN. *)
Definition sensible_stepwise (s : StepwiseInfo) : Prop :=
  forall i, (i < maxStepwisePoints)%nat -> ~ dlt (D2 1 100) (sw_output s i).

(** All PIDs of a zone, and the zone's own settings. *)
Definition sensible_pid (e : string * ControllerInfo) : Prop :=
  (is_fan_pid e = true -> sensible_fan (ci_pidInfo (snd e))) /\
  (isThermalType (ci_type (snd e)) = true -> sensible_thermal (ci_pidInfo (snd e))) /\
  (ci_type (snd e) = "stepwise" -> sensible_stepwise (ci_stepwiseInfo (snd e))) /\
  percent_ok (ci_failSafePercent (snd e)).
Definition sensible_pids (pids : PIDConf) : Prop :=
  (forall e, In e pids -> sensible_pid e) /\ (Z.of_nat (List.length pids) <= 2 ^ 40)%Z.
Definition sensible_zone (c : ZoneConfig) : Prop :=
  mag_le 100 (zc_minThermalOutput c) /\ percent_ok (zc_failsafePercent c).

(** Speeds reported by fans, if finite, are not astronomically large. *)
Definition modest_speed (x : dbl) : Prop := dfinite x -> mag_le 200 x.
Definition modest_speeds (fans : list string) (env : poll_env) : Prop :=
  forall n v, In n fans -> pe_sensor env n = Some v -> modest_speed (sv_unscaled v).
(** Tuning files hold an [int]. *)
Definition int_file (c : file_content) : Prop :=
  match c with FileInt v => (v < 2 ^ 31)%Z | _ => True end.
Definition int_files (te : tune_env) : Prop := int_file (te_global te) /\ int_file (te_zone te).

Definition sensible_event (fans : list string) (ev : loop_event) : Prop :=
  match ev with
  | LTick e => modest_speeds fans (tk_fan e) /\ modest_speeds fans (tk_therm e) /\ int_files (tk_tune e)
  | _ => True
  end.

(** ** The daemon *)

(** Fan limits the writers can scale to. *)
Definition usable_fans (config : smap SensorConfig) : Prop :=
  forall n info, In (n, info) config -> sc_type info = "fan" -> (0 < sc_max info)%Z ->
    usable_range (sc_min info) (sc_max info).

(** What fan sensors say: decimal scale and value when the daemon starts, values later. *)
Definition modest_start (sf : sflags) (pow10 : Z -> dbl) (sb : sensor_bus) (config : smap SensorConfig) : Prop :=
  mag_le 100 (pow10 0%Z) /\
  forall n info i, In (n, info) config -> sc_type info = "fan" -> bus_path (sc_readPath info) ->
    starts sf (sb_now sb n) (sb_replies sb n) info i ->
    mag_le 100 (pow10 (i_scale i)) /\ (dfinite (i_value i) -> mag_le 100 (i_value i)).
Definition modest_message (m : sensor_msg) : Prop :=
  forall v d, says value_intf "Value" m = Some v -> to_double v = Ok d -> dfinite d -> mag_le 100 d.
Definition modest_file (c : file_content) : Prop :=
  match c with FileInt v => (Z.abs v <= 2 ^ 53)%Z | _ => True end.

Definition sensible_news (e : sys_event) : Prop :=
  match e with
  | SSignal _ m => modest_message m
  | STick _ w =>
      (forall p, modest_file (wk_fan_files w p)) /\ (forall p, modest_file (wk_therm_files w p)) /\
      int_files (wk_tune w)
  | _ => True
  end.
Definition sensible_begin (st : start_in) : Prop :=
  (forall p, modest_file (st_files st p)) /\ int_files (st_tune st).

(** A configuration as it was loaded, and the fan sensors found with it. *)
Record sensible_setup (sf : sflags) (pow10 : Z -> dbl) (sb : sensor_bus) (config : smap SensorConfig)
    (zp : list (Z * PIDConf)) (confs : list (Z * ZoneConfig)) : Prop := SensibleSetup {
  se_pids : forall id pids, In (id, pids) zp -> sensible_pids pids;
  se_zones : forall id pids c, In (id, pids) zp -> zget id confs = Some c -> sensible_zone c;
  se_fans : usable_fans config;
  se_start : modest_start sf pow10 sb config
}.

(** What a fan device may hold: a value of the configured range, or 0 or 1 if no
    range is configured. *)
Definition in_fan_range (v : Z) (info : SensorConfig) : Prop :=
  ((0 < sc_max info)%Z -> (sc_min info <= v <= sc_max info)%Z) /\ ((sc_max info <= 0)%Z -> (0 <= v <= 1)%Z).
(** Every device holds what it held at first, or such a value for one of its fans. *)
Definition devices_in_range (sb : sensor_bus) (config : smap SensorConfig) (before after : smap Z) : Prop :=
  forall path v, mget path after = Some v -> mget path before = Some v \/
    exists name info, In (name, info) config /\ sc_type info = "fan" /\ drives sb info path /\ in_fan_range v info.

(** The daemon starts, and nothing that can be served ends it or drives a device
    out of its range. *)
Definition never_stops (f : flags) (sf : sflags) (pow10 : Z -> dbl) (sb : sensor_bus) (m : smap sensor) (failures : list string)
    (first : option string) (devices : smap Z) (config : smap SensorConfig) (zs : list (start_in * zone)) : Prop :=
  exists s0, sys_start f m failures (host_initial first) devices zs = Ok s0 /\
    forall evs, Forall (served f sb config) evs -> Forall sensible_news evs ->
      exists s, sys_run f sf pow10 evs s0 = Ok s /\ devices_in_range sb config devices (sy_devices s).
