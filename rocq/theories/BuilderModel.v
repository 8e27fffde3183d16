(** * Building zones from a configuration.

    Sources: pid/builder.cpp, conf.hpp. *)
From Coq Require Import ZArith Bool List String.
From Verif Require Import Base Dbl PidModel ZoneModel.
Import ListNotations.
Local Open Scope string_scope.
Local Open Scope outcome_scope.

(** /repo/conf.hpp:54-62, [struct ControllerInfo]. *)
Record ControllerInfo : Type := MkInfo {
  ci_type : string;
  ci_inputs : list SensorInput;
  ci_setpoint : dbl;
  ci_pidInfo : pidinfo;
  ci_stepwiseInfo : StepwiseInfo;
  ci_failSafePercent : dbl
}.

(** /repo/conf.hpp:65-93, [struct ZoneConfig] with its [CycleTime]. *)
Record ZoneConfig : Type := MkZoneConfig {
  zc_minThermalOutput : dbl;
  zc_failsafePercent : dbl;
  zc_cycleIntervalTimeMS : Z;
  zc_updateThermalsTimeMS : Z;
  zc_accumulateSetPoint : bool
}.

(** /repo/conf.hpp:95, [PIDConf]: a [std::map], iterated in key order. *)
Definition PIDConf : Type := smap ControllerInfo.

(** /repo/pid/builder.cpp:34-42, [getControlPath], [getPidControlPath]. *)
Definition getControlPath (zone : Z) : string :=
  "/xyz/openbmc_project/settings/fanctrl/zone" ++ to_string zone.
(** /repo/pid/builder.cpp:39-42. *)
Definition getPidControlPath (zone : Z) (pidname : string) : string :=
  getControlPath zone ++ "/" ++ pidname.

(** Registering a D-Bus object: sdbusplus throws when the bus refuses the path
    (not a valid object path, or taken).  Simplified: [bus_ok] says which paths the bus
    accepts. /repo/pid/builder.cpp:67-71, 112-114, 128-130, through sdbusplus. *)
Definition register (bus_ok : string -> bool) (path : string) : outcome unit :=
  if bus_ok path then Ok tt else Throw "sd_bus_add_object_vtable".

(** Names of the inputs, /repo/util.cpp:157-169,
    [splitNames]. *)
Definition splitNames (inputs : list SensorInput) : list string := map si_name inputs.

(** /repo/pid/builder.cpp:87-91. *)
Definition add_fan_inputs (inputs : list SensorInput) (z : zone) : zone :=
  fold_left (fun z i => addFanInput (si_name i) (si_missingIsAcceptable i) z) inputs z.
(** /repo/pid/builder.cpp:101-105, 120-124. *)
Definition add_thermal_inputs (inputs : list SensorInput) (z : zone) : zone :=
  fold_left (fun z i => addThermalInput (si_name i) (si_missingIsAcceptable i) z) inputs z.

(** /repo/pid/builder.cpp:79-131: one PID of a zone.  A PID of any other type
    builds nothing. *)
Definition add_pid (bus_ok : string -> bool) (z : zone) (e : string * ControllerInfo)
  : outcome zone :=
  let '(name, info) := e in
  let inputs := ci_inputs info in
  if String.eqb (ci_type info) "fan" then
    let z := add_fan_inputs inputs z in
    let z := addFanPID (createFanPid name (splitNames inputs) (ci_pidInfo info)) z in
    Ok (addPidFailSafePercent (splitNames inputs) (ci_failSafePercent info) z)
  else if isThermalType (ci_type info) then
    let z := add_thermal_inputs inputs z in
    do type <- getThermalType (ci_type info);
    do pid <- createThermalPid name inputs (ci_setpoint info) (ci_pidInfo info) type;
    let z := addThermalPID pid z in
    do _ <- register bus_ok (getPidControlPath (z_zoneId z) name);
    let z := addPidControlProcess name (ci_type info) (ci_setpoint info) z in
    Ok (addPidFailSafePercent (splitNames inputs) (ci_failSafePercent info) z)
  else if String.eqb (ci_type info) "stepwise" then
    let z := add_thermal_inputs inputs z in
    do pid <- createStepwiseController name (splitNames inputs) (ci_stepwiseInfo info);
    let z := addThermalPID pid z in
    do _ <- register bus_ok (getPidControlPath (z_zoneId z) name);
    let z := addPidControlProcess name (ci_type info) (ci_setpoint info) z in
    Ok (addPidFailSafePercent (splitNames inputs) (ci_failSafePercent info) z)
  else Ok z.

(** [zoneConfigs.find(zoneId)] in a [std::map<int64_t, ZoneConfig>]. /repo/pid/builder.cpp:57. *)
Fixpoint zget {V : Type} (k : Z) (m : list (Z * V)) : option V :=
  match m with
  | [] => None
  | (k', v) :: r => if (k =? k')%Z then Some v else zget k r
  end.

(** /repo/pid/builder.cpp:51-156: one zone.  The constructor registers the
    zone's own D-Bus object. *)
Definition build_zone (bus_ok : string -> bool) (zoneConfigs : list (Z * ZoneConfig))
    (e : Z * PIDConf) : outcome (Z * zone) :=
  let '(zoneId, pidConfig) := e in
  match zget zoneId zoneConfigs with
  | None => Throw "Bailing during load, missing Zone Configuration"
  | Some c =>
      do _ <- register bus_ok (getControlPath zoneId);
      do z <- foldM (add_pid bus_ok) pidConfig
                (zone_new zoneId (zc_minThermalOutput c) (zc_failsafePercent c)
                   (zc_cycleIntervalTimeMS c) (zc_updateThermalsTimeMS c)
                   (zc_accumulateSetPoint c));
      Ok (zoneId, z)
  end.

(** /repo/pid/builder.cpp:44-154, [buildZones].  [zonePids] is a [std::map], so
    its ids are distinct and [zones[zoneId] = zone] always inserts.  The result
    is an [unordered_map]; the model keeps the order of
    [zonePids], and SystemModel.v starts the zones in any order. *)
Fixpoint buildZones (bus_ok : string -> bool) (zonePids : list (Z * PIDConf))
    (zoneConfigs : list (Z * ZoneConfig)) : outcome (list (Z * zone)) :=
  match zonePids with
  | [] => Ok []
  | e :: r =>
      do z <- build_zone bus_ok zoneConfigs e;
      do zs <- buildZones bus_ok r zoneConfigs;
      Ok (z :: zs)
  end.
