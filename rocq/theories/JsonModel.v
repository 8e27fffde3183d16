(** * Reading the JSON configuration.

    Sources: buildjson/buildjson.cpp, pid/buildjson.cpp, sensors/buildjson.cpp,
    main.cpp (the call sequence).  Parsing text into a document is done by
    nlohmann::json and is not modelled; the documents here are what it returns. *)
From Coq Require Import ZArith Bool List String.
From Verif Require Import Base Dbl PidModel ZoneModel BuilderModel ConfigModel SensorModel.
Import ListNotations.
Local Open Scope string_scope.
Local Open Scope outcome_scope.

(** ** Access to a document (nlohmann::json 3.x) *)

(** [j.at(key)]: throws when [j] is no object or lacks the key.
    /repo/pid/buildjson.cpp:34-36. *)
Definition jat (key : string) (j : json) : outcome json :=
  match j with
  | JObj m => match mget key m with Some v => Ok v | None => Throw "key not found" end
  | _ => Throw "cannot use at()"
  end.
(** [j[key]] on a constant document: a missing key is undefined behaviour (an
    assertion in debug builds). /repo/pid/buildjson.cpp:198, 206-208, 223, 226. *)
Definition jindex (key : string) (j : json) : outcome json :=
  match j with
  | JObj m => match mget key m with Some v => Ok v | None => UB "operator[] with a missing key" end
  | _ => Throw "cannot use operator[] with a string argument"
  end.
(** [j.find(key)]; [None] is [j.end()], also for everything that is no object.
    /repo/pid/buildjson.cpp:40. *)
Definition jfind (key : string) (j : json) : option json :=
  match j with JObj m => mget key m | _ => None end.
(** [j.count(key)]. /repo/buildjson/buildjson.cpp:13. *)
Definition jcount (key : string) (j : json) : nat :=
  match jfind key j with Some _ => 1 | None => 0 end.
(** [j.size()]. /repo/buildjson/buildjson.cpp:19. *)
Definition jsize (j : json) : nat :=
  match j with
  | JNull => 0
  | JArr l => List.length l
  | JObj m => List.length m
  | _ => 1
  end.
(** What [for (const auto& x : j)] visits. /repo/pid/buildjson.cpp:199. *)
Definition jelements (j : json) : list json :=
  match j with
  | JNull => []
  | JArr l => l
  | JObj m => map snd m
  | _ => [j]
  end.

(** ** Conversions ([get_to] and implicit conversion) *)

(** To [std::string]. /repo/pid/buildjson.cpp:34. *)
Definition json_to_string (j : json) : outcome string :=
  match j with JStr s => Ok s | _ => Throw "type must be string" end.
(** To [bool]. /repo/pid/buildjson.cpp:71. *)
Definition json_to_bool (j : json) : outcome bool :=
  match j with JBool b => Ok b | _ => Throw "type must be boolean" end.
(** Reduction of an integer to a signed type of [bits] bits, [static_cast] in
    C++20. /repo/pid/buildjson.cpp:90, 206. *)
Definition to_signed (bits n : Z) : Z :=
  ((n + 2 ^ (bits - 1)) mod 2 ^ bits - 2 ^ (bits - 1))%Z.
(** To [int64_t]. /repo/pid/buildjson.cpp:206, /repo/sensors/buildjson.cpp:69, 83, 99. *)
Definition json_to_int64 (j : json) : outcome Z :=
  match j with
  | JUint n | JInt n => Ok (to_signed 64 n)
  | JFloat d => match to_int64 d with Some n => Ok n | None => UB "floating-integral conversion" end
  | _ => Throw "type must be number"
  end.
(** To [int], which also takes booleans. /repo/pid/buildjson.cpp:87-91. *)
Definition json_to_int (j : json) : outcome Z :=
  match j with
  | JUint n | JInt n => Ok (to_signed 32 n)
  | JFloat d =>
      match dtrunc (- 2 ^ 31) (2 ^ 31 - 1) d with
      | Some n => Ok n
      | None => UB "floating-integral conversion"
      end
  | JBool b => Ok (if b then 1 else 0)%Z
  | _ => Throw "type must be number"
  end.
(** The elements of an array, in order. /repo/pid/buildjson.cpp:35. *)
Fixpoint mapM {A B : Type} (f : A -> outcome B) (l : list A) : outcome (list B) :=
  match l with
  | [] => Ok []
  | x :: r => do y <- f x; do ys <- mapM f r; Ok (y :: ys)
  end.
(** To a [std::vector]. /repo/pid/buildjson.cpp:35, 43, 49. *)
Definition json_to_vector {A : Type} (f : json -> outcome A) (j : json) : outcome (list A) :=
  match j with JArr l => mapM f l | _ => Throw "type must be array" end.

(** [if (found != end) found->get_to(x)] with [x] initialised to [default].
    /repo/pid/buildjson.cpp:69-84. *)
Definition get_or {A : Type} (f : json -> outcome A) (default : A) (o : option json) : outcome A :=
  match o with Some j => f j | None => Ok default end.
(** [j.at(key).get_to(x)]. /repo/pid/buildjson.cpp:34-36, 96-106. *)
Definition at_to {A : Type} (f : json -> outcome A) (key : string) (j : json) : outcome A :=
  do v <- jat key j; f v.

(** ** Controllers *)

(** A value-initialised [ec::pidinfo], left as it is for stepwise controllers;
    [get<ControllerInfo>()] starts from one. /repo/pid/buildjson.cpp:227. *)
Definition pidinfo_zero : pidinfo :=
  PidInfo false d0 d0 d0 d0 d0 d0 (Limits d0 d0) (Limits d0 d0) d0 d0 d0 d0.
(** A value-initialised [ec::StepwiseInfo]. /repo/pid/buildjson.cpp:227. *)
Definition stepwise_zero : StepwiseInfo := Stepwise d0 (fun _ => d0) (fun _ => d0) d0 d0 false.

(** /repo/pid/buildjson.cpp:121-140 (and 142-154): one column of the table,
    [key] is ["reading"] or ["output"].  Entries that are not given are NaN.
    Simplified: the two initialisations of 121-126 are merged into the columns. *)
Definition from_json_points (key : string) (p : json) : outcome (list dbl) :=
  match jfind key p with
  | None => Ok (repeat dnan maxStepwisePoints)
  | Some r =>
      mapM (fun i => get_or json_to_double dnan (jfind (to_string (Z.of_nat i)) r))
           (seq 0 maxStepwisePoints)
  end.

(** /repo/pid/buildjson.cpp:96-114. *)
Definition from_json_pid (p : json) (checkHyster : bool) (posHyst negHyst derivative : dbl)
  : outcome pidinfo :=
  do t <- at_to json_to_double "samplePeriod" p;
  do kp <- at_to json_to_double "proportionalCoeff" p;
  do ki <- at_to json_to_double "integralCoeff" p;
  do off <- at_to json_to_double "feedFwdOffsetCoeff" p;
  do gain <- at_to json_to_double "feedFwdGainCoeff" p;
  do imin <- at_to json_to_double "integralLimit_min" p;
  do imax <- at_to json_to_double "integralLimit_max" p;
  do omin <- at_to json_to_double "outLim_min" p;
  do omax <- at_to json_to_double "outLim_max" p;
  do sneg <- at_to json_to_double "slewNeg" p;
  do spos <- at_to json_to_double "slewPos" p;
  Ok (PidInfo checkHyster t kp ki derivative off gain (Limits imin imax) (Limits omin omax)
        sneg spos posHyst negHyst).

(** /repo/pid/buildjson.cpp:118-157. *)
Definition from_json_stepwise (p : json) (posHyst negHyst : dbl) : outcome StepwiseInfo :=
  do t <- at_to json_to_double "samplePeriod" p;
  do ceil <- at_to json_to_bool "isCeiling" p;
  do reading <- from_json_points "reading" p;
  do output <- from_json_points "output" p;
  Ok (Stepwise t (fun i => nth i reading dnan) (fun i => nth i output dnan) posHyst negHyst ceil).

(** /repo/pid/buildjson.cpp:29-159, [from_json] of a [ControllerInfo]. *)
Definition from_json_ControllerInfo (j : json) : outcome ControllerInfo :=
  do type <- at_to json_to_string "type" j;
  do inputNames <- at_to (json_to_vector json_to_string) "inputs" j;
  do setpoint <- at_to json_to_double "setpoint" j;
  do margins <- get_or (json_to_vector json_to_double) [] (jfind "tempToMargin" j);
  do missing <- get_or (json_to_vector json_to_string) [] (jfind "missingIsAcceptable" j);
  let inputs := spliceInputs inputNames margins missing in
  do p <- jat "pid" j;
  do checkHyster <- get_or json_to_bool false (jfind "checkHysteresisWithSetpoint" p);
  do posHyst <- get_or json_to_double d0 (jfind "positiveHysteresis" p);
  do negHyst <- get_or json_to_double d0 (jfind "negativeHysteresis" p);
  do derivative <- get_or json_to_double d0 (jfind "derivativeCoeff" p);
  do percent <- get_or json_to_int 0%Z (jfind "FailSafePercent" j);
  if negb (String.eqb type "stepwise")
  then do info <- from_json_pid p checkHyster posHyst negHyst derivative;
       Ok (MkInfo type inputs setpoint info stepwise_zero (D percent))
  else do info <- from_json_stepwise p posHyst negHyst;
       Ok (MkInfo type inputs setpoint pidinfo_zero info (D percent)).

(** ** Zones *)

(** [m[k] = v] in a [std::map<int64_t, V>], kept in key order.
    /repo/pid/buildjson.cpp:238-239. *)
Fixpoint zset {V : Type} (k : Z) (v : V) (m : list (Z * V)) : list (Z * V) :=
  match m with
  | [] => [(k, v)]
  | (k', v') :: r =>
      if (k =? k')%Z then (k, v) :: r
      else if (k <? k')%Z then (k, v) :: (k', v') :: r
      else (k', v') :: zset k v r
  end.

(** /repo/pid/buildjson.cpp:226-235: one PID.  The name is copied first and
    converted to a string last. *)
Definition read_pid (thisZone : PIDConf) (pid : json) : outcome PIDConf :=
  do name <- jindex "name" pid;
  do item <- from_json_ControllerInfo pid;
  do name <- json_to_string name;
  Ok (mset name item thisZone).

(** /repo/pid/buildjson.cpp:163-187, [getCycleTimeSetting] on a document. *)
Definition read_cycle_time (zone : json) (attributeName : string) (value : Z) : outcome Z :=
  getCycleTimeSetting_json (match zone with JObj m => m | _ => [] end) attributeName value.

(** /repo/pid/buildjson.cpp:201-239: one zone. *)
Definition read_zone (maps : list (Z * PIDConf) * list (Z * ZoneConfig)) (zone : json)
  : outcome (list (Z * PIDConf) * list (Z * ZoneConfig)) :=
  do id <- jindex "id" zone;
  do id <- json_to_int64 id;
  do minOut <- jindex "minThermalOutput" zone;
  do minOut <- json_to_double minOut;
  do percent <- jindex "failsafePercent" zone;
  do percent <- json_to_double percent;
  do cycle <- read_cycle_time zone "cycleIntervalTimeMS" default_cycleIntervalTimeMS;
  do thermals <- read_cycle_time zone "updateThermalsTimeMS" default_updateThermalsTimeMS;
  do accumulate <- get_or json_to_bool false (jfind "accumulateSetPoint" zone);
  do pids <- jindex "pids" zone;
  do thisZone <- foldM read_pid (jelements pids) [];
  Ok (zset id thisZone (fst maps),
      zset id (MkZoneConfig minOut percent cycle thermals accumulate) (snd maps)).

(** /repo/pid/buildjson.cpp:189-243, [buildPIDsFromJson]. *)
Definition buildPIDsFromJson (data : json)
  : outcome (list (Z * PIDConf) * list (Z * ZoneConfig)) :=
  do zones <- jindex "zones" data;
  foldM read_zone (jelements zones) ([], []).

(** ** Sensors *)

(** /repo/sensors/buildjson.cpp:64-75, 78-89: [min] and [max] are only read for
    fans. *)
Definition fan_limit (type key : string) (j : json) : outcome Z :=
  match jfind key j with
  | Some v => if String.eqb type "fan" then json_to_int64 v else Ok 0%Z
  | None => Ok 0%Z
  end.
(** /repo/sensors/buildjson.cpp:20-101, [from_json] of a [SensorConfig]. *)
Definition from_json_SensorConfig (j : json) : outcome SensorConfig :=
  do type <- at_to json_to_string "type" j;
  do readPath <- at_to json_to_string "readPath" j;
  do writePath <- get_or json_to_string "" (jfind "writePath" j);
  do ignore <- get_or json_to_bool false (jfind "ignoreDbusMinMax" j);
  do asFailed <- get_or json_to_bool true (jfind "unavailableAsFailed" j);
  do hostOff <- get_or json_to_bool false (jfind "ignoreFailIfHostOff" j);
  do min <- fan_limit type "min" j;
  do max <- fan_limit type "max" j;
  do timeout <- get_or json_to_int64 (getDefaultTimeout type) (jfind "timeout" j);
  Ok (MkSensorConfig type readPath writePath min max timeout ignore asFailed hostOff).

(** /repo/sensors/buildjson.cpp:114: the right side is evaluated first. *)
Definition read_sensor (config : smap SensorConfig) (sensor : json) : outcome (smap SensorConfig) :=
  do info <- from_json_SensorConfig sensor;
  do name <- jindex "name" sensor;
  do name <- json_to_string name;
  Ok (mset name info config).

(** /repo/sensors/buildjson.cpp:104-118, [buildSensorsFromJson]. *)
Definition buildSensorsFromJson (data : json) : outcome (smap SensorConfig) :=
  do sensors <- jindex "sensors" data;
  foldM read_sensor (jelements sensors) [].

(** ** The whole document *)

(** /repo/buildjson/buildjson.cpp:31-44. *)
Definition validate_zone (_ : unit) (zone : json) : outcome unit :=
  if negb (Nat.eqb (jcount "pids" zone) 1)
  then Throw "KeyError: should only have one 'pids' key per zone."
  else do pids <- jindex "pids" zone;
       if Nat.eqb (jsize pids) 0
       then Throw "Invalid Configuration: must be at least one pid per zone."
       else Ok tt.
(** /repo/buildjson/buildjson.cpp:11-45, [validateJson]. *)
Definition validateJson (data : json) : outcome unit :=
  if negb (Nat.eqb (jcount "sensors" data) 1)
  then Throw "KeyError: 'sensors' not found (or found repeatedly)"
  else do sensors <- jindex "sensors" data;
  if Nat.eqb (jsize sensors) 0
  then Throw "Invalid Configuration: At least one sensor required"
  else if negb (Nat.eqb (jcount "zones" data) 1)
  then Throw "KeyError: 'zones' not found (or found repeatedly)"
  else do zones <- jindex "zones" data;
  foldM validate_zone (jelements zones) tt.

(** What a configuration consists of: [sensorConfig], [zoneConfig],
    [zoneDetailsConfig]. /repo/main.cpp:54-59, 142-145. *)
Record loaded : Type := MkLoaded {
  l_sensors : smap SensorConfig;
  l_pids : list (Z * PIDConf);
  l_zones : list (Z * ZoneConfig)
}.

(** /repo/main.cpp:142-145 with /repo/buildjson/buildjson.cpp:61-64: the parsed
    document is validated, then read.  Any exception ends the daemon
    (main.cpp:147-151). *)
Definition load_json (data : json) : outcome loaded :=
  do _ <- validateJson data;
  do sensors <- buildSensorsFromJson data;
  do zones <- buildPIDsFromJson data;
  Ok (MkLoaded sensors (fst zones) (snd zones)).
