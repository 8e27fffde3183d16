(** * Reading the configuration from D-Bus.

    Sources: dbus/dbusconfiguration.cpp, dbus/dbusutil.cpp (findSensors).

    Simplified: an unordered map is the list of its entries in the order in
    which the code visits them; the theorems quantify over all such lists.
    Messages on the console and [debugPrint] are left out. *)
From Coq Require Import ZArith Bool List String Ascii.
From Verif Require Import Base Dbl PidModel ZoneModel BuilderModel SensorModel JsonModel ConfigModel.
Import ListNotations.
Local Open Scope string_scope.
Local Open Scope outcome_scope.

(** ** Names *)

(** /repo/dbus/dbusconfiguration.cpp:75-76. *)
Definition pid_intf : string := "xyz.openbmc_project.Configuration.Pid".
(** /repo/dbus/dbusconfiguration.cpp:77-78. *)
Definition manager_intf : string := "org.freedesktop.DBus.ObjectManager".
(** /repo/dbus/dbusconfiguration.cpp:79-80. *)
Definition zone_intf : string := "xyz.openbmc_project.Configuration.Pid.Zone".
(** /repo/dbus/dbusconfiguration.cpp:81-82. *)
Definition stepwise_intf : string := "xyz.openbmc_project.Configuration.Stepwise".
(** [ControlFanPwm::interface] (generated code). /repo/dbus/dbusconfiguration.cpp:64, 514-515. *)
Definition pwm_intf : string := "xyz.openbmc_project.Control.FanPwm".

(** /repo/dbus/dbusconfiguration.cpp:98-101, [getSensorNameFromPath]: what
    follows the last slash. *)
Fixpoint getSensorNameFromPath (path : string) : string :=
  match path with
  | EmptyString => EmptyString
  | String c r =>
      if str_contains "/" r then getSensorNameFromPath r
      else if Ascii.eqb c "/"%char then r else path
  end.

(** /repo/dbus/dbusconfiguration.cpp:103-108, [sensorNameToDbusName]. *)
Fixpoint sensorNameToDbusName (s : string) : string :=
  match s with
  | EmptyString => EmptyString
  | String c r =>
      String (if Ascii.eqb c " "%char then "_"%char else c) (sensorNameToDbusName r)
  end.

(** ** Access to properties *)

(** One object: its interfaces with their properties.
    /repo/dbus/dbusconfiguration.hpp:35-38. *)
Definition object : Type := smap properties.

(** [std::get<std::string>] of a variant. /repo/dbus/dbusconfiguration.cpp:637. *)
Definition get_str (v : variant) : outcome string :=
  match v with VStr s => Ok s | _ => Throw "bad_variant_access" end.
(** [std::get<bool>]. /repo/dbus/dbusconfiguration.cpp:693. *)
Definition get_flag (v : variant) : outcome bool :=
  match v with VBool b => Ok b | _ => Throw "bad_variant_access" end.
(** [std::get<std::vector<std::string>>]. /repo/dbus/dbusconfiguration.cpp:583, 708. *)
Definition get_strs (v : variant) : outcome (list string) :=
  match v with VStrs l => Ok l | _ => Throw "bad_variant_access" end.
(** [std::get<std::vector<double>>]. /repo/dbus/dbusconfiguration.cpp:1014, 1233. *)
Definition get_dbls (v : variant) : outcome (list dbl) :=
  match v with VDbls l => Ok l | _ => Throw "bad_variant_access" end.

(** [base.at(key)]. /repo/dbus/dbusconfiguration.cpp:704-708. *)
Definition at_key (key : string) (base : properties) : outcome variant :=
  match mget key base with Some v => Ok v | None => Throw "out_of_range" end.
(** /repo/dbus/dbusconfiguration.cpp:293-303, [getPIDAttribute]. *)
Definition getPIDAttribute (key : string) (base : properties) : outcome variant :=
  match mget key base with Some v => Ok v | None => Throw ("missing attribute " ++ key) end.
(** [if (found != end) x = f(found->second)] with [x] initialised to [default].
    /repo/dbus/dbusconfiguration.cpp:428-446, 720-750. *)
Definition opt_attr {A : Type} (f : variant -> outcome A) (default : A) (key : string)
    (base : properties) : outcome A :=
  match mget key base with Some v => f v | None => Ok default end.
(** [std::visit(VariantToDoubleVisitor(), getPIDAttribute(base, key))].
    /repo/dbus/dbusconfiguration.cpp:396-416. *)
Definition pid_number (key : string) (base : properties) : outcome dbl :=
  do v <- getPIDAttribute key base; variant_to_double v.
(** The percentage is a [double] stored in an [int] and back again.
    /repo/dbus/dbusconfiguration.cpp:348-355, 675-682. *)
Definition fail_safe_percent (base : properties) : outcome dbl :=
  match mget "FailSafePercent" base with
  | None => Ok d0
  | Some v =>
      do d <- variant_to_double v;
      match dtrunc (- 2 ^ 31) (2 ^ 31 - 1) d with
      | Some n => Ok (D n)
      | None => UB "floating-integral conversion"
      end
  end.

(** ** What the mapper and the owners say *)

(** [m[k] = v] in an unordered map. /repo/dbus/dbusconfiguration.cpp:501, 523. *)
Fixpoint uset {V : Type} (k : string) (v : V) (m : smap V) : smap V :=
  match m with
  | [] => [(k, v)]
  | (k', v') :: r => if String.eqb k k' then (k, v) :: r else (k', v') :: uset k v r
  end.

(** The three interfaces that hold configuration.
    /repo/dbus/dbusconfiguration.cpp:508-510, 554-559. *)
Definition is_config_intf (i : string) : bool :=
  String.eqb i pid_intf || String.eqb i zone_intf || String.eqb i stepwise_intf.

(** [owners]: per service, whether it has configuration and where its object
    manager is; [sensors]: per path the interface.  One interface of one object.
    /repo/dbus/dbusconfiguration.cpp:501-525. *)
Definition scan_interface (path owner : string) (st : smap (bool * string) * smap string)
    (i : string) : smap (bool * string) * smap string :=
  let '(owners, sensors) := st in
  let o := match mget owner owners with Some o => o | None => (false, "") end in
  let o := if String.eqb i manager_intf then (fst o, path) else o in
  let o := if is_config_intf i then (true, snd o) else o in
  let owners := uset owner o owners in
  if String.eqb i value_intf || String.eqb i pwm_intf
  then if String.eqb i value_intf && str_contains "pwm" path
       then (owners, sensors) else (owners, uset path i sensors)
  else (owners, sensors).
(** The answer of the mapper: object paths, services, interfaces.
    /repo/dbus/dbusconfiguration.cpp:474-476. *)
Definition subtree : Type := list (string * list (string * list string)).
(** /repo/dbus/dbusconfiguration.cpp:497-527. *)
Definition scan (resp : subtree) : smap (bool * string) * smap string :=
  fold_left (fun st obj =>
    fold_left (fun st own =>
      fold_left (scan_interface (fst obj) (fst own)) (snd own)
        (let '(owners, sensors) := st in
         (match mget (fst own) owners with
          | Some _ => owners
          | None => uset (fst own) (false, "") owners
          end, sensors)))
      (snd obj) st) resp ([], []).

(** /repo/dbus/dbusconfiguration.cpp:552-563: the objects with configuration
    interfaces; [emplace] keeps the first of two objects of one path. *)
Definition keep_configured (confs : smap object) (e : string * object) : smap object :=
  if existsb (fun i => is_config_intf (fst i)) (snd e) && negb (mmem (fst e) confs)
  then (confs ++ [e])%list else confs.
(** /repo/dbus/dbusconfiguration.cpp:529-564.  [managed] is the reply to
    GetManagedObjects, [None] on failure. *)
Definition gather (managed : string -> string -> option (smap object))
    (owners : smap (bool * string)) : outcome (smap object) :=
  foldM (fun confs o =>
    if negb (fst (snd o)) then Ok confs
    else match managed (fst o) (snd (snd o)) with
         | None => Throw "Error getting managed objects"
         | Some l => Ok (fold_left keep_configured l confs)
         end) owners [].

(** ** Profiles *)

(** /repo/dbus/dbusconfiguration.cpp:576-600: whether an interface stays. *)
Definition profile_selected (selected : list string) (props : properties) : outcome bool :=
  match mget "Profiles" props with
  | None => Ok true
  | Some v =>
      do profiles <- get_strs v;
      match profiles with
      | [] => Ok true
      | _ => Ok (existsb (fun p => smem p selected) profiles)
      end
  end.
(** The inner loop, /repo/dbus/dbusconfiguration.cpp:573-609. *)
Fixpoint select_interfaces (selected : list string) (l : object) : outcome object :=
  match l with
  | [] => Ok []
  | (i, props) :: r =>
      do keep <- profile_selected selected props;
      do r' <- select_interfaces selected r;
      Ok (if keep then (i, props) :: r' else r')
  end.
(** The outer loop, /repo/dbus/dbusconfiguration.cpp:570-618. *)
Fixpoint select_objects (selected : list string) (l : smap object) : outcome (smap object) :=
  match l with
  | [] => Ok []
  | (path, o) :: r =>
      do o' <- select_interfaces selected o;
      do r' <- select_objects selected r;
      Ok (match o' with [] => r' | _ => (path, o') :: r' end)
  end.
(** /repo/dbus/dbusconfiguration.cpp:566-619. *)
Definition apply_profiles (selected : list string) (confs : smap object) : outcome (smap object) :=
  match selected with [] => Ok confs | _ => select_objects selected confs end.

(** ** Zones *)

(** The three maps that are filled and the zone numbers given out so far.
    /repo/dbus/dbusconfiguration.cpp:455-457, 628. *)
Record reading : Type := MkReading {
  r_found : smap Z;
  r_sensors : smap SensorConfig;
  r_pids : list (Z * PIDConf);
  r_zones : list (Z * ZoneConfig)
}.

(** /repo/dbus/dbusconfiguration.cpp:629-656: zones that ask for a number. *)
Definition reserve_index (found : smap Z) (conf : string * object) : outcome (smap Z) :=
  match mget zone_intf (snd conf) with
  | None => Ok found
  | Some zone =>
      do v <- at_key "Name" zone;
      do name <- get_str v;
      match mget "ZoneIndex" zone with
      | Some (VDbl d) =>
          match to_int64 d with
          | None => UB "floating-integral conversion"
          | Some desired => do r <- setZoneIndex name found desired; Ok (snd r)
          end
      | _ => Ok found
      end
  end.

(** A new [conf::ZoneConfig]; minimum, percentage and flag are assigned before
    use. /repo/dbus/dbusconfiguration.cpp:670. *)
Definition new_zone : ZoneConfig :=
  MkZoneConfig d0 d0 default_cycleIntervalTimeMS default_updateThermalsTimeMS false.
(** /repo/dbus/dbusconfiguration.cpp:660-696. *)
Definition read_zone_details (st : reading) (zone : properties) : outcome reading :=
  do v <- at_key "Name" zone;
  do name <- get_str v;
  do r <- getZoneIndex name (r_found st);
  let '(index, found) := r in
  let details := match zget index (r_zones st) with Some d => d | None => new_zone end in
  do v <- at_key "MinThermalOutput" zone;
  do minThermalOutput <- variant_to_double v;
  do percent <- fail_safe_percent zone;
  do cycle <- getCycleTimeSetting_dbus zone "CycleIntervalTimeMS" (zc_cycleIntervalTimeMS details);
  do thermals <- getCycleTimeSetting_dbus zone "UpdateThermalsTimeMS" (zc_updateThermalsTimeMS details);
  do accumulate <- opt_attr get_flag false "AccumulateSetPoint" zone;
  Ok (MkReading found (r_sensors st) (r_pids st)
        (zset index (MkZoneConfig minThermalOutput percent cycle thermals accumulate) (r_zones st))).

(** ** Sensors *)

(** What [std::regex] makes of a pattern: an exception, or which strings
    [regex_search] finds it in.  Simplified: an argument; the theorems say what
    they need of it. /repo/dbus/dbusutil.cpp:79-83. *)
Definition regex : Type := string -> outcome (string -> bool).
(** /repo/dbus/dbusutil.cpp:75-89, [findSensors]. *)
Definition findSensors (re : regex) (sensors : smap string) (search : string)
  : outcome (list (string * string)) :=
  do p <- re ("/" ++ search ++ "$");
  Ok (filter (fun s => p (fst s)) sensors).
(** A loop of calls that append to one vector.
    /repo/dbus/dbusconfiguration.cpp:824-834. *)
Fixpoint find_all (re : regex) (sensors : smap string) (names : list string)
  : outcome (list (string * string)) :=
  match names with
  | [] => Ok []
  | n :: r =>
      do l <- findSensors re sensors (sensorNameToDbusName n);
      do l' <- find_all re sensors r;
      Ok (l ++ l')%list
  end.

(** A value-initialised [conf::SensorConfig]. /repo/dbus/dbusconfiguration.cpp:857, 972. *)
Definition sensor_zero : SensorConfig := MkSensorConfig "" "" "" 0 0 0 false false false.
(** [auto& config = sensorConfig[name]] and assignments to it.
    /repo/dbus/dbusconfiguration.cpp:857-864, 972-979. *)
Definition update_sensor (name : string) (g : SensorConfig -> SensorConfig)
    (m : smap SensorConfig) : smap SensorConfig :=
  mset name (g (match mget name m with Some c => c | None => sensor_zero end)) m.
(** /repo/dbus/dbusconfiguration.cpp:798-809, 857-864, 1116-1126, 1149-1158. *)
Definition as_thermal (type readPath : string) (unavailableAsFailed ignoreFailIfHostOff : bool)
    (c : SensorConfig) : SensorConfig :=
  MkSensorConfig type readPath (sc_writePath c) (sc_min c) (sc_max c) 0 true
    unavailableAsFailed ignoreFailIfHostOff.
(** /repo/dbus/dbusconfiguration.cpp:972-979. *)
Definition as_fan (readPath writePath : string) (c : SensorConfig) : SensorConfig :=
  MkSensorConfig "fan" readPath writePath 0 255 (sc_timeout c) (sc_ignoreDbusMinMax c)
    (sc_unavailableAsFailed c) (sc_ignoreFailIfHostOff c).

(** ** PIDs *)

(** What the bus says about thresholds: whether the path has an owner for the
    interface, and the property ([None]: the call throws).
    /repo/dbus/dbusconfiguration.cpp:379-390. *)
Record threshold_bus : Type := ThresholdBus {
  tb_owned : string -> string -> bool;
  tb_value : string -> string -> string -> option dbl
}.

(** /repo/dbus/dbusconfiguration.cpp:357-392: the offset of the setpoint. *)
Definition threshold_reading (tb : threshold_bus) (property : string) (info : ControllerInfo)
    (sensorConfig : smap SensorConfig) : outcome dbl :=
  let interface :=
    if String.eqb property "WarningHigh" || String.eqb property "WarningLow"
    then warning_intf else critical_intf in
  match ci_inputs info with
  | [] => UB "front of an empty vector"
  | i :: _ =>
      match mget (si_name i) sensorConfig with
      | None => Throw "out_of_range"
      | Some c =>
          if negb (tb_owned tb interface (sc_readPath c)) then Throw "Unable to find Object"
          else Ok (match tb_value tb interface (sc_readPath c) property with
                   | Some r => r | None => d0 end)
      end
  end.

(** /repo/dbus/dbusconfiguration.cpp:331-452, [populatePidInfo]: the new content
    of [info]. *)
Definition populatePidInfo (tb : threshold_bus) (base : properties) (info : ControllerInfo)
    (thresholdProperty : option string) (sensorConfig : smap SensorConfig)
  : outcome ControllerInfo :=
  do v <- getPIDAttribute "Class" base;
  do type <- get_str v;
  do setpoint <- (if String.eqb type "fan" then Ok d0 else pid_number "SetPoint" base);
  do percent <- fail_safe_percent base;
  do setpoint <- match thresholdProperty with
                 | None => Ok setpoint
                 | Some p => do r <- threshold_reading tb p info sensorConfig; Ok (dadd setpoint r)
                 end;
  do kp <- pid_number "PCoefficient" base;
  do ki <- pid_number "ICoefficient" base;
  do off <- pid_number "FFOffCoefficient" base;
  do gain <- pid_number "FFGainCoefficient" base;
  do imax <- pid_number "ILimitMax" base;
  do imin <- pid_number "ILimitMin" base;
  do omax <- pid_number "OutLimitMax" base;
  do omin <- pid_number "OutLimitMin" base;
  do sneg <- pid_number "SlewNeg" base;
  do spos <- pid_number "SlewPos" base;
  do check <- opt_attr get_flag false "CheckHysteresisWithSetpoint" base;
  do neg <- opt_attr variant_to_double d0 "NegativeHysteresis" base;
  do pos <- opt_attr variant_to_double d0 "PositiveHysteresis" base;
  do kd <- opt_attr variant_to_double d0 "DCoefficient" base;
  Ok (MkInfo type (ci_inputs info) setpoint
        (PidInfo check (D 1) kp ki kd off gain (Limits imin imax) (Limits omin omax) sneg spos pos neg)
        (ci_stepwiseInfo info) percent).

(** A value-initialised [conf::ControllerInfo]. /repo/dbus/dbusconfiguration.cpp:1023, 1034, 1199. *)
Definition info_zero : ControllerInfo := MkInfo "" [] d0 pidinfo_zero stepwise_zero d0.
(** [conf[name]]. /repo/dbus/dbusconfiguration.cpp:1023, 1034, 1199. *)
Definition info_of (name : string) (conf : PIDConf) : ControllerInfo :=
  match mget name conf with Some i => i | None => info_zero end.
(** Assignment to [info.inputs]. /repo/dbus/dbusconfiguration.cpp:1024, 1035. *)
Definition set_inputs (l : list SensorInput) (i : ControllerInfo) : ControllerInfo :=
  MkInfo (ci_type i) l (ci_setpoint i) (ci_pidInfo i) (ci_stepwiseInfo i) (ci_failSafePercent i).

(** What the input loop collects: new sensors, names, paths with interfaces.
    /repo/dbus/dbusconfiguration.cpp:718, 752, 765-823. *)
Record inputs_st : Type := MkInputs {
  in_sensors : smap SensorConfig;
  in_archived : list string;
  in_interfaces : list (string * string)
}.
(** /repo/dbus/dbusconfiguration.cpp:765-823: one entry of Inputs. *)
Definition find_input (sf : sflags) (re : regex) (sensors : smap string) (pidClass : string)
    (acceptable : list string) (asFailed hostOff : bool) (st : inputs_st) (sensorName : string)
  : outcome inputs_st :=
  do l <- findSensors re sensors (sensorNameToDbusName sensorName);
  match l with
  | _ :: _ => Ok (MkInputs (in_sensors st) (in_archived st) (in_interfaces st ++ l)%list)
  | [] =>
      if HANDLE_MISSING_OBJECT_PATHS sf && negb (String.eqb pidClass "fan") &&
         negb (smem sensorName acceptable)
      then let n := sensorNameToDbusName sensorName in
           Ok (MkInputs
                 (update_sensor n (as_thermal pidClass (getSensorPath pidClass n) asFailed hostOff)
                    (in_sensors st))
                 (in_archived st ++ [n])%list (in_interfaces st))
      else Ok st
  end.

(** The classes of /repo/dbus/dbusconfiguration.cpp:852-853. *)
Definition is_thermal_class (c : string) : bool := smem c ["temp"; "margin"; "power"; "powersum"].
(** /repo/dbus/dbusconfiguration.cpp:836-877: one sensor that was found. *)
Definition add_input (pidClass : string) (asFailed hostOff : bool)
    (st : smap SensorConfig * list string) (i : string * string)
  : outcome (smap SensorConfig * list string) :=
  let '(path, interface) := i in
  let st :=
    if is_thermal_class pidClass
    then let n := getSensorNameFromPath path in
         (update_sensor n (as_thermal pidClass path asFailed hostOff) (fst st), (snd st ++ [n])%list)
    else st in
  if String.eqb interface value_intf then Ok st
  else Throw "sensor has an interface that does not match the expected interface".

(** /repo/dbus/dbusconfiguration.cpp:880-904: names of the acceptable sensors. *)
Definition acceptable_name (i : string * string) : outcome string :=
  if String.eqb (snd i) value_intf then Ok (getSensorNameFromPath (fst i))
  else Throw "sensor has an interface that does not match the expected interface".

(** /repo/dbus/dbusconfiguration.cpp:953-979: one fan with its PWM. *)
Definition add_fan (st : smap SensorConfig * list string)
    (e : (string * string) * (string * string)) : outcome (smap SensorConfig * list string) :=
  let '((fanPath, _), (pwmPath, pwmInterface)) := e in
  if negb (String.eqb pwm_intf pwmInterface)
  then Throw "fan pwm control has an interface that does not match the expected interface"
  else let index := getSensorNameFromPath fanPath ++ getSensorNameFromPath pwmPath in
       Ok (update_sensor index (as_fan fanPath pwmPath) (fst st), (snd st ++ [index])%list).
(** /repo/dbus/dbusconfiguration.cpp:909-981. *)
Definition pair_fans (inputs outputs : list (string * string))
    (st : smap SensorConfig * list string) : outcome (smap SensorConfig * list string) :=
  match outputs with
  | [pwm] => foldM add_fan (map (fun i => (i, pwm)) inputs) st
  | _ =>
      if Nat.eqb (List.length inputs) (List.length outputs)
      then foldM add_fan (combine inputs outputs) st
      else Throw "fan PID has invalid number of Outputs"
  end.

(** /repo/dbus/dbusconfiguration.cpp:1021-1039: the PID, or one PID per input. *)
Definition add_pid_info (tb : threshold_bus) (base : properties) (pidName offsetType : string)
    (sensorConfig : smap SensorConfig) (inputs : list SensorInput) (conf : PIDConf)
  : outcome PIDConf :=
  if String.eqb offsetType ""
  then do info <- populatePidInfo tb base (set_inputs inputs (info_of pidName conf)) None sensorConfig;
       Ok (mset pidName info conf)
  else foldM (fun conf i =>
         let info := info_of (si_name i) conf in
         do info <- populatePidInfo tb base (set_inputs (ci_inputs info ++ [i])%list info)
                      (Some offsetType) sensorConfig;
         Ok (mset (si_name i) info conf)) inputs conf.

(** /repo/dbus/dbusconfiguration.cpp:89-90, [thresholds::types]. *)
Definition threshold_types : list string := ["CriticalLow"; "CriticalHigh"; "WarningLow"; "WarningHigh"].
(** /repo/dbus/dbusconfiguration.cpp:989-1006. *)
Definition offset_type (base : properties) : outcome string :=
  match mget "SetPointOffset" base with
  | None => Ok ""
  | Some v =>
      do t <- get_str v;
      if smem t threshold_types then Ok t else Throw ("Unsupported type: " ++ t)
  end.

(** What the surroundings answer while a configuration is read.
    /repo/dbus/dbusconfiguration.cpp:454-1278. *)
Record config_env : Type := ConfigEnv {
  ce_flags : sflags;
  ce_regex : regex;
  ce_thresholds : threshold_bus;
  ce_sensors : smap string        (* the sensors on the bus: path, interface *)
}.

(** /repo/dbus/dbusconfiguration.cpp:709-1040: one PID in one of its zones. *)
Definition pid_in_zone (ce : config_env) (base : properties) (pidName pidClass : string)
    (st : reading) (zone : string) : outcome reading :=
  do r <- getZoneIndex zone (r_found st);
  let '(index, found) := r in
  let conf := match zget index (r_pids st) with Some c => c | None => [] end in
  do v <- at_key "Inputs" base;
  do inputNames <- get_strs v;
  do acceptable <- opt_attr get_strs [] "MissingIsAcceptable" base;
  do outputNames <- (if String.eqb pidClass "fan"
                     then do v <- getPIDAttribute "Outputs" base; get_strs v else Ok []);
  do asFailed <- opt_attr get_flag true "InputUnavailableAsFailed" base;
  do hostOff <- opt_attr get_flag false "IgnoreFailIfHostOff" base;
  do i <- foldM (find_input (ce_flags ce) (ce_regex ce) (ce_sensors ce) pidClass acceptable asFailed hostOff)
            inputNames (MkInputs (r_sensors st) [] []);
  do outputs <- find_all (ce_regex ce) (ce_sensors ce) outputNames;
  do acceptables <- find_all (ce_regex ce) (ce_sensors ce) acceptable;
  do a <- foldM (add_input pidClass asFailed hostOff) (in_interfaces i) (in_sensors i, in_archived i);
  do acceptableNames <- mapM acceptable_name acceptables;
  do a <- (if String.eqb pidClass "fan" then pair_fans (in_interfaces i) outputs a else Ok a);
  let '(sensors, archived) := a in
  match archived with
  | [] => Ok (MkReading found sensors (zset index conf (r_pids st)) (r_zones st))
  | _ =>
      do offsetType <- offset_type base;
      do margins <- opt_attr get_dbls [] "TempToMargin" base;
      do conf <- add_pid_info (ce_thresholds ce) base pidName offsetType sensors
                   (spliceInputs archived margins acceptableNames) conf;
      Ok (MkReading found sensors (zset index conf (r_pids st)) (r_zones st))
  end.
(** /repo/dbus/dbusconfiguration.cpp:697-1041. *)
Definition read_pid_object (ce : config_env) (st : reading) (base : properties) : outcome reading :=
  do v <- at_key "Name" base;
  do name <- get_str v;
  do v <- at_key "Class" base;
  do pidClass <- get_str v;
  do v <- at_key "Zones" base;
  do zones <- get_strs v;
  foldM (pid_in_zone ce base (sensorNameToDbusName name) pidClass) zones st.

(** ** Stepwise controllers *)

(** /repo/dbus/dbusconfiguration.cpp:1142-1160: the sensors one entry of Inputs
    stands for. *)
Definition add_step_sensor (asFailed hostOff : bool) (st : smap SensorConfig * list string)
    (i : string * string) : smap SensorConfig * list string :=
  let n := getSensorNameFromPath (fst i) in
  (update_sensor n (as_thermal "temp" (fst i) asFailed hostOff) (fst st), (snd st ++ [n])%list).
(** /repo/dbus/dbusconfiguration.cpp:1088-1162.  Without the
    handle-missing-object-paths option the first entry that is not found ends the
    loop. *)
Fixpoint step_inputs (sf : sflags) (re : regex) (sensors : smap string) (acceptable : list string)
    (asFailed hostOff : bool) (names : list string) (st : smap SensorConfig * list string)
  : outcome (smap SensorConfig * list string) :=
  match names with
  | [] => Ok st
  | sensorName :: r =>
      do l <- findSensors re sensors (sensorNameToDbusName sensorName);
      match l with
      | [] =>
          if negb (HANDLE_MISSING_OBJECT_PATHS sf) then Ok st
          else if smem sensorName acceptable
          then step_inputs sf re sensors acceptable asFailed hostOff r st
          else let n := sensorNameToDbusName sensorName in
               step_inputs sf re sensors acceptable asFailed hostOff r
                 (update_sensor n (as_thermal "temp" (getSensorPath "temp" n) asFailed hostOff) (fst st),
                  (snd st ++ [n])%list)
      | _ :: _ =>
          step_inputs sf re sensors acceptable asFailed hostOff r
            (fold_left (add_step_sensor asFailed hostOff) l st)
      end
  end.
(** /repo/dbus/dbusconfiguration.cpp:1168-1197. *)
Fixpoint step_acceptable (sf : sflags) (re : regex) (sensors : smap string) (names : list string)
  : outcome (list string) :=
  match names with
  | [] => Ok []
  | n :: r =>
      do l <- findSensors re sensors (sensorNameToDbusName n);
      match l with
      | [] => if negb (HANDLE_MISSING_OBJECT_PATHS sf) then Ok [] else step_acceptable sf re sensors r
      | _ :: _ =>
          do r' <- step_acceptable sf re sensors r;
          Ok (map (fun s => getSensorNameFromPath (fst s)) l ++ r')%list
      end
  end.

(** [std::copy] into a table and the NaN after the last point.
    /repo/dbus/dbusconfiguration.cpp:1243-1249, 1257-1263. *)
Definition fill_table (l : list dbl) (old : nat -> dbl) : nat -> dbl :=
  fun i =>
    if (i <? List.length l)%nat then nth i l dnan
    else if (i =? List.length l)%nat && (List.length l <? maxStepwisePoints)%nat then dnan
    else old i.

(** /repo/dbus/dbusconfiguration.cpp:1213-1263: the table and its settings. *)
Definition read_table (base : properties) (old : StepwiseInfo) : outcome StepwiseInfo :=
  do v <- at_key "Class" base;
  do subtype <- get_str v;
  do pos <- opt_attr variant_to_double d0 "PositiveHysteresis" base;
  do neg <- opt_attr variant_to_double d0 "NegativeHysteresis" base;
  do v <- at_key "Reading" base;
  do readings <- get_dbls v;
  if (maxStepwisePoints <? List.length readings)%nat then Throw "Too many stepwise points."
  else if Nat.eqb (List.length readings) 0 then Throw "Must have one stepwise point."
  else
    do v <- at_key "Output" base;
    do outputs <- get_dbls v;
    if negb (Nat.eqb (List.length readings) (List.length outputs))
    then Throw "Outputs size must match readings"
    else Ok (Stepwise (D 1) (fill_table readings (sw_reading old)) (fill_table outputs (sw_output old))
               pos neg (String.eqb subtype "Ceiling")).

(** /repo/dbus/dbusconfiguration.cpp:1051-1264: one controller in one of its zones. *)
Definition step_in_zone (ce : config_env) (base : properties) (pidName : string)
    (st : reading) (zone : string) : outcome reading :=
  do r <- getZoneIndex zone (r_found st);
  let '(index, found) := r in
  let conf := match zget index (r_pids st) with Some c => c | None => [] end in
  do v <- at_key "Inputs" base;
  do sensorNames <- get_strs v;
  do acceptable <- opt_attr get_strs [] "MissingIsAcceptable" base;
  do asFailed <- opt_attr get_flag true "InputUnavailableAsFailed" base;
  do hostOff <- opt_attr get_flag false "IgnoreFailIfHostOff" base;
  do i <- step_inputs (ce_flags ce) (ce_regex ce) (ce_sensors ce) acceptable asFailed hostOff
            sensorNames (r_sensors st, []);
  let '(sensors, inputs) := i in
  match inputs with
  | [] => Ok (MkReading found sensors (zset index conf (r_pids st)) (r_zones st))
  | _ =>
      do acceptableNames <- step_acceptable (ce_flags ce) (ce_regex ce) (ce_sensors ce) acceptable;
      let info := info_of pidName conf in
      do margins <- opt_attr get_dbls [] "TempToMargin" base;
      do table <- read_table base (ci_stepwiseInfo info);
      Ok (MkReading found sensors
            (zset index
               (mset pidName
                  (MkInfo "stepwise" (spliceInputs inputs margins acceptableNames) (ci_setpoint info)
                     (ci_pidInfo info) table (ci_failSafePercent info)) conf)
               (r_pids st)) (r_zones st))
  end.
(** /repo/dbus/dbusconfiguration.cpp:1042-1265. *)
Definition read_stepwise_object (ce : config_env) (st : reading) (base : properties) : outcome reading :=
  do v <- at_key "Name" base;
  do name <- get_str v;
  do v <- at_key "Zones" base;
  do zones <- get_strs v;
  foldM (step_in_zone ce base (sensorNameToDbusName name)) zones st.

(** ** Everything *)

(** [if (found != end) step(found->second)].
    /repo/dbus/dbusconfiguration.cpp:660-662, 697-699, 1042-1044. *)
Definition on_interface (i : string) (o : object) (step : reading -> properties -> outcome reading)
    (st : reading) : outcome reading :=
  match mget i o with Some props => step st props | None => Ok st end.
(** /repo/dbus/dbusconfiguration.cpp:658-1266: one object. *)
Definition read_object (ce : config_env) (st : reading) (conf : string * object) : outcome reading :=
  do st <- on_interface zone_intf (snd conf) read_zone_details st;
  do st <- on_interface pid_intf (snd conf) (read_pid_object ce) st;
  on_interface stepwise_intf (snd conf) (read_stepwise_object ce) st.
(** /repo/dbus/dbusconfiguration.cpp:621-1266: all objects, after the selection
    by profile. *)
Definition read_objects (ce : config_env) (confs : smap object) : outcome reading :=
  do found <- foldM reserve_index confs [];
  foldM (read_object ce) confs (MkReading found [] [] []).

(** What the bus answers to [init]: the mapper, the object managers, the selected
    profiles ([None]: a call fails), thresholds.  [getSelectedProfiles] and the
    matches for signals are in ReloadModel.v.
    /repo/dbus/dbusconfiguration.cpp:110-177, 465-550. *)
Record config_bus : Type := ConfigBus {
  cb_subtree : option subtree;
  cb_managed : string -> string -> option (smap object);
  cb_profiles : option (list string);
  cb_thresholds : threshold_bus
}.

(** /repo/dbus/dbusconfiguration.cpp:454-1278, [init]: the returned value and the
    three maps. *)
Definition dbus_init (sf : sflags) (re : regex) (cb : config_bus) : outcome (bool * loaded) :=
  match cb_subtree cb with
  | None => Throw "ObjectMapper Call Failure"
  | Some [] => Throw "No configuration data available from Mapper"
  | Some resp =>
      let '(owners, sensors) := scan resp in
      do confs <- gather (cb_managed cb) owners;
      do selected <- match cb_profiles cb with Some l => Ok l | None => Throw "Failure getting profile" end;
      do confs <- apply_profiles selected confs;
      do st <- read_objects (ConfigEnv sf re (cb_thresholds cb) sensors) confs;
      Ok (match r_pids st, r_zones st with [], _ | _, [] => false | _, _ => true end,
          MkLoaded (r_sensors st) (r_pids st) (r_zones st))
  end.
