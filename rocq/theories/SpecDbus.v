(** * What a configuration on D-Bus is supposed to mean (C69-C72).

    Objects are described by the values of their properties, sensors by the
    paths and interfaces the mapper lists.  Nothing here refers to the model's
    loops. *)
From Coq Require Import ZArith Bool List String Ascii.
From Verif Require Import Base Dbl PidModel ZoneModel BuilderModel SensorModel WriteModel SpecWrite SystemModel SpecSystem
  JsonModel SpecJson ConfigModel DbusConfigModel.
From Verif Require SpecSensor.
Import ListNotations.
Local Open Scope string_scope.

(** ** Values of properties *)
Inductive number_value : variant -> dbl -> Prop :=
| NvU64 n : number_value (VU64 n) (D n)
| NvI64 n : number_value (VI64 n) (D n)
| NvDbl d : number_value (VDbl d) d
| NvBool b : number_value (VBool b) (D (if b then 1 else 0)).

Definition says_text (props : properties) (key s : string) : Prop := mget key props = Some (VStr s).
Definition says_texts (props : properties) (key : string) (l : list string) : Prop :=
  mget key props = Some (VStrs l).
Definition says_number (props : properties) (key : string) (d : dbl) : Prop :=
  exists v, mget key props = Some v /\ number_value v d.
(** Optional properties. *)
Definition number_or (default : dbl) (props : properties) (key : string) (d : dbl) : Prop :=
  match mget key props with None => d = default | Some v => number_value v d end.
Definition flag_or (default : bool) (props : properties) (key : string) (b : bool) : Prop :=
  match mget key props with None => b = default | Some v => v = VBool b end.
Definition texts_or_none (props : properties) (key : string) (l : list string) : Prop :=
  match mget key props with None => l = [] | Some v => v = VStrs l end.
Definition numbers_or_none (props : properties) (key : string) (l : list dbl) : Prop :=
  match mget key props with None => l = [] | Some v => v = VDbls l end.
(** A percentage loses its fraction; without one it is 0. *)
Definition percent_set (props : properties) (d : dbl) : Prop :=
  match mget "FailSafePercent" props with
  | None => d = d0
  | Some v => exists x n, number_value v x /\ dtrunc (- 2 ^ 31) (2 ^ 31 - 1) x = Some n /\ d = D n
  end.

(** ** Names *)
Definition underscored (s : string) : string :=
  string_of_list_ascii
    (map (fun c => if Ascii.eqb c " "%char then "_"%char else c) (list_ascii_of_string s)).
(** The last component of a path. *)
Definition called (path n : string) : Prop :=
  ~ contains "/" n /\ (path = n \/ exists a, path = a ++ "/" ++ n).

(** ** Sensors on the bus *)
Definition on_bus (resp : subtree) (path intf : string) : Prop :=
  exists services owner intfs, In (path, services) resp /\ In (owner, intfs) services /\ In intf intfs.
(** Something with a value; paths with "pwm" in them do not count. *)
Definition bus_sensor (resp : subtree) (path : string) : Prop :=
  on_bus resp path value_intf /\ ~ contains "pwm" path.
Definition bus_pwm (resp : subtree) (path : string) : Prop := on_bus resp path pwm_intf.

(** Where a configuration is read: options, regular expressions, what the mapper
    lists, thresholds.  [s_bus] are all sensors and PWMs in the order in which the
    search goes through them; the order is not specified. *)
Record setting : Type := Setting {
  s_flags : sflags;
  s_regex : regex;
  s_resp : subtree;
  s_bus : list string;
  s_thresholds : threshold_bus
}.
Definition searched (resp : subtree) (bus : list string) : Prop :=
  NoDup bus /\ forall path, In path bus <-> bus_sensor resp path \/ bus_pwm resp path.

(** [paths] are the objects that one name in a list of inputs or outputs stands
    for: those the regular expression for "/name" at the end of the path is found
    in. *)
Definition found (w : setting) (name : string) (paths : list string) : Prop :=
  exists p, s_regex w ("/" ++ underscored name ++ "$") = Ok p /\ paths = filter p (s_bus w).

(** ** Parts of the configuration, in the order in which they are read *)
Inductive part : Type :=
| PZone (props : properties)
| PPid (props : properties) (zone : string)
| PStep (props : properties) (zone : string).
Definition zones_listed (props : properties) : list string :=
  match mget "Zones" props with Some (VStrs l) => l | _ => [] end.
Definition parts_of (o : object) : list part :=
  (match mget zone_intf o with Some props => [PZone props] | None => [] end ++
   match mget pid_intf o with Some props => map (PPid props) (zones_listed props) | None => [] end ++
   match mget stepwise_intf o with Some props => map (PStep props) (zones_listed props) | None => [] end)%list.
Definition parts (objs : smap object) : list part := flat_map (fun e => parts_of (snd e)) objs.

(** ** Inputs *)

(** Inputs that stand for nothing: with the option to handle missing object
    paths they are kept under their own name, unless they may be missing. *)
Definition missing_names (sf : sflags) (acceptable names : list string) (ls : list (list string))
  : list string :=
  if HANDLE_MISSING_OBJECT_PATHS sf
  then map (fun e => underscored (fst e))
         (filter (fun e => match snd e with [] => negb (smem (fst e) acceptable) | _ => false end)
            (combine names ls))
  else [].

(** Fans and their PWMs: one PWM for all, or one each. *)
Definition paired (fans pwms : list string) (pairs : list (string * string)) : Prop :=
  (exists pwm, pwms = [pwm] /\ pairs = map (fun f => (f, pwm)) fans) \/
  (List.length pwms <> 1 /\ List.length fans = List.length pwms /\ pairs = combine fans pwms).
(** The sensor for a fan with its PWM. *)
Definition fan_name (e : string * string) (n : string) : Prop :=
  exists a b, called (fst e) a /\ called (snd e) b /\ n = a ++ b.

Definition thermal_class (c : string) : Prop := In c ["temp"; "margin"; "power"; "powersum"].

(** What Inputs and Outputs of a PID stand for: sensors not there, and pairs of a
    sensor and a PWM (no PWM for thermal PIDs). *)
Definition pid_sources (w : setting) (props : properties)
    (missing : list string) (sources : list (string * string)) : Prop :=
  exists class inputs acceptable ls,
    says_text props "Class" class /\ says_texts props "Inputs" inputs /\
    texts_or_none props "MissingIsAcceptable" acceptable /\
    Forall2 (found w) inputs ls /\ Forall (bus_sensor (s_resp w)) (List.concat ls) /\
    ((class = "fan" /\ missing = [] /\
      exists outputs os, says_texts props "Outputs" outputs /\ Forall2 (found w) outputs os /\
        paired (List.concat ls) (List.concat os) sources /\ Forall (fun e => bus_pwm (s_resp w) (snd e)) sources) \/
     (class <> "fan" /\ missing = missing_names (s_flags w) acceptable inputs ls /\
      ((thermal_class class /\ sources = map (fun p => (p, "")) (List.concat ls)) \/
       (~ thermal_class class /\ sources = [])))).
Definition source_name (class : string) (e : string * string) (n : string) : Prop :=
  if String.eqb class "fan" then fan_name e n else called (fst e) n.
(** The names of the inputs of a PID. *)
Definition pid_names (w : setting) (props : properties)
    (names : list string) : Prop :=
  exists class missing sources short,
    says_text props "Class" class /\ pid_sources w props missing sources /\
    Forall2 (source_name class) sources short /\ names = (missing ++ short)%list.

(** Stepwise: without the option to handle missing object paths, everything after
    the first name that stands for nothing is ignored. *)
Definition up_to_missing (w : setting) (names taken : list string)
    (ls : list (list string)) : Prop :=
  Forall2 (found w) taken ls /\
  if HANDLE_MISSING_OBJECT_PATHS (s_flags w) then taken = names
  else Forall (fun l => l <> []) ls /\
       (taken = names \/ exists n rest, names = (taken ++ n :: rest)%list /\ found w n []).
Definition step_sources (w : setting) (props : properties)
    (missing : list string) (sources : list (string * list string)) : Prop :=
  exists inputs acceptable taken ls,
    says_texts props "Inputs" inputs /\ texts_or_none props "MissingIsAcceptable" acceptable /\
    up_to_missing w inputs taken ls /\ sources = combine taken ls /\
    missing = missing_names (s_flags w) acceptable taken ls.
(** Their names, in order. *)
Definition step_name (sf : sflags) (acceptable : list string) (e : string * list string)
    (names : list string) : Prop :=
  match snd e with
  | [] => names = if HANDLE_MISSING_OBJECT_PATHS sf && negb (smem (fst e) acceptable)
                  then [underscored (fst e)] else []
  | _ => Forall2 called (snd e) names
  end.
Definition step_names (w : setting) (props : properties)
    (names : list string) : Prop :=
  exists missing sources acceptable nss,
    step_sources w props missing sources /\
    texts_or_none props "MissingIsAcceptable" acceptable /\
    Forall2 (step_name (s_flags w) acceptable) sources nss /\ names = List.concat nss.

(** The sensors that may be missing. *)
Definition pid_acceptable (w : setting) (props : properties) (names : list string) : Prop :=
  exists acceptable ls, texts_or_none props "MissingIsAcceptable" acceptable /\
    Forall2 (found w) acceptable ls /\ Forall (bus_sensor (s_resp w)) (List.concat ls) /\
    Forall2 called (List.concat ls) names.
Definition step_acceptable_names (w : setting) (props : properties)
    (names : list string) : Prop :=
  exists acceptable taken ls, texts_or_none props "MissingIsAcceptable" acceptable /\
    up_to_missing w acceptable taken ls /\ Forall2 called (List.concat ls) names.

(** Inputs with their marks: the k-th value of TempToMargin goes to the k-th. *)
Definition inputs_marked (names : list string) (margins : list dbl) (acceptable : list string)
    (l : list SensorInput) : Prop :=
  map si_name l = names /\
  forall k i, nth_error l k = Some i ->
    (si_missingIsAcceptable i = true <-> In (si_name i) acceptable) /\
    match nth_error margins k with
    | Some z => si_convertTempToMargin i = true /\ si_convertMarginZero i = z
    | None => si_convertTempToMargin i = false
    end.

(** ** Sensors *)

(** A sensor that a thermal PID or stepwise controller reads: class, path and
    options come from that controller. *)
Definition thermal_entry (w : setting) (ps : list part) (n : string)
    (c : SensorConfig) : Prop :=
  exists props zone missing path,
    ((In (PPid props zone) ps /\ says_text props "Class" (sc_type c) /\ sc_type c <> "fan" /\
      exists sources, pid_sources w props missing sources /\
        (In (path, "") sources /\ called path n \/
         In n missing /\ path = SpecSensor.usual_path (sc_type c) n)) \/
     (In (PStep props zone) ps /\ sc_type c = "temp" /\
      exists sources, step_sources w props missing sources /\
        ((exists name l, In (name, l) sources /\ In path l) /\ called path n \/
         In n missing /\ path = SpecSensor.usual_path (sc_type c) n))) /\
    sc_readPath c = path /\ sc_timeout c = 0%Z /\ sc_ignoreDbusMinMax c = true /\
    flag_or true props "InputUnavailableAsFailed" (sc_unavailableAsFailed c) /\
    flag_or false props "IgnoreFailIfHostOff" (sc_ignoreFailIfHostOff c).
(** A fan: it is read and written where the PID says, with PWM values from 0 to
    255.  The options have their defaults unless the name is also that of a
    thermal sensor. *)
Definition fan_entry (w : setting) (ps : list part) (n : string)
    (c : SensorConfig) : Prop :=
  exists props zone missing sources,
    In (PPid props zone) ps /\ says_text props "Class" "fan" /\ sc_type c = "fan" /\
    pid_sources w props missing sources /\
    In (sc_readPath c, sc_writePath c) sources /\ fan_name (sc_readPath c, sc_writePath c) n /\
    sc_min c = 0%Z /\ sc_max c = 255%Z /\ sc_timeout c = 0%Z /\
    ((sc_ignoreDbusMinMax c = false /\ sc_unavailableAsFailed c = false /\ sc_ignoreFailIfHostOff c = false) \/
     exists c', thermal_entry w ps n c').
Definition sensor_entry (w : setting) (ps : list part) (n : string)
    (c : SensorConfig) : Prop :=
  thermal_entry w ps n c \/ fan_entry w ps n c.

(** ** PIDs *)

(** Which entry of which zone a part writes. *)
Definition plain (props : properties) : Prop := mget "SetPointOffset" props = None.
Definition touches (w : setting) (number : string -> option Z)
    (i : Z) (n : string) (p : part) : Prop :=
  match p with
  | PZone _ => False
  | PPid props zone =>
      number zone = Some i /\
      exists name names, says_text props "Name" name /\ pid_names w props names /\ names <> [] /\
        (plain props /\ n = underscored name \/ ~ plain props /\ In n names)
  | PStep props zone =>
      number zone = Some i /\
      exists name names, says_text props "Name" name /\ step_names w props names /\ names <> [] /\
        n = underscored name
  end.

(** The threshold that is added to the setpoint: that of the first input; 0 if it
    has none. *)
Definition offset_read (tb : threshold_bus) (path property : string) (r : dbl) : Prop :=
  let intf := if String.eqb property "WarningHigh" || String.eqb property "WarningLow"
              then warning_intf else critical_intf in
  tb_owned tb intf path = true /\
  match tb_value tb intf path property with Some v => r = v | None => r = d0 end.
(** Everything but the inputs and the setpoint. *)
Definition pid_settings (props : properties) (info : ControllerInfo) : Prop :=
  let p := ci_pidInfo info in
  says_text props "Class" (ci_type info) /\
  percent_set props (ci_failSafePercent info) /\
  says_number props "PCoefficient" (proportionalCoeff p) /\
  says_number props "ICoefficient" (integralCoeff p) /\
  number_or d0 props "DCoefficient" (derivativeCoeff p) /\
  says_number props "FFOffCoefficient" (feedFwdOffset p) /\
  says_number props "FFGainCoefficient" (feedFwdGain p) /\
  says_number props "ILimitMin" (lim_min (integralLimit p)) /\
  says_number props "ILimitMax" (lim_max (integralLimit p)) /\
  says_number props "OutLimitMin" (lim_min (outLim p)) /\
  says_number props "OutLimitMax" (lim_max (outLim p)) /\
  says_number props "SlewNeg" (slewNeg p) /\ says_number props "SlewPos" (slewPos p) /\
  number_or d0 props "PositiveHysteresis" (positiveHysteresis p) /\
  number_or d0 props "NegativeHysteresis" (negativeHysteresis p) /\
  flag_or false props "CheckHysteresisWithSetpoint" (checkHysterWithSetpt p) /\
  ts p = D 1.
Definition own_setpoint (props : properties) (class : string) (s : dbl) : Prop :=
  if String.eqb class "fan" then s = d0 else says_number props "SetPoint" s.

(** A stepwise table: 1 to 20 points, ended by NaN. *)
Definition table_is (l : list dbl) (t : nat -> dbl) : Prop :=
  (forall k v, nth_error l k = Some v -> t k = v) /\
  (List.length l < 20 -> t (List.length l) = dnan).
Definition step_settings (props : properties) (info : ControllerInfo) : Prop :=
  let s := ci_stepwiseInfo info in
  ci_type info = "stepwise" /\
  (exists class, says_text props "Class" class /\ (sw_isCeiling s = true <-> class = "Ceiling")) /\
  number_or d0 props "PositiveHysteresis" (sw_positiveHysteresis s) /\
  number_or d0 props "NegativeHysteresis" (sw_negativeHysteresis s) /\
  sw_ts s = D 1 /\
  exists readings outputs,
    mget "Reading" props = Some (VDbls readings) /\ mget "Output" props = Some (VDbls outputs) /\
    1 <= List.length readings <= 20 /\ List.length outputs = List.length readings /\
    table_is readings (sw_reading s) /\ table_is outputs (sw_output s).

(** Entry [n] of zone [i] is the one the part [p] asks for; [before] are the parts
    read before it. *)
Definition entry_from (w : setting)
    (ps : list part) (number : string -> option Z) (i : Z) (n : string) (info : ControllerInfo)
    (before : list part) (p : part) : Prop :=
  match p with
  | PZone _ => False
  | PPid props zone =>
      number zone = Some i /\ pid_settings props info /\
      exists name names margins acceptable l,
        says_text props "Name" name /\ pid_names w props names /\ names <> [] /\
        numbers_or_none props "TempToMargin" margins /\ pid_acceptable w props acceptable /\
        inputs_marked names margins acceptable l /\
        match mget "SetPointOffset" props with
        | None =>
            n = underscored name /\ ci_inputs info = l /\ own_setpoint props (ci_type info) (ci_setpoint info)
        | Some v =>
            exists type s r first c input earlier,
              v = VStr type /\ In type ["CriticalLow"; "CriticalHigh"; "WarningLow"; "WarningHigh"] /\
              In input l /\ si_name input = n /\ ci_inputs info = (earlier ++ [input])%list /\
              (earlier <> [] -> Exists (touches w number i n) before \/ ~ NoDup names) /\
              hd_error (ci_inputs info) = Some first /\ sensor_entry w ps (si_name first) c /\
              offset_read (s_thresholds w) (sc_readPath c) type r /\ own_setpoint props (ci_type info) s /\
              ci_setpoint info = dadd s r
        end
  | PStep props zone =>
      number zone = Some i /\ step_settings props info /\
      (exists name, says_text props "Name" name /\ n = underscored name) /\
      (ci_failSafePercent info = d0 \/ Exists (touches w number i n) before) /\
      exists names margins acceptable,
        step_names w props names /\ names <> [] /\
        numbers_or_none props "TempToMargin" margins /\ step_acceptable_names w props acceptable /\
        inputs_marked names margins acceptable (ci_inputs info)
  end.

(** ** Zones *)
Definition cycle_time (props : properties) (key : string) (default value : Z) : Prop :=
  match mget key props with
  | None => value = default
  | Some v => exists d, number_value v d /\
      if dgeb d (D 1) then to_uint64 d = Some value else value = default
  end.
(** Settings of a zone; [old] is what an earlier zone of the same name set. *)
Definition zone_settings (props : properties) (old : option ZoneConfig) (c : ZoneConfig) : Prop :=
  says_number props "MinThermalOutput" (zc_minThermalOutput c) /\
  percent_set props (zc_failsafePercent c) /\
  cycle_time props "CycleIntervalTimeMS"
    (match old with Some o => zc_cycleIntervalTimeMS o | None => 100%Z end) (zc_cycleIntervalTimeMS c) /\
  cycle_time props "UpdateThermalsTimeMS"
    (match old with Some o => zc_updateThermalsTimeMS o | None => 1000%Z end) (zc_updateThermalsTimeMS c) /\
  flag_or false props "AccumulateSetPoint" (zc_accumulateSetPoint c).
Definition zone_part (number : string -> option Z) (i : Z) (p : part) : Prop :=
  match p with
  | PZone props => exists name, says_text props "Name" name /\ number name = Some i
  | _ => False
  end.

(** ** The whole *)
Record as_configured (w : setting) (ps : list part)
    (number : string -> option Z) (c : loaded) : Prop := AsConfigured {
  ac_order : in_order (l_sensors c) /\ in_order_z (l_pids c) /\ in_order_z (l_zones c) /\
    forall i pids, zget i (l_pids c) = Some pids -> in_order pids;
  (* sensors come from controllers, and the inputs of controllers are sensors *)
  ac_sensors : forall n info, mget n (l_sensors c) = Some info -> sensor_entry w ps n info;
  ac_inputs : forall i pids n info x, zget i (l_pids c) = Some pids -> mget n pids = Some info ->
    In x (ci_inputs info) -> exists s, mget (si_name x) (l_sensors c) = Some s;
  (* zones *)
  ac_zone_known : forall props name, In (PZone props) ps -> says_text props "Name" name ->
    exists i zc, number name = Some i /\ zget i (l_zones c) = Some zc;
  ac_zones : forall i zc, zget i (l_zones c) = Some zc ->
    exists before props after old, ps = (before ++ PZone props :: after)%list /\
      zone_part number i (PZone props) /\ ~ Exists (zone_part number i) after /\
      zone_settings props old zc /\ (old <> None -> Exists (zone_part number i) before);
  (* controllers *)
  ac_numbered : forall props zone, In (PPid props zone) ps \/ In (PStep props zone) ps -> number zone <> None;
  ac_pid_zones : forall i, (exists pids, zget i (l_pids c) = Some pids) <->
    exists props zone, (In (PPid props zone) ps \/ In (PStep props zone) ps) /\ number zone = Some i;
  ac_all_read : forall i n p, In p ps -> touches w number i n p ->
    exists pids info, zget i (l_pids c) = Some pids /\ mget n pids = Some info;
  ac_pids : forall i pids n info, zget i (l_pids c) = Some pids -> mget n pids = Some info ->
    exists before p after, ps = (before ++ p :: after)%list /\
      entry_from w ps number i n info before p /\
      ~ Exists (touches w number i n) after
}.

(** ** Zone numbers *)
Definition one_to_one (number : string -> option Z) : Prop :=
  forall a b i, number a = Some i -> number b = Some i -> a = b.
(** The numbers asked for, as whole numbers. *)
Definition requests (objs : smap object) : list (string * Z) :=
  flat_map (fun e =>
    match mget zone_intf (snd e) with
    | None => []
    | Some props =>
        match mget "Name" props, mget "ZoneIndex" props with
        | Some (VStr name), Some (VDbl d) =>
            match to_int64 d with Some i => [(name, i)] | None => [] end
        | _, _ => []
        end
    end) objs.
(** Numbers asked for by one zone only are granted if nobody has to give way. *)
Definition requests_granted (objs : smap object) (number : string -> option Z) : Prop :=
  NoDup (map fst (requests objs)) -> NoDup (map snd (requests objs)) ->
  forall name i, In (name, i) (requests objs) -> number name = Some i.

(** ** Which objects are read *)
Definition config_intf (i : string) : Prop := i = pid_intf \/ i = zone_intf \/ i = stepwise_intf.
Definition has_config (resp : subtree) (owner : string) : Prop :=
  exists path services intfs i, In (path, services) resp /\ In (owner, intfs) services /\ In i intfs /\
    config_intf i.
Definition manager_at (resp : subtree) (owner path : string) : Prop :=
  exists services intfs, In (path, services) resp /\ In (owner, intfs) services /\ In manager_intf intfs.
(** The object manager of each service; a service with several uses one of them. *)
Definition managers (resp : subtree) (mgr : string -> string) : Prop :=
  forall owner, manager_at resp owner (mgr owner) \/
    ((forall path, ~ manager_at resp owner path) /\ mgr owner = "").
Definition offered (cb : config_bus) (resp : subtree) (mgr : string -> string) (path : string)
    (o : object) : Prop :=
  exists owner objs, has_config resp owner /\ cb_managed cb owner (mgr owner) = Some objs /\
    In (path, o) objs /\ exists i props, In (i, props) o /\ config_intf i.
(** An interface is left out if it lists profiles and none of them is selected.
    If no profile is selected at all, nothing is left out. *)
Definition in_profile (selected : list string) (props : properties) : Prop :=
  selected = [] \/ mget "Profiles" props = None \/ mget "Profiles" props = Some (VStrs []) \/
  exists l p, mget "Profiles" props = Some (VStrs l) /\ In p l /\ In p selected.
Inductive only_selected (selected : list string) : object -> object -> Prop :=
| OsNil : only_selected selected [] []
| OsKeep i props o o' : in_profile selected props -> only_selected selected o o' ->
    only_selected selected ((i, props) :: o) ((i, props) :: o')
| OsDrop i props o o' : ~ in_profile selected props -> only_selected selected o o' ->
    only_selected selected ((i, props) :: o) o'.
(** Every object that is read was offered; of every path that is offered one
    object is read, unless all its interfaces are left out.  All services answered. *)
Definition reads (cb : config_bus) (resp : subtree) (objs : smap object) : Prop :=
  exists selected mgr, cb_profiles cb = Some selected /\ managers resp mgr /\ NoDup (map fst objs) /\
    (forall owner, has_config resp owner -> cb_managed cb owner (mgr owner) <> None) /\
    (forall path o, In (path, o) objs ->
       exists o', offered cb resp mgr path o' /\ only_selected selected o' o) /\
    (forall path o, offered cb resp mgr path o ->
       exists o1 o2, offered cb resp mgr path o1 /\ only_selected selected o1 o2 /\
         (o2 = [] \/ In (path, o2) objs)).

(** ** Complete configurations *)
Definition flag_ok (props : properties) (key : string) : Prop := forall d, exists b, flag_or d props key b.
Definition percent_ok (props : properties) : Prop := exists d, percent_set props d.
Definition time_ok (props : properties) (key : string) : Prop :=
  forall default, exists value, cycle_time props key default value.
(** Numbers asked for are whole numbers far from the largest one. *)
Definition index_ok (props : properties) : Prop :=
  forall d, mget "ZoneIndex" props = Some (VDbl d) -> exists i, to_int64 d = Some i /\ (i <= 2 ^ 62)%Z.
Definition zone_complete (props : properties) : Prop :=
  (exists name, says_text props "Name" name) /\ index_ok props /\
  (exists m, says_number props "MinThermalOutput" m) /\ percent_ok props /\
  time_ok props "CycleIntervalTimeMS" /\ time_ok props "UpdateThermalsTimeMS" /\
  flag_ok props "AccumulateSetPoint".
(** What PIDs and stepwise controllers share. *)
Definition controller_complete (props : properties) : Prop :=
  (exists name, says_text props "Name" name) /\ (exists zones, says_texts props "Zones" zones) /\
  (exists class, says_text props "Class" class) /\
  flag_ok props "InputUnavailableAsFailed" /\ flag_ok props "IgnoreFailIfHostOff" /\
  exists margins, numbers_or_none props "TempToMargin" margins.
(** With an offset, every sensor of the configuration has such a threshold. *)
Definition offset_ok (w : setting) (ps : list part) (props : properties) : Prop :=
  plain props \/
  exists type, says_text props "SetPointOffset" type /\
    In type ["CriticalLow"; "CriticalHigh"; "WarningLow"; "WarningHigh"] /\
    forall n c, sensor_entry w ps n c -> exists r, offset_read (s_thresholds w) (sc_readPath c) type r.
Definition pid_complete (w : setting) (ps : list part) (props : properties) : Prop :=
  controller_complete props /\
  (exists missing sources, pid_sources w props missing sources) /\
  (exists names, pid_acceptable w props names) /\
  (exists info, pid_settings props info /\ exists s, own_setpoint props (ci_type info) s) /\
  offset_ok w ps props.
Definition step_complete (w : setting) (props : properties) : Prop :=
  controller_complete props /\
  (exists missing sources, step_sources w props missing sources) /\
  (exists names, step_acceptable_names w props names) /\
  exists info, step_settings props info.
Definition object_complete (w : setting) (ps : list part) (o : object) : Prop :=
  (forall props, mget zone_intf o = Some props -> zone_complete props) /\
  (forall props, mget pid_intf o = Some props -> pid_complete w ps props) /\
  (forall props, mget stepwise_intf o = Some props -> step_complete w props).

(** Every question is answered, and what is read is complete, whatever the order
    in which sensors are searched and objects are visited. *)
Definition complete (sf : sflags) (re : regex) (cb : config_bus) : Prop :=
  exists resp selected, cb_subtree cb = Some resp /\ resp <> [] /\ cb_profiles cb = Some selected /\
  (forall path, ~ (bus_sensor resp path /\ bus_pwm resp path)) /\
  (forall mgr owner, managers resp mgr -> has_config resp owner -> cb_managed cb owner (mgr owner) <> None) /\
  (forall mgr path o i props v, selected <> [] -> managers resp mgr -> offered cb resp mgr path o -> In (i, props) o ->
     mget "Profiles" props = Some v -> exists l, v = VStrs l) /\
  forall bus objs, searched resp bus -> reads cb resp objs ->
    (Z.of_nat (List.length objs + List.length (parts objs)) <= 2 ^ 62)%Z /\
    forall path o, In (path, o) objs ->
      object_complete (Setting sf re resp bus (cb_thresholds cb)) (parts objs) o.

(** ** Numbers that can be converted *)
Definition percent_fits (props : properties) : Prop :=
  forall v d, mget "FailSafePercent" props = Some v -> number_value v d ->
    exists n, dtrunc (- 2 ^ 31) (2 ^ 31 - 1) d = Some n.
Definition time_fits (props : properties) (key : string) : Prop :=
  forall v d, mget key props = Some v -> number_value v d -> dgeb d (D 1) = true -> exists n, to_uint64 d = Some n.
(** Numbers fit where they are converted; nothing else is said about what is
    configured. *)
Definition in_range (cb : config_bus) : Prop :=
  forall resp objs, cb_subtree cb = Some resp -> reads cb resp objs ->
    (Z.of_nat (List.length objs + List.length (parts objs)) <= 2 ^ 62)%Z /\
    forall path o props, In (path, o) objs ->
      (mget zone_intf o = Some props ->
         percent_fits props /\ time_fits props "CycleIntervalTimeMS" /\ time_fits props "UpdateThermalsTimeMS" /\
         index_ok props) /\
      (mget pid_intf o = Some props -> percent_fits props).
