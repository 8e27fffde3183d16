(** * Sensors: passive D-Bus sensors, redundancy, host state, host sensors.

    Sources: dbus/dbuspassive.{hpp,cpp}, dbus/dbushelper.{hpp,cpp},
    dbus/dbusutil.{hpp,cpp}, dbus/dbuspassiveredundancy.cpp,
    hoststatemonitor.hpp, sensors/{sensor.hpp,host.cpp,pluggable.cpp}. *)
From Coq Require Import ZArith Bool List String Ascii.
From Verif Require Import Base Dbl PidModel ZoneModel.
Import ListNotations.
Local Open Scope string_scope.
Local Open Scope outcome_scope.

(** Build options of meson.options that reach sensors:
    handle-missing-object-paths and unc-failsafe. /repo/meson.options:26-37. *)
Record sflags : Type := SFlags {
  HANDLE_MISSING_OBJECT_PATHS : bool;
  UNC_FAILSAFE : bool
}.

(** ** D-Bus values *)

(** /repo/dbus/dbushelper.cpp:31, [std::variant<int64_t, double, std::string,
    bool>].  Signals use [std::variant<int64_t, double, bool>]
    (dbuspassive.cpp:418); the string alternative simply never occurs there. *)
Inductive dvalue : Type :=
| VInt (z : Z) | VDbl (d : dbl) | VStr (s : string) | VBool (b : bool).

(** /repo/dbus/dbusutil.hpp:15-30, [VariantToDoubleVisitor]. *)
Definition to_double (v : dvalue) : outcome dbl :=
  match v with
  | VInt z => Ok (D z)
  | VDbl d => Ok d
  | VBool b => Ok (if b then D 1 else d0)
  | VStr _ => Throw "Cannot translate type to double"
  end.

(** [std::get<bool>] and [std::get<int64_t>] on a variant.
    [std::get<bool>] in /repo/dbus/dbuspassive.cpp:448-502 and /repo/dbus/dbushelper.cpp:178-209. *)
Definition get_bool (v : dvalue) : outcome bool :=
  match v with VBool b => Ok b | _ => Throw "bad_variant_access" end.
(** [std::get<int64_t>] in /repo/dbus/dbushelper.cpp:118. *)
Definition get_int (v : dvalue) : outcome Z :=
  match v with VInt z => Ok z | _ => Throw "bad_variant_access" end.

(** Interface names (generated headers of phosphor-dbus-interfaces).
    /repo/dbus/dbuspassive.cpp:422. *)
Definition value_intf : string := "xyz.openbmc_project.Sensor.Value".
(** /repo/dbus/dbuspassive.cpp:433. *)
Definition critical_intf : string := "xyz.openbmc_project.Sensor.Threshold.Critical".
(** /repo/dbus/dbuspassive.cpp:459. *)
Definition warning_intf : string := "xyz.openbmc_project.Sensor.Threshold.Warning".
(** /repo/dbus/dbuspassive.cpp:475. *)
Definition available_intf : string := "xyz.openbmc_project.State.Decorator.Availability".
(** /repo/dbus/dbuspassive.cpp:494. *)
Definition functional_intf : string := "xyz.openbmc_project.State.Decorator.OperationalStatus".

(** ** Type helpers *)

(** /repo/dbus/dbusutil.cpp:113-142, [getSensorPath]. *)
Definition getSensorPath (type id : string) : string :=
  let layer :=
    if String.eqb type "fan" then "fan_tach"
    else if String.eqb type "temp" then "temperature"
    else if String.eqb type "margin" then "temperature"
    else if String.eqb type "power" then "power"
    else if String.eqb type "powersum" then "power"
    else "unknown" in
  "/xyz/openbmc_project/sensors/" ++ layer ++ "/" ++ id.

(** /repo/dbus/dbusutil.cpp:150-155, [validType]. *)
Definition validType (type : string) : bool :=
  smem type ["fan"; "temp"; "margin"; "power"; "powersum"].

(** /repo/dbus/dbusutil.cpp:157-165, [scaleSensorReading]. *)
Definition scaleSensorReading (min max value : dbl) : dbl :=
  if dleb max d0 || dleb max min then value
  else ddiv (dsub value min) (dsub max min).

(** ** DbusPassive *)

(** /repo/dbus/dbuspassive.hpp:71-97, the members of [DbusPassive] that can be
    observed.  [_updated] is in nanoseconds.  Simplified: the mutex is left out, all
    accesses come from the single io_context thread. *)
Record passive : Type := MkPassive {
  p_id : string;
  p_path : string;
  p_objectMissing : bool;
  p_typeMargin : bool;
  p_typeFan : bool;
  p_scale : Z;
  p_value : dbl;
  p_unscaled : dbl;
  p_updated : Z;
  p_max : dbl;
  p_min : dbl;
  p_failed : bool;
  p_functional : bool;
  p_available : bool;
  p_availableOverridden : bool;
  p_unavailableAsFailed : bool;
  p_badReading : bool;
  p_marginHot : bool
}.

(** Assignment to the member of /repo/dbus/dbuspassive.hpp:78. *)
Definition pset_value (v : dbl) (s : passive) : passive :=
  MkPassive
    (p_id s) (p_path s) (p_objectMissing s) (p_typeMargin s) (p_typeFan s) (p_scale s) v
    (p_unscaled s) (p_updated s) (p_max s) (p_min s) (p_failed s) (p_functional s)
    (p_available s) (p_availableOverridden s) (p_unavailableAsFailed s) (p_badReading s)
    (p_marginHot s).
(** Assignment to the member of /repo/dbus/dbuspassive.hpp:79. *)
Definition pset_unscaled (v : dbl) (s : passive) : passive :=
  MkPassive
    (p_id s) (p_path s) (p_objectMissing s) (p_typeMargin s) (p_typeFan s) (p_scale s)
    (p_value s) v (p_updated s) (p_max s) (p_min s) (p_failed s) (p_functional s)
    (p_available s) (p_availableOverridden s) (p_unavailableAsFailed s) (p_badReading s)
    (p_marginHot s).
(** Assignment to the member of /repo/dbus/dbuspassive.hpp:97. *)
Definition pset_updated (v : Z) (s : passive) : passive :=
  MkPassive
    (p_id s) (p_path s) (p_objectMissing s) (p_typeMargin s) (p_typeFan s) (p_scale s)
    (p_value s) (p_unscaled s) v (p_max s) (p_min s) (p_failed s) (p_functional s)
    (p_available s) (p_availableOverridden s) (p_unavailableAsFailed s) (p_badReading s)
    (p_marginHot s).
(** Assignment to the member of /repo/dbus/dbuspassive.hpp:80. *)
Definition pset_max (v : dbl) (s : passive) : passive :=
  MkPassive
    (p_id s) (p_path s) (p_objectMissing s) (p_typeMargin s) (p_typeFan s) (p_scale s)
    (p_value s) (p_unscaled s) (p_updated s) v (p_min s) (p_failed s) (p_functional s)
    (p_available s) (p_availableOverridden s) (p_unavailableAsFailed s) (p_badReading s)
    (p_marginHot s).
(** Assignment to the member of /repo/dbus/dbuspassive.hpp:81. *)
Definition pset_min (v : dbl) (s : passive) : passive :=
  MkPassive
    (p_id s) (p_path s) (p_objectMissing s) (p_typeMargin s) (p_typeFan s) (p_scale s)
    (p_value s) (p_unscaled s) (p_updated s) (p_max s) v (p_failed s) (p_functional s)
    (p_available s) (p_availableOverridden s) (p_unavailableAsFailed s) (p_badReading s)
    (p_marginHot s).
(** Assignment to the member of /repo/dbus/dbuspassive.hpp:73. *)
Definition pset_scale (v : Z) (s : passive) : passive :=
  MkPassive
    (p_id s) (p_path s) (p_objectMissing s) (p_typeMargin s) (p_typeFan s) v (p_value s)
    (p_unscaled s) (p_updated s) (p_max s) (p_min s) (p_failed s) (p_functional s)
    (p_available s) (p_availableOverridden s) (p_unavailableAsFailed s) (p_badReading s)
    (p_marginHot s).
(** Assignment to the member of /repo/dbus/dbuspassive.hpp:82. *)
Definition pset_failed (v : bool) (s : passive) : passive :=
  MkPassive
    (p_id s) (p_path s) (p_objectMissing s) (p_typeMargin s) (p_typeFan s) (p_scale s)
    (p_value s) (p_unscaled s) (p_updated s) (p_max s) (p_min s) v (p_functional s)
    (p_available s) (p_availableOverridden s) (p_unavailableAsFailed s) (p_badReading s)
    (p_marginHot s).
(** Assignment to the member of /repo/dbus/dbuspassive.hpp:83. *)
Definition pset_functional (v : bool) (s : passive) : passive :=
  MkPassive
    (p_id s) (p_path s) (p_objectMissing s) (p_typeMargin s) (p_typeFan s) (p_scale s)
    (p_value s) (p_unscaled s) (p_updated s) (p_max s) (p_min s) (p_failed s) v
    (p_available s) (p_availableOverridden s) (p_unavailableAsFailed s) (p_badReading s)
    (p_marginHot s).
(** Assignment to the member of /repo/dbus/dbuspassive.hpp:84. *)
Definition pset_available (v : bool) (s : passive) : passive :=
  MkPassive
    (p_id s) (p_path s) (p_objectMissing s) (p_typeMargin s) (p_typeFan s) (p_scale s)
    (p_value s) (p_unscaled s) (p_updated s) (p_max s) (p_min s) (p_failed s)
    (p_functional s) v (p_availableOverridden s) (p_unavailableAsFailed s) (p_badReading
    s) (p_marginHot s).
(** Assignment to the member of /repo/dbus/dbuspassive.hpp:85. *)
Definition pset_availableOverridden (v : bool) (s : passive) : passive :=
  MkPassive
    (p_id s) (p_path s) (p_objectMissing s) (p_typeMargin s) (p_typeFan s) (p_scale s)
    (p_value s) (p_unscaled s) (p_updated s) (p_max s) (p_min s) (p_failed s)
    (p_functional s) (p_available s) v (p_unavailableAsFailed s) (p_badReading s)
    (p_marginHot s).
(** Assignment to the member of /repo/dbus/dbuspassive.hpp:86. *)
Definition pset_unavailableAsFailed (v : bool) (s : passive) : passive :=
  MkPassive
    (p_id s) (p_path s) (p_objectMissing s) (p_typeMargin s) (p_typeFan s) (p_scale s)
    (p_value s) (p_unscaled s) (p_updated s) (p_max s) (p_min s) (p_failed s)
    (p_functional s) (p_available s) (p_availableOverridden s) v (p_badReading s)
    (p_marginHot s).
(** Assignment to the member of /repo/dbus/dbuspassive.hpp:90. *)
Definition pset_badReading (v : bool) (s : passive) : passive :=
  MkPassive
    (p_id s) (p_path s) (p_objectMissing s) (p_typeMargin s) (p_typeFan s) (p_scale s)
    (p_value s) (p_unscaled s) (p_updated s) (p_max s) (p_min s) (p_failed s)
    (p_functional s) (p_available s) (p_availableOverridden s) (p_unavailableAsFailed s) v
    (p_marginHot s).
(** Assignment to the member of /repo/dbus/dbuspassive.hpp:91. *)
Definition pset_marginHot (v : bool) (s : passive) : passive :=
  MkPassive
    (p_id s) (p_path s) (p_objectMissing s) (p_typeMargin s) (p_typeFan s) (p_scale s)
    (p_value s) (p_unscaled s) (p_updated s) (p_max s) (p_min s) (p_failed s)
    (p_functional s) (p_available s) (p_availableOverridden s) (p_unavailableAsFailed s)
    (p_badReading s) v.

(** /repo/dbus/dbushelper_interface.hpp:9-18, [struct SensorProperties]
    (the unit is only stored, never used; simplified: it is left out). *)
Record SensorProperties : Type := MkProps {
  sp_scale : Z;
  sp_value : dbl;
  sp_min : dbl;
  sp_max : dbl;
  sp_available : bool;
  sp_unavailableAsFailed : bool
}.

(** /repo/dbus/dbuspassive.cpp:155-168, constructor, with the member
    initialisers of dbuspassive.hpp.  [_scale] has no initialiser; it is set by
    [initFromSettings] before any use, 0 stands for it until then. *)
Definition passive_new (type id : string) (objectMissing : bool) (path : string) : passive :=
  MkPassive id path objectMissing (String.eqb type "margin") (String.eqb type "fan")
    0 d0 d0 0 d0 d0 false true true false true false false.

(** /repo/dbus/dbuspassive.cpp:179-186, [setValue(value, unscaled)]. *)
Definition setValue (now : Z) (value unscaled : dbl) (s : passive) : passive :=
  pset_updated now (pset_unscaled unscaled (pset_value value s)).

(** /repo/dbus/dbuspassive.cpp:369-413, [updateValue].  [std::pow(10.0, n)] is
    the parameter [pow10]: nothing is assumed about it. *)
Definition updateValue (pow10 : Z -> dbl) (now : Z) (value : dbl) (force : bool) (s : passive)
  : passive :=
  let s := pset_badReading false s in
  let bad := negb (disfinite value) in
  let s := if bad then pset_badReading true s else s in
  if bad && negb force then s
  else
    let value := dmul value (pow10 (p_scale s)) in
    let unscaled := value in
    let value := scaleSensorReading (p_min s) (p_max s) value in
    let s := if p_typeMargin s then pset_marginHot (dleb unscaled d0) s else s in
    setValue now value unscaled s.

(** /repo/dbus/dbuspassive.cpp:311-325, [setFailed], [setFunctional],
    [setAvailable]. *)
Definition setFailed (v : bool) (s : passive) : passive := pset_failed v s.
(** /repo/dbus/dbuspassive.cpp:316-319. *)
Definition setFunctional (v : bool) (s : passive) : passive := pset_functional v s.
(** /repo/dbus/dbuspassive.cpp:322-325. *)
Definition setAvailable (v : bool) (s : passive) : passive :=
  pset_availableOverridden true (pset_available v s).

(** /repo/dbus/dbuspassive.cpp:341-347, [setAvailableFromProperty]. *)
Definition setAvailableFromProperty (v : bool) (s : passive) : passive :=
  if p_availableOverridden s then s else pset_available v s.

(** /repo/dbus/dbuspassive.cpp:327-339, [initFromSettings]. *)
Definition initFromSettings (pow10 : Z -> dbl) (now : Z) (settings : SensorProperties)
    (failed : bool) (s : passive) : passive :=
  let s := pset_failed failed s in
  let s := pset_scale (sp_scale settings) s in
  let s := pset_min (dmul (sp_min settings) (pow10 (sp_scale settings))) s in
  let s := pset_max (dmul (sp_max settings) (pow10 (sp_scale settings))) s in
  let s := pset_unavailableAsFailed (sp_unavailableAsFailed settings) s in
  let s := setAvailableFromProperty (sp_available settings) s in
  updateValue pow10 now (sp_value settings) true s.

(** A PropertiesChanged signal after [msg.read]: interface, changed properties
    and the time at which the handler runs. /repo/dbus/dbuspassive.cpp:417-420. *)
Record sensor_msg : Type := Msg {
  m_intf : string;
  m_props : smap dvalue;
  m_now : Z
}.

(** /repo/dbus/dbuspassive.cpp:415-507, [handleSensorValue].  [Throw] is the
    [std::bad_variant_access] of [std::get<bool>]; the state is then that
    before the message (nothing is assigned before the throw). *)
Definition handleSensorValue (sf : sflags) (pow10 : Z -> dbl) (s : passive) (m : sensor_msg)
  : outcome passive :=
  if String.eqb (m_intf m) value_intf
  then match mget "Value" (m_props m) with
       | None => Ok s
       | Some v => do value <- to_double v; Ok (updateValue pow10 (m_now m) value false s)
       end
  else if String.eqb (m_intf m) critical_intf
  then
    let low := mget "CriticalAlarmLow" (m_props m) in
    let high := mget "CriticalAlarmHigh" (m_props m) in
    match low, high with
    | None, None => Ok s
    | _, _ =>
        do asserted <- match low with Some v => get_bool v | None => Ok false end;
        do asserted <- (if asserted then Ok true
                        else match high with Some v => get_bool v | None => Ok false end);
        Ok (setFailed asserted s)
    end
  else if UNC_FAILSAFE sf && String.eqb (m_intf m) warning_intf
  then match mget "WarningAlarmHigh" (m_props m) with
       | None => Ok s
       | Some v => do asserted <- get_bool v; Ok (setFailed asserted s)
       end
  else if String.eqb (m_intf m) available_intf
  then match mget "Available" (m_props m) with
       | None => Ok s
       | Some v =>
           do asserted <- get_bool v;
           let s := setAvailable asserted s in
           Ok (if asserted then s else updateValue pow10 (m_now m) dnan true s)
       end
  else if String.eqb (m_intf m) functional_intf
  then match mget "Functional" (m_props m) with
       | None => Ok s
       | Some v => do asserted <- get_bool v; Ok (setFunctional asserted s)
       end
  else Ok s.

(** /repo/dbus/dbuspassive.cpp:194-280, [getFailed].  [redundancy] is the set
    of failed paths, [None] when the sensor has no redundancy object.  Besides
    the answer the call may pass a line to the failsafe logger: (state,
    reason). *)
Definition passive_getFailed (redundancy : option (list string)) (s : passive)
  : bool * option (bool * string) :=
  if match redundancy with Some failures => smem (p_path s) failures | None => false end
  then (true, Some (true, "The sensor path is marked redundant."))
  else if p_objectMissing s
  then (true, Some (true, "The sensor D-Bus object is missing."))
  else if negb (p_typeFan s) && negb (p_available s) && negb (p_unavailableAsFailed s)
  then (false, None)
  else if p_badReading s
  then (true, Some (true, "The sensor has bad readings."))
  else if p_marginHot s
  then (true, Some (true, "The sensor has no thermal margin left."))
  else if p_failed s
  then (true, Some (true, "The sensor has failed with a critical issue."))
  else if negb (p_available s)
  then (true, Some (true, "The sensor is unavailable."))
  else if negb (p_functional s)
  then (true, Some (true, "The sensor is not functional."))
  else (false, Some (false, "The sensor has recovered.")).

(** /repo/dbus/dbuspassive.cpp:282-309, [getFailReason]. *)
Definition passive_getFailReason (s : passive) : string :=
  if p_objectMissing s then "Sensor D-Bus object missing"
  else if p_badReading s then "Sensor reading bad"
  else if p_marginHot s then "Margin hot"
  else if p_failed s then "Sensor threshold asserted"
  else if negb (p_available s) then "Sensor unavailable"
  else if negb (p_functional s) then "Sensor not functional"
  else "Unknown".

(** /repo/interfaces.hpp:11-22, [struct ReadReturn]. *)
Record ReadReturn : Type := MkRead { rr_value : dbl; rr_updated : Z; rr_unscaled : dbl }.

(** /repo/dbus/dbuspassive.cpp:170-177, [read]. *)
Definition passive_read (s : passive) : ReadReturn :=
  MkRead (p_value s) (p_updated s) (p_unscaled s).

(** ** DbusHelper and sensor creation *)

(** What the bus answers during creation.  [None] = [sdbusplus::exception_t].
    /repo/dbus/dbushelper_interface.hpp:20-53, as called from /repo/dbus/dbuspassive.cpp:85-153. *)
Record bus_replies : Type := Replies {
  br_service : option (list string);   (* ObjectMapper GetObject: owners of the path *)
  br_value : option (smap dvalue);     (* GetAll Sensor.Value *)
  br_available : option dvalue;        (* Get Availability.Available *)
  br_critical : option (smap dvalue);  (* GetAll Threshold.Critical *)
  br_warning : option (smap dvalue)    (* GetAll Threshold.Warning *)
}.

(** /repo/dbus/dbushelper.cpp:39-70, [DbusHelper::getService]. *)
Definition getService (b : bus_replies) : outcome string :=
  match br_service b with
  | None => Throw "ObjectMapper call failure"
  | Some [] => Throw "Unable to find Object"
  | Some (s :: _) => Ok s
  end.

(** /repo/dbus/dbushelper.cpp:72-146, [DbusHelper::getProperties].  A missing
    Value property is default-constructed by [propMap[...]]: int64_t 0.  A
    non-string Unit or a non-int64 Scale throws [std::bad_variant_access]; a
    non-boolean Available does too (dbushelper.hpp:61-74: the variant has a
    single alternative, so reading another type leaves its default [false]). *)
Definition getProperties (b : bus_replies) : outcome SensorProperties :=
  match br_value b with
  | None => Throw "GetAll Properties Failed"
  | Some m =>
      do _ <- match mget "Unit" m with
              | None | Some (VStr _) => Ok tt
              | Some _ => Throw "bad_variant_access" end;
      do scale <- match mget "Scale" m with Some v => get_int v | None => Ok 0%Z end;
      do max <- match mget "MaxValue" m with Some v => to_double v | None => Ok d0 end;
      do min <- match mget "MinValue" m with Some v => to_double v | None => Ok d0 end;
      do value <- match mget "Value" m with Some v => to_double v | None => Ok d0 end;
      let available :=
        match br_available b with
        | None => true
        | Some (VBool a) => a
        | Some _ => false
        end in
      Ok (MkProps scale value min max available false)
  end.

(** /repo/dbus/dbushelper.cpp:148-213, [DbusHelper::thresholdsAsserted]. *)
Definition thresholdsAsserted (sf : sflags) (b : bus_replies) : outcome bool :=
  match br_critical b with
  | None =>
      if negb (UNC_FAILSAFE sf) then Ok false
      else match br_warning b with
           | None => Ok false
           | Some w => match mget "WarningAlarmHigh" w with
                       | Some v => get_bool v
                       | None => Ok false
                       end
           end
  | Some c =>
      do asserted <- match mget "CriticalAlarmLow" c with
                     | Some v => get_bool v | None => Ok false end;
      do asserted <- (if asserted then Ok true
                      else match mget "CriticalAlarmHigh" c with
                           | Some v => get_bool v | None => Ok false end);
      if UNC_FAILSAFE sf && negb asserted
      then match br_warning b with
           | None => Ok false
           | Some w => match mget "WarningAlarmHigh" w with
                       | Some v => get_bool v
                       | None => Ok false
                       end
           end
      else Ok asserted
  end.

(** /repo/conf.hpp:21-35, [struct SensorConfig]. *)
Record SensorConfig : Type := MkSensorConfig {
  sc_type : string;
  sc_readPath : string;
  sc_writePath : string;
  sc_min : Z;
  sc_max : Z;
  sc_timeout : Z;
  sc_ignoreDbusMinMax : bool;
  sc_unavailableAsFailed : bool;
  sc_ignoreFailIfHostOff : bool
}.

(** /repo/dbus/dbuspassive.cpp:54-153, [createDbusPassive]; [None] is
    [nullptr].  The helper is never null here (sensors/builder.cpp:75,82). *)
Definition createDbusPassive (sf : sflags) (pow10 : Z -> dbl) (now : Z) (type id : string)
    (b : bus_replies) (info : SensorConfig) : option passive :=
  if negb (validType type) then None
  else
    let path := if String.eqb (sc_readPath info) "" then getSensorPath type id
                else sc_readPath info in
    match getService b with
    | Ok service =>
        let s := passive_new type id false path in
        match getProperties b with
        | Ok settings =>
            match thresholdsAsserted sf b with
            | Ok failed =>
                let '(mn, mx) := if sc_ignoreDbusMinMax info then (d0, d0)
                                 else (sp_min settings, sp_max settings) in
                Some (initFromSettings pow10 now
                        (MkProps (sp_scale settings) (sp_value settings) mn mx
                           (sp_available settings) (sc_unavailableAsFailed info)) failed s)
            | _ => None
            end
        | _ => None
        end
    | _ =>
        if negb (HANDLE_MISSING_OBJECT_PATHS sf) then None
        else Some (initFromSettings pow10 now (MkProps 0 dnan d0 d0 false true) true
                     (passive_new type id true path))
    end.

(** Any number of signals, in order. Calls of /repo/dbus/dbuspassive.cpp:415-510. *)
Definition passive_run (sf : sflags) (pow10 : Z -> dbl) (s : passive) (h : list sensor_msg)
  : outcome passive := foldM (handleSensorValue sf pow10) h s.

(** ** Fan redundancy *)

(** A PropertiesChanged signal of a FanRedundancy object:
    /repo/dbus/dbuspassiveredundancy.cpp:55-109.  [rm_status]: [None] when the
    Status property is absent (or the message cannot be read);
    [rm_collection]: the reply to the Get of Collection, [None] on failure.  A
    Status that is not a string throws ([std::get]). *)
Inductive rstatus : Type := RAbsent | RNotString | RStatus (s : string).
(** /repo/dbus/dbuspassiveredundancy.cpp:55-97. *)
Record redundancy_msg : Type := RMsg {
  rm_status : rstatus;
  rm_collection : option (list string)
}.

(** [std::set<std::string>::insert] / [erase]; the order is irrelevant, the
    list holds the members. /repo/dbus/dbuspassiveredundancy.cpp:100, 180. *)
Definition sinsert (x : string) (l : list string) : list string :=
  if smem x l then l else x :: l.
(** /repo/dbus/dbuspassiveredundancy.cpp:104-107. *)
Fixpoint sremove (x : string) (l : list string) : list string :=
  match l with
  | [] => []
  | y :: r => if String.eqb x y then sremove x r else y :: sremove x r
  end.

(** /repo/dbus/dbuspassiveredundancy.cpp:98, 173: [status.rfind("Failed")]. *)
Definition status_failed (s : string) : bool := str_contains "Failed" s.

(** /repo/dbus/dbuspassiveredundancy.cpp:55-109. *)
Definition handleRedundancy (failed : list string) (m : redundancy_msg) : outcome (list string) :=
  match rm_status m with
  | RAbsent => Ok failed
  | RNotString => Throw "bad_variant_access"
  | RStatus status =>
      match rm_collection m with
      | None => Ok failed
      | Some data =>
          Ok (if status_failed status
              then fold_left (fun f d => sinsert d f) data failed
              else fold_left (fun f d => sremove d f) data failed)
      end
  end.

(** /repo/dbus/dbuspassiveredundancy.cpp:115-183, [populateFailures]: the
    objects found in the subtree with their reply to GetAll, in iteration
    order; [None] for the subtree: mapper error.  A failing GetAll ends the
    scan.  Missing properties are default-constructed by [getAll[...]]: an
    empty string status, an empty string collection on which [std::get] of a
    vector throws. *)
Record redundancy_obj : Type := RObj {
  ro_status : rstatus;
  ro_collection : option (list string)     (* None: absent or not a vector *)
}.
(** /repo/dbus/dbuspassiveredundancy.cpp:148-182. *)
Fixpoint populate (objs : list (option redundancy_obj)) (failed : list string)
  : outcome (list string) :=
  match objs with
  | [] => Ok failed
  | None :: _ => Ok failed
  | Some o :: r =>
      match ro_status o with
      | RNotString => Throw "bad_variant_access"
      | RAbsent => populate r failed
      | RStatus s =>
          if negb (status_failed s) then populate r failed
          else match ro_collection o with
               | None => Throw "bad_variant_access"
               | Some data => populate r (fold_left (fun f d => sinsert d f) data failed)
               end
      end
  end.
(** /repo/dbus/dbuspassiveredundancy.cpp:115-183. *)
Definition populateFailures (tree : option (list (option redundancy_obj))) : outcome (list string) :=
  match tree with
  | None => Ok []
  | Some objs => populate objs []
  end.

(** ** Host state *)

(** [s.ends_with(suffix)]. Used in /repo/hoststatemonitor.hpp:108, 137. *)
Definition ends_with (suffix s : string) : bool :=
  let n := String.length s in
  let k := String.length suffix in
  (k <=? n)%nat && String.eqb (String.substring (n - k) k s) suffix.

(** /repo/hoststatemonitor.hpp:123-143, [getInitialState]: the reply to the Get
    of CurrentHostState, [None] on any exception. *)
Definition host_initial (reply : option string) : bool :=
  match reply with Some s => ends_with ".Running" s | None => false end.

(** /repo/hoststatemonitor.hpp:93-121, [handleStateChange]: the
    CurrentHostState property carried by the signal, [None] when it is absent
    or the message cannot be read.  Signals only arrive after
    [startMonitoring]. *)
Definition handleStateChange (on : bool) (state : option string) : bool :=
  match state with Some s => ends_with ".Running" s | None => on end.

(** ** Sensors as used by zones *)

(** /repo/sensors/host.hpp: a sensor whose value is written by another process
    through D-Bus. *)
Record host_sensor : Type := MkHost { hs_value : dbl; hs_updated : Z }.

(** /repo/sensors/host.cpp:51-59, [HostSensor::value].  [pow(10, 0)] is 1 (C
    Annex F). *)
Definition host_setValue (hs : host_sensor) (e : dbl * Z) : host_sensor :=
  MkHost (dmul (fst e) (D 1)) (snd e).

(** /repo/sensors/host.cpp:25-49, [createTemp]. *)
Definition host_createTemp (now : Z) : host_sensor :=
  host_setValue (MkHost d0 0) (d0, now).

(** /repo/sensors/host.cpp:61-69, [read]. *)
Definition host_read (hs : host_sensor) : ReadReturn :=
  MkRead (hs_value hs) (hs_updated hs) (hs_value hs).

(** /repo/sensors/host.cpp:76-95, [getFailed]: the answer and the line for the
    failsafe logger. *)
Definition host_getFailed (ignoreFailIfHostOff powerOn : bool) (hs : host_sensor)
  : bool * option (bool * string) :=
  if disfinite (hs_value hs) then (false, None)
  else if ignoreFailIfHostOff && negb powerOn then (false, None)
  else (true, Some (true, "The sensor has invalid readings.")).

(** /repo/sensors/pluggable.cpp:30-44, [PluggableSensor::getFailed]. *)
Definition pluggable_getFailed (ignoreFailIfHostOff powerOn : bool)
    (readerFailed : bool) : bool :=
  if readerFailed && ignoreFailIfHostOff && negb powerOn then false else readerFailed.

(** /repo/sensors/sensor.hpp:26-29, [getDefaultTimeout] (seconds). *)
Definition getDefaultTimeout (type : string) : Z :=
  if String.eqb type "fan" then 0%Z else 2%Z.
