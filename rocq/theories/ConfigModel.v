(** * Configuration: zone numbers, inputs, interface types, cycle times.

    Sources: dbus/dbusutil.cpp, util.cpp, sensors/build_utils.cpp, conf.hpp,
    pid/buildjson.cpp, dbus/dbusconfiguration.{hpp,cpp}. *)
From Coq Require Import ZArith Bool List String.
From Verif Require Import Base Dbl ZoneModel.
Import ListNotations.
Local Open Scope string_scope.
Local Open Scope Z_scope.
Local Open Scope outcome_scope.

(** ** Zone numbers *)

(** The loop of /repo/dbus/dbusutil.cpp:33-55.  [fuel] bounds the number of
    rounds; one more than the number of zones is enough (ConfigProofs.v), the
    [Throw] is never reached from [setZoneIndex].  [++index] past the largest
    [int64_t] is undefined. *)
Definition index_used (zones : smap Z) (index : Z) : bool :=
  existsb (fun zi => index =? snd zi) zones.
(** /repo/dbus/dbusutil.cpp:33-55. *)
Fixpoint free_index (fuel : nat) (zones : smap Z) (index : Z) : outcome Z :=
  match fuel with
  | O => Throw "out of fuel"
  | S fuel =>
      if index_used zones index
      then if index =? int64_max then UB "signed overflow" else free_index fuel zones (index + 1)
      else Ok index
  end.

(** /repo/dbus/dbusutil.cpp:22-60, [setZoneIndex]: the index and the map. *)
Definition setZoneIndex (name : string) (zones : smap Z) (index : Z) : outcome (Z * smap Z) :=
  match mget name zones with
  | Some i => Ok (i, zones)
  | None =>
      do i <- free_index (S (List.length zones)) zones index;
      Ok (i, mset name i zones)
  end.

(** /repo/dbus/dbusutil.cpp:62-73, [getZoneIndex]. *)
Definition getZoneIndex (name : string) (zones : smap Z) : outcome (Z * smap Z) :=
  match mget name zones with
  | Some i => Ok (i, zones)
  | None => setZoneIndex name zones 0
  end.

(** Any number of calls, starting with no zones.
    [setZoneIndex] or [getZoneIndex], /repo/dbus/dbusutil.cpp:22-73. *)
Inductive zone_op : Type := ZSet (name : string) (index : Z) | ZGet (name : string).
(** Their first argument, /repo/dbus/dbusutil.cpp:22, 62. *)
Definition zone_op_name (o : zone_op) : string := match o with ZSet n _ => n | ZGet n => n end.
(** One call, /repo/dbus/dbusutil.cpp:22-73. *)
Definition zone_op_step (zones : smap Z) (o : zone_op) : outcome (Z * smap Z) :=
  match o with ZSet n i => setZoneIndex n zones i | ZGet n => getZoneIndex n zones end.
(** Any number of calls, /repo/dbus/dbusutil.cpp:22-73. *)
Definition zone_ops (ops : list zone_op) (zones : smap Z) : outcome (smap Z) :=
  foldM (fun zs o => do r <- zone_op_step zs o; Ok (snd r)) ops zones.

(** ** Inputs *)

(** /repo/util.cpp:105-155, [spliceInputs]: the three loops. *)
Definition set_margin (zero : dbl) (i : SensorInput) : SensorInput :=
  MkInput (si_name i) zero true (si_missingIsAcceptable i).
(** /repo/util.cpp:137-152. *)
Definition set_acceptable (i : SensorInput) : SensorInput :=
  MkInput (si_name i) (si_convertMarginZero i) (si_convertTempToMargin i) true.
(** /repo/util.cpp:121-135. *)
Fixpoint splice_margins (inputs : list SensorInput) (zeros : list dbl) : list SensorInput :=
  match inputs, zeros with
  | i :: r, z :: zs => set_margin z i :: splice_margins r zs
  | _, _ => inputs
  end.
(** /repo/util.cpp:105-155. *)
Definition spliceInputs (inputNames : list string) (inputTempToMargin : list dbl)
    (missingAcceptableNames : list string) : list SensorInput :=
  let results := map (fun n => MkInput n dnan false false) inputNames in
  let results := splice_margins results inputTempToMargin in
  map (fun i => if smem (si_name i) missingAcceptableNames then set_acceptable i else i) results.

(** /repo/util.cpp:157-169, [splitNames]. *)
Definition splitNames (sensorInputs : list SensorInput) : list string := map si_name sensorInputs.

(** ** Interface types *)

(** /repo/sensors/build_utils.hpp:16-24, [enum class IOInterfaceType]. *)
Inductive IOInterfaceType : Type := IoNONE | IoEXTERNAL | IoDBUSPASSIVE | IoDBUSACTIVE | IoSYSFS | IoUNKNOWN.

(** /repo/sensors/build_utils.cpp:11-12. *)
Definition external_sensor : string := "/xyz/openbmc_project/extsensors/".
(** /repo/sensors/build_utils.cpp:13. *)
Definition openbmc_sensor : string := "/xyz/openbmc_project/".
(** /repo/sensors/build_utils.cpp:14. *)
Definition sysfs : string := "/sys/".

(** /repo/sensors/build_utils.cpp:16-35, [getWriteInterfaceType]. *)
Definition getWriteInterfaceType (path : string) : IOInterfaceType :=
  if String.eqb path "" || String.eqb "None" path then IoNONE
  else if str_contains sysfs path then IoSYSFS
  else if str_contains openbmc_sensor path then IoDBUSACTIVE
  else IoUNKNOWN.

(** /repo/sensors/build_utils.cpp:37-60, [getReadInterfaceType]. *)
Definition getReadInterfaceType (path : string) : IOInterfaceType :=
  if String.eqb path "" || String.eqb "None" path then IoNONE
  else if str_contains external_sensor path then IoEXTERNAL
  else if str_contains openbmc_sensor path then IoDBUSPASSIVE
  else if str_contains sysfs path then IoSYSFS
  else IoUNKNOWN.

(** ** Values from the configuration *)

(** /repo/dbus/dbusconfiguration.hpp:31-33, [DbusVariantType]. *)
Inductive variant : Type :=
| VU64 (n : Z) | VI64 (n : Z) | VDbl (d : dbl) | VStr (s : string) | VBool (b : bool)
| VStrs (l : list string) | VDbls (l : list dbl).
(** /repo/dbus/dbusconfiguration.hpp:38, one interface of an object. *)
Definition properties : Type := smap variant.

(** /repo/dbus/dbusutil.hpp:15-30, [VariantToDoubleVisitor]. *)
Definition variant_to_double (v : variant) : outcome dbl :=
  match v with
  | VU64 n | VI64 n => Ok (D n)
  | VDbl d => Ok d
  | VBool b => Ok (D (if b then 1 else 0))
  | VStr _ | VStrs _ | VDbls _ => Throw "Cannot translate type to double"
  end.

(** A JSON document as nlohmann::json keeps it after parsing: integers are
    unsigned 64 bit when not negative, signed 64 bit when negative; objects
    have one value per key. /repo/pid/buildjson.cpp:163-171. *)
Inductive json : Type :=
| JNull | JBool (b : bool) | JUint (n : Z) | JInt (n : Z) | JFloat (d : dbl) | JStr (s : string)
| JArr (l : list json) | JObj (m : list (string * json)).

(** [get_to] into the types used (nlohmann 3.x, [get_arithmetic_value]):
    numbers convert into each other like [static_cast]; only [int] also takes
    booleans.  A mismatch throws. /repo/pid/buildjson.cpp:170-171. *)
Definition json_to_double (j : json) : outcome dbl :=
  match j with
  | JUint n | JInt n => Ok (D n)
  | JFloat d => Ok d
  | _ => Throw "type must be number"
  end.
(** /repo/pid/buildjson.cpp:170-171. *)
Definition json_to_uint64 (j : json) : outcome Z :=
  match j with
  | JUint n => Ok n
  | JInt n => Ok (n mod 2 ^ 64)
  | JFloat d => match to_uint64 d with Some n => Ok n | None => UB "floating-integral conversion" end
  | _ => Throw "type must be number"
  end.

(** ** Cycle times *)

(** /repo/conf.hpp:65-72, the defaults. *)
Definition default_cycleIntervalTimeMS : Z := 100.
(** /repo/conf.hpp:71. *)
Definition default_updateThermalsTimeMS : Z := 1000.

(** /repo/dbus/dbusconfiguration.cpp:305-329, [getCycleTimeSetting] (D-Bus):
    the new content of [value]. *)
Definition getCycleTimeSetting_dbus (zone : properties) (attributeName : string) (value : Z) : outcome Z :=
  match mget attributeName zone with
  | Some v =>
      do tmp <- variant_to_double v;
      if dgeb tmp (D 1)
      then match to_uint64 tmp with Some n => Ok n | None => UB "floating-integral conversion" end
      else Ok value
  | None => Ok value
  end.

(** /repo/pid/buildjson.cpp:163-187, [getCycleTimeSetting] (JSON). *)
Definition getCycleTimeSetting_json (zone : smap json) (attributeName : string) (value : Z) : outcome Z :=
  match mget attributeName zone with
  | Some j =>
      do tmp <- json_to_uint64 j;
      if 1 <=? tmp then Ok tmp else Ok value
  | None => Ok value
  end.

(** /repo/pid/pidloop.cpp:63-69: [nextTime += std::chrono::milliseconds(n)] on
    the steady clock: the signed 64 bit count of milliseconds is multiplied by
    10^6; overflow is undefined. *)
Definition to_signed64 (n : Z) : Z := if n <? 2 ^ 63 then n else n - 2 ^ 64.
(** /repo/pid/pidloop.cpp:63-69. *)
Definition timer_period_ns (n : Z) : outcome Z :=
  let ns := to_signed64 n * 1000000 in
  if (int64_min <=? ns) && (ns <=? int64_max) then Ok ns else UB "signed overflow".
