(** * What a JSON configuration says (configure.md, "JSON Configuration").

    Text of a configuration as its author thinks of it: which keys are given and
    with what.  [keys_say] relates it to a document; [*_of] is its meaning. *)
From Coq Require Import ZArith Bool List String Sorting.Sorted.
From Verif Require Import Base Dbl PidModel ZoneModel BuilderModel ConfigModel SensorModel JsonModel.
Import ListNotations.
Local Open Scope string_scope.

(** ** Values *)

(** A number, written without or with a fraction. *)
Inductive number : Type := NInt (n : Z) | NReal (d : dbl).
Definition int_json (n : Z) : json := if (0 <=? n)%Z then JUint n else JInt n.
Definition num_json (x : number) : json := match x with NInt n => int_json n | NReal d => JFloat d end.
Definition num_val (x : number) : dbl := match x with NInt n => D n | NReal d => d end.
Definition strs_json (l : list string) : json := JArr (map JStr l).
Definition nums_json (l : list number) : json := JArr (map num_json l).

(** The document is an object that has the listed keys, with the listed values;
    keys listed with [None] are not given.  All other keys, and the order of the
    keys, are free. *)
Definition keys_say (j : json) (fields : list (string * option json)) : Prop :=
  exists m, j = JObj m /\ NoDup (map fst m) /\
    Forall (fun f => match snd f with
                     | Some v => In (fst f, v) m
                     | None => ~ In (fst f) (map fst m)
                     end) fields.

(** ** Controllers *)

Record pid_settings : Type := MkPidText {
  ps_samplePeriod : number;
  ps_proportionalCoeff : number;
  ps_integralCoeff : number;
  ps_feedFwdOffsetCoeff : number;
  ps_feedFwdGainCoeff : number;
  ps_integralLimit_min : number;
  ps_integralLimit_max : number;
  ps_outLim_min : number;
  ps_outLim_max : number;
  ps_slewNeg : number;
  ps_slewPos : number;
  ps_derivativeCoeff : option number;
  ps_checkHysteresisWithSetpoint : option bool
}.
Record step_settings : Type := MkStepText {
  ss_samplePeriod : number;
  ss_isCeiling : bool;
  ss_reading : option (list number);
  ss_output : option (list number)
}.
Inductive settings : Type := PidText (s : pid_settings) | StepText (s : step_settings).

Record pid_text : Type := MkPid {
  pt_name : string;
  pt_type : string;
  pt_inputs : list string;
  pt_setpoint : number;
  pt_tempToMargin : option (list number);
  pt_missingIsAcceptable : option (list string);
  pt_FailSafePercent : option Z;
  pt_positiveHysteresis : option number;
  pt_negativeHysteresis : option number;
  pt_settings : settings
}.

Definition pid_settings_fields (s : pid_settings) : list (string * option json) :=
  [("samplePeriod", Some (num_json (ps_samplePeriod s)));
   ("proportionalCoeff", Some (num_json (ps_proportionalCoeff s)));
   ("integralCoeff", Some (num_json (ps_integralCoeff s)));
   ("feedFwdOffsetCoeff", Some (num_json (ps_feedFwdOffsetCoeff s)));
   ("feedFwdGainCoeff", Some (num_json (ps_feedFwdGainCoeff s)));
   ("integralLimit_min", Some (num_json (ps_integralLimit_min s)));
   ("integralLimit_max", Some (num_json (ps_integralLimit_max s)));
   ("outLim_min", Some (num_json (ps_outLim_min s)));
   ("outLim_max", Some (num_json (ps_outLim_max s)));
   ("slewNeg", Some (num_json (ps_slewNeg s)));
   ("slewPos", Some (num_json (ps_slewPos s)));
   ("derivativeCoeff", option_map num_json (ps_derivativeCoeff s));
   ("checkHysteresisWithSetpoint", option_map JBool (ps_checkHysteresisWithSetpoint s))].

(** The points of a table, "indexed from 0, maximum 20 items". *)
Definition point_keys : list string :=
  ["0"; "1"; "2"; "3"; "4"; "5"; "6"; "7"; "8"; "9";
   "10"; "11"; "12"; "13"; "14"; "15"; "16"; "17"; "18"; "19"].
Definition point_fields (l : list number) : list (string * option json) :=
  combine point_keys (map (fun x => Some (num_json x)) l ++ repeat None 20).
Definition points_say (j : option json) (l : option (list number)) : Prop :=
  match j, l with
  | None, None => True
  | Some j, Some l => (List.length l <= 20)%nat /\ keys_say j (point_fields l)
  | _, _ => False
  end.

Definition settings_say (j : json) (p : pid_text) : Prop :=
  let hysteresis :=
    [("positiveHysteresis", option_map num_json (pt_positiveHysteresis p));
     ("negativeHysteresis", option_map num_json (pt_negativeHysteresis p))] in
  match pt_settings p with
  | PidText s => pt_type p <> "stepwise" /\ keys_say j (hysteresis ++ pid_settings_fields s)%list
  | StepText s =>
      pt_type p = "stepwise" /\
      exists r o, points_say r (ss_reading s) /\ points_say o (ss_output s) /\
        keys_say j (hysteresis ++
          [("samplePeriod", Some (num_json (ss_samplePeriod s)));
           ("isCeiling", Some (JBool (ss_isCeiling s)));
           ("reading", r); ("output", o);
           ("derivativeCoeff", None); ("checkHysteresisWithSetpoint", None)])%list
  end.

Definition int32 (n : Z) : Prop := (- 2 ^ 31 <= n < 2 ^ 31)%Z.
Definition int64 (n : Z) : Prop := (- 2 ^ 63 <= n < 2 ^ 63)%Z.
Definition uint64 (n : Z) : Prop := (0 <= n < 2 ^ 64)%Z.
Definition given {A : Type} (P : A -> Prop) (o : option A) : Prop :=
  match o with Some x => P x | None => True end.
Definition or_default {A : Type} (d : A) (o : option A) : A :=
  match o with Some x => x | None => d end.

Definition pid_says (j : json) (p : pid_text) : Prop :=
  given int32 (pt_FailSafePercent p) /\
  exists s, settings_say s p /\
    keys_say j [("name", Some (JStr (pt_name p)));
            ("type", Some (JStr (pt_type p)));
            ("inputs", Some (strs_json (pt_inputs p)));
            ("setpoint", Some (num_json (pt_setpoint p)));
            ("tempToMargin", option_map nums_json (pt_tempToMargin p));
            ("missingIsAcceptable", option_map strs_json (pt_missingIsAcceptable p));
            ("FailSafePercent", option_map int_json (pt_FailSafePercent p));
            ("pid", Some s)].

(** Meaning.  The [i]th input takes the [i]th entry of [tempToMargin], if there
    is one. *)
Definition inputs_of (names : list string) (margins : list dbl) (missing : list string)
  : list SensorInput :=
  map (fun x => MkInput (snd x) (nth (fst x) margins dnan) (Nat.ltb (fst x) (List.length margins))
                  (existsb (String.eqb (snd x)) missing))
      (combine (seq 0 (List.length names)) names).
Definition table_of (l : option (list number)) (i : nat) : dbl :=
  nth i (map num_val (or_default [] l)) dnan.
Definition zero_pidinfo : pidinfo :=
  PidInfo false d0 d0 d0 d0 d0 d0 (Limits d0 d0) (Limits d0 d0) d0 d0 d0 d0.
Definition zero_stepwise : StepwiseInfo := Stepwise d0 (fun _ => d0) (fun _ => d0) d0 d0 false.
Definition num_or_zero (o : option number) : dbl := or_default d0 (option_map num_val o).

Definition pid_of (p : pid_text) : ControllerInfo :=
  let pos := num_or_zero (pt_positiveHysteresis p) in
  let neg := num_or_zero (pt_negativeHysteresis p) in
  MkInfo (pt_type p)
    (inputs_of (pt_inputs p) (map num_val (or_default [] (pt_tempToMargin p)))
       (or_default [] (pt_missingIsAcceptable p)))
    (num_val (pt_setpoint p))
    (match pt_settings p with
     | PidText s =>
         PidInfo (or_default false (ps_checkHysteresisWithSetpoint s))
           (num_val (ps_samplePeriod s)) (num_val (ps_proportionalCoeff s))
           (num_val (ps_integralCoeff s)) (num_or_zero (ps_derivativeCoeff s))
           (num_val (ps_feedFwdOffsetCoeff s)) (num_val (ps_feedFwdGainCoeff s))
           (Limits (num_val (ps_integralLimit_min s)) (num_val (ps_integralLimit_max s)))
           (Limits (num_val (ps_outLim_min s)) (num_val (ps_outLim_max s)))
           (num_val (ps_slewNeg s)) (num_val (ps_slewPos s)) pos neg
     | StepText _ => zero_pidinfo
     end)
    (match pt_settings p with
     | PidText _ => zero_stepwise
     | StepText s =>
         Stepwise (num_val (ss_samplePeriod s)) (table_of (ss_reading s)) (table_of (ss_output s))
           pos neg (ss_isCeiling s)
     end)
    (D (or_default 0%Z (pt_FailSafePercent p))).

(** ** Zones *)

Record zone_text : Type := MkZone {
  zt_id : Z;
  zt_minThermalOutput : number;
  zt_failsafePercent : number;
  zt_cycleIntervalTimeMS : option Z;
  zt_updateThermalsTimeMS : option Z;
  zt_accumulateSetPoint : option bool;
  zt_pids : list pid_text
}.
Definition zone_says (j : json) (z : zone_text) : Prop :=
  int64 (zt_id z) /\ given uint64 (zt_cycleIntervalTimeMS z) /\
  given uint64 (zt_updateThermalsTimeMS z) /\ zt_pids z <> [] /\
  exists pids, Forall2 pid_says pids (zt_pids z) /\
    keys_say j [("id", Some (int_json (zt_id z)));
            ("minThermalOutput", Some (num_json (zt_minThermalOutput z)));
            ("failsafePercent", Some (num_json (zt_failsafePercent z)));
            ("cycleIntervalTimeMS", option_map int_json (zt_cycleIntervalTimeMS z));
            ("updateThermalsTimeMS", option_map int_json (zt_updateThermalsTimeMS z));
            ("accumulateSetPoint", option_map JBool (zt_accumulateSetPoint z));
            ("pids", Some (JArr pids))].
(** A time that is not given, or given as 0, is the default. *)
Definition time_of (d : Z) (o : option Z) : Z :=
  match o with Some n => if (n =? 0)%Z then d else n | None => d end.
Definition zone_conf_of (z : zone_text) : ZoneConfig :=
  MkZoneConfig (num_val (zt_minThermalOutput z)) (num_val (zt_failsafePercent z))
    (time_of 100 (zt_cycleIntervalTimeMS z)) (time_of 1000 (zt_updateThermalsTimeMS z))
    (or_default false (zt_accumulateSetPoint z)).

(** ** Sensors *)

Record sensor_text : Type := MkSensor {
  st_name : string;
  st_type : string;
  st_readPath : string;
  st_writePath : option string;
  st_min : option Z;
  st_max : option Z;
  st_timeout : option Z;
  st_ignoreDbusMinMax : option bool;
  st_unavailableAsFailed : option bool;
  st_ignoreFailIfHostOff : option bool
}.
Definition sensor_says (j : json) (s : sensor_text) : Prop :=
  given int64 (st_min s) /\ given int64 (st_max s) /\ given int64 (st_timeout s) /\
  keys_say j [("name", Some (JStr (st_name s)));
          ("type", Some (JStr (st_type s)));
          ("readPath", Some (JStr (st_readPath s)));
          ("writePath", option_map JStr (st_writePath s));
          ("min", option_map int_json (st_min s));
          ("max", option_map int_json (st_max s));
          ("timeout", option_map int_json (st_timeout s));
          ("ignoreDbusMinMax", option_map JBool (st_ignoreDbusMinMax s));
          ("unavailableAsFailed", option_map JBool (st_unavailableAsFailed s));
          ("ignoreFailIfHostOff", option_map JBool (st_ignoreFailIfHostOff s))].
(** [min] and [max] are for fans only. *)
Definition sensor_of (s : sensor_text) : SensorConfig :=
  let fan := String.eqb (st_type s) "fan" in
  MkSensorConfig (st_type s) (st_readPath s) (or_default "" (st_writePath s))
    (if fan then or_default 0%Z (st_min s) else 0%Z)
    (if fan then or_default 0%Z (st_max s) else 0%Z)
    (or_default (if fan then 0%Z else 2%Z) (st_timeout s))
    (or_default false (st_ignoreDbusMinMax s)) (or_default true (st_unavailableAsFailed s))
    (or_default false (st_ignoreFailIfHostOff s)).

(** ** The document *)

Definition doc_says (j : json) (sensors : list sensor_text) (zones : list zone_text) : Prop :=
  sensors <> [] /\
  exists js jz, Forall2 sensor_says js sensors /\ Forall2 zone_says jz zones /\
    keys_say j [("sensors", Some (JArr js)); ("zones", Some (JArr jz))].

(** Later entries replace earlier ones of the same name. *)
Definition last_sensor (name : string) (l : list sensor_text) : option sensor_text :=
  find (fun s => String.eqb name (st_name s)) (rev l).
Definition last_pid (name : string) (l : list pid_text) : option pid_text :=
  find (fun p => String.eqb name (pt_name p)) (rev l).
Definition last_zone (id : Z) (l : list zone_text) : option zone_text :=
  find (fun z => Z.eqb id (zt_id z)) (rev l).

(** Maps are kept in key order, without repetition. *)
Definition in_order {V : Type} (m : smap V) : Prop :=
  StronglySorted (fun a b => String.ltb (fst a) (fst b) = true) m.
Definition in_order_z {V : Type} (m : list (Z * V)) : Prop :=
  StronglySorted (fun a b => (fst a < fst b)%Z) m.

(** The loaded configuration is the one the text describes. *)
Definition sensors_as_written (m : smap SensorConfig) (l : list sensor_text) : Prop :=
  in_order m /\ forall name, mget name m = option_map sensor_of (last_sensor name l).
Definition pids_as_written (m : PIDConf) (l : list pid_text) : Prop :=
  in_order m /\ forall name, mget name m = option_map pid_of (last_pid name l).
Definition as_written (c : loaded) (sensors : list sensor_text) (zones : list zone_text) : Prop :=
  sensors_as_written (l_sensors c) sensors /\
  in_order_z (l_pids c) /\ in_order_z (l_zones c) /\
  forall id,
    match last_zone id zones with
    | None => zget id (l_zones c) = None /\ zget id (l_pids c) = None
    | Some z => zget id (l_zones c) = Some (zone_conf_of z) /\
        exists pids, zget id (l_pids c) = Some pids /\ pids_as_written pids (zt_pids z)
    end.

(** ** Which documents are accepted *)

Definition value_at (key : string) (j : json) : option json :=
  match j with JObj m => mget key m | _ => None end.
(** The key is there, and its value is [P]. *)
Definition has (key : string) (P : json -> Prop) (j : json) : Prop :=
  exists v, value_at key j = Some v /\ P v.
(** If the key is there, its value is [P]. *)
Definition may_have (key : string) (P : json -> Prop) (j : json) : Prop :=
  forall v, value_at key j = Some v -> P v.
(** Elements of a list; values of an object; anything else counts as itself. *)
Definition entries (j : json) : list json :=
  match j with
  | JNull => []
  | JArr l => l
  | JObj m => map snd m
  | _ => [j]
  end.
Definition is_text (j : json) : Prop := exists s, j = JStr s.
Definition is_flag (j : json) : Prop := exists b, j = JBool b.
Definition is_number (j : json) : Prop :=
  match j with JUint _ | JInt _ | JFloat _ => True | _ => False end.
Definition is_list_of (P : json -> Prop) (j : json) : Prop := exists l, j = JArr l /\ Forall P l.
(** A number whose whole part lies between [lo] and [hi].  Integers outside wrap
    around; fractions outside have no meaning. *)
Definition fits (lo hi : Z) (j : json) : Prop :=
  match j with
  | JUint _ | JInt _ => True
  | JFloat d => dtrunc lo hi d <> None
  | _ => False
  end.
Definition fits_int64 : json -> Prop := fits (- 2 ^ 63) (2 ^ 63 - 1).
Definition fits_uint64 : json -> Prop := fits 0 (2 ^ 64 - 1).
Definition fits_int32 (j : json) : Prop := is_flag j \/ fits (- 2 ^ 31) (2 ^ 31 - 1) j.

Definition good_sensor (j : json) : Prop :=
  has "name" is_text j /\ has "type" is_text j /\ has "readPath" is_text j /\
  may_have "writePath" is_text j /\ may_have "ignoreDbusMinMax" is_flag j /\
  may_have "unavailableAsFailed" is_flag j /\ may_have "ignoreFailIfHostOff" is_flag j /\
  may_have "timeout" fits_int64 j /\
  (value_at "type" j = Some (JStr "fan") ->
     may_have "min" fits_int64 j /\ may_have "max" fits_int64 j).

Definition pid_keys : list string :=
  ["samplePeriod"; "proportionalCoeff"; "integralCoeff"; "feedFwdOffsetCoeff"; "feedFwdGainCoeff";
   "integralLimit_min"; "integralLimit_max"; "outLim_min"; "outLim_max"; "slewNeg"; "slewPos"].
Definition good_points (j : json) : Prop := Forall (fun k => may_have k is_number j) point_keys.
Definition good_settings (stepwise : bool) (j : json) : Prop :=
  may_have "checkHysteresisWithSetpoint" is_flag j /\ may_have "positiveHysteresis" is_number j /\
  may_have "negativeHysteresis" is_number j /\ may_have "derivativeCoeff" is_number j /\
  if stepwise
  then has "samplePeriod" is_number j /\ has "isCeiling" is_flag j /\
       may_have "reading" good_points j /\ may_have "output" good_points j
  else Forall (fun k => has k is_number j) pid_keys.
Definition good_pid (j : json) : Prop :=
  has "name" is_text j /\ has "inputs" (is_list_of is_text) j /\ has "setpoint" is_number j /\
  may_have "tempToMargin" (is_list_of is_number) j /\
  may_have "missingIsAcceptable" (is_list_of is_text) j /\
  may_have "FailSafePercent" fits_int32 j /\
  exists type, value_at "type" j = Some (JStr type) /\
    has "pid" (good_settings (String.eqb type "stepwise")) j.
Definition good_zone (j : json) : Prop :=
  has "id" fits_int64 j /\ has "minThermalOutput" is_number j /\ has "failsafePercent" is_number j /\
  may_have "cycleIntervalTimeMS" fits_uint64 j /\ may_have "updateThermalsTimeMS" fits_uint64 j /\
  may_have "accumulateSetPoint" is_flag j /\
  has "pids" (fun p => entries p <> [] /\ Forall good_pid (entries p)) j.
Definition good_document (j : json) : Prop :=
  has "sensors" (fun s => entries s <> [] /\ Forall good_sensor (entries s)) j /\
  has "zones" (fun z => Forall good_zone (entries z)) j.

(** ** Which documents are answered at all *)

Definition is_object (j : json) : Prop := exists m, j = JObj m.
(** A number that is present has to fit. *)
Definition not_huge (P : json -> Prop) (j : json) : Prop := is_number j -> P j.
Definition tame_sensor (j : json) : Prop :=
  is_object j -> value_at "name" j <> None /\
  may_have "min" (not_huge fits_int64) j /\ may_have "max" (not_huge fits_int64) j /\
  may_have "timeout" (not_huge fits_int64) j.
Definition tame_pid (j : json) : Prop :=
  is_object j -> value_at "name" j <> None /\ may_have "FailSafePercent" (not_huge fits_int32) j.
Definition tame_zone (j : json) : Prop :=
  is_object j ->
  has "id" (not_huge fits_int64) j /\ value_at "minThermalOutput" j <> None /\
  value_at "failsafePercent" j <> None /\
  may_have "cycleIntervalTimeMS" (not_huge fits_uint64) j /\
  may_have "updateThermalsTimeMS" (not_huge fits_uint64) j /\
  may_have "pids" (fun p => Forall tame_pid (entries p)) j.
Definition tame_document (j : json) : Prop :=
  may_have "sensors" (fun s => Forall tame_sensor (entries s)) j /\
  may_have "zones" (fun z => Forall tame_zone (entries z)) j.
