(** * Vocabulary of the sensor properties (C29-C31, C35, C46, C47).

    Everything here reads the history of bus messages directly; nothing refers
    to the state kept by the sensor objects. *)
From Coq Require Import ZArith Bool List String.
From Verif Require Import Base Dbl SensorModel.
Import ListNotations.
Local Open Scope string_scope.

(** The last answer that [f] extracts from a history, or a default. *)
Definition latest {M A : Type} (f : M -> option A) (default : A) (h : list M) : A :=
  fold_left (fun a m => match f m with Some x => x | None => a end) h default.

(** ** What a PropertiesChanged message says *)

Definition number (v : dvalue) : dbl :=
  match v with VInt z => D z | VDbl d => d | VBool true => D 1 | _ => d0 end.
Definition truth (v : option dvalue) : bool :=
  match v with Some (VBool b) => b | _ => false end.
Definition present (v : option dvalue) : bool :=
  match v with Some _ => true | None => false end.

Definition says (intf prop : string) (m : sensor_msg) : option dvalue :=
  if String.eqb (m_intf m) intf then mget prop (m_props m) else None.

(** The message carries a new reading. *)
Definition reading (m : sensor_msg) : option dbl :=
  option_map number (says value_intf "Value" m).
(** The message says the sensor is (un)available / (not) functional. *)
Definition availability (m : sensor_msg) : option bool :=
  option_map (fun v => truth (Some v)) (says available_intf "Available" m).
Definition functionality (m : sensor_msg) : option bool :=
  option_map (fun v => truth (Some v)) (says functional_intf "Functional" m).
(** The message carries at least one of the alarm properties that count
    (critical low, critical high; with unc-failsafe also warning high). *)
Definition alarm (unc : bool) (m : sensor_msg) : option bool :=
  let low := says critical_intf "CriticalAlarmLow" m in
  let high := says critical_intf "CriticalAlarmHigh" m in
  let warn := if unc then says warning_intf "WarningAlarmHigh" m else None in
  if present low || present high || present warn
  then Some (truth low || truth high || truth warn) else None.

(** ** The reading as a user sees it *)

(** Becoming unavailable counts as a reading without value (NaN). *)
Definition last_reading (m : sensor_msg) : option dbl :=
  match availability m with
  | Some false => Some dnan
  | _ => reading m
  end.
(** A reading replaces the stored value when it is finite, or when it stands
    for the sensor having become unavailable; the time is that of arrival. *)
Definition accepted (m : sensor_msg) : option (dbl * Z) :=
  match availability m with
  | Some false => Some (dnan, m_now m)
  | _ => match reading m with
         | Some v => if disfinite v then Some (v, m_now m) else None
         | None => None
         end
  end.

(** Map [min .. max] to [0 .. 1] when the range makes sense. *)
Definition normalise (min max v : dbl) : dbl :=
  if dltb d0 max && dltb min max then ddiv (dsub v min) (dsub max min) else v.

(** ** When a passive D-Bus sensor is to be reported failed *)

(** Facts fixed when the sensor was created on a present object: [i_alarm],
    [i_value], [i_available] are the state of the bus then; [i_range] and
    [i_scale] are its MinValue/MaxValue/Scale. *)
Record initial : Type := Initial {
  i_now : Z;
  i_value : dbl;
  i_alarm : bool;
  i_available : bool;
  i_scale : Z;
  i_min : dbl;
  i_max : dbl
}.

Definition is_bad (i : initial) (h : list sensor_msg) : Prop :=
  disfinite (latest last_reading (i_value i) h) = false.
Definition is_hot (pow10 : Z -> dbl) (i : initial) (h : list sensor_msg) : Prop :=
  dle (dmul (fst (latest accepted (i_value i, i_now i) h)) (pow10 (i_scale i))) d0.
Definition is_alarmed (unc : bool) (i : initial) (h : list sensor_msg) : Prop :=
  latest (alarm unc) (i_alarm i) h = true.
Definition is_available (i : initial) (h : list sensor_msg) : Prop :=
  latest availability (i_available i) h = true.
Definition is_functional (h : list sensor_msg) : Prop :=
  latest functionality true h = true.

(** Sensors other than fans may be configured to be silently ignored while
    unavailable. *)
Definition is_exempt (type : string) (info : SensorConfig) (i : initial) (h : list sensor_msg) : Prop :=
  type <> "fan" /\ sc_unavailableAsFailed info = false /\ ~ is_available i h.

(** Where a sensor is on the bus by its type and name. *)
Definition folders : smap string :=
  [("fan", "fan_tach"); ("margin", "temperature"); ("power", "power"); ("powersum", "power");
   ("temp", "temperature")].
Definition usual_path (type id : string) : string :=
  "/xyz/openbmc_project/sensors/" ++ match mget type folders with Some d => d | None => "unknown" end ++ "/" ++ id.

(** The bus path the sensor listens to. *)
Definition path_of (type id : string) (info : SensorConfig) : string :=
  if String.eqb (sc_readPath info) "" then usual_path type id else sc_readPath info.

(** The answer of the first case that applies. *)
Fixpoint first_case {A : Type} (cases : list (Prop * A)) (otherwise answer : A) : Prop :=
  match cases with
  | [] => answer = otherwise
  | (P, a) :: r => (P -> answer = a) /\ (~ P -> first_case r otherwise answer)
  end.

(** The object did not exist when the sensor was created. *)
Definition missing (b : bus_replies) : Prop :=
  match br_service b with Some (_ :: _) => False | _ => True end.

(** The facts fixed at creation, read off the replies of the bus. *)
Definition property (k : string) (default : dvalue) (m : smap dvalue) : dvalue :=
  match mget k m with Some v => v | None => default end.
Definition starts (sf : sflags) (now : Z) (b : bus_replies) (info : SensorConfig) (i : initial) : Prop :=
  exists props,
    br_value b = Some props /\
    i_now i = now /\
    i_value i = number (property "Value" (VInt 0) props) /\
    VInt (i_scale i) = property "Scale" (VInt 0) props /\
    i_min i = (if sc_ignoreDbusMinMax info then d0 else number (property "MinValue" (VInt 0) props)) /\
    i_max i = (if sc_ignoreDbusMinMax info then d0 else number (property "MaxValue" (VInt 0) props)) /\
    i_available i = match br_available b with None => true | v => truth v end /\
    i_alarm i = (let critical k := match br_critical b with Some m => truth (mget k m) | None => false end in
                 critical "CriticalAlarmLow" || critical "CriticalAlarmHigh" ||
                 (UNC_FAILSAFE sf &&
                  match br_warning b with Some m => truth (mget "WarningAlarmHigh" m) | None => false end)).

(** ** Host state *)

(** The host is on iff the last known CurrentHostState ends in ".Running". *)
Definition running (s : string) : Prop := exists p, s = p ++ ".Running".
Definition host_on (first : option string) (changes : list (option string)) : Prop :=
  exists s, latest (fun c => option_map Some c) first changes = Some s /\ running s.

(** ** Redundancy *)

(** What a message says about a path: whether it is failed, if the message
    covers it. *)
Definition mentions_failed (s : string) : Prop := exists a b, s = a ++ "Failed" ++ b.
Definition covers (path : string) (m : redundancy_msg) : option string :=
  match rm_status m, rm_collection m with
  | RStatus s, Some c => if smem path c then Some s else None
  | _, _ => None
  end.
