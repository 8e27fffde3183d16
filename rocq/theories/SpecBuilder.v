(** * What zone construction is supposed to produce (C49, C58, C59). *)
From Coq Require Import ZArith Bool List String.
From Verif Require Import Base Dbl DblFacts PidModel ZoneModel LoopModel SpecZone BuilderModel.
Import ListNotations.
Local Open Scope string_scope.

(** The two families of configured PIDs. *)
Definition is_fan_pid (e : string * ControllerInfo) : bool :=
  String.eqb (ci_type (snd e)) "fan".
Definition is_thermal_pid (e : string * ControllerInfo) : bool :=
  smem (ci_type (snd e)) ["temp"; "margin"; "power"; "powersum"; "stepwise"].
Definition names_of (e : string * ControllerInfo) : list string :=
  map si_name (ci_inputs (snd e)).

(** The controller a configured fan PID stands for: same name, inputs and
    coefficients, not run yet; a PID without inputs gives a null pointer. *)
Definition fan_for (e : string * ControllerInfo) (o : option FanController) : Prop :=
  match o with
  | None => ci_inputs (snd e) = []
  | Some c =>
      ci_inputs (snd e) <> [] /\ fan_id c = fst e /\ fan_inputs c = names_of e /\
      fan_pid c = pid_ctrl_init (ci_pidInfo (snd e)) /\ fan_failsafeTransition c = true
  end.

(** How a thermal PID combines its inputs. *)
Definition kind_of (type : string) (ty : ThermalType) : Prop :=
  match ty with
  | margin => type = "margin"
  | absolute => type = "temp" \/ type = "power"
  | summation => type = "powersum"
  end.

(** The controller a configured thermal or stepwise PID stands for. *)
Definition thermal_for (e : string * ControllerInfo) (t : ThermalCtl) : Prop :=
  let '(name, info) := e in
  ci_inputs info <> [] /\
  match t with
  | TPid id inputs ty setpoint p =>
      kind_of (ci_type info) ty /\ id = name /\ inputs = ci_inputs info /\
      setpoint = ci_setpoint info /\ p = pid_ctrl_init (ci_pidInfo info)
  | TStep id inputs c =>
      ci_type info = "stepwise" /\ id = name /\ inputs = names_of e /\
      c = stepwise_ctrl_init (ci_stepwiseInfo info)
  end.

(** A PID of the given family lists sensor [n]. *)
Definition listed_by (family : string * ControllerInfo -> bool) (pids : PIDConf) (n : string) : Prop :=
  exists e, In e pids /\ family e = true /\ In n (names_of e).

(** Some fan, thermal or stepwise PID of the zone lists [n] as acceptable when
    missing. *)
Definition acceptable_in (pids : PIDConf) (n : string) : Prop :=
  exists e i, In e pids /\ (is_fan_pid e || is_thermal_pid e = true)%bool /\
    In i (ci_inputs (snd e)) /\ si_name i = n /\ si_missingIsAcceptable i = true.

(** The failsafe percents of the PIDs that list [n]. *)
Definition percents_for (pids : PIDConf) (n : string) : list dbl :=
  map (fun e => ci_failSafePercent (snd e))
    (filter (fun e => (is_fan_pid e || is_thermal_pid e) && smem n (names_of e)) pids).

(** What the D-Bus object of a configured PID shows before the first cycle: enabled,
    its setpoint and its class. *)
Definition classes : list (string * string) :=
  [("temp", "Temperature"); ("margin", "Margin"); ("power", "Power"); ("powersum", "PowerSum");
   ("stepwise", "")].
Definition object_for (e : string * ControllerInfo) (p : ProcessObject) : Prop :=
  po_enabled p = true /\ po_setpoint p = ci_setpoint (snd e) /\ In (ci_type (snd e), po_classType p) classes.

(** The zone built for id [id] from its PIDs and its settings. *)
Record zone_of (id : Z) (pids : PIDConf) (c : ZoneConfig) (z : zone) : Prop := ZoneOf {
  zo_id : z_zoneId z = id;
  zo_min : z_minThermalOutputSetPt z = zc_minThermalOutput c;
  zo_percent : z_zoneFailSafePercent z = zc_failsafePercent c;
  zo_cycle : z_cycleIntervalTimeMS z = zc_cycleIntervalTimeMS c;
  zo_update : z_updateThermalsTimeMS z = zc_updateThermalsTimeMS c;
  zo_accumulate : z_accumulateSetPoint z = zc_accumulateSetPoint c;
  zo_fresh : fresh z;
  zo_fans : Forall2 fan_for (filter is_fan_pid pids) (z_fans z);
  zo_thermals : Forall2 thermal_for (filter is_thermal_pid pids) (z_thermals z);
  zo_fanInputs : z_fanInputs z = flat_map names_of (filter is_fan_pid pids);
  zo_once : NoDup (z_thermalInputs z);
  zo_thermalInputs : forall n, In n (z_thermalInputs z) <-> listed_by is_thermal_pid pids n;
  zo_objects : forall n,
    (In n (map fst (filter is_thermal_pid pids)) <-> exists p, mget n (z_pidsControlProcess z) = Some p) /\
    (forall p, mget n (z_pidsControlProcess z) = Some p ->
       exists e, In e (filter is_thermal_pid pids) /\ fst e = n /\ object_for e p);
  zo_quiet : z_maximumSetPointNamePrev z = ""
}.

(** Object paths on the bus: one for the zone, one below it for every thermal or
    stepwise PID. *)
Definition zone_path (id : Z) : string :=
  "/xyz/openbmc_project/settings/fanctrl/zone" ++ to_string id.
Definition pid_path (id : Z) (name : string) : string := zone_path id ++ "/" ++ name.
Definition object_paths (e : Z * PIDConf) : list string :=
  zone_path (fst e) :: map (fun p => pid_path (fst e) (fst p)) (filter is_thermal_pid (snd e)).

(** Which configurations can be built at all. *)
Definition buildable (bus_ok : string -> bool) (confs : list (Z * ZoneConfig)) (e : Z * PIDConf) : Prop :=
  (exists c, zget (fst e) confs = Some c) /\ bus_ok (zone_path (fst e)) = true /\
  forall p, In p (snd e) -> is_thermal_pid p = true ->
    ci_inputs (snd p) <> [] /\ bus_ok (pid_path (fst e) (fst p)) = true.

(** ** Running built zones *)

(** Every fan PID has at least one fan. *)
Definition no_empty_fan_pid (pids : PIDConf) : Prop :=
  forall e, In e pids -> is_fan_pid e = true -> ci_inputs (snd e) <> [].

(** A tuning file, if consulted at all, holds something. *)
Definition tuning_readable (f : flags) (te : tune_env) : Prop :=
  tuningEnabled f = true -> te_global te <> FileEmpty /\ te_zone te <> FileEmpty.

(** No fan writer has undefined behaviour. *)
Definition writers_defined (w : write_env) : Prop :=
  forall n wr v force m, w n = Some wr -> wr v force <> UB m.

(** Every sensor of the list is known to the manager. *)
Definition all_known (env : poll_env) (names : list string) : Prop :=
  forall n, In n names -> exists v, pe_sensor env n = Some v.

(** Every fan of the list has a writer that returns. *)
Definition all_writable (w : write_env) (names : list string) : Prop :=
  forall n, In n names -> exists wr, w n = Some wr /\ forall v force, exists r, wr v force = Ok r.

(** Every TempToMargin zero of the margin PIDs is a number. *)
Definition zeros_finite (pids : PIDConf) : Prop :=
  forall e i, In e pids -> ci_type (snd e) = "margin" -> In i (ci_inputs (snd e)) ->
    si_convertTempToMargin i = true -> dfinite (si_convertMarginZero i).

(** What one event needs from outside to have defined behaviour ... *)
Definition event_defined (f : flags) (ev : loop_event) : Prop :=
  match ev with
  | LTick e => writers_defined (tk_write e) /\ tuning_readable f (tk_tune e)
  | _ => True
  end.
(** ... and to complete without an exception. *)
Definition event_served (pids : PIDConf) (ev : loop_event) : Prop :=
  match ev with
  | LTick e =>
      all_known (tk_fan e) (flat_map names_of (filter is_fan_pid pids)) /\
      all_known (tk_therm e) (flat_map names_of (filter is_thermal_pid pids)) /\
      all_writable (tk_write e) (flat_map names_of (filter is_fan_pid pids))
  | _ => True
  end.

Definition defined {A : Type} (o : outcome A) : Prop := forall m, o <> UB m.
Definition returns {A : Type} (o : outcome A) : Prop := exists a, o = Ok a.
