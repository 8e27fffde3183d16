(** * Specification vocabulary for zones and their control loop (C11-C28,
    C50-C54).

    Uses the zone's configuration fields, the recorded effects ([z_trace]), the
    controllers' own PID/stepwise entry points (specified by C01-C10) and the
    double operations; not the zone's methods. *)
From Coq Require Import ZArith Bool List String.
From Verif Require Import Base Dbl PidModel ZoneModel LoopModel.
Import ListNotations.
Local Open Scope string_scope.

(** ** Order vocabulary *)

(** [v] is the largest (smallest) of the non-NaN values of [l]; [deq] because
    -0 and +0 are the same value. *)
Definition is_max_of (v : dbl) (l : list dbl) : Prop :=
  (exists x, In x l /\ deq v x) /\ (forall x, In x l -> notnan x -> dle x v).
Definition is_min_of (v : dbl) (l : list dbl) : Prop :=
  (exists x, In x l /\ deq v x) /\ (forall x, In x l -> notnan x -> dle v x).

(** ** Controller inputs (C11, C12) *)

(** Current readings of a list of inputs, by sensor name. *)
Definition readings_map : Type := string -> option dbl.

(** The reading a thermal controller of type [ty] sees on input [i]: finite
    readings only, converted to a margin where configured. *)
Definition thermal_reading (rd : readings_map) (ty : ThermalType) (i : SensorInput) : list dbl :=
  match rd (si_name i) with
  | Some v =>
      if disfinite v
      then match ty with
           | margin => if si_convertTempToMargin i
                       then [dsub (si_convertMarginZero i) v] else [v]
           | _ => [v]
           end
      else []
  | None => []
  end.
Definition thermal_readings (rd : readings_map) (ty : ThermalType) (inputs : list SensorInput)
  : list dbl := flat_map (thermal_reading rd ty) inputs.

(** The readings in the zone's cache. *)
Definition cached (z : zone) : readings_map :=
  fun n => option_map scaled (mget n (z_cachedValuesByName z)).
Definition cached_raw (z : zone) : readings_map :=
  fun n => option_map unscaled (mget n (z_cachedValuesByName z)).

(** Positive finite fan speeds. *)
Definition fan_reading (rd : readings_map) (n : string) : list dbl :=
  match rd n with
  | Some v => if disfinite v && dgtb v d0 then [v] else []
  | None => []
  end.
Definition fan_readings (rd : readings_map) (names : list string) : list dbl :=
  flat_map (fan_reading rd) names.

(** What C11 says the input is, as a function (C11 relates it to is_min_of,
    is_max_of and the sum). *)
Definition thermal_input (rd : readings_map) (ty : ThermalType) (inputs : list SensorInput)
    (setpoint : dbl) : dbl :=
  match thermal_readings rd ty inputs with
  | [] => setpoint
  | rs => match ty with
          | margin => fold_left dmin rs dmax_float
          | absolute => fold_left dmax rs dlowest
          | summation => fold_left dadd rs d0
          end
  end.

(** A stepwise controller looks at the largest reading (NaN ignored). *)
Definition stepwise_input (rd : readings_map) (inputs : list string) : dbl :=
  fold_left (fun acc n => match rd n with Some v => dmax acc v | None => acc end) inputs dlowest.

(** ** What the thermal controllers ask for in one cycle (C13-C15) *)

Definition ctl_output (rd : readings_map) (t : ThermalCtl) : dbl :=
  match t with
  | TPid _ inputs ty setpoint p => snd (pid_process p setpoint (thermal_input rd ty inputs setpoint))
  | TStep _ inputs c => snd (stepwise_process c (stepwise_input rd inputs))
  end.
Definition is_ceiling (t : ThermalCtl) : bool :=
  match t with TPid _ _ _ _ _ => false | TStep _ _ c => sw_isCeiling (sc_info c) end.
Definition enabled_in (z : zone) (name : string) : bool :=
  match mget name (z_pidsControlProcess z) with Some p => po_enabled p | None => false end.

(** Readings of a thermal cycle: what the sensors show now; for names that are
    not thermal inputs of the zone, what the zone saw last. *)
Definition cycle_readings (env : poll_env) (z : zone) : readings_map :=
  fun n => if smem n (z_thermalInputs z) then option_map sv_value (pe_sensor env n)
           else cached z n.

(** Setpoints requested by enabled controllers, in order, with the
    controllers' names; and ceilings. *)
Definition requests (rd : readings_map) (z : zone) : list (string * dbl) :=
  flat_map (fun t => if negb (is_ceiling t) && enabled_in z (thermal_id t)
                     then [(thermal_id t, ctl_output rd t)] else []) (z_thermals z).
Definition ceilings (rd : readings_map) (z : zone) : list dbl :=
  flat_map (fun t => if is_ceiling t then [ctl_output rd t] else []) (z_thermals z).

(** The documented combination: [top] capped by the lowest ceiling, then
    raised to the zone minimum. *)
Definition capped_at (ceils : list dbl) (top capped : dbl) : Prop :=
  (ceils = [] /\ capped = top) \/
  (exists low, is_min_of low ceils /\
     ((dle top low /\ capped = top) \/ (dlt low top /\ capped = low))).
Definition combined_setpoint (minimum : dbl) (ceils : list dbl) (top result : dbl) : Prop :=
  exists capped, capped_at ceils top capped /\
    ((dle capped minimum /\ result = minimum) \/ (~ dle capped minimum /\ result = capped)).

(** Profile of a controller name: what follows its first underscore, or the
    whole name. *)
Definition has_profile (name profile : string) : Prop :=
  (exists prefix, ~ (exists a b, prefix = a ++ "_" ++ b) /\ name = prefix ++ "_" ++ profile) \/
  (~ (exists a b, name = a ++ "_" ++ b) /\ profile = name).

(** Sum of the requests of one profile, and all partial sums reached. *)
Definition profile_sum (profile : string) (reqs : list (string * dbl)) : dbl :=
  fold_left dadd
    (map snd (filter (fun r => String.eqb (profile_of (fst r)) profile) reqs)) d0.
Definition running_sums (reqs : list (string * dbl)) : list dbl :=
  map (fun k => match nth_error reqs k with
                | Some r => profile_sum (profile_of (fst r)) (firstn (S k) reqs)
                | None => d0
                end) (seq 0 (List.length reqs)).
Definition profile_totals (reqs : list (string * dbl)) : list dbl :=
  map (fun r => profile_sum (profile_of (fst r)) reqs) reqs.

(** ** Polls and failsafe (C17-C19, C23, C24) *)

(** The most recent poll of a sensor by the zone: time and what was seen. *)
Fixpoint last_poll (n : string) (tr : list event) : option (Z * sensor_view) :=
  match tr with
  | [] => None
  | EvRead m now v :: r => if String.eqb n m then Some (now, v) else last_poll n r
  | _ :: r => last_poll n r
  end.

(** Whole seconds since the last update have reached the (non-zero) timeout. *)
Definition timed_out (now : Z) (v : sensor_view) : bool :=
  negb (sv_timeout v =? 0)%Z && (sv_timeout v <=? Z.quot (now - sv_updated v) 1000000000)%Z.

Definition is_input (z : zone) (n : string) : Prop :=
  In n (z_fanInputs z) \/ In n (z_thermalInputs z).
Definition acceptable (z : zone) (n : string) : Prop := In n (z_missingAcceptable z).

(** Why the last poll puts the sensor into failsafe, if it does. *)
Definition bad_reason (p : option (Z * sensor_view)) : option string :=
  match p with
  | None => Some ""                     (* not polled yet *)
  | Some (now, v) =>
      if sv_failed v then Some (sv_reason v)
      else if timed_out now v then Some "Sensor timeout"
      else None
  end.

(** A sensor's failsafe percent: its own, or the zone's if that is 0/unset. *)
Definition own_percent (z : zone) (n : string) : dbl :=
  match mget n (z_sensorFailSafePercent z) with
  | Some p => if deqb p d0 then z_zoneFailSafePercent z else p
  | None => z_zoneFailSafePercent z
  end.

(** No percent is negative or NaN. *)
Definition percents_ok (z : zone) : Prop := forall n, dle d0 (own_percent z n).

(** A zone as it leaves the builder: nothing recorded yet, automatic mode. *)
Definition fresh (z : zone) : Prop :=
  z_failSafeSensors z = [] /\ z_trace z = [] /\ z_log z = [] /\
  z_manualMode z = false /\ z_redundantWrite z = false.

(** All states reachable from a fresh zone. *)
Definition reachable (f : flags) (z0 : zone) (l : loop) : Prop :=
  exists env te now l0 evs,
    fresh z0 /\ loop_start f env te now z0 = Ok l0 /\ loop_run f evs l0 = Ok l.

(** ** Fan writes (C20-C22, C25, C26, C50) *)

(** Writes in chronological order. *)
Definition writes_in (tr : list event) : list (string * dbl * bool) :=
  flat_map (fun e => match e with EvWrite n v b => [(n, v, b)] | _ => [] end) (rev tr).
Definition reads_in (tr : list event) : list string :=
  flat_map (fun e => match e with EvRead n _ _ => [n] | _ => [] end) (rev tr).
Definition thermal_cycles_in (tr : list event) : nat :=
  List.length (filter (fun e => match e with EvThermalCycle => true | _ => false end) tr).

(** Effects added between two states of the zone. *)
Definition new_events (z z' : zone) (evs : list event) : Prop :=
  z_trace z' = (evs ++ z_trace z)%list.

(** The output a fan controller computes: its PID on the zone's setpoint and
    the lowest positive finite speed of its fans, 0 if there is none. *)
Definition fan_output (z : zone) (c : FanController) : dbl :=
  snd (pid_process (fan_pid c) (z_maximumSetPoint z)
         (match fan_readings (cached_raw z) (fan_inputs c) with
          | [] => d0 | v :: r => fold_left dmin r v end)).

(** Fan controllers of a zone (null entries left out). *)
Definition fan_ctls (z : zone) : list FanController :=
  flat_map (fun o => match o with Some c => [c] | None => [] end) (z_fans z).

(** ** Histories of the loop (C25-C28) *)
Definition is_tick (e : loop_event) : bool := match e with LTick _ => true | _ => false end.

(** Manual mode and pending forced rewrite as functions of the history. *)
Fixpoint manual_after (m : bool) (evs : list loop_event) : bool :=
  match evs with
  | [] => m
  | LManual b :: r => manual_after b r
  | _ :: r => manual_after m r
  end.
(** Number of wake-ups that found the zone in automatic mode. *)
Fixpoint auto_ticks (m : bool) (evs : list loop_event) : nat :=
  match evs with
  | [] => 0
  | LTick _ :: r => (if m then 0 else 1) + auto_ticks m r
  | LManual b :: r => auto_ticks b r
  | LEnable _ _ :: r => auto_ticks m r
  end.
Definition ticks (evs : list loop_event) : nat := List.length (filter is_tick evs).

(** A forced rewrite is pending when manual mode has been switched off since
    the last automatic wake-up. *)
Fixpoint rewrite_pending (m p : bool) (evs : list loop_event) : bool :=
  match evs with
  | [] => p
  | LTick _ :: r => rewrite_pending m (if m then p else false) r
  | LManual b :: r => rewrite_pending b (if b then p else true) r
  | LEnable _ _ :: r => rewrite_pending m p r
  end.
(** Last value written to a controller's Enabled property. *)
Fixpoint enabled_after (n : string) (b : bool) (evs : list loop_event) : bool :=
  match evs with
  | [] => b
  | LEnable m v :: r => enabled_after n (if String.eqb n m then v else b) r
  | _ :: r => enabled_after n b r
  end.

(** Thermal cycles (after the first one, at start-up) due in [n] automatic
    wake-ups when fans run every [F] ms and thermals every [T] ms. *)
Definition cycles_after (F T : Z) (n : nat) : Z :=
  match n with O => 0%Z | S k => (Z.of_nat k * F / T)%Z end.

(** Events addressed to zone [i] (C52). *)
Definition zone_events (i : nat) (evs : list (nat * loop_event)) : list loop_event :=
  map snd (filter (fun e => Nat.eqb (fst e) i) evs).

(** ** Reaction time (C51) *)

(** Whatever this wake-up polls of sensor [s] is a failure or a timeout. *)
Definition shows_bad (e : tick_env) (s : string) : Prop :=
  (forall v, pe_sensor (tk_fan e) s = Some v -> bad_reason (Some (pe_now (tk_fan e), v)) <> None) /\
  (forall v, pe_sensor (tk_therm e) s = Some v -> bad_reason (Some (pe_now (tk_therm e), v)) <> None).

(** ** The requester's name (C54) *)

(** The first controller whose request is [top], no earlier one reaching it;
    nobody if [top] is 0. *)
Definition leader (reqs : list (string * dbl)) (top : dbl) (name : string) : Prop :=
  (name = "" /\ forall r, In r reqs -> ~ dlt d0 (snd r)) \/
  (exists l1 l2, reqs = (l1 ++ (name, top) :: l2)%list /\ dlt d0 top /\
     forall r, In r l1 -> ~ dle top (snd r)).

(** ** The CSV log (C55) *)

Definition fan_cells (n : string) : list log_token :=
  [LText n; LText (n ++ "_raw"); LText (n ++ "_pwm"); LText (n ++ "_pwm_raw")].
Definition therm_cells (n : string) : list log_token := [LText n; LText (n ++ "_raw")].

(** A line of the file: cells separated by commas, then a newline. *)
Fixpoint csv_line (cells : list log_token) : list log_token :=
  match cells with
  | [] => [LEndl]
  | [c] => [c; LEndl]
  | c :: r => c :: LComma :: csv_line r
  end.
Definition csv_header (z : zone) : list log_token :=
  ([LText "epoch_ms"; LText "setpt"; LText "requester"] ++
   flat_map fan_cells (z_fanInputs z) ++ flat_map therm_cells (z_thermalInputs z) ++
   [LText "failsafe"])%list.
(** What a poll shows of a sensor. *)
Definition seen (env : poll_env) (n : string) : ValueCacheEntry :=
  match pe_sensor env n with Some v => Entry (sv_value v) (sv_unscaled v) | None => Entry d0 d0 end.
(** One row: setpoint, requester, four numbers for each fan input, two for each
    thermal input, failsafe state. *)
Definition csv_row (z : zone) (setpt : dbl) (requester : string)
    (fan : string -> ValueCacheEntry * ValueCacheEntry) (therm : string -> ValueCacheEntry)
    (failsafe : bool) : list log_token :=
  ([LStamp; LNum setpt; LText requester] ++
   flat_map (fun n => [LNum (scaled (fst (fan n))); LNum (unscaled (fst (fan n)));
                       LNum (scaled (snd (fan n))); LNum (unscaled (snd (fan n)))]) (z_fanInputs z) ++
   flat_map (fun n => [LNum (scaled (therm n)); LNum (unscaled (therm n))]) (z_thermalInputs z) ++
   [LBool failsafe])%list.

(** Last value sent to a fan, NaN if none. *)
Fixpoint last_written (n : string) (tr : list event) : dbl :=
  match tr with
  | [] => dnan
  | EvWrite m v _ :: r => if String.eqb n m then v else last_written n r
  | _ :: r => last_written n r
  end.
(** What the last poll showed, NaN before the first one. *)
Definition shown (p : option (Z * sensor_view)) : ValueCacheEntry :=
  match p with Some (_, v) => Entry (sv_value v) (sv_unscaled v) | None => Entry dnan dnan end.

(** The sensor is an input of the zone, must not be missing, and its last poll
    (if any) found it failed or timed out (C17-C21). *)
Definition failing (z0 : zone) (tr : list event) (s : string) : Prop :=
  is_input z0 s /\ ~ acceptable z0 s /\ bad_reason (last_poll s tr) <> None.
(** [p] is the largest failsafe percent of the failing sensors. *)
Definition top_percent (z0 : zone) (tr : list event) (p : dbl) : Prop :=
  (exists s, failing z0 tr s /\ deq p (own_percent z0 s)) /\
  (forall s, failing z0 tr s -> dle (own_percent z0 s) p).
