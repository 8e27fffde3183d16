(** * What the daemon shows on D-Bus and prints while it runs (C74-C78).

    Reads the recorded effects ([z_trace]) and the published objects; uses no
    method of the zone. *)
From Coq Require Import ZArith Bool List String.
From Verif Require Import Base Dbl PidModel ZoneModel LoopModel SpecZone.
Import ListNotations.
Local Open Scope string_scope.

(** ** Messages, in chronological order *)

(** "Zone ... fans, ... (failsafe) mode": zone, failsafe, percent, failing
    sensors with reasons. *)
Definition modes_in (tr : list event) : list (Z * bool * dbl * list (string * string)) :=
  flat_map (fun e => match e with EvFanMode i b p s => [(i, b, p, s)] | _ => [] end) (rev tr).
(** "PID Zone ... max SetPoint ... requested by ...": zone, setpoint, requester,
    failing sensors. *)
Definition requesters_in (tr : list event) : list (Z * dbl * string * list string) :=
  flat_map (fun e => match e with EvRequester i v n s => [(i, v, n, s)] | _ => [] end) (rev tr).
(** Complaints about a tuning file: global one or not, text. *)
Definition file_errors_in (tr : list event) : list (bool * string) :=
  flat_map (fun e => match e with EvFileError g t => [(g, t)] | _ => [] end) (rev tr).
(** What the zone hands to the failsafe log: zone, state, sensor, text. *)
Definition attempts_in (tr : list event) : list (Z * bool * string * string) :=
  flat_map (fun e => match e with EvFailsafeLog i b s t => [(i, b, s, t)] | _ => [] end) (rev tr).

(** [l] lists the failing sensors, each once, with its reason. *)
Definition lists_failing (z0 : zone) (tr : list event) (l : list (string * string)) : Prop :=
  NoDup (map fst l) /\
  forall s r, In (s, r) l <->
    is_input z0 s /\ ~ acceptable z0 s /\ bad_reason (last_poll s tr) = Some r.

(** ** Debug interface of a controller (C74) *)

(** Usable readings of a controller's inputs, with the sensors' names. *)
Definition named_readings (rd : readings_map) (ty : ThermalType) (inputs : list SensorInput)
  : list (string * dbl) :=
  flat_map (fun i => map (fun r => (si_name i, r)) (thermal_reading rd ty i)) inputs.

(** [n], showing [r], is the first of [rs] to reach the extreme: nobody beats it and
    all before it stay behind. *)
Definition first_lowest (rs : list (string * dbl)) (n : string) (r : dbl) : Prop :=
  exists l1 l2, rs = (l1 ++ (n, r) :: l2)%list /\
    (forall m x, In (m, x) l1 -> dlt r x) /\ (forall m x, In (m, x) l2 -> dle r x).
Definition first_highest (rs : list (string * dbl)) (n : string) (r : dbl) : Prop :=
  exists l1 l2, rs = (l1 ++ (n, r) :: l2)%list /\
    (forall m x, In (m, x) l1 -> dlt x r) /\ (forall m x, In (m, x) l2 -> dle x r).
(** [n] is the last of [rs] to change the running sum, to [s]. *)
Definition last_to_change_sum (rs : list (string * dbl)) (n : string) (s : dbl) : Prop :=
  exists l1 r l2, rs = (l1 ++ (n, r) :: l2)%list /\
    s = fold_left dadd (map snd l1 ++ [r]) d0 /\
    ~ deq (fold_left dadd (map snd l1) d0) s /\
    (forall k, deq s (fold_left dadd (map snd (firstn k l2)) s)).

(** Leader and input shown after a cycle that saw [rs], given the object before. *)
Definition shows_input (ty : ThermalType) (rs : list (string * dbl)) (o o' : ProcessObject) : Prop :=
  let stays := po_leader o' = po_leader o /\ po_input o' = po_input o in
  match ty with
  | margin =>
      ((forall n r, In (n, r) rs -> ~ dlt r dmax_float) /\ stays) \/
      first_lowest rs (po_leader o') (po_input o')
  | absolute =>
      ((forall n r, In (n, r) rs -> ~ dlt dlowest r) /\ stays) \/
      first_highest rs (po_leader o') (po_input o')
  | summation =>
      ((forall k, deq d0 (fold_left dadd (map snd (firstn k rs)) d0)) /\ stays) \/
      last_to_change_sum rs (po_leader o') (po_input o')
  end.

(** ** The fan mode message (C75) *)

(** What is printed for one fan controller: the state and percent just applied and the
    failing sensors; [new]: what the wake-up did, [l']: the loop after it. *)
Definition mode_line (z0 : zone) (new : list event) (l' : loop) (c : FanController)
    (m : Z * bool * dbl * list (string * string)) : Prop :=
  exists p sensors, m = (z_zoneId z0, getFailSafeMode (l_zone l'), p, sensors) /\
    lists_failing z0 (z_trace (l_zone l')) sensors /\
    forall n, In n (fan_inputs c) -> exists b, In (n, ddiv p (D 100), b) (writes_in new).

(** ** The requester message (C76) *)

(** The line that names the requester, for a zone now in state [z']. *)
Definition requester_line (z0 : zone) (z' : zone) (m : Z * dbl * string * list string) : Prop :=
  exists sensors, m = (z_zoneId z0, z_maximumSetPoint z', z_maximumSetPointName z', sensors) /\ NoDup sensors /\
    forall s, In s sensors <->
      is_input z0 s /\ ~ acceptable z0 s /\ bad_reason (last_poll s (z_trace z')) <> None /\
      ~ (exists a b, s = (a ++ "Fan" ++ b)%string).


(** Requester named by the most recent message, "" before the first one. *)
Fixpoint last_requester (tr : list event) : string :=
  match tr with
  | [] => ""
  | EvRequester _ _ n _ :: _ => n
  | _ :: r => last_requester r
  end.

(** ** Tuning files (C77) *)

(** The setpoint a tuning file asks for, and the complaint about its content. *)
Definition file_setpoint (c : file_content) : option dbl :=
  match c with FileInt v => if (100 <? v)%Z then Some (D v) else None | _ => None end.
Definition file_complaint (c : file_content) : list string :=
  match c with
  | FileInt v =>
      if (v <=? 0)%Z then ["File content could not be parsed to a number"]
      else if (v <=? 100)%Z then ["File must contain RPM value, not PWM value"] else []
  | _ => []
  end.
Definition without_tuning (f : flags) : flags :=
  Flags (STRICT_FAILSAFE_PWM f) (OFFLINE_FAILSAFE_PWM f) false (loggingEnabled f) (debugEnabled f).

(** ** What the zone hands to the failsafe log (C78) *)

(** Whether the polls of [tr] put the zone in failsafe. *)
Definition in_failsafe (z0 : zone) (tr : list event) : bool :=
  existsb (fun s => negb (smem s (z_missingAcceptable z0)) &&
                    match bad_reason (last_poll s tr) with Some _ => true | None => false end)
    (z_fanInputs z0 ++ z_thermalInputs z0).

(** Texts of a missing sensor. *)
Definition missing_text (z0 : zone) (s : string) : string :=
  if smem s (z_missingAcceptable z0) then "The sensor is missing but is acceptable."
  else "The sensor is missing.".

(** What one poll of [s] adds, after the polls of [tr]. *)
Definition poll_attempts (z0 : zone) (tr : list event) (s : string) (now : Z) (v : sensor_view)
  : list (Z * bool * string * string) :=
  let state := in_failsafe z0 (EvRead s now v :: tr) in
  if sv_failed v then [(z_zoneId z0, state, s, missing_text z0 s)]
  else if timed_out now v
  then [(z_zoneId z0, state, s, missing_text z0 s); (z_zoneId z0, state, s, "The sensor has timed out.")]
  else if negb (smem s (z_missingAcceptable z0)) &&
          match bad_reason (last_poll s tr) with Some _ => true | None => false end
  then [(z_zoneId z0, state, s, "The sensor has recovered.")]
  else [].

(** What the inputs add at start-up, before the first poll: every input is
    reported missing; the zone is in failsafe from the first one that must not be. *)
Fixpoint start_attempts (z0 : zone) (state : bool) (inputs : list string)
  : list (Z * bool * string * string) :=
  match inputs with
  | [] => []
  | s :: r =>
      let state := (state || negb (smem s (z_missingAcceptable z0)))%bool in
      (z_zoneId z0, state, s, missing_text z0 s) :: start_attempts z0 state r
  end.

(** Everything handed over along a trace (newest event first). *)
Fixpoint expected_attempts (z0 : zone) (tr : list event) : list (Z * bool * string * string) :=
  match tr with
  | [] => start_attempts z0 false (z_fanInputs z0 ++ z_thermalInputs z0)
  | EvRead s now v :: r => (expected_attempts z0 r ++ poll_attempts z0 r s now v)%list
  | _ :: r => expected_attempts z0 r
  end.
