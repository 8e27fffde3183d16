(** * Logging: failsafe log, PID core log, warning throttle.

    Sources: failsafeloggers/{failsafe_logger.cpp,failsafe_logger.hpp,
    failsafe_logger_utility.hpp,builder.cpp}, pid/ec/logging.{hpp,cpp},
    pid/ec/pid.cpp (the calls into the logger), pid/zone.cpp:35-60. *)
From Coq Require Import ZArith Bool List String Ascii.
From Verif Require Import Base Dbl PidModel.
Import ListNotations.
Local Open Scope string_scope.
Local Open Scope Z_scope.

(** ** FailsafeLogger *)

(** /repo/failsafeloggers/failsafe_logger.hpp:45-53, the members.
    [_logsInCurrentState] is a set; the list holds its members.  [fl_size] is the
    number of values of [size_t], the type of the elements of [_logTimestamps]
    (line 51): 2^32 or 2^64, depending on the machine. *)
Record fslogger : Type := FsLogger {
  fl_size : Z;
  fl_max : Z;
  fl_state : bool;
  fl_stamps : list Z;
  fl_seen : list string
}.

(** /repo/failsafeloggers/failsafe_logger.hpp:32-36, constructor. *)
Definition fslogger_new (size logMaxCountPerSecond : Z) (currentFailsafeState : bool) : fslogger :=
  FsLogger size logMaxCountPerSecond currentFailsafeState [] [].

(** One call of [outputFailsafeLog]; the clock is an argument ([uint64_t] of
    milliseconds).
    The parameters of /repo/failsafeloggers/failsafe_logger.cpp:11-13 and the clock of :16. *)
Record fs_attempt : Type := FsAttempt {
  fa_now : Z;
  fa_failsafe : bool;
  fa_location : string;
  fa_reason : string
}.

(** What the call prints. /repo/failsafeloggers/failsafe_logger.cpp:47-58. *)
Inductive fs_line : Type :=
| LIn (location reason : string)       (* "is in failsafe mode" *)
| LLeaves (location reason : string).  (* "leaves failsafe mode" *)

(** The loop of lines 22-26; the difference is unsigned 64 bit.
    /repo/failsafeloggers/failsafe_logger.cpp:22-26. *)
Fixpoint drop_old (now : Z) (stamps : list Z) : list Z :=
  match stamps with
  | [] => []
  | t :: r => if 1000 <=? (now - t) mod 2 ^ 64 then drop_old now r else stamps
  end.

(** /repo/failsafeloggers/failsafe_logger.cpp:11-61, [outputFailsafeLog].  The
    time is 64 bits wide; [push_back] cuts it to a [size_t]. *)
Definition outputFailsafeLog (l : fslogger) (a : fs_attempt) : fslogger * option fs_line :=
  let stamps := drop_old (fa_now a) (fl_stamps l) in
  let origin := fl_state l in
  let changed := negb (Bool.eqb (fa_failsafe a) origin) in
  let seen := if changed then [] else fl_seen l in
  let state := if changed then fa_failsafe a else origin in
  let locationReason := (fa_location a ++ " @ " ++ fa_reason a)%string in
  if (fl_max l <=? Z.of_nat (List.length stamps)) || smem locationReason seen
  then (FsLogger (fl_size l) (fl_max l) state stamps seen, None)
  else
    (FsLogger (fl_size l) (fl_max l) state (stamps ++ [fa_now a mod fl_size l]) (locationReason :: seen),
     if fa_failsafe a then Some (LIn (fa_location a) (fa_reason a))
     else if origin then Some (LLeaves (fa_location a) (fa_reason a))
     else None).

(** Any number of calls: the final logger and, for every call, what it printed.
    Calls of /repo/failsafeloggers/failsafe_logger.cpp:11-61. *)
Fixpoint fs_run (l : fslogger) (h : list fs_attempt) : fslogger * list (option fs_line) :=
  match h with
  | [] => (l, [])
  | a :: r =>
      let '(l1, o) := outputFailsafeLog l a in
      let '(l2, os) := fs_run l1 r in
      (l2, o :: os)
  end.

(** ** Routing of sensor messages to zones *)

(** What the builder asks of a zone: its id, whether it is in failsafe mode,
    its sensor names. What /repo/failsafeloggers/builder.cpp:32-38 asks of a zone. *)
Record fs_zone : Type := FsZone {
  fz_id : Z;
  fz_failsafe : bool;
  fz_sensors : list string
}.

(** The two globals of failsafe_logger_utility.cpp:11-17.
    /repo/failsafeloggers/failsafe_logger_utility.cpp:11-17. *)
Record fs_registry : Type := FsRegistry {
  fr_loggers : list (Z * fslogger);
  fr_zones : smap (list Z)
}.

(** Lookup in the map of /repo/failsafeloggers/failsafe_logger_utility.cpp:11-14. *)
Fixpoint zget {V : Type} (k : Z) (m : list (Z * V)) : option V :=
  match m with
  | [] => None
  | (k', v) :: r => if k =? k' then Some v else zget k r
  end.
(** Assignment in the map of /repo/failsafeloggers/failsafe_logger_utility.cpp:11-14. *)
Fixpoint zset {V : Type} (k : Z) (v : V) (m : list (Z * V)) : list (Z * V) :=
  match m with
  | [] => [(k, v)]
  | (k', v') :: r => if k =? k' then (k, v) :: r else (k', v') :: zset k v r
  end.

(** The lookup [sensorNameToZoneId[sensorName]] (creates an empty entry).
    /repo/failsafeloggers/failsafe_logger_utility.hpp:30. *)
Definition zones_of (name : string) (r : fs_registry) : list Z :=
  match mget name (fr_zones r) with Some l => l | None => [] end.

(** /repo/failsafeloggers/builder.cpp:21-53, [buildFailsafeLoggers]; the zones
    in iteration order of the unordered map. *)
Definition add_sensor (zoneId : Z) (m : smap (list Z)) (sensorName : string) : smap (list Z) :=
  let l := match mget sensorName m with Some l => l | None => [] end in
  mset sensorName (if existsb (Z.eqb zoneId) l then l else (l ++ [zoneId])%list) m.
(** /repo/failsafeloggers/builder.cpp:21-53. *)
Definition buildFailsafeLoggers (size : Z) (zones : list fs_zone) (logMaxCountPerSecond : Z) : fs_registry :=
  fold_left
    (fun r z =>
       FsRegistry (zset (fz_id z) (fslogger_new size logMaxCountPerSecond (fz_failsafe z)) (fr_loggers r))
         (fold_left (add_sensor (fz_id z)) (fz_sensors z) (fr_zones r)))
    zones (FsRegistry [] []).

(** /repo/failsafeloggers/failsafe_logger_utility.hpp:43-52,
    [outputFailsafeLogWithZone]: the new registry and what is printed, tagged
    with the zone. *)
Definition outputFailsafeLogWithZone (zoneId : Z) (a : fs_attempt) (r : fs_registry)
  : fs_registry * list (Z * fs_line) :=
  match zget zoneId (fr_loggers r) with
  | None => (r, [])
  | Some l =>
      let '(l', o) := outputFailsafeLog l a in
      (FsRegistry (zset zoneId l' (fr_loggers r)) (fr_zones r),
       match o with Some x => [(zoneId, x)] | None => [] end)
  end.

(** /repo/failsafeloggers/failsafe_logger_utility.hpp:26-38,
    [outputFailsafeLogWithSensor]. *)
Definition outputFailsafeLogWithSensor (sensorName : string) (a : fs_attempt) (r : fs_registry)
  : fs_registry * list (Z * fs_line) :=
  fold_left
    (fun '(r, out) zoneId =>
       let '(r', o) := outputFailsafeLogWithZone zoneId a r in (r', (out ++ o)%list))
    (zones_of sensorName r) (r, []).

(** Any number of calls, with everything printed, oldest first.
    The two functions of /repo/failsafeloggers/failsafe_logger_utility.hpp:26-52. *)
Inductive fs_op : Type :=
| FsSensor (sensorName : string) (a : fs_attempt)
| FsZoneOp (zoneId : Z) (a : fs_attempt).
(** One call of /repo/failsafeloggers/failsafe_logger_utility.hpp:26-52. *)
Definition fs_exec1 (op : fs_op) (r : fs_registry) : fs_registry * list (Z * fs_line) :=
  match op with
  | FsSensor n a => outputFailsafeLogWithSensor n a r
  | FsZoneOp z a => outputFailsafeLogWithZone z a r
  end.
(** Any number of calls of /repo/failsafeloggers/failsafe_logger_utility.hpp:26-52. *)
Fixpoint fs_exec (r : fs_registry) (ops : list fs_op) : fs_registry * list (Z * fs_line) :=
  match ops with
  | [] => (r, [])
  | op :: rest =>
      let '(r1, o) := fs_exec1 op r in
      let '(r2, os) := fs_exec r1 rest in
      (r2, (o ++ os)%list)
  end.

(** ** PID core log *)

(** /repo/pid/ec/logging.hpp:42-43, the defaulted comparison of two contexts:
    member by member, comparing doubles. *)
Definition ctx_eqb (a b : PidCoreContext) : bool :=
  deqb (ctx_input a) (ctx_input b) && deqb (ctx_setpoint a) (ctx_setpoint b) &&
  deqb (ctx_error a) (ctx_error b) && deqb (ctx_proportionalTerm a) (ctx_proportionalTerm b) &&
  deqb (ctx_integralTerm1 a) (ctx_integralTerm1 b) && deqb (ctx_integralTerm2 a) (ctx_integralTerm2 b) &&
  deqb (ctx_derivativeTerm a) (ctx_derivativeTerm b) && deqb (ctx_feedFwdTerm a) (ctx_feedFwdTerm b) &&
  deqb (ctx_output1 a) (ctx_output1 b) && deqb (ctx_output2 a) (ctx_output2 b) &&
  deqb (ctx_minOut a) (ctx_minOut b) && deqb (ctx_maxOut a) (ctx_maxOut b) &&
  deqb (ctx_integralTerm3 a) (ctx_integralTerm3 b) && deqb (ctx_output3 a) (ctx_output3 b) &&
  deqb (ctx_integralTerm a) (ctx_integralTerm b) && deqb (ctx_output a) (ctx_output b).

(** [PidCoreContext()]. /repo/pid/ec/logging.hpp:60, /repo/pid/ec/logging.cpp:218. *)
Definition ctx_zero : PidCoreContext := Ctx d0 d0 d0 d0 d0 d0 d0 d0 d0 d0 d0 d0 d0 d0 d0 d0.

(** /repo/pid/ec/logging.hpp:48-56, [struct PidCoreLog]; the streams are
    represented by the path they were opened on.  Milliseconds. *)
Record PidCoreLog : Type := CoreLog {
  pl_nameClean : string;
  pl_fileContext : string;
  pl_fileCoeffs : string;
  pl_lastLog : Z;
  pl_lastContext : PidCoreContext
}.

(** What happens to files, newest first: the PID that acts, the path, the act.
    /repo/pid/ec/logging.cpp:170, 178, 204-214, 266. *)
Inductive log_act : Type :=
| AOpen                                     (* created or truncated *)
| AHeader
| ACoeffs (now : Z) (info : pid_info_t)
| AContext (now : Z) (c : PidCoreContext).
(** [nameToLog], /repo/pid/ec/logging.cpp:25, and the files. *)
Record core_world : Type := CoreWorld {
  cw_logs : smap PidCoreLog;
  cw_acts : list (string * string * log_act)
}.
(** /repo/pid/ec/logging.cpp:25: empty at start-up. *)
Definition core_init : core_world := CoreWorld [] [].
(** Records an act of /repo/pid/ec/logging.cpp:170-266. *)
Definition act (name path : string) (x : log_act) (w : core_world) : core_world :=
  CoreWorld (cw_logs w) ((name, path, x) :: cw_acts w).

(** /repo/pid/ec/logging.cpp:27-43, [CharValid]. *)
Definition CharValid (ch : ascii) : bool :=
  let n := N_of_ascii ch in
  ((65 <=? n)%N && (n <=? 90)%N) || ((97 <=? n)%N && (n <=? 122)%N) || ((48 <=? n)%N && (n <=? 57)%N).

(** /repo/pid/ec/logging.cpp:45-59, [StrClean]. *)
Fixpoint StrClean (s : string) : string :=
  match s with
  | EmptyString => EmptyString
  | String c r => if CharValid c then String c (StrClean r) else StrClean r
  end.

(** /repo/pid/tuning.cpp: the logging directory and the switch. *)
Record core_conf : Type := CoreConf { coreLoggingEnabled : bool; loggingPath : string }.

(** /repo/pid/ec/logging.cpp:122-219, [LogInit].  [opens path] says whether a
    stream can be opened on the path.  A failed open of the context file
    creates nothing; a failed open of the coefficient file leaves the context
    file created (and closed). *)
Definition LogInit (cc : core_conf) (opens : string -> bool) (msNow : Z) (name : string)
    (info : pid_info_t) (w : core_world) : core_world :=
  if negb (coreLoggingEnabled cc) then w
  else if String.eqb name "" then w
  else
    let cleanName := StrClean name in
    if String.eqb cleanName "" then w
    else
      let finish (l : PidCoreLog) (w : core_world) :=
        let w := act name (pl_fileCoeffs l) (ACoeffs msNow info) w in
        CoreWorld (mset name (CoreLog (pl_nameClean l) (pl_fileContext l) (pl_fileCoeffs l) 0 ctx_zero)
                     (cw_logs w)) (cw_acts w) in
      match mget name (cw_logs w) with
      | Some l => finish l w
      | None =>
          if existsb (fun e => String.eqb (pl_nameClean (snd e)) cleanName) (cw_logs w) then w
          else
            let filec := (loggingPath cc ++ "/pidcore." ++ cleanName)%string in
            let filef := (loggingPath cc ++ "/pidcoeffs." ++ cleanName)%string in
            if negb (opens filec) then w
            else
              let w := act name filec AOpen w in
              if negb (opens filef) then w
              else
                let w := act name filef AOpen w in
                let l := CoreLog cleanName filec filef 0 ctx_zero in
                let w := CoreWorld (mset name l (cw_logs w)) (cw_acts w) in
                let w := act name filec AHeader w in
                let w := act name filef AHeader w in
                finish l w
      end.

(** /repo/pid/ec/logging.cpp:232-267, [LogContext], on the log of [name]. *)
Definition should_log (l : PidCoreLog) (msNow : Z) (c : PidCoreContext) : bool :=
  (if pl_lastLog l =? 0 then true else 60 * 1000 <=? msNow - pl_lastLog l) ||
  negb (ctx_eqb (pl_lastContext l) c).
(** /repo/pid/ec/logging.cpp:232-267. *)
Definition LogContext (msNow : Z) (name : string) (c : PidCoreContext) (w : core_world) : core_world :=
  match mget name (cw_logs w) with
  | None => w
  | Some l =>
      if should_log l msNow c
      then act name (pl_fileContext l) (AContext msNow c)
             (CoreWorld (mset name (CoreLog (pl_nameClean l) (pl_fileContext l) (pl_fileCoeffs l) msNow c)
                           (cw_logs w)) (cw_acts w))
      else w
  end.

(** /repo/pid/ec/pid.cpp:37-179, [pid], with the calls into the logger (lines
    40-56, 173-176); [nameptr] is never null in the daemon
    (pidcontroller.cpp:25, 54, 81).  [init_now] and [now] are the two readings of the
    clock. *)
Definition pid_logged (cc : core_conf) (opens : string -> bool) (init_now now : Z) (name : string)
    (info : pid_info_t) (input setpoint : dbl) (w : core_world)
  : core_world * pid_info_t * dbl :=
  let w := if initialized info then w else LogInit cc opens init_now name info w in
  let '(info', c) := pid_eval info input setpoint in
  (LogContext now name c w, info', ctx_output c).

(** One evaluation of some PID loop, and any number of them.
    [initializePIDStruct] (/repo/pid/util.cpp) or [pid] (/repo/pid/ec/pid.cpp:37-179). *)
Record core_op : Type := CoreOp {
  co_opens : string -> bool;
  co_init_now : Z;
  co_now : Z;
  co_name : string;
  co_info : pid_info_t;
  co_input : dbl;
  co_setpoint : dbl
}.
(** One call of /repo/pid/ec/pid.cpp:37-179 or of [LogInit], /repo/pid/ec/logging.cpp:122-219. *)
Definition core_step (cc : core_conf) (w : core_world) (o : core_op) : core_world :=
  fst (fst (pid_logged cc (co_opens o) (co_init_now o) (co_now o) (co_name o) (co_info o)
              (co_input o) (co_setpoint o) w)).
(** Any number of such calls, /repo/pid/ec/pid.cpp:37-179. *)
Definition core_run (cc : core_conf) (ops : list core_op) : core_world :=
  fold_left (core_step cc) ops core_init.

(** ** Warning throttle *)

(** /repo/pid/zone.cpp:35-60, [allowThrottle]: [None] is [first == true].
    Nanoseconds. *)
Definition allowThrottle (pace : Z) (st : option Z) (now : Z) : option Z * bool :=
  match st with
  | None => (Some now, true)
  | Some last => if now - last <? pace then (Some last, false) else (Some now, true)
  end.
(** /repo/pid/zone.cpp:287, [throttlePace]: 3 s. *)
Definition throttlePace : Z := 3 * 1000 * 1000 * 1000.

(** The warnings of a sequence of failed reads at the given times: which are
    printed.  The throttle is shared by all zones and files.
    Calls from /repo/pid/zone.cpp:322-330. *)
Fixpoint throttle_run (pace : Z) (st : option Z) (ts : list Z) : list bool :=
  match ts with
  | [] => []
  | t :: r => let '(st', b) := allowThrottle pace st t in b :: throttle_run pace st' r
  end.
