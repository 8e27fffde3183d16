(** * Model of the PID and stepwise computations.

    Sources: pid/ec/pid.hpp, pid/ec/pid.cpp, pid/util.cpp,
    pid/pidcontroller.{hpp,cpp}, pid/ec/stepwise.{hpp,cpp}, and the
    hysteresis part of pid/stepwisecontroller.cpp. *)
From Coq Require Import ZArith Bool List.
From Verif Require Import Base Dbl.
Import ListNotations.

(** /repo/pid/ec/pid.hpp:10-14, [struct limits_t]. *)
Record limits : Type := Limits { lim_min : dbl; lim_max : dbl }.

(** /repo/pid/ec/pid.hpp:48-65, [struct pidinfo]: the configuration of a loop. *)
Record pidinfo : Type := PidInfo {
  checkHysterWithSetpt : bool;
  ts : dbl;
  proportionalCoeff : dbl;
  integralCoeff : dbl;
  derivativeCoeff : dbl;
  feedFwdOffset : dbl;
  feedFwdGain : dbl;
  integralLimit : limits;
  outLim : limits;
  slewNeg : dbl;
  slewPos : dbl;
  positiveHysteresis : dbl;
  negativeHysteresis : dbl
}.

(** /repo/pid/ec/pid.hpp:19-42, [struct pid_info_t].  The parameter fields the
    C++ struct repeats are grouped in [params]. *)
Record pid_info_t : Type := PidInfoT {
  initialized : bool;
  integral : dbl;
  lastOutput : dbl;
  lastError : dbl;
  params : pidinfo
}.

(** /repo/pid/ec/pid.hpp:19-42: the default member initialisers. *)
Definition pidinfo_default : pidinfo :=
  PidInfo false d0 d0 d0 d0 d0 d0 (Limits d0 d0) (Limits d0 d0) d0 d0 d0 d0.
(** /repo/pid/ec/pid.hpp:19-42. *)
Definition pid_info_default : pid_info_t :=
  PidInfoT false d0 d0 d0 pidinfo_default.

(** /repo/pid/util.cpp:14-31, [initializePIDStruct]: copies the parameters,
    leaves the four state fields as they are. *)
Definition initializePIDStruct (info : pid_info_t) (initial : pidinfo)
  : pid_info_t :=
  PidInfoT (initialized info) (integral info) (lastOutput info) (lastError info)
    (PidInfo
       (checkHysterWithSetpt initial)
       (ts initial)
       (proportionalCoeff initial)
       (integralCoeff initial)
       (derivativeCoeff initial)
       (feedFwdOffset initial)
       (feedFwdGain initial)
       (Limits (lim_min (integralLimit initial)) (lim_max (integralLimit initial)))
       (Limits (lim_min (outLim initial)) (lim_max (outLim initial)))
       (slewNeg initial)
       (slewPos initial)
       (positiveHysteresis initial)
       (negativeHysteresis initial)).

(** /repo/pid/ec/pid.cpp:20-31, [clamp]. *)
Definition clamp (x min max : dbl) : dbl :=
  if dltb x min then min
  else if dgtb x max then max
  else x.

(** /repo/pid/ec/logging.hpp:17-44, [struct PidCoreContext]. *)
Record PidCoreContext : Type := Ctx {
  ctx_input : dbl;
  ctx_setpoint : dbl;
  ctx_error : dbl;
  ctx_proportionalTerm : dbl;
  ctx_integralTerm1 : dbl;
  ctx_integralTerm2 : dbl;
  ctx_derivativeTerm : dbl;
  ctx_feedFwdTerm : dbl;
  ctx_output1 : dbl;
  ctx_output2 : dbl;
  ctx_minOut : dbl;
  ctx_maxOut : dbl;
  ctx_integralTerm3 : dbl;
  ctx_output3 : dbl;
  ctx_integralTerm : dbl;
  ctx_output : dbl
}.

(** /repo/pid/ec/pid.cpp:37-179, [pid], without the calls into the core logger
    (lines 40-56 and 173-176, modelled in LogModel.v): the new loop state and
    the context record the logger receives; the returned value is
    [ctx_output]. *)
Definition pid_eval (info : pid_info_t) (input setpoint : dbl)
  : pid_info_t * PidCoreContext :=
  let p := params info in
  (* 73-74 *)
  let error := dsub setpoint input in
  let proportionalTerm := dmul (proportionalCoeff p) error in
  (* 81-92 *)
  let use_i := dneb d0 (integralCoeff p) in
  let integralTerm1 :=
    if use_i
    then dadd (integral info) (dmul (dmul error (integralCoeff p)) (ts p))
    else d0 in
  let integralTerm2 :=
    if use_i
    then clamp integralTerm1 (lim_min (integralLimit p)) (lim_max (integralLimit p))
    else d0 in
  (* 95-96 *)
  let derivativeTerm :=
    dmul (derivativeCoeff p) (ddiv (dsub error (lastError info)) (ts p)) in
  (* 101-102 *)
  let feedFwdTerm := dmul (dadd setpoint (feedFwdOffset p)) (feedFwdGain p) in
  (* 106-110 *)
  let output1 :=
    dadd (dadd (dadd proportionalTerm integralTerm2) derivativeTerm) feedFwdTerm in
  let output2 := clamp output1 (lim_min (outLim p)) (lim_max (outLim p)) in
  (* 121-156 *)
  let neg := initialized info && dneb (slewNeg p) d0 in
  let pos := initialized info && dneb (slewPos p) d0 in
  let minOut :=
    if neg then dadd (lastOutput info) (dmul (slewNeg p) (ts p)) else d0 in
  let outputN :=
    if neg then (if dltb output2 minOut then minOut else output2) else output2 in
  let maxOut :=
    if pos then dadd (lastOutput info) (dmul (slewPos p) (ts p)) else d0 in
  let output3 :=
    if pos then (if dgtb outputN maxOut then maxOut else outputN) else outputN in
  let integralTerm3 :=
    if initialized info && (dneb (slewNeg p) d0 || dneb (slewPos p) d0)
    then dsub output3 proportionalTerm
    else integralTerm2 in
  (* 163-168 *)
  let integralTerm4 :=
    clamp integralTerm3 (lim_min (integralLimit p)) (lim_max (integralLimit p)) in
  (PidInfoT true integralTerm4 output3 error p,
   Ctx input setpoint error proportionalTerm integralTerm1 integralTerm2
     derivativeTerm feedFwdTerm output1 output2 minOut maxOut integralTerm3
     output3 integralTerm4 output3).

(** /repo/pid/ec/pid.cpp:37-179: new state and returned output. *)
Definition pid (info : pid_info_t) (input setpoint : dbl) : pid_info_t * dbl :=
  let '(info', ctx) := pid_eval info input setpoint in (info', ctx_output ctx).

(** /repo/pid/pidcontroller.hpp: state of a [PIDController] that matters here:
    the loop and [lastInput] (initially NaN). *)
Record pid_ctrl : Type := PidCtrl { pc_info : pid_info_t; pc_lastInput : dbl }.

(** /repo/pid/pidcontroller.cpp:13-86, [PIDController::calPIDOutput]. *)
Definition calPIDOutput (c : pid_ctrl) (setpt input : dbl) : pid_ctrl * dbl :=
  let info := pc_info c in
  let p := params info in
  if checkHysterWithSetpt p then
    if dgtb input (dadd setpt (positiveHysteresis p)) then
      (* 25-30, 46: info->lastOutput = output *)
      let '(info', output) := pid info input setpt in
      (PidCtrl (PidInfoT (initialized info') (integral info') output
                  (lastError info') (params info')) input, output)
    else if dltb input (dsub setpt (negativeHysteresis p)) then
      (* 35-37, 46 *)
      (PidCtrl (PidInfoT (initialized info) d0 d0 (lastError info) p) setpt, d0)
    else
      (* 42-43, 46 *)
      (PidCtrl info input, lastOutput info)
  else if deqb (positiveHysteresis p) d0 && deqb (negativeHysteresis p) d0 then
    (* 54-59 *)
    let '(info', output) := pid info input setpt in
    (PidCtrl info' input, output)
  else
    (* 65-81 *)
    let last :=
      if negb (disfinite (pc_lastInput c)) then input
      else if dgtb (dsub input (pc_lastInput c)) (positiveHysteresis p) then input
      else if dgtb (dsub (pc_lastInput c) input) (negativeHysteresis p) then input
      else pc_lastInput c in
    let '(info', output) := pid info last setpt in
    (PidCtrl info' last, output).

(** /repo/pid/pidcontroller.cpp:88-111, [PIDController::process], given the
    values returned by [setptProc] and [inputProc]; the result is the value
    passed to [outputProc]. *)
Definition pid_process (c : pid_ctrl) (setpt input : dbl) : pid_ctrl * dbl :=
  let '(c', output) := calPIDOutput c setpt input in
  let i := pc_info c' in
  (PidCtrl (PidInfoT (initialized i) (integral i) output (lastError i) (params i))
     (pc_lastInput c'), output).

(** A freshly created controller (pid/pidcontroller.hpp defaults followed by
    [initializePIDStruct], e.g. pid/fancontroller.cpp:38-40).
    /repo/pid/pidcontroller.hpp:22-42, /repo/pid/util.cpp:24-51. *)
Definition pid_ctrl_init (cfg : pidinfo) : pid_ctrl :=
  PidCtrl (initializePIDStruct pid_info_default cfg) dnan.

(** /repo/pid/ec/stepwise.hpp:26. *)
Definition maxStepwisePoints : nat := 20.

(** /repo/pid/ec/stepwise.hpp:28-36, [struct StepwiseInfo].  The two arrays of
    [maxStepwisePoints] doubles are functions on the index; only indices below
    20 exist in the C++ code and only those are read by the model. *)
Record StepwiseInfo : Type := Stepwise {
  sw_ts : dbl;
  sw_reading : nat -> dbl;
  sw_output : nat -> dbl;
  sw_positiveHysteresis : dbl;
  sw_negativeHysteresis : dbl;
  sw_isCeiling : bool
}.

(** /repo/pid/ec/stepwise.cpp:32-43: the loop from index [ii] with [n] indices
    left. *)
Fixpoint stepwise_loop (info : StepwiseInfo) (input : dbl) (ii n : nat)
    (value : dbl) : dbl :=
  match n with
  | O => value
  | S n' =>
      if disnan (sw_reading info ii) then value
      else if dgtb (sw_reading info ii) input then value
      else stepwise_loop info input (S ii) n' (sw_output info ii)
  end.

(** /repo/pid/ec/stepwise.cpp:27-46, [stepwise]. *)
Definition stepwise (info : StepwiseInfo) (input : dbl) : dbl :=
  stepwise_loop info input 1 (maxStepwisePoints - 1) (sw_output info 0).

(** /repo/pid/stepwisecontroller.hpp:54-60: the controller's own state. *)
Record stepwise_ctrl : Type := StepCtrl {
  sc_info : StepwiseInfo;
  sc_lastInput : dbl;
  sc_lastOutput : dbl
}.
(** /repo/pid/stepwisecontroller.hpp:56-60, /repo/pid/stepwisecontroller.cpp:70-84. *)
Definition stepwise_ctrl_init (info : StepwiseInfo) : stepwise_ctrl :=
  StepCtrl info dnan dnan.

(** /repo/pid/stepwisecontroller.cpp:37-68, [StepwiseController::process],
    given the value returned by [inputProc]; the result is the value passed to
    [outputProc]. *)
Definition stepwise_process (c : stepwise_ctrl) (input : dbl)
  : stepwise_ctrl * dbl :=
  let info := sc_info c in
  let output := sc_lastOutput c in
  let '(lastInput', output') :=
    if disnan output then (input, stepwise info input)
    else if dgtb (dsub input (sc_lastInput c)) (sw_positiveHysteresis info)
    then (input, stepwise info input)
    else if dgtb (dsub (sc_lastInput c) input) (sw_negativeHysteresis info)
    then (input, stepwise info input)
    else (sc_lastInput c, output) in
  (StepCtrl info lastInput' output', output').
