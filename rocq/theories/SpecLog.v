(** * Vocabulary of the logging properties (C38-C41, C48, C56, C57). *)
From Coq Require Import ZArith Bool List String Ascii.
From Verif Require Import Base Dbl PidModel LogModel.
Import ListNotations.
Local Open Scope string_scope.
Local Open Scope Z_scope.

(** ** Failsafe log *)

(** The two widths of [size_t]. *)
Definition size32 : Z := 2 ^ 32.
Definition size64 : Z := 2 ^ 64.

(** What the last of a sequence of log attempts prints. *)
Definition prints (size max : Z) (start : bool) (h : list fs_attempt) (a : fs_attempt) : option fs_line :=
  last (snd (fs_run (fslogger_new size max start) (h ++ [a]))) None.

(** The times at which something is printed. *)
Definition print_times (h : list fs_attempt) (out : list (option fs_line)) : list Z :=
  flat_map (fun '(a, o) => match o with Some _ => [fa_now a] | None => [] end) (combine h out).

(** A clock that never goes back and fits 64 bits. *)
Fixpoint clock_from (t : Z) (ts : list Z) : Prop :=
  match ts with
  | [] => True
  | x :: r => t <= x < 2 ^ 64 /\ clock_from x r
  end.

(** How many of the times lie in [t, t + 1 s). *)
Definition in_second (t : Z) (ts : list Z) : Z :=
  Z.of_nat (List.length (filter (fun x => (t <=? x) && (x <? t + 1000)) ts)).

(** The failsafe state last reported, or the state at the start. *)
Definition state_after (start : bool) (h : list fs_attempt) : bool := last (map fa_failsafe h) start.

Definition message (a : fs_attempt) : string := fa_location a ++ " @ " ++ fa_reason a.

(** The log attempts that concern a zone: those of its sensors and its own. *)
Definition concerns (z : fs_zone) (op : fs_op) : list fs_attempt :=
  match op with
  | FsSensor n a => if smem n (fz_sensors z) then [a] else []
  | FsZoneOp id a => if id =? fz_id z then [a] else []
  end.
(** The lines printed for a zone. *)
Definition lines_of_zone (id : Z) (out : list (Z * fs_line)) : list fs_line :=
  flat_map (fun '(z, x) => if z =? id then [x] else []) out.
Definition printed (os : list (option fs_line)) : list fs_line :=
  flat_map (fun o => match o with Some x => [x] | None => [] end) os.

(** ** Core log *)

(** The contexts written for a PID, newest first, with their times. *)
Definition lines (name : string) (w : core_world) : list (Z * PidCoreContext) :=
  flat_map (fun '(n, _, x) =>
    match x with
    | AContext t c => if String.eqb n name then [(t, c)] else []
    | _ => [] end) (cw_acts w).

(** The context of an evaluation, and that of the last evaluation of a PID. *)
Definition context_of (o : core_op) : PidCoreContext :=
  snd (pid_eval (co_info o) (co_input o) (co_setpoint o)).
Definition last_eval (name : string) (ops : list core_op) : option PidCoreContext :=
  fold_left (fun a o => if String.eqb (co_name o) name then Some (context_of o) else a) ops None.

(** The PID has a log file. *)
Definition logged (name : string) (w : core_world) : Prop := mget name (cw_logs w) <> None.

(** Two contexts with the same numbers. *)
Definition same_numbers (a b : PidCoreContext) : Prop :=
  deq (ctx_input a) (ctx_input b) /\ deq (ctx_setpoint a) (ctx_setpoint b) /\
  deq (ctx_error a) (ctx_error b) /\ deq (ctx_proportionalTerm a) (ctx_proportionalTerm b) /\
  deq (ctx_integralTerm1 a) (ctx_integralTerm1 b) /\ deq (ctx_integralTerm2 a) (ctx_integralTerm2 b) /\
  deq (ctx_derivativeTerm a) (ctx_derivativeTerm b) /\ deq (ctx_feedFwdTerm a) (ctx_feedFwdTerm b) /\
  deq (ctx_output1 a) (ctx_output1 b) /\ deq (ctx_output2 a) (ctx_output2 b) /\
  deq (ctx_minOut a) (ctx_minOut b) /\ deq (ctx_maxOut a) (ctx_maxOut b) /\
  deq (ctx_integralTerm3 a) (ctx_integralTerm3 b) /\ deq (ctx_output3 a) (ctx_output3 b) /\
  deq (ctx_integralTerm a) (ctx_integralTerm b) /\ deq (ctx_output a) (ctx_output b).

(** When an evaluation [o] that follows [ops] must produce a line: it is the
    first one of its loop, or some number changed, or a minute has passed since
    the last line. *)
Definition line_due (cc : core_conf) (ops : list core_op) (o : core_op) : Prop :=
  initialized (co_info o) = false \/
  (forall c, last_eval (co_name o) ops = Some c -> ~ same_numbers c (context_of o)) \/
  (exists t c rest, lines (co_name o) (core_run cc ops) = (t, c) :: rest /\ 60000 <= co_now o - t).

Definition is_write (x : log_act) : Prop := x <> AOpen.

Definition n_of (c : ascii) : Z := Z.of_N (N_of_ascii c).
Definition letter_or_digit (c : ascii) : Prop :=
  48 <= n_of c <= 57 \/ 65 <= n_of c <= 90 \/ 97 <= n_of c <= 122.
(** [short] is [s] with everything but letters and digits left out. *)
Inductive reduced : string -> string -> Prop :=
| reduced_nil : reduced EmptyString EmptyString
| reduced_keep c s short : letter_or_digit c -> reduced s short -> reduced (String c s) (String c short)
| reduced_drop c s short : ~ letter_or_digit c -> reduced s short -> reduced (String c s) short.

(** ** Throttle *)

(** The times that are let through. *)
Definition let_through (ts : list Z) (bs : list bool) : list Z :=
  flat_map (fun '(t, b) => if b : bool then [t] else []) (combine ts bs).
