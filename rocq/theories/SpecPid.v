(** * Specification vocabulary for the PID and stepwise loops (C01-C10).

    Only configuration records, the entry points of PidModel and the double
    operations of Dbl are used here; none of the internal terms of [pid_eval]
    is. *)
From Coq Require Import ZArith Bool List.
From Verif Require Import Base Dbl PidModel.
Import ListNotations.

(** One evaluation request: (input, setpoint). *)
Definition sample : Type := (dbl * dbl)%type.

(** State of the loop after a history, and the output it returns next. *)
Definition pid_state (cfg : pidinfo) (h : list sample) : pid_info_t :=
  fold_left (fun i x => fst (pid i (fst x) (snd x))) h
    (initializePIDStruct pid_info_default cfg).
Definition pid_out (cfg : pidinfo) (h : list sample) (x : sample) : dbl :=
  snd (pid (pid_state cfg h) (fst x) (snd x)).

(** The same for a controller ([PIDController::process]) with hysteresis. *)
Definition ctrl_state (cfg : pidinfo) (h : list sample) : pid_ctrl :=
  fold_left (fun c x => fst (pid_process c (snd x) (fst x))) h (pid_ctrl_init cfg).
Definition ctrl_out (cfg : pidinfo) (h : list sample) (x : sample) : dbl :=
  snd (pid_process (ctrl_state cfg h) (snd x) (fst x)).

(** Outputs of a whole history. *)
Fixpoint pid_outs_from (i : pid_info_t) (h : list sample) : list dbl :=
  match h with
  | [] => []
  | x :: r => let '(i', o) := pid i (fst x) (snd x) in o :: pid_outs_from i' r
  end.
Definition pid_outs (cfg : pidinfo) (h : list sample) : list dbl :=
  pid_outs_from (initializePIDStruct pid_info_default cfg) h.
Fixpoint ctrl_outs_from (c : pid_ctrl) (h : list sample) : list dbl :=
  match h with
  | [] => []
  | x :: r => let '(c', o) := pid_process c (snd x) (fst x) in o :: ctrl_outs_from c' r
  end.
Definition ctrl_outs (cfg : pidinfo) (h : list sample) : list dbl :=
  ctrl_outs_from (pid_ctrl_init cfg) h.

(** A value inside closed limits, or NaN. *)
Definition in_limits_or_nan (l : limits) (x : dbl) : Prop :=
  is_nan x = true \/ (dle (lim_min l) x /\ dle x (lim_max l)).
Definition in_limits (l : limits) (x : dbl) : Prop :=
  dle (lim_min l) x /\ dle x (lim_max l).

Definition limits_ordered (l : limits) : Prop := dle (lim_min l) (lim_max l).

Definition sane_slew (cfg : pidinfo) : Prop :=
  dle (slewNeg cfg) d0 /\ dle d0 (slewPos cfg) /\ dle d0 (ts cfg).

(** ** The documented formula (C04)

    [spec_mem] is what a loop has to remember between evaluations. *)
Record spec_mem : Type := SpecMem { m_integral : dbl; m_error : dbl; m_output : dbl }.

Definition limit (l : limits) (x : dbl) : dbl :=
  if dltb x (lim_min l) then lim_min l
  else if dltb (lim_max l) x then lim_max l else x.

(** P + I + D + FF limited to [outLim]; [mi] and [me] are the remembered
    integral and error. *)
Definition spec_P (c : pidinfo) (x : sample) : dbl :=
  dmul (proportionalCoeff c) (dsub (snd x) (fst x)).
Definition spec_I (c : pidinfo) (mi : dbl) (x : sample) : dbl :=
  if deqb (integralCoeff c) d0 then d0
  else limit (integralLimit c)
         (dadd mi (dmul (dmul (dsub (snd x) (fst x)) (integralCoeff c)) (ts c))).
Definition spec_D (c : pidinfo) (me : dbl) (x : sample) : dbl :=
  dmul (derivativeCoeff c) (ddiv (dsub (dsub (snd x) (fst x)) me) (ts c)).
Definition spec_FF (c : pidinfo) (x : sample) : dbl :=
  dmul (dadd (snd x) (feedFwdOffset c)) (feedFwdGain c).
Definition spec_unslewed (c : pidinfo) (mi me : dbl) (x : sample) : dbl :=
  limit (outLim c)
    (dadd (dadd (dadd (spec_P c x) (spec_I c mi x)) (spec_D c me x)) (spec_FF c x)).

(** Rate limiting relative to the previous output. *)
Definition spec_slew (c : pidinfo) (prev x : dbl) : dbl :=
  let lo := if deqb (slewNeg c) d0 then x
            else dmax x (dadd prev (dmul (slewNeg c) (ts c))) in
  if deqb (slewPos c) d0 then lo
  else dmin lo (dadd prev (dmul (slewPos c) (ts c))).

Definition spec_step (c : pidinfo) (m : option spec_mem) (x : sample) : spec_mem :=
  match m with
  | None =>
      SpecMem (limit (integralLimit c) (spec_I c d0 x))
              (dsub (snd x) (fst x))
              (spec_unslewed c d0 d0 x)
  | Some m =>
      let u := spec_unslewed c (m_integral m) (m_error m) x in
      let o := spec_slew c (m_output m) u in
      let i := if deqb (slewNeg c) d0 && deqb (slewPos c) d0
               then spec_I c (m_integral m) x
               else dsub o (spec_P c x) in
      SpecMem (limit (integralLimit c) i) (dsub (snd x) (fst x)) o
  end.

Fixpoint spec_outs_from (c : pidinfo) (m : option spec_mem) (h : list sample)
  : list dbl :=
  match h with
  | [] => []
  | x :: r => let m' := spec_step c m x in m_output m' :: spec_outs_from c (Some m') r
  end.
Definition spec_outs (c : pidinfo) (h : list sample) : list dbl :=
  spec_outs_from c None h.

(** ** Bounded magnitudes (C06) *)
Definition mag_le (k : Z) (x : dbl) : Prop :=
  dfinite x /\ dle (D2 (-1) k) x /\ dle x (D2 1 k).

Definition bounded_cfg (c : pidinfo) : Prop :=
  Forall (mag_le 200)
    [ts c; proportionalCoeff c; integralCoeff c; derivativeCoeff c;
     feedFwdOffset c; feedFwdGain c;
     lim_min (integralLimit c); lim_max (integralLimit c);
     lim_min (outLim c); lim_max (outLim c); slewNeg c; slewPos c]
  /\ dle (D2 1 (-100)) (ts c).
Definition bounded_sample (x : sample) : Prop := mag_le 200 (fst x) /\ mag_le 200 (snd x).

(** ** Input hysteresis (C07)

    [held pos neg prev rs us]: starting from the value in use [prev] (not
    finite when there is none), the readings [rs] put the values [us] in use. *)
Definition outside_band (pos neg prev r : dbl) : Prop :=
  dlt pos (dsub r prev) \/ dlt neg (dsub prev r).
Inductive held (pos neg : dbl) : dbl -> list dbl -> list dbl -> Prop :=
| held_nil prev : held pos neg prev [] []
| held_first prev r rs us :
    disfinite prev = false -> held pos neg r rs us ->
    held pos neg prev (r :: rs) (r :: us)
| held_moves prev r rs us :
    disfinite prev = true -> outside_band pos neg prev r -> held pos neg r rs us ->
    held pos neg prev (r :: rs) (r :: us)
| held_keeps prev r rs us :
    disfinite prev = true -> ~ outside_band pos neg prev r -> held pos neg prev rs us ->
    held pos neg prev (r :: rs) (prev :: us).

(** ** Stepwise tables (C09, C10) *)

(** [lookup_is t x v]: [v] is the output of point [i], every point from 1 to
    [i] is usable (not NaN and not above [x]) and the next one is not. *)
Definition usable (t : StepwiseInfo) (x : dbl) (j : nat) : Prop :=
  is_nan (sw_reading t j) = false /\ ~ dlt x (sw_reading t j).
Definition lookup_is (t : StepwiseInfo) (x v : dbl) : Prop :=
  exists i, (i < 20)%nat /\ v = sw_output t i /\
    (forall j, (1 <= j <= i)%nat -> usable t x j) /\
    ((i = 19)%nat \/ ~ usable t x (S i)).

(** A table with [n] points, readings strictly increasing. *)
Definition increasing_table (t : StepwiseInfo) (n : nat) : Prop :=
  (1 <= n <= 20)%nat /\
  (forall i, (i < n)%nat -> notnan (sw_reading t i)) /\
  ((n < 20)%nat -> is_nan (sw_reading t n) = true) /\
  (forall i j, (i < j < n)%nat -> dlt (sw_reading t i) (sw_reading t j)).

(** Outputs of a stepwise controller over a list of inputs. *)
Fixpoint step_outs_from (c : stepwise_ctrl) (h : list dbl) : list dbl :=
  match h with
  | [] => []
  | x :: r => let '(c', o) := stepwise_process c x in o :: step_outs_from c' r
  end.
Definition step_outs (t : StepwiseInfo) (h : list dbl) : list dbl :=
  step_outs_from (stepwise_ctrl_init t) h.

(** [step_trace t prev xs os]: [prev] is the input of the last table lookup
    and its result. *)
Inductive step_trace (t : StepwiseInfo) : option (dbl * dbl) -> list dbl -> list dbl -> Prop :=
| st_nil prev : step_trace t prev [] []
| st_first x o xs os :
    lookup_is t x o -> step_trace t (Some (x, o)) xs os ->
    step_trace t None (x :: xs) (o :: os)
| st_moves x0 o0 x o xs os :
    outside_band (sw_positiveHysteresis t) (sw_negativeHysteresis t) x0 x
      \/ is_nan o0 = true ->
    lookup_is t x o -> step_trace t (Some (x, o)) xs os ->
    step_trace t (Some (x0, o0)) (x :: xs) (o :: os)
| st_holds x0 o0 x xs os :
    ~ outside_band (sw_positiveHysteresis t) (sw_negativeHysteresis t) x0 x ->
    is_nan o0 = false -> step_trace t (Some (x0, o0)) xs os ->
    step_trace t (Some (x0, o0)) (x :: xs) (o0 :: os).
