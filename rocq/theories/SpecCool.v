(** * Specification vocabulary for comparing the fan commands of two lives (C105)

    Two lives of one zone: the second at least as hot and at least as unhealthy.  Uses
    configuration records, sensor answers and recorded fan commands only. *)
From Coq Require Import ZArith Bool List String.
From Verif Require Import Base Dbl PidModel ZoneModel LoopModel SpecPid SpecZone SpecHeat.
Import ListNotations.

(** A fan loop that only feeds the setpoint forward, with a gain that is not negative. *)
Definition feeds_forward (c : pidinfo) : Prop :=
  deq (proportionalCoeff c) d0 /\ deq (integralCoeff c) d0 /\ deq (derivativeCoeff c) d0 /\
  dle d0 (feedFwdGain c) /\ unlimited_rate c /\ no_hysteresis c.
Definition forward_fans (z : zone) : Prop :=
  forall k, In (Some k) (z_fans z) -> exists c, fan_pid k = pid_ctrl_init c /\ feeds_forward c.

(** The poll finds the sensor failed or timed out. *)
Definition found_bad (e : poll_env) (n : string) : Prop :=
  exists v, pe_sensor e n = Some v /\ (sv_failed v = true \/ timed_out (pe_now e) v = true).
(** Whatever sensor the first poll finds bad, the second one does, too; with [same],
    the two find the same sensors bad. *)
Definition no_healthier (same : bool) (names : list string) (a b : poll_env) : Prop :=
  forall n, In n names -> (found_bad a n -> found_bad b n) /\ (same = true -> found_bad b n -> found_bad a n).
Definition no_healthier_event (same : bool) (z : zone) (a b : loop_event) : Prop :=
  match a, b with
  | LTick e, LTick e' =>
      no_healthier same (z_fanInputs z) (tk_fan e) (tk_fan e') /\
      no_healthier same (z_thermalInputs z) (tk_therm e) (tk_therm e')
  | _, _ => True
  end.

(** The same fan, the same force flag, and a speed at least as high. *)
Definition at_least (a b : string * dbl * bool) : Prop :=
  fst (fst a) = fst (fst b) /\ dle (snd (fst a)) (snd (fst b)) /\ snd a = snd b.
