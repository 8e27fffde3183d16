(** * Specification vocabulary for a zone whose readings stay the same (C107)

    Uses configuration records, sensor answers and recorded fan commands only. *)
From Coq Require Import ZArith Bool List String.
From Verif Require Import Base Dbl PidModel ZoneModel LoopModel SpecPid SpecZone SpecHeat SpecCool.
Import ListNotations.

(** Thermal controllers that have not run yet.  PID loops: limits in order, rate
    limits with the right signs, no parameter astronomically large.  All readings
    come from thermal inputs of the zone. *)
Definition settling_controller (t : ThermalCtl) : Prop :=
  match t with
  | TPid _ _ _ setpoint p =>
      mag_le 200 setpoint /\
      exists c, p = pid_ctrl_init c /\ bounded_cfg c /\ ordered_limits c /\ sane_slew c
  | TStep _ _ _ => True
  end.
Definition settling_zone (z : zone) : Prop :=
  Forall settling_controller (z_thermals z) /\
  Forall (fun t => incl (controller_inputs t) (z_thermalInputs z)) (z_thermals z).
Definition moderate_event (z : zone) (ev : loop_event) : Prop :=
  match ev with LTick e => moderate (tk_therm e) z | _ => True end.

(** Two polls find the same readings and the same sensors bad. *)
Definition same_view (names : list string) (a b : poll_env) : Prop :=
  forall n, In n names ->
    option_map sv_value (pe_sensor a n) = option_map sv_value (pe_sensor b n) /\
    option_map sv_unscaled (pe_sensor a n) = option_map sv_unscaled (pe_sensor b n) /\
    (found_bad a n <-> found_bad b n).
(** Every sensor of the zone shows the same in every poll of these wake-ups. *)
Definition unchanging (z : zone) (es : nat -> tick_env) : Prop :=
  forall i,
    same_view (z_fanInputs z ++ z_thermalInputs z) (tk_fan (es 0%nat)) (tk_fan (es i)) /\
    same_view (z_fanInputs z ++ z_thermalInputs z) (tk_fan (es 0%nat)) (tk_therm (es i)).
(** The first [n] of these wake-ups. *)
Definition wake_ups (es : nat -> tick_env) (n : nat) : list loop_event := map (fun i => LTick (es i)) (seq 0 n).

(** The same fan, the same speed, the same force flag. *)
Definition same_command (a b : string * dbl * bool) : Prop :=
  fst (fst a) = fst (fst b) /\ deq (snd (fst a)) (snd (fst b)) /\ snd a = snd b.
