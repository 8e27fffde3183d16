(** * Specification vocabulary for comparing two histories (C98, C99)

    One history is at least as hot as another if each of its readings is.  Uses
    configuration records, the readings of SpecZone.v and the order of doubles only. *)
From Coq Require Import ZArith Bool List String.
From Verif Require Import Base Dbl PidModel ZoneModel LoopModel SpecPid SpecZone.
Import ListNotations.

(** [toward up a b]: [b] is at least as hot as [a].  A temperature or a power is
    hotter when it is larger ([up = true]), a margin when it is smaller. *)
Definition toward (up : bool) (a b : dbl) : Prop := if up then dle a b else dle b a.

(** A loop that asks for more cooling the hotter its input is: proportional and
    integral coefficients are not positive for temperatures, not negative for
    margins; no derivative term; neither rate limit nor hysteresis. *)
Definition cools (up : bool) (c : pidinfo) : Prop :=
  toward up (proportionalCoeff c) d0 /\ toward up (integralCoeff c) d0 /\
  deq (derivativeCoeff c) d0.
Definition unlimited_rate (c : pidinfo) : Prop := deq (slewNeg c) d0 /\ deq (slewPos c) d0.
Definition no_hysteresis (c : pidinfo) : Prop :=
  checkHysterWithSetpt c = false /\ deq (positiveHysteresis c) d0 /\ deq (negativeHysteresis c) d0.
Definition ordered_limits (c : pidinfo) : Prop :=
  limits_ordered (integralLimit c) /\ limits_ordered (outLim c).

(** The second sample is at least as hot as the first; same setpoint. *)
Definition hotter_sample (up : bool) (a b : sample) : Prop :=
  bounded_sample a /\ bounded_sample b /\ toward up (fst a) (fst b) /\ snd a = snd b.
Definition hotter_history (up : bool) (h k : list sample) : Prop := Forall2 (hotter_sample up) h k.

(** Inputs that never get cooler again, and are not cooler than the setpoint. *)
Definition stays_hot (up : bool) (sp : dbl) (inputs : list dbl) : Prop :=
  Forall (mag_le 200) inputs /\ Forall (toward up sp) inputs /\
  forall i a b, nth_error inputs i = Some a -> nth_error inputs (S i) = Some b -> toward up a b.

(** ** Zones *)

(** A controller that has not run yet and asks for more when it is hotter; [up]
    says for each sensor whether larger readings are hotter. *)
Definition input_toward (up : string -> bool) (ty : ThermalType) (i : SensorInput) : bool :=
  match ty with
  | margin => if si_convertTempToMargin i then up (si_name i) && disfinite (si_convertMarginZero i)
              else negb (up (si_name i))
  | _ => up (si_name i)
  end.
Definition cooling_controller (up : string -> bool) (t : ThermalCtl) : Prop :=
  match t with
  | TPid _ inputs ty setpoint p =>
      exists c, p = pid_ctrl_init c /\ bounded_cfg c /\ mag_le 200 setpoint /\
        cools (match ty with margin => false | _ => true end) c /\
        unlimited_rate c /\ no_hysteresis c /\ ordered_limits c /\
        Forall (fun i => input_toward up ty i = true) inputs
  | TStep _ inputs s =>
      exists c n, s = stepwise_ctrl_init c /\ increasing_table c n /\
        (forall i j, (i <= j < n)%nat -> dle (sw_output c i) (sw_output c j)) /\
        (forall i, (i < n)%nat -> dfinite (sw_output c i)) /\
        deq (sw_positiveHysteresis c) d0 /\ deq (sw_negativeHysteresis c) d0 /\
        Forall (fun i => up i = true) inputs
  end.
Definition controller_inputs (t : ThermalCtl) : list string :=
  match t with
  | TPid _ inputs _ _ _ => map si_name inputs
  | TStep _ inputs _ => inputs
  end.
Definition cooling_zone (up : string -> bool) (z : zone) : Prop :=
  Forall (cooling_controller up) (z_thermals z) /\
  Forall (fun t => incl (controller_inputs t) (z_thermalInputs z)) (z_thermals z).

(** The second reading of a sensor is the same as the first, or both are numbers
    and the second is at least as hot. *)
Definition hotter_reading (up : bool) (a b : option dbl) : Prop :=
  a = b \/ exists v w, a = Some v /\ b = Some w /\ dfinite v /\ dfinite w /\ toward up v w.
(** What the temperature loops work on stays below 2^200 in magnitude. *)
Definition moderate (e : poll_env) (z : zone) : Prop :=
  Forall (fun t => match t with
                   | TPid _ inputs ty setpoint _ =>
                       mag_le 200 (thermal_input (fun n => option_map sv_value (pe_sensor e n)) ty inputs setpoint)
                   | TStep _ _ _ => True
                   end) (z_thermals z).
Definition hotter_poll (up : string -> bool) (z : zone) (a b : poll_env) : Prop :=
  moderate a z /\ moderate b z /\
  forall n, In n (z_thermalInputs z) -> hotter_reading (up n) (option_map sv_value (pe_sensor a n)) (option_map sv_value (pe_sensor b n)).
Definition hotter_event (up : string -> bool) (z : zone) (a b : loop_event) : Prop :=
  match a, b with
  | LTick e, LTick e' => hotter_poll up z (tk_therm e) (tk_therm e')
  | LManual m, LManual m' => m = m'
  | LEnable p x, LEnable p' x' => p = p' /\ x = x'
  | _, _ => False
  end.
