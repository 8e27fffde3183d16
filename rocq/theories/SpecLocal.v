(** * Specification vocabulary for what the commands of a fan depend on (C108)

    Two lives of one zone which may differ in what some fans show.  Uses configuration
    records, sensor answers and recorded fan commands only. *)
From Coq Require Import ZArith Bool List String.
From Verif Require Import Base Dbl PidModel ZoneModel LoopModel SpecZone SpecCool.
Import ListNotations.

(** Every fan controller of the zone drives fans of the group only, or none of them. *)
Definition fan_group (group : list string) (z : zone) : Prop :=
  forall k, In (Some k) (z_fans z) ->
    (forall n, In n (fan_inputs k) -> In n group) \/ (forall n, In n (fan_inputs k) -> ~ In n group).

(** The two polls find the same values in these sensors. *)
Definition same_values (names : list string) (a b : poll_env) : Prop :=
  forall n, In n names ->
    option_map sv_value (pe_sensor a n) = option_map sv_value (pe_sensor b n) /\
    option_map sv_unscaled (pe_sensor a n) = option_map sv_unscaled (pe_sensor b n).
(** Of these sensors the two polls find the same ones bad, leaving aside those that may
    be missing. *)
Definition same_health (z : zone) (names : list string) (a b : poll_env) : Prop :=
  forall n, In n names -> ~ acceptable z n -> (found_bad a n <-> found_bad b n).

(** The same step of both lives.  At a wake-up the group and the thermal sensors show
    the same values, the tuning files say the same and the same sensors are bad; the
    other fans may show any speed, and writes may be answered in any way. *)
Definition same_but_other_fans (group : list string) (z : zone) (a b : loop_event) : Prop :=
  match a, b with
  | LTick e, LTick e' =>
      same_values (group ++ z_thermalInputs z) (tk_fan e) (tk_fan e') /\
      same_values (z_thermalInputs z) (tk_therm e) (tk_therm e') /\
      same_health z (z_fanInputs z) (tk_fan e) (tk_fan e') /\
      same_health z (z_thermalInputs z) (tk_therm e) (tk_therm e') /\
      tk_tune e = tk_tune e'
  | LManual m, LManual m' => m = m'
  | LEnable p x, LEnable p' x' => p = p' /\ x = x'
  | _, _ => False
  end.

(** The commands to the fans of the group, oldest first. *)
Definition commands_to (group : list string) (tr : list event) : list (string * dbl * bool) :=
  filter (fun c => smem (fst (fst c)) group) (writes_in tr).
