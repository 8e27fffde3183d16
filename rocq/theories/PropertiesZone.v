(** * Properties C11-C28 and C50-C55: zones and their control loop.

    Vocabulary: SpecZone.v.  Proofs: ZoneProofs.v, LoopProofs.v,
    ReactionProofs.v, CacheProofs.v, LoopProofs2.v. *)
From Coq Require Import ZArith Bool List String.
From Verif Require Import Base Dbl PidModel ZoneModel LoopModel SpecZone ZoneProofs LoopProofs
  ReactionProofs CacheProofs LoopProofs2.
Import ListNotations.
Local Open Scope string_scope.

(** ** A zone used in the examples

    Fans fan0 and fan1 (one controller), fan 100 ms / thermal 1000 ms, zone
    failsafe percent 75, minimum 10; controllers "cpu" (temperature PID on t0,
    t1), "mem" (margin PID on m0), "cap" (stepwise ceiling on t1), "gpu"
    (stepwise on t0).  Sensor t1 has its own failsafe percent 90; m0 may be
    missing. *)
Definition ex_ff : pidinfo :=
  PidInfo false (D 1) (D 0) (D 0) (D 0) (D 0) (D 1)
    (Limits (D 0) (D 0)) (Limits (D 0) (D 100)) (D 0) (D 0) (D 0) (D 0).
Definition ex_p : pidinfo :=
  PidInfo false (D 1) (D (-2)) (D 0) (D 0) (D 0) (D 0)
    (Limits (D 0) (D 0)) (Limits (D 0) (D 100)) (D 0) (D 0) (D 0) (D 0).
Definition ex_table (l : list dbl) : nat -> dbl := fun i => nth i l dnan.
Definition ex_steps (ceiling : bool) : StepwiseInfo :=
  Stepwise (D 1) (ex_table [D 20; D 40; D 60]) (ex_table [D 30; D 50; D 80]) (D 0) (D 0) ceiling.
Definition ex_zone_with (accumulate : bool) : zone :=
  let z := zone_new 1 (D 10) (D 75) 100 1000 accumulate in
  let z := addFanInput "fan0" false z in
  let z := addFanInput "fan1" false z in
  let z := addFanPID (createFanPid "fans" ["fan0"; "fan1"] ex_ff) z in
  let z := addThermalInput "t0" false z in
  let z := addThermalInput "t1" false z in
  let z := addThermalInput "m0" true z in
  let z := addThermalPID (TPid "x_cpu" [MkInput "t0" (D 0) false false; MkInput "t1" (D 0) false false]
                            absolute (D 30) (pid_ctrl_init ex_p)) z in
  let z := addPidControlProcess "x_cpu" "temp" (D 30) z in
  let z := addThermalPID (TPid "y_cpu" [MkInput "m0" (D 90) true true] margin (D 40) (pid_ctrl_init ex_p)) z in
  let z := addPidControlProcess "y_cpu" "margin" (D 40) z in
  let z := addThermalPID (TStep "cap" ["t1"] (stepwise_ctrl_init (ex_steps true))) z in
  let z := addPidControlProcess "cap" "stepwise" (D 0) z in
  let z := addThermalPID (TStep "gpu" ["t0"] (stepwise_ctrl_init (ex_steps false))) z in
  let z := addPidControlProcess "gpu" "stepwise" (D 0) z in
  addPidFailSafePercent ["t1"] (D 90) z.
Definition ex_zone : zone := ex_zone_with false.

Definition ex_view (v : Z) : sensor_view := View (D v) (D (v * 50)) 0 5 false "".
Definition ex_failed : sensor_view := View (D 0) (D 0) 0 0 true "gone".
(** t0 = 55, t1 = 62 (or [t1]), m0 = 30, fans at 20 % / 1000 and 30 % / 1500;
    fans and sensors were updated at 0 and time out after 5 s. *)
Definition ex_poll_with (t1 : sensor_view) (now : Z) : poll_env :=
  PollEnv now (fun n =>
    if String.eqb n "t0" then Some (ex_view 55)
    else if String.eqb n "t1" then Some t1
    else if String.eqb n "m0" then Some (ex_view 30)
    else if String.eqb n "fan0" then Some (ex_view 20)
    else if String.eqb n "fan1" then Some (ex_view 30) else None).
Definition ex_poll (now : Z) : poll_env := ex_poll_with (ex_view 62) now.
Definition ex_write : write_env := fun _ => Some (fun _ _ => Ok (Some 1%Z)).
Definition ex_tune : tune_env := TuneEnv NoFile NoFile.
Definition ex_tick_with (t1 : sensor_view) (now : Z) : tick_env :=
  TickEnv (ex_poll_with t1 now) (ex_poll_with t1 now) ex_write ex_tune.
Definition ex_tick (now : Z) : tick_env := ex_tick_with (ex_view 62) now.
Definition ex_flags : flags := Flags false false false true false.
Definition ex_strict : flags := Flags true false false false false.
(** [LTick] at 0.1 s, 0.2 s, ... *)
Definition ex_ticks_with (t1 : sensor_view) (n : nat) : list loop_event :=
  map (fun k => LTick (ex_tick_with t1 (Z.of_nat k * 100000000))) (seq 1 n).
Definition ex_ticks (n : nat) : list loop_event := ex_ticks_with (ex_view 62) n.
Definition ex_run (f : flags) (z : zone) (evs : list loop_event) : outcome loop :=
  bind (loop_start f (ex_poll 0) ex_tune 0 z) (loop_run f evs).
Definition ok_and {A : Type} (o : outcome A) (p : A -> bool) : bool :=
  match o with Ok a => p a | _ => false end.

(** ** C11 *)
Theorem C11_margin_is_minimum : forall id inputs setpoint z v z',
  thermal_inputProc id inputs margin setpoint z = Ok (v, z') ->
  thermal_readings (cached z) margin inputs <> [] ->
  Forall dfinite (thermal_readings (cached z) margin inputs) ->
  is_min_of v (thermal_readings (cached z) margin inputs).
Proof. exact thermal_input_margin. Qed.
Print Assumptions C11_margin_is_minimum.

Theorem C11_absolute_is_maximum : forall id inputs setpoint z v z',
  thermal_inputProc id inputs absolute setpoint z = Ok (v, z') ->
  thermal_readings (cached z) absolute inputs <> [] ->
  is_max_of v (thermal_readings (cached z) absolute inputs).
Proof. exact thermal_input_absolute. Qed.
Print Assumptions C11_absolute_is_maximum.

Theorem C11_power_is_sum : forall id inputs setpoint z v z',
  thermal_inputProc id inputs summation setpoint z = Ok (v, z') ->
  thermal_readings (cached z) summation inputs <> [] ->
  v = fold_left dadd (thermal_readings (cached z) summation inputs) d0.
Proof. exact thermal_input_sum. Qed.
Print Assumptions C11_power_is_sum.

Theorem C11_nothing_readable_gives_setpoint : forall id inputs type setpoint z v z',
  thermal_inputProc id inputs type setpoint z = Ok (v, z') ->
  thermal_readings (cached z) type inputs = [] -> v = setpoint.
Proof. exact thermal_input_none. Qed.
Print Assumptions C11_nothing_readable_gives_setpoint.

(** Three inputs, one of them NaN and one converted to a margin. *)
Definition ex_c11_zone : zone :=
  set_cachedValuesByName
    [("a", Entry (D 55) (D 0)); ("b", Entry dnan (D 0)); ("c", Entry (D 12) (D 0))]
    (addPidControlProcess "id" "temp" (D 0) ex_zone).
Definition ex_c11_inputs : list SensorInput :=
  [MkInput "a" (D 60) true false; MkInput "b" (D 0) false false; MkInput "c" (D 0) false false].
Example C11_example :
  ok_and (thermal_inputProc "id" ex_c11_inputs margin (D 7) ex_c11_zone)
    (fun r => dsame (fst r) (D 5)) = true /\
  ok_and (thermal_inputProc "id" ex_c11_inputs absolute (D 7) ex_c11_zone)
    (fun r => dsame (fst r) (D 55)) = true /\
  ok_and (thermal_inputProc "id" ex_c11_inputs summation (D 7) ex_c11_zone)
    (fun r => dsame (fst r) (D 67)) = true /\
  ok_and (thermal_inputProc "id" [MkInput "b" (D 0) false false] margin (D 7) ex_c11_zone)
    (fun r => dsame (fst r) (D 7)) = true /\
  List.length (thermal_readings (cached ex_c11_zone) margin ex_c11_inputs) = 2%nat /\
  forallb disfinite (thermal_readings (cached ex_c11_zone) margin ex_c11_inputs) = true.
Proof. vm_compute. repeat split. Qed.

(** ** C12 *)
Theorem C12_fan_feedback_is_lowest_running_fan : forall c z v,
  fan_inputProc c z = Ok v ->
  (fan_readings (cached_raw z) (fan_inputs c) = [] /\ v = d0) \/
  (is_min_of v (fan_readings (cached_raw z) (fan_inputs c)) /\ dlt d0 v).
Proof. exact fan_input_min. Qed.
Print Assumptions C12_fan_feedback_is_lowest_running_fan.

(** A stopped fan and a NaN do not count. *)
Example C12_example :
  ok_and (fan_inputProc (MkFan "f" ["a"; "b"; "c"; "d"] (pid_ctrl_init ex_ff) d0 DirNeutral true false)
    (set_cachedValuesByName
      [("a", Entry (D 1) (D 3000)); ("b", Entry (D 1) dnan); ("c", Entry (D 1) (D 0));
       ("d", Entry (D 1) (D 2500))] ex_zone))
    (fun v => dsame v (D 2500)) = true.
Proof. vm_compute. reflexivity. Qed.

(** ** C13 *)
Theorem C13_zone_setpoint : forall f env te z z',
  thermal_cycle f env te z = Ok z' -> tuningEnabled f = false -> z_accumulateSetPoint z = false ->
  Forall notnan (ceilings (cycle_readings env z) z) ->
  exists top,
    is_max_of top (d0 :: map snd (requests (cycle_readings env z) z)) /\
    combined_setpoint (z_minThermalOutputSetPt z) (ceilings (cycle_readings env z) z) top
      (z_maximumSetPoint z').
Proof. exact C13_lemma. Qed.
Print Assumptions C13_zone_setpoint.

(** Requests 64 (x_cpu), 40 (y_cpu) and 50 (gpu), ceiling 80: the setpoint is
    64.  With t1 = 30 the requests are 50, 40, 50 and the ceiling 30. *)
Definition shows (l : list dbl) (zs : list Z) : bool :=
  Nat.eqb (List.length l) (List.length zs) &&
  forallb (fun p => dsame (fst p) (D (snd p))) (combine l zs).
Example C13_example :
  map fst (requests (cycle_readings (ex_poll 0) ex_zone) ex_zone) = ["x_cpu"; "y_cpu"; "gpu"] /\
  shows (map snd (requests (cycle_readings (ex_poll 0) ex_zone) ex_zone)) [64; 40; 50]%Z = true /\
  shows (ceilings (cycle_readings (ex_poll 0) ex_zone) ex_zone) [80]%Z = true /\
  ok_and (thermal_cycle ex_flags (ex_poll 0) ex_tune (initializeCache ex_zone))
    (fun z => dsame (z_maximumSetPoint z) (D 64)) = true /\
  ok_and (thermal_cycle ex_flags (ex_poll_with (ex_view 30) 0) ex_tune (initializeCache ex_zone))
    (fun z => dsame (z_maximumSetPoint z) (D 30)) = true.
Proof. vm_compute. repeat split. Qed.

(** A NaN ceiling that comes first hides the ceilings after it, so the
    restriction to non-NaN ceilings is needed. *)
Definition ex_nan_ceiling : zone :=
  let z := zone_new 1 (D 10) (D 75) 100 1000 false in
  let z := addThermalInput "t0" false z in
  let z := addThermalInput "t1" false z in
  let z := addThermalPID (TStep "cap" ["t1"] (stepwise_ctrl_init
             (Stepwise (D 1) (ex_table [D 20; D 40]) (ex_table [dnan; dnan]) (D 0) (D 0) true))) z in
  let z := addPidControlProcess "cap" "stepwise" (D 0) z in
  let z := addThermalPID (TStep "cap2" ["t1"] (stepwise_ctrl_init (ex_steps true))) z in
  let z := addPidControlProcess "cap2" "stepwise" (D 0) z in
  let z := addThermalPID (TPid "x" [MkInput "t0" (D 0) false false] absolute (D 0) (pid_ctrl_init ex_p)) z in
  addPidControlProcess "x" "temp" (D 0) z.
Theorem C13_nan_ceiling_refuted : exists f env te z z',
  thermal_cycle f env te z = Ok z' /\ tuningEnabled f = false /\ z_accumulateSetPoint z = false /\
  dlt (z_minThermalOutputSetPt z) (z_maximumSetPoint z') /\
  exists c, In c (ceilings (cycle_readings env z) z) /\ dlt c (z_maximumSetPoint z').
Proof.
  exists ex_flags, (ex_poll_with (ex_view 30) 0), ex_tune, ex_nan_ceiling,
    (get_ok ex_nan_ceiling (thermal_cycle ex_flags (ex_poll_with (ex_view 30) 0) ex_tune ex_nan_ceiling)).
  split; [apply get_ok_eq; vm_compute; reflexivity|].
  split; [reflexivity|]. split; [reflexivity|]. split; [vm_compute; reflexivity|].
  apply existsb_exists. vm_compute. reflexivity.
Qed.
Print Assumptions C13_nan_ceiling_refuted.

(** ** C14 *)
Theorem C14_zone_setpoint_accumulated : forall f env te z z',
  thermal_cycle f env te z = Ok z' -> tuningEnabled f = false -> z_accumulateSetPoint z = true ->
  Forall notnan (ceilings (cycle_readings env z) z) ->
  exists top,
    is_max_of top (d0 :: running_sums (requests (cycle_readings env z) z)) /\
    combined_setpoint (z_minThermalOutputSetPt z) (ceilings (cycle_readings env z) z) top
      (z_maximumSetPoint z').
Proof. exact C14_lemma. Qed.
Print Assumptions C14_zone_setpoint_accumulated.

(** When no request is negative or NaN: the largest profile total. *)
Theorem C14_largest_profile_total : forall f env te z z',
  thermal_cycle f env te z = Ok z' -> tuningEnabled f = false -> z_accumulateSetPoint z = true ->
  Forall notnan (ceilings (cycle_readings env z) z) ->
  (forall r, In r (requests (cycle_readings env z) z) -> dle d0 (snd r)) ->
  exists top,
    is_max_of top (d0 :: profile_totals (requests (cycle_readings env z) z)) /\
    combined_setpoint (z_minThermalOutputSetPt z) (ceilings (cycle_readings env z) z) top
      (z_maximumSetPoint z').
Proof. exact C14_total_lemma. Qed.
Print Assumptions C14_largest_profile_total.

(** The grouping function used by [running_sums] and [profile_totals] is "the
    part after the first underscore, or the whole name". *)
Theorem C14_profile_is_suffix : forall name p, has_profile name p <-> p = profile_of name.
Proof. exact profile_iff. Qed.
Print Assumptions C14_profile_is_suffix.

(** x_cpu and y_cpu share a profile: 64 + 40 = 104, gpu 50; the ceiling caps
    the result at 80. *)
Example C14_example :
  let z := ex_zone_with true in
  let rs := requests (cycle_readings (ex_poll 0) z) z in
  shows (running_sums rs) [64; 104; 50]%Z = true /\
  shows (profile_totals rs) [104; 104; 50]%Z = true /\
  ok_and (thermal_cycle ex_flags (ex_poll 0) ex_tune (initializeCache z))
    (fun z => dsame (z_maximumSetPoint z) (D 80)) = true /\
  profile_of "x_cpu" = "cpu" /\ profile_of "gpu" = "gpu" /\ profile_of "a_b_c" = "b_c".
Proof. vm_compute. repeat split. Qed.

(** A negative later contribution is not taken back: the setpoint then exceeds
    every profile total. *)
Definition ex_neg : pidinfo :=
  PidInfo false (D 1) (D (-2)) (D 0) (D 0) (D 0) (D 0)
    (Limits (D 0) (D 0)) (Limits (D (-100)) (D 100)) (D 0) (D 0) (D 0) (D 0).
Definition ex_neg_zone : zone :=
  let z := zone_new 1 (D 10) (D 75) 100 1000 true in
  let z := addThermalInput "t0" false z in
  let z := addThermalPID (TPid "a_x" [MkInput "t0" (D 0) false false] absolute (D 30) (pid_ctrl_init ex_neg)) z in
  let z := addPidControlProcess "a_x" "temp" (D 30) z in
  let z := addThermalPID (TPid "b_x" [MkInput "t0" (D 0) false false] absolute (D 70) (pid_ctrl_init ex_neg)) z in
  addPidControlProcess "b_x" "temp" (D 70) z.
Theorem C14_negative_request_refuted : exists f env te z z',
  thermal_cycle f env te z = Ok z' /\ tuningEnabled f = false /\ z_accumulateSetPoint z = true /\
  dlt (z_minThermalOutputSetPt z) (z_maximumSetPoint z') /\
  requests (cycle_readings env z) z <> [] /\
  Forall (fun t => dlt t (z_maximumSetPoint z')) (profile_totals (requests (cycle_readings env z) z)).
Proof.
  exists ex_flags, (ex_poll 0), ex_tune, ex_neg_zone,
    (get_ok ex_neg_zone (thermal_cycle ex_flags (ex_poll 0) ex_tune ex_neg_zone)).
  split; [apply get_ok_eq; vm_compute; reflexivity|].
  split; [reflexivity|]. split; [reflexivity|]. split; [vm_compute; reflexivity|].
  split; [discriminate|].
  apply Forall_forall, forallb_forall. vm_compute. reflexivity.
Qed.
Print Assumptions C14_negative_request_refuted.

(** ** C15 *)
Theorem C15_disabled_controller_has_no_influence : forall f env te z t l1 l2 z' y',
  z_thermals z = (l1 ++ t :: l2)%list ->
  enabled_in z (thermal_id t) = false -> is_ceiling t = false -> tuningEnabled f = false ->
  thermal_cycle f env te z = Ok z' ->
  thermal_cycle f env te (set_thermals (l1 ++ l2)%list z) = Ok y' ->
  z_maximumSetPoint y' = z_maximumSetPoint z' /\
  (z_accumulateSetPoint z = false -> z_maximumSetPointName y' = z_maximumSetPointName z').
Proof. exact C15_lemma. Qed.
Print Assumptions C15_disabled_controller_has_no_influence.

(** Whether a controller counts in a cycle ([enabled_in]) is the last value
    written to its Enable property, true when it was never written. *)
Theorem C15_enabled_is_last_written : forall f evs l l' name b,
  loop_run f evs l = Ok l' ->
  option_map po_enabled (mget name (z_pidsControlProcess (l_zone l))) = Some b ->
  option_map po_enabled (mget name (z_pidsControlProcess (l_zone l'))) = Some (enabled_after name b evs).
Proof. exact loop_run_enabled. Qed.
Print Assumptions C15_enabled_is_last_written.

(** x_cpu (64) disabled: the setpoint drops to gpu's 50; enabled again: 64. *)
Example C15_example :
  ok_and (ex_run ex_flags ex_zone (LEnable "x_cpu" false :: ex_ticks 11))
    (fun l => dsame (z_maximumSetPoint (l_zone l)) (D 50) &&
              String.eqb (z_maximumSetPointName (l_zone l)) "gpu") = true /\
  ok_and (ex_run ex_flags ex_zone ((LEnable "x_cpu" false :: ex_ticks 11) ++ LEnable "x_cpu" true :: ex_ticks 10))
    (fun l => dsame (z_maximumSetPoint (l_zone l)) (D 64)) = true.
Proof. vm_compute. repeat split. Qed.

(** A disabled ceiling controller still caps the setpoint. *)
Definition ex_cap_zone : zone :=
  let z := zone_new 1 (D 10) (D 75) 100 1000 false in
  let z := addThermalInput "t0" false z in
  let z := addThermalInput "t1" false z in
  let z := addThermalPID (TPid "x" [MkInput "t0" (D 0) false false] absolute (D 30) (pid_ctrl_init ex_p)) z in
  let z := addPidControlProcess "x" "temp" (D 30) z in
  let z := addPidControlProcess "cap" "stepwise" (D 0) z in
  setProcessEnabled "cap" false
    (addThermalPID (TStep "cap" ["t1"] (stepwise_ctrl_init (ex_steps true))) z).
Theorem C15_disabled_ceiling_refuted : exists f env te z t l1 z' y',
  z_thermals z = (l1 ++ [t])%list /\ enabled_in z (thermal_id t) = false /\ tuningEnabled f = false /\
  thermal_cycle f env te z = Ok z' /\
  thermal_cycle f env te (set_thermals l1 z) = Ok y' /\
  dlt (z_maximumSetPoint z') (z_maximumSetPoint y').
Proof.
  pose (t := TPid "x" [MkInput "t0" (D 0) false false] absolute (D 30) (pid_ctrl_init ex_p)).
  exists ex_flags, (ex_poll_with (ex_view 30) 0), ex_tune, ex_cap_zone,
    (TStep "cap" ["t1"] (stepwise_ctrl_init (ex_steps true))), [t],
    (get_ok ex_zone (thermal_cycle ex_flags (ex_poll_with (ex_view 30) 0) ex_tune ex_cap_zone)),
    (get_ok ex_zone (thermal_cycle ex_flags (ex_poll_with (ex_view 30) 0) ex_tune (set_thermals [t] ex_cap_zone))).
  split; [reflexivity|]. split; [vm_compute; reflexivity|]. split; [reflexivity|].
  split; [apply get_ok_eq; vm_compute; reflexivity|].
  split; [apply get_ok_eq; vm_compute; reflexivity|]. vm_compute. reflexivity.
Qed.
Print Assumptions C15_disabled_ceiling_refuted.

(** ** C16 *)
Theorem C16_setpoint_never_below_minimum : forall f z0 l,
  reachable f z0 l -> tuningEnabled f = false ->
  notnan (z_maximumSetPoint (l_zone l)) /\
  (notnan (z_minThermalOutputSetPt z0) ->
   dle (z_minThermalOutputSetPt z0) (z_maximumSetPoint (l_zone l))).
Proof. exact C16_reach. Qed.
Print Assumptions C16_setpoint_never_below_minimum.

Theorem C16_one_cycle : forall f env te z z',
  thermal_cycle f env te z = Ok z' -> tuningEnabled f = false ->
  notnan (z_maximumSetPoint z') /\
  (notnan (z_minThermalOutputSetPt z) -> dle (z_minThermalOutputSetPt z) (z_maximumSetPoint z')).
Proof. exact C16_lemma. Qed.
Print Assumptions C16_one_cycle.

(** A controller that outputs NaN, and nothing else: the minimum. *)
Example C16_example :
  let z := set_thermals [TStep "gpu" ["t0"] (stepwise_ctrl_init
     (Stepwise (D 1) (ex_table [D 20]) (ex_table [dnan]) (D 0) (D 0) false))] ex_zone in
  ok_and (ex_run ex_flags z (ex_ticks 11))
    (fun l => dsame (z_maximumSetPoint (l_zone l)) (D 10)) = true.
Proof. vm_compute. reflexivity. Qed.

(** With tuning on the file decides, also below the minimum. *)
Theorem C16_tuning_refuted : exists f env te z z',
  thermal_cycle f env te z = Ok z' /\ dlt (z_maximumSetPoint z') (z_minThermalOutputSetPt z).
Proof.
  exists (Flags false false true false false), (ex_poll 0), (TuneEnv (FileInt 200) NoFile),
    (set_minThermalOutputSetPt (D 3000) ex_zone),
    (get_ok ex_zone (thermal_cycle (Flags false false true false false) (ex_poll 0)
       (TuneEnv (FileInt 200) NoFile) (set_minThermalOutputSetPt (D 3000) ex_zone))).
  split; [apply get_ok_eq; vm_compute; reflexivity|]. vm_compute. reflexivity.
Qed.
Print Assumptions C16_tuning_refuted.

(** ** C17 *)
Theorem C17_failsafe_sensors_are_the_failing_ones : forall f z0 l s reason percent,
  reachable f z0 l ->
  mget s (z_failSafeSensors (l_zone l)) = Some (reason, percent) <->
  is_input z0 s /\ ~ acceptable z0 s /\
  bad_reason (last_poll s (z_trace (l_zone l))) = Some reason /\ percent = own_percent z0 s.
Proof. exact (fun f z0 l s r p R => fs_entry f z0 l s R r p). Qed.
Print Assumptions C17_failsafe_sensors_are_the_failing_ones.

Theorem C17_failsafe_property : forall f z0 l,
  reachable f z0 l ->
  getFailSafeMode (l_zone l) = true <-> exists s, failing z0 (z_trace (l_zone l)) s.
Proof. exact failing_mode. Qed.
Print Assumptions C17_failsafe_property.

(** In terms of one wake-up: what it saw of a fan ... *)
Theorem C17_fan_after_wakeup : forall f z0 l e l' n v,
  reachable f z0 l -> loop_step f l (LTick e) = Ok l' -> z_manualMode (l_zone l) = false ->
  In n (z_fanInputs z0) -> ~ In n (z_thermalInputs z0) -> ~ acceptable z0 n ->
  pe_sensor (tk_fan e) n = Some v ->
  (exists x, mget n (z_failSafeSensors (l_zone l')) = Some x) <->
  sv_failed v = true \/ timed_out (pe_now (tk_fan e)) v = true.
Proof. exact C17_fan_lemma. Qed.
Print Assumptions C17_fan_after_wakeup.

(** ... and, if it ran a thermal cycle, of a thermal input. *)
Theorem C17_thermal_after_wakeup : forall f z0 l e l' n v evs,
  reachable f z0 l -> loop_step f l (LTick e) = Ok l' -> z_manualMode (l_zone l) = false ->
  new_events (l_zone l) (l_zone l') evs -> thermal_cycles_in evs <> 0%nat ->
  In n (z_thermalInputs z0) -> ~ acceptable z0 n -> pe_sensor (tk_therm e) n = Some v ->
  (exists x, mget n (z_failSafeSensors (l_zone l')) = Some x) <->
  sv_failed v = true \/ timed_out (pe_now (tk_therm e)) v = true.
Proof. exact C17_thermal_lemma. Qed.
Print Assumptions C17_thermal_after_wakeup.

Definition ex_fs (l : loop) : list (string * string) :=
  map (fun x => (fst x, fst (snd x))) (z_failSafeSensors (l_zone l)).
Definition get_run (f : flags) (z : zone) (evs : list loop_event) : option (list (string * string)) :=
  match ex_run f z evs with Ok l => Some (ex_fs l) | _ => None end.
(** The fans are in failsafe until the first wake-up, t1 fails at the first
    thermal cycle that sees it failed and recovers at a later one; at 6 s all
    sensors but m0 (missing-acceptable) have timed out. *)
Example C17_example :
  get_run ex_flags ex_zone [] = Some [("fan0", ""); ("fan1", "")] /\
  get_run ex_flags ex_zone (ex_ticks 1) = Some [] /\
  get_run ex_flags ex_zone (ex_ticks_with ex_failed 11) = Some [("t1", "gone")] /\
  get_run ex_flags ex_zone (ex_ticks_with ex_failed 11 ++ ex_ticks 10) = Some [] /\
  get_run ex_flags ex_zone (map (fun _ => LTick (ex_tick 6000000000)) (seq 1 11)) =
    Some [("fan0", "Sensor timeout"); ("fan1", "Sensor timeout");
          ("t0", "Sensor timeout"); ("t1", "Sensor timeout")].
Proof. vm_compute. repeat split. Qed.

(** ** C18 *)
Theorem C18_starts_in_failsafe : forall z s,
  z_failSafeSensors z = [] ->
  (exists p, mget s (z_failSafeSensors (initializeCache z)) = Some ("", p)) <->
  is_input z s /\ ~ acceptable z s.
Proof. exact C18_start_lemma. Qed.
Print Assumptions C18_starts_in_failsafe.

Theorem C18_stays_until_first_good_poll : forall f z0 l s,
  reachable f z0 l -> is_input z0 s -> ~ acceptable z0 s ->
  (forall now v, In (EvRead s now v) (z_trace (l_zone l)) -> bad_reason (Some (now, v)) <> None) ->
  exists e, mget s (z_failSafeSensors (l_zone l)) = Some e.
Proof. exact C18_lemma. Qed.
Print Assumptions C18_stays_until_first_good_poll.

Example C18_example :
  map fst (z_failSafeSensors (initializeCache ex_zone)) = ["fan0"; "fan1"; "t0"; "t1"] /\
  (match loop_start ex_flags (ex_poll_with ex_failed 0) ex_tune 0 ex_zone with
   | Ok l => map fst (z_failSafeSensors (l_zone l)) | _ => [] end) = ["fan0"; "fan1"; "t1"] /\
  get_run ex_flags ex_zone (ex_ticks_with ex_failed 3) = Some [].
Proof. vm_compute. repeat split. Qed.

(** ** C19 *)
Theorem C19_percent_is_the_largest : forall f z0 l,
  reachable f z0 l -> percents_ok z0 -> getFailSafeMode (l_zone l) = true ->
  top_percent z0 (z_trace (l_zone l)) (getFailSafePercent (l_zone l)).
Proof. exact failing_percent. Qed.
Print Assumptions C19_percent_is_the_largest.

Theorem C19_percent_without_failure : forall f z0 l,
  reachable f z0 l -> getFailSafeMode (l_zone l) = false ->
  getFailSafePercent (l_zone l) = z_zoneFailSafePercent z0.
Proof. exact C19_none. Qed.
Print Assumptions C19_percent_without_failure.

(** t1 failing: its own 90; at start-up the fans count with the zone's 75. *)
Example C19_example :
  percents_ok ex_zone /\
  ok_and (ex_run ex_flags ex_zone []) (fun l => dsame (getFailSafePercent (l_zone l)) (D 75)) = true /\
  ok_and (ex_run ex_flags ex_zone (ex_ticks_with ex_failed 11))
    (fun l => getFailSafeMode (l_zone l) && dsame (getFailSafePercent (l_zone l)) (D 90)) = true.
Proof.
  split; [|vm_compute; split; reflexivity].
  intros n. unfold own_percent. simpl. destruct (String.eqb n "t1"); vm_compute; reflexivity.
Qed.

(** A sensor's own percent below the zone's lowers the floor below the zone's
    failsafe setting. *)
Theorem C19_zone_setting_is_not_a_floor_refuted : exists f z0 l,
  reachable f z0 l /\ getFailSafeMode (l_zone l) = true /\
  dlt (getFailSafePercent (l_zone l)) (z_zoneFailSafePercent z0).
Proof.
  pose (z := set_zoneFailSafePercent (D 95) ex_zone).
  pose (f := ex_flags). pose (d := MkLoop z 0 0).
  pose (l0 := get_ok d (loop_start f (ex_poll 0) ex_tune 0 z)).
  exists f, z, (get_ok d (loop_run f (ex_ticks_with ex_failed 11) l0)).
  split.
  - exists (ex_poll 0), ex_tune, 0%Z, l0, (ex_ticks_with ex_failed 11).
    split; [repeat split|]. split; apply get_ok_eq; vm_compute; reflexivity.
  - vm_compute. split; reflexivity.
Qed.
Print Assumptions C19_zone_setting_is_not_a_floor_refuted.

(** ** C20 *)
Theorem C20_failsafe_floor : forall f z0 l e l' evs n v b s,
  reachable f z0 l -> loop_step f l (LTick e) = Ok l' -> z_manualMode (l_zone l) = false ->
  tuningEnabled f = false -> percents_ok z0 -> new_events (l_zone l) (l_zone l') evs ->
  In (n, v, b) (writes_in evs) -> notnan v ->
  failing z0 (z_trace (l_zone l')) s ->
  dle (ddiv (own_percent z0 s) (D 100)) v.
Proof. exact C20_failing. Qed.
Print Assumptions C20_failsafe_floor.

(** Newest writes of a run: name, 1000 times the value, force flag. *)
Definition ex_writes (k : nat) (o : outcome loop) : list (string * Z * bool) :=
  match o with
  | Ok l => map (fun w => match w with (n, v, b) => (n, dint (dmul v (D 1000)), b) end)
              (rev (firstn k (rev (writes_in (z_trace (l_zone l))))))
  | _ => []
  end.
(** Normal output 0.64, with t1 failing 0.9. *)
Example C20_example :
  ex_writes 2 (ex_run ex_flags ex_zone (ex_ticks 1)) = [("fan0", 640, false); ("fan1", 640, false)]%Z /\
  ex_writes 2 (ex_run ex_flags ex_zone (ex_ticks_with ex_failed 11))
    = [("fan0", 900, false); ("fan1", 900, false)]%Z.
Proof. vm_compute. split; reflexivity. Qed.

(** With a NaN output (here: a fan PID with sample period 0) NaN is written
    although the zone is in failsafe. *)
Definition ex_nan_fan : zone :=
  set_fans [createFanPid "fans" ["fan0"; "fan1"]
    (PidInfo false (D 0) (D 0) (D 0) (D 1) (D 0) (D 1) (Limits (D 0) (D 0)) (Limits (D 0) (D 100))
       (D 0) (D 0) (D 0) (D 0))] ex_zone.
Theorem C20_nan_output_refuted : exists f z0 l,
  reachable f z0 l /\ tuningEnabled f = false /\ getFailSafeMode (l_zone l) = true /\
  exists w, In w (writes_in (z_trace (l_zone l))) /\ disnan (snd (fst w)) = true.
Proof.
  pose (f := ex_flags). pose (d := MkLoop ex_nan_fan 0 0).
  pose (l0 := get_ok d (loop_start f (ex_poll 0) ex_tune 0 ex_nan_fan)).
  exists f, ex_nan_fan, (get_ok d (loop_run f (ex_ticks_with ex_failed 11) l0)).
  split.
  - exists (ex_poll 0), ex_tune, 0%Z, l0, (ex_ticks_with ex_failed 11).
    split; [repeat split|]. split; apply get_ok_eq; vm_compute; reflexivity.
  - split; [reflexivity|]. split; [vm_compute; reflexivity|].
    apply existsb_exists. vm_compute. reflexivity.
Qed.
Print Assumptions C20_nan_output_refuted.

(** ** C21 *)
Theorem C21_strict_failsafe : forall f z0 l e l' evs n v b,
  reachable f z0 l -> loop_step f l (LTick e) = Ok l' -> z_manualMode (l_zone l) = false ->
  tuningEnabled f = false -> STRICT_FAILSAFE_PWM f = true -> percents_ok z0 ->
  new_events (l_zone l) (l_zone l') evs -> In (n, v, b) (writes_in evs) ->
  (exists s, failing z0 (z_trace (l_zone l')) s) ->
  exists p, v = ddiv p (D 100) /\ top_percent z0 (z_trace (l_zone l')) p.
Proof. exact C21_failing. Qed.
Print Assumptions C21_strict_failsafe.

Theorem C21_strict_failsafe_any_percents : forall f z0 l e l' evs n v b,
  reachable f z0 l -> loop_step f l (LTick e) = Ok l' -> z_manualMode (l_zone l) = false ->
  tuningEnabled f = false -> STRICT_FAILSAFE_PWM f = true ->
  new_events (l_zone l) (l_zone l') evs -> In (n, v, b) (writes_in evs) ->
  getFailSafeMode (l_zone l') = true -> v = ddiv (getFailSafePercent (l_zone l')) (D 100).
Proof. exact C21_lemma. Qed.
Print Assumptions C21_strict_failsafe_any_percents.

(** Output 100 % (a very hot zone) is reduced to 90 % in a strict build. *)
Definition ex_hot : zone := set_minThermalOutputSetPt (D 100) ex_zone.
Example C21_example :
  ex_writes 2 (ex_run ex_strict ex_hot (ex_ticks_with ex_failed 11))
    = [("fan0", 900, false); ("fan1", 900, false)]%Z /\
  ex_writes 2 (ex_run ex_flags ex_hot (ex_ticks_with ex_failed 11))
    = [("fan0", 1000, false); ("fan1", 1000, false)]%Z /\
  ex_writes 2 (ex_run ex_strict ex_nan_fan (ex_ticks_with ex_failed 11))
    = [("fan0", 900, false); ("fan1", 900, false)]%Z.
Proof. vm_compute. repeat split. Qed.

(** ** C22 *)
Theorem C22_output_written_unchanged : forall f w z z' evs,
  processFans f w z = Ok z' -> new_events z z' evs ->
  getFailSafeMode z = false \/ tuningEnabled f = true ->
  writes_in evs =
    flat_map (fun c => map (fun n => (n, ddiv (fan_output z c) (D 100), z_redundantWrite z))
                           (fan_inputs c)) (fan_ctls z).
Proof. exact C22_lemma. Qed.
Print Assumptions C22_output_written_unchanged.

Theorem C22_every_fan_once_in_order : forall f e l l' evs,
  loop_step f l (LTick e) = Ok l' -> z_manualMode (l_zone l) = false ->
  new_events (l_zone l) (l_zone l') evs ->
  exists value : FanController -> dbl, writes_in evs =
    flat_map (fun c => map (fun n => (n, value c, z_redundantWrite (l_zone l))) (fan_inputs c))
             (fan_ctls (l_zone l)).
Proof. exact C22_tick_lemma. Qed.
Print Assumptions C22_every_fan_once_in_order.

(** Two controllers, one with two fans. *)
Example C22_example :
  let z := set_fans [createFanPid "a" ["fan1"] ex_p; createFanPid "b" ["fan0"; "fan1"] ex_ff] ex_zone in
  match ex_run ex_flags z (ex_ticks 1) with
  | Ok l => map (fun w => fst (fst w)) (writes_in (z_trace (l_zone l))) = ["fan1"; "fan0"; "fan1"] /\
            ok_and (processFans ex_flags ex_write (l_zone l)) (fun _ => true) = true /\
            getFailSafeMode (l_zone l) = false
  | _ => False
  end.
Proof. vm_compute. repeat split. Qed.

(** ** C23 *)
Theorem C23_missing_acceptable_never_failsafe : forall f z0 l s,
  reachable f z0 l -> acceptable z0 s -> mget s (z_failSafeSensors (l_zone l)) = None.
Proof.
  exact (fun f z0 l s R A => acceptable_none f z0 l s R A).
Qed.
Print Assumptions C23_missing_acceptable_never_failsafe.

(** m0 fails from the start. *)
Example C23_example :
  acceptable ex_zone "m0" /\
  (match bind (loop_start ex_flags (PollEnv 0 (fun n => if String.eqb n "m0" then Some ex_failed
                 else pe_sensor (ex_poll 0) n)) ex_tune 0 ex_zone) (loop_run ex_flags (ex_ticks 1)) with
   | Ok l => z_failSafeSensors (l_zone l) = [] /\
             option_map (fun p => sv_failed (snd p)) (last_poll "m0" (z_trace (l_zone l))) = Some true
   | _ => False end).
Proof. split; [left; reflexivity|]. vm_compute. split; reflexivity. Qed.

(** ** C24 *)
Theorem C24_stale_sensor_is_in_failsafe : forall f z0 l s now v,
  reachable f z0 l -> is_input z0 s -> ~ acceptable z0 s ->
  last_poll s (z_trace (l_zone l)) = Some (now, v) ->
  (1 <= sv_timeout v)%Z -> (sv_updated v + sv_timeout v * 1000000000 <= now)%Z ->
  exists reason, mget s (z_failSafeSensors (l_zone l)) = Some (reason, own_percent z0 s) /\
    (sv_failed v = false -> reason = "Sensor timeout").
Proof. exact stale_entry. Qed.
Print Assumptions C24_stale_sensor_is_in_failsafe.

Theorem C24_fresh_sensor_is_not : forall f z0 l s now v,
  reachable f z0 l -> last_poll s (z_trace (l_zone l)) = Some (now, v) -> sv_failed v = false ->
  sv_timeout v = 0%Z \/ ((1 <= sv_timeout v) /\ (now < sv_updated v + sv_timeout v * 1000000000))%Z ->
  mget s (z_failSafeSensors (l_zone l)) = None.
Proof. exact fresh_entry. Qed.
Print Assumptions C24_fresh_sensor_is_not.

(** Timeout 5 s: 4.999999999 s is fresh, 5 s is stale; timeout 0 never is. *)
Example C24_example :
  timed_out 4999999999 (ex_view 1) = false /\ timed_out 5000000000 (ex_view 1) = true /\
  timed_out 5000000000000 (View d0 d0 0 0 false "") = false /\
  get_run ex_flags ex_zone [LTick (ex_tick 4999999999)] = Some [] /\
  get_run ex_flags ex_zone [LTick (ex_tick 5000000000)] =
    Some [("fan0", "Sensor timeout"); ("fan1", "Sensor timeout")].
Proof. vm_compute. repeat split. Qed.

(** ** C25 *)
Theorem C25_manual_mode_does_nothing : forall f evs l,
  z_manualMode (l_zone l) = true -> ~ In (LManual false) evs ->
  exists l', loop_run f evs l = Ok l' /\
    z_trace (l_zone l') = z_trace (l_zone l) /\ z_log (l_zone l') = z_log (l_zone l) /\
    z_manualMode (l_zone l') = true /\ l_cycleCnt l' = l_cycleCnt l /\
    z_fans (l_zone l') = z_fans (l_zone l) /\ z_thermals (l_zone l') = z_thermals (l_zone l) /\
    z_failSafeSensors (l_zone l') = z_failSafeSensors (l_zone l) /\
    z_maximumSetPoint (l_zone l') = z_maximumSetPoint (l_zone l).
Proof. exact manual_frozen. Qed.
Print Assumptions C25_manual_mode_does_nothing.

Example C25_example :
  ok_and (ex_run ex_flags ex_zone (ex_ticks 3 ++ [LManual true]))
    (fun l => z_manualMode (l_zone l) &&
       ok_and (loop_run ex_flags (ex_ticks 4 ++ LEnable "gpu" false :: ex_ticks 2) l)
         (fun l' => Nat.eqb (List.length (z_trace (l_zone l'))) (List.length (z_trace (l_zone l)))))
  = true.
Proof. vm_compute. reflexivity. Qed.

(** ** C26 *)
Theorem C26_one_forced_rewrite : forall f env te now z0 l0 evs l e l' new n v b,
  fresh z0 -> loop_start f env te now z0 = Ok l0 -> loop_run f evs l0 = Ok l ->
  loop_step f l (LTick e) = Ok l' -> new_events (l_zone l) (l_zone l') new ->
  In (n, v, b) (writes_in new) -> b = rewrite_pending false false evs.
Proof. exact C26_lemma. Qed.
Print Assumptions C26_one_forced_rewrite.

Example C26_example :
  ex_writes 6 (ex_run ex_flags ex_zone
     (ex_ticks 1 ++ [LManual true] ++ ex_ticks 1 ++ [LManual false] ++ ex_ticks 2)) =
  [("fan0", 640, false); ("fan1", 640, false); ("fan0", 640, true); ("fan1", 640, true);
   ("fan0", 640, false); ("fan1", 640, false)]%Z.
Proof. vm_compute. reflexivity. Qed.

(** ** C27 *)
Theorem C27_cycle_ratio : forall f F T env te now z0 l0 evs l,
  fresh z0 -> loop_start f env te now z0 = Ok l0 ->
  z_cycleIntervalTimeMS z0 = F -> z_updateThermalsTimeMS z0 = T ->
  (1 <= F <= T)%Z -> (T + F < uint64_mod)%Z -> loop_run f evs l0 = Ok l ->
  Z.of_nat (thermal_cycles_in (z_trace (l_zone l))) = (1 + cycles_after F T (auto_ticks false evs))%Z.
Proof. exact (fun f F T env te now z0 l0 evs l A B C D E G H =>
  proj1 (cycles_inv f F T env te now z0 l0 evs l A B C D E G H)). Qed.
Print Assumptions C27_cycle_ratio.

(** Thermals no slower than fans: one thermal cycle per wake-up, except the
    first one. *)
Theorem C27_cycle_ratio_short : forall f F T env te now z0 l0 evs l,
  fresh z0 -> loop_start f env te now z0 = Ok l0 ->
  z_cycleIntervalTimeMS z0 = F -> z_updateThermalsTimeMS z0 = T ->
  (1 <= T <= F)%Z -> (Z.of_nat (auto_ticks false evs) * F < uint64_mod)%Z ->
  loop_run f evs l0 = Ok l ->
  thermal_cycles_in (z_trace (l_zone l)) = (1 + (auto_ticks false evs - 1))%nat.
Proof. exact (fun f F T env te now z0 l0 evs l A B C D E G H =>
  proj1 (cycles_inv_short f F T env te now z0 l0 evs l A B C D E G H)). Qed.
Print Assumptions C27_cycle_ratio_short.

(** F = 100, T = 250: after 11 wake-ups floor(10*100/250) = 4 cycles besides
    the first. *)
Example C27_example :
  fresh (set_updateThermalsTimeMS 250 ex_zone) /\
  ok_and (ex_run ex_flags (set_updateThermalsTimeMS 250 ex_zone) (ex_ticks 11))
    (fun l => Nat.eqb (thermal_cycles_in (z_trace (l_zone l))) 5) = true /\
  cycles_after 100 250 11 = 4%Z.
Proof. repeat split; vm_compute; reflexivity. Qed.

(** ** C28 *)
Theorem C28_no_drift : forall f env te now z0 l0 evs l,
  loop_start f env te now z0 = Ok l0 -> loop_run f evs l0 = Ok l ->
  l_expiry l = (now + (1 + Z.of_nat (ticks evs)) * (z_cycleIntervalTimeMS z0 * 1000000))%Z.
Proof. exact C28_lemma. Qed.
Print Assumptions C28_no_drift.

Example C28_example :
  ok_and (ex_run ex_flags ex_zone (ex_ticks 3 ++ [LManual true] ++ ex_ticks 2))
    (fun l => Z.eqb (l_expiry l) 600000000) = true.
Proof. vm_compute. reflexivity. Qed.

(** ** C50 *)
Theorem C50_offline_failsafe : forall f w c z z' evs,
  fan_destroy f w c z = Ok z' -> new_events z z' evs ->
  writes_in evs =
    if OFFLINE_FAILSAFE_PWM f
    then map (fun n => (n, ddiv (getFailSafePercent z) (D 100), z_redundantWrite z)) (fan_inputs c)
    else [].
Proof. exact C50_lemma. Qed.
Print Assumptions C50_offline_failsafe.

Example C50_example :
  let c := MkFan "f" ["fan0"; "fan1"] (pid_ctrl_init ex_ff) d0 DirNeutral true false in
  ok_and (fan_destroy (Flags false true false false false) ex_write c ex_zone)
    (fun z => Nat.eqb (List.length (writes_in (z_trace z))) 2 &&
              forallb (fun w => dsame (snd (fst w)) (D2 3 (-2))) (writes_in (z_trace z))) = true /\
  ok_and (fan_destroy ex_flags ex_write c ex_zone)
    (fun z => Nat.eqb (List.length (writes_in (z_trace z))) 0) = true.
Proof. vm_compute. split; reflexivity. Qed.

(** The destructor reads an uninitialised variable when the writer does not
    report the raw value (sysfs writers, read-only sensors). *)
Theorem C50_uninitialised_raw_refuted : exists f w c z why,
  OFFLINE_FAILSAFE_PWM f = true /\ fan_destroy f w c z = UB why.
Proof.
  exists (Flags false true false false false), (fun _ => Some (fun _ _ => Ok None)),
    (MkFan "f" ["fan0"] (pid_ctrl_init ex_ff) d0 DirNeutral true false), ex_zone,
    "uninitialised rawWritten".
  split; reflexivity.
Qed.
Print Assumptions C50_uninitialised_raw_refuted.

(** ** C51 *)
Theorem C51_reaction_time : forall f z0 l es e l1 l' s evs n v b,
  reachable f z0 l -> z_manualMode (l_zone l) = false ->
  (1 <= z_cycleIntervalTimeMS z0 <= z_updateThermalsTimeMS z0)%Z ->
  (z_updateThermalsTimeMS z0 + z_cycleIntervalTimeMS z0 < uint64_mod)%Z ->
  is_input z0 s -> ~ acceptable z0 s ->
  (forall t, In (LTick t) (es ++ [LTick e])%list -> shows_bad t s) -> ~ In (LManual true) es ->
  (z_updateThermalsTimeMS z0 <= Z.of_nat (ticks es) * z_cycleIntervalTimeMS z0)%Z ->
  loop_run f es l = Ok l1 -> loop_step f l1 (LTick e) = Ok l' ->
  tuningEnabled f = false -> percents_ok z0 ->
  new_events (l_zone l1) (l_zone l') evs -> In (n, v, b) (writes_in evs) -> notnan v ->
  dle (ddiv (own_percent z0 s) (D 100)) v.
Proof. exact C51_lemma. Qed.
Print Assumptions C51_reaction_time.

(** t1 fails after 3 wake-ups; the next thermal cycle is at wake-up 11, and 11
    failing wake-ups are enough from anywhere. *)
Example C51_example :
  let bad := ex_tick_with ex_failed 400000000 in
  shows_bad bad "t1" /\
  ex_writes 1 (ex_run ex_flags ex_zone (ex_ticks 3 ++ repeat (LTick bad) 7)) = [("fan1", 640, false)]%Z /\
  ex_writes 1 (ex_run ex_flags ex_zone (ex_ticks 3 ++ repeat (LTick bad) 8)) = [("fan1", 900, false)]%Z /\
  ex_writes 1 (ex_run ex_flags ex_zone (ex_ticks 3 ++ repeat (LTick bad) 11)) = [("fan1", 900, false)]%Z.
Proof.
  split; [|vm_compute; repeat split].
  split; intros v H; injection H as <-; discriminate.
Qed.

(** ** C52 *)
Theorem C52_zones_are_independent : forall f evs ls ls' i l,
  system_run f evs ls = Ok ls' -> nth_error ls i = Some l ->
  exists l', nth_error ls' i = Some l' /\ loop_run f (zone_events i evs) l = Ok l'.
Proof. exact C52_lemma. Qed.
Print Assumptions C52_zones_are_independent.

Example C52_example :
  match ex_run ex_flags ex_zone [], ex_run ex_flags ex_hot [] with
  | Ok a, Ok b =>
      match system_run ex_flags
              [(0, LTick (ex_tick 1)); (1, LTick (ex_tick_with ex_failed 1)); (0, LManual true); (1, LTick (ex_tick 2))]%nat
              [a; b] with
      | Ok [a'; b'] => ex_writes 9 (Ok a') = [("fan0", 640, false); ("fan1", 640, false)]%Z /\
                       List.length (writes_in (z_trace (l_zone b'))) = 4%nat
      | _ => False
      end
  | _, _ => False
  end.
Proof. vm_compute. split; reflexivity. Qed.

(** ** C53 *)
Theorem C53_every_input_is_polled : forall f e l l' evs,
  loop_step f l (LTick e) = Ok l' -> z_manualMode (l_zone l) = false ->
  new_events (l_zone l) (l_zone l') evs ->
  reads_in evs =
    (z_fanInputs (l_zone l) ++
     (if Nat.eqb (thermal_cycles_in evs) 0 then [] else z_thermalInputs (l_zone l)))%list.
Proof. exact C53_lemma. Qed.
Print Assumptions C53_every_input_is_polled.

Example C53_example :
  ok_and (ex_run ex_flags ex_zone (ex_ticks 2))
    (fun l => forallb (fun p => String.eqb (fst p) (snd p))
       (combine (reads_in (z_trace (l_zone l))) ["t0"; "t1"; "m0"; "fan0"; "fan1"; "fan0"; "fan1"]) &&
       Nat.eqb (List.length (reads_in (z_trace (l_zone l)))) 7) = true.
Proof. vm_compute. reflexivity. Qed.

(** ** C54 *)
Theorem C54_requester_name : forall f env te z z',
  thermal_cycle f env te z = Ok z' -> tuningEnabled f = false -> z_accumulateSetPoint z = false ->
  Forall notnan (ceilings (cycle_readings env z) z) -> notnan (z_minThermalOutputSetPt z) ->
  exists top capped,
    is_max_of top (d0 :: map snd (requests (cycle_readings env z) z)) /\
    capped_at (ceilings (cycle_readings env z) z) top capped /\
    ((dle capped (z_minThermalOutputSetPt z) /\ z_maximumSetPoint z' = z_minThermalOutputSetPt z /\
      z_maximumSetPointName z' = "Minimum") \/
     (dlt (z_minThermalOutputSetPt z) capped /\ z_maximumSetPoint z' = capped /\ dlt capped top /\
      z_maximumSetPointName z' = "Ceiling") \/
     (dlt (z_minThermalOutputSetPt z) capped /\ z_maximumSetPoint z' = capped /\ capped = top /\
      leader (requests (cycle_readings env z) z) top (z_maximumSetPointName z'))).
Proof. exact C54_lemma. Qed.
Print Assumptions C54_requester_name.

Definition ex_name (t1 : Z) (z : zone) : string :=
  match thermal_cycle ex_flags (ex_poll_with (ex_view t1) 0) ex_tune z with
  | Ok z => z_maximumSetPointName z | _ => "?" end.
Example C54_example :
  ex_name 62 ex_zone = "x_cpu" /\ ex_name 30 ex_zone = "Ceiling" /\ ex_name 62 ex_hot = "Minimum".
Proof. vm_compute. repeat split. Qed.

(** ** C55 *)
Theorem C55_log_file : forall f env te now z0 l0 evs l,
  fresh z0 -> loggingEnabled f = true ->
  loop_start f env te now z0 = Ok l0 -> loop_run f evs l0 = Ok l ->
  exists rows, List.length rows = auto_ticks false evs /\
    rev (z_log (l_zone l)) = (csv_line (csv_header z0) ++ List.concat (map csv_line rows))%list /\
    Forall (fun row => exists setpt requester fan therm failsafe,
              row = csv_row z0 setpt requester fan therm failsafe) rows.
Proof. exact (fun f env te now z0 l0 evs l => C55_lemma f env te now z0 l0 evs l). Qed.
Print Assumptions C55_log_file.

(** Content of the row added by one automatic wake-up: setpoint and requester
    in force before it, what it polled of the fans and what was last written to
    them, what was last polled of the thermal inputs, failsafe state after it. *)
Theorem C55_row_content : forall f z0 l e l',
  reachable f z0 l -> loggingEnabled f = true -> z_manualMode (l_zone l) = false ->
  loop_step f l (LTick e) = Ok l' ->
  exists fan therm,
    rev (z_log (l_zone l')) = (rev (z_log (l_zone l)) ++
      csv_line (csv_row z0 (z_maximumSetPoint (l_zone l)) (z_maximumSetPointName (l_zone l))
                 fan therm (getFailSafeMode (l_zone l'))))%list /\
    (forall n, In n (z_fanInputs z0) ->
       fst (fan n) = seen (tk_fan e) n /\ scaled (snd (fan n)) = last_written n (z_trace (l_zone l))) /\
    (forall n, In n (z_thermalInputs z0) -> ~ In n (z_fanInputs z0) ->
       therm n = shown (last_poll n (z_trace (l_zone l)))).
Proof. exact C55_row_lemma. Qed.
Print Assumptions C55_row_content.

Theorem C55_rows_match_header : forall z setpt requester fan therm failsafe,
  List.length (csv_row z setpt requester fan therm failsafe) = List.length (csv_header z).
Proof. exact csv_widths. Qed.
Print Assumptions C55_rows_match_header.

Example C55_example :
  ok_and (ex_run ex_flags ex_zone (ex_ticks 2))
    (fun l => Nat.eqb (List.length (filter (fun t => match t with LEndl => true | _ => false end)
                                      (z_log (l_zone l)))) 3 &&
              Nat.eqb (List.length (z_log (l_zone l))) (3 * 2 * 18)) = true /\
  List.length (csv_header ex_zone) = 18%nat.
Proof. vm_compute. split; reflexivity. Qed.
