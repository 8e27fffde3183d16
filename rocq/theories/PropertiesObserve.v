(** * Properties C73-C78: objects on the bus and messages.

    Vocabulary: SpecObserve.v, SpecBuilder.v, SpecZone.v.  Proofs:
    ObserveProofs.v, DebugProofs.v, MessageProofs.v. *)
From Coq Require Import ZArith Bool List String.
From Verif Require Import Base BaseFacts Dbl DblFacts SensorModel PidModel ZoneModel LoopModel LogModel SpecZone
  ZoneProofs LoopProofs BuilderModel SpecBuilder SpecObserve BuilderProofs ObserveProofs DebugProofs MessageProofs
  PropertiesZone PropertiesBuilder.
Import ListNotations.
Local Open Scope string_scope.

(** ** C73 *)

(** No two objects of one configuration share a path.  The ids and names are keys of
    [std::map]s. *)
Theorem C73_object_paths_are_distinct : forall zp : list (Z * PIDConf),
  NoDup (map fst zp) -> (forall e, In e zp -> NoDup (map fst (snd e))) ->
  NoDup (flat_map object_paths zp).
Proof. exact C73_distinct_lemma. Qed.
Print Assumptions C73_object_paths_are_distinct.

(** Construction depends on the bus only through these paths ... *)
Theorem C73_no_other_path_is_used : forall b1 b2 confs zp,
  (forall p, In p (flat_map object_paths zp) -> b1 p = b2 p) ->
  buildZones b1 zp confs = buildZones b2 zp confs.
Proof. exact C73_ext_lemma. Qed.
Print Assumptions C73_no_other_path_is_used.

(** ... and needs every one of them. *)
Theorem C73_every_path_is_needed : forall bus_ok confs zp p,
  In p (flat_map object_paths zp) -> bus_ok p = false -> ~ returns (buildZones bus_ok zp confs).
Proof. exact C73_needed_lemma. Qed.
Print Assumptions C73_every_path_is_needed.

Example C73_example :
  flat_map object_paths [(1%Z, ex_pids); (12%Z, [("a", ex_info "temp" [ex_in "t0"] 0)])] =
  ["/xyz/openbmc_project/settings/fanctrl/zone1"; "/xyz/openbmc_project/settings/fanctrl/zone1/step";
   "/xyz/openbmc_project/settings/fanctrl/zone1/x_cpu"; "/xyz/openbmc_project/settings/fanctrl/zone1/y_cpu";
   "/xyz/openbmc_project/settings/fanctrl/zone12"; "/xyz/openbmc_project/settings/fanctrl/zone12/a"] /\
  is_ok (buildZones ex_bus [(1%Z, ex_pids)] ex_confs) = true.
Proof. vm_compute. split; reflexivity. Qed.

(** ** C74 *)

(** After a cycle the object of a PID shows the output of the cycle, and the input
    and leader that decided it. *)
Theorem C74_object_shows_the_cycle : forall f env te z z' id inputs ty sp p,
  thermal_cycle f env te z = Ok z' -> NoDup (map thermal_id (z_thermals z)) ->
  In (TPid id inputs ty sp p) (z_thermals z) -> (forall i, In i inputs -> si_name i <> "") ->
  exists o o',
    mget id (z_pidsControlProcess z) = Some o /\ mget id (z_pidsControlProcess z') = Some o' /\
    po_enabled o' = po_enabled o /\ po_setpoint o' = po_setpoint o /\ po_classType o' = po_classType o /\
    po_output o' = ctl_output (cycle_readings env z) (TPid id inputs ty sp p) /\
    shows_input ty (named_readings (cycle_readings env z) ty inputs) o o'.
Proof. exact C74_lemma. Qed.
Print Assumptions C74_object_shows_the_cycle.

(** The object of a stepwise controller never changes. *)
Theorem C74_stepwise_object_is_not_updated : forall f env te z z' n,
  thermal_cycle f env te z = Ok z' ->
  (forall t, In t (z_thermals z) -> thermal_id t = n -> exists i c, t = TStep n i c) ->
  mget n (z_pidsControlProcess z') = mget n (z_pidsControlProcess z).
Proof. exact C74_others_lemma. Qed.
Print Assumptions C74_stepwise_object_is_not_updated.

Definition ox_object (n : string) (o : outcome zone) : option ProcessObject :=
  match o with Ok z => mget n (z_pidsControlProcess z) | _ => None end.
Definition ox_is (o : option ProcessObject) (leader : string) (input output : Z) : bool :=
  match o with
  | Some p => String.eqb (po_leader p) leader && dsame (po_input p) (D input) && dsame (po_output p) (D output)
  | None => false
  end.
(** t0 = 55, t1 = 62, setpoint 30, coefficient -2: the input is t1's 62, the output 64.
    The stepwise controllers have run as well and show nothing. *)
Definition ox_cycle (t1 : sensor_view) (z : zone) : outcome zone :=
  thermal_cycle ex_flags (ex_poll_with t1 0) ex_tune z.
Example C74_example :
  map thermal_id (z_thermals (initializeCache ex_zone)) = ["x_cpu"; "y_cpu"; "cap"; "gpu"] /\
  ox_is (ox_object "x_cpu" (ox_cycle (ex_view 62) (initializeCache ex_zone))) "t1" 62 64 = true /\
  ox_is (ox_object "x_cpu" (ox_cycle (ex_view 40) (initializeCache ex_zone))) "t0" 55 50 = true /\
  ox_is (ox_object "gpu" (ox_cycle (ex_view 62) (initializeCache ex_zone))) "" 0 0 = true.
Proof. vm_compute. repeat split. Qed.

(** The shown input is not always one of the current readings: without a usable
    reading the old one stays. *)
Definition ox_single : zone :=
  let z := zone_new 1 (D 10) (D 75) 100 100 false in
  let z := addThermalInput "t1" false z in
  let z := addThermalPID (TPid "x_cpu" [MkInput "t1" (D 0) false false] absolute (D 30) (pid_ctrl_init ex_p)) z in
  addPidControlProcess "x_cpu" "temp" (D 30) z.
Definition ox_nan : sensor_view := View dnan dnan 0 5 false "".
Definition ox_before : zone :=
  get_ok ox_single (thermal_cycle ex_flags (ex_poll_with (ex_view 62) 0) ex_tune ox_single).
Theorem C74_input_is_current_refuted : exists f env1 env2 te z z1 z2 id inputs ty sp p,
  thermal_cycle f env1 te z = Ok z1 /\ thermal_cycle f env2 te z1 = Ok z2 /\
  z_thermals z = [TPid id inputs ty sp p] /\
  named_readings (cycle_readings env2 z1) ty inputs = [] /\
  option_map po_leader (mget id (z_pidsControlProcess z2)) = Some "t1" /\
  option_map (fun o => dsame (po_input o) (D 62)) (mget id (z_pidsControlProcess z2)) = Some true.
Proof.
  exists ex_flags, (ex_poll_with (ex_view 62) 0), (ex_poll_with ox_nan 0), ex_tune, ox_single, ox_before,
    (get_ok ox_single (thermal_cycle ex_flags (ex_poll_with ox_nan 0) ex_tune ox_before)),
    "x_cpu", [MkInput "t1" (D 0) false false], absolute, (D 30), (pid_ctrl_init ex_p).
  split; [unfold ox_before; apply get_ok_eq; vm_compute; reflexivity|].
  split; [apply get_ok_eq; vm_compute; reflexivity|].
  split; [reflexivity|]. split; [vm_compute; reflexivity|]. split; vm_compute; reflexivity.
Qed.
Print Assumptions C74_input_is_current_refuted.

(** ** C75 *)

(** One line per fan controller at the first automatic wake-up and at every wake-up that
    changes the failsafe state; it names the state and percent just applied and the
    failing sensors.  Otherwise, and with tuning or debugging on, there is no line. *)
Theorem C75_mode_changes_are_printed : forall f env te now z0 l0 evs l e l' new,
  fresh z0 -> (forall c, In c (fan_ctls z0) -> fan_failsafeTransition c = true) ->
  loop_start f env te now z0 = Ok l0 -> loop_run f evs l0 = Ok l ->
  loop_step f l (LTick e) = Ok l' -> new_events (l_zone l) (l_zone l') new ->
  (tuningEnabled f = false -> debugEnabled f = false -> manual_after false evs = false ->
   auto_ticks false evs = 0%nat \/ getFailSafeMode (l_zone l) <> getFailSafeMode (l_zone l') ->
   Forall2 (mode_line z0 new l') (fan_ctls (l_zone l)) (modes_in new)) /\
  (tuningEnabled f = true \/ debugEnabled f = true \/ manual_after false evs = true \/
   (auto_ticks false evs <> 0%nat /\ getFailSafeMode (l_zone l) = getFailSafeMode (l_zone l')) ->
   modes_in new = []).
Proof. exact C75_lemma. Qed.
Print Assumptions C75_mode_changes_are_printed.

(** t1 fails at the eleventh wake-up: its failsafe percent is 90. *)
Definition ox_modes (f : flags) (evs : list loop_event) : list (bool * bool * list (string * string)) :=
  match ex_run f ex_zone evs with
  | Ok l => map (fun m => let '(_, b, p, s) := m in (b, dsame p (D 90), s)) (modes_in (z_trace (l_zone l)))
  | _ => []
  end.
Definition ox_fail_at_11 : list loop_event := (ex_ticks 10 ++ [LTick (ex_tick_with ex_failed 1100000000)])%list.
Definition ox_quiet_flags : flags := Flags false false false false false.
Example C75_example :
  fresh ex_zone /\ map fan_failsafeTransition (fan_ctls ex_zone) = [true] /\
  manual_after false (ex_ticks 10) = false /\ auto_ticks false (ex_ticks 10) = 10%nat /\
  map fst (ox_modes ox_quiet_flags (ex_ticks 10)) = [(false, false)] /\
  ox_modes ox_quiet_flags ox_fail_at_11 = [(false, false, []); (true, true, [("t1", "gone")])] /\
  ox_modes (Flags false false true false false) ox_fail_at_11 = [] /\
  ox_modes (Flags false false false false true) ox_fail_at_11 = [].
Proof. vm_compute. repeat split. Qed.

(** ** C76 *)

(** A line is printed by a thermal cycle that ends above the minimum with a requester
    other than the one named last; it names the setpoint, the requester and the
    failing sensors that are not fans. *)
Theorem C76_new_requester_is_printed : forall f z0 l e l' new,
  reachable f z0 l -> z_maximumSetPointNamePrev z0 = "" -> tuningEnabled f = false ->
  loop_step f l (LTick e) = Ok l' -> new_events (l_zone l) (l_zone l') new ->
  let sp := z_maximumSetPoint (l_zone l') in
  let name := z_maximumSetPointName (l_zone l') in
  (thermal_cycles_in new = 0%nat \/ dle sp (z_minThermalOutputSetPt z0) \/
   name = last_requester (z_trace (l_zone l)) -> requesters_in new = []) /\
  (thermal_cycles_in new <> 0%nat -> ~ dle sp (z_minThermalOutputSetPt z0) ->
   name <> last_requester (z_trace (l_zone l)) ->
   exists m, requesters_in new = [m] /\ requester_line z0 (l_zone l') m).
Proof. exact C76_lemma. Qed.
Print Assumptions C76_new_requester_is_printed.

(** The cycle at start-up. *)
Theorem C76_first_requester_is_printed : forall f env te now z0 l0,
  fresh z0 -> z_maximumSetPointNamePrev z0 = "" -> tuningEnabled f = false ->
  loop_start f env te now z0 = Ok l0 ->
  let sp := z_maximumSetPoint (l_zone l0) in
  (dle sp (z_minThermalOutputSetPt z0) \/ z_maximumSetPointName (l_zone l0) = "" ->
   requesters_in (z_trace (l_zone l0)) = []) /\
  (~ dle sp (z_minThermalOutputSetPt z0) -> z_maximumSetPointName (l_zone l0) <> "" ->
   exists m, requesters_in (z_trace (l_zone l0)) = [m] /\ requester_line z0 (l_zone l0) m).
Proof. exact C76_start_lemma. Qed.
Print Assumptions C76_first_requester_is_printed.

Definition ox_lines (o : outcome loop) : list (string * list string) :=
  match o with
  | Ok l => map (fun m => let '(_, _, n, s) := m in (n, s)) (requesters_in (z_trace (l_zone l)))
  | _ => []
  end.
(** At start-up the fans have not been polled yet.  t1 then reads 0 and fails: the
    ceiling controller decides the second cycle. *)
Example C76_example :
  z_maximumSetPointNamePrev ex_zone = "" /\ fresh ex_zone /\
  ox_lines (ex_run ox_quiet_flags ex_zone []) = [("x_cpu", ["fan0"; "fan1"])] /\
  ox_lines (ex_run ox_quiet_flags ex_zone (ex_ticks 12)) = [("x_cpu", ["fan0"; "fan1"])] /\
  ox_lines (ex_run ox_quiet_flags ex_zone (ex_ticks_with ex_failed 12)) =
    [("x_cpu", ["fan0"; "fan1"]); ("Ceiling", ["t1"])].
Proof. vm_compute. repeat split. Qed.

(** A requester that takes over from the minimum is not announced if it was the last
    one named. *)
Definition ox_tick (t1 : Z) (now : Z) : loop_event := LTick (ex_tick_with (ex_view t1) now).
Definition ox_l0 : loop :=
  get_ok (MkLoop ox_single 0 0) (loop_start ox_quiet_flags (ex_poll 0) ex_tune 0 ox_single).
Definition ox_l : loop := get_ok ox_l0 (loop_run ox_quiet_flags [ox_tick 62 1; ox_tick 30 2] ox_l0).
Definition ox_l' : loop := get_ok ox_l (loop_step ox_quiet_flags ox_l (ox_tick 62 3)).
Lemma ox_reachable : reachable ox_quiet_flags ox_single ox_l.
Proof.
  exists (ex_poll 0), ex_tune, 0%Z, ox_l0, [ox_tick 62 1; ox_tick 30 2].
  split; [repeat split|]. split; [unfold ox_l0; apply get_ok_eq; vm_compute; reflexivity|].
  unfold ox_l. apply get_ok_eq. vm_compute. reflexivity.
Qed.
Theorem C76_every_takeover_is_printed_refuted : exists f z0 l e l' new,
  reachable f z0 l /\ z_maximumSetPointNamePrev z0 = "" /\ tuningEnabled f = false /\
  loop_step f l (LTick e) = Ok l' /\ new_events (l_zone l) (l_zone l') new /\
  z_maximumSetPointName (l_zone l) = "Minimum" /\ z_maximumSetPointName (l_zone l') = "x_cpu" /\
  requesters_in new = [].
Proof.
  assert (S : loop_step ox_quiet_flags ox_l (LTick (ex_tick_with (ex_view 62) 3)) = Ok ox_l').
  { unfold ox_l', ox_tick. apply get_ok_eq. vm_compute. reflexivity. }
  assert (M : z_manualMode (l_zone ox_l) = false) by (vm_compute; reflexivity).
  destruct (tick_step _ _ _ _ S M) as (z1 & z2 & new & _ & T).
  exists ox_quiet_flags, ox_single, ox_l, (ex_tick_with (ex_view 62) 3), ox_l', new.
  split; [exact ox_reachable|]. split; [reflexivity|]. split; [reflexivity|]. split; [exact S|].
  split; [exact (tf_trace _ _ _ _ _ _ T)|]. split; [vm_compute; reflexivity|]. split; [vm_compute; reflexivity|].
  refine (proj1 (C76_lemma _ _ _ _ _ _ ox_reachable eq_refl eq_refl S (tf_trace _ _ _ _ _ _ T)) _).
  right. right. vm_compute. reflexivity.
Qed.
Print Assumptions C76_every_takeover_is_printed_refuted.

(** ** C77 *)

(** With tuning on, the files only replace the setpoint of the cycle (the zone's own
    file wins) and add complaints. *)
Theorem C77_tuning_files_only_set_the_setpoint : forall f env te z z',
  tuningEnabled f = true -> thermal_cycle f env te z = Ok z' ->
  exists y complaints, thermal_cycle (without_tuning f) env te z = Ok y /\
    z_trace z' = (complaints ++ z_trace y)%list /\
    file_errors_in complaints =
      (map (pair true) (file_complaint (te_global te)) ++ map (pair false) (file_complaint (te_zone te)))%list /\
    (forall ev, In ev complaints -> exists g t, ev = EvFileError g t) /\
    z' = set_trace (z_trace z')
          (set_maximumSetPoint
             (match file_setpoint (te_zone te) with
              | Some v => v
              | None => match file_setpoint (te_global te) with Some v => v | None => z_maximumSetPoint y end
              end) y).
Proof. exact C77_lemma. Qed.
Print Assumptions C77_tuning_files_only_set_the_setpoint.

(** Files that hold a number, or no files, never stop a cycle. *)
Theorem C77_readable_files_do_not_stop_a_cycle : forall f env te z y,
  tuningEnabled f = true -> thermal_cycle (without_tuning f) env te z = Ok y ->
  te_global te <> FileEmpty -> te_zone te <> FileEmpty ->
  exists z', thermal_cycle f env te z = Ok z'.
Proof. exact C77_runs_lemma. Qed.
Print Assumptions C77_readable_files_do_not_stop_a_cycle.

(** An empty file is undefined behaviour. *)
Theorem C77_empty_file_refuted : exists f env te z y m,
  tuningEnabled f = true /\ te_global te = NoFile /\
  thermal_cycle (without_tuning f) env te z = Ok y /\ thermal_cycle f env te z = UB m.
Proof.
  exists (Flags false false true false false), (ex_poll 0), (TuneEnv NoFile FileEmpty), ox_single,
    (get_ok ox_single (thermal_cycle (without_tuning (Flags false false true false false)) (ex_poll 0)
       (TuneEnv NoFile FileEmpty) ox_single)).
  eexists. split; [reflexivity|]. split; [reflexivity|].
  split; [apply get_ok_eq; vm_compute; reflexivity|]. vm_compute. reflexivity.
Qed.
Print Assumptions C77_empty_file_refuted.

Definition ox_tuned (global zone_ : file_content) : outcome zone :=
  thermal_cycle (Flags false false true false false) (ex_poll 0) (TuneEnv global zone_) (initializeCache ex_zone).
Definition ox_tuned_to (global zone_ : file_content) (sp : Z) (n : nat) : bool :=
  ok_and (ox_tuned global zone_) (fun z => dsame (z_maximumSetPoint z) (D sp) &&
    Nat.eqb (List.length (file_errors_in (z_trace z))) n).
Example C77_example :
  ox_tuned_to NoFile NoFile 64 0 = true /\
  ox_tuned_to (FileInt 5000) NoFile 5000 0 = true /\ ox_tuned_to (FileInt 5000) (FileInt 6000) 6000 0 = true /\
  ox_tuned_to (FileInt 5000) (FileInt 50) 5000 1 = true /\ ox_tuned_to (FileInt (-1)) (FileInt 100) 64 2 = true.
Proof. vm_compute. repeat split. Qed.

(** ** C78 *)

(** Everything the zone hands to the failsafe log, in order, as a function of the
    polls: which sensor, which text and which state. *)
Theorem C78_failsafe_log_attempts : forall f z0 l, reachable f z0 l ->
  attempts_in (z_trace (l_zone l)) = expected_attempts z0 (z_trace (l_zone l)).
Proof. exact C78_lemma. Qed.
Print Assumptions C78_failsafe_log_attempts.

(** The state handed over is the one the FailSafe property shows. *)
Theorem C78_state_is_the_property : forall f z0 l, reachable f z0 l ->
  getFailSafeMode (l_zone l) = in_failsafe z0 (z_trace (l_zone l)).
Proof. exact C78_state_lemma. Qed.
Print Assumptions C78_state_is_the_property.

(** t1 fails and recovers; m0 may be missing, so its report at start-up says so. *)
Definition ox_attempts (evs : list loop_event) : list (bool * string * string) :=
  match ex_run ox_quiet_flags ex_zone evs with
  | Ok l => map (fun m => let '(_, b, s, t) := m in (b, s, t)) (attempts_in (z_trace (l_zone l)))
  | _ => []
  end.
Definition ox_fail_recover : list loop_event :=
  (ex_ticks 10 ++ [LTick (ex_tick_with ex_failed 1100000000)] ++ ex_ticks 10)%list.
Example C78_example : ox_attempts ox_fail_recover =
  [(true, "fan0", "The sensor is missing."); (true, "fan1", "The sensor is missing.");
   (true, "t0", "The sensor is missing."); (true, "t1", "The sensor is missing.");
   (true, "m0", "The sensor is missing but is acceptable.");
   (true, "t0", "The sensor has recovered."); (true, "t1", "The sensor has recovered.");
   (true, "fan0", "The sensor has recovered."); (false, "fan1", "The sensor has recovered.");
   (true, "t1", "The sensor is missing."); (false, "t1", "The sensor has recovered.")].
Proof. vm_compute. reflexivity. Qed.

(** The log itself does not follow the zone: the sensors write to the zone's logger too,
    and a healthy sensor reports "recovered" whenever it is asked.  Here the zone has
    handed over what C78 says and is in failsafe because of t1; the next question to the
    healthy t0 prints that the zone leaves failsafe mode. *)
Definition ox_attempt (m : Z * bool * string * string) : fs_op :=
  let '(i, b, s, t) := m in FsZoneOp i (FsAttempt 0 b s t).
Definition ox_healthy : passive :=
  MkPassive "t0" "/t0" false false false 0 (D 55) (D 55) 0 (D 0) (D 0) false true true false false false false.
Definition ox_f0 : loop :=
  get_ok (MkLoop ex_zone 0 0) (loop_start ox_quiet_flags (ex_poll 0) ex_tune 0 ex_zone).
Definition ox_f : loop := get_ok ox_f0 (loop_run ox_quiet_flags (ex_ticks_with ex_failed 11) ox_f0).
Theorem C78_log_follows_the_zone_refuted : exists f z0 l s text,
  reachable f z0 l /\ getFailSafeMode (l_zone l) = true /\ is_input z0 (p_id s) /\
  passive_getFailed None s = (false, Some (false, text)) /\
  In (z_zoneId z0, LLeaves (p_id s) text)
    (snd (fs_exec
       (buildFailsafeLoggers (2 ^ 64) [FsZone (z_zoneId z0) (getFailSafeMode z0) (z_thermalInputs z0)] 20)
       (map ox_attempt (attempts_in (z_trace (l_zone l))) ++
        [FsSensor (p_id s) (FsAttempt 0 false (p_id s) text)]))).
Proof.
  exists ox_quiet_flags, ex_zone, ox_f, ox_healthy, "The sensor has recovered.".
  split.
  { exists (ex_poll 0), ex_tune, 0%Z, ox_f0, (ex_ticks_with ex_failed 11).
    split; [repeat split|]. split; [unfold ox_f0; apply get_ok_eq; vm_compute; reflexivity|].
    unfold ox_f. apply get_ok_eq. vm_compute. reflexivity. }
  split; [vm_compute; reflexivity|]. split; [right; left; reflexivity|]. split; [vm_compute; reflexivity|].
  vm_compute. tauto.
Qed.
Print Assumptions C78_log_follows_the_zone_refuted.
