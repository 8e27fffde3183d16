(** * Property C61, continued: what a wake-up polls.

    Vocabulary: SpecSystem.v, SpecZone.v.  Proofs: PollProofs.v.  The theorems
    C61_* of PropertiesSystem.v say what [view_env s files now] shows; here it is
    tied to the polls of a wake-up. *)
From Coq Require Import ZArith Bool List String.
From Verif Require Import Base BaseFacts Dbl ZoneModel LoopModel SpecZone ZoneProofs ConfigModel SensorModel
  WriteModel SystemModel SpecSystem PropertiesZone PropertiesSystem PollProofs.
Import ListNotations.
Local Open Scope string_scope.

(** The polls of an automatic wake-up, with their times and what they showed:
    the fans, in order, at the time and with the files of the fan poll, then, in a
    thermal cycle, the thermal inputs at the time and with the files of theirs. *)
Theorem C61_polls_of_a_wakeup : forall f sf pow10 s i w s' l l' new,
  sys_step f sf pow10 s (STick i w) = Ok s' ->
  nth_error (sy_loops s) i = Some l -> nth_error (sy_loops s') i = Some l' ->
  z_manualMode (l_zone l) = false -> new_events (l_zone l) (l_zone l') new ->
  flat_map (fun e => match e with EvRead n t v => [(n, t, Some v)] | _ => [] end) (rev new) =
    (map (fun n => (n, wk_fan_now w, pe_sensor (view_env s (wk_fan_files w) (wk_fan_now w)) n))
       (z_fanInputs (l_zone l)) ++
     (if Nat.eqb (thermal_cycles_in new) 0 then [] else
      map (fun n => (n, wk_therm_now w, pe_sensor (view_env s (wk_therm_files w) (wk_therm_now w)) n))
        (z_thermalInputs (l_zone l))))%list.
Proof. exact C61_polls_lemma. Qed.
Print Assumptions C61_polls_of_a_wakeup.

(** Not every poll is defined: if the file of a sysfs sensor is gone, the
    wake-up that polls it uses a variable that was never set. *)
Theorem C61_every_poll_is_defined_refuted : exists f sf pow10 sb config failures first devices zs evs s i w,
  runs f sf pow10 sb config failures first devices zs evs s /\
  sys_step f sf pow10 s (STick i w) = UB "uninitialised value".
Proof.
  exists ex_flags, ex_sf, ex_pow, sys_bus, sys_config, [], None, sys_devs, sys_zones, [], (sys_after []), O,
    (Wake 1 (fun _ => NoFile) 1 (fun _ => NoFile) ex_tune (fun _ => true)).
  split; [apply ex_runs|]; vm_compute; reflexivity.
Qed.
Print Assumptions C61_every_poll_is_defined_refuted.

(** The eleventh wake-up runs a thermal cycle: fans at time 5, thermals at 6. *)
Definition two_times : wake := Wake 5 sys_files 6 sys_files ex_tune (fun _ => true).
Definition poll_times (n : nat) : option (bool * list (string * Z)) :=
  match nth_error (sy_loops (sys_after (ticks_from 1 n))) 0,
        nth_error (sy_loops (sys_after (ticks_from 1 n ++ [STick 0 two_times]))) 0 with
  | Some l, Some l' =>
      let new := firstn (List.length (z_trace (l_zone l')) - List.length (z_trace (l_zone l))) (z_trace (l_zone l')) in
      Some (z_manualMode (l_zone l),
            flat_map (fun e => match e with EvRead n t _ => [(n, t)] | _ => [] end) (rev new))
  | _, _ => None
  end.
Example C61_polls_example :
  poll_times 0 = Some (false, [("fan0", 5); ("fan1", 5)]%Z) /\
  poll_times 10 = Some (false, [("fan0", 5); ("fan1", 5); ("t1", 6); ("t0", 6); ("m0", 6)]%Z).
Proof. split; vm_compute; reflexivity. Qed.

(** A fan whose read path names no source is built all the same, and the first
    automatic wake-up of its zone ends with an exception. *)
Theorem C61_fan_without_source : forall f sf pow10 sb config failures first devices zs evs s name info i w l,
  runs f sf pow10 sb config failures first devices zs evs s ->
  In (name, info) config -> known_type (sc_type info) ->
  ~ external_path (sc_readPath info) -> ~ bus_path (sc_readPath info) -> ~ sysfs_path (sc_readPath info) ->
  nth_error (sy_loops s) i = Some l -> z_manualMode (l_zone l) = false -> In name (z_fanInputs (l_zone l)) ->
  (forall s', sys_step f sf pow10 s (STick i w) <> Ok s') /\
  (forall r, z_fanInputs (l_zone l) = name :: r -> sys_step f sf pow10 s (STick i w) = Throw "Not supported.").
Proof. exact C61_unreadable_lemma. Qed.
Print Assumptions C61_fan_without_source.

Definition deaf_info : SensorConfig :=
  MkSensorConfig "fan" "" "/xyz/openbmc_project/control/fanpwm/fan0" 0 255 0 false true false.
Definition deaf_config : smap SensorConfig := ("fan0", deaf_info) :: tl sys_config.
Definition deaf_sensors : smap sensor := get_ok [] (buildSensors ex_sf ex_pow sys_bus deaf_config).
Definition deaf_s0 : system := get_ok no_system (sys_start ex_flags deaf_sensors [] false sys_devs sys_zones).
Example C61_fan_without_source_example :
  runs ex_flags ex_sf ex_pow sys_bus deaf_config [] None sys_devs sys_zones [] deaf_s0 /\
  ~ external_path (sc_readPath deaf_info) /\ ~ bus_path (sc_readPath deaf_info) /\
  ~ sysfs_path (sc_readPath deaf_info) /\
  match nth_error (sy_loops deaf_s0) 0 with
  | Some l => z_manualMode (l_zone l) = false /\ z_fanInputs (l_zone l) = ["fan0"; "fan1"]
  | None => False
  end /\
  sys_step ex_flags ex_sf ex_pow deaf_s0 (STick 0 two_times) = Throw "Not supported.".
Proof.
  split.
  { split.
    - repeat constructor; cbn; intuition congruence.
    - constructor; [apply ex_fresh|constructor].
    - exists deaf_sensors, deaf_s0. split; [apply get_ok_eq; vm_compute; reflexivity|].
      split; [apply get_ok_eq; vm_compute; reflexivity|reflexivity]. }
  assert (N : no_path (sc_readPath deaf_info)) by (left; reflexivity).
  split; [intros (A & _); exact (A N)|]. split; [intros (A & _); exact (A N)|].
  split; [intros (A & _); exact (A N)|].
  split; [vm_compute; split; reflexivity|vm_compute; reflexivity].
Qed.
