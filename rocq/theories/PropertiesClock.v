(** * Property C110: only differences of times matter.

    Vocabulary: SpecClock.v, with SpecSystem.v and SpecZone.v.  Proofs: ClockProofs.v. *)
From Coq Require Import ZArith Bool List String.
From Verif Require Import Base BaseFacts Dbl PidModel ZoneModel LoopModel SpecZone ZoneProofs SensorModel SpecSensor
  WriteModel SpecWrite BuilderModel SpecBuilder PropertiesZone PropertiesBuilder SystemModel SpecSystem PropertiesSystem
  SpecHeat PropertiesHeat SpecSettle PropertiesSettle SpecApart PropertiesApart SpecClock ClockProofs ClockProofs2.
Import ListNotations.
Local Open Scope string_scope.

(** ** C110 *)

(** The daemon is started [k] nanoseconds later and everything then happens that much
    later: every zone gives the same fan commands, and waits for a time that much later. *)
Theorem C110_clock : forall bus_ok zp confs built id pids z f sf pow10 sb config failures first devices1 devices2
    zs evs i st k s1 s2 l1 l2,
  buildZones bus_ok zp confs = Ok built -> NoDup (map fst zp) -> In (id, pids) zp -> In (id, z) built ->
  runs f sf pow10 sb config failures first devices1 zs evs s1 ->
  runs f sf pow10 (later_bus k sb) config failures first devices2 (map (later_start k) zs) (map (later_event k) evs) s2 ->
  nth_error zs i = Some (st, z) ->
  nth_error (sy_loops s1) i = Some l1 -> nth_error (sy_loops s2) i = Some l2 ->
  writes_in (z_trace (l_zone l1)) = writes_in (z_trace (l_zone l2)) /\ l_expiry l2 = (l_expiry l1 + k)%Z.
Proof. exact C110_lemma. Qed.
Print Assumptions C110_clock.

(** The daemon of C109, with the clock near 0 and a day ahead.  t1 (timeout 2 s) was last
    heard of when the daemon was started, and has timed out at the last wake-up. *)
Definition ck_events : list sys_event :=
  [host_up; STick 0 (sys_wake 100000000); STick 1 (sys_wake 100000000); STick 0 (sys_wake 200000000);
   STick 1 (sys_wake 200000000); STick 1 (sys_wake 300000000); STick 1 (sys_wake 2500000000); STick 1 (sys_wake 2600000000)].
Definition ck_day : Z := 86400000000000.
Definition ck_sensors : smap sensor := get_ok [] (buildSensors ex_sf ex_pow (later_bus ck_day sys_bus) sys_config).
Definition ck_s0 : system :=
  get_ok no_system (sys_start ex_flags ck_sensors [] false sys_devs (map (later_start ck_day) ap_zones)).
Definition ck_after : system := get_ok no_system (sys_run ex_flags ex_sf ex_pow (map (later_event ck_day) ck_events) ck_s0).
Definition ck_shows (i : nat) (s : system) : option (list (string * Z * bool) * Z) :=
  option_map (fun l => (ex_writes 5 (Ok l), l_expiry l)) (nth_error (sy_loops s) i).
Example C110_example :
  runs ex_flags ex_sf ex_pow sys_bus sys_config [] None sys_devs ap_zones ck_events (ap_after ck_events) /\
  runs ex_flags ex_sf ex_pow (later_bus ck_day sys_bus) sys_config [] None sys_devs (map (later_start ck_day) ap_zones)
    (map (later_event ck_day) ck_events) ck_after /\
  nth_error ap_zones 1 = Some (StartIn 0 sys_files ex_tune 0, ap_zone 1) /\
  ck_shows 1 (ap_after ck_events) =
    Some ([("fan1", 550, false); ("fan1", 550, false); ("fan1", 640, false); ("fan1", 640, false);
      ("fan1", 750, false)], 600000000)%Z /\
  ck_shows 1 ck_after =
    Some ([("fan1", 550, false); ("fan1", 550, false); ("fan1", 640, false); ("fan1", 640, false);
      ("fan1", 750, false)], 86400600000000)%Z.
Proof.
  split; [apply ap_runs; vm_compute; reflexivity|].
  split.
  { constructor.
    - repeat constructor; cbn; intuition discriminate.
    - unfold ap_zones. cbn [map later_start fst snd].
      apply Forall_cons; [|apply Forall_cons; [|apply Forall_nil]]; cbn [snd]; unfold fresh;
        repeat match goal with |- _ /\ _ => split end; vm_compute; reflexivity.
    - exists ck_sensors, ck_s0. split; [|split].
      + apply get_ok_eq. vm_compute. reflexivity.
      + apply get_ok_eq. vm_compute. reflexivity.
      + apply get_ok_eq. vm_compute. reflexivity. }
  split; [reflexivity|]. split; vm_compute; reflexivity.
Qed.

(** Nothing else changes either: what the daemon started later comes to is the same
    daemon with its time stamps moved - same failsafe sets, logs, controllers, devices. *)
Theorem C110_same_life : forall f sf pow10 sb config failures first devices zs evs k s,
  runs f sf pow10 sb config failures first devices zs evs s ->
  runs f sf pow10 (later_bus k sb) config failures first devices (map (later_start k) zs) (map (later_event k) evs)
    (later_system k s).
Proof. exact C110_life_lemma. Qed.
Print Assumptions C110_same_life.

(** And if it ends by an exception or undefined behaviour, it ends the same way. *)
Theorem C110_same_end : forall f sf pow10 k evs s,
  sys_run f sf pow10 (map (later_event k) evs) (later_system k s) = later_end k (sys_run f sf pow10 evs s).
Proof. exact C110_end_lemma. Qed.
Print Assumptions C110_same_end.

(** A daemon ended by a signal whose value is a text. *)
Definition ck_bad : list sys_event :=
  [host_up; SSignal t1_path (Msg value_intf [("Value", VStr "hot")] 150000000%Z); STick 0 (sys_wake 100000000)].
Example C110_same_end_example :
  runs ex_flags ex_sf ex_pow sys_bus sys_config [] None sys_devs ap_zones [] (ap_after []) /\
  match sys_run ex_flags ex_sf ex_pow ck_bad ap_s0 with Throw "Cannot translate type to double" => true | _ => false end = true /\
  match sys_run ex_flags ex_sf ex_pow (map (later_event ck_day) ck_bad) (later_system ck_day ap_s0) with
  | Throw "Cannot translate type to double" => true | _ => false end = true.
Proof.
  split; [apply ap_runs; vm_compute; reflexivity|]. split; vm_compute; reflexivity.
Qed.
