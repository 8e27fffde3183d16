(** * Properties C49, C58 and C59: zones built from a configuration.

    Vocabulary: SpecBuilder.v and SpecZone.v.  Proofs: BuilderProofs.v,
    BuilderRun.v.  [NoDup (map fst zp)]: the ids of a [std::map] are distinct. *)
From Coq Require Import ZArith Bool List String.
From Verif Require Import Base BaseFacts Dbl DblFacts PidModel ZoneModel LoopModel SpecZone ZoneProofs BuilderModel
  SpecBuilder BuilderProofs BuilderRun PropertiesZone.
Import ListNotations.
Local Open Scope string_scope.

(** ** A configuration used in the examples

    Zone 1: fan PID "fans" (fan0, fan1), temperature PID "x_cpu" (t0, t1;
    percent 80), margin PID "y_cpu" (m0 from a temperature, may be missing),
    stepwise "step" (t1 twice; percent 90), and a PID of an unknown type. *)
Definition ex_in (n : string) : SensorInput := MkInput n dnan false false.
Definition ex_info (type : string) (inputs : list SensorInput) (percent : Z) : ControllerInfo :=
  MkInfo type inputs (D 30) (if String.eqb type "fan" then ex_ff else ex_p) (ex_steps false) (D percent).
Definition ex_pids : PIDConf :=
  [("fans", ex_info "fan" [ex_in "fan0"; ex_in "fan1"] 0);
   ("odd", ex_info "humidity" [ex_in "h0"] 0);
   ("step", ex_info "stepwise" [ex_in "t1"; ex_in "t1"] 90);
   ("x_cpu", ex_info "temp" [ex_in "t0"; ex_in "t1"] 80);
   ("y_cpu", ex_info "margin" [MkInput "m0" (D 90) true true] 0)].
Definition ex_confs : list (Z * ZoneConfig) := [(1%Z, MkZoneConfig (D 10) (D 75) 100 1000 false)].
Definition ex_bus : string -> bool := fun _ => true.
Definition ex_built : list (Z * zone) := get_ok [] (buildZones ex_bus [(1%Z, ex_pids)] ex_confs).
Definition ex_z : zone := match ex_built with (_, z) :: _ => z | [] => ex_zone end.

(** ** C49 *)

(** Exactly the configured controllers, inputs and settings. *)
Theorem C49_built_as_configured : forall bus_ok zp confs zs,
  buildZones bus_ok zp confs = Ok zs ->
  map fst zs = map fst zp /\
  (NoDup (map fst zp) -> forall id pids z, In (id, pids) zp -> In (id, z) zs ->
    exists c, zget id confs = Some c /\ zone_of id pids c z).
Proof. exact C49_structure. Qed.
Print Assumptions C49_built_as_configured.

(** When construction succeeds; it never has undefined behaviour. *)
Theorem C49_when_construction_succeeds : forall bus_ok zp confs,
  returns (buildZones bus_ok zp confs) <-> (forall e, In e zp -> buildable bus_ok confs e).
Proof. exact (fun bus_ok zp confs => buildZones_returns bus_ok confs zp). Qed.
Print Assumptions C49_when_construction_succeeds.

Theorem C49_construction_is_defined : forall bus_ok zp confs, defined (buildZones bus_ok zp confs).
Proof. exact (fun bus_ok zp confs => buildZones_defined bus_ok confs zp). Qed.
Print Assumptions C49_construction_is_defined.

(** The controllers stay the configured ones in every execution. *)
Theorem C49_controllers_stay : forall bus_ok zp confs zs id pids z f l,
  buildZones bus_ok zp confs = Ok zs -> NoDup (map fst zp) -> In (id, pids) zp -> In (id, z) zs ->
  reachable f z l ->
  map thermal_id (z_thermals (l_zone l)) = map fst (filter is_thermal_pid pids) /\
  (no_empty_fan_pid pids ->
   map (option_map fan_id) (z_fans (l_zone l)) = map (fun e => Some (fst e)) (filter is_fan_pid pids)).
Proof. exact C49_persist. Qed.
Print Assumptions C49_controllers_stay.

(** Every thermal cycle reads each listed sensor once, and nothing else. *)
Theorem C49_inputs_polled_once : forall bus_ok zp confs zs id pids z f l env te z' evs,
  buildZones bus_ok zp confs = Ok zs -> NoDup (map fst zp) -> In (id, pids) zp -> In (id, z) zs ->
  reachable f z l ->
  thermal_cycle f env te (l_zone l) = Ok z' -> new_events (l_zone l) z' evs ->
  NoDup (reads_in evs) /\ (forall n, In n (reads_in evs) <-> listed_by is_thermal_pid pids n).
Proof. exact C49_once. Qed.
Print Assumptions C49_inputs_polled_once.

(** A thermal cycle has no undefined behaviour, whatever the configuration. *)
Theorem C49_thermal_cycle_is_defined : forall bus_ok zp confs zs id z f l env te,
  buildZones bus_ok zp confs = Ok zs -> In (id, z) zs -> tuning_readable f te -> reachable f z l ->
  defined (thermal_cycle f env te (l_zone l)).
Proof. exact C49_thermal. Qed.
Print Assumptions C49_thermal_cycle_is_defined.

(** No event has undefined behaviour: in particular no controller object or
    D-Bus object is dereferenced without existing. *)
Theorem C49_no_undefined_behaviour : forall bus_ok zp confs zs id pids z f,
  buildZones bus_ok zp confs = Ok zs -> NoDup (map fst zp) -> In (id, pids) zp -> In (id, z) zs ->
  no_empty_fan_pid pids ->
  (forall env te now, tuning_readable f te -> defined (loop_start f env te now z)) /\
  (forall l ev, reachable f z l -> event_defined f ev -> defined (loop_step f l ev)).
Proof. exact C49_defined. Qed.
Print Assumptions C49_no_undefined_behaviour.

(** If the manager knows every configured sensor and the writers return, the
    loop never ends with an exception. *)
Theorem C49_loop_keeps_running : forall bus_ok zp confs zs id pids z f,
  buildZones bus_ok zp confs = Ok zs -> NoDup (map fst zp) -> In (id, pids) zp -> In (id, z) zs ->
  no_empty_fan_pid pids -> zeros_finite pids ->
  (forall env te now, tuning_readable f te ->
     all_known env (flat_map names_of (filter is_thermal_pid pids)) ->
     returns (loop_start f env te now z)) /\
  (forall l ev, reachable f z l -> event_defined f ev -> event_served pids ev ->
     returns (loop_step f l ev)).
Proof. exact C49_returns. Qed.
Print Assumptions C49_loop_keeps_running.

Example C49_example :
  is_ok (buildZones ex_bus [(1%Z, ex_pids)] ex_confs) = true /\
  map fst ex_built = [1%Z] /\
  map thermal_id (z_thermals ex_z) = ["step"; "x_cpu"; "y_cpu"] /\
  z_fanInputs ex_z = ["fan0"; "fan1"] /\ z_thermalInputs ex_z = ["t1"; "t0"; "m0"] /\
  no_empty_fan_pid ex_pids /\ zeros_finite ex_pids /\
  event_defined ex_flags (LTick (ex_tick 1)) /\ event_served ex_pids (LTick (ex_tick 1)).
Proof.
  split; [vm_compute; reflexivity|]. split; [vm_compute; reflexivity|].
  split; [vm_compute; reflexivity|]. split; [vm_compute; reflexivity|]. split; [vm_compute; reflexivity|].
  split.
  { intros e I B. repeat (destruct I as [<-|I]; [discriminate|]). destruct I. }
  split.
  { intros e i I T J C. repeat (destruct I as [<-|I]; [try discriminate T|]); [|destruct I].
    destruct J as [<-|[]]. vm_compute. reflexivity. }
  split.
  { split; [intros n wr v force m H; injection H as <-; discriminate|intros H; discriminate]. }
  split; [|split]; intros n I; cbn in I;
    repeat (destruct I as [<-|I]; [eexists; try split; try reflexivity; eauto|]); destruct I.
Qed.

(** A zone reachable from the built one: two wake-ups after the start. *)
Definition ex_l0 : loop := get_ok (MkLoop ex_z 0 0) (loop_start ex_flags (ex_poll 0) ex_tune 0 ex_z).
Definition ex_l2 : loop := get_ok (MkLoop ex_z 0 0) (loop_run ex_flags (ex_ticks 2) ex_l0).
Example C49_reachable_example : reachable ex_flags ex_z ex_l2.
Proof.
  exists (ex_poll 0), ex_tune, 0%Z, ex_l0, (ex_ticks 2).
  split; [unfold fresh; repeat match goal with |- _ /\ _ => split end; vm_compute; reflexivity|].
  split; apply get_ok_eq; vm_compute; reflexivity.
Qed.

(** The condition on fan PIDs is needed: a fan PID without inputs is accepted
    by the builder and the first wake-up of its zone dereferences a null
    pointer. *)
Definition ex_bad : list (Z * PIDConf) := [(1%Z, [("fans", ex_info "fan" [] 0)])].
Theorem C49_empty_fan_pid_refuted : exists zp confs zs id z l e,
  buildZones ex_bus zp confs = Ok zs /\ In (id, z) zs /\ reachable ex_flags z l /\
  event_defined ex_flags (LTick e) /\ ~ defined (loop_step ex_flags l (LTick e)).
Proof.
  pose (zs := get_ok [] (buildZones ex_bus ex_bad ex_confs)).
  pose (p := hd (0%Z, ex_zone) zs).
  pose (l := get_ok (MkLoop ex_zone 0 0) (loop_start ex_flags (ex_poll 0) ex_tune 0 (snd p))).
  exists ex_bad, ex_confs, zs, (fst p), (snd p), l, (ex_tick 1).
  split; [apply get_ok_eq; vm_compute; reflexivity|]. split.
  { assert (L : List.length zs = 1%nat) by (vm_compute; reflexivity).
    unfold p. destruct zs as [|[i z] r]; [discriminate|]. left. reflexivity. }
  split.
  { exists (ex_poll 0), ex_tune, 0%Z, l, [].
    split; [unfold fresh; repeat match goal with |- _ /\ _ => split end; vm_compute; reflexivity|].
    split; [apply get_ok_eq; vm_compute; reflexivity|reflexivity]. }
  split; [split; [intros n wr v force m H; injection H as <-; discriminate|intros H; discriminate]|].
  intros D. apply (D "null fan controller"). vm_compute. reflexivity.
Qed.
Print Assumptions C49_empty_fan_pid_refuted.

(** ** C58 *)
Theorem C58_own_percent_is_the_largest : forall bus_ok zp confs zs id pids z,
  buildZones bus_ok zp confs = Ok zs -> NoDup (map fst zp) -> In (id, pids) zp -> In (id, z) zs ->
  exists c, zget id confs = Some c /\
  forall n, Forall notnan (percents_for pids n) ->
    (percents_for pids n = [] -> own_percent z n = zc_failsafePercent c) /\
    (forall v, is_max_of v (percents_for pids n) ->
       (deq v d0 -> own_percent z n = zc_failsafePercent c) /\
       (~ deq v d0 -> deq (own_percent z n) v)).
Proof. exact C58_lemma. Qed.
Print Assumptions C58_own_percent_is_the_largest.

Example C58_example :
  map (fun n => List.length (percents_for ex_pids n)) ["t0"; "t1"; "m0"; "h0"] = [1; 2; 1; 0]%nat /\
  forallb (fun p => dsame (own_percent ex_z (fst p)) (D (snd p)))
    [("t0", 80%Z); ("t1", 90%Z); ("m0", 75%Z); ("h0", 75%Z)] = true.
Proof. split; vm_compute; reflexivity. Qed.

(** ** C59 *)
Theorem C59_acceptable_if_any_pid_says_so : forall bus_ok zp confs zs id pids z n,
  buildZones bus_ok zp confs = Ok zs -> NoDup (map fst zp) -> In (id, pids) zp -> In (id, z) zs ->
  (acceptable z n <-> acceptable_in pids n).
Proof. exact C59_lemma. Qed.
Print Assumptions C59_acceptable_if_any_pid_says_so.

Example C59_example : z_missingAcceptable ex_z = ["m0"].
Proof. vm_compute. reflexivity. Qed.
