(** * C61: the reason a poll gives for a failure.

    Vocabulary: SpecSystem.v, SpecSensor.v.  Proofs: ReasonProofs.v. *)
From Coq Require Import ZArith Bool List String.
From Verif Require Import Base BaseFacts Dbl ZoneModel SpecZone ZoneProofs ConfigModel SensorModel SpecSensor WriteModel
  SpecWrite PropertiesZone PropertiesBuilder SystemModel SpecSystem PropertiesSystem ReasonProofs.
Import ListNotations.
Local Open Scope string_scope.

(** The reason given for a D-Bus sensor names the first cause that applies after
    everything the bus said since the start. *)
Theorem C61_reason : forall f sf pow10 sb config failures first devices zs evs s name info files now,
  runs f sf pow10 sb config failures first devices zs evs s ->
  In (name, info) config -> known_type (sc_type info) -> bus_path (sc_readPath info) ->
  exists v, pe_sensor (view_env s files now) name = Some v /\
    (missing (sb_replies sb name) -> sv_reason v = "Sensor D-Bus object missing") /\
    (forall i, ~ missing (sb_replies sb name) -> starts sf (sb_now sb name) (sb_replies sb name) info i ->
     let h := heard (sc_readPath info) evs in
     first_case
       [(is_bad i h, "Sensor reading bad");
        (sc_type info = "margin" /\ is_hot pow10 i h, "Margin hot");
        (is_alarmed (UNC_FAILSAFE sf) i h, "Sensor threshold asserted");
        (~ is_available i h, "Sensor unavailable");
        (~ is_functional h, "Sensor not functional")] "Unknown" (sv_reason v)).
Proof. exact C61_reason_lemma. Qed.
Print Assumptions C61_reason.

(** All other sensors give the same text, whatever happened. *)
Theorem C61_reason_of_others : forall f sf pow10 sb config failures first devices zs evs s name info files now v,
  runs f sf pow10 sb config failures first devices zs evs s ->
  In (name, info) config -> known_type (sc_type info) -> ~ bus_path (sc_readPath info) ->
  pe_sensor (view_env s files now) name = Some v -> sv_reason v = "Unimplemented".
Proof. exact C61_no_reason_lemma. Qed.
Print Assumptions C61_reason_of_others.

(** t1 is fine, then raises its alarm; then its reading goes bad too.  t0 is a file
    and m0 an external sensor. *)
Definition reason_of (evs : list sys_event) (n : string) : option string :=
  option_map sv_reason (pe_sensor (view_env (sys_after evs) sys_files 6) n).
Definition t1_bad : sys_event := SSignal t1_path (Msg value_intf [("Value", VDbl dnan)] 5).
Example C61_reason_example :
  runs ex_flags ex_sf ex_pow sys_bus sys_config [] None sys_devs sys_zones [t1_alarm; t1_bad]
    (sys_after [t1_alarm; t1_bad]) /\
  bus_path t1_path /\ sysfs_path (sc_readPath t0_info) /\ external_path (sc_readPath m0_info) /\
  reason_of [] "t1" = Some "Unknown" /\
  reason_of [t1_alarm] "t1" = Some "Sensor threshold asserted" /\
  reason_of [t1_alarm; t1_bad] "t1" = Some "Sensor reading bad" /\
  reason_of [t1_alarm] "t0" = Some "Unimplemented" /\
  reason_of [t1_alarm] "m0" = Some "Unimplemented".
Proof.
  split; [apply ex_runs; vm_compute; reflexivity|].
  split; [path_class|]. split; [path_class|]. split; [path_class|].
  repeat match goal with |- _ /\ _ => split end; vm_compute; reflexivity.
Qed.
