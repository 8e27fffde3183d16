(** * Properties C79 and C80: sensible configurations.

    Vocabulary: SpecRange.v, SpecBuilder.v, SpecZone.v and SpecSystem.v.  Proofs:
    RangeProofs.v, RangeSystem.v, RangeConfig.v.
    [EvWrite n v b] in the trace of a zone: fan [n] was commanded to [v], as a
    fraction of full speed. *)
From Coq Require Import ZArith Bool List String Lia Permutation.
From Verif Require Import Base BaseFacts Dbl DblFacts PidModel SpecPid ZoneModel LoopModel SpecZone ZoneProofs BuilderModel
  SpecBuilder ConfigModel JsonModel SpecJson SpecJsonSystem DbusConfigModel SpecDbus SpecDbusSystem SensorModel SpecSensor
  WriteModel SpecWrite SystemModel SpecSystem SpecRange RangeProofs RangeSystem RangeConfig PropertiesZone
  PropertiesBuilder PropertiesSystem.
Import ListNotations.
Local Open Scope string_scope.

(** ** C79 *)

(** Every command of every history, in normal operation and in failsafe mode. *)
Theorem C79_commands_in_range : forall bus_ok zp confs built id pids z c f env te now l evs l' n v b,
  buildZones bus_ok zp confs = Ok built -> NoDup (map fst zp) -> In (id, pids) zp -> In (id, z) built ->
  zget id confs = Some c -> sensible_pids pids -> sensible_zone c ->
  modest_speeds (z_fanInputs z) env -> int_files te -> loop_start f env te now z = Ok l ->
  Forall (sensible_event (z_fanInputs z)) evs -> loop_run f evs l = Ok l' ->
  In (EvWrite n v b) (z_trace (l_zone l')) -> dle d0 v /\ dle v (D 1).
Proof. exact C79_lemma. Qed.
Print Assumptions C79_commands_in_range.

(** The last command a fan controller gives, when it is destroyed. *)
Theorem C79_last_command_in_range : forall bus_ok zp confs built id pids z c f env te now l evs l' w k z' new n v b,
  buildZones bus_ok zp confs = Ok built -> NoDup (map fst zp) -> In (id, pids) zp -> In (id, z) built ->
  zget id confs = Some c -> sensible_pids pids -> sensible_zone c ->
  modest_speeds (z_fanInputs z) env -> int_files te -> loop_start f env te now z = Ok l ->
  Forall (sensible_event (z_fanInputs z)) evs -> loop_run f evs l = Ok l' ->
  fan_destroy f w k (l_zone l') = Ok z' -> new_events (l_zone l') z' new ->
  In (EvWrite n v b) new -> dle d0 v /\ dle v (D 1).
Proof. exact C79_destroy_lemma. Qed.
Print Assumptions C79_last_command_in_range.

(** The configuration of PropertiesBuilder.v is sensible, its fans report modest
    speeds, and commands were given. *)
Example C79_configuration_example :
  sensible_pids ex_pids /\ sensible_zone (MkZoneConfig (D 10) (D 75) 100 1000 false).
Proof.
  split; [split; [|vm_compute; discriminate]|].
  - intros e I.
    assert (F : sensible_fan ex_ff).
    { constructor; unfold bounded_cfg, limits_ordered, sane_slew, percent_ok, mag_le;
        repeat match goal with |- _ /\ _ => split | |- Forall _ _ => constructor end; vm_compute; reflexivity. }
    assert (T : sensible_thermal ex_p).
    { unfold sensible_thermal, limits_ordered, sane_slew; repeat match goal with |- _ /\ _ => split end; vm_compute; reflexivity. }
    assert (S : sensible_stepwise (ex_steps false)).
    { intros i Hi. unfold maxStepwisePoints in Hi. do 20 (destruct i as [|i]; [vm_compute; discriminate|]). lia. }
    cbn [ex_pids In] in I.
    repeat (destruct I as [<-|I];
      [split; [intros X; try discriminate X; exact F|]; split; [intros X; try discriminate X; exact T|];
       split; [intros X; exact S|]; split; vm_compute; reflexivity|]).
    destruct I.
  - split; [|split]; unfold mag_le; repeat match goal with |- _ /\ _ => split end; vm_compute; reflexivity.
Qed.
Example C79_example :
  buildZones ex_bus [(1%Z, ex_pids)] ex_confs = Ok ex_built /\ In (1%Z, ex_z) ex_built /\
  loop_start ex_flags (ex_poll 0) ex_tune 0 ex_z = Ok ex_l0 /\ loop_run ex_flags (ex_ticks 2) ex_l0 = Ok ex_l2 /\
  modest_speeds (z_fanInputs ex_z) (ex_poll 0) /\ Forall (sensible_event (z_fanInputs ex_z)) (ex_ticks 2) /\
  map (fun w => dint (dmul (snd (fst w)) (D 1000))) (writes_in (z_trace (l_zone ex_l2))) = [800; 800; 800; 800]%Z.
Proof.
  assert (M : forall t, modest_speeds (z_fanInputs ex_z) (ex_poll t)).
  { intros t n v I E _. assert (E' : pe_sensor (ex_poll 0) n = Some v) by exact E. clear E.
    assert (Ef : z_fanInputs ex_z = ["fan0"; "fan1"]) by (vm_compute; reflexivity). rewrite Ef in I.
    destruct I as [<-|[<-|[]]]; cbn in E'; injection E' as <-; unfold mag_le;
      repeat match goal with |- _ /\ _ => split end; vm_compute; reflexivity. }
  split; [apply get_ok_eq; vm_compute; reflexivity|].
  split; [left; reflexivity|].
  split; [apply get_ok_eq; vm_compute; reflexivity|].
  split; [apply get_ok_eq; vm_compute; reflexivity|].
  split; [apply M|]. split; [|vm_compute; reflexivity].
  apply Forall_forall. intros ev I. unfold ex_ticks, ex_ticks_with in I. apply in_map_iff in I.
  destruct I as (k & <- & _). split; [apply M|]. split; [apply M|]. split; exact Logic.I.
Qed.

(** The bound on stepwise outputs is needed: with an infinite output the fans are
    commanded to NaN. *)
Definition inf_steps : StepwiseInfo :=
  Stepwise (D 1) (ex_table [D 20; D 40; D 60]) (ex_table [D 30; D 50; dinf]) (D 0) (D 0) false.
Definition inf_pids : PIDConf :=
  [("fans", ex_info "fan" [ex_in "fan0"] 0);
   ("step", MkInfo "stepwise" [ex_in "t1"] (D 30) ex_p inf_steps (D 90))].
Definition inf_built : list (Z * zone) := get_ok [] (buildZones ex_bus [(1%Z, inf_pids)] ex_confs).
Definition inf_z : zone := match inf_built with (_, z) :: _ => z | [] => ex_zone end.
Definition inf_l0 : loop := get_ok (MkLoop inf_z 0 0) (loop_start ex_flags (ex_poll 0) ex_tune 0 inf_z).
Definition inf_l1 : loop := get_ok (MkLoop inf_z 0 0) (loop_run ex_flags (ex_ticks 1) inf_l0).
Theorem C79_infinite_output_refuted : exists pids built z l l' n v b,
  buildZones ex_bus [(1%Z, pids)] ex_confs = Ok built /\ In (1%Z, z) built /\
  (forall e, In e pids -> is_fan_pid e = true -> sensible_fan (ci_pidInfo (snd e))) /\
  loop_start ex_flags (ex_poll 0) ex_tune 0 z = Ok l /\ loop_run ex_flags (ex_ticks 1) l = Ok l' /\
  In (EvWrite n v b) (z_trace (l_zone l')) /\ disnan v = true.
Proof.
  assert (E : existsb (fun e => match e with EvWrite _ v _ => disnan v | _ => false end) (z_trace (l_zone inf_l1)) = true)
    by (vm_compute; reflexivity).
  apply existsb_exists in E. destruct E as (e & Ie & Ke). destruct e as [| |n v b| | | |]; try discriminate Ke.
  exists inf_pids, inf_built, inf_z, inf_l0, inf_l1, n, v, b.
  split; [apply get_ok_eq; vm_compute; reflexivity|]. split; [left; reflexivity|].
  split.
  { intros e I X. destruct (C79_configuration_example) as ((S & _) & _).
    destruct I as [<-|[<-|[]]]; [|discriminate X].
    refine (proj1 (S ("fans", ex_info "fan" [ex_in "fan0"; ex_in "fan1"] 0) _) eq_refl). left. reflexivity. }
  split; [apply get_ok_eq; vm_compute; reflexivity|].
  split; [apply get_ok_eq; vm_compute; reflexivity|].
  split; assumption.
Qed.
Print Assumptions C79_infinite_output_refuted.

(** ** C80 *)

(** No history that can be served ends the daemon. *)
Theorem C80_daemon_never_stops : forall f sf pow10 sb config failures first devices zs bus_ok zp confs,
  NoDup (map fst config) -> built_from bus_ok zp confs zs ->
  (forall id pids, In (id, pids) zp -> pids_served config pids) ->
  sensible_setup sf pow10 sb config zp confs -> Forall (fun e => sensible_begin (fst e)) zs ->
  forall evs s more, runs f sf pow10 sb config failures first devices zs evs s -> Forall sensible_news evs ->
    Forall (served f sb config) more -> Forall sensible_news more ->
    exists s', sys_run f sf pow10 more s = Ok s'.
Proof. exact C80_lemma. Qed.
Print Assumptions C80_daemon_never_stops.

(** The daemon never drives a device out of the range of the fan it belongs to. *)
Theorem C80_devices_in_range : forall f sf pow10 sb config failures first devices zs bus_ok zp confs,
  NoDup (map fst config) -> built_from bus_ok zp confs zs ->
  (forall id pids, In (id, pids) zp -> pids_served config pids) ->
  sensible_setup sf pow10 sb config zp confs -> Forall (fun e => sensible_begin (fst e)) zs ->
  forall evs s, runs f sf pow10 sb config failures first devices zs evs s -> Forall sensible_news evs ->
    devices_in_range sb config devices (sy_devices s).
Proof. exact C80_devices_lemma. Qed.
Print Assumptions C80_devices_in_range.

(** The same from a JSON document ... *)
Theorem C80_json_document : forall f sf pow10 sb bus_ok failures first devices j sensors zones,
  doc_says j sensors zones -> text_served sensors zones -> bus_serves sf pow10 sb bus_ok sensors zones ->
  exists c m built,
    load_json j = Ok c /\ buildSensors sf pow10 sb (l_sensors c) = Ok m /\
    buildZones bus_ok (l_pids c) (l_zones c) = Ok built /\ as_written c sensors zones /\
    (sensible_setup sf pow10 sb (l_sensors c) (l_pids c) (l_zones c) ->
     forall zs, Permutation (map snd zs) (map snd built) ->
       Forall (fun e => files_ok sb (l_sensors c) (st_files (fst e)) /\ tuning_readable f (st_tune (fst e))) zs ->
       Forall (fun e => sensible_begin (fst e)) zs ->
       never_stops f sf pow10 sb m failures first devices (l_sensors c) zs).
Proof. exact C80_json_lemma. Qed.
Print Assumptions C80_json_document.

(** ... and from a configuration on D-Bus. *)
Theorem C80_dbus_configuration : forall f sf pow10 sb bus_ok failures first devices re cb,
  complete sf re cb -> daemon_served sf re cb pow10 sb bus_ok ->
  exists b c m built,
    dbus_init sf re cb = Ok (b, c) /\ buildSensors sf pow10 sb (l_sensors c) = Ok m /\
    buildZones bus_ok (l_pids c) (l_zones c) = Ok built /\
    (sensible_setup sf pow10 sb (l_sensors c) (l_pids c) (l_zones c) ->
     forall zs, Permutation (map snd zs) (map snd built) ->
       Forall (fun e => files_ok sb (l_sensors c) (st_files (fst e)) /\ tuning_readable f (st_tune (fst e))) zs ->
       Forall (fun e => sensible_begin (fst e)) zs ->
       never_stops f sf pow10 sb m failures first devices (l_sensors c) zs).
Proof. exact C80_dbus_lemma. Qed.
Print Assumptions C80_dbus_configuration.

(** The daemon of PropertiesSystem.v (the remaining hypotheses: C63_example,
    C68_example and C72_example). *)
Definition range_evs : list sys_event :=
  ([host_up; SHost "m0" (D 30) 1;
   SSignal "/xyz/openbmc_project/sensors/fan_tach/fan0" (Msg value_intf [("Value", VInt 4321)] 5)] ++ ticks_from 1 13)%list.
Ltac small := unfold mag_le; repeat match goal with |- _ /\ _ => split end; vm_compute; reflexivity.
Example C80_example :
  sensible_setup ex_sf ex_pow sys_bus sys_config [(1%Z, ex_pids)] ex_confs /\
  Forall (fun e => sensible_begin (fst e)) sys_zones /\ Forall sensible_news range_evs /\
  runs ex_flags ex_sf ex_pow sys_bus sys_config [] None sys_devs sys_zones range_evs (sys_after range_evs) /\
  sy_devices (sys_after range_evs) =
    [("/sys/hwmon/pwm1", 204%Z); ("/xyz/openbmc_project/control/fanpwm/fan0", 204%Z)].
Proof.
  assert (Fs : forall p, modest_file (sys_files p)).
  { intros p. cbn. destruct (String.eqb p "/sys/hwmon/temp0"); vm_compute; discriminate. }
  split.
  { destruct C79_configuration_example as (P & Z). constructor.
    - intros id pids [E|[]]. injection E as <- <-. exact P.
    - intros id pids c [E|[]] Hc. injection E as <- <-. injection Hc as <-. exact Z.
    - intros n info I T _. cbn in I. repeat destruct I as [I|I]; try contradiction; injection I as <- <-;
        try discriminate T; (split; [|split]); vm_compute; discriminate.
    - split; [small|]. intros n info i I T _ (props & Ep & _ & Ev & Es & _). cbn in Ep. injection Ep as <-.
      split; [small|]. rewrite Ev. intros _. cbn in I. repeat destruct I as [I|I]; try contradiction; injection I as <- <-;
        try discriminate T; small. }
  split. { constructor; [|constructor]. split; [exact Fs|]. split; exact Logic.I. }
  split.
  { apply Forall_app. split.
    - repeat apply Forall_cons; try apply Forall_nil; cbn [sensible_news host_up]; try exact Logic.I.
      intros v d E Ed _. cbn in E. injection E as <-. injection Ed as <-. small.
    - apply Forall_forall. intros e I. unfold ticks_from in I. apply in_map_iff in I. destruct I as (k & <- & _).
      split; [exact Fs|]. split; [exact Fs|]. split; exact Logic.I. }
  split; [apply ex_runs; vm_compute; reflexivity|]. vm_compute. reflexivity.
Qed.

(** The range of a fan matters: with a negative minimum the raw value of an
    ordinary command is converted to an unsigned type, with undefined behaviour. *)
Definition low_config : smap SensorConfig :=
  [("fan0", MkSensorConfig "fan" "/xyz/openbmc_project/sensors/fan_tach/fan0"
      "/xyz/openbmc_project/control/fanpwm/fan0" (-255) 1 0 false true false);
   ("fan1", fan1_info); ("m0", m0_info); ("t0", t0_info); ("t1", t1_info)].
Definition low_sensors : smap sensor := get_ok [] (buildSensors ex_sf ex_pow sys_bus low_config).
Definition low_s0 : system := get_ok no_system (sys_start ex_flags low_sensors [] false sys_devs sys_zones).
Theorem C80_negative_minimum_refuted : exists m s0,
  buildSensors ex_sf ex_pow sys_bus low_config = Ok m /\ sys_start ex_flags m [] false sys_devs sys_zones = Ok s0 /\
  sys_run ex_flags ex_sf ex_pow range_evs s0 = UB "floating-integral conversion".
Proof.
  exists low_sensors, low_s0. split; [apply get_ok_eq; vm_compute; reflexivity|].
  split; [apply get_ok_eq; vm_compute; reflexivity|]. vm_compute. reflexivity.
Qed.
Print Assumptions C80_negative_minimum_refuted.
