(** * Properties C60-C64: the daemon as a whole.

    Vocabulary: SpecSystem.v, SpecSensor.v, SpecBuilder.v, SpecZone.v.  Proofs:
    SystemProofs.v to SystemProofs4.v.  [runs ... evs s]: a daemon built from
    [config] and started with the zones [zs] is in state [s] after the events
    [evs]. *)
From Coq Require Import ZArith Bool List String Lia Permutation.
From Verif Require Import Base BaseFacts Dbl DblFacts PidModel ZoneModel LoopModel SpecZone ZoneProofs
  SensorModel SpecSensor WriteModel SpecWrite BuilderModel SpecBuilder PropertiesZone PropertiesBuilder
  SystemModel SpecSystem PathProofs SystemProofs SystemProofs2 SystemProofs3 SystemProofs4.
Import ListNotations.
Local Open Scope string_scope.

(** ** A daemon used in the examples

    The zone of PropertiesBuilder.v.  fan0 is on D-Bus, fan1 in sysfs, both with
    raw range 0 .. 255; t0 is a sysfs file, t1 a D-Bus object (timeout 2 s), m0 an
    external sensor. *)
Definition ex_pow : Z -> dbl := fun _ => D 1.
Definition ex_sf : sflags := SFlags true false.
Definition fan0_info : SensorConfig :=
  MkSensorConfig "fan" "/xyz/openbmc_project/sensors/fan_tach/fan0"
    "/xyz/openbmc_project/control/fanpwm/fan0" 0 255 0 false true false.
Definition fan1_info : SensorConfig :=
  MkSensorConfig "fan" "/sys/hwmon/fan1_input" "/sys/hwmon/pwm1" 0 255 0 false true false.
Definition t0_info : SensorConfig := MkSensorConfig "temp" "/sys/hwmon/temp0" "" 0 0 0 false true false.
Definition t1_path : string := "/xyz/openbmc_project/sensors/temperature/t1".
Definition t1_info : SensorConfig := MkSensorConfig "temp" t1_path "" 0 0 2 true true true.
Definition m0_info : SensorConfig :=
  MkSensorConfig "margin" "/xyz/openbmc_project/extsensors/margin/m0" "" 0 0 0 false true false.
Definition sys_config : smap SensorConfig :=
  [("fan0", fan0_info); ("fan1", fan1_info); ("m0", m0_info); ("t0", t0_info); ("t1", t1_info)].
Definition sys_bus : sensor_bus :=
  SensorBus (fun n => Replies (Some ["svc"]) (Some [("Value", VInt (if String.eqb n "t1" then 62 else 1000))])
                        None None None)
            (fun _ => true) (fun _ => 0%Z) (fun _ => Some []) (fun _ => true).
Definition sys_files : string -> file_content :=
  fun p => FileInt (if String.eqb p "/sys/hwmon/temp0" then 55 else 1500).
Definition sys_wake (now : Z) : wake := Wake now sys_files now sys_files ex_tune (fun _ => true).
Definition sys_zones : list (start_in * zone) := [(StartIn 0 sys_files ex_tune 0, ex_z)].
Definition sys_devs : smap Z := [("/sys/hwmon/pwm1", 7%Z)].
Definition no_system : system := Sys [] [] false [] [].
Definition sys_sensors0 : smap sensor := get_ok [] (buildSensors ex_sf ex_pow sys_bus sys_config).
Definition sys_s0 : system := get_ok no_system (sys_start ex_flags sys_sensors0 [] false sys_devs sys_zones).
Definition sys_after (evs : list sys_event) : system :=
  get_ok no_system (sys_run ex_flags ex_sf ex_pow evs sys_s0).
Definition device (path : string) (s : system) : option Z := mget path (sy_devices s).
(** t1 raises its critical alarm. *)
Definition t1_alarm : sys_event := SSignal t1_path (Msg critical_intf [("CriticalAlarmHigh", VBool true)] 5).
Definition host_up : sys_event := SHostState (Some "xyz.openbmc_project.State.Host.HostState.Running").

Lemma ex_fresh : fresh ex_z.
Proof. unfold fresh. repeat match goal with |- _ /\ _ => split end; vm_compute; reflexivity. Qed.
Lemma ex_built_one : ex_built = [(1%Z, ex_z)].
Proof.
  assert (L : map fst ex_built = [1%Z]) by (vm_compute; reflexivity). revert L. unfold ex_z. generalize ex_built.
  intros [|[i z] [|x r]] L; try discriminate. injection L as ->. reflexivity.
Qed.
Lemma ex_runs evs : is_ok (sys_run ex_flags ex_sf ex_pow evs sys_s0) = true ->
  runs ex_flags ex_sf ex_pow sys_bus sys_config [] None sys_devs sys_zones evs (sys_after evs).
Proof.
  intros H. constructor.
  - repeat constructor; cbn; intuition discriminate.
  - repeat constructor; apply ex_fresh.
  - exists sys_sensors0, sys_s0. split; [|split].
    + apply get_ok_eq. vm_compute. reflexivity.
    + apply get_ok_eq. vm_compute. reflexivity.
    + apply get_ok_eq. exact H.
Qed.
Lemma is_in part s : part <> "" -> str_contains part s = true -> contains part s.
Proof. intros N H. apply contains_iff; assumption. Qed.
Lemma not_in part s : part <> "" -> str_contains part s = false -> ~ contains part s.
Proof. intros N H K. apply contains_iff in K; [congruence|exact N]. Qed.
Ltac path_class :=
  repeat match goal with
         | |- bus_path _ => unfold bus_path
         | |- external_path _ => unfold external_path
         | |- sysfs_path _ => unfold sysfs_path
         | |- sysfs_out _ => unfold sysfs_out
         | |- bus_out _ => unfold bus_out
         | |- _ /\ _ => split
         | |- ~ no_path _ => intros [X|X]; discriminate X
         | |- ~ external_path _ => intros [_ X]; revert X
         | |- ~ sysfs_out _ => intros [_ X]; revert X
         | |- contains _ _ => apply is_in; [discriminate|vm_compute; reflexivity]
         | |- ~ contains _ _ => apply not_in; [discriminate|vm_compute; reflexivity]
         | |- contains _ _ -> False => apply not_in; [discriminate|vm_compute; reflexivity]
         end.

(** ** C60 *)

(** Every configured sensor of a known type exists, reads and writes where its
    paths say, with its own timeout, limits and options; nothing else exists. *)
Theorem C60_sensors_as_configured : forall sf pow10 sb config m,
  buildSensors sf pow10 sb config = Ok m -> NoDup (map fst config) ->
  (forall n info, In (n, info) config -> known_type (sc_type info) ->
     exists x, mget n m = Some x /\ sensor_for sf pow10 sb n info x) /\
  (forall n x, mget n m = Some x -> exists info, In (n, info) config /\ sensor_for sf pow10 sb n info x).
Proof. exact C60_lemma. Qed.
Print Assumptions C60_sensors_as_configured.

Theorem C60_when_sensors_can_be_built : forall sf pow10 sb config,
  (exists m, buildSensors sf pow10 sb config = Ok m) <->
  Forall (buildable_sensor sf pow10 sb) config /\ own_objects config.
Proof. exact C60_fails_lemma. Qed.
Print Assumptions C60_when_sensors_can_be_built.

Example C60_example :
  is_ok (buildSensors ex_sf ex_pow sys_bus sys_config) = true /\
  map fst sys_sensors0 = map fst sys_config /\
  is_ok (buildSensors ex_sf ex_pow (SensorBus (sb_replies sys_bus) (fun _ => false) (sb_now sys_bus) (sb_dir sys_bus) (fun _ => true)) sys_config)
    = false /\
  (let host path := MkSensorConfig "temp" path "" 0 0 0 false true false in
   map (fun p => is_ok (buildSensors ex_sf ex_pow sys_bus
          [("h0", host "/xyz/openbmc_project/extsensors/h"); ("h1", host p)]))
     ["/xyz/openbmc_project/extsensors/i"; "/xyz/openbmc_project/extsensors/h"] = [true; false]).
Proof. repeat match goal with |- _ /\ _ => split end; vm_compute; reflexivity. Qed.

(** A fan may be configured with an external read path.  It is built, and
    its first poll dereferences a null pointer. *)
Theorem C60_external_fan_refuted : exists sf pow10 sb config m x,
  buildSensors sf pow10 sb config = Ok m /\ mget "fan0" m = Some x /\
  forall failures power files now, sensor_poll failures power files now x = UB "null reader".
Proof.
  pose (c := [("fan0", MkSensorConfig "fan" "/xyz/openbmc_project/extsensors/fan0" "" 0 0 0 false true false)]).
  exists ex_sf, ex_pow, sys_bus, c, [("fan0", Pluggable 0 RNull WReadOnlyNoExcept false)],
    (Pluggable 0 RNull WReadOnlyNoExcept false).
  split; [reflexivity|]. split; [reflexivity|]. intros. reflexivity.
Qed.
Print Assumptions C60_external_fan_refuted.

(** The option to ignore failures while the host is off has no effect on an
    external sensor: the two configurations give the same sensor. *)
Theorem C60_external_host_off_option_refuted : forall sf pow10 sb name type path min max timeout a b,
  external_path path -> In type ["temp"; "margin"; "power"; "powersum"] ->
  buildSensors sf pow10 sb [(name, MkSensorConfig type path "" min max timeout a b true)] =
  buildSensors sf pow10 sb [(name, MkSensorConfig type path "" min max timeout a b false)].
Proof. exact C60_external_option. Qed.
Print Assumptions C60_external_host_off_option_refuted.

(** ** C61 *)

(** When a poll finds a D-Bus sensor failed, in terms of everything the bus has
    said since the sensor was built. *)
Theorem C61_failed_iff : forall f sf pow10 sb config failures first devices zs evs s name info files now,
  runs f sf pow10 sb config failures first devices zs evs s ->
  In (name, info) config -> known_type (sc_type info) -> bus_path (sc_readPath info) ->
  exists v, pe_sensor (view_env s files now) name = Some v /\
    sv_timeout v = sc_timeout info /\
    (sv_failed v = true <->
     bus_failed sf pow10 sb failures name info evs /\
     (sc_ignoreFailIfHostOff info = true -> host_on first (host_changes evs))).
Proof. exact C61_lemma. Qed.
Print Assumptions C61_failed_iff.

(** The value a poll shows is the last one accepted, scaled and normalised. *)
Theorem C61_value : forall f sf pow10 sb config failures first devices zs evs s name info files now i,
  runs f sf pow10 sb config failures first devices zs evs s ->
  In (name, info) config -> known_type (sc_type info) -> bus_path (sc_readPath info) ->
  starts sf (sb_now sb name) (sb_replies sb name) info i -> ~ missing (sb_replies sb name) ->
  notnan (dmul (i_min i) (pow10 (i_scale i))) -> notnan (dmul (i_max i) (pow10 (i_scale i))) ->
  exists v, pe_sensor (view_env s files now) name = Some v /\
    let r := latest accepted (i_value i, i_now i) (heard (sc_readPath info) evs) in
    sv_unscaled v = dmul (fst r) (pow10 (i_scale i)) /\
    sv_value v = normalise (dmul (i_min i) (pow10 (i_scale i))) (dmul (i_max i) (pow10 (i_scale i))) (sv_unscaled v) /\
    sv_updated v = snd r.
Proof. exact C61_value_lemma. Qed.
Print Assumptions C61_value.

(** External sensors: the last value the host wrote. *)
Theorem C61_external : forall f sf pow10 sb config failures first devices zs evs s name info files now,
  runs f sf pow10 sb config failures first devices zs evs s ->
  In (name, info) config -> known_type (sc_type info) -> external_path (sc_readPath info) ->
  sc_type info <> "fan" ->
  exists v, pe_sensor (view_env s files now) name = Some v /\
    let r := latest Some (d0, sb_now sb name) (host_values name evs) in
    sv_timeout v = sc_timeout info /\ sv_value v = fst r /\ sv_unscaled v = fst r /\ sv_updated v = snd r /\
    (sv_failed v = true <-> disfinite (fst r) = false).
Proof. exact C61_external_lemma. Qed.
Print Assumptions C61_external.

(** Sysfs sensors: what the file holds now, never failed. *)
Theorem C61_sysfs : forall f sf pow10 sb config failures first devices zs evs s name info path files now r,
  runs f sf pow10 sb config failures first devices zs evs s ->
  In (name, info) config -> known_type (sc_type info) -> sysfs_path (sc_readPath info) ->
  resolves (sb_dir sb) (sc_readPath info) path -> files path = FileInt r ->
  exists v, pe_sensor (view_env s files now) name = Some v /\
    sv_timeout v = sc_timeout info /\ sv_value v = D r /\ sv_unscaled v = D r /\ sv_updated v = now /\
    sv_failed v = false.
Proof. exact C61_sysfs_lemma. Qed.
Print Assumptions C61_sysfs.

(** The age of the value is counted from the message that brought it. *)
Theorem C61_age : forall f sf pow10 sb config failures first devices zs evs s name info files now t,
  runs f sf pow10 sb config failures first devices zs evs s ->
  In (name, info) config -> known_type (sc_type info) -> updated_at sb name info evs t ->
  exists v, pe_sensor (view_env s files now) name = Some v /\
    sv_timeout v = sc_timeout info /\ sv_updated v = t.
Proof. exact C61_age_lemma. Qed.
Print Assumptions C61_age.

Definition ex_t1_initial : initial := Initial 0 (D 62) false true 0 d0 d0.
Definition sees (evs : list sys_event) (now : Z) (n : string) : option (Z * bool) :=
  match pe_sensor (view_env (sys_after evs) sys_files now) n with
  | Some v => Some (match to_int64 (sv_value v) with Some x => x | None => (-1)%Z end, sv_failed v)
  | None => None
  end.
(** t1 ignores failures until the host is up; m0 gets a value and then NaN. *)
Example C61_example :
  runs ex_flags ex_sf ex_pow sys_bus sys_config [] None sys_devs sys_zones [host_up; t1_alarm]
    (sys_after [host_up; t1_alarm]) /\
  bus_path t1_path /\ external_path (sc_readPath m0_info) /\ sysfs_path (sc_readPath t0_info) /\
  starts ex_sf (sb_now sys_bus "t1") (sb_replies sys_bus "t1") t1_info ex_t1_initial /\
  sees [] 1 "t1" = Some (62%Z, false) /\
  sees [t1_alarm] 1 "t1" = Some (62%Z, false) /\
  sees [host_up; t1_alarm] 1 "t1" = Some (62%Z, true) /\
  sees [SSignal t1_path (Msg value_intf [("Value", VInt 70)] 5)] 6 "t1" = Some (70%Z, false) /\
  sees [] 1 "m0" = Some (0%Z, false) /\
  sees [SHost "m0" (D 30) 3] 4 "m0" = Some (30%Z, false) /\
  sees [SHost "m0" (D 30) 3; SHost "m0" dnan 4] 5 "m0" = Some ((-1)%Z, true) /\
  sees [] 1 "t0" = Some (55%Z, false).
Proof.
  split; [apply ex_runs; vm_compute; reflexivity|].
  split; [path_class|]. split; [path_class|]. split; [path_class|].
  split. { exists [("Value", VInt 62)]. repeat split. }
  repeat match goal with |- _ /\ _ => split end; vm_compute; reflexivity.
Qed.

(** ** C62 *)

(** From the bus to the device: a sensor of the zone is bad at every poll of
    enough wake-ups to cover a thermal interval; then every fan of the zone has
    at least the sensor's failsafe percent. *)
Theorem C62_device_reaction : forall f sf pow10 sb config failures first devices zs evs s mid s1 i w s2 st z0
    name info fan finfo path c r,
  runs f sf pow10 sb config failures first devices zs evs s ->
  sys_run f sf pow10 mid s = Ok s1 -> sys_step f sf pow10 s1 (STick i w) = Ok s2 ->
  nth_error zs i = Some (st, z0) -> is_manual i evs = false -> ~ In (SManual i true) mid ->
  (1 <= z_cycleIntervalTimeMS z0 <= z_updateThermalsTimeMS z0)%Z ->
  (z_updateThermalsTimeMS z0 + z_cycleIntervalTimeMS z0 < uint64_mod)%Z ->
  (z_updateThermalsTimeMS z0 <= Z.of_nat (wakes i mid) * z_cycleIntervalTimeMS z0)%Z ->
  tuningEnabled f = false -> percents_ok z0 ->
  In (name, info) config -> known_type (sc_type info) -> is_input z0 name -> ~ acceptable z0 name ->
  (forall pre w' post, (mid ++ [STick i w])%list = (pre ++ STick i w' :: post)%list ->
     bad_at sf pow10 sb failures first name info (evs ++ pre) (wk_fan_now w') /\
     bad_at sf pow10 sb failures first name info (evs ++ pre) (wk_therm_now w')) ->
  In (fan, finfo) config -> sc_type finfo = "fan" -> In c (fan_ctls z0) -> In fan (fan_inputs c) ->
  drives sb finfo path -> own_device sb config fan path ->
  (0 < sc_max finfo -> usable_range (sc_min finfo) (sc_max finfo))%Z ->
  all_writes_ok (evs ++ mid ++ [STick i w]) ->
  raw_for finfo (ddiv (own_percent z0 name) (D 100)) = Some r -> (0 <= r)%Z ->
  exists d, mget path (sy_devices s2) = Some d /\ (r <= d)%Z.
Proof. exact C62_lemma. Qed.
Print Assumptions C62_device_reaction.

(** The same in terms of the configuration files: zone, PIDs and sensors. *)
Theorem C62_configured_reaction : forall f sf pow10 sb config failures first devices zs evs s mid s1 i w s2
    bus_ok zp confs built id pids c st z0 name info fan finfo path e v r,
  runs f sf pow10 sb config failures first devices zs evs s ->
  sys_run f sf pow10 mid s = Ok s1 -> sys_step f sf pow10 s1 (STick i w) = Ok s2 ->
  NoDup (map fst zp) -> buildZones bus_ok zp confs = Ok built ->
  nth_error zs i = Some (st, z0) -> In (id, z0) built -> In (id, pids) zp -> zget id confs = Some c ->
  is_manual i evs = false -> ~ In (SManual i true) mid ->
  (1 <= zc_cycleIntervalTimeMS c <= zc_updateThermalsTimeMS c)%Z ->
  (zc_updateThermalsTimeMS c + zc_cycleIntervalTimeMS c < uint64_mod)%Z ->
  (zc_updateThermalsTimeMS c <= Z.of_nat (wakes i mid) * zc_cycleIntervalTimeMS c)%Z ->
  tuningEnabled f = false ->
  dle d0 (zc_failsafePercent c) ->
  (forall x, In x pids -> dle d0 (ci_failSafePercent (snd x)) /\ dle (ci_failSafePercent (snd x)) (D 100)) ->
  In (name, info) config -> known_type (sc_type info) ->
  listed_by is_fan_pid pids name \/ listed_by is_thermal_pid pids name -> ~ acceptable_in pids name ->
  (forall pre w' post, (mid ++ [STick i w])%list = (pre ++ STick i w' :: post)%list ->
     bad_at sf pow10 sb failures first name info (evs ++ pre) (wk_fan_now w') /\
     bad_at sf pow10 sb failures first name info (evs ++ pre) (wk_therm_now w')) ->
  In (fan, finfo) config -> sc_type finfo = "fan" -> In e pids -> is_fan_pid e = true -> In fan (names_of e) ->
  drives sb finfo path -> own_device sb config fan path ->
  (0 < sc_max finfo -> usable_range (sc_min finfo) (sc_max finfo))%Z ->
  all_writes_ok (evs ++ mid ++ [STick i w]) ->
  is_max_of v (percents_for pids name) ->
  raw_for finfo (ddiv (if deqb v d0 then zc_failsafePercent c else v) (D 100)) = Some r -> (0 <= r)%Z ->
  exists d, mget path (sy_devices s2) = Some d /\ (r <= d)%Z.
Proof. exact C62_configured_lemma. Qed.
Print Assumptions C62_configured_reaction.

(** The alarm of t1 (90 %, raw 229) after 13 wake-ups: seen in the fans at the
    next thermal cycle, and 11 wake-ups are enough from anywhere. *)
Definition ticks_from (a n : nat) : list sys_event :=
  map (fun k => STick 0 (sys_wake (Z.of_nat k * 100000000))) (seq a n).
Definition fan_devices (evs : list sys_event) : option Z * option Z :=
  (device "/xyz/openbmc_project/control/fanpwm/fan0" (sys_after evs), device "/sys/hwmon/pwm1" (sys_after evs)).
Definition sys_evs : list sys_event :=
  (host_up :: SHost "m0" (D 30) 1 :: ticks_from 1 13 ++ [t1_alarm])%list.
Lemma ticks_heard a n pre post : ticks_from a n = (pre ++ post)%list ->
  (forall p, heard p (sys_evs ++ pre) = heard p sys_evs) /\ host_changes (sys_evs ++ pre) = host_changes sys_evs.
Proof.
  intros E. assert (T : forall e, In e pre -> exists w, e = STick 0 w).
  { intros e I. assert (J : In e (ticks_from a n)) by (rewrite E; apply in_or_app; left; exact I).
    unfold ticks_from in J. apply in_map_iff in J. destruct J as (k & <- & _). eauto. }
  clear E. unfold heard, host_changes. rewrite flat_map_app.
  split; [intros p; rewrite flat_map_app|]; rewrite <- app_nil_r; f_equal;
    induction pre as [|e r IH]; try reflexivity; cbn [flat_map];
    destruct (T e (or_introl eq_refl)) as (w & ->); apply IH; intros e' I; apply T; right; exact I.
Qed.
Example C62_example :
  runs ex_flags ex_sf ex_pow sys_bus sys_config [] None sys_devs sys_zones sys_evs (sys_after sys_evs) /\
  percents_ok ex_z /\ is_input ex_z "t1" /\ ~ acceptable ex_z "t1" /\
  is_max_of (D 90) (percents_for ex_pids "t1") /\
  (forall a n pre post now, ticks_from a n = (pre ++ post)%list ->
     bad_at ex_sf ex_pow sys_bus [] None "t1" t1_info (sys_evs ++ pre) now) /\
  drives sys_bus fan0_info (sc_writePath fan0_info) /\ drives sys_bus fan1_info (sc_writePath fan1_info) /\
  own_device sys_bus sys_config "fan0" (sc_writePath fan0_info) /\
  own_device sys_bus sys_config "fan1" (sc_writePath fan1_info) /\
  raw_for fan1_info (ddiv (D 90) (D 100)) = Some 229%Z /\
  fan_devices sys_evs = (Some 204, Some 204)%Z /\
  fan_devices (sys_evs ++ ticks_from 14 7) = (Some 204, Some 204)%Z /\
  fan_devices (sys_evs ++ ticks_from 14 8) = (Some 229, Some 229)%Z /\
  fan_devices (sys_evs ++ ticks_from 14 12) = (Some 229, Some 229)%Z.
Proof.
  split; [apply ex_runs; vm_compute; reflexivity|].
  split.
  { destruct (own_percent_bound ex_bus [(1%Z, ex_pids)] ex_confs ex_built 1%Z ex_pids ex_z
      (MkZoneConfig (D 10) (D 75) 100 1000 false)) as (P & _); [| | | | | | |exact P].
    - apply get_ok_eq. vm_compute. reflexivity.
    - repeat constructor. intros [].
    - left. reflexivity.
    - rewrite ex_built_one. left. reflexivity.
    - reflexivity.
    - vm_compute. reflexivity.
    - intros e I. repeat (destruct I as [<-|I]; [vm_compute; reflexivity|]). destruct I. }
  split. { right. vm_compute. auto. }
  split. { unfold acceptable. vm_compute. intuition discriminate. }
  split.
  { assert (E : percents_for ex_pids "t1" = [D 90; D 80]) by reflexivity. rewrite E. split.
    - exists (D 90). split; [left; reflexivity|vm_compute; reflexivity].
    - intros x [<-|[<-|[]]] _; vm_compute; reflexivity. }
  split.
  { intros a n pre post now E. destruct (ticks_heard _ _ _ _ E) as (H1 & H2). left.
    split; [path_class|]. split.
    - right. right. exists ex_t1_initial. split; [exists [("Value", VInt 62)]; repeat split|]. cbv zeta. rewrite H1.
      split; [intros (_ & X & _); discriminate|]. right. right. left. vm_compute. reflexivity.
    - intros _. rewrite H2. exists "xyz.openbmc_project.State.Host.HostState.Running".
      split; [reflexivity|]. exists "xyz.openbmc_project.State.Host.HostState". reflexivity. }
  split. { left. split; [path_class|reflexivity]. }
  split. { right. split; [path_class|]. apply FixupPath_ok. reflexivity. }
  split. { intros n i I Ty W. cbn in I. repeat destruct I as [I|I]; try contradiction; injection I as <- <-;
    try discriminate Ty; [reflexivity|]. exfalso. destruct W as [(_ & W)|(_ & W)]; [discriminate W|].
    apply FixupPath_ok in W. discriminate W. }
  split. { intros n i I Ty W. cbn in I. repeat destruct I as [I|I]; try contradiction; injection I as <- <-;
    try discriminate Ty; [|reflexivity]. exfalso. destruct W as [(_ & W)|(_ & W)]; [discriminate W|].
    apply FixupPath_ok in W. discriminate W. }
  repeat match goal with |- _ /\ _ => split end; vm_compute; reflexivity.
Qed.

(** ** C63 *)

(** Starting returns. *)
Theorem C63_daemon_starts : forall f sf pow10 sb config failures first devices zs bus_ok zp confs,
  built_from bus_ok zp confs zs -> (forall id pids, In (id, pids) zp -> pids_served config pids) ->
  forall m, NoDup (map fst config) -> buildSensors sf pow10 sb config = Ok m ->
  Forall (fun e => files_ok sb config (st_files (fst e)) /\ tuning_readable f (st_tune (fst e))) zs ->
  exists s0, sys_start f m failures (host_initial first) devices zs = Ok s0 /\
    runs f sf pow10 sb config failures first devices zs [] s0.
Proof. exact C63_start_lemma. Qed.
Print Assumptions C63_daemon_starts.

(** No history ends it, as long as the fan commands can be converted. *)
Theorem C63_daemon_keeps_running : forall f sf pow10 sb config failures first devices zs bus_ok zp confs,
  built_from bus_ok zp confs zs -> (forall id pids, In (id, pids) zp -> pids_served config pids) ->
  forall evs s more, runs f sf pow10 sb config failures first devices zs evs s ->
    Forall (served f sb config) more ->
    returns_or_bad_command (sys_run f sf pow10 more s).
Proof. exact C63_lemma. Qed.
Print Assumptions C63_daemon_keeps_running.

Example C63_example :
  built_from ex_bus [(1%Z, ex_pids)] ex_confs sys_zones /\ pids_served sys_config ex_pids /\
  Forall (fun e => files_ok sys_bus sys_config (st_files (fst e)) /\ tuning_readable ex_flags (st_tune (fst e))) sys_zones /\
  Forall (served ex_flags sys_bus sys_config)
    [host_up; t1_alarm; SManual 0 true; STick 0 (sys_wake 1); SRedundancy (RMsg (RStatus "Failed") None)] /\
  is_ok (sys_run ex_flags ex_sf ex_pow
    [host_up; t1_alarm; SManual 0 true; STick 0 (sys_wake 1); SRedundancy (RMsg (RStatus "Failed") None)] sys_s0) = true.
Proof.
  assert (Fk : files_ok sys_bus sys_config sys_files) by (intros n i p _ _ _; eexists; reflexivity).
  split. { split; [repeat constructor; intros []|]. exists ex_built. split; [apply get_ok_eq; vm_compute; reflexivity|].
    rewrite ex_built_one. reflexivity. }
  split.
  { split.
    { intros e I B. repeat (destruct I as [<-|I]; [discriminate|]). destruct I. }
    split.
    { intros e i I T J C. repeat (destruct I as [<-|I]; [try discriminate T|]); [|destruct I].
      destruct J as [<-|[]]. vm_compute. reflexivity. }
    split.
    - intros n (e & I & T & N). cbn in I.
      repeat destruct I as [<-|I]; try contradiction; try discriminate T; cbn in N; repeat destruct N as [<-|N]; try contradiction.
      all: first
        [ exists t1_info; split; [cbn; auto 6|]; split; [right; left; reflexivity|left; path_class]
        | exists t0_info; split; [cbn; auto 6|]; split; [right; left; reflexivity|right; right; path_class]
        | exists m0_info; split; [cbn; auto 6|]; split; [right; right; left; reflexivity|right; left; split; [path_class|discriminate]] ].
    - intros n (e & I & T & N). cbn in I.
      repeat destruct I as [<-|I]; try contradiction; try discriminate T; cbn in N; repeat destruct N as [<-|N]; try contradiction.
      + split; [exists fan0_info; split; [cbn; auto|]; split; [left; reflexivity|left; path_class]|].
        exists fan0_info. split; [cbn; auto|reflexivity].
      + split; [exists fan1_info; split; [cbn; auto|]; split; [left; reflexivity|right; right; path_class]|].
        exists fan1_info. split; [cbn; auto|reflexivity]. }
  split. { repeat constructor; try exact Fk; intros X; discriminate X. }
  split; [|vm_compute; reflexivity].
  repeat apply Forall_cons; try apply Forall_nil; cbn [served host_up t1_alarm]; try exact Logic.I.
  - split; [intros t X; discriminate X|]. intros i k v I X. cbn in I.
    repeat destruct I as [I|I]; try contradiction; injection I as <- <-; try discriminate X; injection X as <-; eauto.
  - split; [exact Fk|]. split; [exact Fk|]. intros X. discriminate X.
  - discriminate.
Qed.

(** ** C64 *)

(** After a wake-up each fan device holds the last command the zone gave it, or
    what it held before. *)
Theorem C64_device_holds_last_command : forall f sf pow10 sb config failures first devices zs evs s name info path
    i w s' l l' new,
  runs f sf pow10 sb config failures first devices zs evs s ->
  In (name, info) config -> sc_type info = "fan" ->
  drives sb info path -> own_device sb config name path -> all_writes_ok (evs ++ [STick i w]) ->
  sys_step f sf pow10 s (STick i w) = Ok s' ->
  nth_error (sy_loops s) i = Some l -> nth_error (sy_loops s') i = Some l' ->
  new_events (l_zone l) (l_zone l') new ->
  (last_request name (writes_in new) = None ->
   mget path (sy_devices s') = mget path (sy_devices s)) /\
  (forall v, last_request name (writes_in new) = Some v ->
     exists raw, raw_for info v = Some raw /\
       ((0 <= raw)%Z -> mget path (sy_devices s') = Some raw)).
Proof. exact C64_lemma. Qed.
Print Assumptions C64_device_holds_last_command.

(** A device changes only when a command for it was delivered, and then to the
    raw value of that command. *)
Theorem C64_only_delivered_commands_count : forall f sf pow10 sb config failures first devices zs evs s
    i w s' l l' new path,
  runs f sf pow10 sb config failures first devices zs evs s ->
  sys_step f sf pow10 s (STick i w) = Ok s' ->
  nth_error (sy_loops s) i = Some l -> nth_error (sy_loops s') i = Some l' ->
  new_events (l_zone l) (l_zone l') new ->
  mget path (sy_devices s') <> mget path (sy_devices s) ->
  exists k name info v force raw,
    nth_error (writes_in new) k = Some (name, v, force) /\ wk_write_ok w k = true /\
    In (name, info) config /\ sc_type info = "fan" /\ drives sb info path /\
    raw_for info v = Some raw /\ mget path (sy_devices s') = Some raw.
Proof. exact C64_delivered_lemma. Qed.
Print Assumptions C64_only_delivered_commands_count.

(** Only wake-ups move fans. *)
Theorem C64_only_wakeups_write : forall f sf pow10 s e s',
  sys_step f sf pow10 s e = Ok s' -> (forall i w, e <> STick i w) -> sy_devices s' = sy_devices s.
Proof. exact C64_quiet_lemma. Qed.
Print Assumptions C64_only_wakeups_write.

Example C64_example :
  match nth_error (sy_loops sys_s0) 0, nth_error (sy_loops (sys_after (ticks_from 1 1))) 0 with
  | Some l, Some l' =>
      map (fun e => fst (fst e)) (new_writes (l_zone l) (l_zone l')) = ["fan0"; "fan1"]
  | _, _ => False
  end /\
  fan_devices [] = (None, Some 7)%Z /\ fan_devices (ticks_from 1 1) = (Some 255, Some 255)%Z /\
  fan_devices (ticks_from 1 1 ++ [host_up; t1_alarm; SManual 0 true; STick 0 (sys_wake 2)]) = (Some 255, Some 255)%Z.
Proof. repeat match goal with |- _ /\ _ => split end; vm_compute; reflexivity. Qed.
(** The first write of the wake-up (fan0) is lost, the second one (fan1) arrives. *)
Definition lossy_wake (now : Z) : wake := Wake now sys_files now sys_files ex_tune (fun k => Nat.eqb k 1).
Example C64_delivered_example : fan_devices [STick 0 (lossy_wake 1)] = (None, Some 255)%Z.
Proof. vm_compute. reflexivity. Qed.
