(** * Properties C100 and C101: manual mode and failing sensors over the life of the daemon.

    Vocabulary: SpecLife.v, with SpecDaemon.v and SpecSystem.v.  Proofs: LifeProofs.v, LifeProofs2.v. *)
From Coq Require Import ZArith Bool List String Lia.
From Verif Require Import Base BaseFacts Dbl PidModel ZoneModel LoopModel SpecZone ZoneProofs PropertiesZone PropertiesBuilder PropertiesSensor PropertiesSystem
  ExamplesDbus PropertiesDbus ConfigModel SensorModel SpecSensor SpecWrite BuilderModel SpecBuilder SystemModel SpecSystem PathProofs
  JsonModel PropertiesJson DbusConfigModel LogModel MainModel SpecMain ReloadModel SpecReload
  StartModel SpecStart PropertiesStart DaemonModel SpecDaemon PropertiesDaemon SpecStop PropertiesStop SpecLife LifeProofs LifeProofs2.
Import ListNotations.
Local Open Scope string_scope.

(** ** C100 *)

(** From any moment at which a zone is in manual mode: as long as the daemon goes on,
    its loops are not stopped and nobody switches the zone back, it stays in manual
    mode, and a device that only fans of this zone command keeps what it holds. *)
Theorem C100_manual_untouched : forall f sf pow10 re named i path l evs d d1,
  daemon_run f sf pow10 re named evs d = Ok d1 -> m_stopped (dm_main d1) = false -> loop_stops d1 = loop_stops d ->
  nth_error (sy_loops (dm_sys d)) i = Some l -> z_manualMode (l_zone l) = true -> ~ In (DSys (SManual i false)) evs ->
  only_from i (dm_sys d) path ->
  mget path (sy_devices (dm_sys d1)) = mget path (sy_devices (dm_sys d)) /\
  exists l1, nth_error (sy_loops (dm_sys d1)) i = Some l1 /\ z_manualMode (l_zone l1) = true.
Proof. intros f sf pow10 re named. exact (manual_untouched f sf pow10 re named). Qed.
Print Assumptions C100_manual_untouched.

(** The zone is in manual mode from before its first wake-up: its fan is not commanded
    for 12 wake-ups, in the course of which the second thermal cycle comes. *)
Definition lm_start : list daemon_ev := [DRun dl_w (sys_wake 0); DSys host_up].
Definition lm_wakes (g n : nat) : list daemon_ev := flat_map (fun k => dl_wake dl_w g (Z.of_nat (S k) * 100)) (seq 0 n).
Definition lm_manual (b : bool) : daemon_ev := DSys (SManual 0 b).
Lemma one_loop s path : List.length (sy_loops s) = 1 -> only_from 0 s path.
Proof. intros L [|j] l name N E; [elim (N eq_refl)|]. assert (X : nth_error (sy_loops s) (S j) <> None) by congruence. apply nth_error_Some in X. lia. Qed.
Definition lm_mode (d : daemon) : list bool := map (fun l => z_manualMode (l_zone l)) (sy_loops (dm_sys d)).
Lemma lm_mode_one d b : lm_mode d = [b] -> exists l, nth_error (sy_loops (dm_sys d)) 0 = Some l /\ z_manualMode (l_zone l) = b.
Proof. unfold lm_mode. destruct (sy_loops (dm_sys d)) as [|l [|? ?]]; try discriminate. intros H. injection H as <-. exists l. auto. Qed.
Definition is_automatic (e : daemon_ev) : bool := match e with DSys (SManual 0 false) => true | _ => false end.
Lemma none_automatic evs : existsb is_automatic evs = false -> ~ In (DSys (SManual 0 false)) evs.
Proof. intros H I. assert (X : existsb is_automatic evs = true) by (apply existsb_exists; eexists; split; [exact I|reflexivity]). congruence. Qed.

Example C100_untouched_example :
  let d := dl_after (lm_start ++ [lm_manual true]) in let d1 := dl_after ((lm_start ++ [lm_manual true]) ++ lm_wakes 1 12) in
  daemon_run ex_flags ex_sf ex_pow dx_regex "" (lm_wakes 1 12) d = Ok d1 /\ m_stopped (dm_main d1) = false /\ loop_stops d1 = loop_stops d /\
  (exists l, nth_error (sy_loops (dm_sys d)) 0 = Some l /\ z_manualMode (l_zone l) = true) /\
  ~ In (DSys (SManual 0 false)) (lm_wakes 1 12) /\ only_from 0 (dm_sys d) "/sys/pwm1" /\
  mget "/sys/pwm1" (sy_devices (dm_sys d1)) = None /\
  mget "/sys/pwm1" (sy_devices (dm_sys (dl_after (lm_start ++ lm_wakes 1 12)))) = Some 255%Z.
Proof.
  intros d d1. assert (H0 : dl_run (lm_start ++ [lm_manual true]) = Ok d) by (apply get_ok_eq; vm_compute; reflexivity).
  assert (H1 : dl_run ((lm_start ++ [lm_manual true]) ++ lm_wakes 1 12) = Ok d1) by (apply get_ok_eq; vm_compute; reflexivity).
  split; [exact (dl_part _ _ _ _ _ H0 eq_refl H1)|]. split; [vm_compute; reflexivity|]. split; [vm_compute; reflexivity|].
  split; [apply lm_mode_one; vm_compute; reflexivity|]. split; [apply none_automatic; vm_compute; reflexivity|].
  split; [apply one_loop; vm_compute; reflexivity|]. split; vm_compute; reflexivity.
Qed.

(** The mode of every zone is what was last written to Manual since the loops were
    last started; a zone nobody wrote to since then is in automatic mode.  So a reload
    takes every zone out of manual mode. *)
Theorem C100_mode : forall f sf pow10 re named first devices evs d,
  Forall ordered evs -> calm f sf pow10 re named evs (daemon_init first devices) ->
  daemon_run f sf pow10 re named evs (daemon_init first devices) = Ok d -> going d -> sy_loops (dm_sys d) <> [] ->
  exists pre w k post da d1,
    evs = (pre ++ DRun w k :: post)%list /\ daemon_run f sf pow10 re named pre (daemon_init first devices) = Ok da /\
    next_is (ORestart false) da /\ daemon_step f sf pow10 re named da (DRun w k) = Ok d1 /\
    loop_stops d1 = (loop_stops da ++ [MStopped])%list /\ loop_stops d = loop_stops d1 /\
    forall i l, nth_error (sy_loops (dm_sys d)) i = Some l -> z_manualMode (l_zone l) = is_manual i (messages post).
Proof. intros f sf pow10 re named. exact (mode_since f sf pow10 re named). Qed.
Print Assumptions C100_mode.

(** Manual mode, a reload, another wake-up: the zone is in automatic mode, and the fan
    is commanded. *)
Definition lm_life : list daemon_ev := ((lm_start ++ [lm_manual true]) ++ lm_wakes 1 2 ++ dl_reload dl_w ++ dl_wake dl_w 2 300)%list.
Lemma still_going d : existsb (fun x => match x with MExit => true | _ => false end) (m_log (dm_main d)) = false -> going d.
Proof. intros H E. assert (X : existsb (fun x => match x with MExit => true | _ => false end) (m_log (dm_main d)) = true); [|congruence].
  apply existsb_exists. exists MExit. split; [|reflexivity]. apply in_rev. exact E. Qed.
Example C100_mode_example :
  let d := dl_after lm_life in
  Forall ordered lm_life /\ calm ex_flags ex_sf ex_pow dx_regex "" lm_life dl_init /\
  daemon_run ex_flags ex_sf ex_pow dx_regex "" lm_life dl_init = Ok d /\ going d /\ sy_loops (dm_sys d) <> [] /\
  lm_mode (dl_after ((lm_start ++ [lm_manual true]) ++ lm_wakes 1 2)) = [true] /\ lm_mode d = [false] /\
  mget "/sys/pwm1" (sy_devices (dm_sys d)) = Some 255%Z.
Proof.
  intros d. assert (H0 : dl_run lm_life = Ok d) by (apply get_ok_eq; vm_compute; reflexivity).
  split. { unfold lm_life, lm_start, lm_wakes, lm_manual, dl_reload, dl_wake. cbn [seq flat_map app]. repeat constructor; intros w k E; try discriminate E; injection E as <- _; apply st_order. }
  split; [apply dl_calm; vm_compute; reflexivity|]. split; [exact (dl_run_def _ _ H0)|].
  split; [apply still_going; vm_compute; reflexivity|].
  split; [intros X; assert (Y : lm_mode d = []) by (unfold lm_mode; rewrite X; reflexivity); revert Y; vm_compute; discriminate|].
  split; [vm_compute; reflexivity|]. split; vm_compute; reflexivity.
Qed.

(** ** C101 *)

(** The reaction to a failing sensor (C62) in the whole life of the daemon.  After any
    history [pre] the daemon stops its loops, reads a configuration and starts loops;
    they have not been stopped since.  After [post], a sensor of a zone in automatic
    mode is bad whenever the loop of the zone runs during [mid] and once more; [mid]
    is long enough for the loop to cover the thermal interval.  Then the device of
    every fan of the zone has at least the failsafe percentage for that sensor. *)
Theorem C101_life_reaction : forall f sf pow10 re named first devices pre w k post mid w' k' da d1 d d2 d3 z i c pids zc
    name info fan finfo path e v r,
  Forall ordered (pre ++ DRun w k :: post ++ mid ++ [DRun w' k']) ->
  calm f sf pow10 re named (pre ++ DRun w k :: post ++ mid ++ [DRun w' k']) (daemon_init first devices) ->
  daemon_run f sf pow10 re named pre (daemon_init first devices) = Ok da -> next_is (ORestart false) da ->
  daemon_step f sf pow10 re named da (DRun w k) = Ok d1 -> loop_stops d1 <> loop_stops da ->
  read_configuration sf re named (su_disk w) (su_config w) = Ok (Loaded c) ->
  daemon_run f sf pow10 re named post d1 = Ok d -> daemon_run f sf pow10 re named mid d = Ok d2 ->
  next_is (OLoop z false) d2 -> daemon_step f sf pow10 re named d2 (DRun w' k') = Ok d3 -> going d3 ->
  loop_stops d3 = loop_stops d1 ->
  nth_error (dm_ids d) i = Some z -> In (fst z, pids) (l_pids c) -> zget (fst z) (l_zones c) = Some zc ->
  is_manual i (messages post) = false -> ~ In (DSys (SManual i true)) mid ->
  (1 <= zc_cycleIntervalTimeMS zc <= zc_updateThermalsTimeMS zc)%Z ->
  (zc_updateThermalsTimeMS zc + zc_cycleIntervalTimeMS zc < uint64_mod)%Z ->
  (zc_updateThermalsTimeMS zc <= Z.of_nat (cycles_of z d2 - cycles_of z d) * zc_cycleIntervalTimeMS zc)%Z ->
  tuningEnabled f = false -> dle d0 (zc_failsafePercent zc) ->
  (forall x, In x pids -> dle d0 (ci_failSafePercent (snd x)) /\ dle (ci_failSafePercent (snd x)) (D 100)) ->
  In (name, info) (l_sensors c) -> known_type (sc_type info) ->
  listed_by is_fan_pid pids name \/ listed_by is_thermal_pid pids name -> ~ acceptable_in pids name ->
  (forall m1 wi ki m2 dm, (mid ++ [DRun w' k'])%list = (m1 ++ DRun wi ki :: m2)%list ->
     daemon_run f sf pow10 re named m1 d = Ok dm -> next_is (OLoop z false) dm ->
     let bad := bad_since sf pow10 (seen (dm_exports da) (su_sensors w)) (known_failures w (dm_sys da)) first name info
                  (messages pre) (messages (post ++ m1)) in
     bad (wk_fan_now ki) /\ bad (wk_therm_now ki)) ->
  In (fan, finfo) (l_sensors c) -> sc_type finfo = "fan" -> In e pids -> is_fan_pid e = true -> In fan (names_of e) ->
  drives (seen (dm_exports da) (su_sensors w)) finfo path ->
  own_device (seen (dm_exports da) (su_sensors w)) (l_sensors c) fan path ->
  (0 < sc_max finfo -> usable_range (sc_min finfo) (sc_max finfo))%Z ->
  Forall delivered (post ++ mid ++ [DRun w' k']) ->
  is_max_of v (percents_for pids name) ->
  raw_for finfo (ddiv (if deqb v d0 then zc_failsafePercent zc else v) (D 100)) = Some r -> (0 <= r)%Z ->
  exists x, mget path (sy_devices (dm_sys d3)) = Some x /\ (r <= x)%Z.
Proof. intros f sf pow10 re named. exact (C101_lemma f sf pow10 re named). Qed.
Print Assumptions C101_life_reaction.

(** temp1 keeps the fan at 40 % (raw 102); the daemon is reloaded; later temp1 has an
    alarm: 90 % (raw 229) after 11 wake-ups. *)
Definition lf_step_json : json :=
  JObj [("FailSafePercent", JUint 90); ("inputs", JArr [JStr "temp1"]); ("name", JStr "step");
        ("pid", JObj [("isCeiling", JBool false); ("output", JObj [("0", JUint 30); ("1", JUint 40)]);
                      ("reading", JObj jx_readings); ("samplePeriod", JUint 1)]);
        ("setpoint", JUint 30); ("type", JStr "stepwise")].
Definition lf_json : json :=
  JObj [("sensors", JArr jx_sensors_json);
        ("zones", JArr [JObj [("failsafePercent", JUint 75); ("id", JUint 1); ("minThermalOutput", JUint 10);
                              ("pids", JArr [jx_fan_pid_json (JUint 80); lf_step_json])]])].
Definition lf_w : surroundings := st_w (st_disk [st_installed] [] (Document lf_json)).
Definition lf_wakes (g n : nat) : list daemon_ev := flat_map (fun k => dl_wake lf_w g (Z.of_nat (S k) * 100)) (seq 0 n).
Definition lf_alarm : daemon_ev :=
  DSys (SSignal "/xyz/openbmc_project/sensors/temperature/temp1" (Msg critical_intf [("CriticalAlarmHigh", VBool true)] 5)).
Definition lf_pre : list daemon_ev :=
  (DRun lf_w (sys_wake 0) :: DSys host_up :: lf_wakes 1 2 ++
   [DMove VHup; DMove (VWait 1000); DMove VHupExpire; DMove VHandler; DRun lf_w (sys_wake 0); DRun lf_w (sys_wake 0); DMove VRetry])%list.
Definition lf_post : list daemon_ev := (lf_wakes 2 3 ++ [lf_alarm])%list.
Definition lf_mid : list daemon_ev := (lf_wakes 2 10 ++ [DMove (VLoopExpire (1%Z, 2))])%list.
Definition lf_all : list daemon_ev := (lf_pre ++ DRun lf_w (sys_wake 0) :: lf_post ++ lf_mid ++ [DRun lf_w (sys_wake 2000)])%list.
Definition lf_d1 : list daemon_ev := (lf_pre ++ [DRun lf_w (sys_wake 0)])%list.
Definition lf_info : SensorConfig := dl_sensor lf_json "temp1".
Definition lf_finfo : SensorConfig := dl_sensor lf_json "fan1".
Definition lf_pids : PIDConf := [("fans", dl_pid lf_json "fans"); ("step", dl_pid lf_json "step")].
Lemma lf_shape : l_pids (jx_loaded lf_json) = [(1%Z, lf_pids)] /\ l_zones (jx_loaded lf_json) = [(1%Z, dl_zone lf_json)] /\
  l_sensors (jx_loaded lf_json) = [("fan1", lf_finfo); ("temp1", lf_info)].
Proof. apply dl_shape; vm_compute; reflexivity. Qed.
Lemma no_messages m1 m2 : messages (m1 ++ m2) = [] -> messages m1 = [].
Proof. unfold messages. rewrite flat_map_app. intros H. apply app_eq_nil in H. apply H. Qed.
Lemma lf_bad m1 wi ki m2 exports now : (lf_mid ++ [DRun lf_w (sys_wake 2000)])%list = (m1 ++ DRun wi ki :: m2)%list ->
  bad_since ex_sf ex_pow (seen exports sys_bus) [] None "temp1" lf_info (messages lf_pre) (messages (lf_post ++ m1)) now.
Proof.
  intros E. assert (M : messages m1 = []).
  { apply (no_messages _ (DRun wi ki :: m2)). rewrite <- E. vm_compute. reflexivity. }
  assert (M2 : messages (lf_post ++ m1) = messages lf_post) by (unfold messages in *; rewrite flat_map_app, M, app_nil_r; reflexivity).
  assert (P : sc_readPath lf_info = "/xyz/openbmc_project/sensors/temperature/temp1") by (vm_compute; reflexivity).
  assert (B : sc_ignoreDbusMinMax lf_info = true) by (vm_compute; reflexivity).
  assert (O : sc_ignoreFailIfHostOff lf_info = false) by (vm_compute; reflexivity).
  assert (Hd : heard "/xyz/openbmc_project/sensors/temperature/temp1" (messages lf_post) =
               [Msg critical_intf [("CriticalAlarmHigh", VBool true)] 5]) by reflexivity.
  rewrite M2. left. unfold bus_failed. rewrite P, O. split; [path_class|]. split; [|discriminate].
  right. right. exists (Initial 0 (D 1000) false true 0 d0 d0). split.
  - exists [("Value", VInt 1000)]. rewrite B. split; [reflexivity|]. split; [reflexivity|]. split; [reflexivity|].
    split; [reflexivity|]. split; [reflexivity|]. split; [reflexivity|]. split; reflexivity.
  - cbv zeta. rewrite Hd. split; [intros X; revert X; vm_compute; intuition discriminate|]. right. right. left. vm_compute. reflexivity.
Qed.
Lemma ready_first d o r : m_ready (dm_main d) = o :: r -> next_is o d.
Proof. exists r. assumption. Qed.
Definition is_manual_on (e : daemon_ev) : bool := match e with DSys (SManual 0 true) => true | _ => false end.
Lemma none_manual evs : existsb is_manual_on evs = false -> ~ In (DSys (SManual 0 true)) evs.
Proof. intros H I. assert (X : existsb is_manual_on evs = true) by (apply existsb_exists; eexists; split; [exact I|reflexivity]). congruence. Qed.
Lemma lf_read : read_configuration ex_sf dx_regex "" (su_disk lf_w) (su_config lf_w) = Ok (Loaded (jx_loaded lf_json)).
Proof. apply (read_document _ _ _ _ _ st_installed lf_json); [apply st_used|reflexivity|]. apply get_ok_eq. vm_compute. reflexivity. Qed.
Lemma lf_none pids n : existsb (fun e => existsb (fun i => si_missingIsAcceptable i) (ci_inputs (snd e))) pids = false -> ~ acceptable_in pids n.
Proof.
  intros H (e & i & I & _ & Ii & _ & M). assert (X : existsb (fun e => existsb (fun i => si_missingIsAcceptable i) (ci_inputs (snd e))) pids = true); [|congruence].
  apply existsb_exists. exists e. split; [exact I|]. apply existsb_exists. exists i. auto.
Qed.
Lemma lf_percents : percents_for lf_pids "temp1" = [ci_failSafePercent (dl_pid lf_json "step")].
Proof.
  assert (A : (is_fan_pid ("fans", dl_pid lf_json "fans") || is_thermal_pid ("fans", dl_pid lf_json "fans")) &&
              smem "temp1" (names_of ("fans", dl_pid lf_json "fans")) = false) by (vm_compute; reflexivity).
  assert (B : (is_fan_pid ("step", dl_pid lf_json "step") || is_thermal_pid ("step", dl_pid lf_json "step")) &&
              smem "temp1" (names_of ("step", dl_pid lf_json "step")) = true) by (vm_compute; reflexivity).
  unfold percents_for, lf_pids. cbn [filter]. rewrite A, B. reflexivity.
Qed.
Example C101_example :
  let da := dl_after lf_pre in let d1 := dl_after lf_d1 in let d := dl_after (lf_d1 ++ lf_post) in
  let d2 := dl_after ((lf_d1 ++ lf_post) ++ lf_mid) in let d3 := dl_after (((lf_d1 ++ lf_post) ++ lf_mid) ++ [DRun lf_w (sys_wake 2000)]) in
  Forall ordered lf_all /\ calm ex_flags ex_sf ex_pow dx_regex "" lf_all dl_init /\
  daemon_run ex_flags ex_sf ex_pow dx_regex "" lf_pre dl_init = Ok da /\ next_is (ORestart false) da /\
  daemon_step ex_flags ex_sf ex_pow dx_regex "" da (DRun lf_w (sys_wake 0)) = Ok d1 /\ loop_stops d1 <> loop_stops da /\
  read_configuration ex_sf dx_regex "" (su_disk lf_w) (su_config lf_w) = Ok (Loaded (jx_loaded lf_json)) /\
  daemon_run ex_flags ex_sf ex_pow dx_regex "" lf_post d1 = Ok d /\ daemon_run ex_flags ex_sf ex_pow dx_regex "" lf_mid d = Ok d2 /\
  next_is (OLoop (1%Z, 2) false) d2 /\ daemon_step ex_flags ex_sf ex_pow dx_regex "" d2 (DRun lf_w (sys_wake 2000)) = Ok d3 /\ going d3 /\
  loop_stops d3 = loop_stops d1 /\ nth_error (dm_ids d) 0 = Some (1%Z, 2) /\
  In (1%Z, lf_pids) (l_pids (jx_loaded lf_json)) /\ zget 1%Z (l_zones (jx_loaded lf_json)) = Some (dl_zone lf_json) /\
  is_manual 0 (messages lf_post) = false /\ ~ In (DSys (SManual 0 true)) lf_mid /\
  (zc_updateThermalsTimeMS (dl_zone lf_json) <= Z.of_nat (cycles_of (1%Z, 2%nat) d2 - cycles_of (1%Z, 2%nat) d) * zc_cycleIntervalTimeMS (dl_zone lf_json))%Z /\
  zc_cycleIntervalTimeMS (dl_zone lf_json) = 100%Z /\ zc_updateThermalsTimeMS (dl_zone lf_json) = 1000%Z /\
  dle d0 (zc_failsafePercent (dl_zone lf_json)) /\
  (forall x, In x lf_pids -> dle d0 (ci_failSafePercent (snd x)) /\ dle (ci_failSafePercent (snd x)) (D 100)) /\
  In ("temp1", lf_info) (l_sensors (jx_loaded lf_json)) /\ known_type (sc_type lf_info) /\
  listed_by is_thermal_pid lf_pids "temp1" /\ ~ acceptable_in lf_pids "temp1" /\
  (forall m1 wi ki m2 dm, (lf_mid ++ [DRun lf_w (sys_wake 2000)])%list = (m1 ++ DRun wi ki :: m2)%list ->
     daemon_run ex_flags ex_sf ex_pow dx_regex "" m1 d = Ok dm -> next_is (OLoop (1%Z, 2) false) dm ->
     let bad := bad_since ex_sf ex_pow (seen (dm_exports da) (su_sensors lf_w)) (known_failures lf_w (dm_sys da)) None "temp1" lf_info
                  (messages lf_pre) (messages (lf_post ++ m1)) in
     bad (wk_fan_now ki) /\ bad (wk_therm_now ki)) /\
  In ("fan1", lf_finfo) (l_sensors (jx_loaded lf_json)) /\ sc_type lf_finfo = "fan" /\
  (exists e, In e lf_pids /\ is_fan_pid e = true /\ In "fan1" (names_of e)) /\
  drives (seen (dm_exports da) (su_sensors lf_w)) lf_finfo "/sys/pwm1" /\
  own_device (seen (dm_exports da) (su_sensors lf_w)) (l_sensors (jx_loaded lf_json)) "fan1" "/sys/pwm1" /\
  usable_range (sc_min lf_finfo) (sc_max lf_finfo) /\ Forall delivered (lf_post ++ lf_mid ++ [DRun lf_w (sys_wake 2000)]) /\
  (exists v, is_max_of v (percents_for lf_pids "temp1") /\
     raw_for lf_finfo (ddiv (if deqb v d0 then zc_failsafePercent (dl_zone lf_json) else v) (D 100)) = Some 229%Z) /\
  mget "/sys/pwm1" (sy_devices (dm_sys d)) = Some 102%Z /\ mget "/sys/pwm1" (sy_devices (dm_sys d3)) = Some 229%Z.
Proof.
  intros da d1 d d2 d3.
  assert (Ha : dl_run lf_pre = Ok da) by (apply get_ok_eq; vm_compute; reflexivity).
  assert (H1 : dl_run lf_d1 = Ok d1) by (apply get_ok_eq; vm_compute; reflexivity).
  assert (H : dl_run (lf_d1 ++ lf_post) = Ok d) by (apply get_ok_eq; vm_compute; reflexivity).
  assert (H2 : dl_run ((lf_d1 ++ lf_post) ++ lf_mid) = Ok d2) by (apply get_ok_eq; vm_compute; reflexivity).
  assert (H3 : dl_run (((lf_d1 ++ lf_post) ++ lf_mid) ++ [DRun lf_w (sys_wake 2000)]) = Ok d3) by (apply get_ok_eq; vm_compute; reflexivity).
  destruct lf_shape as (Sp & Sz & Ss).
  split. { unfold lf_all, lf_pre, lf_post, lf_mid, lf_wakes, lf_alarm, dl_wake. cbn [seq flat_map app]. repeat constructor; intros w k E; try discriminate E; injection E as <- _; apply st_order. }
  split; [apply dl_calm; vm_compute; reflexivity|]. split; [exact (dl_run_def _ _ Ha)|].
  split; [apply (ready_first _ _ []); vm_compute; reflexivity|]. split; [exact (dl_next _ _ _ _ _ eq_refl Ha H1)|].
  split; [vm_compute; discriminate|]. split; [exact lf_read|].
  split; [exact (dl_part _ _ _ _ _ H1 eq_refl H)|]. split; [exact (dl_part _ _ _ _ _ H eq_refl H2)|].
  split; [apply (ready_first _ _ []); vm_compute; reflexivity|]. split; [exact (dl_next _ _ _ _ _ eq_refl H2 H3)|].
  split; [apply still_going; vm_compute; reflexivity|]. split; [vm_compute; reflexivity|]. split; [vm_compute; reflexivity|].
  split; [rewrite Sp; left; reflexivity|]. split; [rewrite Sz; reflexivity|].
  split; [vm_compute; reflexivity|]. split; [apply none_manual; vm_compute; reflexivity|].
  split; [vm_compute; discriminate|]. split; [vm_compute; reflexivity|]. split; [vm_compute; reflexivity|].
  split; [vm_compute; reflexivity|].
  split. { intros x [<-|[<-|[]]]; split; vm_compute; reflexivity. }
  split; [rewrite Ss; right; left; reflexivity|]. split; [vm_compute; auto|].
  split. { exists ("step", dl_pid lf_json "step"). split; [right; left; reflexivity|]. split; vm_compute; auto. }
  split. { apply lf_none. vm_compute. reflexivity. }
  split. { intros m1 wi ki m2 dm E _ _. split; apply (lf_bad _ _ _ _ _ _ E). }
  split; [rewrite Ss; left; reflexivity|]. split; [vm_compute; reflexivity|].
  split. { exists ("fans", dl_pid lf_json "fans"). split; [left; reflexivity|]. split; vm_compute; auto. }
  assert (Fw : sc_writePath lf_finfo = "/sys/pwm1") by (vm_compute; reflexivity).
  split. { right. rewrite Fw. split; [path_class|]. apply FixupPath_ok. reflexivity. }
  split. { intros n i I Ty _. rewrite Ss in I. destruct I as [I|[I|[]]]; injection I as <- <-; [reflexivity|]. revert Ty. vm_compute. discriminate. }
  split. { split; [|split]; vm_compute; discriminate. }
  split. { unfold lf_post, lf_mid, lf_wakes, lf_alarm, dl_wake. cbn [seq flat_map app]. repeat constructor; intros w k n E; try discriminate E; injection E as _ <-; reflexivity. }
  split. { exists (ci_failSafePercent (dl_pid lf_json "step")). rewrite lf_percents. split; [|vm_compute; reflexivity].
    split. { exists (ci_failSafePercent (dl_pid lf_json "step")). split; [left; reflexivity|vm_compute; reflexivity]. }
    intros x [<-|[]] _. vm_compute. reflexivity. }
  split; vm_compute; reflexivity.
Qed.
