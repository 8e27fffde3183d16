(** * Properties C102 and C103: IPMI requests to the running daemon.

    Vocabulary: SpecRemote.v, with SpecDaemon.v, SpecSystem.v and SpecLife.v.  Proofs: RemoteProofs.v. *)
From Coq Require Import ZArith Bool List String Lia.
From Verif Require Import Base BaseFacts Dbl PidModel ZoneModel LoopModel SpecZone ZoneProofs PropertiesZone PropertiesBuilder PropertiesSensor PropertiesSystem
  ExamplesDbus PropertiesDbus ConfigModel SensorModel SpecSensor SpecWrite BuilderModel SpecBuilder SystemModel SpecSystem PathProofs
  JsonModel PropertiesJson DbusConfigModel LogModel MainModel SpecMain ReloadModel SpecReload
  StartModel SpecStart PropertiesStart DaemonModel SpecDaemon PropertiesDaemon SpecStop PropertiesStop SpecLife PropertiesLife
  IpmiModel RemoteModel SpecRemote RemoteProofs RemoteProofs2 RemoteProofs3.
Import ListNotations.
Local Open Scope string_scope.

(** ** C102 *)

(** In an orderly life, for every zone that runs and has a number below 128: asking
    for manual mode gives one byte, which says what was last written to Manual since
    the loops were last started; asking for failsafe gives one byte, which says
    whether a sensor of the zone counts as failing now. *)
Theorem C102_reports_the_zone : forall f sf pow10 re named first devices evs d,
  Forall ordered evs -> calm f sf pow10 re named evs (daemon_init first devices) ->
  daemon_run f sf pow10 re named evs (daemon_init first devices) = Ok d -> going d -> sy_loops (dm_sys d) <> [] ->
  NoDup (running_numbers d) /\
  exists pre w k post da d1,
    evs = (pre ++ DRun w k :: post)%list /\ daemon_run f sf pow10 re named pre (daemon_init first devices) = Ok da /\
    next_is (ORestart false) da /\ daemon_step f sf pow10 re named da (DRun w k) = Ok d1 /\
    loop_stops d1 = (loop_stops da ++ [MStopped])%list /\ loop_stops d = loop_stops d1 /\
    forall i l others sends rest, nth_error (sy_loops (dm_sys d)) i = Some l -> (0 <= z_zoneId (l_zone l) < 128)%Z ->
      let a c := answer others sends d (c :: z_zoneId (l_zone l) :: rest) in
      rp_code (a 0%Z) = Ok 0%Z /\ rp_data (a 0%Z) = Some (if is_manual i (messages post) then 1 else 0)%Z /\
      rp_code (a 2%Z) = Ok 0%Z /\ (rp_data (a 2%Z) = Some 1%Z <-> some_failure (l_zone l)) /\
      (rp_data (a 2%Z) = Some 0%Z <-> ~ some_failure (l_zone l)).
Proof. intros f sf pow10 re named. exact (reports f sf pow10 re named). Qed.
Print Assumptions C102_reports_the_zone.

(** Asked about a zone that does not exist, or after the daemon has ended: refused. *)
Theorem C102_no_such_zone : forall others sends d zone rest,
  (0 <= zone < 128)%Z -> ~ In zone (zone_numbers d) \/ m_stopped (dm_main d) = true ->
  forall c, c = 0%Z \/ c = 2%Z ->
  let a := answer others sends d (c :: zone :: rest) in rp_code a = Ok 193%Z /\ rp_data a = None.
Proof. exact answers_nobody. Qed.
Print Assumptions C102_no_such_zone.

(** The loop of zone 1 ran twice, then manual mode was switched on, and after a
    reload off again. *)
Definition ra_nothing : bus_props := fun _ => None.
Definition ra_sends : string -> bool := fun _ => true.
Definition ra_bytes (d : daemon) (req : list Z) : option Z * bool :=
  let r := answer ra_nothing ra_sends d req in (rp_data r, match rp_code r with Ok 0%Z => true | _ => false end).
Definition ra_life : list daemon_ev := ((lm_start ++ [lm_manual true]) ++ lm_wakes 1 2)%list.
Example C102_reports_example :
  let d := dl_after ra_life in
  Forall ordered ra_life /\ calm ex_flags ex_sf ex_pow dx_regex "" ra_life dl_init /\
  daemon_run ex_flags ex_sf ex_pow dx_regex "" ra_life dl_init = Ok d /\ going d /\ sy_loops (dm_sys d) <> [] /\
  running_numbers d = [1%Z] /\ ra_bytes d [0; 1]%Z = (Some 1%Z, true) /\ ra_bytes d [2; 1]%Z = (Some 1%Z, true) /\
  ~ In 5%Z (zone_numbers d) /\ ra_bytes d [0; 5]%Z = (None, false) /\
  ra_bytes (dl_after lm_life) [0; 1]%Z = (Some 0%Z, true).
Proof.
  intros d. assert (H0 : dl_run ra_life = Ok d) by (apply get_ok_eq; vm_compute; reflexivity).
  split. { unfold ra_life, lm_start, lm_wakes, lm_manual, dl_wake. cbn [seq flat_map app]. repeat constructor; intros w k E; try discriminate E; injection E as <- _; apply st_order. }
  split; [apply dl_calm; vm_compute; reflexivity|]. split; [exact (dl_run_def _ _ H0)|].
  split; [apply still_going; vm_compute; reflexivity|].
  split; [intros X; assert (Y : lm_mode d = []) by (unfold lm_mode; rewrite X; reflexivity); revert Y; vm_compute; discriminate|].
  split; [vm_compute; reflexivity|]. split; [vm_compute; reflexivity|]. split; [vm_compute; reflexivity|].
  split. { assert (E : zone_numbers d = [1%Z; 1%Z]) by (vm_compute; reflexivity). rewrite E. intros [X|[X|[]]]; discriminate X. }
  split; vm_compute; reflexivity.
Qed.

(** A sensor that is failed by what was received since the start (C101) whenever the
    loop runs, over at least the thermal interval: asking for failsafe gives 1. *)
Theorem C102_failing_sensor_is_reported : forall f sf pow10 re named first devices pre w k post mid w' k' da d1 d d2 d3 z i c pids zc
    name info others sends rest,
  Forall ordered (pre ++ DRun w k :: post ++ mid ++ [DRun w' k']) ->
  calm f sf pow10 re named (pre ++ DRun w k :: post ++ mid ++ [DRun w' k']) (daemon_init first devices) ->
  daemon_run f sf pow10 re named pre (daemon_init first devices) = Ok da -> next_is (ORestart false) da -> daemon_step f sf pow10 re named da (DRun w k) = Ok d1 -> loop_stops d1 <> loop_stops da ->
  read_configuration sf re named (su_disk w) (su_config w) = Ok (Loaded c) ->
  daemon_run f sf pow10 re named post d1 = Ok d -> daemon_run f sf pow10 re named mid d = Ok d2 -> next_is (OLoop z false) d2 -> daemon_step f sf pow10 re named d2 (DRun w' k') = Ok d3 -> going d3 -> loop_stops d3 = loop_stops d1 ->
  nth_error (dm_ids d) i = Some z -> In (fst z, pids) (l_pids c) -> zget (fst z) (l_zones c) = Some zc ->
  is_manual i (messages post) = false -> ~ In (DSys (SManual i true)) mid ->
  (1 <= zc_cycleIntervalTimeMS zc <= zc_updateThermalsTimeMS zc)%Z ->
  (zc_updateThermalsTimeMS zc + zc_cycleIntervalTimeMS zc < uint64_mod)%Z ->
  (zc_updateThermalsTimeMS zc <= Z.of_nat (cycles_of z d2 - cycles_of z d) * zc_cycleIntervalTimeMS zc)%Z ->
  In (name, info) (l_sensors c) -> known_type (sc_type info) ->
  listed_by is_fan_pid pids name \/ listed_by is_thermal_pid pids name -> ~ acceptable_in pids name ->
  (forall m1 wi ki m2 dm, (mid ++ [DRun w' k'])%list = (m1 ++ DRun wi ki :: m2)%list -> daemon_run f sf pow10 re named m1 d = Ok dm -> next_is (OLoop z false) dm ->
     let bad := bad_since sf pow10 (seen (dm_exports da) (su_sensors w)) (known_failures w (dm_sys da)) first name info (messages pre) (messages (post ++ m1)) in
     bad (wk_fan_now ki) /\ bad (wk_therm_now ki)) ->
  (0 <= fst z < 128)%Z ->
  let x := answer others sends d3 (2%Z :: fst z :: rest) in rp_code x = Ok 0%Z /\ rp_data x = Some 1%Z.
Proof. intros f sf pow10 re named. exact (failing_reported f sf pow10 re named). Qed.
Print Assumptions C102_failing_sensor_is_reported.

(** The history of [C101_example] meets these hypotheses; before temp1 was polled after its alarm, the
    answer was 0. *)
Example C102_failing_example :
  ra_bytes (dl_after (lf_d1 ++ lf_post)) [2; 1]%Z = (Some 0%Z, true) /\
  ra_bytes (dl_after (((lf_d1 ++ lf_post) ++ lf_mid) ++ [DRun lf_w (sys_wake 2000)])) [2; 1]%Z = (Some 1%Z, true).
Proof. split; vm_compute; reflexivity. Qed.

(** A request to set the mode sends one message with the mode and leaves the daemon
    alone; any other request changes nothing. *)
Theorem C102_set_sends : forall f sf pow10 re named w others sends zone v rest w1,
  (0 <= zone < 128)%Z -> sends (object_of zone) = true ->
  world_step f sf pow10 re named w (WRequest others sends (1%Z :: zone :: v :: rest)) = Ok w1 ->
  wd_daemon w1 = wd_daemon w /\ wd_flight w1 = (wd_flight w ++ [(object_of zone, negb (v =? 0)%Z)])%list.
Proof. intros f sf pow10 re named. exact (set_sends f sf pow10 re named). Qed.
Print Assumptions C102_set_sends.
Theorem C102_queries_change_nothing : forall f sf pow10 re named w others sends req w1,
  (forall rest, req <> 1%Z :: rest) -> world_step f sf pow10 re named w (WRequest others sends req) = Ok w1 ->
  wd_daemon w1 = wd_daemon w /\ wd_flight w1 = wd_flight w.
Proof. intros f sf pow10 re named. exact (queries_send_nothing f sf pow10 re named). Qed.
Print Assumptions C102_queries_change_nothing.

(** When that message has arrived at a running zone, then from then on, as long as the
    daemon goes on, the loops are not stopped and no other such message comes: asking
    for the mode gives what was set; and in manual mode devices that only fans of this
    zone command keep what they hold. *)
Theorem C102_set_takes_effect : forall f sf pow10 re named zone v w i l w1 evs w2 others sends rest,
  (0 <= zone < 128)%Z -> In (object_of zone, v) (wd_flight w) -> NoDup (running_numbers (wd_daemon w)) ->
  nth_error (sy_loops (dm_sys (wd_daemon w))) i = Some l -> z_zoneId (l_zone l) = zone ->
  world_step f sf pow10 re named w (WArrive (object_of zone) v) = Ok w1 -> world_run f sf pow10 re named evs w1 = Ok w2 ->
  m_stopped (dm_main (wd_daemon w2)) = false -> loop_stops (wd_daemon w2) = loop_stops (wd_daemon w1) ->
  (forall b, ~ In (WArrive (object_of zone) b) evs) -> (forall b, ~ In (WDaemon (DSys (SManual i b))) evs) ->
  let a := answer others sends (wd_daemon w2) (0%Z :: zone :: rest) in
  rp_code a = Ok 0%Z /\ rp_data a = Some (if v then 1 else 0)%Z /\
  (v = true -> forall path, only_from i (dm_sys (wd_daemon w1)) path ->
     mget path (sy_devices (dm_sys (wd_daemon w2))) = mget path (sy_devices (dm_sys (wd_daemon w1)))).
Proof. intros f sf pow10 re named. exact (set_takes_effect f sf pow10 re named). Qed.
Print Assumptions C102_set_takes_effect.

(** If only the IPMI handler writes to Manual, a zone is in manual mode only if that
    was asked for: the request has its number and a value that is not 0. *)
Theorem C102_manual_was_requested : forall f sf pow10 re named first devices evs w l,
  Forall only_ipmi evs -> Forall any_start evs ->
  (forall others sends req, In (WRequest others sends req) evs -> bytes req) ->
  world_run f sf pow10 re named evs (world_init first devices) = Ok w ->
  In l (sy_loops (dm_sys (wd_daemon w))) -> z_manualMode (l_zone l) = true ->
  exists others sends v rest, In (WRequest others sends (1%Z :: z_zoneId (l_zone l) :: v :: rest)) evs /\ v <> 0%Z.
Proof. intros f sf pow10 re named. exact (manual_was_requested f sf pow10 re named). Qed.
Print Assumptions C102_manual_was_requested.

(** A start, a request for manual mode in zone 1 (with value 5), its arrival, 12 wake-ups. *)
Definition ra_init : world := world_init None sys_devs.
Definition ra_run (evs : list world_ev) : outcome world := world_run ex_flags ex_sf ex_pow dx_regex "" evs ra_init.
Definition ra_after (evs : list world_ev) : world := get_ok ra_init (ra_run evs).
Definition ra_ask (req : list Z) : world_ev := WRequest ra_nothing ra_sends req.
Definition ra_asked : list world_ev := (map WDaemon lm_start ++ [ra_ask [1; 1; 5]%Z])%list.
Definition ra_arrive : world_ev := WArrive (object_of 1) true.
Definition ra_wakes : list world_ev := map WDaemon (lm_wakes 1 12).
Lemma ra_next a e b w w1 : b = (a ++ [e])%list -> ra_run a = Ok w -> ra_run b = Ok w1 -> world_step ex_flags ex_sf ex_pow dx_regex "" w e = Ok w1.
Proof.
  intros -> H H1. unfold ra_run, world_run in *. rewrite foldM_app, H in H1. cbn [bind foldM] in H1. apply bind_ok in H1.
  destruct H1 as (x & H1 & E). injection E as ->. exact H1.
Qed.
Lemma ra_part a b c w w1 : ra_run a = Ok w -> c = (a ++ b)%list -> ra_run c = Ok w1 -> world_run ex_flags ex_sf ex_pow dx_regex "" b w = Ok w1.
Proof. intros H -> H1. unfold ra_run, world_run in *. rewrite foldM_app, H in H1. exact H1. Qed.
Lemma ra_def a w : ra_run a = Ok w -> world_run ex_flags ex_sf ex_pow dx_regex "" a (world_init None sys_devs) = Ok w.
Proof. intros H. exact H. Qed.
Lemma ra_loop d n b : running_numbers d = [n] -> lm_mode d = [b] -> exists l, nth_error (sy_loops (dm_sys d)) 0 = Some l /\ z_zoneId (l_zone l) = n /\ z_manualMode (l_zone l) = b.
Proof.
  unfold running_numbers, lm_mode. destruct (sy_loops (dm_sys d)) as [|l [|? ?]]; try discriminate.
  intros X Y. injection X as X. injection Y as Y. exists l. auto.
Qed.
Definition is_quiet (e : world_ev) : bool := match e with WDaemon (DSys _) => false | WDaemon _ => true | _ => false end.
Lemma all_quiet evs : forallb is_quiet evs = true -> (forall p b, ~ In (WArrive p b) evs) /\ (forall i b, ~ In (WDaemon (DSys (SManual i b))) evs).
Proof.
  intros H. rewrite forallb_forall in H. split; intros x b I; specialize (H _ I); discriminate H.
Qed.
Example C102_set_example :
  let w := ra_after ra_asked in let w1 := ra_after (ra_asked ++ [ra_arrive]) in let w2 := ra_after ((ra_asked ++ [ra_arrive]) ++ ra_wakes) in
  In (object_of 1, true) (wd_flight w) /\ NoDup (running_numbers (wd_daemon w)) /\
  (exists l, nth_error (sy_loops (dm_sys (wd_daemon w))) 0 = Some l /\ z_zoneId (l_zone l) = 1%Z /\ z_manualMode (l_zone l) = false) /\
  world_step ex_flags ex_sf ex_pow dx_regex "" w ra_arrive = Ok w1 /\ world_run ex_flags ex_sf ex_pow dx_regex "" ra_wakes w1 = Ok w2 /\
  m_stopped (dm_main (wd_daemon w2)) = false /\ loop_stops (wd_daemon w2) = loop_stops (wd_daemon w1) /\
  (forall b, ~ In (WArrive (object_of 1) b) ra_wakes) /\ (forall b, ~ In (WDaemon (DSys (SManual 0 b))) ra_wakes) /\
  only_from 0 (dm_sys (wd_daemon w1)) "/sys/pwm1" /\
  ra_bytes (wd_daemon w) [0; 1]%Z = (Some 0%Z, true) /\ ra_bytes (wd_daemon w2) [0; 1]%Z = (Some 1%Z, true) /\
  mget "/sys/pwm1" (sy_devices (dm_sys (wd_daemon w2))) = None /\
  mget "/sys/pwm1" (sy_devices (dm_sys (wd_daemon (ra_after (ra_asked ++ ra_wakes))))) = Some 255%Z.
Proof.
  intros w w1 w2. assert (H0 : ra_run ra_asked = Ok w) by (apply get_ok_eq; vm_compute; reflexivity).
  assert (H1 : ra_run (ra_asked ++ [ra_arrive]) = Ok w1) by (apply get_ok_eq; vm_compute; reflexivity).
  assert (H2 : ra_run ((ra_asked ++ [ra_arrive]) ++ ra_wakes) = Ok w2) by (apply get_ok_eq; vm_compute; reflexivity).
  split. { assert (E : wd_flight w = [(object_of 1, true)]) by (vm_compute; reflexivity). rewrite E. left. reflexivity. }
  split. { assert (E : running_numbers (wd_daemon w) = [1%Z]) by (vm_compute; reflexivity). rewrite E. constructor; [intros []|constructor]. }
  split; [apply ra_loop; vm_compute; reflexivity|]. split; [exact (ra_next _ _ _ _ _ eq_refl H0 H1)|]. split; [exact (ra_part _ _ _ _ _ H1 eq_refl H2)|].
  split; [vm_compute; reflexivity|]. split; [vm_compute; reflexivity|].
  assert (Q : forallb is_quiet ra_wakes = true) by (vm_compute; reflexivity). destruct (all_quiet _ Q) as (Q1 & Q2).
  split; [exact (Q1 _)|]. split; [exact (Q2 _)|]. split; [apply one_loop; vm_compute; reflexivity|].
  split; [vm_compute; reflexivity|]. split; [vm_compute; reflexivity|]. split; vm_compute; reflexivity.
Qed.

Lemma ra_requests evs : forallb (fun e => match e with WRequest _ _ req => forallb (fun b => (0 <=? b) && (b <? 256))%Z req | _ => true end) evs = true ->
  forall others sends req, In (WRequest others sends req) evs -> bytes req.
Proof.
  intros H o s q I. rewrite forallb_forall in H. specialize (H _ I). cbn in H. rewrite forallb_forall in H.
  apply Forall_forall. intros b J. specialize (H b J). apply andb_true_iff in H. destruct H as (A & B). apply Z.leb_le in A. apply Z.ltb_lt in B. split; assumption.
Qed.
Definition ra_all : list world_ev := ((ra_asked ++ [ra_arrive]) ++ ra_wakes)%list.
Example C102_requested_example :
  let w := ra_after ra_all in
  Forall only_ipmi ra_all /\ Forall any_start ra_all /\
  (forall others sends req, In (WRequest others sends req) ra_all -> bytes req) /\
  world_run ex_flags ex_sf ex_pow dx_regex "" ra_all (world_init None sys_devs) = Ok w /\
  exists l, nth_error (sy_loops (dm_sys (wd_daemon w))) 0 = Some l /\ z_zoneId (l_zone l) = 1%Z /\ z_manualMode (l_zone l) = true.
Proof.
  intros w. assert (H0 : ra_run ra_all = Ok w) by (apply get_ok_eq; vm_compute; reflexivity).
  split. { unfold ra_all, ra_asked, ra_wakes, lm_start, lm_wakes, dl_wake. cbn [seq flat_map app map]. repeat constructor; intros i b E; discriminate E. }
  split. { unfold ra_all, ra_asked, ra_wakes, lm_start, lm_wakes, dl_wake. cbn [seq flat_map app map].
           repeat constructor; intros x E w0 k E'; try discriminate E; injection E as <-; try discriminate E'; injection E' as <- _; apply st_order. }
  split; [apply ra_requests; vm_compute; reflexivity|]. split; [exact (ra_def _ _ H0)|]. apply ra_loop; vm_compute; reflexivity.
Qed.

(** "Success means that the mode is set" does not hold.  The handler does not wait for
    the daemon: a request for a zone that does not exist is answered with success, too ... *)
Theorem C102_success_means_set_refuted : exists evs req w r,
  world_run ex_flags ex_sf ex_pow dx_regex "" evs (world_init None sys_devs) = Ok w /\ sy_loops (dm_sys (wd_daemon w)) <> [] /\
  req = [1; 5; 1]%Z /\ In (req, r) (wd_replies w) /\ rp_code r = Ok 0%Z /\ ~ In 5%Z (zone_numbers (wd_daemon w)).
Proof.
  set (evs := (map WDaemon lm_start ++ [ra_ask [1; 5; 1]%Z])%list). set (w := ra_after evs).
  assert (H0 : ra_run evs = Ok w) by (apply get_ok_eq; vm_compute; reflexivity).
  exists evs, [1; 5; 1]%Z, w, (Reply (Ok 0%Z) None 3 [0; 1; 2]%nat [ZcSet 5 true "Manual"]).
  split; [exact (ra_def _ _ H0)|].
  split. { intros X. assert (Y : lm_mode (wd_daemon w) = []) by (unfold lm_mode; rewrite X; reflexivity). revert Y. vm_compute. discriminate. }
  split; [reflexivity|].
  split. { assert (E : wd_replies w = [([1; 5; 1]%Z, Reply (Ok 0%Z) None 3 [0; 1; 2]%nat [ZcSet 5 true "Manual"])]) by (vm_compute; reflexivity). rewrite E. left. reflexivity. }
  split; [reflexivity|].
  assert (E : zone_numbers (wd_daemon w) = [1%Z; 1%Z]) by (vm_compute; reflexivity). rewrite E. intros [X|[X|[]]]; discriminate X.
Qed.
Print Assumptions C102_success_means_set_refuted.

(** ... and a query made right after a successful request can still show the mode of before. *)
Theorem C102_set_then_ask_refuted : exists evs w r1 r2,
  world_run ex_flags ex_sf ex_pow dx_regex "" (evs ++ [ra_ask [1; 1; 1]; ra_ask [0; 1]]%Z) (world_init None sys_devs) = Ok w /\
  wd_replies w = [([1; 1; 1]%Z, r1); ([0; 1]%Z, r2)] /\ rp_code r1 = Ok 0%Z /\ rp_code r2 = Ok 0%Z /\ rp_data r2 = Some 0%Z.
Proof.
  set (evs := map WDaemon lm_start). set (w := ra_after (evs ++ [ra_ask [1; 1; 1]; ra_ask [0; 1]]%Z)).
  assert (H0 : ra_run (evs ++ [ra_ask [1; 1; 1]; ra_ask [0; 1]]%Z) = Ok w) by (apply get_ok_eq; vm_compute; reflexivity).
  exists evs, w, (Reply (Ok 0%Z) None 3 [0; 1; 2]%nat [ZcSet 1 true "Manual"]), (Reply (Ok 0%Z) (Some 0%Z) 1 [0; 1]%nat [ZcGet 1 "Manual"]).
  split; [exact (ra_def _ _ H0)|]. split; [vm_compute; reflexivity|]. split; [reflexivity|]. split; reflexivity.
Qed.
Print Assumptions C102_set_then_ask_refuted.

(** ** C103 *)

(** After any history of starts and reloads: if all sensors that can put a zone in
    automatic mode into failsafe are well whenever the loop of the zone runs, over at
    least the thermal interval, then the zone is out of failsafe. *)
Theorem C103_recovery_ends_failsafe : forall f sf pow10 re named first devices pre w k post mid w' k' da d1 d d2 d3 z i c pids zc
    others sends rest,
  Forall ordered (pre ++ DRun w k :: post ++ mid ++ [DRun w' k']) ->
  calm f sf pow10 re named (pre ++ DRun w k :: post ++ mid ++ [DRun w' k']) (daemon_init first devices) ->
  daemon_run f sf pow10 re named pre (daemon_init first devices) = Ok da -> next_is (ORestart false) da -> daemon_step f sf pow10 re named da (DRun w k) = Ok d1 -> loop_stops d1 <> loop_stops da ->
  read_configuration sf re named (su_disk w) (su_config w) = Ok (Loaded c) ->
  daemon_run f sf pow10 re named post d1 = Ok d -> daemon_run f sf pow10 re named mid d = Ok d2 -> next_is (OLoop z false) d2 -> daemon_step f sf pow10 re named d2 (DRun w' k') = Ok d3 -> going d3 -> loop_stops d3 = loop_stops d1 ->
  nth_error (dm_ids d) i = Some z -> In (fst z, pids) (l_pids c) -> zget (fst z) (l_zones c) = Some zc ->
  is_manual i (messages post) = false -> ~ In (DSys (SManual i true)) mid ->
  (1 <= zc_cycleIntervalTimeMS zc <= zc_updateThermalsTimeMS zc)%Z ->
  (zc_updateThermalsTimeMS zc + zc_cycleIntervalTimeMS zc < uint64_mod)%Z ->
  (zc_updateThermalsTimeMS zc <= Z.of_nat (cycles_of z d2 - cycles_of z d) * zc_cycleIntervalTimeMS zc)%Z ->
  (forall name, listed_by is_fan_pid pids name \/ listed_by is_thermal_pid pids name -> ~ acceptable_in pids name ->
     exists info, In (name, info) (l_sensors c) /\ known_type (sc_type info) /\
     forall m1 wi ki m2 dm, (mid ++ [DRun w' k'])%list = (m1 ++ DRun wi ki :: m2)%list -> daemon_run f sf pow10 re named m1 d = Ok dm -> next_is (OLoop z false) dm ->
     let well := well_since sf pow10 (seen (dm_exports da) (su_sensors w)) (known_failures w (dm_sys da)) first name info (messages pre) (messages (post ++ m1)) in
     well (wk_fan_now ki) /\ well (wk_therm_now ki)) ->
  (0 <= fst z < 128)%Z ->
  let x := answer others sends d3 (2%Z :: fst z :: rest) in rp_code x = Ok 0%Z /\ rp_data x = Some 0%Z.
Proof. intros f sf pow10 re named. exact (recovered_reported f sf pow10 re named). Qed.
Print Assumptions C103_recovery_ends_failsafe.

(** As in [C101_example], then the alarm of temp1 is withdrawn. *)
Definition rc_off : daemon_ev :=
  DSys (SSignal "/xyz/openbmc_project/sensors/temperature/temp1" (Msg critical_intf [("CriticalAlarmHigh", VBool false)] 5)).
Definition rc_post : list daemon_ev := (lf_post ++ lf_wakes 2 11 ++ [rc_off])%list.
Definition rc_all : list daemon_ev := (lf_pre ++ DRun lf_w (sys_wake 0) :: rc_post ++ lf_mid ++ [DRun lf_w (sys_wake 2000)])%list.
Definition rc_early (e : daemon_ev) : bool :=
  match e with
  | DRun _ k => ((0 <=? wk_fan_now k) && (wk_fan_now k <=? 2000) && (0 <=? wk_therm_now k) && (wk_therm_now k <=? 2000))%Z
  | _ => true
  end.
Lemma early_times evs m1 wi ki m2 : forallb rc_early evs = true -> evs = (m1 ++ DRun wi ki :: m2)%list ->
  (0 <= wk_fan_now ki <= 2000 /\ 0 <= wk_therm_now ki <= 2000)%Z.
Proof. intros F ->. rewrite forallb_app in F. cbn [forallb rc_early] in F. rewrite !andb_true_iff, !Z.leb_le in F. lia. Qed.
Lemma rc_times m1 wi ki m2 : (lf_mid ++ [DRun lf_w (sys_wake 2000)])%list = (m1 ++ DRun wi ki :: m2)%list ->
  (0 <= wk_fan_now ki <= 2000 /\ 0 <= wk_therm_now ki <= 2000)%Z.
Proof. apply early_times. vm_compute. reflexivity. Qed.
Lemma rc_messages m1 wi ki m2 : (lf_mid ++ [DRun lf_w (sys_wake 2000)])%list = (m1 ++ DRun wi ki :: m2)%list ->
  messages (rc_post ++ m1) = messages rc_post.
Proof.
  intros E. assert (M : messages m1 = []).
  { apply (no_messages _ (DRun wi ki :: m2)). rewrite <- E. vm_compute. reflexivity. }
  unfold messages in *. rewrite flat_map_app, M, app_nil_r. reflexivity.
Qed.
Lemma rc_age t now : (0 <= now <= 2000)%Z -> (2 <= Z.quot (now - t) 1000000000)%Z -> t = 0%Z -> False.
Proof. intros H Q ->. rewrite Z.sub_0_r, Z.quot_small in Q; lia. Qed.
Lemma rc_temp m1 wi ki m2 exports now : (lf_mid ++ [DRun lf_w (sys_wake 2000)])%list = (m1 ++ DRun wi ki :: m2)%list -> (0 <= now <= 2000)%Z ->
  well_since ex_sf ex_pow (seen exports sys_bus) [] None "temp1" lf_info (messages lf_pre) (messages (rc_post ++ m1)) now.
Proof.
  intros E T. rewrite (rc_messages _ _ _ _ E).
  assert (P : sc_readPath lf_info = "/xyz/openbmc_project/sensors/temperature/temp1") by (vm_compute; reflexivity).
  assert (Ty : sc_type lf_info = "temp") by (vm_compute; reflexivity).
  assert (O : sc_timeout lf_info = 2%Z) by (vm_compute; reflexivity).
  assert (Hd : heard "/xyz/openbmc_project/sensors/temperature/temp1" (messages rc_post) =
               [Msg critical_intf [("CriticalAlarmHigh", VBool true)] 5; Msg critical_intf [("CriticalAlarmHigh", VBool false)] 5]) by reflexivity.
  assert (Bp : bus_path (sc_readPath lf_info)) by (rewrite P; path_class).
  assert (Ne : ~ external_path (sc_readPath lf_info)) by (rewrite P; path_class).
  split.
  - intros [(_ & B & _)|[(X & _)|(t & U & _ & A)]].
    + unfold bus_failed in B. rewrite P, Ty, Hd in B. cbv zeta in B. destruct B as [(X & _)|[X|(i & (props & Ep & _ & Ev & _ & _ & _ & Av & Al) & _ & B)]].
      * discriminate X.
      * exact X.
      * injection Ep as <-. cbn in Ev, Av, Al. destruct B as [B|[(X & _)|[B|[B|B]]]].
        -- revert B. unfold is_bad. rewrite Ev. vm_compute. discriminate.
        -- discriminate X.
        -- revert B. vm_compute. discriminate.
        -- apply B. unfold is_available. rewrite Av. vm_compute. reflexivity.
        -- apply B. vm_compute. reflexivity.
    + exact (Ne X).
    + rewrite O in A. destruct U as [(_ & _ & U)|(X & _)]; [|exact (Ne X)]. apply (rc_age t now T A). rewrite U, P, Hd. reflexivity.
  - left. exists 0%Z. left. split; [exact Bp|]. split; [intros X; exact X|]. rewrite P, Hd. reflexivity.
Qed.
Lemma rc_fan m1 wi ki m2 exports now : (lf_mid ++ [DRun lf_w (sys_wake 2000)])%list = (m1 ++ DRun wi ki :: m2)%list ->
  well_since ex_sf ex_pow (seen exports sys_bus) [] None "fan1" lf_finfo (messages lf_pre) (messages (rc_post ++ m1)) now.
Proof.
  intros E. rewrite (rc_messages _ _ _ _ E).
  assert (P : sc_readPath lf_finfo = "/xyz/openbmc_project/sensors/fan_tach/fan1") by (vm_compute; reflexivity).
  assert (Ty : sc_type lf_finfo = "fan") by (vm_compute; reflexivity).
  assert (O : sc_timeout lf_finfo = 0%Z) by (vm_compute; reflexivity).
  assert (Hd : heard "/xyz/openbmc_project/sensors/fan_tach/fan1" (messages rc_post) = []) by reflexivity.
  assert (Hr : redundancy_news (messages rc_post) = []) by reflexivity.
  assert (Bp : bus_path (sc_readPath lf_finfo)) by (rewrite P; path_class).
  assert (Ne : ~ external_path (sc_readPath lf_finfo)) by (rewrite P; path_class).
  split.
  - intros [(_ & B & _)|[(X & _)|(t & _ & X & _)]].
    + unfold bus_failed, marked_failed in B. rewrite P, Ty, Hd, Hr in B. cbv zeta in B. destruct B as [(_ & X)|[X|(i & (props & Ep & _ & Ev & _ & _ & _ & Av & Al) & _ & B)]].
      * destruct X as [(s & X & _)|(_ & [])]. discriminate X.
      * exact X.
      * injection Ep as <-. cbn in Ev, Av, Al. destruct B as [B|[(X & _)|[B|[B|B]]]].
        -- revert B. unfold is_bad. rewrite Ev. vm_compute. discriminate.
        -- discriminate X.
        -- revert B. unfold is_alarmed. rewrite Al. vm_compute. discriminate.
        -- apply B. unfold is_available. rewrite Av. vm_compute. reflexivity.
        -- apply B. vm_compute. reflexivity.
    + exact (Ne X).
    + exact (X O).
  - left. exists 0%Z. left. split; [exact Bp|]. split; [intros X; exact X|]. rewrite P, Hd. reflexivity.
Qed.
Example C103_example :
  let da := dl_after lf_pre in let d1 := dl_after lf_d1 in let d := dl_after (lf_d1 ++ rc_post) in
  let d2 := dl_after ((lf_d1 ++ rc_post) ++ lf_mid) in let d3 := dl_after (((lf_d1 ++ rc_post) ++ lf_mid) ++ [DRun lf_w (sys_wake 2000)]) in
  Forall ordered rc_all /\ calm ex_flags ex_sf ex_pow dx_regex "" rc_all dl_init /\
  daemon_run ex_flags ex_sf ex_pow dx_regex "" lf_pre dl_init = Ok da /\ next_is (ORestart false) da /\
  daemon_step ex_flags ex_sf ex_pow dx_regex "" da (DRun lf_w (sys_wake 0)) = Ok d1 /\ loop_stops d1 <> loop_stops da /\
  read_configuration ex_sf dx_regex "" (su_disk lf_w) (su_config lf_w) = Ok (Loaded (jx_loaded lf_json)) /\
  daemon_run ex_flags ex_sf ex_pow dx_regex "" rc_post d1 = Ok d /\ daemon_run ex_flags ex_sf ex_pow dx_regex "" lf_mid d = Ok d2 /\
  next_is (OLoop (1%Z, 2) false) d2 /\ daemon_step ex_flags ex_sf ex_pow dx_regex "" d2 (DRun lf_w (sys_wake 2000)) = Ok d3 /\ going d3 /\
  loop_stops d3 = loop_stops d1 /\ nth_error (dm_ids d) 0 = Some (1%Z, 2) /\
  In (1%Z, lf_pids) (l_pids (jx_loaded lf_json)) /\ zget 1%Z (l_zones (jx_loaded lf_json)) = Some (dl_zone lf_json) /\
  is_manual 0 (messages rc_post) = false /\ ~ In (DSys (SManual 0 true)) lf_mid /\
  (zc_updateThermalsTimeMS (dl_zone lf_json) <= Z.of_nat (cycles_of (1%Z, 2%nat) d2 - cycles_of (1%Z, 2%nat) d) * zc_cycleIntervalTimeMS (dl_zone lf_json))%Z /\
  zc_cycleIntervalTimeMS (dl_zone lf_json) = 100%Z /\ zc_updateThermalsTimeMS (dl_zone lf_json) = 1000%Z /\
  (forall name, listed_by is_fan_pid lf_pids name \/ listed_by is_thermal_pid lf_pids name -> ~ acceptable_in lf_pids name ->
     exists info, In (name, info) (l_sensors (jx_loaded lf_json)) /\ known_type (sc_type info) /\
     forall m1 wi ki m2 dm, (lf_mid ++ [DRun lf_w (sys_wake 2000)])%list = (m1 ++ DRun wi ki :: m2)%list ->
     daemon_run ex_flags ex_sf ex_pow dx_regex "" m1 d = Ok dm -> next_is (OLoop (1%Z, 2) false) dm ->
     let well := well_since ex_sf ex_pow (seen (dm_exports da) (su_sensors lf_w)) (known_failures lf_w (dm_sys da)) None name info
                  (messages lf_pre) (messages (rc_post ++ m1)) in
     well (wk_fan_now ki) /\ well (wk_therm_now ki)) /\
  ra_bytes d [2; 1]%Z = (Some 1%Z, true) /\ ra_bytes d3 [2; 1]%Z = (Some 0%Z, true) /\
  mget "/sys/pwm1" (sy_devices (dm_sys d)) = Some 229%Z /\ mget "/sys/pwm1" (sy_devices (dm_sys d3)) = Some 102%Z.
Proof.
  intros da d1 d d2 d3.
  assert (Ha : dl_run lf_pre = Ok da) by (apply get_ok_eq; vm_compute; reflexivity).
  assert (H1 : dl_run lf_d1 = Ok d1) by (apply get_ok_eq; vm_compute; reflexivity).
  assert (H : dl_run (lf_d1 ++ rc_post) = Ok d) by (apply get_ok_eq; vm_compute; reflexivity).
  assert (H2 : dl_run ((lf_d1 ++ rc_post) ++ lf_mid) = Ok d2) by (apply get_ok_eq; vm_compute; reflexivity).
  assert (H3 : dl_run (((lf_d1 ++ rc_post) ++ lf_mid) ++ [DRun lf_w (sys_wake 2000)]) = Ok d3) by (apply get_ok_eq; vm_compute; reflexivity).
  destruct lf_shape as (Sp & Sz & Ss).
  split. { unfold rc_all, rc_post, lf_pre, lf_post, lf_mid, lf_wakes, lf_alarm, rc_off, dl_wake. cbn [seq flat_map app]. repeat constructor; intros w k E; try discriminate E; injection E as <- _; apply st_order. }
  split; [apply dl_calm; vm_compute; reflexivity|]. split; [exact (dl_run_def _ _ Ha)|].
  split; [apply (ready_first _ _ []); vm_compute; reflexivity|]. split; [exact (dl_next _ _ _ _ _ eq_refl Ha H1)|].
  split; [vm_compute; discriminate|]. split; [exact lf_read|].
  split; [exact (dl_part _ _ _ _ _ H1 eq_refl H)|]. split; [exact (dl_part _ _ _ _ _ H eq_refl H2)|].
  split; [apply (ready_first _ _ []); vm_compute; reflexivity|]. split; [exact (dl_next _ _ _ _ _ eq_refl H2 H3)|].
  split; [apply still_going; vm_compute; reflexivity|]. split; [vm_compute; reflexivity|]. split; [vm_compute; reflexivity|].
  split; [rewrite Sp; left; reflexivity|]. split; [rewrite Sz; reflexivity|].
  split; [vm_compute; reflexivity|]. split; [apply none_manual; vm_compute; reflexivity|].
  split; [vm_compute; discriminate|]. split; [vm_compute; reflexivity|]. split; [vm_compute; reflexivity|].
  split.
  { intros name Li _. assert (X : name = "fan1" \/ name = "temp1").
    { assert (N1 : names_of ("fans", dl_pid lf_json "fans") = ["fan1"]) by (vm_compute; reflexivity).
      assert (N2 : names_of ("step", dl_pid lf_json "step") = ["temp1"]) by (vm_compute; reflexivity).
      assert (Y : exists e, In e lf_pids /\ In name (names_of e)) by (destruct Li as [(e & I1 & _ & I2)|(e & I1 & _ & I2)]; exists e; auto).
      destruct Y as (e & [<-|[<-|[]]] & Y); [rewrite N1 in Y|rewrite N2 in Y]; destruct Y as [<-|[]]; auto. }
    destruct X as [-> | ->].
    - exists lf_finfo. split; [rewrite Ss; left; reflexivity|]. split; [vm_compute; auto|].
      intros m1 wi ki m2 dm E _ _. split; apply (rc_fan _ _ _ _ _ _ E).
    - exists lf_info. split; [rewrite Ss; right; left; reflexivity|]. split; [vm_compute; auto|].
      intros m1 wi ki m2 dm E _ _. destruct (rc_times _ _ _ _ E) as (T1 & T2). split; [apply (rc_temp _ _ _ _ _ _ E T1)|apply (rc_temp _ _ _ _ _ _ E T2)]. }
  split; [vm_compute; reflexivity|]. split; [vm_compute; reflexivity|]. split; vm_compute; reflexivity.
Qed.
