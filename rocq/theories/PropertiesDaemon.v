(** * Properties C90-C94: the whole life of the daemon.

    Vocabulary: SpecDaemon.v, with SpecStart.v, SpecSystem.v, SpecRange.v, SpecMain.v
    and SpecReload.v.  Proofs: DaemonProofs.v to DaemonProofs5.v. *)
From Coq Require Import ZArith Bool List String Lia Permutation.
From Verif Require Import Base BaseFacts PathProofs Dbl PidModel SpecPid ZoneModel LoopModel ZoneProofs BuilderModel SpecBuilder
  PropertiesZone PropertiesBuilder PropertiesSensor PropertiesSystem
  JsonModel SpecJson SpecJsonSystem JsonProofs JsonSystemProofs PropertiesJson ConfigModel DbusConfigModel SpecDbus SpecDbusSystem
  ExamplesDbus PropertiesDbus SensorModel SpecSensor WriteModel SystemModel SpecSystem SpecRange LogModel MainModel SpecMain ReloadModel SpecReload
  BuilderProofs SystemProofs StartModel SpecStart StartProofs PropertiesStart DaemonModel SpecDaemon DaemonProofs DaemonProofs2 DaemonProofs3 DaemonProofs4 DaemonProofs5.
Import ListNotations.
Local Open Scope string_scope.

(** ** C90 *)

(** Whatever reloads, signals and messages there have been: as long as the daemon
    lives, every live loop drives a zone of the system, and either there is no zone,
    or the zones are those of the configuration read at the last start and the system
    is as C61 to C64 and C80 describe it for what has reached it since. *)
Theorem C90_running_system : forall f sf pow10 re named first devices evs d,
  Forall ordered evs -> calm f sf pow10 re named evs (daemon_init first devices) ->
  daemon_run f sf pow10 re named evs (daemon_init first devices) = Ok d -> going d ->
  incl (live (dm_main d)) (dm_ids d) /\
  (dm_ids d = [] /\ sy_loops (dm_sys d) = [] \/ running f sf pow10 re named (daemon_init first devices) evs d).
Proof. exact C90_lemma. Qed.
Print Assumptions C90_running_system.

(** A start, two wake-ups, SIGHUP: the loops are stopped, and started anew. *)
Definition dl_w : surroundings := st_w (st_disk [st_installed] [] (Document jx_json)).
Definition dl_init : daemon := daemon_init None sys_devs.
Definition dl_run (evs : list daemon_ev) : outcome daemon := daemon_run ex_flags ex_sf ex_pow dx_regex "" evs dl_init.
Definition dl_after (evs : list daemon_ev) : daemon := get_ok dl_init (dl_run evs).
Definition dl_wake (w : surroundings) (g : nat) (t : Z) : list daemon_ev := [DMove (VLoopExpire (1%Z, g)); DRun w (sys_wake t)].
Definition dl_reload (w : surroundings) : list daemon_ev :=
  [DMove VHup; DMove (VWait 1000); DMove VHupExpire; DMove VHandler; DRun w (sys_wake 0); DRun w (sys_wake 0); DMove VRetry;
   DRun w (sys_wake 0)].
Definition dl_life (w : surroundings) : list daemon_ev :=
  (DRun w (sys_wake 0) :: DSys host_up :: dl_wake w 1 100 ++ dl_reload w ++ dl_wake w 2 200)%list.

(** [P] holds at every moment: a check. *)
Fixpoint checked (f : flags) (P : daemon -> bool) (evs : list daemon_ev) (d : daemon) : bool :=
  P d && match evs with
         | [] => true
         | e :: r => match daemon_step f ex_sf ex_pow dx_regex "" d e with Ok d1 => checked f P r d1 | _ => true end
         end.
Lemma checked_throughout f (P : daemon -> bool) (Q : daemon -> Prop) evs : (forall d, P d = true -> Q d) ->
  forall d, checked f P evs d = true -> throughout f ex_sf ex_pow dx_regex "" Q evs d.
Proof.
  intros PQ. induction evs as [|e r IH]; intros d H pre post d' E R; cbn [checked] in H; apply andb_prop in H; destruct H as (H1 & H2).
  - symmetry in E. apply app_eq_nil in E. destruct E as (-> & _). injection R as <-. auto.
  - destruct pre as [|e' pre]; [injection R as <-; auto|]. injection E as <- E. unfold daemon_run in R. cbn [foldM] in R.
    apply bind_ok in R. destruct R as (d1 & R1 & R). rewrite R1 in H2. exact (IH _ H2 pre post d' E R).
Qed.
Definition apart (d : daemon) : bool := (List.length (filter is_attempt (m_ready (dm_main d))) <=? 1)%nat.
Lemma dl_calm evs : checked ex_flags apart evs dl_init = true -> calm ex_flags ex_sf ex_pow dx_regex "" evs dl_init.
Proof. intros H. left. apply (checked_throughout ex_flags apart); [|exact H]. intros d X. apply Nat.leb_le. exact X. Qed.

Lemma dl_ordered dk : Forall ordered (dl_life (st_w dk)).
Proof. repeat constructor; intros w k E; try discriminate E; injection E as <- _; apply st_order. Qed.
Example C90_example :
  Forall ordered (dl_life dl_w) /\ calm ex_flags ex_sf ex_pow dx_regex "" (dl_life dl_w) dl_init /\
  dl_run (dl_life dl_w) = Ok (dl_after (dl_life dl_w)) /\ m_stopped (dm_main (dl_after (dl_life dl_w))) = false /\
  dm_ids (dl_after (dl_life dl_w)) = [(1%Z, 2)] /\ live (dm_main (dl_after (dl_life dl_w))) = [(1%Z, 2)] /\
  loop_starts (dl_after (dl_life dl_w)) = [MStarted (1%Z, 1); MStarted (1%Z, 2)] /\
  sy_devices (dm_sys (dl_after (dl_life dl_w))) = [("/sys/hwmon/pwm1", 7%Z); ("/sys/pwm1", 255%Z)].
Proof.
  split; [apply dl_ordered|]. split; [apply dl_calm; vm_compute; reflexivity|].
  split; [apply get_ok_eq; vm_compute; reflexivity|].
  repeat match goal with |- _ /\ _ => split end; vm_compute; reflexivity.
Qed.

(** The daemon's idea of the host survives reloads: it is what the host told last. *)
Theorem C90_host_state : forall f sf pow10 re named first devices evs d,
  daemon_run f sf pow10 re named evs (daemon_init first devices) = Ok d -> going d ->
  (sy_power (dm_sys d) = true <-> host_on first (host_changes (messages evs))).
Proof. intros f sf pow10 re named. exact (C90_host_lemma f sf pow10 re named). Qed.
Print Assumptions C90_host_state.

(** In the life above the host comes up before the reload. *)
Example C90_host_example : let d := dl_after (dl_life dl_w) in
  host_changes (messages (dl_life dl_w)) <> [] /\ sy_power (dm_sys d) = true /\ sy_power (dm_sys dl_init) = false.
Proof.
  intros d. split; [vm_compute; discriminate|]. split; vm_compute; reflexivity.
Qed.

(** ** C91 *)

(** Only cycles of control loops write to fans: reloads, failing starts, signals and
    the end of the daemon leave every device as it is.  (Compiled without
    OFFLINE_FAILSAFE_PWM.)  For every state. *)
Theorem C91_only_cycles_write : forall f sf pow10 re named d evs d1,
  OFFLINE_FAILSAFE_PWM f = false -> daemon_run f sf pow10 re named evs d = Ok d1 ->
  (forall pre w k post d', evs = (pre ++ DRun w k :: post)%list -> daemon_run f sf pow10 re named pre d = Ok d' ->
     forall i, ~ next_is (OLoop i false) d') ->
  sy_devices (dm_sys d1) = sy_devices (dm_sys d).
Proof. intros f sf pow10 re named d evs d1. exact (C91_lemma f sf pow10 re named evs d d1). Qed.
Print Assumptions C91_only_cycles_write.

(** The start, a reload and the end after the first wake-up. *)
Definition no_loop_next (d : daemon) : bool :=
  match m_ready (dm_main d) with OLoop _ false :: _ => false | _ => true end.
Definition dl_before : list daemon_ev := DRun dl_w (sys_wake 0) :: DSys host_up :: dl_wake dl_w 1 100.
Definition dl_rest : list daemon_ev := (dl_reload dl_w ++ [DMove VTerm; DRun dl_w (sys_wake 0); DRun dl_w (sys_wake 0); DMove VTermRetry; DRun dl_w (sys_wake 0)])%list.
Lemma dl_split a b d e : dl_run a = Ok d -> dl_run (a ++ b) = Ok e -> daemon_run ex_flags ex_sf ex_pow dx_regex "" b d = Ok e.
Proof. unfold dl_run, daemon_run. intros Hd H. rewrite foldM_app, Hd in H. exact H. Qed.
Example C91_example : let d := dl_after dl_before in
  OFFLINE_FAILSAFE_PWM ex_flags = false /\
  daemon_run ex_flags ex_sf ex_pow dx_regex "" dl_rest d = Ok (dl_after (dl_before ++ dl_rest)) /\
  (forall pre w k post d', dl_rest = (pre ++ DRun w k :: post)%list -> daemon_run ex_flags ex_sf ex_pow dx_regex "" pre d = Ok d' ->
     forall i, ~ next_is (OLoop i false) d') /\
  sy_devices (dm_sys d) = [("/sys/hwmon/pwm1", 7%Z); ("/sys/pwm1", 255%Z)] /\
  loop_starts (dl_after (dl_before ++ dl_rest)) = [MStarted (1%Z, 1); MStarted (1%Z, 2)] /\
  m_stopped (dm_main (dl_after (dl_before ++ dl_rest))) = true.
Proof.
  intros d. split; [reflexivity|].
  assert (Hd : dl_run dl_before = Ok d) by (apply get_ok_eq; vm_compute; reflexivity). split; [|split; [|split; [|split]]].
  - assert (H : dl_run (dl_before ++ dl_rest) = Ok (dl_after (dl_before ++ dl_rest))) by (apply get_ok_eq; vm_compute; reflexivity).
    exact (dl_split _ _ _ _ Hd H).
  - assert (T : throughout ex_flags ex_sf ex_pow dx_regex "" (fun d => no_loop_next d = true) dl_rest d).
    { apply (checked_throughout ex_flags no_loop_next); [auto|]. vm_compute. reflexivity. }
    intros pre w k post d' E R i (r & N). specialize (T pre _ d' E R). cbn beta in T. unfold no_loop_next in T. rewrite N in T. discriminate T.
  - vm_compute. reflexivity.
  - vm_compute. reflexivity.
  - vm_compute. reflexivity.
Qed.

(** ** C92 *)

(** A life in which messages are well-formed, files hold numbers and every
    configuration found names sensors that are there has no undefined behaviour but
    the conversion of an absurd command to an integer (with OFFLINE_FAILSAFE_PWM: if
    all fans are driven over D-Bus, see C95_sysfs_refuted) ... *)
Theorem C92_no_undefined_behaviour : forall f sf pow10 re named F first devices evs,
  (OFFLINE_FAILSAFE_PWM f = true -> Forall (bus_fans sf re named) evs) -> Forall (no_accident f sf re named F) evs ->
  calm f sf pow10 re named evs (daemon_init first devices) ->
  returns_or_bad_command (daemon_run f sf pow10 re named evs (daemon_init first devices)).
Proof. intros f sf pow10 re named. exact (C92_lemma f sf pow10 re named). Qed.
Print Assumptions C92_no_undefined_behaviour.

(** ... and only SIGTERM, a bad file or a configuration without zones ends it. *)
Theorem C92_what_ends_it : forall f sf pow10 re named F first devices evs d,
  (OFFLINE_FAILSAFE_PWM f = true -> Forall (bus_fans sf re named) evs) -> Forall (no_accident f sf re named F) evs ->
  calm f sf pow10 re named evs (daemon_init first devices) ->
  daemon_run f sf pow10 re named evs (daemon_init first devices) = Ok d -> ended (dm_reload d) ->
  In (DMove VTerm) evs \/ exists w k, In (DRun w k) evs /\ hopeless sf re named w.
Proof. intros f sf pow10 re named. exact (C92_end_lemma f sf pow10 re named). Qed.
Print Assumptions C92_what_ends_it.

Definition dl_files (p : string) : Prop := True.
Lemma read_document sf re named dk cb p j c : file_used named dk p -> dk_content dk p = Document j -> load_json j = Ok c ->
  read_configuration sf re named dk cb = Ok (Loaded c).
Proof. intros U D E. rewrite read_chosen, (chosen_used _ _ _ U). cbn [bind fst snd]. unfold load_file. rewrite D, E. reflexivity. Qed.
Lemma dl_read : read_configuration ex_sf dx_regex "" (su_disk dl_w) (su_config dl_w) = Ok (Loaded (jx_loaded jx_json)).
Proof. apply (read_document _ _ _ _ _ st_installed jx_json); [apply st_used|reflexivity|]. apply get_ok_eq. vm_compute. reflexivity. Qed.
Lemma dl_sound : start_sound ex_flags ex_sf dx_regex "" dl_files dl_w.
Proof.
  split; [apply st_order|]. split; [intros m; rewrite dl_read; discriminate|]. intros c E. rewrite dl_read in E. injection E as <-.
  split; [|split; [apply st_served|]].
  - destruct C68_example as (D & T & _). destruct (C65_lemma _ _ _ D) as (c & Ec & W).
    assert (Ej : load_json jx_json = Ok (jx_loaded jx_json)) by (apply get_ok_eq; vm_compute; reflexivity).
    rewrite Ej in Ec. injection Ec as <-. exact (served_config _ _ _ W T).
  - intros n info p _ _ _. exact Logic.I.
Qed.
Lemma dl_wake_ok t : wake_ok ex_flags dl_files (sys_wake t).
Proof. split; [intros p _; eexists; reflexivity|]. split; [intros p _; eexists; reflexivity|]. intros X. discriminate X. Qed.
Lemma dl_no_accident : Forall (no_accident ex_flags ex_sf dx_regex "" dl_files) (dl_life dl_w).
Proof.
  assert (R : forall t, no_accident ex_flags ex_sf dx_regex "" dl_files (DRun dl_w (sys_wake t))) by (intros t; split; [apply dl_sound|apply dl_wake_ok]).
  cbn [dl_life dl_wake dl_reload app]. repeat (apply Forall_cons; [first [apply R|exact Logic.I]|]). apply Forall_nil.
Qed.
Example C92_example :
  OFFLINE_FAILSAFE_PWM ex_flags = false /\ Forall (no_accident ex_flags ex_sf dx_regex "" dl_files) (dl_life dl_w) /\
  calm ex_flags ex_sf ex_pow dx_regex "" (dl_life dl_w) dl_init /\
  hopeless ex_sf dx_regex "" (st_w (st_disk [st_installed] [] NotJson)).
Proof.
  split; [reflexivity|]. split; [exact dl_no_accident|]. split; [apply C90_example|]. left. vm_compute. reflexivity.
Qed.

(** ** C93 *)

(** If moreover every configuration found is sensible and sensors report numbers of
    moderate size, every event is dealt with (with OFFLINE_FAILSAFE_PWM: if all fans
    are driven over D-Bus) ... *)
Theorem C93_sensible_life : forall f sf pow10 re named F first devices evs,
  (OFFLINE_FAILSAFE_PWM f = true -> Forall (bus_fans sf re named) evs) ->
  Forall (no_accident f sf re named F) evs -> Forall (sensible sf pow10 re named) evs ->
  calm f sf pow10 re named evs (daemon_init first devices) ->
  exists d, daemon_run f sf pow10 re named evs (daemon_init first devices) = Ok d.
Proof. intros f sf pow10 re named. exact (C93_life_lemma f sf pow10 re named). Qed.
Print Assumptions C93_sensible_life.

(** ... and no device ever holds anything but what it held when the daemon was
    started, or a value in the range of a fan that drives it in a configuration the
    daemon has read. *)
Theorem C93_devices_in_range : forall f sf pow10 re named F first devices evs d,
  (OFFLINE_FAILSAFE_PWM f = true -> Forall (bus_fans sf re named) evs) ->
  Forall (no_accident f sf re named F) evs -> Forall (sensible sf pow10 re named) evs ->
  calm f sf pow10 re named evs (daemon_init first devices) ->
  daemon_run f sf pow10 re named evs (daemon_init first devices) = Ok d ->
  held_in_range sf re named evs devices (sy_devices (dm_sys d)).
Proof. intros f sf pow10 re named. exact (C93_range_lemma f sf pow10 re named). Qed.
Print Assumptions C93_devices_in_range.

(** The life of C90 is like that; one with OFFLINE_FAILSAFE_PWM: C95_sensible_example. *)
Lemma one_entry {A} (l : list (Z * A)) (a : Z) : map fst l = [a] -> exists x, l = [(a, x)] /\ BuilderModel.zget a l = Some x.
Proof.
  destruct l as [|[b x] [|? ?]]; try discriminate. intros E. injection E as ->. exists x. split; [reflexivity|]. cbn. rewrite Z.eqb_refl. reflexivity.
Qed.
Lemma two_entries {A} (l : smap A) a b : a <> b -> map fst l = [a; b] ->
  exists x y, l = [(a, x); (b, y)] /\ mget a l = Some x /\ mget b l = Some y.
Proof.
  intros N. destruct l as [|[a' x] [|[b' y] [|? ?]]]; try discriminate. intros E. injection E as -> ->. exists x, y.
  split; [reflexivity|]. cbn. rewrite !String.eqb_refl. destruct (String.eqb_spec b a); [congruence|]. auto.
Qed.
Definition dl_pid (j : json) (n : string) : ControllerInfo :=
  match jx_pid n (jx_loaded j) with Some i => i | None => PropertiesBuilder.ex_info "" [] 0 end.
Definition dl_zone (j : json) : ZoneConfig :=
  match BuilderModel.zget 1%Z (l_zones (jx_loaded j)) with Some z => z | None => MkZoneConfig (D 0) (D 0) 0 0 false end.
Definition dl_sensor (j : json) (n : string) : SensorConfig :=
  match mget n (l_sensors (jx_loaded j)) with Some i => i | None => MkSensorConfig "" "" "" 0 0 0 false false false end.
Lemma dl_shape j :
  map fst (l_pids (jx_loaded j)) = [1%Z] -> map (fun e => map fst (snd e)) (l_pids (jx_loaded j)) = [["fans"; "step"]] ->
  map fst (l_zones (jx_loaded j)) = [1%Z] -> map fst (l_sensors (jx_loaded j)) = ["fan1"; "temp1"] ->
  l_pids (jx_loaded j) = [(1%Z, [("fans", dl_pid j "fans"); ("step", dl_pid j "step")])] /\
  l_zones (jx_loaded j) = [(1%Z, dl_zone j)] /\
  l_sensors (jx_loaded j) = [("fan1", dl_sensor j "fan1"); ("temp1", dl_sensor j "temp1")].
Proof.
  intros H1 H2 H3 H4. split; [|split].
  - destruct (one_entry _ _ H1) as (x & E & G).
    destruct (two_entries x "fans" "step") as (y & z & Ex & G1 & G2); [discriminate| |].
    { rewrite E in H2. injection H2 as K. exact K. }
    unfold dl_pid, jx_pid. rewrite G, G1, G2. rewrite E, Ex. reflexivity.
  - destruct (one_entry _ _ H3) as (x & E & G). unfold dl_zone. rewrite G. exact E.
  - destruct (two_entries (l_sensors (jx_loaded j)) "fan1" "temp1") as (y & z & Ex & G1 & G2); [discriminate|exact H4|].
    unfold dl_sensor. rewrite G1, G2. exact Ex.
Qed.
Ltac small := unfold mag_le; repeat match goal with |- _ /\ _ => split end; vm_compute; reflexivity.
Ltac sensible_document := constructor;
  [ intros id pids [E|[]]; injection E as <- <-; split; [|vm_compute; discriminate];
    intros e [<-|[<-|[]]]; (split; [intros X|split; [intros X|split; [intros X|]]]); try (match goal with Y : _ |- _ => vm_compute in Y; discriminate Y end);
    [ constructor; unfold bounded_cfg, limits_ordered, sane_slew, SpecRange.percent_ok, mag_le;
        repeat match goal with |- _ /\ _ => split | |- Forall _ _ => constructor end; vm_compute; reflexivity
    | split; vm_compute; reflexivity
    | let i := fresh "i" in let Hi := fresh "Hi" in
      intros i Hi; unfold maxStepwisePoints in Hi; do 20 (destruct i as [|i]; [vm_compute; discriminate|]); lia
    | split; vm_compute; reflexivity ]
  | let Hc := fresh "Hc" in intros id pids c [E|[]] Hc; injection E as <- <-; cbn in Hc; injection Hc as <-; split; [small|]; split; vm_compute; reflexivity
  | intros n info [E|[E|[]]] T _; injection E as <- <-; [|vm_compute in T; discriminate T]; split; [|split]; vm_compute; discriminate
  | split; [small|]; intros n info i [E|[E|[]]] T _ (props & Ep & _ & Ev & Es & _); injection E as <- <-; [|vm_compute in T; discriminate T];
    cbn in Ep; injection Ep as <-; split; [small|]; rewrite Ev; intros _; small ].
Lemma jx_shape : l_pids (jx_loaded jx_json) = [(1%Z, [("fans", dl_pid jx_json "fans"); ("step", dl_pid jx_json "step")])] /\
  l_zones (jx_loaded jx_json) = [(1%Z, dl_zone jx_json)] /\
  l_sensors (jx_loaded jx_json) = [("fan1", dl_sensor jx_json "fan1"); ("temp1", dl_sensor jx_json "temp1")].
Proof. apply dl_shape; vm_compute; reflexivity. Qed.
Lemma dl_setup : sensible_setup ex_sf ex_pow sys_bus (l_sensors (jx_loaded jx_json)) (l_pids (jx_loaded jx_json)) (l_zones (jx_loaded jx_json)).
Proof. destruct jx_shape as (-> & -> & ->). sensible_document. Qed.
Example C93_example : Forall (sensible ex_sf ex_pow dx_regex "") (dl_life dl_w).
Proof.
  assert (Fs : forall p, modest_file (sys_files p)).
  { intros p. cbn. destruct (String.eqb p "/sys/hwmon/temp0"); vm_compute; discriminate. }
  assert (R : forall t, sensible ex_sf ex_pow dx_regex "" (DRun dl_w (sys_wake t))).
  { intros t. split; [split; [exact Fs|split; [exact Fs|split; exact Logic.I]]|]. intros c E. rewrite dl_read in E. injection E as <-.
    split; [exact dl_setup|]. intros z. split; [exact Fs|split; exact Logic.I]. }
  cbn [dl_life dl_wake dl_reload app]. repeat (apply Forall_cons; [first [exact Logic.I|apply R]|]). apply Forall_nil.
Qed.

(** ** C94 *)

(** A reload puts the configuration it finds into force - unless handlers of the old
    loops are still outstanding, and then it is tried again - if the configuration is
    usable and none of its external sensors has the object of an earlier one ... *)
Theorem C94_reload_resumes : forall f sf pow10 re named first devices evs d w k c,
  stops_well f sf pow10 re named evs -> Forall ordered evs -> calm f sf pow10 re named evs (daemon_init first devices) ->
  daemon_run f sf pow10 re named evs (daemon_init first devices) = Ok d -> going d -> next_is (ORestart false) d ->
  read_configuration sf re named (su_disk w) (su_config w) = Ok (Loaded c) -> usable_configuration f sf pow10 w c ->
  new_objects sf re named c evs ->
  exists d1, daemon_step f sf pow10 re named d (DRun w k) = Ok d1 /\ m_stopped (dm_main d1) = false /\
    (~ no_loop_handler d /\ dm_ids d1 = dm_ids d /\ m_rtimer (dm_main d1) = true \/
     Permutation (map fst (dm_ids d1)) (map fst (l_pids c)) /\ live (dm_main d1) = dm_ids d1 /\
     List.length (sy_loops (dm_sys d1)) = List.length (dm_ids d1)).
Proof. intros f sf pow10 re named first devices evs d w k c. exact (C94_resumes_lemma f sf pow10 re named first devices evs d w k c). Qed.
Print Assumptions C94_reload_resumes.

Definition dl_pending : list daemon_ev := (dl_before ++ [DMove VHup; DMove (VWait 1000); DMove VHupExpire; DMove VHandler])%list.
Definition dl_retried : list daemon_ev := (dl_pending ++ [DRun dl_w (sys_wake 0); DRun dl_w (sys_wake 0); DMove VRetry])%list.
Lemma dl_usable : usable_configuration ex_flags ex_sf ex_pow dl_w (jx_loaded jx_json).
Proof.
  assert (B : exists m, buildSensors ex_sf ex_pow sys_bus (l_sensors (jx_loaded jx_json)) = Ok m) by (eexists; apply (get_ok_eq []); vm_compute; reflexivity).
  apply C60_fails_lemma in B. destruct B as (B & O). split; [exact B|]. split; [exact O|]. split.
  { apply Forall_forall. apply buildZones_returns. eexists. apply (get_ok_eq []). vm_compute. reflexivity. }
  split; [rewrite (proj1 jx_shape); discriminate|]. destruct dl_sound as (Ao & _ & Sd). destruct (Sd _ dl_read) as (Ps & Ss & _).
  split; [exact Ps|]. split; [exact Ss|exact Ao].
Qed.
Definition no_loop_waits (d : daemon) : bool :=
  match m_armed (dm_main d) with [] => forallb (fun o => match o with OLoop _ _ => false | _ => true end) (m_ready (dm_main d)) | _ => false end.
Lemma no_loop_waits_iff d : no_loop_waits d = true -> no_loop_handler d.
Proof.
  unfold no_loop_waits. intros H. split; [destruct (m_armed _); [reflexivity|discriminate H]|].
  intros i b I. destruct (m_armed _); [|discriminate H]. rewrite forallb_forall in H. specialize (H _ I). discriminate H.
Qed.
Definition due (d : daemon) : bool := match m_ready (dm_main d) with ORestart false :: _ => true | _ => false end.
Lemma due_iff d : due d = true -> next_is (ORestart false) d.
Proof. unfold due. destruct (m_ready (dm_main d)) as [|[|[]|] r] eqn:E; try discriminate. intros _. exists r. exact E. Qed.
(** The first attempt finds the loop still waiting, the second one starts anew. *)
Example C94_resumes_example : let d := dl_after dl_pending in let d' := dl_after dl_retried in
  stops_well ex_flags ex_sf ex_pow dx_regex "" dl_retried /\ Forall ordered dl_retried /\ calm ex_flags ex_sf ex_pow dx_regex "" dl_retried dl_init /\
  dl_run dl_pending = Ok d /\ dl_run dl_retried = Ok d' /\ m_stopped (dm_main d') = false /\
  next_is (ORestart false) d /\ next_is (ORestart false) d' /\ no_loop_waits d = false /\ no_loop_handler d' /\
  usable_configuration ex_flags ex_sf ex_pow dl_w (jx_loaded jx_json) /\
  new_objects ex_sf dx_regex "" (jx_loaded jx_json) dl_retried /\
  dm_ids (dl_after (dl_retried ++ [DRun dl_w (sys_wake 0)])) = [(1%Z, 2)].
Proof.
  intros d d'. split; [discriminate|]. split. { repeat constructor; intros w k E; try discriminate E; injection E as <- _; apply st_order. }
  split; [apply dl_calm; vm_compute; reflexivity|]. split; [apply get_ok_eq; vm_compute; reflexivity|].
  split; [apply get_ok_eq; vm_compute; reflexivity|]. split; [vm_compute; reflexivity|].
  split; [apply due_iff; vm_compute; reflexivity|]. split; [apply due_iff; vm_compute; reflexivity|].
  split; [vm_compute; reflexivity|]. split; [apply no_loop_waits_iff; vm_compute; reflexivity|]. split; [exact dl_usable|].
  split; [|vm_compute; reflexivity].
  intros w k c' e e' _ _ I Pu _ _. exfalso. assert (X : exports (l_sensors (jx_loaded jx_json)) = []) by (vm_compute; reflexivity).
  assert (Y : In (sc_readPath (snd e)) (exports (l_sensors (jx_loaded jx_json)))) by (apply in_flat_map; exists e; split; [exact I|apply exported_iff; auto]).
  rewrite X in Y. destruct Y.
Qed.

(** ... but the objects of external sensors stay on the bus: while the configuration
    found has such a sensor that was published before, no reload puts anything into
    force, and the loops that were stopped for it stay stopped.  For every state. *)
Theorem C94_published_sensors_block_reloads : forall f sf pow10 re named p evs d d1,
  In p (dm_exports d) -> Forall (publishes sf re named p) evs -> daemon_run f sf pow10 re named evs d = Ok d1 ->
  In p (dm_exports d1) /\ incl (dm_ids d1) (dm_ids d) /\ loop_starts d1 = loop_starts d.
Proof. intros f sf pow10 re named p evs d d1. exact (C94_lemma f sf pow10 re named p evs d d1). Qed.
Print Assumptions C94_published_sensors_block_reloads.

(** The same document with an external sensor ... *)
Definition ext_path : string := "/xyz/openbmc_project/extsensors/temperature/ext1".
Definition ext_text : sensor_text := MkSensor "ext1" "temp" ext_path None None None None None None None.
Definition ext_json : json :=
  jx_doc (jx_sensors_json ++ [JObj [("name", JStr "ext1"); ("readPath", JStr ext_path); ("type", JStr "temp")]])%list
    [jx_fan_pid_json (JUint 80); jx_step_pid_json jx_readings].
Definition ext_w : surroundings := st_w (st_disk [st_installed] [] (Document ext_json)).
Definition ext_start : list daemon_ev := DRun ext_w (sys_wake 0) :: DSys host_up :: dl_wake ext_w 1 100.
Definition ext_pending : list daemon_ev :=
  (ext_start ++ [DMove VHup; DMove (VWait 1000); DMove VHupExpire; DMove VHandler; DRun ext_w (sys_wake 0); DRun ext_w (sys_wake 0); DMove VRetry])%list.
Definition ext_reloaded : list daemon_ev := (ext_pending ++ [DRun ext_w (sys_wake 0)])%list.
Lemma ext_says : doc_says ext_json [jx_fan_text; jx_temp_text; ext_text] [jx_zone_text].
Proof.
  split; [discriminate|].
  exists (jx_sensors_json ++ [JObj [("name", JStr "ext1"); ("readPath", JStr ext_path); ("type", JStr "temp")]])%list. eexists. split; [|split; [|ex_keys]].
  - unfold jx_sensors_json. repeat apply Forall2_cons; try apply Forall2_nil.
    + do 3 (split; [vm_compute; intuition discriminate|]). ex_keys.
    + do 3 (split; [vm_compute; intuition discriminate|]). ex_keys.
    + do 3 (split; [vm_compute; intuition discriminate|]). ex_keys.
  - apply Forall2_cons; [|apply Forall2_nil].
    split; [vm_compute; intuition discriminate|]. split; [exact Logic.I|]. split; [vm_compute; intuition discriminate|].
    split; [discriminate|]. eexists. split; [|ex_keys].
    apply Forall2_cons; [|apply Forall2_cons; [|apply Forall2_nil]].
    + split; [vm_compute; intuition discriminate|]. eexists. split; [|ex_keys].
      split; [discriminate|]. ex_keys.
    + split; [exact Logic.I|]. eexists. split; [|ex_keys].
      split; [reflexivity|]. eexists (Some _), (Some _). split; [|split; [|ex_keys]].
      * split; [cbn; repeat constructor|]. ex_keys.
      * split; [cbn; repeat constructor|]. ex_keys.
Qed.
Lemma ext_served : text_served [jx_fan_text; jx_temp_text; ext_text] [jx_zone_text].
Proof.
  intros z p [<-|[]] [<-|[<-|[]]].
  - split; [|split; [|intros X; discriminate X]].
    + intros _. split; [discriminate|]. intros n [<-|[]]. exists jx_fan_text. split; [reflexivity|].
      split; [left; reflexivity|left; path_class].
    + intros _ n [<-|[]]. exists jx_fan_text. split; reflexivity.
  - split; [|split; [intros X; discriminate X|intros X; discriminate X]].
    intros _. split; [discriminate|]. intros n [<-|[]]. exists jx_temp_text. split; [reflexivity|].
    split; [right; left; reflexivity|left; path_class].
Qed.
Lemma ext_read : read_configuration ex_sf dx_regex "" (su_disk ext_w) (su_config ext_w) = Ok (Loaded (jx_loaded ext_json)).
Proof. apply (read_document _ _ _ _ _ st_installed ext_json); [apply st_used|reflexivity|]. apply get_ok_eq. vm_compute. reflexivity. Qed.
Lemma ext_usable : usable_configuration ex_flags ex_sf ex_pow ext_w (jx_loaded ext_json).
Proof.
  assert (B : exists m, buildSensors ex_sf ex_pow sys_bus (l_sensors (jx_loaded ext_json)) = Ok m) by (eexists; apply (get_ok_eq []); vm_compute; reflexivity).
  apply C60_fails_lemma in B. destruct B as (B & O). split; [exact B|]. split; [exact O|]. split.
  { apply Forall_forall. apply buildZones_returns. eexists. apply (get_ok_eq []). vm_compute. reflexivity. }
  split. { intros E. assert (X : map fst (l_pids (jx_loaded ext_json)) = [1%Z]) by (vm_compute; reflexivity). rewrite E in X. discriminate X. }
  split; [|split; [apply st_served|apply st_order]].
  destruct (C65_lemma _ _ _ ext_says) as (c & Ec & W).
  assert (Ej : load_json ext_json = Ok (jx_loaded ext_json)) by (apply get_ok_eq; vm_compute; reflexivity).
  rewrite Ej in Ec. injection Ec as <-. exact (served_config _ _ _ W ext_served).
Qed.
Lemma ext_ordered : Forall ordered ext_pending.
Proof. repeat constructor; intros w k E; try discriminate E; injection E as <- _; apply st_order. Qed.
Lemma dl_run_app a b d : dl_run a = Ok d -> dl_run (a ++ b) = daemon_run ex_flags ex_sf ex_pow dx_regex "" b d.
Proof. unfold dl_run, daemon_run. intros Hd. rewrite foldM_app, Hd. reflexivity. Qed.
Lemma dl_one a e d d1 : dl_run a = Ok d -> dl_run (a ++ [e]) = Ok d1 -> daemon_step ex_flags ex_sf ex_pow dx_regex "" d e = Ok d1.
Proof.
  intros H H1. rewrite (dl_run_app _ _ _ H) in H1. unfold daemon_run in H1. cbn [foldM] in H1. apply bind_ok in H1.
  destruct H1 as (x & H1 & E). injection E as ->. exact H1.
Qed.
Lemma dl_run_def a d : dl_run a = Ok d -> daemon_run ex_flags ex_sf ex_pow dx_regex "" a (daemon_init None sys_devs) = Ok d.
Proof. intros H. exact H. Qed.
Lemma dl_next a e b d d1 : b = (a ++ [e])%list -> dl_run a = Ok d -> dl_run b = Ok d1 -> daemon_step ex_flags ex_sf ex_pow dx_regex "" d e = Ok d1.
Proof. intros ->. apply dl_one. Qed.
(** ... runs at first; but after SIGHUP nothing drives the fans any more: [new_objects]
    is needed. *)
Theorem C94_reload_refuted : exists evs d d1 w k c,
  Forall ordered evs /\ calm ex_flags ex_sf ex_pow dx_regex "" evs (daemon_init None sys_devs) /\
  daemon_run ex_flags ex_sf ex_pow dx_regex "" evs (daemon_init None sys_devs) = Ok d /\
  m_stopped (dm_main d) = false /\ next_is (ORestart false) d /\ no_loop_handler d /\
  read_configuration ex_sf dx_regex "" (su_disk w) (su_config w) = Ok (Loaded c) /\ usable_configuration ex_flags ex_sf ex_pow w c /\
  (forall x, In x evs -> forall w' k', x = DRun w' k' -> w' = w) /\
  map fst (dm_ids d) = map fst (l_pids c) /\ daemon_step ex_flags ex_sf ex_pow dx_regex "" d (DRun w k) = Ok d1 /\
  m_stopped (dm_main d1) = false /\ dm_ids d1 = [] /\
  (forall more d2, (forall x, In x more -> forall w' k', x = DRun w' k' -> w' = w) ->
     daemon_run ex_flags ex_sf ex_pow dx_regex "" more d1 = Ok d2 -> dm_ids d2 = []).
Proof.
  exists ext_pending, (dl_after ext_pending), (dl_after ext_reloaded), ext_w, (sys_wake 0), (jx_loaded ext_json).
  assert (Hd : dl_run ext_pending = Ok (dl_after ext_pending)) by (apply get_ok_eq; vm_compute; reflexivity).
  assert (H1 : dl_run ext_reloaded = Ok (dl_after ext_reloaded)) by (apply get_ok_eq; vm_compute; reflexivity).
  split; [exact ext_ordered|]. split; [apply dl_calm; vm_compute; reflexivity|]. split; [exact (dl_run_def _ _ Hd)|].
  split; [vm_compute; reflexivity|]. split; [apply due_iff; vm_compute; reflexivity|].
  split; [apply no_loop_waits_iff; vm_compute; reflexivity|]. split; [exact ext_read|]. split; [exact ext_usable|].
  split. { intros x I w' k' ->. unfold ext_pending, ext_start, dl_wake in I. cbn [app In] in I. repeat destruct I as [I|I]; try discriminate I; try (injection I as <- _; reflexivity). destruct I. }
  split; [vm_compute; reflexivity|].
  split; [exact (dl_next _ _ _ _ _ eq_refl Hd H1)|]. split; [vm_compute; reflexivity|].
  assert (E0 : dm_ids (dl_after ext_reloaded) = []) by (vm_compute; reflexivity). split; [exact E0|].
  intros more d2 Hm R.
  assert (Ie : In ext_path (dm_exports (dl_after ext_reloaded))) by (assert (E : dm_exports (dl_after ext_reloaded) = [ext_path]) by (vm_compute; reflexivity); rewrite E; left; reflexivity).
  assert (P : Forall (publishes ex_sf dx_regex "" ext_path) more).
  { apply Forall_forall. intros x I w' k' c -> Er. rewrite (Hm _ I _ _ eq_refl), ext_read in Er. injection Er as <-.
    assert (E : exports (l_sensors (jx_loaded ext_json)) = [ext_path]) by (vm_compute; reflexivity).
    assert (J : In ext_path (exports (l_sensors (jx_loaded ext_json)))) by (rewrite E; left; reflexivity).
    apply in_flat_map in J. destruct J as ((n, info) & J & Jp). apply exported_iff in Jp. destruct Jp as (Pu & Ep).
    exists n, info. split; [exact J|]. split; [exact Pu|]. symmetry. exact Ep. }
  destruct (C94_lemma ex_flags ex_sf ex_pow dx_regex "" ext_path more _ _ Ie P R) as (_ & Inc & _). rewrite E0 in Inc.
  destruct (dm_ids d2) as [|i l]; [reflexivity|]. destruct (Inc i (or_introl eq_refl)).
Qed.
Print Assumptions C94_reload_refuted.
