(** * Properties C87-C89: start-up.

    Vocabulary: SpecStart.v, with SpecJson.v, SpecDbusSystem.v, SpecSystem.v and
    SpecMain.v.  Proofs: StartProofs.v. *)
From Coq Require Import ZArith Bool List String Lia Permutation.
From Verif Require Import Base BaseFacts PathProofs Dbl PidModel ZoneModel LoopModel ZoneProofs BuilderModel SpecBuilder
  PropertiesZone PropertiesBuilder PropertiesSensor PropertiesSystem
  JsonModel SpecJson SpecJsonSystem PropertiesJson ConfigModel DbusConfigModel SpecDbus SpecDbusSystem ExamplesDbus PropertiesDbus
  SensorModel WriteModel SystemModel SpecSystem LogModel MainModel SpecMain StartModel SpecStart StartProofs.
Import ListNotations.
Local Open Scope string_scope.

(** ** C87 *)

(** [old] are the objects that sensors built before have on the bus, [s] is the
    system before; at the start of the daemon there are neither objects nor sensors.
    If the first of the places searched holds a document as in C68, the daemon comes
    up with the zones of the document and keeps running. *)
Theorem C87_document_runs : forall f sf pow10 re named w old s p j sensors zones,
  file_used named (su_disk w) p -> dk_content (su_disk w) p = Document j ->
  doc_says j sensors zones -> text_served sensors zones -> 
  bus_serves sf pow10 (seen old (su_sensors w)) (su_bus_ok w) sensors zones ->
  any_order w -> (forall c, as_written c sensors zones -> start_served f (su_sensors w) (l_sensors c) w) -> sy_loops s = [] ->
  exists c ids s0, as_written c sensors zones /\
    restart f sf pow10 re named w old s = Ok (BZones ids (List.length ids), (exports (l_sensors c), s0)) /\
    Permutation ids (map fst (l_pids c)) /\ loops_of ids s0 /\ left_alone s s0 /\
    forall evs, Forall (served f (su_sensors w) (l_sensors c)) evs -> returns_or_bad_command (sys_run f sf pow10 evs s0).
Proof. exact C87_document_lemma. Qed.
Print Assumptions C87_document_runs.

(** A file that is not a good configuration ends the daemon: neither the next place
    nor the bus is used in its stead. *)
Theorem C87_bad_file_ends : forall f sf pow10 re named w old s p,
  file_used named (su_disk w) p -> bad_content (dk_content (su_disk w) p) ->
  restart f sf pow10 re named w old s = Ok (BExit, (old, s)).
Proof. exact C87_bad_lemma. Qed.
Print Assumptions C87_bad_file_ends.

(** With a file, nothing else counts: not what is in other files, not what
    configuration is on the bus, not where the file was found. *)
Theorem C87_only_the_file_counts : forall f sf pow10 re re' named named' w w' old s p p',
  file_used named (su_disk w) p -> file_used named' (su_disk w') p' ->
  dk_content (su_disk w) p = dk_content (su_disk w') p' -> same_otherwise w w' ->
  restart f sf pow10 re named w old s = restart f sf pow10 re' named' w' old s.
Proof. exact C87_only_lemma. Qed.
Print Assumptions C87_only_the_file_counts.

(** Without a file, the configuration on the bus is used.  Without a PID or without
    a zone on it the daemon waits; otherwise it comes up and keeps running. *)
Theorem C87_bus_runs : forall f sf pow10 re named w old s,
  no_file named (su_disk w) -> complete sf re (su_config w) ->
  daemon_served sf re (su_config w) pow10 (seen old (su_sensors w)) (su_bus_ok w) -> any_order w -> sy_loops s = [] ->
  exists b c, dbus_init sf re (su_config w) = Ok (b, c) /\
    ((l_pids c = [] \/ l_zones c = []) /\ restart f sf pow10 re named w old s = Ok (BNotReady, (old, s)) \/
     l_pids c <> [] /\ l_zones c <> [] /\
     (start_served f (su_sensors w) (l_sensors c) w ->
      exists ids s0, restart f sf pow10 re named w old s =
          Ok (BZones ids (List.length ids), (exports (l_sensors c), s0)) /\
        Permutation ids (map fst (l_pids c)) /\ loops_of ids s0 /\ left_alone s s0 /\
        forall evs, Forall (served f (su_sensors w) (l_sensors c)) evs -> returns_or_bad_command (sys_run f sf pow10 evs s0))).
Proof. exact C87_bus_lemma. Qed.
Print Assumptions C87_bus_runs.

(** A configuration on the bus that cannot be read is an exception, not the end. *)
Theorem C87_bus_failure_is_retried : forall f sf pow10 re named w old s m,
  no_file named (su_disk w) -> dbus_init sf re (su_config w) = Throw m ->
  restart f sf pow10 re named w old s = Ok (BThrow, (old, s)).
Proof. exact C87_bus_fails_lemma. Qed.
Print Assumptions C87_bus_failure_is_retried.

(** A disk with these files, all holding [x], and these directories. *)
Definition mem (l : list string) (p : string) : bool := existsb (String.eqb p) l.
Definition st_disk (files dirs : list string) (x : config_content) : disk :=
  Disk (Some "/home/root") (Some "/tmp") (fun p => Some (mem files p || mem dirs p)) (mem dirs)
    (fun p => if mem files p then Some "/var/log" else None)
    (fun p => if mem files p then x else Unopened).
Definition st_installed : string := "/usr/share/swampd/config.json".
Definition st_w (dk : disk) : surroundings :=
  Surroundings dk (dx_bus dx_objs) sys_bus PropertiesBuilder.ex_bus (Some []) (@rev _) (fun _ => StartIn 0 sys_files ex_tune 0).
(** Before the first start: the host is off. *)
Definition st_new : system := Sys [] [] false [] sys_devs.
Definition st_restart (named : string) (w : surroundings) := restart ex_flags ex_sf ex_pow dx_regex named w [] st_new.
(** The outcome, and how many loops run. *)
Definition st_outcome (named : string) (w : surroundings) : option (build * nat) :=
  match st_restart named w with
  | Ok (b, (_, s)) => Some (b, List.length (sy_loops s))
  | _ => None
  end.

Lemma st_used x : file_used "" (st_disk [st_installed] [] x) st_installed.
Proof.
  exists ["/home/root/config.json"; "/var/lib/swampd/config.json"], ["config.json"]. split; [|split].
  - right. split; [reflexivity|]. exists "/home/root", "/home/root/config.json". split; [reflexivity|].
    split; [right; split; [discriminate|]|split; [right; split; [discriminate|reflexivity]|reflexivity]].
    intros a H. assert (X : ends_with_slash "/home/root" = true) by (apply ends_with_slash_iff; exists a; exact H).
    discriminate X.
  - repeat constructor.
  - reflexivity.
Qed.
Lemma st_order dk : any_order (st_w dk).
Proof. intros l. apply Permutation_sym, Permutation_rev. Qed.
Lemma st_served dk config : start_served ex_flags sys_bus config (st_w dk).
Proof. intros id. split; [intros n info p _ _ _; eexists; reflexivity|intros X; discriminate X]. Qed.

(** (The remaining hypotheses: C68_example.) *)
Example C87_document_example : let w := st_w (st_disk [st_installed] [] (Document jx_json)) in
  file_used "" (su_disk w) st_installed /\ dk_content (su_disk w) st_installed = Document jx_json /\
  any_order w /\ (forall config, start_served ex_flags (su_sensors w) config w) /\
  st_outcome "" w = Some (BZones [1%Z] 1, 1).
Proof.
  intros w. split; [apply st_used|]. split; [reflexivity|]. split; [apply st_order|].
  split; [intros config; apply st_served|]. vm_compute. reflexivity.
Qed.

Example C87_bad_file_example :
  bad_content (dk_content (st_disk [st_installed] [] NotJson) st_installed) /\
  bad_content (dk_content (st_disk [st_installed] [] Unopened) st_installed) /\
  bad_content (dk_content (st_disk [st_installed] [] (Document (JObj []))) st_installed) /\
  st_outcome "" (st_w (st_disk [st_installed] [] NotJson)) = Some (BExit, 0).
Proof.
  split; [right; left; reflexivity|]. split; [left; reflexivity|]. split; [|vm_compute; reflexivity].
  right. right. exists (JObj []). split; [reflexivity|]. split.
  - split; intros s E; discriminate E.
  - intros (ss & zs & E & _). discriminate E.
Qed.

(** Two disks with the same document in different places. *)
Example C87_only_example : let w := st_w (st_disk [st_installed] [] (Document jx_json)) in
  let w' := Surroundings (st_disk ["/a.json"; "/var/lib/swampd/config.json"] [] (Document jx_json)) (dx_bus []) sys_bus PropertiesBuilder.ex_bus
              (Some []) (@rev _) (su_start w) in
  file_used "/a.json" (su_disk w') "/a.json" /\ same_otherwise w w' /\ su_config w <> su_config w' /\
  st_outcome "/a.json" w' = Some (BZones [1%Z] 1, 1).
Proof.
  intros w w'. split; [exists [], []; split; [left; split; [discriminate|reflexivity]|split; [constructor|reflexivity]]|].
  split; [split; [reflexivity|split; [reflexivity|split; [reflexivity|split; reflexivity]]]|].
  split; [|vm_compute; reflexivity].
  intros E. apply (f_equal (fun b => match cb_managed b "em" dx_inv with Some [] => true | _ => false end)) in E. discriminate E.
Qed.

Lemma st_none x : no_file "" (st_disk [] [] x).
Proof.
  destruct (st_used x) as (pre & post & Pl & _).
  exists (pre ++ st_installed :: post)%list. split; [exact Pl|].
  apply Forall_forall. intros p _. reflexivity.
Qed.
(** (The remaining hypotheses: C72_example.) *)
Example C87_bus_example : let w := st_w (st_disk [] [] Unopened) in
  no_file "" (su_disk w) /\ any_order w /\ (forall config, start_served ex_flags (su_sensors w) config w) /\
  st_outcome "" w = Some (BZones [3%Z] 1, 1).
Proof.
  intros w. split; [apply st_none|]. split; [apply st_order|]. split; [intros config; apply st_served|].
  vm_compute. reflexivity.
Qed.
Example C87_bus_fails_example : exists m,
  dbus_init ex_sf dx_regex (ConfigBus None (fun _ _ => None) None (ThresholdBus (fun _ _ => true) (fun _ _ _ => None))) = Throw m.
Proof. eexists. vm_compute. reflexivity. Qed.

(** A file named on the command line that is gone at a reload is not an error.  The
    configuration on the bus is used, and the installed files are not. *)
Theorem C87_missing_named_file_refuted : exists dk named,
  absent dk named /\ present dk st_installed /\ dk_content dk st_installed = Document jx_json /\
  st_outcome named (st_w dk) = Some (BZones [3%Z] 1, 1).
Proof.
  exists (st_disk [st_installed] [] (Document jx_json)), "/etc/fans.json".
  split; [reflexivity|]. split; [reflexivity|]. split; [reflexivity|]. vm_compute. reflexivity.
Qed.
Print Assumptions C87_missing_named_file_refuted.

(** ** C88 *)

(** Any number of attempts to start may fail with an exception.  If the next one
    starts all loops, these are the loops of the system that runs, one per zone, and
    no further attempt is pending.  If it starts only some of them, these keep
    running, and the next attempt is pending. *)
Theorem C88_started : forall f sf pow10 re named k w old s0 ids n ex s1,
  any_order w -> sy_loops s0 = [] -> restart f sf pow10 re named w old s0 = Ok (BZones ids n, (ex, s1)) -> ids <> [] ->
  let s := after_tries k (BZones ids n) in
  m_stopped s = false /\ live s = map (fun i => (i, 1)) (firstn n ids) /\ loops_of (firstn n ids) s1 /\
  (n = List.length ids /\ m_rtimer s = false \/ n < List.length ids /\ m_rtimer s = true).
Proof. exact C88_lemma. Qed.
Print Assumptions C88_started.

(** A bad file and a configuration without zones end the daemon, a bus without a
    configuration leaves it waiting, an exception leads to the next attempt. *)
Theorem C88_not_started : forall k last,
  (last = BExit \/ (exists n, last = BZones [] n) -> m_stopped (after_tries k last) = true) /\
  (last = BNotReady -> idle (after_tries k last)) /\
  (last = BThrow -> m_stopped (after_tries k last) = false /\ live (after_tries k last) = [] /\
     m_rtimer (after_tries k last) = true).
Proof. exact C88_none_lemma. Qed.
Print Assumptions C88_not_started.

(** Started, and stopped short in the first cycle because the input is not a sensor
    of the document. *)
Definition st_unknown : surroundings := st_w (st_disk [st_installed] [] (Document (jx_doc (firstn 1 jx_sensors_json) [jx_step_pid_json jx_readings]))).
Example C88_example :
  st_outcome "" (st_w (st_disk [st_installed] [] (Document jx_json))) = Some (BZones [1%Z] 1, 1) /\
  live (after_tries 3 (BZones [1%Z] 1)) = [(1%Z, 1)] /\
  st_outcome "" st_unknown = Some (BZones [1%Z] 0, 0) /\
  m_rtimer (after_tries 3 (BZones [1%Z] 0)) = true.
Proof.
  split; [vm_compute; reflexivity|]. split; [reflexivity|]. split; [vm_compute; reflexivity|]. reflexivity.
Qed.

(** ** C89 *)

(** The options the daemon runs with: a switch is on if it is given on the command
    line or its flag file is there. *)
Theorem C89_switches : forall cl dk o strict offline,
  cl_log cl <> Some "" -> main_options cl dk = Ok (Some o) ->
  let f := flags_of strict offline o in
  op_configPath o = given (cl_conf cl) /\ STRICT_FAILSAFE_PWM f = strict /\ OFFLINE_FAILSAFE_PWM f = offline /\
  (tuningEnabled f = true <-> cl_tuning cl = true \/ present dk tuning_file) /\
  (debugEnabled f = true <-> cl_debug cl = true \/ present dk debugging_file) /\
  (coreLoggingEnabled (core_of o) = true <-> cl_corelogging cl = true \/ present dk corelogging_file) /\
  (loggingEnabled f = true <-> cl_log cl <> None \/ dk_line dk logging_file <> None) /\
  (loggingEnabled f = true -> exists folder, log_folder cl dk folder /\ loggingPath (core_of o) = folder /\
     forall zone, zone_log_file o zone = Some (folder ++ "/zone_" ++ to_string zone ++ ".log")) /\
  (loggingEnabled f = false -> forall zone, zone_log_file o zone = None).
Proof. exact C89_all_lemma. Qed.
Print Assumptions C89_switches.

(** The command line is refused if a path on it is not of the kind asked for, and
    only then. *)
Theorem C89_refused : forall cl dk,
  main_options cl dk = Ok None <-> ~ (is_file dk (cl_conf cl) /\ is_directory dk (cl_log cl)).
Proof. exact C89_refused_lemma. Qed.
Print Assumptions C89_refused.

Definition st_all : list string := [logging_file; tuning_file; debugging_file; corelogging_file].
Example C89_example :
  main_options (CommandLine None (Some "/mnt") true false false) (st_disk [] ["/mnt"] NotJson) =
    Ok (Some (Options "" "/mnt" true true false false)) /\
  main_options (CommandLine (Some "/a.json") (Some "/mnt") false false false) (st_disk ("/a.json" :: st_all) ["/mnt"; "/var/log"] NotJson) =
    Ok (Some (Options "/a.json" "/var/log" true true true true)) /\
  main_options (CommandLine None None false false false) (st_disk [logging_file] [] NotJson) =
    Ok (Some (Options "" "/tmp" true false false false)) /\
  main_options (CommandLine None (Some "/mnt") false false false) (st_disk ["/mnt"] [] NotJson) = Ok None /\
  zone_log_file (Options "" "/mnt" true true false false) 1 = Some "/mnt/zone_1.log".
Proof. repeat split. Qed.

(** The core log without the other log is written to the root directory. *)
Theorem C89_core_log_refuted : exists cl dk o,
  cl_corelogging cl = true /\ dk_tmp dk = Some "/tmp" /\
  main_options cl dk = Ok (Some o) /\ core_of o = CoreConf true "".
Proof.
  exists (CommandLine None None false false true), (st_disk [] ["/tmp"] NotJson), (Options "" "" false false false true).
  repeat split.
Qed.
Print Assumptions C89_core_log_refuted.

(** A file is accepted as the folder for logs if the flag file names it. *)
Theorem C89_folder_refuted : exists cl dk o,
  main_options cl dk = Ok (Some o) /\ op_loggingEnabled o = true /\ dk_isdir dk (op_loggingPath o) = false.
Proof.
  exists (CommandLine None (Some "/mnt") false false false), (st_disk [logging_file; "/var/log"] ["/mnt"] NotJson),
    (Options "" "/var/log" true false false false). repeat split.
Qed.
Print Assumptions C89_folder_refuted.

(** Without a folder for temporary files the daemon does not start, even if nothing
    is to be logged. *)
Theorem C89_no_temporary_folder_refuted : exists dk m,
  (forall p, In p st_all -> absent dk p /\ dk_line dk p = None) /\
  main_options (CommandLine None None false false false) dk = Throw m.
Proof.
  eexists (Disk (Some "/") None (fun _ => Some false) (fun _ => false) (fun _ => None) (fun _ => Unopened)), _.
  split; [intros p _; split; reflexivity|reflexivity].
Qed.
Print Assumptions C89_no_temporary_folder_refuted.
