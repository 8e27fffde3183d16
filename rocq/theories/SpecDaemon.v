(** * Vocabulary for the properties of the whole daemon. *)
From Coq Require Import ZArith Bool List String Permutation.
From Verif Require Import Base Dbl ZoneModel LoopModel ConfigModel SensorModel SystemModel WriteModel SpecSystem SpecWrite SpecBuilder JsonModel DbusConfigModel
  MainModel SpecMain ReloadModel SpecReload StartModel SpecStart SpecRange DaemonModel.
Import ListNotations.
Local Open Scope string_scope.

(** ** Executions *)

(** The daemon has not ended. *)
Definition going (d : daemon) : Prop := ~ ended (dm_reload d).
(** The handler that runs next. *)
Definition next_is (o : op) (d : daemon) : Prop := exists r, m_ready (dm_main d) = o :: r.

(** Zones may be started in any order. *)
Definition ordered (e : daemon_ev) : Prop := forall w k, e = DRun w k -> any_order w.

(** At every moment at most one attempt to restart or to end is queued; at every
    moment there is at most one zone.  (Without either: C45.) *)
Definition attempts_apart (d : daemon) : Prop := (List.length (filter is_attempt (m_ready (dm_main d))) <= 1)%nat.
Definition one_zone_only (d : daemon) : Prop := (List.length (m_zones (dm_main d)) <= 1)%nat.
(** [P] at every moment of the execution. *)
Definition throughout (f : flags) (sf : sflags) (pow10 : Z -> dbl) (re : regex) (named : string) (P : daemon -> Prop)
    (evs : list daemon_ev) (d0 : daemon) : Prop :=
  forall pre post d, evs = (pre ++ post)%list -> daemon_run f sf pow10 re named pre d0 = Ok d -> P d.
Definition calm (f : flags) (sf : sflags) (pow10 : Z -> dbl) (re : regex) (named : string)
    (evs : list daemon_ev) (d0 : daemon) : Prop :=
  throughout f sf pow10 re named attempts_apart evs d0 \/ throughout f sf pow10 re named one_zone_only evs d0.

(** ** What reaches the system *)

(** Anything but a wake-up. *)
Definition message (e : sys_event) : Prop := forall i w, e <> STick i w.

(** While the events [evs] take the daemon from one state to the other, the system
    sees the events in the second list: all messages, and a wake-up for every run
    of a loop. *)
Inductive passes_on (f : flags) (sf : sflags) (pow10 : Z -> dbl) (re : regex) (named : string)
  : daemon -> list daemon_ev -> list sys_event -> daemon -> Prop :=
| po_nothing d : passes_on f sf pow10 re named d [] [] d
| po_message d e d1 evs l d2 :
    message e -> daemon_step f sf pow10 re named d (DSys e) = Ok d1 -> passes_on f sf pow10 re named d1 evs l d2 ->
    passes_on f sf pow10 re named d (DSys e :: evs) (e :: l) d2
| po_wake d w k i z d1 evs l d2 :
    next_is (OLoop z false) d -> nth_error (dm_ids d) i = Some z ->
    daemon_step f sf pow10 re named d (DRun w k) = Ok d1 -> passes_on f sf pow10 re named d1 evs l d2 ->
    passes_on f sf pow10 re named d (DRun w k :: evs) (STick i k :: l) d2
| po_other d e d1 evs l d2 :
    (forall x, e = DSys x -> ~ message x) -> (forall w k z, e = DRun w k -> ~ next_is (OLoop z false) d) ->
    daemon_step f sf pow10 re named d e = Ok d1 -> passes_on f sf pow10 re named d1 evs l d2 ->
    passes_on f sf pow10 re named d (e :: evs) l d2.

(** The messages in the events. *)
Definition messages (evs : list daemon_ev) : list sys_event :=
  flat_map (fun e => match e with DSys x => [x] | _ => [] end) evs.

(** The zones [zs], with what each finds when it is started, are zones of the
    configuration [c], in the order in which they are started; [rest] are the zones
    of [c] whose loops were not started. *)
Definition zones_of (w : surroundings) (c : loaded) (zs rest : list (start_in * zone)) : Prop :=
  built_from (su_bus_ok w) (l_pids c) (l_zones c) (zs ++ rest)%list /\
  Forall (fun e => fst e = su_start w (z_zoneId (snd e))) (zs ++ rest)%list.

(** Every time the loops were stopped so far, oldest first. *)
Definition is_stop (x : main_event) : bool := match x with MStopped => true | _ => false end.
Definition loop_stops (d : daemon) : list main_event := filter is_stop (history (dm_main d)).

(** The last start, at a moment when the daemon is in state [da]: configuration, zones
    and loops are those found then, and the system is what these zones make of what
    has reached it since.  The loops that ran before are stopped then, and no loop
    since.  The devices and the state of the host carry over; so does what is known
    about fan redundancy unless it is asked for anew. *)
Definition running (f : flags) (sf : sflags) (pow10 : Z -> dbl) (re : regex) (named : string)
    (d0 : daemon) (evs : list daemon_ev) (d : daemon) : Prop :=
  exists pre w k post da d1 c failures first devices zs rest sevs,
    evs = (pre ++ DRun w k :: post)%list /\ daemon_run f sf pow10 re named pre d0 = Ok da /\ next_is (ORestart false) da /\
    daemon_step f sf pow10 re named da (DRun w k) = Ok d1 /\
    read_configuration sf re named (su_disk w) (su_config w) = Ok (Loaded c) /\
    zones_of w c zs rest /\ map (fun e => z_zoneId (snd e)) zs = map fst (dm_ids d) /\
    passes_on f sf pow10 re named d1 post sevs d /\
    runs f sf pow10 (seen (dm_exports da) (su_sensors w)) (l_sensors c) failures first devices zs sevs (dm_sys d) /\
    host_initial first = sy_power (dm_sys da) /\
    (su_redundancy w = Some failures \/ su_redundancy w = None /\ failures = sy_failures (dm_sys da)) /\
    (OFFLINE_FAILSAFE_PWM f = false -> devices = sy_devices (dm_sys da)) /\
    loop_stops d1 = (loop_stops da ++ [MStopped])%list /\ loop_stops d = loop_stops d1.

(** ** A life without accidents *)

(** What a message must be like. *)
Definition message_ok (e : sys_event) : Prop :=
  match e with
  | SSignal _ m => well_typed m
  | SRedundancy m => rm_status m <> RNotString
  | _ => True
  end.
(** The files in [F] hold numbers, and tuning files are readable. *)
Definition wake_ok (f : flags) (F : string -> Prop) (k : wake) : Prop :=
  (forall p, F p -> exists v, wk_fan_files k p = FileInt v) /\
  (forall p, F p -> exists v, wk_therm_files k p = FileInt v) /\ tuning_readable f (wk_tune k).
(** The configuration found is read without undefined behaviour; if it is good, its
    controllers name sensors that can be read and written, its sysfs files are in
    [F], and the first cycles find numbers in them. *)
Definition start_sound (f : flags) (sf : sflags) (re : regex) (named : string) (F : string -> Prop) (w : surroundings) : Prop :=
  any_order w /\ (forall m, read_configuration sf re named (su_disk w) (su_config w) <> UB m) /\
  forall c, read_configuration sf re named (su_disk w) (su_config w) = Ok (Loaded c) ->
    (forall id pids, In (id, pids) (l_pids c) -> pids_served (l_sensors c) pids) /\
    start_served f (su_sensors w) (l_sensors c) w /\
    (forall n info p, In (n, info) (l_sensors c) -> sysfs_path (sc_readPath info) ->
       resolves (sb_dir (su_sensors w)) (sc_readPath info) p -> F p).
Definition no_accident (f : flags) (sf : sflags) (re : regex) (named : string) (F : string -> Prop) (e : daemon_ev) : Prop :=
  match e with
  | DMove _ => True
  | DRun w k => start_sound f sf re named F w /\ wake_ok f F k
  | DSys x => message_ok x
  end.
(** The configuration found is bad, or has no zone. *)
Definition hopeless (sf : sflags) (re : regex) (named : string) (w : surroundings) : Prop :=
  read_configuration sf re named (su_disk w) (su_config w) = Ok Fatal \/
  exists c, read_configuration sf re named (su_disk w) (su_config w) = Ok (Loaded c) /\ l_pids c = [].

(** In addition, configurations are sensible (SpecRange.v) and sensors report
    numbers of moderate size. *)
Definition sensible (sf : sflags) (pow10 : Z -> dbl) (re : regex) (named : string) (e : daemon_ev) : Prop :=
  match e with
  | DMove _ => True
  | DRun w k =>
      sensible_news (STick 0 k) /\
      forall c, read_configuration sf re named (su_disk w) (su_config w) = Ok (Loaded c) ->
        sensible_setup sf pow10 (su_sensors w) (l_sensors c) (l_pids c) (l_zones c) /\ forall z, sensible_begin (su_start w z)
  | DSys x => sensible_news x
  end.

(** The device holds what it held at first, or a value of the range of a fan of a
    configuration the daemon has read. *)
Definition held_in_range (sf : sflags) (re : regex) (named : string) (evs : list daemon_ev) (before after : smap Z) : Prop :=
  forall path v, mget path after = Some v -> mget path before = Some v \/
    exists w k c name info, In (DRun w k) evs /\ read_configuration sf re named (su_disk w) (su_config w) = Ok (Loaded c) /\
      In (name, info) (l_sensors c) /\ sc_type info = "fan" /\ drives (su_sensors w) info path /\ in_fan_range v info.

(** In every configuration read in this event all fans are driven over D-Bus. *)
Definition bus_fans (sf : sflags) (re : regex) (named : string) (e : daemon_ev) : Prop :=
  forall w k c name info, e = DRun w k -> read_configuration sf re named (su_disk w) (su_config w) = Ok (Loaded c) ->
    In (name, info) (l_sensors c) -> sc_type info = "fan" -> bus_out (sc_writePath info).
(** With OFFLINE_FAILSAFE_PWM all fans are on D-Bus, and nothing absurd is met. *)
Definition stops_well (f : flags) (sf : sflags) (pow10 : Z -> dbl) (re : regex) (named : string) (evs : list daemon_ev) : Prop :=
  OFFLINE_FAILSAFE_PWM f = true ->
  Forall (bus_fans sf re named) evs /\ Forall (sensible sf pow10 re named) evs /\ exists F, Forall (no_accident f sf re named F) evs.

(** ** Loops that were started *)

Definition is_start (x : main_event) : bool := match x with MStarted _ => true | _ => false end.
(** Every start of a loop so far, oldest first. *)
Definition loop_starts (d : daemon) : list main_event := filter is_start (history (dm_main d)).
(** Every configuration read in this event has an external sensor whose object is [p]. *)
Definition publishes (sf : sflags) (re : regex) (named : string) (p : string) (e : daemon_ev) : Prop :=
  forall w k c, e = DRun w k -> read_configuration sf re named (su_disk w) (su_config w) = Ok (Loaded c) ->
    exists name info, In (name, info) (l_sensors c) /\ published_sensor info /\ sc_readPath info = p.

(** ** Reloads that work *)

(** The configuration [c] can be put into force: its sensors and zones can be built,
    there is a zone, and the first cycles find what they need. *)
Definition usable_configuration (f : flags) (sf : sflags) (pow10 : Z -> dbl) (w : surroundings) (c : loaded) : Prop :=
  Forall (buildable_sensor sf pow10 (su_sensors w)) (l_sensors c) /\ own_objects (l_sensors c) /\
  Forall (buildable (su_bus_ok w) (l_zones c)) (l_pids c) /\ l_pids c <> [] /\
  (forall id pids, In (id, pids) (l_pids c) -> pids_served (l_sensors c) pids) /\
  start_served f (su_sensors w) (l_sensors c) w /\ any_order w.
(** No external sensor of [c] has the object of one in a configuration read before. *)
Definition new_objects (sf : sflags) (re : regex) (named : string) (c : loaded) (evs : list daemon_ev) : Prop :=
  forall w k c' e e', In (DRun w k) evs -> read_configuration sf re named (su_disk w) (su_config w) = Ok (Loaded c') ->
    In e (l_sensors c) -> published_sensor (snd e) -> In e' (l_sensors c') -> published_sensor (snd e') ->
    sc_readPath (snd e) <> sc_readPath (snd e').
(** No handler of a loop is waiting, not even a cancelled one. *)
Definition no_loop_handler (d : daemon) : Prop :=
  m_armed (dm_main d) = [] /\ forall i aborted, ~ In (OLoop i aborted) (m_ready (dm_main d)).

(** ** Stopping with failsafe percentages *)

(** The zone of the loop has a fan controller for the fan [name]. *)
Definition lists_fan (l : loop) (name : string) : Prop :=
  exists c, In (Some c) (z_fans (l_zone l)) /\ In name (fan_inputs c).
(** Every write in this event reaches its device. *)
Definition delivered (e : daemon_ev) : Prop := forall w k n, e = DRun w k -> wk_write_ok k n = true.
(** The daemon is about to reload or to end, and nothing holds it up. *)
Definition about_to_stop (d : daemon) : Prop :=
  (next_is (ORestart false) d \/ next_is (OTerminate false) d) /\ no_loop_handler d.
