(** * Vocabulary for the start-up properties. *)
From Coq Require Import ZArith Bool List String Permutation.
From Verif Require Import Base Dbl ZoneModel LoopModel ConfigModel SensorModel SystemModel SpecSystem SpecBuilder JsonModel SpecJson MainModel SpecMain StartModel.
Import ListNotations.
Local Open Scope string_scope.

(** ** Files *)

Definition present (dk : disk) (p : string) : Prop := dk_exists dk p = Some true.
Definition absent (dk : disk) (p : string) : Prop := dk_exists dk p = Some false.

(** The root directory, or a directory written without a slash at the end. *)
Definition directory_name (d : string) : Prop := d = "/" \/ d <> "" /\ forall a, d <> a ++ "/".
(** The configuration file in directory [d]. *)
Definition in_directory (d p : string) : Prop :=
  d = "/" /\ p = "/config.json" \/ d <> "/" /\ p = d ++ "/config.json".

(** Where a configuration is looked for, in this order: only under the name given
    on the command line, or in three directories. *)
Definition places (named : string) (dk : disk) (l : list string) : Prop :=
  named <> "" /\ l = [named] \/
  named = "" /\ exists cwd p, dk_cwd dk = Some cwd /\ directory_name cwd /\ in_directory cwd p /\
    l = [p; "/var/lib/swampd/config.json"; "/usr/share/swampd/config.json"; "config.json"].
(** The first of them that is there. *)
Definition file_used (named : string) (dk : disk) (p : string) : Prop :=
  exists pre post, places named dk (pre ++ p :: post) /\ Forall (absent dk) pre /\ present dk p.
(** None of them is there. *)
Definition no_file (named : string) (dk : disk) : Prop :=
  exists l, places named dk l /\ Forall (absent dk) l.

(** The file cannot be read, is not JSON, or is not a good configuration. *)
Definition bad_content (x : config_content) : Prop :=
  x = Unopened \/ x = NotJson \/ exists j, x = Document j /\ tame_document j /\ ~ good_document j.

(** The two starts find the same, apart from files and configuration. *)
Definition same_otherwise (w w' : surroundings) : Prop :=
  su_sensors w = su_sensors w' /\ su_bus_ok w = su_bus_ok w' /\ su_redundancy w = su_redundancy w' /\
  su_order w = su_order w' /\ su_start w = su_start w'.

(** ** Starting *)

(** The zones are started in some order. *)
Definition any_order (w : surroundings) : Prop := forall l, Permutation (su_order w l) l.
(** What the first cycles need. *)
Definition start_served (f : flags) (sb : sensor_bus) (config : smap SensorConfig) (w : surroundings) : Prop :=
  forall id, files_ok sb config (st_files (su_start w id)) /\
             tuning_readable f (st_tune (su_start w id)).
(** Starting changes neither the state of the host nor what the devices hold. *)
Definition left_alone (s s0 : system) : Prop := sy_power s0 = sy_power s /\ sy_devices s0 = sy_devices s.
(** Loop number k belongs to zone number k. *)
Definition loops_of (ids : list Z) (s : system) : Prop :=
  Forall2 (fun i l => z_zoneId (l_zone l) = i) ids (sy_loops s).

(** [k] attempts that throw, each tried again when the timer expires, and one that
    comes to [last]. *)
Fixpoint tries (k : nat) (last : build) : list main_ev :=
  match k with
  | O => [ERun true last]
  | S k => ERun true BThrow :: ERetry :: tries k last
  end.
(** The control loops after them. *)
Definition after_tries (k : nat) (last : build) : main_st := main_run (EPostRestart :: tries k last) main_init.
(** The daemon waits: no loop, no attempt. *)
Definition idle (s : main_st) : Prop := m_stopped s = false /\ live s = [] /\ m_rtimer s = false /\ m_ready s = [].

(** ** Options *)

(** The path given is a file, or a directory; or none is given. *)
Definition is_file (dk : disk) (o : option string) : Prop :=
  forall p, o = Some p -> present dk p /\ dk_isdir dk p = false.
Definition is_directory (dk : disk) (o : option string) : Prop :=
  forall p, o = Some p -> present dk p /\ dk_isdir dk p = true.

Definition logging_file : string := "/etc/thermal.d/logging".
Definition tuning_file : string := "/etc/thermal.d/tuning".
Definition debugging_file : string := "/etc/thermal.d/debugging".
Definition corelogging_file : string := "/etc/thermal.d/corelogging".

(** The folder for logs: the one named by the flag file if it is there, else the
    one of the command line, else the folder for temporary files. *)
Definition log_folder (cl : command_line) (dk : disk) (folder : string) : Prop :=
  (exists p, dk_line dk logging_file = Some p /\ present dk p /\ folder = p) \/
  (forall p, dk_line dk logging_file = Some p -> absent dk p) /\
    (cl_log cl = Some folder \/ cl_log cl = None /\ dk_tmp dk = Some folder).
