(** * Start-up: the command line, the flag files, and which configuration is used.

    Source: main.cpp, buildjson/buildjson.cpp.  The readers of a configuration are
    in JsonModel.v and DbusConfigModel.v, what is built from it in SystemModel.v and
    BuilderModel.v, and what becomes of the control loops in MainModel.v; here
    they are put together. *)
From Coq Require Import ZArith Bool List String.
From Verif Require Import Base Dbl PidModel ZoneModel LoopModel BuilderModel ConfigModel SensorModel WriteModel
  SystemModel JsonModel DbusConfigModel LogModel MainModel.
Import ListNotations.
Local Open Scope string_scope.
Local Open Scope outcome_scope.

(** ** Files *)

(** What reading a file as JSON finds (/repo/buildjson/buildjson.cpp:49-59).
    Simplified: the parser of nlohmann::json is not modelled. *)
Inductive config_content : Type :=
| Unopened            (* the stream cannot be opened *)
| NotJson             (* [is_discarded()] *)
| Document (j : json).

(** What the daemon asks about files.  [None]: the call throws.
    /repo/main.cpp:95, 100, 134, 317, 320, 337, 346-354, 371-392. *)
Record disk : Type := Disk {
  dk_cwd : option string;               (* std::filesystem::current_path *)
  dk_tmp : option string;               (* std::filesystem::temp_directory_path *)
  dk_exists : string -> option bool;    (* std::filesystem::exists *)
  dk_isdir : string -> bool;            (* used by the checks of CLI11 *)
  dk_line : string -> option string;    (* first line; [None]: cannot be opened *)
  dk_content : string -> config_content
}.

(** [std::filesystem::exists], /repo/main.cpp:100, 134, 354, 371, 381, 392. *)
Definition exists_file (dk : disk) (p : string) : outcome bool :=
  match dk_exists dk p with Some b => Ok b | None => Throw "filesystem error: status" end.

(** ** Options *)

(** The command line: the values of the options, if given, and of the flags.
    /repo/main.cpp:315-324. *)
Record command_line : Type := CommandLine {
  cl_conf : option string;
  cl_log : option string;
  cl_tuning : bool;
  cl_debug : bool;
  cl_corelogging : bool
}.

(** The globals that start-up sets. /repo/main.cpp:75, 307-311, /repo/pid/tuning.hpp:5-24. *)
Record options : Type := Options {
  op_configPath : string;
  op_loggingPath : string;
  op_loggingEnabled : bool;
  op_tuningEnabled : bool;
  op_debugEnabled : bool;
  op_coreLoggingEnabled : bool
}.

(** CLI::ExistingFile and CLI::ExistingDirectory, which do not throw.
    /repo/main.cpp:317, 320. *)
Definition checked (dk : disk) (dir : bool) (o : option string) : bool :=
  match o with
  | None => true
  | Some p => match dk_exists dk p with Some true => Bool.eqb (dk_isdir dk p) dir | _ => false end
  end.

(** The value of an option that may be left out, /repo/main.cpp:75, 307. *)
Definition given (o : option string) : string := match o with Some p => p | None => "" end.

(** /repo/main.cpp:305-399.  [Ok None]: the command line is refused and the daemon
    ends (line 326); [Throw]: an exception that nothing catches. *)
Definition main_options (cl : command_line) (dk : disk) : outcome (option options) :=
  if checked dk false (cl_conf cl) && checked dk true (cl_log cl)
  then
    let loggingPath := given (cl_log cl) in
    do def <- if String.eqb loggingPath ""
              then match dk_tmp dk with
                   | Some t => Ok (t, false)
                   | None => Throw "filesystem error: temp_directory_path"
                   end
              else Ok (loggingPath, true);
    do log <- match dk_line dk "/etc/thermal.d/logging" with
              | Some altPath =>
                  do there <- exists_file dk altPath;
                  Ok (if there : bool then altPath else fst def, true)
              | None => Ok (loggingPath, snd def)
              end;
    do tuning <- exists_file dk "/etc/thermal.d/tuning";
    do debug <- exists_file dk "/etc/thermal.d/debugging";
    do core <- exists_file dk "/etc/thermal.d/corelogging";
    Ok (Some (Options (given (cl_conf cl)) (fst log) (snd log)
                (tuning || cl_tuning cl) (debug || cl_debug cl) (core || cl_corelogging cl)))
  else Ok None.

(** The globals as the other parts of the model use them: /repo/pid/tuning.hpp:5-24
    and the two build options of /repo/meson.options:8-19. *)
Definition flags_of (strict offline : bool) (o : options) : flags :=
  Flags strict offline (op_tuningEnabled o) (op_loggingEnabled o) (op_debugEnabled o).
(** The globals of the core log, /repo/pid/ec/logging.cpp:124, 164-165. *)
Definition core_of (o : options) : core_conf := CoreConf (op_coreLoggingEnabled o) (op_loggingPath o).
(** The file a zone opens, /repo/pid/zone.hpp:71-74. *)
Definition zone_log_file (o : options) (zone : Z) : option string :=
  if op_loggingEnabled o then Some (op_loggingPath o ++ "/zone_" ++ to_string zone ++ ".log") else None.

(** ** Which configuration *)

(** The loop of /repo/main.cpp:95-104. *)
Fixpoint first_file (dk : disk) (dirs : list string) : outcome string :=
  match dirs with
  | [] => Ok "config.json"
  | d :: r =>
      let file := entry_path d "config.json" in
      do there <- exists_file dk file;
      if there : bool then Ok file else first_file dk r
  end.
(** /repo/main.cpp:91-107, [searchConfigurationPath]. *)
Definition searchConfigurationPath (dk : disk) : outcome string :=
  match dk_cwd dk with
  | None => Throw "filesystem error: cannot get current path"
  | Some cwd => first_file dk [cwd; "/var/lib/swampd"; "/usr/share/swampd"]
  end.

(** /repo/main.cpp:142-145 with /repo/buildjson/buildjson.cpp:47-65. *)
Definition load_file (dk : disk) (path : string) : outcome loaded :=
  match dk_content dk path with
  | Unopened => Throw "Unable to open json file"
  | NotJson => Throw "Invalid json - parse failed"
  | Document j => load_json j
  end.

(** How /repo/main.cpp:131-161 ends. *)
Inductive reading : Type :=
| Loaded (c : loaded)
| NotReady             (* line 159 *)
| Fatal.               (* line 150 *)

(** /repo/main.cpp:131-161. *)
Definition read_configuration (sf : sflags) (re : regex) (configPath : string) (dk : disk) (cb : config_bus)
  : outcome reading :=
  do path <- if String.eqb configPath "" then searchConfigurationPath dk else Ok configPath;
  do there <- exists_file dk path;
  if there : bool
  then match load_file dk path with
       | Ok c => Ok (Loaded c)
       | Throw _ => Ok Fatal
       | UB m => UB m
       end
  else do r <- dbus_init sf re cb;
       Ok (if fst r : bool then Loaded (snd r) else NotReady).

(** ** Starting *)

(** What a start finds outside: files, configuration and sensors on the bus,
    object paths that can be registered, the paths that count as failed if the
    redundancy object is made now ([None] if it is there already), the iteration
    order of [state::zones], and what the first cycle of each zone finds.
    /repo/main.cpp:127-186, /repo/sensors/builder.cpp:67-69. *)
Record surroundings : Type := Surroundings {
  su_disk : disk;
  su_config : config_bus;
  su_sensors : sensor_bus;
  su_bus_ok : string -> bool;
  su_redundancy : option (list string);
  su_order : list (Z * zone) -> list (Z * zone);
  su_start : Z -> start_in
}.

(** The bus with the objects of the old sensors on it: they are dropped only when
    the new ones have been built, /repo/main.cpp:163. *)
Definition seen (old : list string) (sb : sensor_bus) : sensor_bus :=
  SensorBus (sb_replies sb) (sb_writable sb) (sb_now sb) (sb_dir sb) (fun p => sb_free sb p && negb (smem p old)).

(** /repo/main.cpp:178-185: how many loops were started; the first exception ends
    the loop. *)
Fixpoint start_zones (f : flags) (zs : list (start_in * zone)) (s : system) : outcome (nat * system) :=
  match zs with
  | [] => Ok (0, s)
  | e :: r =>
      match start_zone f s e with
      | Ok s1 => do x <- start_zones f r s1; Ok (S (fst x), snd x)
      | Throw _ => Ok (0, s)
      | UB m => UB m
      end
  end.

(** /repo/main.cpp:131-186, what [restartControlLoops] does once the loops are
    stopped: the outcome that MainModel.v takes from outside, the objects the
    sensors have on the bus, and the system then.  [old] and [s] are objects and
    system before.  An exception leaves the function ([BThrow], or fewer loops than
    zones).  The failsafe loggers of line 170 are in LogModel.v. *)
Definition restart (f : flags) (sf : sflags) (pow10 : Z -> dbl) (re : regex) (configPath : string)
    (w : surroundings) (old : list string) (s : system) : outcome (build * (list string * system)) :=
  match read_configuration sf re configPath (su_disk w) (su_config w) with
  | UB m => UB m
  | Throw _ => Ok (BThrow, (old, s))
  | Ok NotReady => Ok (BNotReady, (old, s))
  | Ok Fatal => Ok (BExit, (old, s))
  | Ok (Loaded c) =>
      let s := match su_redundancy w with Some l => set_failures l s | None => s end in
      match buildSensors sf pow10 (seen old (su_sensors w)) (l_sensors c) with
      | UB m => UB m
      | Throw _ => Ok (BThrow, (old, s))
      | Ok m =>
          let s := set_sensors m s in
          let new := exports (l_sensors c) in
          match buildZones (su_bus_ok w) (l_pids c) (l_zones c) with
          | UB m => UB m
          | Throw _ => Ok (BThrow, (new, s))
          | Ok built =>
              let zs := su_order w built in
              do x <- start_zones f (map (fun e => (su_start w (fst e), snd e)) zs) s;
              Ok (BZones (map fst zs) (fst x), (new, snd x))
          end
      end
  end.
