(** * Property C85: sysfs paths with wildcards.

    Vocabulary: SpecWrite.v ([first_stars], [in_directory], [resolves]) and
    SpecSystem.v ([drives]).  Proofs: PathProofs.v, PathSystem.v.

    [sb_dir sb] lists the directories when the sensors are built: [None] if a
    directory cannot be opened, else its entries in the order in which the
    system returns them. *)
From Coq Require Import ZArith Bool List String.
From Verif Require Import Base BaseFacts Dbl PidModel ZoneModel LoopModel ZoneProofs SensorModel WriteModel SpecWrite
  BuilderModel PropertiesZone PropertiesBuilder SystemModel SpecSystem PathProofs PathSystem SystemProofs4
  PropertiesSystem.
Import ListNotations.
Local Open Scope string_scope.

(** Which file a path means, and that it is one file. *)
Theorem C85_which_file : forall dir p,
  (forall q, FixupPath dir p = Ok q <-> resolves dir p q) /\
  (forall q q', resolves dir p q -> resolves dir p q' -> q = q') /\
  ((forall q, ~ resolves dir p q) <-> exists e, FixupPath dir p = Throw e).
Proof. exact C85_which_lemma. Qed.
Print Assumptions C85_which_file.

(** With a missing directory no sensor is built: the daemon throws and tries again. *)
Theorem C85_missing_directory : forall sf pow10 sb config name info p base rest,
  In (name, info) config ->
  (sysfs_path (sc_readPath info) /\ p = sc_readPath info \/
   sc_type info = "fan" /\ sysfs_out (sc_writePath info) /\ p = sc_writePath info) ->
  first_stars p base rest -> sb_dir sb base = None -> forall m, buildSensors sf pow10 sb config <> Ok m.
Proof. exact C85_missing_lemma. Qed.
Print Assumptions C85_missing_directory.

(** For as long as the daemon runs without reloading, a sensor depends on this
    one file, whatever happens to the directory. *)
Theorem C85_polls_read_that_file : forall f sf pow10 sb config failures first devices zs name info path evs s,
  runs f sf pow10 sb config failures first devices zs evs s ->
  In (name, info) config -> known_type (sc_type info) -> sysfs_path (sc_readPath info) ->
  resolves (sb_dir sb) (sc_readPath info) path ->
  forall files files' now, files path = files' path ->
    pe_sensor (view_env s files now) name = pe_sensor (view_env s files' now) name.
Proof. exact C85_poll_lemma. Qed.
Print Assumptions C85_polls_read_that_file.

(** And nothing is ever written but the files and properties the configured
    fans resolve to. *)
Theorem C85_other_devices_are_never_written : forall f sf pow10 sb config failures first devices zs path evs s,
  runs f sf pow10 sb config failures first devices zs evs s ->
  (forall name info, In (name, info) config -> sc_type info = "fan" -> ~ drives sb info path) ->
  mget path (sy_devices s) = mget path devices.
Proof. exact C85_untouched_lemma. Qed.
Print Assumptions C85_other_devices_are_never_written.

(** fan1 and t0 of the example system, behind wildcards. *)
Definition wild_config : smap SensorConfig :=
  [("fan0", fan0_info);
   ("fan1", MkSensorConfig "fan" "/sys/class/hwmon/**/fan1_input" "/sys/class/hwmon/**/pwm1" 0 255 0 false true false);
   ("m0", m0_info);
   ("t0", MkSensorConfig "temp" "/sys/class/hwmon/**/temp1_input" "" 0 0 0 false true false);
   ("t1", t1_info)].
Definition wild_bus (dir : list string) : sensor_bus :=
  SensorBus (sb_replies sys_bus) (sb_writable sys_bus) (sb_now sys_bus)
    (fun d => if String.eqb d "/sys/class/hwmon/" then Some dir else None) (fun _ => true).
Definition wild_s0 (dir : list string) : system :=
  get_ok no_system (sys_start ex_flags (get_ok [] (buildSensors ex_sf ex_pow (wild_bus dir) wild_config)) [] false
    [("/sys/class/hwmon/hwmon1/pwm1", 9%Z)] sys_zones).
Definition wild_after (dir : list string) (evs : list sys_event) : system :=
  get_ok no_system (sys_run ex_flags ex_sf ex_pow evs (wild_s0 dir)).
Example C85_example :
  runs ex_flags ex_sf ex_pow (wild_bus ["hwmon3"; "hwmon1"]) wild_config [] None
    [("/sys/class/hwmon/hwmon1/pwm1", 9%Z)] sys_zones [STick 0 (sys_wake 1)]
    (wild_after ["hwmon3"; "hwmon1"] [STick 0 (sys_wake 1)]) /\
  resolves (sb_dir (wild_bus ["hwmon3"; "hwmon1"])) "/sys/class/hwmon/**/temp1_input"
    "/sys/class/hwmon/hwmon3/temp1_input" /\
  map (fun p => mget p (sy_devices (wild_after ["hwmon3"; "hwmon1"] [STick 0 (sys_wake 1)])))
    ["/sys/class/hwmon/hwmon3/pwm1"; "/sys/class/hwmon/hwmon1/pwm1"; "/sys/class/hwmon/**/pwm1"] =
    [Some 255; Some 9; None]%Z /\
  first_stars "/sys/class/hwmon/**/pwm1" "/sys/class/hwmon/" "/pwm1" /\
  is_ok (buildSensors ex_sf ex_pow (wild_bus ["hwmon3"; "hwmon1"])
    [("t0", MkSensorConfig "temp" "/sys/gone/**/temp1_input" "" 0 0 0 false true false)]) = false.
Proof.
  split.
  { constructor.
    - repeat constructor; cbn; intuition discriminate.
    - repeat constructor; apply ex_fresh.
    - exists (get_ok [] (buildSensors ex_sf ex_pow (wild_bus ["hwmon3"; "hwmon1"]) wild_config)),
        (wild_s0 ["hwmon3"; "hwmon1"]).
      split; [|split]; apply get_ok_eq; vm_compute; reflexivity. }
  split; [apply FixupPath_ok; reflexivity|]. split; [vm_compute; reflexivity|].
  split; [split; [reflexivity|path_class]|vm_compute; reflexivity].
Qed.

(** The file is not determined by what the directory holds: another order of
    the entries gives another file. *)
Theorem C85_order_does_not_matter_refuted : exists dir dir' p q q',
  (forall d, match dir d, dir' d with
             | Some l, Some l' => forall n, In n l <-> In n l'
             | None, None => True
             | _, _ => False
             end) /\
  resolves dir p q /\ resolves dir' p q' /\ q <> q'.
Proof. exact C85_order_lemma. Qed.
Print Assumptions C85_order_does_not_matter_refuted.

(** An empty directory does not stop the build.  The sensor then reads a file
    whose name has the stars in it: without such a file its first poll uses a
    value that was never set. *)
Theorem C85_wildcards_are_resolved_refuted : exists sf pow10 sb config m x,
  buildSensors sf pow10 sb config = Ok m /\ mget "t0" m = Some x /\
  (forall files, files "/sys/class/hwmon/**/temp1_input" = NoFile ->
     forall failures power now, sensor_poll failures power files now x = UB "uninitialised value").
Proof. exact C85_empty_lemma. Qed.
Print Assumptions C85_wildcards_are_resolved_refuted.

(** Different configured paths can be the same device: two fans then write to
    one file in turn. *)
Theorem C85_own_paths_own_devices_refuted : exists sb (config : smap SensorConfig) n n' i i' path,
  In (n, i) config /\ In (n', i') config /\ n <> n' /\ sc_type i = "fan" /\ sc_type i' = "fan" /\
  sc_writePath i <> sc_writePath i' /\ drives sb i path /\ drives sb i' path.
Proof. exact C85_same_lemma. Qed.
Print Assumptions C85_own_paths_own_devices_refuted.
