(** * Specification vocabulary for what a zone of the daemon depends on (C109)

    Which of the daemon's events concern a zone, and when two of them are the same for it.
    Uses configuration records and events only. *)
From Coq Require Import ZArith Bool List String.
From Verif Require Import Base Dbl PidModel ZoneModel LoopModel SensorModel SpecSensor WriteModel SpecWrite BuilderModel
  SystemModel SpecSystem.
Import ListNotations.

(** A fan or a thermal input of the zone. *)
Definition input_of (z : zone) (n : string) : bool := (smem n (z_fanInputs z) || smem n (z_thermalInputs z))%bool.

(** The event concerns zone number [i]: a signal from the object of one of its sensors, a
    value the host sets in one of them, news about the host's power or about redundancy,
    and wake-ups and requests of the zone itself. *)
Definition concerns (config : smap SensorConfig) (i : nat) (z : zone) (e : sys_event) : bool :=
  match e with
  | SSignal path _ => existsb (fun c => (input_of z (fst c) && String.eqb (sc_readPath (snd c)) path)%bool) config
  | SHost n _ _ => input_of z n
  | SRedundancy _ | SHostState _ => true
  | STick j _ | SManual j _ | SEnable j _ _ => Nat.eqb j i
  end.

(** The two worlds hold the same contents in the files of the zone's sensors. *)
Definition same_files (sb : sensor_bus) (config : smap SensorConfig) (z : zone)
    (a b : string -> file_content) : Prop :=
  forall n info path, In (n, info) config -> input_of z n = true ->
    resolves (sb_dir sb) (sc_readPath info) path -> a path = b path.

(** The same event for the zone.  Wake-ups may find other files different, and writes may
    fail in one and not in the other. *)
Definition same_event (sb : sensor_bus) (config : smap SensorConfig) (z : zone) (a b : sys_event) : Prop :=
  match a, b with
  | STick i w, STick j w' =>
      i = j /\ wk_fan_now w = wk_fan_now w' /\ wk_therm_now w = wk_therm_now w' /\ wk_tune w = wk_tune w' /\
      same_files sb config z (wk_fan_files w) (wk_fan_files w') /\
      same_files sb config z (wk_therm_files w) (wk_therm_files w')
  | _, _ => a = b
  end.

(** The zone's loop is started in the same surroundings. *)
Definition same_start (sb : sensor_bus) (config : smap SensorConfig) (z : zone) (a b : start_in) : Prop :=
  st_now a = st_now b /\ st_tune a = st_tune b /\ same_files sb config z (st_files a) (st_files b).
