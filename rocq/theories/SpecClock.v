(** * Specification vocabulary for clocks that run ahead (C110)

    The same happenings, all of them a fixed time later.  Uses events, starting conditions
    and answers of the bus only. *)
From Coq Require Import ZArith Bool List String.
From Verif Require Import Base Dbl PidModel ZoneModel LoopModel SensorModel WriteModel BuilderModel SystemModel.
Import ListNotations.
Local Open Scope Z_scope.

Definition later_msg (k : Z) (m : sensor_msg) : sensor_msg := Msg (m_intf m) (m_props m) (m_now m + k).
Definition later_wake (k : Z) (w : wake) : wake :=
  Wake (wk_fan_now w + k) (wk_fan_files w) (wk_therm_now w + k) (wk_therm_files w) (wk_tune w) (wk_write_ok w).
(** The event, [k] nanoseconds later by the clock. *)
Definition later_event (k : Z) (e : sys_event) : sys_event :=
  match e with
  | SSignal path m => SSignal path (later_msg k m)
  | SHost n v t => SHost n v (t + k)
  | STick i w => STick i (later_wake k w)
  | _ => e
  end.
(** A zone started [k] nanoseconds later. *)
Definition later_start (k : Z) (e : start_in * zone) : start_in * zone :=
  (StartIn (st_now (fst e) + k) (st_files (fst e)) (st_tune (fst e)) (st_timer (fst e) + k), snd e).
(** The sensors built [k] nanoseconds later. *)
Definition later_bus (k : Z) (sb : sensor_bus) : sensor_bus :=
  SensorBus (sb_replies sb) (sb_writable sb) (fun n => sb_now sb n + k) (sb_dir sb) (sb_free sb).

(** ** A daemon that started [k] nanoseconds later *)
Definition later_passive (k : Z) (p : passive) : passive := pset_updated (p_updated p + k) p.
Definition later_reader (k : Z) (r : reader) : reader :=
  match r with RPassive p red => RPassive (later_passive k p) red | _ => r end.
(** The same sensor, its time stamp moved. *)
Definition later_sensor (k : Z) (x : sensor) : sensor :=
  match x with
  | Pluggable t r w i => Pluggable t (later_reader k r) w i
  | Host t i h => Host t i (MkHost (hs_value h) (hs_updated h + k))
  end.
Definition later_view (k : Z) (v : sensor_view) : sensor_view :=
  View (sv_value v) (sv_unscaled v) (sv_updated v + k) (sv_timeout v) (sv_failed v) (sv_reason v).
(** The same effects; a poll happened that much later. *)
Definition later_effect (k : Z) (e : event) : event :=
  match e with EvRead n now v => EvRead n (now + k) (later_view k v) | _ => e end.
Definition later_zone (k : Z) (z : zone) : zone := set_trace (map (later_effect k) (z_trace z)) z.
(** The same zone, waiting for a time that much later. *)
Definition later_loop (k : Z) (l : loop) : loop :=
  MkLoop (later_zone k (l_zone l)) (l_cycleCnt l) (l_expiry l + k).
(** The same daemon: time stamps of sensors, polls and timers moved, all else equal. *)
Definition later_system (k : Z) (s : system) : system :=
  Sys (map (fun e => (fst e, later_sensor k (snd e))) (sy_sensors s)) (sy_failures s) (sy_power s)
      (map (later_loop k) (sy_loops s)) (sy_devices s).
Definition later_end (k : Z) (o : outcome system) : outcome system :=
  match o with Ok s => Ok (later_system k s) | Throw e => Throw e | UB e => UB e end.
