(** * Specification vocabulary for a daemon whose sensors stay the same (C111)

    Uses configuration records, events, sensor answers and the Set calls of fans only. *)
From Coq Require Import ZArith Bool List String.
From Verif Require Import Base Dbl PidModel ZoneModel LoopModel SpecZone SensorModel WriteModel BuilderModel SystemModel SpecSystem
  SpecHeat SpecSettle.
Import ListNotations.

(** The event is neither a wake-up of zone number [i] nor a request to it. *)
Definition not_for (i : nat) (e : sys_event) : Prop :=
  match e with STick j _ | SManual j _ | SEnable j _ _ => j <> i | _ => True end.
(** The first [n] wake-ups of zone [i], with what happens between them. *)
Definition rounds (i : nat) (ws : nat -> wake) (between : nat -> list sys_event) (n : nat) : list sys_event :=
  flat_map (fun k => STick i (ws k) :: between k) (seq 0 n).

(** In all these wake-ups the sensors of zone [z] show what they show in the first. *)
Definition steady (f : flags) (sf : sflags) (pow10 : Z -> dbl) (z : zone) (i : nat) (ws : nat -> wake)
    (between : nat -> list sys_event) (s : system) : Prop :=
  forall k sk, sys_run f sf pow10 (rounds i ws between k) s = Ok sk ->
    let names := (z_fanInputs z ++ z_thermalInputs z)%list in
    let first := view_env s (wk_fan_files (ws 0%nat)) (wk_fan_now (ws 0%nat)) in
    same_view names first (view_env sk (wk_fan_files (ws k)) (wk_fan_now (ws k))) /\
    same_view names first (view_env sk (wk_therm_files (ws k)) (wk_therm_now (ws k))).

(** Temperatures below 2^200 in magnitude when zone [i] is started and in its wake-ups. *)
Definition moderate_life (f : flags) (sf : sflags) (pow10 : Z -> dbl) (sb : sensor_bus) (config : smap SensorConfig)
    (failures : list string) (first : option string) (devices : smap Z) (zs : list (start_in * zone))
    (i : nat) (st : start_in) (z : zone) (evs : list sys_event) : Prop :=
  (forall s0, runs f sf pow10 sb config failures first devices zs [] s0 ->
     moderate (view_env s0 (st_files st) (st_now st)) z) /\
  (forall before w after s, evs = (before ++ STick i w :: after)%list ->
     runs f sf pow10 sb config failures first devices zs before s ->
     moderate (view_env s (wk_therm_files w) (wk_therm_now w)) z).

(** All Set calls made so far for a fan on the bus, newest first, each with its success. *)
Definition set_calls (s : system) (fan : string) : list (Z * bool) :=
  match mget fan (sy_sensors s) with
  | Some (Pluggable _ _ (WDbus _ w) _) => dw_calls w
  | _ => []
  end.
