(** * From a configuration to a daemon that never stops (C80). *)
From Coq Require Import ZArith Bool List String Lia Permutation.
From Verif Require Import Base BaseFacts Dbl PidModel ZoneModel LoopModel BuilderModel SpecBuilder BuilderProofs
  SensorModel WriteModel SystemModel SpecSystem SystemProofs SystemProofs3 SystemProofs4 JsonModel SpecJson JsonProofs SpecJsonSystem
  JsonSystemProofs ConfigModel DbusConfigModel SpecDbus SpecDbusSystem DbusProofs DbusProofs2 DbusProofs3 DbusProofs4
  DbusProofs5 DbusSystemProofs SpecRange RangeSystem.
Import ListNotations.
Local Open Scope string_scope.

Lemma loaded_never_stops f sf pow10 sb bus_ok failures first devices c m built lz :
  NoDup (map fst (l_sensors c)) -> NoDup (map fst (l_pids c)) ->
  (forall id pids, In (id, pids) (l_pids c) -> pids_served (l_sensors c) pids) ->
  buildSensors sf pow10 sb (l_sensors c) = Ok m -> buildZones bus_ok (l_pids c) (l_zones c) = Ok built ->
  sensible_setup sf pow10 sb (l_sensors c) (l_pids c) (l_zones c) ->
  Permutation (map snd lz) (map snd built) ->
  Forall (fun e => files_ok sb (l_sensors c) (st_files (fst e)) /\ tuning_readable f (st_tune (fst e))) lz ->
  Forall (fun e => sensible_begin (fst e)) lz ->
  never_stops f sf pow10 sb m failures first devices (l_sensors c) lz.
Proof.
  intros Nc N Sv Em Eb Se L F Sb.
  assert (Bf : built_from bus_ok (l_pids c) (l_zones c) lz) by (split; [exact N|]; exists built; split; assumption).
  destruct (C63_start_lemma f sf pow10 sb (l_sensors c) failures first devices _ bus_ok (l_pids c) (l_zones c) Bf Sv m Nc Em)
    as (s0 & E0 & R0).
  { rewrite Forall_forall in *. intros [st z] I. exact (F (st, z) I). }
  exists s0. split; [exact E0|]. intros evs Fe Fn.
  destruct (C80_lemma f sf pow10 sb (l_sensors c) failures first devices _ bus_ok (l_pids c) (l_zones c) Nc Bf Sv Se Sb
    [] s0 evs R0) as (s & Hs); [constructor|exact Fe|exact Fn|].
  exists s. split; [exact Hs|]. apply (runs_more _ _ _ _ _ _ _ _ _ _ _ _ _ R0) in Hs.
  eapply C80_devices_lemma; eauto.
Qed.

Lemma C80_json_lemma f sf pow10 sb bus_ok failures first devices j ss zs :
  doc_says j ss zs -> text_served ss zs -> bus_serves sf pow10 sb bus_ok ss zs ->
  exists c m built,
    load_json j = Ok c /\ buildSensors sf pow10 sb (l_sensors c) = Ok m /\
    buildZones bus_ok (l_pids c) (l_zones c) = Ok built /\ as_written c ss zs /\
    (sensible_setup sf pow10 sb (l_sensors c) (l_pids c) (l_zones c) ->
     forall lz, Permutation (map snd lz) (map snd built) ->
       Forall (fun e => files_ok sb (l_sensors c) (st_files (fst e)) /\ tuning_readable f (st_tune (fst e))) lz ->
       Forall (fun e => sensible_begin (fst e)) lz ->
       never_stops f sf pow10 sb m failures first devices (l_sensors c) lz).
Proof.
  intros D T B. destruct (C65_lemma _ _ _ D) as (c & E & W).
  destruct (proj2 (C60_fails_lemma sf pow10 sb (l_sensors c)) (sensors_buildable _ _ _ _ _ _ _ W B)) as (m & Em).
  destruct (proj2 (buildZones_returns bus_ok (l_zones c) (l_pids c)) (zones_buildable _ _ _ _ _ _ _ W B T)) as (built & Eb).
  exists c, m, built. split; [exact E|]. split; [exact Em|]. split; [exact Eb|]. split; [exact W|].
  intros Se lz L F Sb. eapply loaded_never_stops; eauto.
  - apply in_order_nodup, W.
  - apply in_order_z_nodup, W.
  - exact (served_config _ _ _ W T).
Qed.

Lemma C80_dbus_lemma f sf pow10 sb bus_ok failures first devices re cb :
  complete sf re cb -> daemon_served sf re cb pow10 sb bus_ok ->
  exists b c m built,
    dbus_init sf re cb = Ok (b, c) /\ buildSensors sf pow10 sb (l_sensors c) = Ok m /\
    buildZones bus_ok (l_pids c) (l_zones c) = Ok built /\
    (sensible_setup sf pow10 sb (l_sensors c) (l_pids c) (l_zones c) ->
     forall lz, Permutation (map snd lz) (map snd built) ->
       Forall (fun e => files_ok sb (l_sensors c) (st_files (fst e)) /\ tuning_readable f (st_tune (fst e))) lz ->
       Forall (fun e => sensible_begin (fst e)) lz ->
       never_stops f sf pow10 sb m failures first devices (l_sensors c) lz).
Proof.
  intros C (Bus & D). destruct (C70_lemma _ _ _ C) as (b & c & E).
  destruct (C69_lemma _ _ _ _ _ E) as (resp & bus & objs & number & Sb & Se & Rd & _ & _ & Ac & _).
  destruct (D _ _ _ Sb Se Rd) as (Zd & Cs & Fa & Ss).
  destruct (proj2 (C60_fails_lemma sf pow10 sb (l_sensors c)) (dbus_sensors_buildable _ _ _ _ _ _ _ Ac Ss)) as (m & Em).
  destruct (proj2 (buildZones_returns bus_ok (l_zones c) (l_pids c))
    (dbus_zones_buildable _ _ _ _ _ _ _ _ Ac Bus Zd Cs Fa Ss)) as (built & Eb).
  exists b, c, m, built. split; [exact E|]. split; [exact Em|]. split; [exact Eb|].
  destruct (ac_order _ _ _ _ Ac) as (Os & Oz & _).
  intros Sp starts L F Sb'. eapply loaded_never_stops; eauto.
  - apply in_order_nodup, Os.
  - apply in_order_z_nodup, Oz.
  - intros id pids I; eapply (dbus_served sf pow10 sb); eassumption.
Qed.
