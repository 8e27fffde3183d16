(** * C60: when a sensor can be set up.

    Vocabulary: SpecSetup.v, SpecSystem.v.  Proofs: SetupProofs.v. *)
From Coq Require Import ZArith Bool List String.
From Verif Require Import Base BaseFacts Dbl ZoneModel SpecZone ZoneProofs ConfigModel SensorModel SpecSensor WriteModel SpecWrite SystemModel SpecSystem
  PropertiesSystem SpecSetup SetupProofs.
Import ListNotations.
Local Open Scope string_scope.

(** Construction succeeds exactly when every entry can be built: its type is one
    of the five, its object answers with values and alarms of the right kinds
    (or is missing, where that is tolerated), its files and objects exist. *)
Theorem C60_what_can_be_set_up : forall sf pow10 sb config,
  (exists m, buildSensors sf pow10 sb config = Ok m) <->
  Forall (can_be_built sf sb) config /\ own_objects config.
Proof. exact C60_setup_lemma. Qed.
Print Assumptions C60_what_can_be_set_up.

(** One D-Bus sensor. *)
Theorem C60_what_a_bus_sensor_needs : forall sf pow10 now type id b info,
  createDbusPassive sf pow10 now type id b info <> None <-> bus_sensor_fits sf b type.
Proof. exact create_iff. Qed.
Print Assumptions C60_what_a_bus_sensor_needs.

(** A power sum is set up.  It is not with a text as scale, nor under another type.
    A low alarm that is a number is not accepted; a high alarm that is one
    is, while the low alarm is raised. *)
Definition ex_object (props crit : smap dvalue) : sensor_bus :=
  SensorBus (fun _ => Replies (Some ["svc"]) (Some props) None (Some crit) None)
            (fun _ => true) (fun _ => 0%Z) (fun _ => Some []) (fun _ => true).
Definition ex_single (type : string) : smap SensorConfig :=
  [("p0", MkSensorConfig type "/xyz/openbmc_project/sensors/power/p0" "" 0 0 0 false true false)].
Example C60_set_up_example :
  let built type props crit := is_ok (buildSensors ex_sf ex_pow (ex_object props crit) (ex_single type)) in
  built "powersum" [("Value", VInt 5); ("Scale", VInt 0); ("Unit", VStr "W")] [] = true /\
  built "powersum" [("Value", VInt 5); ("Scale", VStr "0")] [] = false /\
  built "current" [("Value", VInt 5)] [] = false /\
  built "power" [] [("CriticalAlarmLow", VInt 1)] = false /\
  built "power" [] [("CriticalAlarmLow", VBool true); ("CriticalAlarmHigh", VInt 1)] = true /\
  built "power" [] [("CriticalAlarmLow", VBool false); ("CriticalAlarmHigh", VInt 1)] = false.
Proof. intros built. repeat match goal with |- _ /\ _ => split end; vm_compute; reflexivity. Qed.

(** The hypotheses, for the power sum. *)
Example C60_fits_example :
  bus_sensor_fits ex_sf (Replies (Some ["svc"]) (Some [("Value", VInt 5)]) None None None) "powersum".
Proof.
  split; [unfold known_type; tauto|]. right. split; [intros M; exact M|]. split.
  - exists [("Value", VInt 5)]. split; [reflexivity|].
    unfold if_present, is_number, is_text, is_integer.
    repeat split; cbn; intros v H; try discriminate; injection H as <-; intros (s & E); discriminate.
  - split; [intros _ U; discriminate|intros c H; discriminate].
Qed.
