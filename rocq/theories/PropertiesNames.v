(** * The names behind properties C29-C31 and C69-C72.

    SpecSensor.v and SpecDbus.v speak of interfaces by short names; here is what they
    stand for.  Proofs: NamesProofs.v. *)
From Coq Require Import ZArith Bool List String.
From Verif Require Import Base BaseFacts Dbl DblFacts ConfigModel SensorModel DbusConfigModel NamesProofs.
Import ListNotations.
Local Open Scope string_scope.

Theorem C29_interface_names :
  [value_intf; critical_intf; warning_intf; available_intf; functional_intf] =
  ["xyz.openbmc_project.Sensor.Value"; "xyz.openbmc_project.Sensor.Threshold.Critical";
   "xyz.openbmc_project.Sensor.Threshold.Warning"; "xyz.openbmc_project.State.Decorator.Availability";
   "xyz.openbmc_project.State.Decorator.OperationalStatus"].
Proof. exact sensor_names_lemma. Qed.
Print Assumptions C29_interface_names.

(** Signals from any other interface change nothing. *)
Theorem C29_other_interfaces : forall sf pow10 s m s',
  handleSensorValue sf pow10 s m = Ok s' ->
  ~ In (m_intf m) ["xyz.openbmc_project.Sensor.Value"; "xyz.openbmc_project.Sensor.Threshold.Critical";
    "xyz.openbmc_project.Sensor.Threshold.Warning"; "xyz.openbmc_project.State.Decorator.Availability";
    "xyz.openbmc_project.State.Decorator.OperationalStatus"] -> s' = s.
Proof. exact other_interfaces_lemma. Qed.
Print Assumptions C29_other_interfaces.

Example C29_other_interfaces_example :
  let s := passive_new "temp" "t0" false "/xyz/t0" in
  let m := Msg "xyz.openbmc_project.Sensor.Threshold.Fatal" [("CriticalAlarmHigh", SensorModel.VBool true)] 0 in
  (exists s', handleSensorValue (SFlags true true) (fun _ => D 1) s m = Ok s') /\
  ~ In (m_intf m) [value_intf; critical_intf; warning_intf; available_intf; functional_intf].
Proof. cbn zeta. split; [eexists; reflexivity|]. cbn. intuition discriminate. Qed.

Theorem C69_interface_names :
  [zone_intf; pid_intf; stepwise_intf; manager_intf; pwm_intf] =
  ["xyz.openbmc_project.Configuration.Pid.Zone"; "xyz.openbmc_project.Configuration.Pid";
   "xyz.openbmc_project.Configuration.Stepwise"; "org.freedesktop.DBus.ObjectManager";
   "xyz.openbmc_project.Control.FanPwm"].
Proof. exact config_names_lemma. Qed.
Print Assumptions C69_interface_names.
