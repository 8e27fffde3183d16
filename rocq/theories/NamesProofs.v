(** * Proofs about the names of D-Bus interfaces (C29, C69). *)
From Coq Require Import ZArith Bool List String.
From Verif Require Import Base BaseFacts Dbl ConfigModel SensorModel DbusConfigModel.
Import ListNotations.
Local Open Scope string_scope.

Lemma sensor_names_lemma :
  [value_intf; critical_intf; warning_intf; available_intf; functional_intf] =
  ["xyz.openbmc_project.Sensor.Value"; "xyz.openbmc_project.Sensor.Threshold.Critical";
   "xyz.openbmc_project.Sensor.Threshold.Warning"; "xyz.openbmc_project.State.Decorator.Availability";
   "xyz.openbmc_project.State.Decorator.OperationalStatus"].
Proof. reflexivity. Qed.

Lemma other_interfaces_lemma sf pow10 s m s' :
  handleSensorValue sf pow10 s m = Ok s' ->
  ~ In (m_intf m) ["xyz.openbmc_project.Sensor.Value"; "xyz.openbmc_project.Sensor.Threshold.Critical";
    "xyz.openbmc_project.Sensor.Threshold.Warning"; "xyz.openbmc_project.State.Decorator.Availability";
    "xyz.openbmc_project.State.Decorator.OperationalStatus"] -> s' = s.
Proof.
  intros H N. rewrite <- sensor_names_lemma in N. cbn [In] in N. unfold handleSensorValue in H.
  destruct (String.eqb_spec (m_intf m) value_intf) as [E|_]; [elim N; left; congruence|].
  destruct (String.eqb_spec (m_intf m) critical_intf) as [E|_]; [elim N; right; left; congruence|].
  destruct (String.eqb_spec (m_intf m) warning_intf) as [E|_]; [elim N; right; right; left; congruence|].
  rewrite andb_false_r in H.
  destruct (String.eqb_spec (m_intf m) available_intf) as [E|_]; [elim N; do 3 right; left; congruence|].
  destruct (String.eqb_spec (m_intf m) functional_intf) as [E|_]; [elim N; do 4 right; left; congruence|].
  injection H as <-. reflexivity.
Qed.

Lemma config_names_lemma :
  [zone_intf; pid_intf; stepwise_intf; manager_intf; pwm_intf] =
  ["xyz.openbmc_project.Configuration.Pid.Zone"; "xyz.openbmc_project.Configuration.Pid";
   "xyz.openbmc_project.Configuration.Stepwise"; "org.freedesktop.DBus.ObjectManager";
   "xyz.openbmc_project.Control.FanPwm"].
Proof. reflexivity. Qed.
