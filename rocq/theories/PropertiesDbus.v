(** * Properties C69-C72: the configuration on D-Bus.

    Vocabulary: SpecDbus.v, SpecDbusSystem.v.  Proofs: DbusProofs.v to
    DbusProofs6.v, DbusSystemProofs.v.  The examples use ExamplesDbus.v. *)
From Coq Require Import ZArith Bool List String Lia Permutation.
From Verif Require Import Base Dbl DblFacts PidModel ZoneModel LoopModel ZoneProofs BuilderModel SpecBuilder
  SensorModel WriteModel SystemModel SpecSystem PropertiesZone PropertiesBuilder PropertiesSystem
  JsonModel SpecJson ConfigModel DbusConfigModel SpecDbus SpecDbusSystem
  DbusProofs4 DbusProofs5 DbusProofs6 DbusSystemProofs ExamplesDbus.
Import ListNotations.
Local Open Scope string_scope.

Definition no_config : bool * loaded := (false, MkLoaded [] [] []).
Definition dx_init (sf : sflags) (objs : smap object) : outcome (bool * loaded) := dbus_init sf dx_regex (dx_bus objs).
Definition dx_loaded (sf : sflags) (objs : smap object) : loaded := snd (get_ok no_config (dx_init sf objs)).
Definition dx_entry (i : Z) (n : string) (c : loaded) : option ControllerInfo :=
  match zget i (l_pids c) with Some m => mget n m | None => None end.
Lemma get_flag_eq flag o : is_ok o = true /\ fst (get_ok no_config o) = flag -> o = Ok (flag, snd (get_ok no_config o)).
Proof. destruct o as [[b c]| |]; cbn; intros [H E]; try discriminate. subst. reflexivity. Qed.
(** Without the option to handle missing object paths. *)
Definition dx_strict : sflags := SFlags false false.

(** ** C69 *)

(** What is loaded is what the objects on the bus say: every sensor, zone and
    controller comes from an object, with its values, and no controller or zone
    is lost.  Zones have different numbers.  A number asked for is granted. *)
Theorem C69_loaded_from_the_bus : forall sf re cb b c,
  dbus_init sf re cb = Ok (b, c) ->
  exists resp bus objs number,
    cb_subtree cb = Some resp /\ searched resp bus /\ reads cb resp objs /\
    one_to_one number /\ requests_granted objs number /\
    as_configured (Setting sf re resp bus (cb_thresholds cb)) (parts objs) number c /\
    (b = true <-> l_pids c <> [] /\ l_zones c <> []).
Proof. exact C69_lemma. Qed.
Print Assumptions C69_loaded_from_the_bus.

Example C69_example :
  is_ok (dx_init ex_sf dx_objs) = true /\
  fst (get_ok no_config (dx_init ex_sf dx_objs)) = true /\
  map fst (l_sensors (dx_loaded ex_sf dx_objs)) = ["fan_1pwm_1"; "temp1"] /\
  option_map sc_writePath (mget "fan_1pwm_1" (l_sensors (dx_loaded ex_sf dx_objs))) = Some dx_pwm1 /\
  map fst (l_zones (dx_loaded ex_sf dx_objs)) = [3%Z] /\
  option_map zc_cycleIntervalTimeMS (zget 3%Z (l_zones (dx_loaded ex_sf dx_objs))) = Some 200%Z /\
  map (fun e => (fst e, map fst (snd e))) (l_pids (dx_loaded ex_sf dx_objs)) = [(3%Z, ["CPU"; "Fan_1"; "Step"])] /\
  option_map (fun i => dsame (ci_setpoint i) (D 60)) (dx_entry 3 "CPU" (dx_loaded ex_sf dx_objs)) = Some true.
Proof. repeat match goal with |- _ /\ _ => split end; vm_compute; reflexivity. Qed.

(** The same objects, visited in another order, give another configuration: a
    sensor used by a "temp" and a "margin" PID has the class of the later one. *)
Definition dx_two : object := [(pid_intf, dx_temp_pid "CPU" "temp" ["temp1"] [])].
Definition dx_two' : object := [(pid_intf, dx_temp_pid "Margin" "margin" ["temp1"] [])].
Theorem C69_order_refuted : exists objs objs' c c',
  objs = [("/inv/a", dx_two); ("/inv/b", dx_two')] /\ objs' = [("/inv/b", dx_two'); ("/inv/a", dx_two)] /\
  dx_init ex_sf objs = Ok (false, c) /\ dx_init ex_sf objs' = Ok (false, c') /\
  option_map sc_type (mget "temp1" (l_sensors c)) = Some "margin" /\
  option_map sc_type (mget "temp1" (l_sensors c')) = Some "temp".
Proof.
  eexists. eexists. exists (dx_loaded ex_sf [("/inv/a", dx_two); ("/inv/b", dx_two')]),
    (dx_loaded ex_sf [("/inv/b", dx_two'); ("/inv/a", dx_two)]).
  split; [reflexivity|]. split; [reflexivity|].
  split; [apply get_flag_eq; vm_compute; split; reflexivity|]. split; [apply get_flag_eq; vm_compute; split; reflexivity|].
  split; vm_compute; reflexivity.
Qed.
Print Assumptions C69_order_refuted.

(** The fail-safe percentage of a stepwise controller is ignored. *)
Theorem C69_stepwise_percent_refuted : exists props c,
  props = dx_step ["temp1"] /\ mget "FailSafePercent" props = Some (VU64 80) /\
  dx_init ex_sf [("/inv/cpu", [(stepwise_intf, props)])] = Ok (false, c) /\
  option_map (fun i => dsame (ci_failSafePercent i) (D 80)) (dx_entry 0 "Step" c) = Some false /\
  option_map (fun i => dsame (ci_failSafePercent i) (D 0)) (dx_entry 0 "Step" c) = Some true.
Proof.
  eexists. exists (dx_loaded ex_sf [("/inv/cpu", [(stepwise_intf, dx_step ["temp1"])])]).
  split; [reflexivity|]. split; [reflexivity|]. split; [apply get_flag_eq; vm_compute; split; reflexivity|].
  split; vm_compute; reflexivity.
Qed.
Print Assumptions C69_stepwise_percent_refuted.

(** The k-th value of TempToMargin does not go to the k-th of the Inputs if one of
    them is not on the bus. *)
Definition dx_margins : properties := [("TempToMargin", VDbls [D 10; D 20])].
Definition dx_margin_pid (inputs : list string) : smap object :=
  [("/inv/cpu", [(pid_intf, dx_temp_pid "CPU" "margin" inputs dx_margins)])].
Definition dx_zero (n : string) (o : option ControllerInfo) (d : dbl) : bool :=
  match o with
  | Some i => existsb (fun x => String.eqb (si_name x) n && dsame (si_convertMarginZero x) d) (ci_inputs i)
  | None => false
  end.
Theorem C69_margin_order_refuted : exists c,
  dx_init ex_sf (dx_margin_pid ["temp1"; "gone"]) = Ok (false, c) /\
  dx_zero "temp1" (dx_entry 0 "CPU" c) (D 20) = true /\ dx_zero "gone" (dx_entry 0 "CPU" c) (D 10) = true.
Proof.
  exists (dx_loaded ex_sf (dx_margin_pid ["temp1"; "gone"])).
  split; [apply get_flag_eq; vm_compute; split; reflexivity|]. split; vm_compute; reflexivity.
Qed.
Print Assumptions C69_margin_order_refuted.
Theorem C69_margin_shift_refuted : exists c,
  dx_init dx_strict (dx_margin_pid ["gone"; "temp1"]) = Ok (false, c) /\
  dx_zero "temp1" (dx_entry 0 "CPU" c) (D 10) = true /\ dx_zero "temp1" (dx_entry 0 "CPU" c) (D 20) = false.
Proof.
  exists (dx_loaded dx_strict (dx_margin_pid ["gone"; "temp1"])).
  split; [apply get_flag_eq; vm_compute; split; reflexivity|]. split; vm_compute; reflexivity.
Qed.
Print Assumptions C69_margin_shift_refuted.

(** Without the option, a stepwise controller loses the inputs after a missing
    one; here it is not there at all, although "temp1" is. *)
Theorem C69_stepwise_missing_refuted : exists c c',
  dx_init dx_strict [("/inv/cpu", [(stepwise_intf, dx_step ["gone"; "temp1"])])] = Ok (false, c) /\
  option_map (fun _ => tt) (dx_entry 0 "Step" c) = None /\
  dx_init dx_strict [("/inv/cpu", [(stepwise_intf, dx_step ["temp1"; "gone"])])] = Ok (false, c') /\
  option_map (fun i => map si_name (ci_inputs i)) (dx_entry 0 "Step" c') = Some ["temp1"].
Proof.
  exists (dx_loaded dx_strict [("/inv/cpu", [(stepwise_intf, dx_step ["gone"; "temp1"])])]),
    (dx_loaded dx_strict [("/inv/cpu", [(stepwise_intf, dx_step ["temp1"; "gone"])])]).
  split; [apply get_flag_eq; vm_compute; split; reflexivity|]. split; [vm_compute; reflexivity|].
  split; [apply get_flag_eq; vm_compute; split; reflexivity|]. vm_compute; reflexivity.
Qed.
Print Assumptions C69_stepwise_missing_refuted.

(** A zone number is ignored unless it is given as a floating-point number. *)
Theorem C69_integer_index_refuted : exists props c,
  props = [("Name", VStr "Main"); ("MinThermalOutput", VDbl (D 3000)); ("ZoneIndex", VU64 5)] /\
  dx_init ex_sf [("/inv/zone", [(zone_intf, props)])] = Ok (false, c) /\ map fst (l_zones c) = [0%Z].
Proof.
  eexists. exists (dx_loaded ex_sf [("/inv/zone",
    [(zone_intf, [("Name", VStr "Main"); ("MinThermalOutput", VDbl (D 3000)); ("ZoneIndex", VU64 5)])])]).
  split; [reflexivity|]. split; [apply get_flag_eq; vm_compute; split; reflexivity|]. vm_compute; reflexivity.
Qed.
Print Assumptions C69_integer_index_refuted.

(** ** C70 *)

(** A complete configuration is loaded, in whatever order objects and sensors are
    visited. *)
Theorem C70_complete_configuration_loads : forall sf re cb,
  complete sf re cb -> exists b c, dbus_init sf re cb = Ok (b, c).
Proof. exact C70_lemma. Qed.
Print Assumptions C70_complete_configuration_loads.

Example C70_example : complete ex_sf dx_regex (dx_bus dx_objs) /\ complete dx_strict dx_regex (dx_bus dx_objs).
Proof. split; apply dx_complete. Qed.

(** One object that is not complete, and nothing is loaded. *)
Theorem C70_one_bad_object_refuted : exists objs m,
  objs = (dx_objs ++ [("/inv/x", [(pid_intf, [("Name", VStr "x"); ("Class", VStr "temp"); ("Zones", VStrs ["Main"])])])])%list /\
  dx_init ex_sf objs = Throw m.
Proof. eexists. eexists. split; [reflexivity|]. vm_compute. reflexivity. Qed.
Print Assumptions C70_one_bad_object_refuted.

(** ** C71 *)

(** Whatever the objects say, loading them has no undefined behaviour, as long as
    numbers that are converted are in range. *)
Theorem C71_always_answered : forall sf re cb,
  (forall s m, re s <> UB m) -> in_range cb -> forall m, dbus_init sf re cb <> UB m.
Proof. exact C71_lemma. Qed.
Print Assumptions C71_always_answered.

Definition dx_bad : smap object :=
  [("/inv/a", [(zone_intf, [("Name", VDbl (D 1)); ("FailSafePercent", VStr "many"); ("ZoneIndex", VBool true)])]);
   ("/inv/b", [(pid_intf, [("Zones", VU64 7)]); (stepwise_intf, [])])].
Example C71_example :
  (forall s m, dx_regex s <> UB m) /\ in_range (dx_bus dx_bad) /\
  dx_init ex_sf dx_bad = Throw "bad_variant_access".
Proof.
  split; [discriminate|]. split; [|vm_compute; reflexivity].
  intros resp objs Er Re. cbn in Er. injection Er as <-. split.
  - pose proof (dx_few _ _ 1 Re) as L. cbn [dx_bad List.length] in L.
    assert (H : forall e, In e dx_bad -> (List.length (parts_of (snd e)) <= 1)%nat).
    { intros e I. cbn [dx_bad In] in I. destruct I as [<-|[<-|[]]]; cbn; lia. }
    specialize (L H). lia.
  - intros path o props I. apply (proj2 (dx_read _ _ Re)) in I. cbn [dx_bad In] in I.
    destruct I as [I|[I|[]]]; injection I as <- <-; split; intros E; try discriminate E; injection E as <-.
    + split; [intros v d E N; injection E as <-; inversion N|].
      split; [intros v d E; discriminate E|]. split; [intros v d E; discriminate E|]. intros d E. discriminate E.
    + intros v d E. discriminate E.
Qed.

(** A percentage or a zone number out of range is not refused. *)
Theorem C71_percent_refuted : exists props m,
  props = dx_zone [("FailSafePercent", VDbl (D 3000000000))] /\
  dx_init ex_sf [("/inv/zone", [(zone_intf, props)])] = UB m.
Proof. eexists. eexists. split; [reflexivity|]. vm_compute. reflexivity. Qed.
Print Assumptions C71_percent_refuted.
Theorem C71_zone_number_refuted : exists props m,
  props = dx_zone [("ZoneIndex", VDbl dnan)] /\ dx_init ex_sf [("/inv/zone", [(zone_intf, props)])] = UB m.
Proof. eexists. eexists. split; [reflexivity|]. vm_compute. reflexivity. Qed.
Print Assumptions C71_zone_number_refuted.

(** ** C72 *)

(** With a complete configuration whose zones are described, whose PIDs have known
    classes and whose sensors answer, the daemon starts and keeps running. *)
Theorem C72_configuration_runs : forall f sf pow10 sb bus_ok failures first devices re cb,
  complete sf re cb -> daemon_served sf re cb pow10 sb bus_ok ->
  exists b c m built,
    dbus_init sf re cb = Ok (b, c) /\ buildSensors sf pow10 sb (l_sensors c) = Ok m /\
    buildZones bus_ok (l_pids c) (l_zones c) = Ok built /\
    forall zs, Permutation (map snd zs) (map snd built) ->
      Forall (fun e => files_ok sb (l_sensors c) (st_files (fst e)) /\ tuning_readable f (st_tune (fst e))) zs ->
      exists s0, sys_start f m failures (host_initial first) devices zs = Ok s0 /\
        forall evs, Forall (served f sb (l_sensors c)) evs -> returns_or_bad_command (sys_run f sf pow10 evs s0).
Proof. exact C72_lemma. Qed.
Print Assumptions C72_configuration_runs.

Example C72_example :
  complete ex_sf dx_regex (dx_bus dx_objs) /\
  daemon_served ex_sf dx_regex (dx_bus dx_objs) ex_pow sys_bus (fun _ => true).
Proof. split; [apply dx_complete|apply dx_served]. Qed.

(** A controller in a zone that is not described is loaded, with success reported
    if another zone is described.  The zones cannot be built then. *)
Definition dx_no_zone : smap object :=
  [("/inv/zone", [(zone_intf, [("Name", VStr "Other"); ("MinThermalOutput", VDbl (D 3000))])]);
   ("/inv/fan", [(pid_intf, dx_fan_pid)])].
Theorem C72_zone_not_described_refuted : exists c m,
  dx_init ex_sf dx_no_zone = Ok (true, c) /\ buildZones (fun _ => true) (l_pids c) (l_zones c) = Throw m.
Proof.
  exists (dx_loaded ex_sf dx_no_zone). eexists. split; [apply get_flag_eq; vm_compute; split; reflexivity|]. vm_compute. reflexivity.
Qed.
Print Assumptions C72_zone_not_described_refuted.
