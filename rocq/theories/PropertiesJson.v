(** * Properties C65-C68: the JSON configuration.

    Vocabulary: SpecJson.v, SpecJsonSystem.v.  Proofs: JsonProofs.v to
    JsonProofs3.v, JsonSystemProofs.v. *)
From Coq Require Import ZArith Bool List String Permutation.
From Verif Require Import Base Dbl DblFacts PidModel ZoneModel LoopModel ZoneProofs BuilderModel SpecBuilder ConfigModel
  SensorModel WriteModel SpecWrite PathProofs SystemModel SpecSystem PropertiesZone PropertiesBuilder PropertiesSystem
  JsonModel SpecJson SpecJsonSystem JsonProofs JsonProofs2 JsonProofs3 JsonSystemProofs.
Import ListNotations.
Local Open Scope string_scope.

(** ** A document *)
Definition jx_fan_text : sensor_text :=
  MkSensor "fan1" "fan" "/xyz/openbmc_project/sensors/fan_tach/fan1" (Some "/sys/pwm1")
    (Some 0%Z) (Some 255%Z) None None None None.
Definition jx_temp_text : sensor_text :=
  MkSensor "temp1" "temp" "/xyz/openbmc_project/sensors/temperature/temp1" None
    None (Some 9%Z) None (Some true) (Some false) None.
Definition jx_fan_pid : pid_text :=
  MkPid "fans" "fan" ["fan1"] (NInt 90) None None (Some 80%Z) None None
    (PidText (MkPidText (NReal (ddiv (D 1) (D 10))) (NInt 0) (NInt 0) (NInt 0) (NInt 1) (NInt 0) (NInt 0)
       (NInt 0) (NInt 100) (NInt 0) (NInt 0) None None)).
Definition jx_step_pid : pid_text :=
  MkPid "step" "stepwise" ["temp1"] (NInt 30) None (Some ["temp1"]) None (Some (NInt 2)) None
    (StepText (MkStepText (NInt 1) false (Some [NInt 45; NInt 46]) (Some [NInt 5000; NReal (D 2400)]))).
Definition jx_zone_text : zone_text := MkZone 1 (NInt 3000) (NReal (D 75)) None (Some 0%Z) None [jx_fan_pid; jx_step_pid].

Definition jx_sensors_json : list json :=
  [JObj [("max", JUint 255); ("min", JUint 0); ("name", JStr "fan1");
         ("readPath", JStr "/xyz/openbmc_project/sensors/fan_tach/fan1"); ("type", JStr "fan");
         ("writePath", JStr "/sys/pwm1")];
   JObj [("comment", JNull); ("ignoreDbusMinMax", JBool true); ("max", JUint 9); ("name", JStr "temp1");
         ("readPath", JStr "/xyz/openbmc_project/sensors/temperature/temp1"); ("type", JStr "temp");
         ("unavailableAsFailed", JBool false)]].
Definition jx_fan_pid_json (percent : json) : json :=
  JObj [("FailSafePercent", percent); ("inputs", JArr [JStr "fan1"]); ("name", JStr "fans");
        ("pid", JObj [("feedFwdGainCoeff", JUint 1); ("feedFwdOffsetCoeff", JUint 0); ("integralCoeff", JUint 0);
                      ("integralLimit_max", JUint 0); ("integralLimit_min", JUint 0); ("outLim_max", JUint 100);
                      ("outLim_min", JUint 0); ("proportionalCoeff", JUint 0);
                      ("samplePeriod", JFloat (ddiv (D 1) (D 10))); ("slewNeg", JUint 0); ("slewPos", JUint 0)]);
        ("setpoint", JUint 90); ("type", JStr "fan")].
Definition jx_step_pid_json (readings : list (string * json)) : json :=
  JObj [("inputs", JArr [JStr "temp1"]); ("missingIsAcceptable", JArr [JStr "temp1"]); ("name", JStr "step");
        ("pid", JObj [("isCeiling", JBool false); ("output", JObj [("0", JUint 5000); ("1", JFloat (D 2400))]);
                      ("positiveHysteresis", JUint 2); ("reading", JObj readings); ("samplePeriod", JUint 1)]);
        ("setpoint", JUint 30); ("type", JStr "stepwise")].
Definition jx_doc (sensors pids : list json) : json :=
  JObj [("sensors", JArr sensors);
        ("zones", JArr [JObj [("failsafePercent", JFloat (D 75)); ("id", JUint 1); ("minThermalOutput", JUint 3000);
                              ("pids", JArr pids); ("updateThermalsTimeMS", JUint 0)]])].
Definition jx_readings : list (string * json) := [("0", JUint 45); ("1", JUint 46)].
Definition jx_json : json := jx_doc jx_sensors_json [jx_fan_pid_json (JUint 80); jx_step_pid_json jx_readings].

(** ** C65 *)

(** A document that describes a configuration loads as exactly that
    configuration.  Optional keys may be left out, other keys may be added, and
    the keys may come in any order. *)
Theorem C65_loaded_as_written : forall j sensors zones,
  doc_says j sensors zones -> exists c, load_json j = Ok c /\ as_written c sensors zones.
Proof. exact C65_lemma. Qed.
Print Assumptions C65_loaded_as_written.

Ltac ex_keys :=
  eexists; split; [reflexivity|split;
    [repeat (apply NoDup_cons; [cbn [map fst In]; intuition discriminate|]); apply NoDup_nil
    |repeat apply Forall_cons; try apply Forall_nil; cbn -[D ddiv];
     first [intuition discriminate | repeat first [left; reflexivity|right]]]].
Lemma jx_says : doc_says jx_json [jx_fan_text; jx_temp_text] [jx_zone_text].
Proof.
  split; [discriminate|]. exists jx_sensors_json. eexists. split; [|split; [|ex_keys]].
  - unfold jx_sensors_json. repeat apply Forall2_cons; try apply Forall2_nil.
    + do 3 (split; [vm_compute; intuition discriminate|]). ex_keys.
    + do 3 (split; [vm_compute; intuition discriminate|]). ex_keys.
  - apply Forall2_cons; [|apply Forall2_nil].
    split; [vm_compute; intuition discriminate|]. split; [exact I|]. split; [vm_compute; intuition discriminate|].
    split; [discriminate|]. eexists. split; [|ex_keys].
    apply Forall2_cons; [|apply Forall2_cons; [|apply Forall2_nil]].
    + split; [vm_compute; intuition discriminate|]. eexists. split; [|ex_keys].
      split; [discriminate|]. ex_keys.
    + split; [exact I|]. eexists. split; [|ex_keys].
      split; [reflexivity|]. eexists (Some _), (Some _). split; [|split; [|ex_keys]].
      * split; [cbn; repeat constructor|]. ex_keys.
      * split; [cbn; repeat constructor|]. ex_keys.
Qed.
Definition no_loaded : loaded := MkLoaded [] [] [].
Definition jx_loaded (j : json) : loaded := get_ok no_loaded (load_json j).
Definition jx_pid (name : string) (c : loaded) : option ControllerInfo :=
  match zget 1%Z (l_pids c) with Some m => mget name m | None => None end.
Example C65_example :
  doc_says jx_json [jx_fan_text; jx_temp_text] [jx_zone_text] /\
  is_ok (load_json jx_json) = true /\
  map fst (l_sensors (jx_loaded jx_json)) = ["fan1"; "temp1"] /\
  option_map sc_max (mget "temp1" (l_sensors (jx_loaded jx_json))) = Some 0%Z /\
  option_map zc_updateThermalsTimeMS (zget 1%Z (l_zones (jx_loaded jx_json))) = Some 1000%Z /\
  option_map (fun i => dsame (ci_failSafePercent i) (D 80)) (jx_pid "fans" (jx_loaded jx_json)) = Some true.
Proof.
  split; [exact jx_says|]. repeat match goal with |- _ /\ _ => split end; vm_compute; reflexivity.
Qed.

(** A percentage with a fraction is accepted for a PID but cut off: 0.5 is the
    same as not giving one. *)
Theorem C65_fractional_percent_refuted : exists j c,
  j = jx_doc jx_sensors_json [jx_fan_pid_json (JFloat (ddiv (D 1) (D 2)))] /\ load_json j = Ok c /\
  option_map (fun i => dsame (ci_failSafePercent i) (ddiv (D 1) (D 2))) (jx_pid "fans" c) = Some false /\
  option_map (fun i => dsame (ci_failSafePercent i) (D 0)) (jx_pid "fans" c) = Some true.
Proof.
  eexists. exists (jx_loaded (jx_doc jx_sensors_json [jx_fan_pid_json (JFloat (ddiv (D 1) (D 2)))])).
  split; [reflexivity|]. split; [apply get_ok_eq; vm_compute; reflexivity|].
  split; vm_compute; reflexivity.
Qed.
Print Assumptions C65_fractional_percent_refuted.

(** A table may not have more than 20 points; a 21st is dropped without notice. *)
Definition jx_long : json :=
  jx_doc jx_sensors_json
    [jx_step_pid_json (map (fun k => (k, JUint 40)) point_keys ++ [("20", JUint 90)])%list].
Theorem C65_long_table_refuted : exists c,
  load_json jx_long = Ok c /\
  option_map (fun i => existsb (fun k => dsame (sw_reading (ci_stepwiseInfo i) k) (D 90)) (seq 0 25))
    (jx_pid "step" c) = Some false.
Proof.
  exists (jx_loaded jx_long). split; [apply get_ok_eq; vm_compute; reflexivity|]. vm_compute. reflexivity.
Qed.
Print Assumptions C65_long_table_refuted.

(** configure.md: "If a sensor is a fan the default value [of the timeout] is 2
    seconds, otherwise it's 0."  It is the other way round. *)
Theorem C65_documented_timeout_refuted : exists j c,
  doc_says j [jx_fan_text; jx_temp_text] [jx_zone_text] /\ load_json j = Ok c /\
  option_map sc_timeout (mget "fan1" (l_sensors c)) = Some 0%Z /\
  option_map sc_timeout (mget "temp1" (l_sensors c)) = Some 2%Z.
Proof.
  exists jx_json, (jx_loaded jx_json). split; [exact jx_says|].
  split; [apply get_ok_eq; vm_compute; reflexivity|]. split; vm_compute; reflexivity.
Qed.
Print Assumptions C65_documented_timeout_refuted.

(** ** C66 *)

(** Exactly the documents with all required keys and the right types load. *)
Theorem C66_accepted_documents : forall j, (exists c, load_json j = Ok c) <-> good_document j.
Proof. exact C66_lemma. Qed.
Print Assumptions C66_accepted_documents.

(** A missing key, a wrong type and an empty list of PIDs; nothing of these
    loads. *)
Definition jx_no_read_path : json :=
  jx_doc [JObj [("name", JStr "fan1"); ("type", JStr "fan"); ("writePath", JStr "/sys/pwm1")]]
    [jx_fan_pid_json (JUint 80)].
Example C66_example :
  good_document jx_json /\
  ~ good_document (jx_doc jx_sensors_json [jx_fan_pid_json (JStr "80")]) /\
  ~ good_document (jx_doc jx_sensors_json []) /\ ~ good_document (jx_doc [] [jx_fan_pid_json (JUint 80)]).
Proof.
  repeat split; try (apply C66_lemma; eexists; apply (get_ok_eq no_loaded); vm_compute; reflexivity);
    rewrite <- C66_lemma; intros (c & E); apply (f_equal is_ok) in E; vm_compute in E; discriminate.
Qed.

(** configure.md: "The [readPath] ... is optional, allowing for write-only
    sensors."  A fan without it is refused. *)
Theorem C66_optional_read_path_refuted : exists j,
  j = jx_no_read_path /\ load_json j = Throw "key not found".
Proof. eexists. split; [reflexivity|]. vm_compute. reflexivity. Qed.
Print Assumptions C66_optional_read_path_refuted.

(** ** C67 *)

(** Loading has no undefined behaviour if every sensor, PID and zone has its name
    or number, every zone its two limits, and numbers stay in range. *)
Theorem C67_always_answered : forall j, tame_document j -> forall m, load_json j <> UB m.
Proof. exact C67_lemma. Qed.
Print Assumptions C67_always_answered.

Definition jx_bad : json :=
  jx_doc [JObj [("name", JUint 1); ("readPath", JStr "x"); ("timeout", JStr "y"); ("type", JStr "fan")]; JUint 7]
    [JObj [("name", JNull)]; JBool true].
Example C67_example :
  tame_document jx_bad /\ load_json jx_bad = Throw "type must be number".
Proof.
  split; [|vm_compute; reflexivity].
  split; intros v E; cbn -[D ddiv] in E; injection E as <-; cbn [entries].
  - apply Forall_cons; [|apply Forall_cons; [intros [m X]; discriminate X|apply Forall_nil]].
    intros _. split; [intros X; cbn -[D ddiv] in X; discriminate X|].
    repeat split; intros v E; cbn -[D ddiv] in E; try discriminate E. injection E as <-. intros X. destruct X.
  - apply Forall_cons; [|apply Forall_nil]. intros _.
    split; [eexists; split; [reflexivity|intros _; exact I]|].
    split; [intros X; cbn -[D ddiv] in X; discriminate X|]. split; [intros X; cbn -[D ddiv] in X; discriminate X|].
    split; [intros v E; cbn -[D ddiv] in E; discriminate E|].
    split; [intros v E; cbn -[D ddiv] in E; injection E as <-; intros _; exact I|].
    intros v E. cbn -[D ddiv] in E. injection E as <-. cbn [entries].
    apply Forall_cons; [|apply Forall_cons; [intros [m X]; discriminate X|apply Forall_nil]].
    intros _. split; [intros X; cbn -[D ddiv] in X; discriminate X|]. intros v E. cbn -[D ddiv] in E. discriminate E.
Qed.

(** A zone without a number is not refused but has undefined behaviour. *)
Theorem C67_missing_zone_number_refuted : exists j m,
  j = JObj [("sensors", JArr jx_sensors_json);
            ("zones", JArr [JObj [("failsafePercent", JUint 75); ("minThermalOutput", JUint 3000);
                                  ("pids", JArr [jx_fan_pid_json (JUint 80)])]])] /\
  load_json j = UB m.
Proof. eexists. eexists. split; [reflexivity|]. vm_compute. reflexivity. Qed.
Print Assumptions C67_missing_zone_number_refuted.

(** So does a sensor without a name. *)
Theorem C67_missing_sensor_name_refuted : exists j m,
  j = jx_doc [JObj [("readPath", JStr "/sys/fan1"); ("type", JStr "fan")]] [jx_fan_pid_json (JUint 80)] /\
  load_json j = UB m.
Proof. eexists. eexists. split; [reflexivity|]. vm_compute. reflexivity. Qed.
Print Assumptions C67_missing_sensor_name_refuted.

(** ** C68 *)

(** If the PIDs of the document only use sensors of the document, and the bus has
    what these need, the daemon comes up as described and keeps running. *)
Theorem C68_document_runs : forall f sf pow10 sb bus_ok failures first devices j sensors zones,
  doc_says j sensors zones -> text_served sensors zones -> bus_serves sf pow10 sb bus_ok sensors zones ->
  exists c m built,
    load_json j = Ok c /\ buildSensors sf pow10 sb (l_sensors c) = Ok m /\
    buildZones bus_ok (l_pids c) (l_zones c) = Ok built /\ as_written c sensors zones /\
    forall zs, Permutation (map snd zs) (map snd built) ->
      Forall (fun e => files_ok sb (l_sensors c) (st_files (fst e)) /\ tuning_readable f (st_tune (fst e))) zs ->
      exists s0, sys_start f m failures (host_initial first) devices zs = Ok s0 /\
        forall evs, Forall (served f sb (l_sensors c)) evs -> returns_or_bad_command (sys_run f sf pow10 evs s0).
Proof. exact C68_lemma. Qed.
Print Assumptions C68_document_runs.

Example C68_example :
  doc_says jx_json [jx_fan_text; jx_temp_text] [jx_zone_text] /\
  text_served [jx_fan_text; jx_temp_text] [jx_zone_text] /\
  bus_serves ex_sf ex_pow sys_bus ex_bus [jx_fan_text; jx_temp_text] [jx_zone_text].
Proof.
  split; [exact jx_says|]. split.
  - intros z p [<-|[]] [<-|[<-|[]]].
    + split; [|split; [|intros X; discriminate X]].
      * intros _. split; [discriminate|]. intros n [<-|[]]. exists jx_fan_text. split; [reflexivity|].
        split; [left; reflexivity|left; path_class].
      * intros _ n [<-|[]]. exists jx_fan_text. split; reflexivity.
    + split; [|split; [intros X; discriminate X|intros X; discriminate X]].
      intros _. split; [discriminate|]. intros n [<-|[]]. exists jx_temp_text. split; [reflexivity|].
      split; [right; left; reflexivity|left; path_class].
  - split.
    + intros s [<-|[<-|[]]]; (split;
        [intros _ X; apply (f_equal (fun o => match o with Some _ => true | None => false end)) in X;
         vm_compute in X; discriminate X
        |split; [intros _; eexists; apply FixupPath_ok; reflexivity|];
         split; [|split; [|reflexivity]]; intros T; first [discriminate T | intros _; reflexivity
                                | intros _; eexists; apply FixupPath_ok; reflexivity]]).
    + split; [intros s s' [<-|[<-|[]]] [<-|[<-|[]]] _ _ E; first [reflexivity|discriminate E]|].
      intros z [<-|[]]. split; [reflexivity|]. intros p _ _. reflexivity.
Qed.
