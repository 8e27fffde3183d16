(** * Properties C29-C31, C35, C46, C47: sensors.

    Vocabulary: SpecSensor.v.  Proofs: SensorProofs.v, WriteProofs.v. *)
From Coq Require Import ZArith Bool List String.
From Verif Require Import Base BaseFacts Dbl DblFacts ZoneModel SensorModel SpecSensor SensorProofs WriteProofs.
Import ListNotations.
Local Open Scope string_scope.

(** ** A sensor used in the examples

    Margin sensor "m", Value 50, Scale 0, range 0 .. 100, created at time 7 on a
    present object that is available and has no alarm. *)
Definition ex_pow : Z -> dbl := fun _ => D 1.
Definition ex_sf : sflags := SFlags true false.
Definition ex_info (asFailed : bool) : SensorConfig := MkSensorConfig "margin" "" "" 0 0 2 false asFailed false.
Definition ex_bus : bus_replies :=
  Replies (Some ["svc"]) (Some [("Value", VInt 50); ("MaxValue", VInt 100); ("Unit", VStr "C")])
    (Some (VBool true)) (Some [("CriticalAlarmLow", VBool false); ("CriticalAlarmHigh", VBool false)]) None.
Definition ex_dead : passive := passive_new "" "" true "".
Definition ex_sensor (asFailed : bool) : passive :=
  match createDbusPassive ex_sf ex_pow 7 "margin" "m" ex_bus (ex_info asFailed) with Some s => s | None => ex_dead end.
Definition value_msg (v : dvalue) (t : Z) : sensor_msg := Msg value_intf [("Value", v)] t.
Definition alarm_msg (k : string) (b : bool) : sensor_msg := Msg critical_intf [(k, VBool b)] 9.
Definition avail_msg (b : bool) : sensor_msg := Msg available_intf [("Available", VBool b)] 9.
Definition func_msg (b : bool) : sensor_msg := Msg functional_intf [("Functional", VBool b)] 9.
Definition failed_after (sf : sflags) (s : passive) (red : option (list string)) (h : list sensor_msg) : option bool :=
  match passive_run sf ex_pow s h with Ok s' => Some (fst (passive_getFailed red s')) | _ => None end.

(** ** C29 *)
Theorem C29_failed_iff : forall sf pow10 now type id b info s0 h s red,
  createDbusPassive sf pow10 now type id b info = Some s0 ->
  passive_run sf pow10 s0 h = Ok s ->
  (fst (passive_getFailed red s) = true <->
   (exists failures, red = Some failures /\ In (path_of type id info) failures) \/
   missing b \/
   (exists i, starts sf now b info i /\
     ~ is_exempt type info i h /\
     (is_bad i h \/ (type = "margin" /\ is_hot pow10 i h) \/ is_alarmed (UNC_FAILSAFE sf) i h \/
      ~ is_available i h \/ ~ is_functional h))).
Proof. exact C29_lemma. Qed.
Print Assumptions C29_failed_iff.

(** A failed sensor gives a reason and reports entering failsafe, unless its
    path is in the failed redundancy set. *)
Theorem C29_reason_given : forall red s,
  fst (passive_getFailed red s) = true ->
  (forall l, red = Some l -> ~ In (p_path s) l) ->
  passive_getFailReason s <> "Unknown" /\ exists text, snd (passive_getFailed red s) = Some (true, text).
Proof. exact C29_reason_lemma. Qed.
Print Assumptions C29_reason_given.

(** Which reason is given and what is written to the log, in terms of what the
    bus said. *)
Theorem C29_texts : forall sf pow10 now type id b info s0 h s red,
  createDbusPassive sf pow10 now type id b info = Some s0 ->
  passive_run sf pow10 s0 h = Ok s ->
  (missing b ->
   passive_getFailReason s = "Sensor D-Bus object missing" /\
   first_case [(exists failures, red = Some failures /\ In (path_of type id info) failures,
                Some (true, "The sensor path is marked redundant."))]
     (Some (true, "The sensor D-Bus object is missing.")) (snd (passive_getFailed red s))) /\
  (forall i, ~ missing b -> starts sf now b info i ->
   first_case
     [(is_bad i h, "Sensor reading bad");
      (type = "margin" /\ is_hot pow10 i h, "Margin hot");
      (is_alarmed (UNC_FAILSAFE sf) i h, "Sensor threshold asserted");
      (~ is_available i h, "Sensor unavailable");
      (~ is_functional h, "Sensor not functional")] "Unknown" (passive_getFailReason s) /\
   first_case
     [(exists failures, red = Some failures /\ In (path_of type id info) failures,
       Some (true, "The sensor path is marked redundant."));
      (is_exempt type info i h, None);
      (is_bad i h, Some (true, "The sensor has bad readings."));
      (type = "margin" /\ is_hot pow10 i h, Some (true, "The sensor has no thermal margin left."));
      (is_alarmed (UNC_FAILSAFE sf) i h, Some (true, "The sensor has failed with a critical issue."));
      (~ is_available i h, Some (true, "The sensor is unavailable."));
      (~ is_functional h, Some (true, "The sensor is not functional."))]
     (Some (false, "The sensor has recovered.")) (snd (passive_getFailed red s))).
Proof. exact C29_texts_lemma. Qed.
Print Assumptions C29_texts.

Definition reason_after (h : list sensor_msg) : option (string * option (bool * string)) :=
  match passive_run ex_sf ex_pow (ex_sensor true) h with
  | Ok s' => Some (passive_getFailReason s', snd (passive_getFailed None s')) | _ => None end.
Example C29_texts_example :
  reason_after [func_msg false] = Some ("Sensor not functional", Some (true, "The sensor is not functional.")) /\
  reason_after [func_msg false; alarm_msg "CriticalAlarmLow" true] =
    Some ("Sensor threshold asserted", Some (true, "The sensor has failed with a critical issue.")) /\
  reason_after [func_msg false; alarm_msg "CriticalAlarmLow" true; value_msg (VInt 0) 8] =
    Some ("Margin hot", Some (true, "The sensor has no thermal margin left.")) /\
  reason_after [avail_msg false; func_msg false] =
    Some ("Sensor reading bad", Some (true, "The sensor has bad readings.")) /\
  reason_after [func_msg false; func_msg true] = Some ("Unknown", Some (false, "The sensor has recovered.")).
Proof. vm_compute. repeat split. Qed.

Example C29_example :
  (exists s0, createDbusPassive ex_sf ex_pow 7 "margin" "m" ex_bus (ex_info true) = Some s0) /\
  failed_after ex_sf (ex_sensor true) None [] = Some false /\
  failed_after ex_sf (ex_sensor true) (Some ["/xyz/openbmc_project/sensors/temperature/m"]) [] = Some true /\
  failed_after ex_sf (ex_sensor true) None [value_msg (VDbl dnan) 8] = Some true /\
  failed_after ex_sf (ex_sensor true) None [value_msg (VDbl dnan) 8; value_msg (VInt 40) 9] = Some false /\
  failed_after ex_sf (ex_sensor true) None [value_msg (VInt 0) 8] = Some true /\
  failed_after ex_sf (ex_sensor true) None [alarm_msg "CriticalAlarmLow" true] = Some true /\
  failed_after ex_sf (ex_sensor true) None [avail_msg false] = Some true /\
  failed_after ex_sf (ex_sensor false) None [avail_msg false] = Some false /\
  failed_after ex_sf (ex_sensor false) None [func_msg false] = Some true.
Proof.
  split; [apply some_exists; vm_compute; reflexivity|]. vm_compute. repeat split.
Qed.

(** A failed redundancy set gives no reason. *)
Theorem C29_redundancy_reason_refuted : exists s,
  fst (passive_getFailed (Some ["/xyz/openbmc_project/sensors/temperature/m"]) s) = true /\
  passive_getFailReason s = "Unknown".
Proof. exists (ex_sensor true). vm_compute. repeat split. Qed.
Print Assumptions C29_redundancy_reason_refuted.

(** With unc-failsafe, a warning alarm going away hides a critical alarm that
    is still asserted. *)
Theorem C29_warning_hides_critical_refuted : exists s0 critical warning,
  m_intf critical = critical_intf /\ m_props critical = [("CriticalAlarmHigh", VBool true)] /\
  m_intf warning = warning_intf /\ m_props warning = [("WarningAlarmHigh", VBool false)] /\
  failed_after (SFlags true true) s0 None [critical] = Some true /\
  failed_after (SFlags true true) s0 None [critical; warning] = Some false.
Proof.
  exists (ex_sensor true), (alarm_msg "CriticalAlarmHigh" true),
    (Msg warning_intf [("WarningAlarmHigh", VBool false)] 9).
  vm_compute. repeat split.
Qed.
Print Assumptions C29_warning_hides_critical_refuted.

(** ** C30 *)
Theorem C30_value_is_last_accepted : forall sf pow10 now type id b info s0 h s i,
  createDbusPassive sf pow10 now type id b info = Some s0 ->
  starts sf now b info i -> ~ missing b ->
  notnan (dmul (i_min i) (pow10 (i_scale i))) -> notnan (dmul (i_max i) (pow10 (i_scale i))) ->
  passive_run sf pow10 s0 h = Ok s ->
  let '(v, t) := latest accepted (i_value i, i_now i) h in
  let raw := dmul v (pow10 (i_scale i)) in
  passive_read s =
    MkRead (normalise (dmul (i_min i) (pow10 (i_scale i))) (dmul (i_max i) (pow10 (i_scale i))) raw) t raw.
Proof. exact C30_lemma. Qed.
Print Assumptions C30_value_is_last_accepted.

Theorem C30_bad_reading_keeps_value : forall sf pow10 s m s' v,
  handleSensorValue sf pow10 s m = Ok s' -> reading m = Some v -> disfinite v = false ->
  passive_read s' = passive_read s /\
  (p_available s = true -> forall red, fst (passive_getFailed red s') = true).
Proof. exact C30_step_lemma. Qed.
Print Assumptions C30_bad_reading_keeps_value.

Definition read_after (h : list sensor_msg) (v raw : Z) (t : Z) : bool :=
  match passive_run ex_sf ex_pow (ex_sensor true) h with
  | Ok s => dsame (dmul (rr_value (passive_read s)) (D 100)) (D v) && dsame (rr_unscaled (passive_read s)) (D raw) &&
            Z.eqb (rr_updated (passive_read s)) t
  | _ => false
  end.
Definition ex_initial : initial := Initial 7 (D 50) false true 0 (D 0) (D 100).
Example C30_example :
  starts ex_sf 7 ex_bus (ex_info true) ex_initial /\ ~ missing ex_bus /\
  notnan (dmul (i_min ex_initial) (ex_pow 0)) /\ notnan (dmul (i_max ex_initial) (ex_pow 0)) /\
  read_after [] 50 50 7 = true /\
  read_after [value_msg (VInt 25) 8] 25 25 8 = true /\
  read_after [value_msg (VInt 25) 8; value_msg (VDbl dnan) 9] 25 25 8 = true /\
  reading (value_msg (VDbl dnan) 9) = Some dnan.
Proof.
  split.
  { exists [("Value", VInt 50); ("MaxValue", VInt 100); ("Unit", VStr "C")]. repeat split. }
  split; [intro H; exact H|]. vm_compute. repeat split.
Qed.

(** An object without a Value property starts out with reading 0, not with "no
    reading". *)
Theorem C30_missing_value_reads_zero_refuted : exists s,
  createDbusPassive ex_sf ex_pow 7 "temp" "t" (Replies (Some ["svc"]) (Some []) None None None) (ex_info true) = Some s /\
  dsame (rr_value (passive_read s)) d0 = true /\ rr_updated (passive_read s) = 7%Z /\
  fst (passive_getFailed None s) = false.
Proof.
  apply (some_such (fun s => dsame (rr_value (passive_read s)) d0 && Z.eqb (rr_updated (passive_read s)) 7 &&
                             negb (fst (passive_getFailed None s)))); [vm_compute; reflexivity|].
  intros s H. apply andb_prop in H. destruct H as [H H3]. apply andb_prop in H. destruct H as [H1 H2].
  split; [exact H1|]. split; [apply Z.eqb_eq; exact H2|apply negb_true_iff; exact H3].
Qed.
Print Assumptions C30_missing_value_reads_zero_refuted.

(** ** C31 *)
Theorem C31_critical_message_decides : forall sf pow10 now type id b info s0 h s m s' red,
  createDbusPassive sf pow10 now type id b info = Some s0 ->
  passive_run sf pow10 s0 h = Ok s ->
  handleSensorValue sf pow10 s m = Ok s' ->
  m_intf m = critical_intf ->
  let low := mget "CriticalAlarmLow" (m_props m) in
  let high := mget "CriticalAlarmHigh" (m_props m) in
  present low || present high = true ->
  (fst (passive_getFailed red s') = true <->
   (exists failures, red = Some failures /\ In (path_of type id info) failures) \/
   missing b \/
   (exists i, starts sf now b info i /\
     ~ is_exempt type info i h /\
     (truth low || truth high = true \/ is_bad i h \/ (type = "margin" /\ is_hot pow10 i h) \/
      ~ is_available i h \/ ~ is_functional h))).
Proof. exact C31_message_lemma. Qed.
Print Assumptions C31_critical_message_decides.

Theorem C31_empty_message_changes_nothing : forall sf pow10 s m s',
  m_intf m = critical_intf ->
  handleSensorValue sf pow10 s m = Ok s' ->
  mget "CriticalAlarmLow" (m_props m) = None ->
  mget "CriticalAlarmHigh" (m_props m) = None -> s' = s.
Proof. exact C31_silent_lemma. Qed.
Print Assumptions C31_empty_message_changes_nothing.

Example C31_example :
  failed_after ex_sf (ex_sensor true) None [alarm_msg "CriticalAlarmHigh" true] = Some true /\
  failed_after ex_sf (ex_sensor true) None
    [alarm_msg "CriticalAlarmHigh" true; alarm_msg "CriticalAlarmLow" false] = Some false /\
  failed_after ex_sf (ex_sensor true) None
    [alarm_msg "CriticalAlarmHigh" true; alarm_msg "Other" false] = Some true.
Proof. vm_compute. repeat split. Qed.

(** ** C35 *)
Theorem C35_normalised_in_unit_interval : forall min max v,
  dlt d0 max -> dlt min max -> dfinite (dsub max min) -> dfinite min -> dfinite max ->
  dle min v -> dle v max ->
  dle d0 (scaleSensorReading min max v) /\ dle (scaleSensorReading min max v) (D 1) /\
  (deq v min -> deq (scaleSensorReading min max v) d0) /\
  (deq v max -> deq (scaleSensorReading min max v) (D 1)).
Proof. exact C35_bounds_lemma. Qed.
Print Assumptions C35_normalised_in_unit_interval.

Theorem C35_normalised_monotone : forall min max v v',
  dlt d0 max -> dlt min max -> dfinite (dsub max min) -> dfinite min -> dfinite max ->
  dle min v -> dle v v' -> dle v' max ->
  dle (scaleSensorReading min max v) (scaleSensorReading min max v').
Proof. exact C35_monotone_lemma. Qed.
Print Assumptions C35_normalised_monotone.

Theorem C35_no_range_passes_unchanged : forall min max v,
  dle max d0 \/ dle max min -> scaleSensorReading min max v = v.
Proof. exact C35_passthrough_lemma. Qed.
Print Assumptions C35_no_range_passes_unchanged.

(** The hypothesis that max - min is finite is needed. *)
Definition ex_huge : dbl := dmul (D (2 ^ 1000)) (D (2 ^ 23)).
Theorem C35_range_overflow_refuted : exists min max v,
  dlt d0 max /\ dlt min max /\ dfinite min /\ dfinite max /\ dle min v /\ dle v max /\
  ~ dle (scaleSensorReading min max v) (D 1).
Proof. exists (dsub d0 ex_huge), ex_huge, ex_huge. vm_compute. repeat split; discriminate. Qed.
Print Assumptions C35_range_overflow_refuted.

Example C35_example :
  dlt d0 (D 100) /\ dlt (D 20) (D 100) /\ dfinite (dsub (D 100) (D 20)) /\ dfinite (D 20) /\ dfinite (D 100) /\
  dle (D 20) (D 40) /\ dle (D 40) (D 60) /\ dle (D 60) (D 100) /\
  dsame (dmul (scaleSensorReading (D 20) (D 100) (D 40)) (D 4)) (D 1) = true /\
  dsame (scaleSensorReading (D 20) (D 0) (D 40)) (D 40) = true.
Proof. vm_compute. repeat split. Qed.

(** ** C46 *)
Theorem C46_pluggable_sensor : forall flagged first changes readerFailed,
  pluggable_getFailed flagged (fold_left handleStateChange changes (host_initial first)) readerFailed = true <->
  readerFailed = true /\ (flagged = true -> host_on first changes).
Proof. exact C46_pluggable_lemma. Qed.
Print Assumptions C46_pluggable_sensor.

Theorem C46_host_sensor : forall flagged first changes now h,
  fst (host_getFailed flagged (fold_left handleStateChange changes (host_initial first))
         (fold_left host_setValue h (host_createTemp now))) = true <->
  disfinite (latest (fun e => Some (fst e)) d0 h) = false /\ (flagged = true -> host_on first changes).
Proof. exact C46_host_sensor_lemma. Qed.
Print Assumptions C46_host_sensor.

Example C46_example :
  host_on (Some "xyz.HostState.Off") [None; Some "xyz.HostState.Running"; None] /\
  pluggable_getFailed true (fold_left handleStateChange [Some "xyz.HostState.Running"] (host_initial None)) true = true /\
  pluggable_getFailed true (fold_left handleStateChange [Some "xyz.HostState.Off"] (host_initial (Some "x.Running"))) true = false /\
  pluggable_getFailed false (host_initial None) true = true /\
  fst (host_getFailed true (host_initial None) (fold_left host_setValue [(dnan, 3%Z)] (host_createTemp 1))) = false /\
  fst (host_getFailed false (host_initial None) (fold_left host_setValue [(D 5, 2%Z); (dnan, 3%Z)] (host_createTemp 1))) = true.
Proof.
  split; [exists "xyz.HostState.Running"; split; [reflexivity|exists "xyz.HostState"; reflexivity]|].
  vm_compute. repeat split.
Qed.

(** ** C47 *)
Theorem C47_failed_set : forall path first msgs failed,
  foldM handleRedundancy msgs first = Ok failed ->
  (In path failed <->
   (exists s, latest (fun m => option_map Some (covers path m)) None msgs = Some s /\ mentions_failed s) \/
   (latest (fun m => option_map Some (covers path m)) None msgs = None /\ In path first)).
Proof. exact C47_lemma. Qed.
Print Assumptions C47_failed_set.

Theorem C47_initial_set : forall path objs failed,
  populateFailures (Some (map Some objs)) = Ok failed ->
  (In path failed <->
   exists o s c, In o objs /\ ro_status o = RStatus s /\ mentions_failed s /\
                 ro_collection o = Some c /\ In path c).
Proof. exact C47_initial_lemma. Qed.
Print Assumptions C47_initial_set.

Example C47_example :
  foldM handleRedundancy [RMsg (RStatus "x.Failed") (Some ["a"; "b"]); RMsg (RStatus "x.Full") (Some ["a"])] ["c"]
    = Ok ["b"; "c"] /\
  covers "a" (RMsg (RStatus "x.Full") (Some ["a"])) = Some "x.Full" /\
  mentions_failed "x.Failed" /\
  populateFailures (Some (map Some [RObj (RStatus "x.Failed") (Some ["a"; "b"]); RObj (RStatus "x.Full") None]))
    = Ok ["b"; "a"].
Proof. repeat split. exists "x.", "". reflexivity. Qed.
