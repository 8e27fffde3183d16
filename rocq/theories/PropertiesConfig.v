(** * Properties C36, C37, C42, C43, C44: configuration helpers and the IPMI command.

    Vocabulary: SpecConfig.v.  Proofs: ConfigProofs.v, CycleProofs.v. *)
From Coq Require Import ZArith Bool List String.
From Verif Require Import Base BaseFacts Dbl ZoneModel ConfigModel SpecConfig IpmiModel ConfigProofs CycleProofs.
From Verif Require BuilderModel.
Import ListNotations.
Local Open Scope string_scope.
Local Open Scope Z_scope.

(** ** C36 *)
Theorem C36_numbers_are_unique : forall ops zones n1 n2 i,
  zone_ops ops [] = Ok zones ->
  number_of n1 zones = Some i -> number_of n2 zones = Some i -> n1 = n2.
Proof. exact C36_unique_lemma. Qed.
Print Assumptions C36_numbers_are_unique.

Theorem C36_numbers_are_stable : forall ops more zones zones' n i,
  zone_ops ops [] = Ok zones -> number_of n zones = Some i -> zone_ops more zones = Ok zones' ->
  number_of n zones' = Some i /\
  forall o r, zone_op_name o = n -> zone_op_step zones' o = Ok r -> r = (i, zones').
Proof. exact C36_stable_lemma. Qed.
Print Assumptions C36_numbers_are_stable.

Theorem C36_first_free_number_is_granted : forall ops zones n index i zones',
  zone_ops ops [] = Ok zones -> number_of n zones = None ->
  setZoneIndex n zones index = Ok (i, zones') ->
  number_of n zones' = Some i /\ index <= i /\ ~ taken i zones /\
  (forall j, index <= j < i -> taken j zones) /\
  (forall m, m <> n -> number_of m zones' = number_of m zones).
Proof. exact C36_granted_lemma. Qed.
Print Assumptions C36_first_free_number_is_granted.

Theorem C36_lookup_of_unknown_asks_for_0 : forall ops zones n,
  zone_ops ops [] = Ok zones -> number_of n zones = None ->
  getZoneIndex n zones = setZoneIndex n zones 0.
Proof. exact C36_lookup_lemma. Qed.
Print Assumptions C36_lookup_of_unknown_asks_for_0.

Theorem C36_always_terminates_below_the_limit : forall ops zones n index,
  zone_ops ops [] = Ok zones -> index + Z.of_nat (List.length zones) <= int64_max ->
  exists i zones', setZoneIndex n zones index = Ok (i, zones').
Proof. exact C36_total_lemma. Qed.
Print Assumptions C36_always_terminates_below_the_limit.

Example C36_example :
  zone_ops [ZSet "left" 1; ZSet "right" 1; ZGet "rear"; ZGet "left"; ZSet "aux" 0; ZSet "left" 7] [] =
    Ok [("aux", 3); ("left", 1); ("rear", 0); ("right", 2)] /\
  setZoneIndex "new" [("aux", 3); ("left", 1); ("rear", 0); ("right", 2)] 1 =
    Ok (4, [("aux", 3); ("left", 1); ("new", 4); ("rear", 0); ("right", 2)]).
Proof. vm_compute. split; reflexivity. Qed.

(** At the largest number the search runs over. *)
Theorem C36_overflow_refuted : exists zones,
  zone_ops [ZSet "a" int64_max] [] = Ok zones /\ setZoneIndex "b" zones int64_max = UB "signed overflow".
Proof. exists [("a", int64_max)]. vm_compute. split; reflexivity. Qed.
Print Assumptions C36_overflow_refuted.

(** ** C37 *)
Theorem C37_each_input_gets_its_own_settings : forall names zeros acceptable k name,
  nth_error names k = Some name ->
  exists i, nth_error (spliceInputs names zeros acceptable) k = Some i /\
    si_name i = name /\
    (si_missingIsAcceptable i = true <-> In name acceptable) /\
    match nth_error zeros k with
    | Some z => si_convertTempToMargin i = true /\ si_convertMarginZero i = z
    | None => si_convertTempToMargin i = false
    end.
Proof. exact C37_lemma. Qed.
Print Assumptions C37_each_input_gets_its_own_settings.

Theorem C37_split_inverts_splice : forall names zeros acceptable,
  splitNames (spliceInputs names zeros acceptable) = names.
Proof. exact C37_names_lemma. Qed.
Print Assumptions C37_split_inverts_splice.

Example C37_example :
  map (fun i => (si_name i, dint (si_convertMarginZero i), si_convertTempToMargin i, si_missingIsAcceptable i))
    (spliceInputs ["a"; "b"; "a"] [D 85; D 90] ["a"; "z"]) =
    [("a", 85, true, true); ("b", 90, true, false); ("a", 0, false, true)].
Proof. vm_compute. reflexivity. Qed.

(** ** C42 *)
Theorem C42_reads_stay_inside_the_request : forall be req,
  Forall (fun i => (i < List.length req)%nat) (rp_read (manualModeControl be req)).
Proof. exact C42_reads_lemma. Qed.
Print Assumptions C42_reads_stay_inside_the_request.

Theorem C42_mode_changes_only_on_set : forall be req zone value property,
  In (ZcSet zone value property) (rp_calls (manualModeControl be req)) ->
  exists v rest, req = 1 :: zone :: v :: rest /\ (value = true <-> v <> 0) /\ property = "Manual".
Proof. exact C42_set_lemma. Qed.
Print Assumptions C42_mode_changes_only_on_set.

Theorem C42_set_asks_once_and_reports : forall be zone v rest,
  let r := manualModeControl be (1 :: zone :: v :: rest) in
  rp_calls r = [ZcSet zone (negb (v =? 0)) "Manual"] /\ rp_code r = zc_set be zone (negb (v =? 0)) "Manual" /\
  rp_data r = None.
Proof. exact C42_set_does_lemma. Qed.
Print Assumptions C42_set_asks_once_and_reports.

Theorem C42_get_answers_one_byte : forall be cmd zone rest property,
  cmd = 0 /\ property = "Manual" \/ cmd = 2 /\ property = "FailSafe" ->
  let r := manualModeControl be (cmd :: zone :: rest) in
  rp_calls r = [ZcGet zone property] /\
  (forall current, zc_get be zone property = Ok (0, current) ->
   rp_code r = Ok 0 /\ rp_len r = 1 /\ rp_data r = Some (if current then 1 else 0)) /\
  (forall rc current, zc_get be zone property = Ok (rc, current) -> rc <> 0 ->
   rp_code r = Ok rc /\ rp_data r = None) /\
  (forall e, zc_get be zone property = Throw e -> rp_code r = Throw e /\ rp_data r = None).
Proof. exact C42_get_lemma. Qed.
Print Assumptions C42_get_answers_one_byte.

Theorem C42_everything_else_is_rejected : forall be req,
  (List.length req < 2)%nat \/ (exists c rest, req = c :: rest /\ c <> 0 /\ c <> 1 /\ c <> 2) \/
  (exists z, req = [1; z]) ->
  let r := manualModeControl be req in
  rp_code r = Ok 193 /\ rp_calls r = [] /\ rp_data r = None.
Proof. exact C42_reject_lemma. Qed.
Print Assumptions C42_everything_else_is_rejected.

Theorem C42_zone_byte_names_the_zone : forall zone id,
  0 <= zone < 256 ->
  (ipmi_getControlPath zone = BuilderModel.getControlPath id <-> id = if zone <? 128 then zone else zone - 256).
Proof. exact C42_path_lemma. Qed.
Print Assumptions C42_zone_byte_names_the_zone.

(** Over D-Bus the reply is that of the zone object named by the zone byte. *)
Theorem C42_reply_is_the_answer_of_the_zone : forall bus sends zone,
  0 <= zone < 128 ->
  let be := dbus_backend bus sends in
  let path := "/xyz/openbmc_project/settings/fanctrl/zone" ++ to_string zone in
  (forall v rest, rp_code (manualModeControl be (1 :: zone :: v :: rest)) = Ok (if sends path then 0 else 193)) /\
  (forall cmd property rest, cmd = 0 /\ property = "Manual" \/ cmd = 2 /\ property = "FailSafe" ->
     let r := manualModeControl be (cmd :: zone :: rest) in
     match bus path with
     | Some props => rp_code r = Ok 0 /\
         rp_data r = Some (match mget property props with Some true => 1 | _ => 0 end)
     | None => rp_code r = Ok 193 /\ rp_data r = None
     end).
Proof. exact C42_dbus_lemma. Qed.
Print Assumptions C42_reply_is_the_answer_of_the_zone.

(** Zone bytes from 128 on: "zone-128" to "zone-1" are not object paths, the
    message cannot be built and the exception leaves the handler; no mode is
    reported. *)
Theorem C42_high_zones_throw : forall bus sends zone cmd rest,
  128 <= zone < 256 ->
  (rp_calls (manualModeControl (dbus_backend bus sends) (cmd :: zone :: rest)) <> [] ->
   exists e, rp_code (manualModeControl (dbus_backend bus sends) (cmd :: zone :: rest)) = Throw e) /\
  rp_data (manualModeControl (dbus_backend bus sends) (cmd :: zone :: rest)) = None.
Proof. exact C42_high_lemma. Qed.
Print Assumptions C42_high_zones_throw.

Definition ex_bus : bus_props := fun p =>
  if String.eqb p "/xyz/openbmc_project/settings/fanctrl/zone7" then Some [("FailSafe", true); ("Manual", false)] else None.
Definition ex_backend : zc_backend := dbus_backend ex_bus (fun _ => true).
Example C42_example :
  manualModeControl ex_backend [2; 7] = Reply (Ok 0) (Some 1) 1 [0; 1]%nat [ZcGet 7 "FailSafe"] /\
  manualModeControl ex_backend [0; 7] = Reply (Ok 0) (Some 0) 1 [0; 1]%nat [ZcGet 7 "Manual"] /\
  manualModeControl ex_backend [0; 8] = Reply (Ok 193) None 2 [0; 1]%nat [ZcGet 8 "Manual"] /\
  manualModeControl ex_backend [1; 7; 2] = Reply (Ok 0) None 3 [0; 1; 2]%nat [ZcSet 7 true "Manual"] /\
  manualModeControl ex_backend [1; 7] = Reply (Ok 193) None 2 [0]%nat [] /\
  rp_calls (manualModeControl ex_backend [0; 255]) = [ZcGet 255 "Manual"].
Proof. vm_compute. repeat split; reflexivity. Qed.

(** "Every request gets a completion code" fails for a zone of 128 or more. *)
Theorem C42_always_a_completion_code_refuted : exists req,
  Forall (fun b => 0 <= b < 256) req /\
  forall code, rp_code (manualModeControl ex_backend req) <> Ok code.
Proof.
  exists [1; 200; 1]. split; [repeat constructor; discriminate|].
  intros code E. vm_compute in E. discriminate.
Qed.
Print Assumptions C42_always_a_completion_code_refuted.

(** Zones 128 to 255 cannot be reached: the byte is taken as signed. *)
Theorem C42_high_zones_unreachable_refuted : exists zone,
  0 <= zone < 256 /\ ipmi_getControlPath zone <> BuilderModel.getControlPath zone.
Proof. exists 128. split; [split; [discriminate|reflexivity]|]. vm_compute. discriminate. Qed.
Print Assumptions C42_high_zones_unreachable_refuted.

(** A zone object that does not carry the property is reported as "off". *)
Theorem C42_absent_property_reads_as_false_refuted : exists bus,
  mget "FailSafe" (match bus "/xyz/openbmc_project/settings/fanctrl/zone3" with Some m => m | None => [("FailSafe", true)] end) = None /\
  manualModeControl (dbus_backend bus (fun _ => true)) [2; 3] = Reply (Ok 0) (Some 0) 1 [0; 1]%nat [ZcGet 3 "FailSafe"].
Proof. exists (fun _ => Some []). vm_compute. split; reflexivity. Qed.
Print Assumptions C42_absent_property_reads_as_false_refuted.

(** ** C43 *)
Theorem C43_reader_kind : forall path,
  (getReadInterfaceType path = IoNONE <-> path = "" \/ path = "None") /\
  (getReadInterfaceType path = IoEXTERNAL <-> occurs "/xyz/openbmc_project/extsensors/" path) /\
  (getReadInterfaceType path = IoDBUSPASSIVE <->
     occurs "/xyz/openbmc_project/" path /\ ~ occurs "/xyz/openbmc_project/extsensors/" path) /\
  (getReadInterfaceType path = IoSYSFS <-> occurs "/sys/" path /\ ~ occurs "/xyz/openbmc_project/" path) /\
  (getReadInterfaceType path = IoUNKNOWN <->
     path <> "" /\ path <> "None" /\ ~ occurs "/sys/" path /\ ~ occurs "/xyz/openbmc_project/" path) /\
  getReadInterfaceType path <> IoDBUSACTIVE.
Proof. exact C43_read_lemma. Qed.
Print Assumptions C43_reader_kind.

Theorem C43_writer_kind : forall path,
  (getWriteInterfaceType path = IoNONE <-> path = "" \/ path = "None") /\
  (getWriteInterfaceType path = IoSYSFS <-> occurs "/sys/" path) /\
  (getWriteInterfaceType path = IoDBUSACTIVE <-> occurs "/xyz/openbmc_project/" path /\ ~ occurs "/sys/" path) /\
  (getWriteInterfaceType path = IoUNKNOWN <->
     path <> "" /\ path <> "None" /\ ~ occurs "/sys/" path /\ ~ occurs "/xyz/openbmc_project/" path) /\
  getWriteInterfaceType path <> IoDBUSPASSIVE /\ getWriteInterfaceType path <> IoEXTERNAL.
Proof. exact C43_write_lemma. Qed.
Print Assumptions C43_writer_kind.

(** A path that matches several patterns: reading prefers D-Bus, writing prefers
    sysfs. *)
Example C43_example :
  getReadInterfaceType "/xyz/openbmc_project/extsensors/temperature/t0" = IoEXTERNAL /\
  getReadInterfaceType "/xyz/openbmc_project/sensors/temperature/t0" = IoDBUSPASSIVE /\
  getReadInterfaceType "/sys/xyz/openbmc_project/t0" = IoDBUSPASSIVE /\
  getWriteInterfaceType "/sys/xyz/openbmc_project/t0" = IoSYSFS /\
  getReadInterfaceType "none" = IoUNKNOWN.
Proof. vm_compute. repeat split; reflexivity. Qed.

(** ** C44 *)
Theorem C44_dbus_at_least_1ms : forall props attr default n,
  1 <= default < 2 ^ 64 -> getCycleTimeSetting_dbus props attr default = Ok n -> 1 <= n < 2 ^ 64.
Proof. exact C44_dbus_lemma. Qed.
Print Assumptions C44_dbus_at_least_1ms.

Theorem C44_dbus_value : forall props attr default,
  (mget attr props = None -> getCycleTimeSetting_dbus props attr default = Ok default) /\
  (forall v k, mget attr props = Some v -> variant_to_double v = Ok (D k) -> Z.abs k <= 2 ^ 53 ->
     getCycleTimeSetting_dbus props attr default = Ok (if 1 <=? k then k else default)) /\
  (forall v, mget attr props = Some v -> variant_to_double v = Ok dnan ->
     getCycleTimeSetting_dbus props attr default = Ok default).
Proof. exact C44_dbus_value_lemma. Qed.
Print Assumptions C44_dbus_value.

Theorem C44_json_at_least_1ms : forall zone attr default n,
  1 <= default < 2 ^ 64 ->
  (forall k, mget attr zone = Some (JUint k) -> k < 2 ^ 64) ->
  getCycleTimeSetting_json zone attr default = Ok n -> 1 <= n < 2 ^ 64.
Proof. exact C44_json_lemma. Qed.
Print Assumptions C44_json_at_least_1ms.

Theorem C44_json_value : forall zone attr default,
  (mget attr zone = None -> getCycleTimeSetting_json zone attr default = Ok default) /\
  (forall k, mget attr zone = Some (JUint k) -> 0 <= k ->
     getCycleTimeSetting_json zone attr default = Ok (if k =? 0 then default else k)).
Proof. exact C44_json_value_lemma. Qed.
Print Assumptions C44_json_value.

(** 9223372036854 ms (292 years) is the largest period the clock can hold. *)
Theorem C44_dbus_period_is_positive : forall props attr default,
  1 <= default <= 9223372036854 ->
  (forall v, mget attr props = Some v ->
     exists d, variant_to_double v = Ok d /\ (notnan d -> dle d (D 9223372036854))) ->
  exists n, getCycleTimeSetting_dbus props attr default = Ok n /\ 1 <= n /\
            timer_period_ns n = Ok (n * 1000000).
Proof. exact C44_dbus_period_lemma. Qed.
Print Assumptions C44_dbus_period_is_positive.

Theorem C44_json_period_is_positive : forall zone attr default,
  1 <= default <= 9223372036854 ->
  (forall j, mget attr zone = Some j -> exists k, j = JUint k /\ 0 <= k <= 9223372036854) ->
  exists n, getCycleTimeSetting_json zone attr default = Ok n /\ 1 <= n /\
            timer_period_ns n = Ok (n * 1000000).
Proof. exact C44_json_period_lemma. Qed.
Print Assumptions C44_json_period_is_positive.

Example C44_example :
  getCycleTimeSetting_dbus [("CycleIntervalTimeMS", VDbl (ddiv (D 5) (D 2)))] "CycleIntervalTimeMS" 100 = Ok 2 /\
  getCycleTimeSetting_dbus [("CycleIntervalTimeMS", VDbl (D (-3)))] "CycleIntervalTimeMS" 100 = Ok 100 /\
  getCycleTimeSetting_json [("updateThermalsTimeMS", JUint 250)] "updateThermalsTimeMS" 1000 = Ok 250 /\
  getCycleTimeSetting_json [("updateThermalsTimeMS", JUint 0)] "updateThermalsTimeMS" 1000 = Ok 1000 /\
  timer_period_ns 100 = Ok 100000000.
Proof. vm_compute. repeat split; reflexivity. Qed.

(** A negative number in the JSON file passes the check (it wraps around) and
    gives a timer that has always expired already. *)
Theorem C44_json_negative_refuted : exists n ns,
  getCycleTimeSetting_json [("cycleIntervalTimeMS", JInt (-5))] "cycleIntervalTimeMS" 100 = Ok n /\
  timer_period_ns n = Ok ns /\ ns < 0.
Proof. exists 18446744073709551611, (-5000000). vm_compute. repeat split; reflexivity. Qed.
Print Assumptions C44_json_negative_refuted.
