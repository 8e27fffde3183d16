(** * Which JSON documents are accepted. *)
From Coq Require Import ZArith Bool List String Lia.
From Verif Require Import Base BaseFacts Dbl PidModel ZoneModel BuilderModel ConfigModel SensorModel
  JsonModel SpecJson JsonProofs.
Import ListNotations.
Local Open Scope string_scope.

Definition isok {A} (o : outcome A) : Prop := exists x, o = Ok x.
Lemma isok_Ok {A} (x : A) : isok (Ok x) <-> True.
Proof. split; [auto|]. intros _. exists x. reflexivity. Qed.
Lemma isok_bind {A B} (o : outcome A) (f : A -> outcome B) :
  isok (bind o f) <-> exists x, o = Ok x /\ isok (f x).
Proof.
  destruct o as [x|e|e]; cbn.
  - split; [intros H; exists x; auto|intros (y & E & H); injection E as ->; exact H].
  - split; [intros (x & E); discriminate|intros (x & E & _); discriminate].
  - split; [intros (x & E); discriminate|intros (x & E & _); discriminate].
Qed.
(** When the rest does not depend on the value. *)
Lemma isok_seq {A B} (o : outcome A) (f : A -> outcome B) (Q : Prop) :
  (forall x, o = Ok x -> (isok (f x) <-> Q)) -> (isok (bind o f) <-> isok o /\ Q).
Proof.
  intros H. rewrite isok_bind. split.
  - intros (x & E & I). split; [exists x; exact E|]. apply (H x E). exact I.
  - intros ((x & E) & q). exists x. split; [exact E|]. apply (H x E). exact q.
Qed.
Lemma jfind_value key j : jfind key j = value_at key j.
Proof. reflexivity. Qed.
Lemma jelements_entries j : jelements j = entries j.
Proof. reflexivity. Qed.

Lemma isok_string j : isok (json_to_string j) <-> is_text j.
Proof. unfold isok, is_text. destruct j; cbn; split; intros (x & E); try discriminate; eauto. Qed.
Lemma isok_bool j : isok (json_to_bool j) <-> is_flag j.
Proof. unfold isok, is_flag. destruct j; cbn; split; intros (x & E); try discriminate; eauto. Qed.
Lemma isok_double j : isok (json_to_double j) <-> is_number j.
Proof.
  unfold isok, is_number. destruct j; cbn; split; try (intros (x & E); discriminate); try tauto; eauto.
Qed.
Ltac conv_case o :=
  destruct o; split; try (intros (x & E); discriminate); try congruence; eauto; try (intros _ E; discriminate).
Lemma isok_int64 j : isok (json_to_int64 j) <-> fits_int64 j.
Proof.
  unfold isok, fits_int64, fits. destruct j as [| |n|n|d| | |]; cbn [json_to_int64];
    try (split; [intros _; exact I|intros _; eexists; reflexivity]; fail); try (split; [intros (x & E); discriminate|tauto]).
  unfold to_int64, int64_min, int64_max. conv_case (dtrunc (- 2 ^ 63) (2 ^ 63 - 1) d).
Qed.
Lemma isok_uint64 j : isok (json_to_uint64 j) <-> fits_uint64 j.
Proof.
  unfold isok, fits_uint64, fits. destruct j as [| |n|n|d| | |]; cbn [json_to_uint64];
    try (split; [intros _; exact I|intros _; eexists; reflexivity]; fail); try (split; [intros (x & E); discriminate|tauto]).
  unfold to_uint64, uint64_max. conv_case (dtrunc 0 (2 ^ 64 - 1) d).
Qed.
Lemma isok_int j : isok (json_to_int j) <-> fits_int32 j.
Proof.
  unfold isok, fits_int32, fits, is_flag. destruct j as [|b|n|n|d| | |]; cbn [json_to_int];
    try (split; [intros _; first [right; exact I|left; eexists; reflexivity]|intros _; eexists; reflexivity]; fail);
    try (split; [intros (x & E); discriminate|intros [(b & E)|F]; [discriminate|tauto]]).
  destruct (dtrunc (- 2 ^ 31) (2 ^ 31 - 1) d); split; eauto.
  - intros _. right. discriminate.
  - intros (x & E). discriminate.
  - intros [(b & E)|F]; congruence.
Qed.
Lemma isok_mapM {A B} (f : A -> outcome B) l : isok (mapM f l) <-> Forall (fun x => isok (f x)) l.
Proof.
  induction l as [|x r IH]; cbn.
  - rewrite isok_Ok. split; auto.
  - rewrite (isok_seq _ _ (Forall (fun x => isok (f x)) r)).
    + split; [intros [a b]; constructor; auto|intros F; inversion F; auto].
    + intros y _. rewrite isok_bind. rewrite <- IH. unfold isok. split; [intros (a & b & _); eauto|].
      intros (a & b). eauto.
Qed.
Lemma isok_vector {A} (f : json -> outcome A) (P : json -> Prop) j :
  (forall x, isok (f x) <-> P x) -> (isok (json_to_vector f j) <-> is_list_of P j).
Proof.
  intros H. unfold is_list_of. destruct j; cbn [json_to_vector];
    try (split; [intros (x & E); discriminate|intros (l' & E & _); discriminate]).
  rewrite isok_mapM. split.
  - intros F. eexists. split; [reflexivity|]. eapply Forall_impl; [|exact F]. intros a. apply H.
  - intros (l' & E & F). injection E as ->. eapply Forall_impl; [|exact F]. intros a. apply H.
Qed.
Lemma isok_strs j : isok (json_to_vector json_to_string j) <-> is_list_of is_text j.
Proof. apply isok_vector, isok_string. Qed.
Lemma isok_nums j : isok (json_to_vector json_to_double j) <-> is_list_of is_number j.
Proof. apply isok_vector, isok_double. Qed.

Lemma isok_at_to {A} (f : json -> outcome A) (P : json -> Prop) key j :
  (forall x, isok (f x) <-> P x) -> (isok (at_to f key j) <-> has key P j).
Proof.
  intros H. unfold at_to, has, value_at. rewrite isok_bind. destruct j; cbn [jat];
    try (split; intros (v & E & _); discriminate).
  destruct (mget key m) as [v|]; [|split; intros (v & E & _); discriminate].
  split; intros (x & E & I); injection E as ->; exists x; (split; [reflexivity|]); apply H; exact I.
Qed.
Lemma isok_index {A} (f : json -> outcome A) (P : json -> Prop) key j :
  (forall x, isok (f x) <-> P x) -> (isok (bind (jindex key j) f) <-> has key P j).
Proof.
  intros H. unfold has, value_at. rewrite isok_bind. destruct j; cbn [jindex];
    try (split; intros (v & E & _); discriminate).
  destruct (mget key m) as [v|]; [|split; intros (v & E & _); discriminate].
  split; intros (x & E & I); injection E as ->; exists x; (split; [reflexivity|]); apply H; exact I.
Qed.
Lemma isok_get_or {A} (f : json -> outcome A) (P : json -> Prop) d key j :
  (forall x, isok (f x) <-> P x) -> (isok (get_or f d (jfind key j)) <-> may_have key P j).
Proof.
  intros H. unfold may_have. rewrite jfind_value. destruct (value_at key j) as [v|]; cbn.
  - rewrite H. split; [intros p x E; injection E as ->; exact p|intros G; apply G; reflexivity].
  - rewrite isok_Ok. split; [intros _ v E; discriminate|auto].
Qed.
Lemma isok_foldM {S A} (f : S -> A -> outcome S) (P : A -> Prop) :
  (forall s x, isok (f s x) <-> P x) -> forall l s, isok (foldM f l s) <-> Forall P l.
Proof.
  intros H. induction l as [|x r IH]; intros s; cbn.
  - rewrite isok_Ok. split; auto.
  - rewrite (isok_seq _ _ (Forall P r)) by (intros; apply IH). rewrite H.
    split; [intros [a b]; constructor; auto|intros F; inversion F; auto].
Qed.

(** ** Sensors *)

Lemma isok_limit type key j : isok (fan_limit type key j) <-> (type = "fan" -> may_have key fits_int64 j).
Proof.
  unfold fan_limit, may_have. rewrite jfind_value. destruct (value_at key j) as [v|].
  - destruct (String.eqb_spec type "fan") as [E|E].
    + rewrite isok_int64. split; [intros H _ x Ex; injection Ex as ->; exact H|intros H; apply H; auto].
    + rewrite isok_Ok. split; [intros _ N; contradiction|auto].
  - rewrite isok_Ok. split; [intros _ _ v E; discriminate|auto].
Qed.
Lemma at_to_text key j s : at_to json_to_string key j = Ok s <-> value_at key j = Some (JStr s).
Proof.
  unfold at_to, value_at. destruct j; cbn; try (split; discriminate).
  destruct (mget key m) as [v|]; cbn; [|split; discriminate].
  destruct v; cbn; split; intros E; try discriminate; injection E as ->; reflexivity.
Qed.

Lemma isok_sensor j : isok (from_json_SensorConfig j) /\ has "name" is_text j <-> good_sensor j.
Proof.
  unfold from_json_SensorConfig, good_sensor. rewrite isok_bind.
  pose (fan := value_at "type" j = Some (JStr "fan")).
  assert (K : forall type, at_to json_to_string "type" j = Ok type ->
    (type = "fan" <-> value_at "type" j = Some (JStr "fan"))).
  { intros type E. apply at_to_text in E. rewrite E. split; [intros ->; reflexivity|].
    intros H. injection H as ->. reflexivity. }
  assert (T : has "type" is_text j <-> exists t, at_to json_to_string "type" j = Ok t).
  { rewrite <- (isok_at_to json_to_string) by apply isok_string. reflexivity. }
  assert (G : forall type, at_to json_to_string "type" j = Ok type ->
    (isok (do readPath <- at_to json_to_string "readPath" j;
           do writePath <- get_or json_to_string "" (jfind "writePath" j);
           do ignore <- get_or json_to_bool false (jfind "ignoreDbusMinMax" j);
           do asFailed <- get_or json_to_bool true (jfind "unavailableAsFailed" j);
           do hostOff <- get_or json_to_bool false (jfind "ignoreFailIfHostOff" j);
           do min <- fan_limit type "min" j;
           do max <- fan_limit type "max" j;
           do timeout <- get_or json_to_int64 (getDefaultTimeout type) (jfind "timeout" j);
           Ok (MkSensorConfig type readPath writePath min max timeout ignore asFailed hostOff))%outcome <->
      has "readPath" is_text j /\ may_have "writePath" is_text j /\ may_have "ignoreDbusMinMax" is_flag j /\
      may_have "unavailableAsFailed" is_flag j /\ may_have "ignoreFailIfHostOff" is_flag j /\
      may_have "timeout" fits_int64 j /\
      (value_at "type" j = Some (JStr "fan") -> may_have "min" fits_int64 j /\ may_have "max" fits_int64 j))).
  { intros type E. specialize (K type E).
    repeat (erewrite isok_seq; [|intros; (repeat (erewrite isok_seq; [|intros])); try apply isok_Ok; reflexivity]).
    rewrite (isok_at_to json_to_string) by apply isok_string.
    rewrite (isok_get_or json_to_string) by apply isok_string.
    rewrite !(isok_get_or json_to_bool) by apply isok_bool.
    rewrite !isok_limit.
    rewrite (isok_get_or json_to_int64) by apply isok_int64. rewrite K. tauto. }
  split.
  - intros ((t & E & I) & N). apply (G t E) in I. split; [exact N|]. split; [apply T; eauto|]. tauto.
  - intros (N & Tt & R). apply T in Tt. destruct Tt as (t & E). split; [|exact N].
    exists t. split; [exact E|]. apply (G t E). tauto.
Qed.

Lemma isok_read_sensor m j : isok (read_sensor m j) <-> good_sensor j.
Proof.
  rewrite <- isok_sensor. unfold read_sensor. apply isok_seq. intros i _.
  apply isok_index. intros x. rewrite (isok_seq _ _ True) by (intros; apply isok_Ok).
  rewrite isok_string. tauto.
Qed.

(** ** Controllers *)

Ltac seqs := repeat (erewrite isok_seq; [|intros; (repeat (erewrite isok_seq; [|intros])); try apply isok_Ok; reflexivity]).

Lemma isok_points key j : isok (from_json_points key j) <-> may_have key good_points j.
Proof.
  unfold from_json_points, may_have. rewrite jfind_value. destruct (value_at key j) as [r|].
  - rewrite isok_mapM.
    assert (E : good_points r <-> Forall (fun x => isok (get_or json_to_double dnan (jfind (to_string (Z.of_nat x)) r)))
      (seq 0 maxStepwisePoints)).
    { unfold good_points. rewrite point_keys_eq. rewrite Forall_map. unfold maxStepwisePoints.
      rewrite !Forall_forall. split; intros H x I; specialize (H x I).
      - apply (isok_get_or json_to_double is_number); [apply isok_double|exact H].
      - apply (isok_get_or json_to_double is_number) in H; [exact H|apply isok_double]. }
    rewrite <- E. split; [intros H x Ex; injection Ex as ->; exact H|intros H; apply H; reflexivity].
  - rewrite isok_Ok. split; [intros _ v E; discriminate|auto].
Qed.
Lemma isok_stepwise j a b : isok (from_json_stepwise j a b) <->
  has "samplePeriod" is_number j /\ has "isCeiling" is_flag j /\
  may_have "reading" good_points j /\ may_have "output" good_points j.
Proof.
  unfold from_json_stepwise. seqs.
  rewrite (isok_at_to json_to_double) by apply isok_double.
  rewrite (isok_at_to json_to_bool) by apply isok_bool. rewrite !isok_points. tauto.
Qed.
Lemma isok_pid j a b c d : isok (from_json_pid j a b c d) <-> Forall (fun k => has k is_number j) pid_keys.
Proof.
  unfold from_json_pid, pid_keys. seqs.
  rewrite !(isok_at_to json_to_double is_number) by apply isok_double.
  rewrite !Forall_cons_iff. split; [|tauto]. intros H. repeat (split; [tauto|]). constructor.
Qed.

Lemma isok_jat_bind {A} key j (f : json -> outcome A) (P : json -> Prop) :
  (forall x, isok (f x) <-> P x) -> (isok (bind (jat key j) f) <-> has key P j).
Proof. intros H. exact (isok_at_to f P key j H). Qed.

Lemma isok_seq_r {A B} (o : outcome A) (f : A -> outcome B) (P Q : Prop) :
  (isok o <-> P) -> (forall x, o = Ok x -> (isok (f x) <-> Q)) -> (isok (bind o f) <-> P /\ Q).
Proof. intros H1 H2. rewrite (isok_seq _ _ Q H2), H1. reflexivity. Qed.

Lemma isok_controller j : isok (from_json_ControllerInfo j) <->
  has "inputs" (is_list_of is_text) j /\ has "setpoint" is_number j /\
  may_have "tempToMargin" (is_list_of is_number) j /\
  may_have "missingIsAcceptable" (is_list_of is_text) j /\
  may_have "FailSafePercent" fits_int32 j /\
  exists type, value_at "type" j = Some (JStr type) /\
    has "pid" (good_settings (String.eqb type "stepwise")) j.
Proof.
  unfold from_json_ControllerInfo. rewrite isok_bind.
  assert (G : forall type, isok (
    do inputNames <- at_to (json_to_vector json_to_string) "inputs" j;
    do setpoint <- at_to json_to_double "setpoint" j;
    do margins <- get_or (json_to_vector json_to_double) [] (jfind "tempToMargin" j);
    do missing <- get_or (json_to_vector json_to_string) [] (jfind "missingIsAcceptable" j);
    let inputs := spliceInputs inputNames margins missing in
    do p <- jat "pid" j;
    do checkHyster <- get_or json_to_bool false (jfind "checkHysteresisWithSetpoint" p);
    do posHyst <- get_or json_to_double d0 (jfind "positiveHysteresis" p);
    do negHyst <- get_or json_to_double d0 (jfind "negativeHysteresis" p);
    do derivative <- get_or json_to_double d0 (jfind "derivativeCoeff" p);
    do percent <- get_or json_to_int 0%Z (jfind "FailSafePercent" j);
    if negb (String.eqb type "stepwise")
    then do info <- from_json_pid p checkHyster posHyst negHyst derivative;
         Ok (MkInfo type inputs setpoint info stepwise_zero (D percent))
    else do info <- from_json_stepwise p posHyst negHyst;
         Ok (MkInfo type inputs setpoint pidinfo_zero info (D percent)))%outcome <->
    has "inputs" (is_list_of is_text) j /\ has "setpoint" is_number j /\
    may_have "tempToMargin" (is_list_of is_number) j /\
    may_have "missingIsAcceptable" (is_list_of is_text) j /\
    has "pid" (fun p => may_have "checkHysteresisWithSetpoint" is_flag p /\
       may_have "positiveHysteresis" is_number p /\ may_have "negativeHysteresis" is_number p /\
       may_have "derivativeCoeff" is_number p /\ may_have "FailSafePercent" fits_int32 j /\
       if String.eqb type "stepwise" then
         has "samplePeriod" is_number p /\ has "isCeiling" is_flag p /\
         may_have "reading" good_points p /\ may_have "output" good_points p
       else Forall (fun k => has k is_number p) pid_keys) j).
  { intros type.
    apply isok_seq_r; [apply isok_at_to, isok_strs|intros inputs _].
    apply isok_seq_r; [apply isok_at_to, isok_double|intros sp _].
    apply isok_seq_r; [apply isok_get_or, isok_nums|intros mg _].
    apply isok_seq_r; [apply isok_get_or, isok_strs|intros ms _].
    cbv zeta. apply isok_jat_bind. intros p.
    apply isok_seq_r; [apply isok_get_or, isok_bool|intros ch _].
    apply isok_seq_r; [apply isok_get_or, isok_double|intros ph _].
    apply isok_seq_r; [apply isok_get_or, isok_double|intros nh _].
    apply isok_seq_r; [apply isok_get_or, isok_double|intros dv _].
    apply isok_seq_r; [apply isok_get_or, isok_int|intros pc _].
    destruct (String.eqb type "stepwise"); cbn [negb].
    - rewrite (isok_seq _ _ True) by (intros; apply isok_Ok). rewrite isok_stepwise. tauto.
    - rewrite (isok_seq _ _ True) by (intros; apply isok_Ok). rewrite isok_pid. tauto. }
  split.
  - intros (type & E & H). apply at_to_text in E. apply G in H.
    destruct H as (H1 & H2 & H3 & H4 & (p & Ep & H5)).
    repeat (split; [tauto|]). exists type. split; [exact E|]. exists p. split; [exact Ep|].
    unfold good_settings. tauto.
  - intros (H1 & H2 & H3 & H4 & H5 & type & E & (p & Ep & H6)). exists type.
    split; [apply at_to_text; exact E|]. apply G. repeat (split; [tauto|]).
    exists p. split; [exact Ep|]. unfold good_settings in H6. tauto.
Qed.

Lemma isok_read_pid m j : isok (read_pid m j) <-> good_pid j.
Proof.
  unfold read_pid, good_pid. rewrite <- isok_controller.
  rewrite isok_index with (P := fun x => isok (from_json_ControllerInfo j) /\ is_text x).
  - split; [intros (v & E & H1 & H2); split; [exists v; split; assumption|exact H1]|].
    intros ((v & E & H) & H1). exists v. split; [exact E|]. split; assumption.
  - intros x. apply isok_seq. intros i _.
    rewrite (isok_seq _ _ True) by (intros; apply isok_Ok). rewrite isok_string. tauto.
Qed.

(** ** Zones *)

Lemma isok_time j key d : is_object j -> (isok (read_cycle_time j key d) <-> may_have key fits_uint64 j).
Proof.
  intros (m & ->). unfold read_cycle_time, getCycleTimeSetting_json, may_have. cbn [value_at].
  destruct (mget key m) as [v|].
  - rewrite (isok_seq _ _ True) by (intros x _; destruct (1 <=? x)%Z; apply isok_Ok).
    rewrite isok_uint64. split; [intros [H _] x E; injection E as ->; exact H|].
    intros H. split; [apply H; reflexivity|exact I].
  - rewrite isok_Ok. split; [intros _ v E; discriminate|auto].
Qed.
Lemma isok_index_seq {A B} key j (f : json -> outcome A) (g : A -> outcome B) (P : json -> Prop) (Q : Prop) :
  (forall x, isok (f x) <-> P x) -> (forall x, isok (g x) <-> Q) ->
  (isok (bind (jindex key j) (fun v => bind (f v) g)) <-> has key P j /\ Q).
Proof.
  intros H1 H2. rewrite isok_index with (P := fun v => P v /\ Q).
  - split; [intros (v & E & p & q); split; [exists v; split; assumption|exact q]|].
    intros ((v & E & H) & q). exists v. split; [exact E|]. split; assumption.
  - intros x. apply isok_seq_r; [apply H1|intros; apply H2].
Qed.

Lemma isok_read_zone c j : isok (read_zone c j) <->
  has "id" fits_int64 j /\ has "minThermalOutput" is_number j /\ has "failsafePercent" is_number j /\
  may_have "cycleIntervalTimeMS" fits_uint64 j /\ may_have "updateThermalsTimeMS" fits_uint64 j /\
  may_have "accumulateSetPoint" is_flag j /\ has "pids" (fun p => Forall good_pid (entries p)) j.
Proof.
  destruct j as [| | | | | | |m];
    try (split; [intros (x & E); discriminate|intros ((v & E & _) & _); discriminate]).
  unfold read_zone.
  apply isok_index_seq; [apply isok_int64|intros id].
  apply isok_index_seq; [apply isok_double|intros a].
  apply isok_index_seq; [apply isok_double|intros b].
  assert (O : is_object (JObj m)) by (exists m; reflexivity).
  apply isok_seq_r; [apply isok_time; exact O|intros t1 _].
  apply isok_seq_r; [apply isok_time; exact O|intros t2 _].
  apply isok_seq_r; [apply isok_get_or, isok_bool|intros acc _].
  apply isok_index. intros p. rewrite (isok_seq _ _ True) by (intros; apply isok_Ok).
  rewrite (isok_foldM _ good_pid) by (intros; apply isok_read_pid). rewrite jelements_entries. tauto.
Qed.

(** ** Validation *)

Lemma size_entries j : Nat.eqb (jsize j) 0 = true <-> entries j = [].
Proof.
  destruct j; cbn; try (split; congruence).
  - destruct l; cbn; split; congruence.
  - destruct m; cbn; split; congruence.
Qed.
Lemma isok_validate_zone u j : isok (validate_zone u j) <-> has "pids" (fun p => entries p <> []) j.
Proof.
  unfold validate_zone, jcount. rewrite jfind_value. unfold has.
  destruct (value_at "pids" j) as [p|] eqn:E; cbn [Nat.eqb negb].
  - assert (Ix : jindex "pids" j = Ok p).
    { destruct j; try discriminate. cbn in *. rewrite E. reflexivity. }
    rewrite Ix. cbn [bind]. destruct (Nat.eqb (jsize p) 0) eqn:Z0.
    + split; [intros (x & Ex); discriminate|]. intros (v & Ev & N). injection Ev as <-.
      apply size_entries in Z0. contradiction.
    + rewrite isok_Ok. split; [intros _|auto]. exists p. split; [reflexivity|].
      intros N. apply size_entries in N. congruence.
  - split; [intros (x & Ex); discriminate|intros (v & Ev & _); discriminate].
Qed.
Lemma index_value key j v : value_at key j = Some v -> jindex key j = Ok v.
Proof. destruct j; try discriminate. cbn. intros ->. reflexivity. Qed.

Theorem C66_lemma j : (exists c, load_json j = Ok c) <-> good_document j.
Proof.
  change (isok (load_json j) <-> good_document j).
  unfold load_json, good_document, validateJson, jcount. rewrite !jfind_value.
  destruct (value_at "sensors" j) as [s|] eqn:Es; cbn [Nat.eqb negb];
    [|split; [intros (x & E); discriminate|intros ((v & E & _) & _); rewrite Es in E; discriminate]].
  rewrite (index_value _ _ _ Es). cbn [bind].
  destruct (Nat.eqb (jsize s) 0) eqn:Z0.
  { split; [intros (x & E); discriminate|]. intros ((v & E & N & _) & _). rewrite Es in E. injection E as <-.
    apply size_entries in Z0. contradiction. }
  rewrite jfind_value. destruct (value_at "zones" j) as [z|] eqn:Ez; cbn [Nat.eqb negb];
    [|split; [intros (x & E); discriminate|intros (_ & (v & E & _)); rewrite Ez in E; discriminate]].
  rewrite (index_value _ _ _ Ez). cbn [bind].
  erewrite isok_seq; [|intros u _; erewrite isok_seq; [reflexivity|intros ss _; erewrite isok_seq;
    [reflexivity|intros; apply isok_Ok]]].
  rewrite (isok_foldM _ (has "pids" (fun p => entries p <> []))) by (intros; apply isok_validate_zone).
  unfold buildSensorsFromJson, buildPIDsFromJson.
  rewrite (index_value _ _ _ Es), (index_value _ _ _ Ez). cbn [bind].
  rewrite (isok_foldM _ good_sensor) by (intros; apply isok_read_sensor).
  rewrite (isok_foldM read_zone) by (intros; apply isok_read_zone).
  rewrite !jelements_entries. unfold has at 6 7. 
  split.
  - intros (F1 & F2 & F3 & _). split.
    + exists s. split; [exact Es|]. split; [|exact F2]. intros N. apply size_entries in N. congruence.
    + exists z. split; [exact Ez|]. rewrite Forall_forall in *. intros x I. specialize (F1 x I). specialize (F3 x I).
      unfold good_zone. cbn beta in F3. repeat (split; [tauto|]).
      destruct F1 as (p & Ep & N). destruct F3 as (_ & _ & _ & _ & _ & _ & (p' & Ep' & G)).
      rewrite Ep in Ep'. injection Ep' as <-. exists p. auto.
  - intros ((s' & E1 & N & F2) & (z' & E2 & F3)). rewrite Es in E1. injection E1 as <-.
    rewrite Ez in E2. injection E2 as <-. split.
    + eapply Forall_impl; [|exact F3]. intros x (_ & _ & _ & _ & _ & _ & (p & Ep & Np & _)). exists p. auto.
    + split; [exact F2|]. split; [|exact I]. eapply Forall_impl; [|exact F3].
      intros x (H1 & H2 & H3 & H4 & H5 & H6 & (p & Ep & Np & G)). repeat (split; [assumption|]). exists p. auto.
Qed.
