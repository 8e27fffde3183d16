(** * Property C95: what happens to fans when zones go away, when compiled with
    OFFLINE_FAILSAFE_PWM.

    Vocabulary: SpecDaemon.v and SpecSystem.v.  Proofs: DaemonProofs4.v. *)
From Coq Require Import ZArith Bool List String Lia Permutation.
From Verif Require Import Base BaseFacts PathProofs Dbl PidModel SpecPid ZoneModel LoopModel ZoneProofs BuilderModel SpecBuilder
  PropertiesZone PropertiesBuilder PropertiesSensor PropertiesSystem
  JsonModel SpecJson SpecJsonSystem JsonProofs JsonSystemProofs PropertiesJson ConfigModel DbusConfigModel SpecDbus SpecDbusSystem
  ExamplesDbus PropertiesDbus SensorModel SpecSensor WriteModel SystemModel SpecSystem SpecRange LogModel MainModel SpecMain ReloadModel SpecReload
  BuilderProofs SystemProofs StartModel SpecStart StartProofs PropertiesStart DaemonModel SpecDaemon DaemonProofs DaemonProofs2 DaemonProofs3
  DaemonProofs4 PropertiesDaemon.
Import ListNotations.
Local Open Scope string_scope.

(** ** C95 *)

(** When the daemon reloads or ends - and every write reaches its device - each fan of
    each zone that goes away is left at the failsafe percentage of its zone, scaled to
    the range of the fan.  (If several zones drive the fan they agree on the
    percentage; a value below 0 is no value for a fan.) *)
Theorem C95_offline_failsafe : forall f sf pow10 re named F first devices evs d w k d1,
  OFFLINE_FAILSAFE_PWM f = true -> Forall (no_accident f sf re named F) evs ->
  calm f sf pow10 re named evs (daemon_init first devices) ->
  Forall delivered evs -> delivered (DRun w k) ->
  daemon_run f sf pow10 re named evs (daemon_init first devices) = Ok d -> going d -> about_to_stop d ->
  daemon_step f sf pow10 re named d (DRun w k) = Ok d1 ->
  sy_loops (dm_sys d) = [] \/
  exists w0 k0 c, In (DRun w0 k0) evs /\ read_configuration sf re named (su_disk w0) (su_config w0) = Ok (Loaded c) /\
    forall l name, In l (sy_loops (dm_sys d)) -> lists_fan l name ->
      exists info, In (name, info) (l_sensors c) /\ sc_type info = "fan" /\
        forall path, drives (su_sensors w0) info path -> own_device (su_sensors w0) (l_sensors c) name path ->
          (forall l', In l' (sy_loops (dm_sys d)) -> lists_fan l' name -> getFailSafePercent (l_zone l') = getFailSafePercent (l_zone l)) ->
          exists raw, raw_for info (ddiv (getFailSafePercent (l_zone l)) (D 100)) = Some raw /\
            ((0 <= raw)%Z -> mget path (sy_devices (dm_sys d1)) = Some raw).
Proof. intros f sf pow10 re named. exact (C95_lemma f sf pow10 re named). Qed.
Print Assumptions C95_offline_failsafe.

(** The document of C93 with its fan on D-Bus, compiled with OFFLINE_FAILSAFE_PWM. *)
Definition off_flags : flags := Flags false true false true false.
Definition off_path : string := "/xyz/openbmc_project/control/fanpwm/fan1".
Definition off_json : json :=
  jx_doc (JObj [("max", JUint 255); ("min", JUint 0); ("name", JStr "fan1");
                ("readPath", JStr "/xyz/openbmc_project/sensors/fan_tach/fan1"); ("type", JStr "fan");
                ("writePath", JStr off_path)] :: tl jx_sensors_json)
    [jx_fan_pid_json (JUint 80); jx_step_pid_json jx_readings].
Definition off_fan_text : sensor_text :=
  MkSensor "fan1" "fan" "/xyz/openbmc_project/sensors/fan_tach/fan1" (Some off_path)
    (Some 0%Z) (Some 255%Z) None None None None.
Definition off_w : surroundings := st_w (st_disk [st_installed] [] (Document off_json)).
Definition off_run (evs : list daemon_ev) : outcome daemon := daemon_run off_flags ex_sf ex_pow dx_regex "" evs dl_init.
Definition off_after (evs : list daemon_ev) : daemon := get_ok dl_init (off_run evs).
(** A start, two wake-ups, then SIGHUP, the first attempt to reload, and the second
    one about to be made. *)
Definition off_pending (w : surroundings) : list daemon_ev :=
  ((DRun w (sys_wake 0) :: DSys host_up :: dl_wake w 1 100) ++
   [DMove VHup; DMove (VWait 1000); DMove VHupExpire; DMove VHandler; DRun w (sys_wake 0); DRun w (sys_wake 0); DMove VRetry])%list.
Definition off_life : list daemon_ev := (off_pending off_w ++ DRun off_w (sys_wake 0) :: dl_wake off_w 2 200)%list.

Lemma off_calm evs : checked off_flags apart evs dl_init = true -> calm off_flags ex_sf ex_pow dx_regex "" evs (daemon_init None sys_devs).
Proof. intros H. left. apply (checked_throughout off_flags apart); [|exact H]. intros d X. apply Nat.leb_le. exact X. Qed.
Lemma off_says : doc_says off_json [off_fan_text; jx_temp_text] [jx_zone_text].
Proof.
  split; [discriminate|].
  eexists. eexists. split; [|split; [|ex_keys]].
  - unfold jx_sensors_json. cbn [tl]. repeat apply Forall2_cons; try apply Forall2_nil.
    + do 3 (split; [vm_compute; intuition discriminate|]). ex_keys.
    + do 3 (split; [vm_compute; intuition discriminate|]). ex_keys.
  - apply Forall2_cons; [|apply Forall2_nil].
    split; [vm_compute; intuition discriminate|]. split; [exact Logic.I|]. split; [vm_compute; intuition discriminate|].
    split; [discriminate|]. eexists. split; [|ex_keys].
    apply Forall2_cons; [|apply Forall2_cons; [|apply Forall2_nil]].
    + split; [vm_compute; intuition discriminate|]. eexists. split; [|ex_keys].
      split; [discriminate|]. ex_keys.
    + split; [exact Logic.I|]. eexists. split; [|ex_keys].
      split; [reflexivity|]. eexists (Some _), (Some _). split; [|split; [|ex_keys]].
      * split; [cbn; repeat constructor|]. ex_keys.
      * split; [cbn; repeat constructor|]. ex_keys.
Qed.
Lemma off_served : text_served [off_fan_text; jx_temp_text] [jx_zone_text].
Proof.
  intros z p [<-|[]] [<-|[<-|[]]].
  - split; [|split; [|intros X; discriminate X]].
    + intros _. split; [discriminate|]. intros n [<-|[]]. exists off_fan_text. split; [reflexivity|].
      split; [left; reflexivity|left; path_class].
    + intros _ n [<-|[]]. exists off_fan_text. split; reflexivity.
  - split; [|split; [intros X; discriminate X|intros X; discriminate X]].
    intros _. split; [discriminate|]. intros n [<-|[]]. exists jx_temp_text. split; [reflexivity|].
    split; [right; left; reflexivity|left; path_class].
Qed.
Lemma off_read : read_configuration ex_sf dx_regex "" (su_disk off_w) (su_config off_w) = Ok (Loaded (jx_loaded off_json)).
Proof. apply (read_document _ _ _ _ _ st_installed off_json); [apply st_used|reflexivity|]. apply get_ok_eq. vm_compute. reflexivity. Qed.
Lemma off_shape : l_pids (jx_loaded off_json) = [(1%Z, [("fans", dl_pid off_json "fans"); ("step", dl_pid off_json "step")])] /\
  l_zones (jx_loaded off_json) = [(1%Z, dl_zone off_json)] /\
  l_sensors (jx_loaded off_json) = [("fan1", dl_sensor off_json "fan1"); ("temp1", dl_sensor off_json "temp1")].
Proof. apply dl_shape; vm_compute; reflexivity. Qed.
Lemma off_setup : sensible_setup ex_sf ex_pow sys_bus (l_sensors (jx_loaded off_json)) (l_pids (jx_loaded off_json)) (l_zones (jx_loaded off_json)).
Proof. destruct off_shape as (-> & -> & ->). sensible_document. Qed.
Lemma off_start_served dk config : start_served off_flags sys_bus config (st_w dk).
Proof. intros id. split; [intros n info p _ _ _; eexists; reflexivity|intros X; discriminate X]. Qed.
Lemma off_sound : start_sound off_flags ex_sf dx_regex "" dl_files off_w.
Proof.
  split; [apply st_order|]. split; [intros m; rewrite off_read; discriminate|]. intros c E. rewrite off_read in E. injection E as <-.
  split; [|split; [apply off_start_served|intros n info p _ _ _; exact Logic.I]].
  destruct (C65_lemma _ _ _ off_says) as (c & Ec & W).
  assert (Ej : load_json off_json = Ok (jx_loaded off_json)) by (apply get_ok_eq; vm_compute; reflexivity).
  rewrite Ej in Ec. injection Ec as <-. exact (served_config _ _ _ W off_served).
Qed.
Lemma off_run_no_accident t : no_accident off_flags ex_sf dx_regex "" dl_files (DRun off_w (sys_wake t)).
Proof.
  split; [exact off_sound|]. split; [intros p _; eexists; reflexivity|]. split; [intros p _; eexists; reflexivity|]. intros X. discriminate X.
Qed.
Lemma off_no_accident : Forall (no_accident off_flags ex_sf dx_regex "" dl_files) off_life.
Proof.
  cbn [off_life off_pending dl_wake app]. repeat (apply Forall_cons; [first [apply off_run_no_accident|exact Logic.I]|]). apply Forall_nil.
Qed.
Lemma off_prefix {A} (P : A -> Prop) l m : Forall P (l ++ m) -> Forall P l.
Proof. intros H. apply Forall_app in H. apply H. Qed.
Lemma off_run_def a d : off_run a = Ok d -> daemon_run off_flags ex_sf ex_pow dx_regex "" a (daemon_init None sys_devs) = Ok d.
Proof. intros H. exact H. Qed.
Lemma off_one a e d d1 : off_run a = Ok d -> off_run (a ++ [e]) = Ok d1 -> daemon_step off_flags ex_sf ex_pow dx_regex "" d e = Ok d1.
Proof.
  unfold off_run, daemon_run. intros H H1. rewrite foldM_app, H in H1. cbn [bind foldM] in H1. apply bind_ok in H1.
  destruct H1 as (x & H1 & E). injection E as ->. exact H1.
Qed.
Lemma off_fails a e d m : off_run a = Ok d -> off_run (a ++ [e]) = UB m -> daemon_step off_flags ex_sf ex_pow dx_regex "" d e = UB m.
Proof.
  unfold off_run, daemon_run. intros H H1. rewrite foldM_app, H in H1. cbn [bind foldM] in H1.
  destruct (daemon_step off_flags ex_sf ex_pow dx_regex "" d e); try discriminate H1. injection H1 as <-. reflexivity.
Qed.

(** The cycles had put the fan at 255; the failsafe percentage is 75, and the fan is
    left at 191. *)
Example C95_example : let evs := off_pending off_w in let d := off_after evs in
  let d1 := off_after (evs ++ [DRun off_w (sys_wake 0)]) in
  OFFLINE_FAILSAFE_PWM off_flags = true /\ Forall (no_accident off_flags ex_sf dx_regex "" dl_files) evs /\
  calm off_flags ex_sf ex_pow dx_regex "" evs (daemon_init None sys_devs) /\
  Forall delivered evs /\ delivered (DRun off_w (sys_wake 0)) /\
  daemon_run off_flags ex_sf ex_pow dx_regex "" evs (daemon_init None sys_devs) = Ok d /\
  m_stopped (dm_main d) = false /\ about_to_stop d /\
  daemon_step off_flags ex_sf ex_pow dx_regex "" d (DRun off_w (sys_wake 0)) = Ok d1 /\
  map (fun l => dsame (getFailSafePercent (l_zone l)) (D 75)) (sy_loops (dm_sys d)) = [true] /\
  mget off_path (sy_devices (dm_sys d)) = Some 255%Z /\ mget off_path (sy_devices (dm_sys d1)) = Some 191%Z /\
  loop_starts d1 = [MStarted (1%Z, 1); MStarted (1%Z, 2)].
Proof.
  intros evs d d1. split; [reflexivity|]. split; [exact (off_prefix _ _ _ off_no_accident)|].
  split; [apply off_calm; vm_compute; reflexivity|].
  split. { unfold evs. cbn [off_pending dl_wake app]. repeat (apply Forall_cons; [intros w k n X; first [discriminate X|injection X as _ <-; reflexivity]|]). apply Forall_nil. }
  split; [intros w k n X; injection X as _ <-; reflexivity|].
  assert (Hd : off_run evs = Ok d) by (apply get_ok_eq; vm_compute; reflexivity).
  assert (H1 : off_run (evs ++ [DRun off_w (sys_wake 0)]) = Ok d1) by (apply get_ok_eq; vm_compute; reflexivity).
  split; [exact (off_run_def _ _ Hd)|]. split; [vm_compute; reflexivity|].
  split; [split; [left; apply due_iff; vm_compute; reflexivity|apply no_loop_waits_iff; vm_compute; reflexivity]|].
  split; [exact (off_one _ _ _ _ Hd H1)|].
  repeat match goal with |- _ /\ _ => split end; vm_compute; reflexivity.
Qed.

(** C92 to C94 with OFFLINE_FAILSAFE_PWM. *)
Example C95_sensible_example :
  OFFLINE_FAILSAFE_PWM off_flags = true /\ Forall (bus_fans ex_sf dx_regex "") off_life /\
  Forall (no_accident off_flags ex_sf dx_regex "" dl_files) off_life /\ Forall (sensible ex_sf ex_pow dx_regex "") off_life /\
  calm off_flags ex_sf ex_pow dx_regex "" off_life (daemon_init None sys_devs) /\
  is_ok (off_run off_life) = true.
Proof.
  split; [reflexivity|]. split; [|split; [exact off_no_accident|split; [|split; [apply off_calm; vm_compute; reflexivity|vm_compute; reflexivity]]]].
  - assert (B : forall t, bus_fans ex_sf dx_regex "" (DRun off_w (sys_wake t))).
    { intros t w k c name info E R. injection E as <- <-. rewrite off_read in R. injection R as <-.
      destruct off_shape as (_ & _ & ->). intros [X|[X|[]]] T; injection X as <- <-; [|vm_compute in T; discriminate T].
      assert (P : sc_writePath (dl_sensor off_json "fan1") = off_path) by (vm_compute; reflexivity). rewrite P. path_class. }
    cbn [off_life off_pending dl_wake app]. repeat (apply Forall_cons; [first [apply B|intros w k c name info E; discriminate E]|]). apply Forall_nil.
  - assert (Fs : forall p, modest_file (sys_files p)).
    { intros p. cbn. destruct (String.eqb p "/sys/hwmon/temp0"); vm_compute; discriminate. }
    assert (R : forall t, sensible ex_sf ex_pow dx_regex "" (DRun off_w (sys_wake t))).
    { intros t. split; [split; [exact Fs|split; [exact Fs|split; exact Logic.I]]|]. intros c E. rewrite off_read in E. injection E as <-.
      split; [exact off_setup|]. intros z. split; [exact Fs|split; exact Logic.I]. }
    cbn [off_life off_pending dl_wake app]. repeat (apply Forall_cons; [first [exact Logic.I|apply R]|]). apply Forall_nil.
Qed.

(** With a fan in sysfs the reload is undefined behaviour, however sensible
    everything is. *)
Theorem C95_sysfs_refuted : exists F evs d w k,
  OFFLINE_FAILSAFE_PWM off_flags = true /\ Forall (no_accident off_flags ex_sf dx_regex "" F) evs /\
  Forall (sensible ex_sf ex_pow dx_regex "") evs /\ calm off_flags ex_sf ex_pow dx_regex "" evs (daemon_init None sys_devs) /\
  daemon_run off_flags ex_sf ex_pow dx_regex "" evs (daemon_init None sys_devs) = Ok d /\ m_stopped (dm_main d) = false /\ about_to_stop d /\
  no_accident off_flags ex_sf dx_regex "" F (DRun w k) /\ sensible ex_sf ex_pow dx_regex "" (DRun w k) /\
  daemon_step off_flags ex_sf ex_pow dx_regex "" d (DRun w k) = UB "uninitialised rawWritten".
Proof.
  exists dl_files, (off_pending dl_w), (off_after (off_pending dl_w)), dl_w, (sys_wake 0).
  assert (Ne : forall t, no_accident off_flags ex_sf dx_regex "" dl_files (DRun dl_w (sys_wake t))).
  { intros t. split; [|split; [intros p _; eexists; reflexivity|split; [intros p _; eexists; reflexivity|intros X; discriminate X]]].
    destruct dl_sound as (A & B & C). split; [exact A|]. split; [exact B|]. intros c E. destruct (C c E) as (C1 & _ & C3). split; [exact C1|].
    split; [apply off_start_served|exact C3]. }
  assert (Fs : forall p, modest_file (sys_files p)).
  { intros p. cbn. destruct (String.eqb p "/sys/hwmon/temp0"); vm_compute; discriminate. }
  assert (R : forall t, sensible ex_sf ex_pow dx_regex "" (DRun dl_w (sys_wake t))).
  { intros t. split; [split; [exact Fs|split; [exact Fs|split; exact Logic.I]]|]. intros c E. rewrite dl_read in E. injection E as <-.
    split; [exact dl_setup|]. intros z. split; [exact Fs|split; exact Logic.I]. }
  assert (Hd : off_run (off_pending dl_w) = Ok (off_after (off_pending dl_w))) by (apply get_ok_eq; vm_compute; reflexivity).
  assert (H1 : off_run (off_pending dl_w ++ [DRun dl_w (sys_wake 0)]) = UB "uninitialised rawWritten") by (vm_compute; reflexivity).
  split; [reflexivity|].
  split. { cbn [off_pending dl_wake app]. repeat (apply Forall_cons; [first [apply Ne|exact Logic.I]|]). apply Forall_nil. }
  split. { cbn [off_pending dl_wake app]. repeat (apply Forall_cons; [first [exact Logic.I|apply R]|]). apply Forall_nil. }
  split; [apply off_calm; vm_compute; reflexivity|]. split; [exact (off_run_def _ _ Hd)|]. split; [vm_compute; reflexivity|].
  split; [split; [left; apply due_iff; vm_compute; reflexivity|apply no_loop_waits_iff; vm_compute; reflexivity]|].
  split; [apply Ne|]. split; [apply R|]. exact (off_fails _ _ _ _ Hd H1).
Qed.
Print Assumptions C95_sysfs_refuted.
