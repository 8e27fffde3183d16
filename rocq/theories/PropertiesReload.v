(** * Properties C81 to C83: reloading the configuration.

    Vocabulary: SpecReload.v, SpecMain.v, SpecDbus.v.  Proofs: ReloadProofs.v.

    An execution starts with [reload_init]; [VSignal m] is a signal on the bus,
    [VHup] and [VTerm] are SIGHUP and SIGTERM, [VWait] lets time pass.  In the log
    [LSignal t] is a signal that counted and [LReload t] the message "New
    configuration detected, reloading". *)
From Coq Require Import ZArith Bool List String Lia.
From Verif Require Import Base MainModel SpecMain ConfigModel DbusConfigModel SpecDbus ReloadModel SpecReload
  ReloadProofs.
Import ListNotations.
Local Open Scope string_scope.

(** ** C81 *)

(** Which signals count. *)
Theorem C81_which_signals : forall s m, rl_matches s = true -> m_stopped (rl_main s) = false ->
  (about_configuration m -> rl_timer (reload_step s (VSignal m)) = Some (rl_now s + 2000)%Z) /\
  (~ about_configuration m -> reload_step s (VSignal m) = s).
Proof. exact C81_which_lemma. Qed.
Print Assumptions C81_which_signals.

(** Once nothing is pending, the configuration has been read after the signal. *)
Theorem C81_no_change_is_lost : forall evs pre m post s,
  evs = (pre ++ VSignal m :: post)%list -> s = reload_run evs reload_init ->
  about_configuration m -> rl_matches (reload_run pre reload_init) = true -> ~ ended s -> settled s ->
  reread_since (reload_run pre reload_init) s.
Proof. exact C81_lost_lemma. Qed.
Print Assumptions C81_no_change_is_lost.

(** ... and every control loop was started after the signal. *)
Theorem C81_running_zones_are_current : forall evs pre m post s,
  one_attempt evs \/ one_zone evs -> evs = (pre ++ VSignal m :: post)%list -> s = reload_run evs reload_init ->
  about_configuration m -> rl_matches (reload_run pre reload_init) = true -> ~ ended s -> settled s ->
  exists h, since (reload_run pre reload_init) s h /\ forall i, In i (live (rl_main s)) -> In (MStarted i) h.
Proof. exact C81_current_lemma. Qed.
Print Assumptions C81_running_zones_are_current.

(** There are never more reloads than signals, and each comes at least two seconds
    after one. *)
Theorem C81_no_reload_without_cause : forall evs s, s = reload_run evs reload_init ->
  (reloads (rl_log s) <= signals (rl_log s))%nat /\
  forall a n b, rl_log s = (a ++ LReload n :: b)%list -> exists t, In (LSignal t) b /\ (t + 2000 <= n)%Z.
Proof. exact C81_cause_lemma. Qed.
Print Assumptions C81_no_reload_without_cause.

(** A burst of signals makes one reload. *)
Theorem C81_burst_is_one_reload : forall evs0 evs s s',
  s = reload_run evs0 reload_init -> s' = reload_run evs s ->
  rl_matches s = true -> no_reload_coming s -> burst None evs ->
  exists new, rl_log s' = (new ++ rl_log s)%list /\ (reloads new <= 1)%nat /\
    (~ ended s' -> no_reload_coming s' -> (exists m, In (VSignal m) evs /\ about_configuration m) -> reloads new = 1%nat).
Proof. exact C81_burst_lemma. Qed.
Print Assumptions C81_burst_is_one_reload.

(** Zone 1 runs; a controller changes, a sensor's associations come (ignored) and
    half a second later another sensor; one reload, which builds zones 1 and 2. *)
Definition pid_changed : bus_signal := BusSignal "PropertiesChanged" pid_config [].
Definition only_associations : bus_signal :=
  BusSignal "InterfacesAdded" "/xyz/openbmc_project/sensors/temperature/t0" [association].
Definition new_sensor : bus_signal :=
  BusSignal "InterfacesAdded" "/xyz/openbmc_project/sensors/temperature/t0"
    [association_definitions; "xyz.openbmc_project.Sensor.Value"].
Definition ex_start : list reload_ev := [VRun true (BZones [1%Z] 1) true].
Definition ex_burst : list reload_ev :=
  [VSignal pid_changed; VSignal only_associations; VWait 500%N; VExpire; VSignal new_sensor; VWait 1900%N; VExpire;
   VWait 100%N; VExpire; VHandler; VHandler; VRun true BNotReady true; VRun true BNotReady true; VWait 10000%N; VRetry;
   VRun true (BZones [1%Z; 2%Z] 2) true].
Definition ex_reloaded : reload_st := reload_run (ex_start ++ ex_burst) reload_init.
Example C81_example :
  about_configuration pid_changed /\ about_configuration new_sensor /\ ~ about_configuration only_associations /\
  rl_matches (reload_run ex_start reload_init) = true /\ no_reload_coming (reload_run ex_start reload_init) /\
  burst None ex_burst /\ one_attempt (ex_start ++ ex_burst) /\
  ~ ended ex_reloaded /\ settled ex_reloaded /\ rl_log ex_reloaded = [LReload 2500; LSignal 500; LSignal 0] /\
  history (rl_main ex_reloaded) =
    [MStopped; MStarted (1%Z, 1%nat); MStopFailed; MStopped; MStarted (1%Z, 2%nat); MStarted (2%Z, 2%nat)] /\
  live (rl_main ex_reloaded) = [(1%Z, 2%nat); (2%Z, 2%nat)].
Proof.
  assert (A : about_configuration pid_changed) by (apply counts_iff; reflexivity).
  assert (B : about_configuration new_sensor) by (apply counts_iff; reflexivity).
  assert (C : ~ about_configuration only_associations) by (intros X; apply counts_iff in X; discriminate X).
  split; [exact A|]. split; [exact B|]. split; [exact C|]. split; [reflexivity|].
  split; [split; [reflexivity|intros []]|]. split.
  { cbn [burst ex_burst option_map]. split; [intros _|contradiction]. split; [discriminate|]. split; [contradiction|intros _].
    split; [intros _|contradiction]. split; [intros d E; injection E as <-; lia|exact Logic.I]. }
  split.
  { intros pre post E.
    assert (F : Forall (fun k => (List.length (filter is_attempt (m_ready (rl_main
                 (reload_run (firstn k (ex_start ++ ex_burst)) reload_init)))) <= 1)%nat) (seq 0 18)).
    { cbn [seq]. repeat (constructor; [vm_compute; lia|]). constructor. }
    rewrite Forall_forall in F. specialize (F (List.length pre)). rewrite E in F.
    rewrite firstn_app, Nat.sub_diag, firstn_O, app_nil_r, firstn_all in F. apply F.
    apply in_seq. apply (f_equal (@List.length _)) in E. rewrite !app_length in E. cbn in E. lia. }
  split; [vm_compute; intuition discriminate|]. split.
  { repeat (split; [reflexivity|]). intros o I. vm_compute in I. destruct I. }
  split; [reflexivity|]. split; reflexivity.
Qed.

(** A new controller or zone is not noticed: objects appear with InterfacesAdded,
    which is only watched below /xyz/openbmc_project/sensors. *)
Theorem C81_new_controller_refuted : exists m,
  sg_member m = "InterfacesAdded" /\ In pid_config (sg_interfaces m) /\
  forall s, reload_step s (VSignal m) = s.
Proof.
  exists (BusSignal "InterfacesAdded" "/xyz/openbmc_project/inventory/system/board/Board/Pid_Fan" [pid_config]).
  split; [reflexivity|]. split; [left; reflexivity|]. intros s. apply signal_ignored.
  intros X. apply counts_iff in X. discriminate X.
Qed.
Print Assumptions C81_new_controller_refuted.

(** ** C82 *)

(** SIGHUP: once nothing is pending, the configuration has been read again. *)
Theorem C82_hup_is_not_lost : forall evs pre post s,
  evs = (pre ++ VHup :: post)%list -> s = reload_run evs reload_init -> ~ ended s -> settled s ->
  reread_since (reload_run pre reload_init) s.
Proof. exact C81_hup_lemma. Qed.
Print Assumptions C82_hup_is_not_lost.

(** SIGTERM: once nothing is pending, the daemon has ended. *)
Theorem C82_term_is_not_lost : forall evs s,
  In VTerm evs -> s = reload_run evs reload_init -> settled s -> ended s.
Proof. exact C82_term_lemma. Qed.
Print Assumptions C82_term_is_not_lost.

Definition ex_hup : list reload_ev :=
  [VRun true (BZones [1%Z] 1) false; VHup; VWait 400%N; VHup; VWait 1000%N; VHupExpire; VHandler; VHandler;
   VRun true BNotReady false; VRun true BNotReady false; VRetry; VRun true (BZones [1%Z] 1) false].
Definition ex_term : list reload_ev :=
  (ex_hup ++ [VTerm; VRun true BNotReady false; VRun true BNotReady false; VTermRetry; VRun true BNotReady false])%list.
Example C82_example :
  settled (reload_run ex_hup reload_init) /\ ~ ended (reload_run ex_hup reload_init) /\
  history (rl_main (reload_run ex_hup reload_init)) =
    [MStopped; MStarted (1%Z, 1%nat); MStopFailed; MStopped; MStarted (1%Z, 2%nat)] /\
  settled (reload_run ex_term reload_init) /\ ended (reload_run ex_term reload_init).
Proof.
  split. { repeat (split; [reflexivity|]). intros o I. vm_compute in I. destruct I. }
  split; [vm_compute; intuition discriminate|]. split; [reflexivity|].
  split. { repeat (split; [reflexivity|]). intros o I. vm_compute in I. destruct I. }
  vm_compute. auto 12.
Qed.

(** ** C83 *)

(** Which interfaces of the configuration are used: those whose profiles include
    one that an object with a thermal mode currently has. *)
Theorem C83_current_mode_selects : forall objects current selected props,
  getSelectedProfiles (Some objects) current = Ok selected ->
  (in_profile selected props <-> in_force objects current props).
Proof. exact C83_selects_lemma. Qed.
Print Assumptions C83_current_mode_selects.

(** If a mode cannot be read, nothing is configured; reading succeeds otherwise. *)
Theorem C83_unreadable_mode : forall objects current,
  (exists selected, getSelectedProfiles objects current = Ok selected) <->
  exists l, objects = Some l /\
    forall path owners owner, In (path, owners) l -> In owner owners -> current owner path <> None.
Proof. exact C83_unreadable_lemma. Qed.
Print Assumptions C83_unreadable_mode.

(** The order in which the modes are found does not matter. *)
Theorem C83_order_does_not_matter : forall sf re cb l l',
  cb_profiles cb = Some l -> (forall p, In p l <-> In p l') -> dbus_init sf re (with_profiles l' cb) = dbus_init sf re cb.
Proof. exact C83_order_lemma. Qed.
Print Assumptions C83_order_does_not_matter.

Definition ex_modes : list (string * list string) := [("/mode0", ["svc"]); ("/mode1", ["svc"; "other"])].
Definition ex_current (owner path : string) : option string :=
  if String.eqb path "/mode0" then Some "Performance" else if String.eqb owner "svc" then Some "Acoustic" else Some "Sport".
Example C83_example :
  getSelectedProfiles (Some ex_modes) ex_current = Ok ["Performance"; "Acoustic"; "Sport"] /\
  in_profile ["Performance"; "Acoustic"; "Sport"] [("Profiles", VStrs ["Idle"; "Acoustic"])] /\
  ~ in_profile ["Performance"; "Acoustic"; "Sport"] [("Profiles", VStrs ["Idle"])].
Proof.
  split; [reflexivity|]. split.
  - right. right. right. exists ["Idle"; "Acoustic"], "Acoustic". cbn. auto.
  - intros [X|[X|[X|(l & p & X & I & J)]]]; try discriminate X. injection X as <-. destruct I as [<-|[]].
    cbn in J. intuition discriminate.
Qed.
