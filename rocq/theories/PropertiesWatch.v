(** * Property C104: which daemons notice changes on the bus, and how soon.

    Vocabulary: SpecWatch.v, with SpecDaemon.v, SpecStart.v, SpecReload.v and
    SpecStop.v.  Proofs: WatchProofs.v. *)
From Coq Require Import ZArith Bool List String Lia.
From Verif Require Import Base BaseFacts Dbl PidModel ZoneModel LoopModel SpecZone ZoneProofs PropertiesZone PropertiesBuilder PropertiesSensor PropertiesSystem
  JsonModel PropertiesJson ExamplesDbus PropertiesDbus ConfigModel DbusConfigModel SensorModel SystemModel SpecSystem LogModel MainModel SpecMain MainProofs2
  ReloadModel SpecReload ReloadProofs PropertiesReload StartModel SpecStart PropertiesStart DaemonModel SpecDaemon PropertiesDaemon SpecStop PropertiesStop
  PropertiesLife SpecWatch WatchProofs.
Import ListNotations.
Local Open Scope string_scope.

(** As long as there is a configuration file, signals on the bus change nothing: not
    what the daemon does, nor when. *)
Theorem C104_file_means_no_watching : forall f sf pow10 re named first devices evs, file_installed named evs ->
  daemon_run f sf pow10 re named evs (daemon_init first devices) = daemon_run f sf pow10 re named (without_signals evs) (daemon_init first devices).
Proof. exact C104_file_lemma. Qed.
Print Assumptions C104_file_means_no_watching.

(** Once a configuration was read and there was no file, in any life since: after a
    signal about the configuration, when nothing is pending the configuration has
    been read again. *)
Theorem C104_no_change_is_lost : forall f sf pow10 re named pre w k post m mid first devices da db d d1,
  daemon_run f sf pow10 re named pre (daemon_init first devices) = Ok da -> next_is (ORestart false) da -> no_file named (su_disk w) ->
  daemon_step f sf pow10 re named da (DRun w k) = Ok db -> loop_stops db <> loop_stops da -> daemon_run f sf pow10 re named post db = Ok d ->
  about_configuration m -> daemon_run f sf pow10 re named (DMove (VSignal m) :: mid) d = Ok d1 -> going d1 -> settled (dm_reload d1) ->
  reread_since (dm_reload d) (dm_reload d1).
Proof. exact C104_lost_lemma. Qed.
Print Assumptions C104_no_change_is_lost.

(** ... and so it will be: the signal comes, nothing new for two seconds, the timer
    expires and what was queued behind it is handled; every handler that is queued
    then runs; later the 10 s timer expires, and every handler queued then runs, and
    one more.  Whatever else happens, the configuration has been read again or the
    daemon has ended. *)
Theorem C104_change_is_served : forall f sf pow10 re named pre w k post m evs1 evs2 evs3 evs4 evs5 first devices da db d0 d1 d2 d3 d4 d5,
  daemon_run f sf pow10 re named pre (daemon_init first devices) = Ok da -> next_is (ORestart false) da -> no_file named (su_disk w) ->
  daemon_step f sf pow10 re named da (DRun w k) = Ok db -> loop_stops db <> loop_stops da -> daemon_run f sf pow10 re named post db = Ok d0 ->
  about_configuration m -> nothing_new evs1 ->
  daemon_run f sf pow10 re named (DMove (VSignal m) :: evs1) d0 = Ok d1 -> (2000 <= waited evs1)%Z ->
  daemon_run f sf pow10 re named (DMove VExpire :: evs2) d1 = Ok d2 -> (timers_queued d1 < timer_handlers evs2)%nat ->
  daemon_run f sf pow10 re named evs3 d2 = Ok d3 -> (queued d2 <= handlers evs3)%nat ->
  daemon_run f sf pow10 re named evs4 d3 = Ok d4 ->
  daemon_run f sf pow10 re named (DMove VRetry :: evs5) d4 = Ok d5 -> (queued d4 < handlers evs5)%nat ->
  ended (dm_reload d5) \/ reread_since (dm_reload d0) (dm_reload d5).
Proof. exact C104_served_lemma. Qed.
Print Assumptions C104_change_is_served.

(** A daemon that reads the configuration from the bus; a controller changes. *)
Definition wt_w : surroundings := st_w (st_disk [] [] NotJson).
Definition wt_run (w : surroundings) : daemon_ev := DRun w (sys_wake 0).
Definition wt_sig : list daemon_ev := [DMove (VWait 1500); DMove (VSignal only_associations); DMove (VLoopExpire (3%Z, 1)); DMove (VWait 500)].
Definition wt_0 (w : surroundings) : list daemon_ev := [wt_run w; DSys host_up].
Definition wt_1 (w : surroundings) : list daemon_ev := (wt_0 w ++ DMove (VSignal pid_changed) :: wt_sig)%list.
Definition wt_2 (w : surroundings) : list daemon_ev := (wt_1 w ++ [DMove VExpire; DMove VHandler])%list.
Definition wt_3 (w : surroundings) : list daemon_ev := (wt_2 w ++ [wt_run w; wt_run w])%list.
Definition wt_5 (w : surroundings) : list daemon_ev := (wt_3 w ++ [DMove VRetry; wt_run w; wt_run w])%list.

Example C104_example :
  let db := dl_after [wt_run wt_w] in
  let d0 := dl_after (wt_0 wt_w) in let d1 := dl_after (wt_1 wt_w) in let d2 := dl_after (wt_2 wt_w) in let d3 := dl_after (wt_3 wt_w) in let d5 := dl_after (wt_5 wt_w) in
  next_is (ORestart false) dl_init /\ no_file "" (su_disk wt_w) /\
  daemon_step ex_flags ex_sf ex_pow dx_regex "" dl_init (wt_run wt_w) = Ok db /\ loop_stops db <> loop_stops dl_init /\
  daemon_run ex_flags ex_sf ex_pow dx_regex "" [DSys host_up] db = Ok d0 /\ about_configuration pid_changed /\ nothing_new wt_sig /\
  daemon_run ex_flags ex_sf ex_pow dx_regex "" (DMove (VSignal pid_changed) :: wt_sig) d0 = Ok d1 /\ waited wt_sig = 2000%Z /\
  daemon_run ex_flags ex_sf ex_pow dx_regex "" [DMove VExpire; DMove VHandler] d1 = Ok d2 /\ timers_queued d1 = 0%nat /\
  daemon_run ex_flags ex_sf ex_pow dx_regex "" [wt_run wt_w; wt_run wt_w] d2 = Ok d3 /\ queued d2 = 2%nat /\
  daemon_run ex_flags ex_sf ex_pow dx_regex "" [DMove VRetry; wt_run wt_w; wt_run wt_w] d3 = Ok d5 /\ queued d3 = 1%nat /\
  going d5 /\ settled (dm_reload d5) /\ dm_ids d0 = [(3%Z, 1%nat)] /\ dm_ids d5 = [(3%Z, 2%nat)].
Proof.
  intros db d0 d1 d2 d3 d5.
  assert (Hi : dl_run [] = Ok dl_init) by reflexivity.
  assert (Hb : dl_run [wt_run wt_w] = Ok db) by (apply get_ok_eq; vm_compute; reflexivity).
  assert (H0 : dl_run (wt_0 wt_w) = Ok d0) by (apply get_ok_eq; vm_compute; reflexivity).
  assert (H1 : dl_run (wt_1 wt_w) = Ok d1) by (apply get_ok_eq; vm_compute; reflexivity).
  assert (H2 : dl_run (wt_2 wt_w) = Ok d2) by (apply get_ok_eq; vm_compute; reflexivity).
  assert (H3 : dl_run (wt_3 wt_w) = Ok d3) by (apply get_ok_eq; vm_compute; reflexivity).
  assert (H5 : dl_run (wt_5 wt_w) = Ok d5) by (apply get_ok_eq; vm_compute; reflexivity).
  split; [apply (ready_first _ _ []); reflexivity|]. split; [apply st_none|].
  split; [exact (dl_next [] _ [wt_run wt_w] _ _ eq_refl Hi Hb)|]. split; [vm_compute; discriminate|].
  split; [exact (dl_part _ _ _ _ _ Hb eq_refl H0)|]. split; [apply counts_iff; reflexivity|].
  split. { intros m [X|[X|[X|[X|[]]]]]; try discriminate X. injection X as <-. intros X. apply counts_iff in X. discriminate X. }
  split; [exact (dl_part _ _ _ _ _ H0 eq_refl H1)|]. split; [reflexivity|].
  split; [exact (dl_part _ _ _ _ _ H1 eq_refl H2)|]. split; [vm_compute; reflexivity|].
  split; [exact (dl_part _ _ _ _ _ H2 eq_refl H3)|]. split; [vm_compute; reflexivity|].
  split; [exact (dl_part _ _ _ _ _ H3 eq_refl H5)|]. split; [vm_compute; reflexivity|].
  split; [apply still_going; vm_compute; reflexivity|].
  split. { split; [vm_compute; reflexivity|]. split; [vm_compute; reflexivity|]. split; [vm_compute; reflexivity|]. split; [vm_compute; reflexivity|]. split; [vm_compute; reflexivity|].
    assert (Q : m_ready (rl_main (dm_reload d5)) = []) by (vm_compute; reflexivity). rewrite Q. intros o []. }
  split; vm_compute; reflexivity.
Qed.

(** The same with a configuration file: no reload. *)
Example C104_file_example :
  file_installed "" (wt_5 dl_w) /\ (List.length (wt_5 dl_w) = List.length (without_signals (wt_5 dl_w)) + 2)%nat /\
  going (dl_after (wt_5 dl_w)) /\ dm_ids (dl_after (wt_5 dl_w)) = [(1%Z, 1%nat)].
Proof.
  split. { intros w k I. exists st_installed. assert (w = dl_w) as ->; [|apply st_used]. repeat (destruct I as [I|I]; [try discriminate I; injection I as <- _; reflexivity|]). destruct I. }
  split; [reflexivity|]. split; [apply still_going; vm_compute; reflexivity|vm_compute; reflexivity].
Qed.
