(** * Properties C96 and C97: stopping and reloading take two attempts at most.

    Vocabulary: SpecStop.v, with SpecDaemon.v, SpecMain.v and SpecReload.v.
    Proofs: StopProofs.v, StopProofs2.v. *)
From Coq Require Import ZArith Bool List String Lia.
From Verif Require Import Base BaseFacts Dbl ZoneModel LoopModel ZoneProofs PropertiesZone PropertiesBuilder PropertiesSensor PropertiesSystem
  ExamplesDbus PropertiesDbus SensorModel SystemModel DbusConfigModel LogModel MainModel SpecMain ReloadModel SpecReload
  StartModel SpecStart PropertiesStart DaemonModel SpecDaemon PropertiesDaemon SpecStop StopProofs StopProofs2.
Import ListNotations.
Local Open Scope string_scope.

(** ** C96 *)

(** SIGTERM in any state of any life; then every handler that was queued runs, and
    one more; later the 50 ms timer expires and every handler queued then runs, and
    one more.  Whatever else happens, now the daemon has ended, or a loop was started
    meanwhile. *)
Theorem C96_two_attempts : forall f sf pow10 re named first devices evs0 d0 evs1 d1 evs2 d2 evs3 d3,
  daemon_run f sf pow10 re named evs0 (daemon_init first devices) = Ok d0 ->
  daemon_run f sf pow10 re named (DMove VTerm :: evs1) d0 = Ok d1 -> (queued d0 < handlers evs1)%nat ->
  daemon_run f sf pow10 re named evs2 d1 = Ok d2 ->
  daemon_run f sf pow10 re named (DMove VTermRetry :: evs3) d2 = Ok d3 -> (queued d2 < handlers evs3)%nat ->
  ended (dm_reload d3) \/ loop_starts d3 <> loop_starts d0.
Proof. exact C96_lemma. Qed.
Print Assumptions C96_two_attempts.

(** Without reloads it has ended. *)
Theorem C96_term_ends : forall f sf pow10 re named first devices evs0 d0 evs1 d1 evs2 d2 evs3 d3,
  daemon_run f sf pow10 re named evs0 (daemon_init first devices) = Ok d0 ->
  no_reload_pending d0 -> Forall (fun e => ~ asks_reload e) (evs1 ++ evs2 ++ evs3)%list ->
  daemon_run f sf pow10 re named (DMove VTerm :: evs1) d0 = Ok d1 -> (queued d0 < handlers evs1)%nat ->
  daemon_run f sf pow10 re named evs2 d1 = Ok d2 ->
  daemon_run f sf pow10 re named (DMove VTermRetry :: evs3) d2 = Ok d3 -> (queued d2 < handlers evs3)%nat ->
  ended (dm_reload d3).
Proof. exact C96_ends_lemma. Qed.
Print Assumptions C96_term_ends.

(** A zone runs; SIGTERM comes when its loop is about to wake up once more. *)
Definition run_one : daemon_ev := DRun dl_w (sys_wake 200).
Definition tm_life : list daemon_ev := (dl_before ++ [DMove (VLoopExpire (1%Z, 1))])%list.
Definition tm_first : list daemon_ev := [run_one; run_one].
Definition tm_second : list daemon_ev := [run_one; run_one].
Lemma dl_part a b c d d1 : dl_run a = Ok d -> c = (a ++ b)%list -> dl_run c = Ok d1 -> daemon_run ex_flags ex_sf ex_pow dx_regex "" b d = Ok d1.
Proof. intros H -> H1. exact (dl_split _ _ _ _ H H1). Qed.
Definition none_pending (d : daemon) : bool :=
  match rl_timer (dm_reload d), rl_hup (dm_reload d), rl_done (dm_reload d) with None, None, [] => true | _, _, _ => false end &&
  negb (m_rtimer (dm_main d)) && forallb (fun o => match o with ORestart false => false | _ => true end) (m_ready (dm_main d)).
Lemma none_pending_iff d : none_pending d = true -> no_reload_pending d.
Proof.
  unfold none_pending, no_reload_pending. destruct (rl_timer (dm_reload d)); [discriminate|]. destruct (rl_hup (dm_reload d)); [discriminate|].
  destruct (rl_done (dm_reload d)); [|discriminate]. destruct (m_rtimer (dm_main d)); [discriminate|]. cbn [negb andb]. intros H.
  split; [reflexivity|]. split; [reflexivity|]. split; [intros o []|]. split; [reflexivity|]. intros I. rewrite forallb_forall in H. discriminate (H _ I).
Qed.
Lemma stops_iff evs d : dl_run evs = Ok d -> m_stopped (dm_main d) = true -> ended (dm_reload d).
Proof. exact (run_ended ex_flags ex_sf ex_pow dx_regex "" None sys_devs evs d). Qed.

Example C96_example :
  let d0 := dl_after tm_life in let d1 := dl_after (tm_life ++ DMove VTerm :: tm_first) in
  let d3 := dl_after (tm_life ++ (DMove VTerm :: tm_first) ++ DMove VTermRetry :: tm_second) in
  dl_run tm_life = Ok d0 /\ no_reload_pending d0 /\ Forall (fun e => ~ asks_reload e) (tm_first ++ [] ++ tm_second)%list /\
  daemon_run ex_flags ex_sf ex_pow dx_regex "" (DMove VTerm :: tm_first) d0 = Ok d1 /\ queued d0 = 1%nat /\ handlers tm_first = 2%nat /\
  daemon_run ex_flags ex_sf ex_pow dx_regex "" [] d1 = Ok d1 /\ m_stopped (dm_main d1) = false /\
  daemon_run ex_flags ex_sf ex_pow dx_regex "" (DMove VTermRetry :: tm_second) d1 = Ok d3 /\ queued d1 = 1%nat /\ handlers tm_second = 2%nat /\
  ended (dm_reload d3).
Proof.
  intros d0 d1 d3.
  assert (H0 : dl_run tm_life = Ok d0) by (apply get_ok_eq; vm_compute; reflexivity).
  assert (H1 : dl_run (tm_life ++ DMove VTerm :: tm_first) = Ok d1) by (apply get_ok_eq; vm_compute; reflexivity).
  assert (H3 : dl_run (tm_life ++ (DMove VTerm :: tm_first) ++ DMove VTermRetry :: tm_second) = Ok d3) by (apply get_ok_eq; vm_compute; reflexivity).
  split; [exact H0|]. split; [apply none_pending_iff; vm_compute; reflexivity|].
  split. { apply Forall_forall. intros e I [E|(m & E)]; subst e; unfold tm_first, tm_second, run_one in I; cbn [app In] in I; repeat destruct I as [I|I]; try discriminate I; destruct I. }
  split; [exact (dl_part _ _ _ _ _ H0 eq_refl H1)|]. split; [vm_compute; reflexivity|]. split; [reflexivity|]. split; [reflexivity|].
  split; [vm_compute; reflexivity|]. split; [exact (dl_part _ _ _ _ _ H1 (app_assoc _ _ _) H3)|].
  split; [vm_compute; reflexivity|]. split; [reflexivity|]. apply (stops_iff _ _ H3). vm_compute. reflexivity.
Qed.

(** A reload that starts loops between the two attempts: the second one fails, too. *)
Definition tm_reload : list daemon_ev := [run_one; DMove VRetry; run_one].
Definition tm_hup : list daemon_ev := (dl_before ++ [DMove VHup; DMove (VWait 1000); DMove VHupExpire])%list.
Definition tm_both : list daemon_ev := [DMove VHandler; run_one; run_one].
Theorem C96_reload_between_refuted : exists evs0 d0 evs1 d1 evs2 d2 evs3 d3,
  daemon_run ex_flags ex_sf ex_pow dx_regex "" evs0 (daemon_init None sys_devs) = Ok d0 /\
  daemon_run ex_flags ex_sf ex_pow dx_regex "" (DMove VTerm :: evs1) d0 = Ok d1 /\ (queued d0 < handlers evs1)%nat /\
  daemon_run ex_flags ex_sf ex_pow dx_regex "" evs2 d1 = Ok d2 /\
  daemon_run ex_flags ex_sf ex_pow dx_regex "" (DMove VTermRetry :: evs3) d2 = Ok d3 /\ (queued d2 < handlers evs3)%nat /\
  m_stopped (dm_main d3) = false.
Proof.
  exists tm_hup, (dl_after tm_hup), tm_both, (dl_after (tm_hup ++ DMove VTerm :: tm_both)),
    tm_reload, (dl_after ((tm_hup ++ DMove VTerm :: tm_both) ++ tm_reload)), [run_one],
    (dl_after (((tm_hup ++ DMove VTerm :: tm_both) ++ tm_reload) ++ [DMove VTermRetry; run_one])).
  assert (H0 : dl_run tm_hup = Ok (dl_after tm_hup)) by (apply get_ok_eq; vm_compute; reflexivity).
  assert (H1 : dl_run (tm_hup ++ DMove VTerm :: tm_both) = Ok (dl_after (tm_hup ++ DMove VTerm :: tm_both))) by (apply get_ok_eq; vm_compute; reflexivity).
  assert (H2 : dl_run ((tm_hup ++ DMove VTerm :: tm_both) ++ tm_reload) = Ok (dl_after ((tm_hup ++ DMove VTerm :: tm_both) ++ tm_reload))) by (apply get_ok_eq; vm_compute; reflexivity).
  assert (H3 : dl_run (((tm_hup ++ DMove VTerm :: tm_both) ++ tm_reload) ++ [DMove VTermRetry; run_one]) =
    Ok (dl_after (((tm_hup ++ DMove VTerm :: tm_both) ++ tm_reload) ++ [DMove VTermRetry; run_one]))) by (apply get_ok_eq; vm_compute; reflexivity).
  split; [exact (dl_run_def _ _ H0)|]. split; [exact (dl_part _ _ _ _ _ H0 eq_refl H1)|]. split; [apply Nat.ltb_lt; vm_compute; reflexivity|].
  split; [exact (dl_part _ _ _ _ _ H1 eq_refl H2)|]. split; [exact (dl_part _ _ _ _ _ H2 eq_refl H3)|].
  split; [apply Nat.ltb_lt; vm_compute; reflexivity|]. vm_compute. reflexivity.
Qed.
Print Assumptions C96_reload_between_refuted.

(** ** C97 *)

(** A reload is queued, in any state of any life; every handler that is queued runs;
    later the 10 s timer expires and every handler queued then runs, and one more.
    Whatever else happens, now the loops have been stopped and the configuration has
    been read again, or the daemon has ended. *)
Theorem C97_reload_is_served : forall f sf pow10 re named first devices evs0 d0 evs1 d1 evs2 d2 evs3 d3,
  daemon_run f sf pow10 re named evs0 (daemon_init first devices) = Ok d0 -> In (ORestart false) (m_ready (dm_main d0)) ->
  daemon_run f sf pow10 re named evs1 d0 = Ok d1 -> (queued d0 <= handlers evs1)%nat ->
  daemon_run f sf pow10 re named evs2 d1 = Ok d2 ->
  daemon_run f sf pow10 re named (DMove VRetry :: evs3) d2 = Ok d3 -> (queued d2 < handlers evs3)%nat ->
  ended (dm_reload d3) \/ reread_since (dm_reload d0) (dm_reload d3).
Proof. exact C97_lemma. Qed.
Print Assumptions C97_reload_is_served.

(** SIGHUP while a zone runs: the first attempt stops the loop, the second reloads. *)
Definition count_stops (d : daemon) : nat := List.length (filter (fun e => match e with MStopped => true | _ => false end) (history (dm_main d))).
Example C97_example :
  let d0 := dl_after dl_pending in let d1 := dl_after (dl_pending ++ [run_one; run_one]) in
  let d3 := dl_after ((dl_pending ++ [run_one; run_one]) ++ [DMove VRetry; run_one]) in
  dl_run dl_pending = Ok d0 /\ In (ORestart false) (m_ready (dm_main d0)) /\
  daemon_run ex_flags ex_sf ex_pow dx_regex "" [run_one; run_one] d0 = Ok d1 /\ queued d0 = 1%nat /\ count_stops d1 = 1%nat /\
  daemon_run ex_flags ex_sf ex_pow dx_regex "" [DMove VRetry; run_one] d1 = Ok d3 /\ queued d1 = 0%nat /\ count_stops d3 = 2%nat /\
  m_stopped (dm_main d3) = false.
Proof.
  intros d0 d1 d3.
  assert (H0 : dl_run dl_pending = Ok d0) by (apply get_ok_eq; vm_compute; reflexivity).
  assert (H1 : dl_run (dl_pending ++ [run_one; run_one]) = Ok d1) by (apply get_ok_eq; vm_compute; reflexivity).
  assert (H3 : dl_run ((dl_pending ++ [run_one; run_one]) ++ [DMove VRetry; run_one]) = Ok d3) by (apply get_ok_eq; vm_compute; reflexivity).
  split; [exact H0|]. split. { assert (X : next_is (ORestart false) d0) by (apply due_iff; vm_compute; reflexivity). destruct X as (r & X). rewrite X. left. reflexivity. }
  split; [exact (dl_part _ _ _ _ _ H0 eq_refl H1)|]. split; [vm_compute; reflexivity|]. split; [vm_compute; reflexivity|].
  split; [exact (dl_part _ _ _ _ _ H1 eq_refl H3)|]. split; [vm_compute; reflexivity|]. split; vm_compute; reflexivity.
Qed.
